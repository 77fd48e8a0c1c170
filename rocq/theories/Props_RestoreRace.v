(** C136: restorations that run at the same time into one destination *)
Require Import String NArith PeanoNat Bool List Lia.
From Verif Require Import PyBase PyFacts Tsv Fs FsFacts HeadBag HeadBagProofs3 BagIt BagItProofs Split SplitApply SplitApplyProofs SplitApplyProofs2 SplitApplyProofs8 Props_SplitApply Restore RestoreProofs RestoreProofs2 RestoreProofs3 Props_Restore RestoreRace RestoreRaceProofs.
Import ListNotations.
Open Scope N_scope.

(** ** The steps are those of a restoration *)

(** What a restoration that is alone gives. *)
Definition alone (p : prog) (d : tree) : res tree :=
  match run p d with
  | (d', Ok _) => Ok d'
  | (_, Err e) => Err e
  end.

Lemma alone_reading {A} (f : tree -> res A) k d : alone (reading f k) d = bind (f d) (fun a => alone (k a) d).
Proof. unfold alone, reading. cbn [run]. destruct (f d); reflexivity. Qed.
Lemma alone_writing f k d : alone (writing f k) d = bind (f d) (alone k).
Proof. unfold alone, writing. cbn [run]. destruct (f d); reflexivity. Qed.

Lemma alone_item src i u k d : alone (item_prog src i u k) d = bind (restore_item false src (d, u) i) (fun s => alone (k (snd s)) (fst s)).
Proof.
  destruct i as [dr|dr f|dr f]; cbn [item_prog restore_item]; rewrite alone_reading.
  - destruct (exists_ dr d); reflexivity.
  - cbn [bind andb]. destruct (exists_ (pjoin dr f) d); [reflexivity|]. rewrite alone_writing.
    destruct (replicate_ro CopyDone src d (pjoin dr f)) as [d' [x|e]]; reflexivity.
  - cbn [bind]. destruct (exists_ (pjoin dr f) d) eqn:E; [reflexivity|]. rewrite alone_writing, E. destruct (makedirs (pjoin dr f) d); reflexivity.
Qed.

Lemma alone_items src l : forall u k d, alone (items_prog src l u k) d = bind (foldM (restore_item false src) l (d, u)) (fun s => alone (k (snd s)) (fst s)).
Proof.
  induction l as [|i l IH]; intros u k d; cbn [items_prog foldM]; [reflexivity|]. rewrite alone_item.
  destruct (restore_item false src (d, u) i) as [[d1 u1]|e]; [|reflexivity]. cbn [bind fst snd]. apply IH.
Qed.

Lemma alone_manifests m k : forall d, alone (manifests_prog m k) d = bind (foldM write_manifests m d) (alone k).
Proof.
  induction m as [|ad m IH]; intros d; cbn [manifests_prog foldM]; [reflexivity|]. rewrite alone_writing. unfold write_manifests at 1.
  destruct (write_manifest K_man (fst ad) (filter (fun ph => is_payload (fst ph)) (snd ad)) d) as [d1|e]; [|reflexivity]. cbn [bind]. rewrite alone_writing.
  destruct (write_manifest K_tag (fst ad) (filter (fun ph => negb (is_payload (fst ph))) (snd ad)) d1) as [d2|e]; [|reflexivity]. cbn [bind]. apply IH.
Qed.

Lemma alone_update v es u k d : alone (update_prog v es u k) d = bind (update_manifests v es u d) (alone k).
Proof.
  unfold update_prog, update_manifests. rewrite alone_reading. destruct (open_bag v IoText (e_dest v) d) as [[i des]|e]; [|reflexivity]. cbn [bind].
  destruct (foldM keep_entry des (fold_left (record_updated es) u [])) as [m|e]; [|reflexivity]. cbn [bind]. apply alone_manifests.
Qed.

Lemma alone_from v skip b k d : alone (from_prog v skip b k) d = bind (restore_from v false skip b d) (alone k).
Proof.
  unfold from_prog, restore_from. destruct (streq (rb_loc b) (e_dest v)); [reflexivity|].
  destruct (open_bag v IoText (rb_loc b) (rb_tree b)) as [[i es]|e]; [|reflexivity]. cbn [at_once bind snd]. rewrite alone_items. unfold copy_items.
  destruct (foldM (restore_item false (rb_tree b)) (items_of skip (rb_tree b)) (d, [])) as [[d1 u]|e]; [|reflexivity]. cbn [bind fst snd].
  destruct u as [|x u]; [reflexivity|]. apply alone_update.
Qed.

Lemma alone_members v skip names k : forall d, alone (members_prog v skip names k) d = bind (foldM (restore_member v false skip) names d) (alone k).
Proof.
  induction names as [|n names IH]; intros d; cbn [members_prog foldM]; [reflexivity|]. unfold restore_member at 1. destruct (e_find v n) as [b|]; [|reflexivity].
  rewrite alone_from. destruct (restore_from v false skip b d) as [d1|e]; [|reflexivity]. cbn [bind]. apply IH.
Qed.

Lemma alone_fetch v names k d :
  alone (fetch_prog v names k) d = bind (match names with [] => Ok d | ns => restore_fetch v ns d end) (alone k).
Proof.
  unfold fetch_prog. destruct names as [|n names]; [reflexivity|]. rewrite alone_reading. unfold restore_fetch.
  destruct (foldM (fetch_of v d) (n :: names) []) as [m|e]; [|reflexivity]. cbn [bind]. destruct m as [|x m]; [reflexivity|]. apply alone_writing.
Qed.

Lemma alone_tagmanifests v algs k : forall d,
  alone (tagmanifests_prog v algs k) d = bind (foldM (fun t a => write_file (man_name K_tag a) (tagmanifest v a t) t) algs d) (alone k).
Proof.
  induction algs as [|a algs IH]; intros d; cbn [tagmanifests_prog foldM]; [reflexivity|]. rewrite alone_writing.
  destruct (write_file (man_name K_tag a) (tagmanifest v a d) d) as [d1|e]; [|reflexivity]. cbn [bind]. apply IH.
Qed.

Lemma alone_save v algs i k d : alone (save_prog v algs i k) d = bind (save v algs i d) (alone k).
Proof.
  unfold save_prog, save. rewrite alone_writing. destruct (write_file F_baginfo (info_text i) d) as [d1|e]; [|reflexivity]. cbn [bind]. rewrite alone_tagmanifests.
  destruct (foldM (fun t a => write_file (man_name K_tag a) (tagmanifest v a t) t) algs d1) as [d2|e]; [|reflexivity]. cbn [bind]. rewrite alone_reading.
  destruct (open_bag v Codecs (e_dest v) d2); reflexivity.
Qed.

Lemma alone_finish v us rt bsize d : alone (finish_prog v us rt bsize) d = finish v us rt bsize d.
Proof.
  unfold finish_prog, finish. rewrite alone_reading. destruct (open_bag v Codecs (e_dest v) d) as [[info es]|e]; [|reflexivity]. cbn [bind].
  destruct (algorithms v d) as [algs|e]; [|reflexivity]. cbn [bind fst snd].
  assert (Sz : forall i d, alone (sizes_prog v us bsize algs i) d =
    (if us then let? (sz, n) := calc_oxum d in
                let i := od_set T_OXUM (IStr (dec sz ++ [DOT] ++ dec n)) i in
                let? d := save v algs i d in
                save v algs (od_set T_BagSize (IStr (bsize d)) i) d
     else Ok d)).
  { intros i e. unfold sizes_prog. destruct us; [|reflexivity]. rewrite alone_reading. destruct (calc_oxum e) as [[sz n]|x]; [|reflexivity]. cbn [bind fst snd].
    rewrite alone_save. destruct (save v algs (od_set T_OXUM (IStr (dec sz ++ [DOT] ++ dec n)) i) e) as [e1|x]; [|reflexivity]. cbn [bind]. rewrite alone_reading. cbn [bind].
    rewrite alone_save. destruct (save v algs (od_set T_BagSize (IStr (bsize e1)) (od_set T_OXUM (IStr (dec sz ++ [DOT] ++ dec n)) i)) e1); reflexivity. }
  destruct rt; [|rewrite Sz; reflexivity]. rewrite alone_writing. destruct (rmtree MULTIBAG d) as [d1|e]; [|reflexivity]. cbn [bind]. rewrite alone_save.
  destruct (save v algs (fold_left (fun i k => od_del k i) mb_keys info) d1) as [d2|e]; [|reflexivity]. cbn [bind]. rewrite Sz. reflexivity.
Qed.

(** A process that is alone makes the restoration of C33 to C36. *)
Theorem C136_alone : forall v us rt bsize ro h loc d,
  alone (restore_prog v us rt bsize ro h loc) d = restore v us rt bsize ro h loc d.
Proof.
  intros v us rt bsize ro h loc d. unfold restore_prog, restore, gather. destruct (head_lists ro h) as [[skip ms]|e]; [|reflexivity]. cbn [at_once bind fst snd].
  set (rest := from_prog v skip {| rb_loc := loc; rb_tree := hb_tree h |}
      (members_prog v skip (others h ms) (fetch_prog v (others h ms) (finish_prog v us rt bsize)))).
  assert (R : forall e, alone rest e = bind (bind (restore_from v false skip {| rb_loc := loc; rb_tree := hb_tree h |} e) (foldM (restore_member v false skip) (others h ms)))
    (fun d => bind (match others h ms with [] => Ok d | ns => restore_fetch v ns d end) (finish v us rt bsize))).
  { intros e. unfold rest. rewrite alone_from. destruct (restore_from v false skip {| rb_loc := loc; rb_tree := hb_tree h |} e) as [d1|x]; [|reflexivity]. cbn [bind].
    rewrite alone_members. destruct (foldM (restore_member v false skip) (others h ms) d1) as [d2|x]; [|reflexivity]. cbn [bind]. rewrite alone_fetch.
    destruct (others h ms) as [|n ns]; [apply alone_finish|]. destruct (restore_fetch v (n :: ns) d2) as [d3|x]; [|reflexivity]. apply alone_finish. }
  unfold start_info. destruct (read (sjoin MULTIBAG F_agginfo) (hb_tree h)) as [c|].
  - rewrite alone_writing. destruct (write_file F_baginfo (decode (hb_reader h) c) d) as [d1|e]; [|reflexivity]. cbn [bind]. rewrite R.
    destruct (restore_from v false skip {| rb_loc := loc; rb_tree := hb_tree h |} d1); reflexivity.
  - cbn [bind]. rewrite R. destruct (restore_from v false skip {| rb_loc := loc; rb_tree := hb_tree h |} d); reflexivity.
Qed.
Print Assumptions C136_alone.

(** ** The files *)

(** Process number [i] makes a restoration of this aggregation into this
    destination, with options of its own; or it has nothing to do. *)
Definition restorers (v : env) (h : hb) (loc : pystr) (skip : list pystr) (ms : list minfo) (ps : nat -> prog) : Prop :=
  forall i, (exists e, ps i = Ret (Err e)) \/
    exists us rt bsize ro, head_lists ro h = Ok (skip, ms) /\ ps i = restore_prog v us rt bsize ro h loc.

Section Contend.
  Variables (v : env) (skip : list pystr) (ts : list tree) (d0 : tree).

  Lemma contend_safe sched : forall d ps, inv v skip ts d0 d -> (forall i, exists X, has X d /\ safe v skip ts d0 X (ps i)) ->
    inv v skip ts d0 (fst (contend sched d ps)) /\
    (forall i, exists X, has X (fst (contend sched d ps)) /\ safe v skip ts d0 X (snd (contend sched d ps) i)).
  Proof.
    induction sched as [|i sched IH]; intros d ps I0 S; [split; assumption|]. cbn [contend]. destruct (turn (ps i) d) as [d1 p1] eqn:Et.
    assert (T : inv v skip ts d0 d1 /\ later d d1 /\ exists X, has X d1 /\ safe v skip ts d0 X p1).
    { destruct (S i) as (X & Hx & Sx). unfold turn in Et. destruct Sx as [X r Hr|X f Hf].
      - injection Et as <- <-. split; [exact I0|]. split; [apply later_refl|]. exists X. split; [exact Hx|apply safe_ret; exact Hr].
      - destruct (f d) as [[d2 p2]|e] eqn:Ef; injection Et as <- <-; [apply (Hf d d2 p2 I0 Hx Ef)|]. split; [exact I0|]. split; [apply later_refl|].
        exists X. split; [exact Hx|apply safe_ret; discriminate]. }
    destruct T as (I1 & L & S1). apply IH; [exact I1|]. intros j. unfold set_prog. destruct (Nat.eqb j i); [exact S1|]. destruct (S j) as (X & Hx & Sx).
    exists X. split; [exact (has_later _ _ _ Hx L)|exact Sx].
  Qed.
End Contend.

Lemma first_of_some (ts : list tree) q n : first_of ts q = Some n -> exists t, In t ts /\ od_get q t = Some n.
Proof.
  induction ts as [|t ts IH]; cbn [first_of fold_right]; [discriminate|]. destruct (od_get q t) as [m|] eqn:E.
  - intros H. injection H as ->. exists t. split; [left; reflexivity|exact E].
  - intros H. destruct (IH H) as (t' & I0 & G). exists t'. split; [right; exact I0|exact G].
Qed.

(** Any number of processes restore the same bag into the same destination, in any
    order of their steps. At all moments every path is as it was, or has what one
    restoration puts there, and what was there stays; and when one of them has
    ended without an exception, everything is there. Not so the files of the bag
    that describe the bag, and the multibag directory. *)
Theorem C136_content_partial : forall v h loc skip ms bags sched d ps d' ps',
  plain_algos v -> hb_del h = None -> aggregation v h loc ms bags ->
  Forall (fun b => wf_tree (rb_tree b) /\ rb_loc b <> e_dest v) bags ->
  wf_tree d -> restorers v h loc skip ms ps ->
  contend sched d ps = (d', ps') ->
  wf_tree d' /\
  forall p, ~ bag_file v p -> ~ multibag_path p ->
    (forall n, od_get p d = Some n -> od_get p d' = Some n) /\
    (od_get p d = None -> deleted skip p -> od_get p d' = None) /\
    (od_get p d = None -> ~ deleted skip p ->
       (od_get p d' = None \/ od_get p d' = latest (map rb_tree bags) p) /\
       forall i, ps' i = Ret (Ok tt) -> od_get p d' = latest (map rb_tree bags) p).
Proof.
  intros v h loc skip ms bags sched d ps d' ps' Sv Hd Ha Wb Wd R C.
  destruct (aggregation_others _ _ _ _ _ Ha) as (bs & F & Eb).
  assert (Ts : map rb_tree bags = rev (map rb_tree (head_bag h loc :: bs))) by (rewrite Eb, map_rev; reflexivity).
  set (ts := map rb_tree (head_bag h loc :: bs)) in *.
  assert (Wall : Forall (fun b => wf_tree (rb_tree b) /\ rb_loc b <> e_dest v) (head_bag h loc :: bs)).
  { rewrite Eb in Wb. apply Forall_rev in Wb. rewrite rev_involutive in Wb. exact Wb. }
  assert (Wts : Forall wf_tree ts).
  { unfold ts. apply Forall_forall. intros t It. apply in_map_iff in It. destruct It as (b & <- & Ib). rewrite Forall_forall in Wall. apply Wall. exact Ib. }
  assert (I0 : inv v skip ts d d).
  { split; [exact Wd|]. intros q M. split; [auto|]. intros _. unfold comb. destruct (od_get q d); auto. }
  assert (S : forall i, exists X, has X d /\ safe v skip ts d X (ps i)).
  { intros i. exists (all_of skip []). split; [intros q (_ & t & [] & _)|]. destruct (R i) as [[e ->]|(us & rt & bsize & ro & Hl & ->)]; [apply safe_ret; discriminate|].
    assert (N0 : ~ In [] skip) by (apply head_lists_ok in Hl; eapply skip_nonempty; [exact Hd|apply Hl]).
    unfold restore_prog. rewrite Hl. cbn [at_once fst snd].
    inversion Wall as [|? ? [_ Lh] Wrest]; subst.
    assert (Sr : safe v skip ts d (all_of skip []) (from_prog v skip {| rb_loc := loc; rb_tree := hb_tree h |}
      (members_prog v skip (others h ms) (fetch_prog v (others h ms) (finish_prog v us rt bsize))))).
    { apply (from_safe v skip ts d Sv N0 Wts (all_of skip []) [] (hb_tree h) (map rb_tree bs) loc); [reflexivity|auto|exact Lh|].
      eapply safe_more; [|apply (members_safe v skip ts d Sv N0 Wts (others h ms) [hb_tree h] bs)].
      - intros q (Ng & t & [<-|[]] & G). right. auto.
      - reflexivity.
      - exact F.
      - eapply Forall_impl; [|exact Wrest]. intros b [_ L]. exact L.
      - apply fetch_safe. apply finish_safe. exact Sv. }
    destruct (read (sjoin MULTIBAG F_agginfo) (hb_tree h)) as [c|]; [|exact Sr]. apply safe_writing; [|exact Sr].
    intros e e' I1 _ H. apply (write_right v skip ts d _ _ _ _ (or_intror (or_introl eq_refl)) baginfo_good I1 H). }
  destruct (contend_safe v skip ts d sched d ps I0 S) as [[W' Q] S']. rewrite C in W', Q, S'. cbn [fst snd] in W', Q, S'.
  split; [exact W'|]. intros p Bp Mp. rewrite bag_file_iff in Bp. assert (M : in_multibag p = false) by (destruct (in_multibag p) eqn:E; [|reflexivity]; apply multibag_iff in E; contradiction).
  destruct (Q p M) as [Q1 Q2]. specialize (Q2 Bp). unfold comb in Q2. rewrite deleted_iff. rewrite Ts, latest_first, rev_involutive.
  split; [|split].
  - intros n E. rewrite E in Q2. destruct Q2 as [Q2|Q2]; [|exact Q2]. exfalso. apply Q1; [rewrite E; discriminate|exact Q2].
  - intros E G. rewrite E, G in Q2. tauto.
  - intros E G. rewrite E in Q2. destruct (gone skip p) eqn:Eg; [congruence|]. split; [exact Q2|]. intros i Ei. destruct Q2 as [Q2|Q2]; [|exact Q2].
    destruct (first_of ts p) as [n|] eqn:Ef; [|exact Q2]. exfalso. destruct (first_of_some _ _ _ Ef) as (t & It & Gt).
    destruct (S' i) as (X & Hx & Sx). rewrite Ei in Sx. inversion Sx as [X0 r Hr|]; subst. apply (Hx p); [|exact M|exact Q2]. apply Hr; [reflexivity|]. split; [exact Eg|].
    exists t. split; [exact It|]. rewrite Gt. discriminate.
Qed.
Print Assumptions C136_content_partial.

(** ** The manifests, and exceptions *)

Definition rr_prog : prog := restore_prog ex_env true true (fun _ => U "1 kB") false ex_head (U "/bags/two").
Definition rr_two : nat -> prog := fun i => match i with O => rr_prog | S O => rr_prog | _ => Ret (Err EOS) end.
(** Process 1 makes [k] steps, then process 0 makes its restoration, and then
    process 1 goes on. *)
Definition rr_sched (k : nat) : list nat := (repeat 1 k ++ repeat 0 55 ++ repeat 1 55)%nat.
Definition rr_dest (k : nat) : tree := fst (contend (rr_sched k) [] rr_two).
Definition rr_ends (k i : nat) : prog := snd (contend (rr_sched k) [] rr_two) i.

Lemma rr_restorers : restorers ex_env ex_head (U "/bags/two") ex_skip ex_members rr_two.
Proof.
  destruct C33_case as (_ & _ & Hl & _). intros i. destruct i as [|[|i]]; [right|right|left; exists EOS; reflexivity];
    exists true, true, (fun _ => U "1 kB"), false; split; try exact Hl; reflexivity.
Qed.

(** Two restorations into a new directory, both of which end without an exception;
    but the manifest does not list a file that it lists if they do not run at the
    same time: one looked for the manifest before the other wrote it, and then
    copies that of the head bag over it. *)
Theorem C136_manifest_refuted : exists v h loc skip ms bags sched ps d' ps' d1 a c c1 h1 p,
  plain_algos v /\ hb_del h = None /\ aggregation v h loc ms bags /\
  Forall (fun b => wf_tree (rb_tree b) /\ rb_loc b <> e_dest v) bags /\
  restorers v h loc skip ms ps /\ contend sched [] ps = (d', ps') /\
  ps' 0%nat = Ret (Ok tt) /\ ps' 1%nat = Ret (Ok tt) /\
  alone (ps 0%nat) [] = Ok d1 /\ alone (ps 1%nat) [] = Ok d1 /\
  read p d' = read p d1 /\ read p d' <> None /\
  read (man_name K_man a) d' = Some c /\ read (man_name K_man a) d1 = Some c1 /\
  In (h1, p) (manifest_lines Codecs c1) /\ ~ (exists h2, In (h2, p) (manifest_lines Codecs c)).
Proof.
  exists ex_env, ex_head, (U "/bags/two"), ex_skip, ex_members, ex_aggregate, (rr_sched 6), rr_two, (rr_dest 6), (rr_ends 6), ex_restored, (U "md5"),
    (match read (man_name K_man (U "md5")) (rr_dest 6) with Some c => c | None => [] end),
    (match read (man_name K_man (U "md5")) ex_restored with Some c => c | None => [] end), (U "o3"), (U "data/bb").
  destruct C33_case as (A1 & A2 & A3 & A4 & A5 & A6 & _). split; [exact A1|]. split; [exact A2|]. split; [exact A4|]. split; [exact A5|].
  split; [exact rr_restorers|]. split; [unfold rr_dest, rr_ends; destruct (contend (rr_sched 6) [] rr_two); reflexivity|].
  split; [vm_compute; reflexivity|]. split; [vm_compute; reflexivity|].
  split; [cbn [rr_two]; unfold rr_prog; rewrite C136_alone; exact A6|]. split; [cbn [rr_two]; unfold rr_prog; rewrite C136_alone; exact A6|].
  split; [vm_compute; reflexivity|]. split; [vm_compute; discriminate|]. split; [vm_compute; reflexivity|]. split; [vm_compute; reflexivity|].
  split; [vm_compute; tauto|]. intros [h2 I0].
  assert (X : str_in (U "data/bb") (map snd (manifest_lines Codecs
    (match read (man_name K_man (U "md5")) (rr_dest 6) with Some c => c | None => [] end))) = false) by (vm_compute; reflexivity).
  apply str_in_false in X. apply X. exact (in_map snd _ _ I0).
Qed.
Print Assumptions C136_manifest_refuted.

(** A restoration that would end without an exception raises one because of
    another one: a directory, not found before, was made in between. *)
Theorem C136_exception_refuted : exists v h loc skip ms bags sched ps d' ps' d1,
  plain_algos v /\ hb_del h = None /\ aggregation v h loc ms bags /\
  Forall (fun b => wf_tree (rb_tree b) /\ rb_loc b <> e_dest v) bags /\
  restorers v h loc skip ms ps /\ contend sched [] ps = (d', ps') /\
  alone (ps 1%nat) [] = Ok d1 /\ ps' 0%nat = Ret (Ok tt) /\ ps' 1%nat = Ret (Err EOS).
Proof.
  exists ex_env, ex_head, (U "/bags/two"), ex_skip, ex_members, ex_aggregate, (rr_sched 8), rr_two, (rr_dest 8), (rr_ends 8), ex_restored.
  destruct C33_case as (A1 & A2 & A3 & A4 & A5 & A6 & _). split; [exact A1|]. split; [exact A2|]. split; [exact A4|]. split; [exact A5|].
  split; [exact rr_restorers|]. split; [unfold rr_dest, rr_ends; destruct (contend (rr_sched 8) [] rr_two); reflexivity|].
  split; [cbn [rr_two]; unfold rr_prog; rewrite C136_alone; exact A6|]. split; vm_compute; reflexivity.
Qed.
Print Assumptions C136_exception_refuted.

(** Both restorations have ended, and all files are there; after 13 steps of one
    and 11 of the other some are. *)
Example C136_case :
  restorers ex_env ex_head (U "/bags/two") ex_skip ex_members rr_two /\
  rr_ends 6 0 = Ret (Ok tt) /\ rr_ends 6 1 = Ret (Ok tt) /\
  ~ bag_file ex_env (U "data/bb") /\ ~ multibag_path (U "data/bb") /\ ~ deleted ex_skip (U "data/bb") /\
  read (U "data/bb") (rr_dest 6) = Some (U "bb") /\ read (U "data/a") (rr_dest 6) = Some (U "new") /\
  files (fst (contend (repeat 1 13 ++ repeat 0 11)%nat [] rr_two)) = [U "bagit.txt"; U "bag-info.txt"; U "manifest-md5.txt"; U "data/a"; U "data/c"] /\
  od_get (U "data/old") (rr_dest 6) = None /\ deleted ex_skip (U "data/old").
Proof.
  split; [exact rr_restorers|]. split; [vm_compute; reflexivity|]. split; [vm_compute; reflexivity|].
  split. { rewrite bag_file_iff. intros [(k & a & [<-|[<-|[]]] & _ & E)|[E|E]]; discriminate E. }
  split. { rewrite multibag_iff. vm_compute. discriminate. }
  split. { rewrite deleted_iff. vm_compute. discriminate. }
  split; [vm_compute; reflexivity|]. split; [vm_compute; reflexivity|]. split; [vm_compute; reflexivity|]. split; [vm_compute; reflexivity|].
  rewrite deleted_iff. vm_compute. reflexivity.
Qed.

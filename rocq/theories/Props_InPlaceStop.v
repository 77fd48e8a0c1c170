(** C138: restoring a head bag in place, stopped on the way *)
Require Import String NArith PeanoNat Bool List Lia.
From Verif Require Import PyBase PyFacts Tsv Fs FsFacts HeadBag HeadBagProofs3 Version BagIt BagItProofs Split SplitApply SplitApplyProofs SplitApplyProofs2 SplitApplyProofs8 Props_SplitApply Restore RestoreProofs RestoreProofs2 RestoreProofs3 Props_Restore RestoreRace RestoreRaceProofs Props_RestoreRace InPlaceStop.
Import ListNotations.
Open Scope N_scope.

(** ** The files *)

Lemma after_contend n : forall p d ps, ps O = p ->
  after n p d = (fst (contend (repeat O n) d ps), snd (contend (repeat O n) d ps) O).
Proof.
  induction n as [|n IH]; intros p d ps E; cbn [after repeat contend]; [cbn [fst snd]; rewrite E; reflexivity|].
  rewrite E. destruct (turn p d) as [d1 p1]. apply IH. reflexivity.
Qed.

(** Wherever restoring in place stops: the files and directories of the head bag
    are there as they were, no deleted path appears, and every other path has
    nothing yet or what the restoration puts there. When it has ended without
    an exception, all of it is there. Not so the files that describe the bag,
    and the multibag directory. *)
Theorem C138_kept : forall v us bsize ro h skip ms before n,
  plain_algos v -> hb_del h = None -> head_lists ro h = Ok (skip, ms) ->
  aggregation v h (e_dest v) ms (before ++ [head_bag h (e_dest v)]) ->
  Forall (fun b => wf_tree (rb_tree b) /\ rb_loc b <> e_dest v) before -> wf_tree (hb_tree h) ->
  let (d, rest) := after n (in_place v us bsize ro h) (hb_tree h) in
  wf_tree d /\
  forall p, ~ bag_file v p -> ~ multibag_path p ->
    (forall x, od_get p (hb_tree h) = Some x -> od_get p d = Some x) /\
    (od_get p (hb_tree h) = None -> deleted skip p -> od_get p d = None) /\
    (od_get p (hb_tree h) = None -> ~ deleted skip p ->
       (od_get p d = None \/ od_get p d = latest (map rb_tree before) p) /\
       (rest = Ret (Ok tt) -> od_get p d = latest (map rb_tree before) p)).
Proof.
  intros v us bsize ro h skip ms before n Sv Hd Hl Ha Wb Wh.
  destruct (aggregation_others _ _ _ _ _ Ha) as (bs & F & Eb). cbn [rev] in Eb. apply app_inj_tail in Eb. destruct Eb as [Eb _].
  set (ts := map rb_tree bs).
  assert (Wbs : Forall (fun b => wf_tree (rb_tree b) /\ rb_loc b <> e_dest v) bs).
  { rewrite Eb in Wb. apply Forall_rev in Wb. rewrite rev_involutive in Wb. exact Wb. }
  assert (Wts : Forall wf_tree ts).
  { unfold ts. apply Forall_forall. intros t It. apply in_map_iff in It. destruct It as (b & <- & Ib). rewrite Forall_forall in Wbs. apply Wbs. exact Ib. }
  assert (N0 : ~ In [] skip) by (apply head_lists_ok in Hl; eapply skip_nonempty; [exact Hd|apply Hl]).
  assert (I0 : inv v skip ts (hb_tree h) (hb_tree h)).
  { split; [exact Wh|]. intros q M. split; [auto|]. intros _. unfold comb. destruct (od_get q (hb_tree h)); auto. }
  assert (S0 : safe v skip ts (hb_tree h) (all_of skip []) (in_place v us bsize ro h)).
  { unfold in_place, restore_prog. rewrite Hl. cbn [at_once fst snd].
    assert (Sr : safe v skip ts (hb_tree h) (all_of skip []) (from_prog v skip {| rb_loc := e_dest v; rb_tree := hb_tree h |}
      (members_prog v skip (others h ms) (fetch_prog v (others h ms) (finish_prog v us true bsize))))).
    { unfold from_prog. cbn [rb_loc]. rewrite streq_refl.
      apply (members_safe v skip ts (hb_tree h) Sv N0 Wts (others h ms) [] bs); [reflexivity|exact F| |].
      - eapply Forall_impl; [|exact Wbs]. intros b [_ L]. exact L.
      - apply fetch_safe. apply finish_safe. exact Sv. }
    destruct (read (sjoin MULTIBAG F_agginfo) (hb_tree h)) as [c|]; [|exact Sr]. apply safe_writing; [|exact Sr].
    intros e e' I1 _ H. apply (write_right v skip ts _ _ _ _ _ (or_intror (or_introl eq_refl)) baginfo_good I1 H). }
  rewrite (after_contend n _ (hb_tree h) (fun _ => in_place v us bsize ro h) eq_refl).
  destruct (contend_safe v skip ts (hb_tree h) (repeat O n) (hb_tree h) (fun _ => in_place v us bsize ro h) I0) as [[W' Q] S'].
  { intros i. exists (all_of skip []). split; [intros q (_ & t & [] & _)|exact S0]. }
  set (d := fst (contend (repeat O n) (hb_tree h) (fun _ => in_place v us bsize ro h))) in *. specialize (S' O).
  set (rest := snd (contend (repeat O n) (hb_tree h) (fun _ => in_place v us bsize ro h)) O) in *.
  split; [exact W'|]. intros p Bp Mp. rewrite bag_file_iff in Bp.
  assert (M : in_multibag p = false) by (destruct (in_multibag p) eqn:E; [|reflexivity]; apply multibag_iff in E; contradiction).
  destruct (Q p M) as [Q1 Q2]. specialize (Q2 Bp). unfold comb in Q2. rewrite deleted_iff.
  assert (Ts : latest (map rb_tree before) p = first_of ts p) by (rewrite latest_first, Eb, map_rev, rev_involutive; reflexivity). rewrite Ts.
  split; [|split].
  - intros x E. rewrite E in Q2. destruct Q2 as [Q2|Q2]; [|exact Q2]. exfalso. apply Q1; [rewrite E; discriminate|exact Q2].
  - intros E G. rewrite E, G in Q2. tauto.
  - intros E G. rewrite E in Q2. destruct (gone skip p) eqn:Eg; [congruence|]. split; [exact Q2|]. intros Ei. destruct Q2 as [Q2|Q2]; [|exact Q2].
    destruct (first_of ts p) as [x|] eqn:Ef; [|exact Q2]. exfalso. destruct (first_of_some _ _ _ Ef) as (t & It & Gt).
    destruct S' as (X & Hx & Sx). rewrite Ei in Sx. inversion Sx as [X0 r Hr|]; subst. apply (Hx p); [|exact M|exact Q2]. apply Hr; [reflexivity|]. split; [exact Eg|].
    exists t. split; [exact It|]. rewrite Gt. discriminate.
Qed.
Print Assumptions C138_kept.

(** ** The files that describe the bag *)

Definition kept (q : pystr) : Prop := (forall k a, In k [K_man; K_tag] -> q <> man_name k a) /\ q <> F_fetch.

Section Keep.
  Variable d0 : tree.

  Definition still (d : tree) : Prop := forall q c, kept q -> read q d0 = Some c -> read q d = Some c.
  Definition bared (d : tree) : Prop := od_get MULTIBAG d = None.

  Inductive bare : prog -> Prop :=
  | bare_ret r : bare (Ret r)
  | bare_act f : (forall d d' p, bared d -> f d = Ok (d', p) -> bared d' /\ bare p) -> bare (Act f).
  Inductive keeping : prog -> Prop :=
  | keeping_ret r : keeping (Ret r)
  | keeping_act f : (forall d d' p, still d -> f d = Ok (d', p) -> (still d' /\ keeping p) \/ (bared d' /\ bare p)) -> keeping (Act f).

  Lemma bare_reading {A} (f : tree -> res A) k : (forall a, bare (k a)) -> bare (reading f k).
  Proof. intros H. apply bare_act. intros d d' p B E. apply bind_ok in E. destruct E as (a & _ & E). injection E as <- <-. auto. Qed.
  Lemma bare_writing p f k : p <> MULTIBAG -> (forall t, exists c, f t = write_file p c t) -> bare k -> bare (writing f k).
  Proof.
    intros D H K. apply bare_act. intros d d' q B E. apply bind_ok in E. destruct E as (t & Et & E). injection E as <- <-. split; [|exact K].
    destruct (H d) as [c Ec]. rewrite Ec in Et. apply write_file_ok in Et. subst t. unfold bared. rewrite od_get_set_other; [exact B|congruence].
  Qed.

  Lemma keeping_reading {A} (f : tree -> res A) k : (forall d a, still d -> f d = Ok a -> keeping (k a)) -> keeping (reading f k).
  Proof. intros H. apply keeping_act. intros d d' p B E. apply bind_ok in E. destruct E as (a & Ea & E). injection E as <- <-. left. split; [exact B|]. exact (H d a B Ea). Qed.
  Lemma keeping_writing f k : (forall d d', still d -> f d = Ok d' -> still d') -> keeping k -> keeping (writing f k).
  Proof. intros H K. apply keeping_act. intros d d' p B E. apply bind_ok in E. destruct E as (t & Et & E). injection E as <- <-. left. split; [exact (H d t B Et)|exact K]. Qed.

  Lemma still_write p c d d' : (kept p -> read p d0 = None) -> still d -> write_file p c d = Ok d' -> still d'.
  Proof.
    intros Np B E q x Kq Rq. apply write_file_ok in E. subst d'. rewrite read_set. destruct (streq_reflect q p) as [->|D]; [|apply B; assumption].
    rewrite Np in Rq by exact Kq. discriminate Rq.
  Qed.
  Lemma still_man k a c d d' : In k [K_man; K_tag] -> still d -> write_file (man_name k a) c d = Ok d' -> still d'.
  Proof. intros Ik. apply still_write. intros [H _]. elim (H k a Ik eq_refl). Qed.

  Lemma still_replicate src p d d' u : (kept p -> read p d0 = None) -> still d -> replicate_ro CopyDone src d p = (d', Ok u) -> still d'.
  Proof.
    intros Np B E. unfold replicate_ro in E. destruct (negb (exists_ p src)); [discriminate E|].
    assert (Mk : forall q x, makedirs q d = Ok x -> still x).
    { intros q x H r c Kr Rr. rewrite (makedirs_read _ _ _ _ H). apply B; assumption. }
    destruct (is_dir p src).
    - destruct (is_dir p d); [injection E as <- _; exact B|]. destruct (exists_ p d); [discriminate E|].
      destruct (makedirs p d) as [x|] eqn:H; [|discriminate E]. injection E as <- _. exact (Mk _ _ H).
    - destruct (if exists_ (dirname p) d then Ok d else makedirs (dirname p) d) as [x|] eqn:H; [|discriminate E].
      assert (Bx : still x) by (destruct (exists_ (dirname p) d); [injection H as <-; exact B|exact (Mk _ _ H)]).
      destruct (write_file p match read p src with Some c => c | None => [] end x) as [y|] eqn:W; [|discriminate E].
      injection E as <- _. exact (still_write _ _ _ _ Np Bx W).
  Qed.

  Lemma there p d : still d -> exists_ p d = false -> kept p -> read p d0 = None.
  Proof.
    intros B E Kp. destruct (read p d0) as [c|] eqn:R; [|reflexivity]. pose proof (B p c Kp R) as R'. unfold exists_, is_file in E. unfold read in R'.
    destruct (od_get p d) as [[]|]; discriminate.
  Qed.

  Lemma keeping_item src i u k : (forall u, keeping (k u)) -> keeping (item_prog src i u k).
  Proof.
    intros K. destruct i as [dr|dr f|dr f]; cbn [item_prog]; apply keeping_reading; intros d a B E.
    - apply K.
    - injection E as <-. destruct (exists_ (pjoin dr f) d) eqn:Ex; [apply K|]. apply keeping_writing; [|apply K].
      intros e e' Be H. destruct (replicate_ro CopyDone src e (pjoin dr f)) as [x [t|y]] eqn:R; [|discriminate H]. injection H as <-.
      exact (still_replicate _ _ _ _ _ (there _ _ B Ex) Be R).
    - injection E as <-. destruct (exists_ (pjoin dr f) d) eqn:Ex; [apply K|]. apply keeping_writing; [|apply K].
      intros e e' Be H. destruct (exists_ (pjoin dr f) e); [discriminate H|]. intros r c Kr Rr. rewrite (makedirs_read _ _ _ _ H). apply Be; assumption.
  Qed.
  Lemma keeping_items src l : forall u k, (forall u, keeping (k u)) -> keeping (items_prog src l u k).
  Proof. induction l as [|i l IH]; intros u k K; cbn [items_prog]; [apply K|]. apply keeping_item. intros u'. apply IH. exact K. Qed.

  Lemma still_manifest k a l d d' : In k [K_man; K_tag] -> still d -> write_manifest k a l d = Ok d' -> still d'.
  Proof. intros Ik B H. unfold write_manifest in H. destruct l; [injection H as <-; exact B|]. exact (still_man _ _ _ _ _ Ik B H). Qed.
  Lemma keeping_manifests m k : keeping k -> keeping (manifests_prog m k).
  Proof.
    intros K. induction m as [|ad m IH]; cbn [manifests_prog]; [exact K|].
    apply keeping_writing; [intros d d'; apply still_manifest; left; reflexivity|].
    apply keeping_writing; [intros d d'; apply still_manifest; right; left; reflexivity|]. exact IH.
  Qed.
  Lemma keeping_from v skip b k : keeping k -> keeping (from_prog v skip b k).
  Proof.
    intros K. unfold from_prog. destruct (streq (rb_loc b) (e_dest v)); [exact K|].
    destruct (open_bag v IoText (rb_loc b) (rb_tree b)) as [oe|e]; [|apply keeping_ret]. cbn [at_once].
    apply keeping_items. intros [|x u]; [exact K|]. unfold update_prog. apply keeping_reading. intros d m _ _. apply keeping_manifests. exact K.
  Qed.
  Lemma keeping_members v skip names k : keeping k -> keeping (members_prog v skip names k).
  Proof.
    intros K. induction names as [|n names IH]; cbn [members_prog]; [exact K|]. destruct (e_find v n) as [b|]; [|apply keeping_ret].
    apply keeping_from. exact IH.
  Qed.
  Lemma keeping_fetch v names k : keeping k -> keeping (fetch_prog v names k).
  Proof.
    intros K. unfold fetch_prog. destruct names as [|n names]; [exact K|]. apply keeping_reading. intros _ l _ _. destruct l as [|x l]; [exact K|].
    apply keeping_writing; [|exact K]. intros d d' B H. refine (still_write _ _ _ _ _ B H). intros [_ N0]. elim N0. reflexivity.
  Qed.

  Lemma bare_tagmanifests v algs k : bare k -> bare (tagmanifests_prog v algs k).
  Proof.
    intros K. induction algs as [|a algs IH]; cbn [tagmanifests_prog]; [exact K|].
    apply (bare_writing (man_name K_tag a)); [intros E; discriminate E|intros t; eexists; reflexivity|exact IH].
  Qed.
  Lemma bare_save v algs i k : bare k -> bare (save_prog v algs i k).
  Proof.
    intros K. apply (bare_writing F_baginfo); [intros E; discriminate E|intros t; eexists; reflexivity|].
    apply bare_tagmanifests. apply bare_reading. intros _. exact K.
  Qed.
  Lemma bare_sizes v us bsize algs info : bare (sizes_prog v us bsize algs info).
  Proof.
    unfold sizes_prog. destruct us; [|apply bare_ret]. apply bare_reading. intros sn. apply bare_save. apply bare_reading. intros s. apply bare_save. apply bare_ret.
  Qed.

  Lemma rmtree_bared d d' : rmtree MULTIBAG d = Ok d' -> bared d'.
  Proof.
    unfold rmtree, bared. intros H. destruct (od_get MULTIBAG d) as [[]|]; try discriminate H. injection H as <-. apply od_get_none. intros I0.
    unfold od_keys in I0. apply in_map_iff in I0. destruct I0 as ((k & x) & E & I0). cbn [fst] in E. subst k. apply filter_In in I0. destruct I0 as [_ I0].
    cbn [fst] in I0. rewrite streq_refl in I0. discriminate I0.
  Qed.

  Lemma keeping_finish v us bsize : keeping (finish_prog v us true bsize).
  Proof.
    unfold finish_prog. apply keeping_reading. intros d [info algs] _ _. cbn [fst snd]. apply keeping_act. intros e e' p _ E.
    apply bind_ok in E. destruct E as (t & Et & E). injection E as <- <-. right. split; [exact (rmtree_bared _ _ Et)|].
    apply bare_save. apply bare_sizes.
  Qed.

  Lemma after_bare n : forall p d, bared d -> bare p -> bared (fst (after n p d)).
  Proof.
    induction n as [|n IH]; intros p d B K; cbn [after fst]; [exact B|]. destruct K as [r|f H]; cbn [turn]; [apply IH; [exact B|apply bare_ret]|].
    destruct (f d) as [[d1 p1]|e] eqn:E; [|apply IH; [exact B|apply bare_ret]]. destruct (H _ _ _ B E). apply IH; assumption.
  Qed.
  Lemma after_keeping n : forall p d, still d -> keeping p -> still (fst (after n p d)) \/ bared (fst (after n p d)).
  Proof.
    induction n as [|n IH]; intros p d B K; cbn [after fst]; [left; exact B|]. destruct K as [r|f H]; cbn [turn]; [apply IH; [exact B|apply keeping_ret]|].
    destruct (f d) as [[d1 p1]|e] eqn:E; [|apply IH; [exact B|apply keeping_ret]].
    destruct (H _ _ _ B E) as [[B1 K1]|[B1 K1]]; [apply IH; assumption|right; apply after_bare; assumption].
  Qed.
End Keep.

Lemma still_refl d : still d d.
Proof. intros q c _ R. exact R. Qed.

Lemma kept_multibag f : kept (sjoin MULTIBAG f).
Proof. split; [|intros E; discriminate E]. intros k a [<-|[<-|[]]] E; discriminate E. Qed.
Lemma kept_bagit : kept F_bagit.
Proof. split; [|intros E; discriminate E]. intros k a [<-|[<-|[]]] E; discriminate E. Qed.
Lemma kept_baginfo : kept F_baginfo.
Proof. split; [|intros E; discriminate E]. intros k a [<-|[<-|[]]] E; discriminate E. Qed.

Lemma keeping_rest v us bsize d0 skip ms h :
  keeping d0 (from_prog v skip {| rb_loc := e_dest v; rb_tree := hb_tree h |}
    (members_prog v skip (others h ms) (fetch_prog v (others h ms) (finish_prog v us true bsize)))).
Proof. apply keeping_from. apply keeping_members. apply keeping_fetch. apply keeping_finish. Qed.

(** If the head bag has an aggregation-info.txt, as the head bags that splitting
    makes have, without Multibag-Head-Version: after the first step, and
    wherever it stops afterwards, the bag is not taken for a head bag any more
    or its multibag directory is gone. *)
Theorem C138_no_return : forall v us bsize ro h skip ms c tags n,
  head_lists ro h = Ok (skip, ms) ->
  read (U "bag-info.txt") (hb_tree h) <> None ->
  read (U "multibag/aggregation-info.txt") (hb_tree h) = Some c ->
  load_tags IoText (decode (hb_reader h) c) = Ok tags -> od_has (U "Multibag-Head-Version") tags = false ->
  (1 <= n)%nat ->
  let d := fst (after n (in_place v us bsize ro h) (hb_tree h)) in
  is_headbag v (e_dest v) d <> Ok true \/ od_get MULTIBAG d = None.
Proof.
  intros v us bsize ro h skip ms c tags n Hl Hb Ha Et Hv Ln. destruct n as [|n]; [lia|]. cbn [after]. unfold in_place, restore_prog. rewrite Hl. cbn [at_once fst snd].
  change (sjoin MULTIBAG F_agginfo) with (U "multibag/aggregation-info.txt"). rewrite Ha. cbn [turn writing].
  assert (W : write_file F_baginfo (decode (hb_reader h) c) (hb_tree h) = Ok (od_set F_baginfo (NFile (decode (hb_reader h) c)) (hb_tree h))).
  { unfold write_file. assert (D : is_dir F_baginfo (hb_tree h) = false).
    { unfold is_dir. change F_baginfo with (U "bag-info.txt"). unfold read in Hb. destruct (od_get (U "bag-info.txt") (hb_tree h)) as [[]|]; try reflexivity; elim Hb; reflexivity. }
    rewrite D. reflexivity. }
  rewrite W. cbn [bind]. set (d1 := od_set F_baginfo _ _).
  destruct (after_keeping d1 n _ d1 (still_refl d1) (keeping_rest v us bsize d1 skip ms h)) as [Hs|Hs]; [left|right; exact Hs].
  assert (R : read F_baginfo d1 = Some (decode (hb_reader h) c)) by (unfold d1; rewrite read_set, streq_refl; reflexivity).
  pose proof (Hs _ _ kept_baginfo R) as Rd. intros E. unfold is_headbag in E. apply bind_ok in E. destruct E as ([info es] & Eo & E).
  injection E as E. unfold open_bag in Eo. destruct (read F_bagit _) as [cb|]; [|discriminate Eo]. apply bind_ok in Eo. destruct Eo as ([v97 v1] & _ & Eo).
  rewrite Rd, Et in Eo. cbn [bind] in Eo. apply bind_ok in Eo. destruct Eo as (es' & _ & Eo). injection Eo as <- _. change T_HeadVersion with (U "Multibag-Head-Version") in E. congruence.
Qed.
Print Assumptions C138_no_return.

(** In a bag without multibag directory there is nothing that could be restored. *)
Theorem C138_gone : forall v us bsize ro h d x,
  wf_tree d -> od_get MULTIBAG d = None ->
  hb_tree h = d -> hb_mem h = None -> od_get T_TagDir (hb_info h) = None ->
  restore v us true bsize ro h (e_dest v) d <> Ok x.
Proof.
  intros v us bsize ro h d x W B Et Em Ei H.
  assert (Rn : forall f, ~ In SLASH f -> read (sjoin MULTIBAG f) d = None).
  { intros f Nf. unfold read. destruct (od_get (sjoin MULTIBAG f) d) as [y|] eqn:E; [exfalso|reflexivity].
    assert (Ik : In (sjoin MULTIBAG f) (od_keys d)) by (apply od_get_in in E; unfold od_keys; apply in_map_iff; eexists; split; [|exact E]; reflexivity).
    pose proof (wf_parents d W _ Ik) as P. assert (D : dirname (sjoin MULTIBAG f) = MULTIBAG).
    { unfold sjoin. apply dirname_app. exact Nf. }
    rewrite D in P. unfold is_dir in P. rewrite B in P. discriminate P. }
  assert (Im : iter_member_bags h = Err EMissingFile).
  { unfold iter_member_bags, tag_dir_raw. rewrite Ei. cbn [bind]. rewrite Et. change (U "multibag") with MULTIBAG.
    rewrite Rn; [reflexivity|]. destruct (older_than_03 _); intros I0; vm_compute in I0; intuition discriminate. }
  unfold restore in H. apply bind_ok in H. destruct H as ([sk ms] & Hl & H). unfold gather in H. rewrite Hl in H. cbn [bind] in H.
  assert (Ms : ms = []).
  { unfold head_lists in Hl. apply bind_ok in Hl. destruct Hl as (s & _ & Hl). apply bind_ok in Hl. destruct Hl as (m & Hm & Hl). injection Hl as _ <-.
    unfold member_bags, member_bags_ro in Hm. destruct ro; rewrite Em, Im in Hm; cbn [snd] in Hm; [discriminate Hm|]. injection Hm as <-. reflexivity. }
  subst ms. cbn [others rev map foldM] in H. unfold start_info in H. rewrite Et, Rn in H by (intros I0; vm_compute in I0; intuition discriminate).
  cbn [bind] in H. unfold restore_from in H. cbn [rb_loc] in H. rewrite streq_refl in H. cbn [bind] in H.
  unfold finish in H. apply bind_ok in H. destruct H as ([i e] & _ & H). apply bind_ok in H. destruct H as (al & _ & H).
  unfold rmtree in H. rewrite B in H. discriminate H.
Qed.
Print Assumptions C138_gone.

(** A head bag without aggregation-info.txt can be restored in place again
    after a stop that left the multibag directory: its bag-info.txt and its
    lists are those it had, and if the restoration then ends without an
    exception, the outcome is that of a restoration that was not stopped.
    Not covered: whether it does, and head bags without deleted.txt, which may
    get that of a member bag. *)
Theorem C138_again_partial : forall v us bsize ro name t info r skip ms before n us' bsize' x,
  let h := open_hb name t info r in
  plain_algos v -> od_get T_TagDir info = None ->
  head_lists ro h = Ok (skip, ms) -> ms <> [] ->
  aggregation v h (e_dest v) ms (before ++ [head_bag h (e_dest v)]) ->
  Forall (fun b => wf_tree (rb_tree b) /\ rb_loc b <> e_dest v) before -> wf_tree t ->
  read (U "multibag/deleted.txt") t <> None ->
  read (U "multibag/aggregation-info.txt") t = None ->
  let d := fst (after n (in_place v us bsize ro h) t) in
  od_get MULTIBAG d <> None ->
  let h' := open_hb name d info r in
  (forall c, read (U "bag-info.txt") t = Some c -> read (U "bag-info.txt") d = Some c) /\
  head_lists ro h' = Ok (skip, ms) /\
  (restore v us' true bsize' ro h' (e_dest v) d = Ok x ->
   forall p, ~ bag_file v p -> ~ multibag_path p ->
     (forall y, od_get p t = Some y -> od_get p x = Some y) /\
     (od_get p t = None -> deleted skip p -> od_get p x = None) /\
     (od_get p t = None -> ~ deleted skip p -> od_get p x = latest (map rb_tree before) p)).
Proof.
  intros v us bsize ro name t info r skip ms before n us' bsize' x h Sv Ei Hl Nm Ha Wb Wt Rd Ra d Bd h'.
  assert (K : still t d).
  { unfold d, in_place, restore_prog. rewrite Hl. cbn [at_once fst snd]. change (hb_tree h) with t. change (sjoin MULTIBAG F_agginfo) with (U "multibag/aggregation-info.txt"). rewrite Ra.
    destruct (after_keeping t n _ t (still_refl t) (keeping_rest v us bsize t skip ms h)) as [Hs|Hs]; [exact Hs|].
    elim Bd. unfold d, in_place, restore_prog. rewrite Hl. cbn [at_once fst snd]. change (hb_tree h) with t. change (sjoin MULTIBAG F_agginfo) with (U "multibag/aggregation-info.txt"). rewrite Ra. exact Hs. }
  assert (Hl' : head_lists ro h' = Ok (skip, ms)).
  { rewrite <- Hl. unfold head_lists, deleted_paths, member_bags, member_bags_ro. cbn [h h' open_hb hb_del hb_mem].
    assert (Ed : iter_deleted h' = iter_deleted h).
    { unfold iter_deleted, tag_dir. cbn [h h' open_hb hb_info hb_tree hb_reader]. rewrite Ei. change (sjoin (U "multibag") F_deleted) with (U "multibag/deleted.txt").
      destruct (read (U "multibag/deleted.txt") t) as [c|] eqn:R; [|elim Rd; reflexivity].
      pose proof (K _ _ (kept_multibag F_deleted) R) as R'. change (sjoin MULTIBAG F_deleted) with (U "multibag/deleted.txt") in R'. rewrite R'. reflexivity. }
    assert (Em : iter_member_bags h' = iter_member_bags h).
    { unfold iter_member_bags, tag_dir_raw. cbn [h h' open_hb hb_info hb_tree hb_reader]. rewrite Ei. cbn [bind]. change (U "multibag") with MULTIBAG.
      set (f := if older_than_03 _ then _ else _). destruct (read (sjoin MULTIBAG f) t) as [c|] eqn:R; [rewrite (K _ _ (kept_multibag f) R); reflexivity|].
      exfalso. apply Nm. unfold head_lists in Hl. apply bind_ok in Hl. destruct Hl as (s & _ & Hl). apply bind_ok in Hl. destruct Hl as (m & Hm & Hl). injection Hl as _ <-.
      assert (Im : iter_member_bags h = Err EMissingFile).
      { unfold iter_member_bags, tag_dir_raw. cbn [h open_hb hb_info hb_tree hb_reader]. rewrite Ei. cbn [bind]. change (U "multibag") with MULTIBAG. fold f. rewrite R. reflexivity. }
      unfold member_bags, member_bags_ro in Hm. destruct ro; cbn [h open_hb hb_mem] in Hm; fold (open_hb name t info r) in Hm; fold h in Hm; rewrite Im in Hm; cbn [snd] in Hm; [discriminate Hm|]. injection Hm as <-. reflexivity. }
    fold h'. fold h. rewrite Ed. destruct ro; cbv beta; cbn [h h' open_hb hb_mem]; fold (open_hb name d info r); fold (open_hb name t info r); fold h'; fold h; rewrite Em;
      destruct (iter_deleted h); destruct (iter_member_bags h) as [l|[]]; reflexivity. }
  split; [|split; [exact Hl'|]].
  - intros c R. apply (K _ _ kept_baginfo R).
  - intros H p Bp Mp.
    pose proof (C138_kept v us bsize ro h skip ms before n Sv eq_refl Hl Ha Wb Wt) as C. change (hb_tree h) with t in C.
    assert (Ea : d = fst (after n (in_place v us bsize ro h) t)) by reflexivity. clearbody d. destruct (after n (in_place v us bsize ro h) t) as [d1 rest]. cbn [fst] in Ea. subst d1. destruct C as [Wd C].
    destruct (C p Bp Mp) as (C1 & C2 & C3).
    assert (Ha' : aggregation v h' (e_dest v) ms (before ++ [head_bag h' (e_dest v)])).
    { destruct Ha as (names & bf & Hn & F & E). apply app_inj_tail in E. destruct E as [<- _]. exists names, before. split; [exact Hn|]. split; [exact F|reflexivity]. }
    assert (Wb' : Forall (fun b => wf_tree (rb_tree b)) (before ++ [head_bag h' (e_dest v)])).
    { apply Forall_app. split; [eapply Forall_impl; [|exact Wb]; intros b [? _]; assumption|]. constructor; [exact Wd|constructor]. }
    pose proof (restored_nodes v us' true bsize' ro h' (e_dest v) skip ms _ d x Sv eq_refl Hl' Ha' Wb' Wd H p Bp (fun _ => Mp)) as Q.
    assert (Lt : latest (map (contrib v) (before ++ [head_bag h' (e_dest v)])) p = latest (map rb_tree before) p).
    { rewrite map_app, (contrib_away v before) by (eapply Forall_impl; [|exact Wb]; intros b [_ ?]; assumption).
      rewrite !latest_first, rev_app_distr. cbn [map rev app]. unfold contrib at 1, head_bag. cbn [rb_loc]. rewrite streq_refl. reflexivity. }
    rewrite Lt in Q. rewrite deleted_iff in *. split; [|split].
    + intros y E. rewrite (C1 _ E) in Q. exact Q.
    + intros E G. rewrite (C2 E G), G in Q. exact Q.
    + intros E G. destruct (C3 E G) as [[C4|C4] _].
      * rewrite C4 in Q. destruct (gone skip p); [congruence|exact Q].
      * rewrite C4 in Q. destruct (latest (map rb_tree before) p); [exact Q|]. destruct (gone skip p); exact Q.
Qed.
Print Assumptions C138_again_partial.

(** ** A head bag that cannot be restored again *)

Definition ex_v138 : env := ex_env_at (U "/bags/two").
Definition ex_t138 : tree := ex_two ++ [(U "multibag/aggregation-info.txt", NFile (txt [U "Contact-Name: C"]))].
Definition ex_h138 (t : tree) : hb := open_hb (U "two") t (got [] (load_tags Codecs ex_info2)) Codecs.
Definition ex_ms138 : list minfo := match head_lists false (ex_h138 ex_t138) with Ok (_, ms) => ms | Err _ => [] end.
Definition ex_before138 : list rbag := [{| rb_loc := U "/bags/one"; rb_tree := ex_one |}].
Definition ex_steps138 (t : tree) (n : nat) : tree * prog := after n (in_place ex_v138 true (fun _ => U "1 kB") false (ex_h138 t)) t.

(** Restoring in place would succeed, but stopped after its first step it
    leaves a bag without the files of the members, which is refused as not
    being a head bag. *)
Theorem C138_refuted : exists v bsize h skip ms before x p y,
  plain_algos v /\ hb_del h = None /\ head_lists false h = Ok (skip, ms) /\
  aggregation v h (e_dest v) ms (before ++ [head_bag h (e_dest v)]) /\
  Forall (fun b => wf_tree (rb_tree b) /\ rb_loc b <> e_dest v) before /\ wf_tree (hb_tree h) /\
  is_headbag v (e_dest v) (hb_tree h) = Ok true /\
  restore v true true bsize false h (e_dest v) (hb_tree h) = Ok x /\
  ~ bag_file v p /\ ~ multibag_path p /\ od_get p x = Some y /\
  let d := fst (after 1 (in_place v true bsize false h) (hb_tree h)) in
  od_get p d = None /\ is_headbag v (e_dest v) d = Ok false.
Proof.
  exists ex_v138, (fun _ => U "1 kB"), (ex_h138 ex_t138), ex_skip, ex_ms138, ex_before138,
    (got [] (restore ex_v138 true true (fun _ => U "1 kB") false (ex_h138 ex_t138) (U "/bags/two") ex_t138)), (U "data/bb"), (NFile (U "bb")).
  split; [intros a [<-|[<-|[]]]; cbn; intuition discriminate|]. split; [reflexivity|]. split; [vm_compute; reflexivity|].
  split; [exists [U "one"], ex_before138; split; [left; vm_compute; reflexivity|split; [constructor; [reflexivity|constructor]|reflexivity]]|].
  split; [constructor; [|constructor]; split; [apply wf_treeb_ok; vm_compute; reflexivity|discriminate]|].
  split; [apply wf_treeb_ok; vm_compute; reflexivity|]. split; [vm_compute; reflexivity|]. split; [vm_compute; reflexivity|].
  split; [intros [E|[E|(a & [<-|[<-|[]]] & [E|E])]]; discriminate E|].
  split; [intros [E|[r E]]; discriminate E|].
  split; [vm_compute; reflexivity|]. split; vm_compute; reflexivity.
Qed.
Print Assumptions C138_refuted.

(** The same head bag with and without aggregation-info.txt. *)
Example C138_case :
  read (U "bag-info.txt") ex_t138 <> None /\ read (U "multibag/deleted.txt") ex_two <> None /\ read (U "multibag/aggregation-info.txt") ex_two = None /\
  od_get T_TagDir (hb_info (ex_h138 ex_two)) = None /\
  head_lists false (ex_h138 ex_two) = Ok (ex_skip, ex_ms138) /\ ex_ms138 <> [] /\ wf_tree ex_two /\
  aggregation ex_v138 (ex_h138 ex_two) (U "/bags/two") ex_ms138 (ex_before138 ++ [head_bag (ex_h138 ex_two) (U "/bags/two")]) /\
  (exists tags, load_tags IoText (decode Codecs (txt [U "Contact-Name: C"])) = Ok tags /\ od_has (U "Multibag-Head-Version") tags = false) /\
  files (fst (ex_steps138 ex_two 12)) <> files ex_two /\ od_get MULTIBAG (fst (ex_steps138 ex_two 12)) <> None /\
  is_headbag ex_v138 (U "/bags/two") (fst (ex_steps138 ex_two 12)) = Ok true /\
  is_ok (restore ex_v138 true true (fun _ => U "1 kB") false (ex_h138 (fst (ex_steps138 ex_two 12))) (U "/bags/two") (fst (ex_steps138 ex_two 12))) = true /\
  od_get MULTIBAG (fst (ex_steps138 ex_t138 60)) = None /\
  (exists r, snd (ex_steps138 ex_t138 60) = Ret r /\ r = Ok tt).
Proof.
  split; [discriminate|]. split; [discriminate|]. split; [reflexivity|]. split; [vm_compute; reflexivity|]. split; [vm_compute; reflexivity|]. split; [vm_compute; discriminate|].
  split; [apply wf_treeb_ok; vm_compute; reflexivity|].
  split; [exists [U "one"], ex_before138; split; [left; vm_compute; reflexivity|split; [constructor; [reflexivity|constructor]|reflexivity]]|].
  split; [eexists; split; vm_compute; reflexivity|]. split; [vm_compute; discriminate|]. split; [vm_compute; discriminate|].
  split; [vm_compute; reflexivity|]. split; [vm_compute; reflexivity|]. split; [vm_compute; reflexivity|]. eexists. split; [vm_compute; reflexivity|reflexivity].
Qed.

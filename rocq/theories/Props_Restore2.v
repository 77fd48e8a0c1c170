(** * Properties of the tag files of restored bags (C37 to C40) *)

Require Import String NArith PeanoNat Bool List Lia.
From Verif Require Import PyBase PyFacts Tsv TsvProofs Fs FsFacts HeadBag HeadBagProofs3 BagIt BagItProofs Props_BagIt Split SplitApply SplitApplyProofs SplitApplyProofs2 SplitApplyProofs5 SplitApplyProofs8 Props_SplitApply Restore RestoreProofs RestoreProofs2 RestoreProofs3 Props_Restore RestoreProofs4 RestoreProofs5.
Import ListNotations.
Open Scope N_scope.

(** ** C37: checksums *)

(** The payload manifest for [a] in the bag [t] has the checksum [h] for the
    path [p]. *)
Definition records (t : tree) (a p h : pystr) : Prop :=
  exists text, read (U "manifest-" ++ a ++ U ".txt") t = Some text /\ lists IoText [(a, text)] a h p.

(** ... and likewise for the tag manifests. *)
Definition tag_records (t : tree) (a p h : pystr) : Prop :=
  exists text, read (U "tagmanifest-" ++ a ++ U ".txt") t = Some text /\ lists IoText [(a, text)] a h p.

(** Entries of manifests that are written as they are read. *)
Definition plain_line (h p : pystr) : Prop := manifest_hash h /\ hd 0 h <> BOM /\ manifest_path IoText p.

Definition payload (p : pystr) : Prop := exists rest, p = U "data/" ++ rest.

(** Payload manifests list payload files, tag manifests other files. *)
Definition plain_manifests (v : env) (t : tree) : Prop :=
  forall a p h, In a (e_algos v) ->
    (records t a p h -> plain_line h p /\ payload p) /\
    (tag_records t a p h -> plain_line h p /\ ~ payload p).

Lemma payload_iff p : payload p <-> is_payload p = true.
Proof. unfold payload, is_payload. rewrite startswith_iff. reflexivity. Qed.

Lemma entry_lists k t a p h :
  (exists text, read (man_name k a) t = Some text /\ lists IoText [(a, text)] a h p) <-> entry_in IoText k t a p h.
Proof.
  unfold entry_in. split; intros (c & R & L); exists c; (split; [exact R|]).
  - apply lists_iff, listing_iff in L. destruct L as (text & line & [E|[]] & J & M). inversion E; subst.
    unfold manifest_lines. apply in_filter_some. rewrite <- M. apply in_map. auto.
  - apply lists_iff, listing_iff. unfold manifest_lines in L. apply (proj1 (in_filter_some _ _)) in L. apply in_map_iff in L.
    destruct L as (line & M & J). exists c, line. split; [left; auto|]. auto.
Qed.

Lemma records_iff t a p h : records t a p h <-> entry_in IoText K_man t a p h.
Proof. apply (entry_lists K_man). Qed.
Lemma tag_records_iff t a p h : tag_records t a p h <-> entry_in IoText K_tag t a p h.
Proof. apply (entry_lists K_tag). Qed.

Lemma plain_manifests_lists v t : plain_manifests v t -> plain_lists v t.
Proof.
  intros P pay a p h Ia E. destruct (P a p h Ia) as [P1 P2]. destruct pay; cbn [kind_of] in E.
  - apply records_iff in E. destruct (P1 E) as ((A & B & C) & D). apply payload_iff in D. split; auto.
  - apply tag_records_iff in E. destruct (P2 E) as ((A & B & C) & D). rewrite payload_iff in D. split; auto. split; auto. split; auto.
    destruct (is_payload p); [tauto|auto].
Qed.

Lemma entry_dec k t a p : (forall c, ~ entry_in IoText k t a p c) \/ exists c, entry_in IoText k t a p c.
Proof.
  destruct (read (man_name k a) t) as [text|] eqn:Rd.
  - destruct (find (fun hp => streq (snd hp) p) (manifest_lines IoText (skip_bom text))) as [[c1 p1]|] eqn:Fd.
    + right. apply find_some in Fd. destruct Fd as [I Q]. apply streq_eq in Q. cbn [snd] in Q. subst p1. exists c1, text. auto.
    + left. intros c1 (text' & Rd' & I). rewrite Rd in Rd'. inversion Rd'; subst.
      apply (find_none _ _ Fd) in I. cbn [snd] in I. rewrite streq_refl in I. discriminate.
  - left. intros c1 (text' & Rd' & _). congruence.
Qed.

(** The restored manifests have, for a restored file, the checksums that the
    bag it was restored from has; paths that were not restored are listed if
    the head bag lists them. Missing for C37: members with payload manifests
    for other algorithms than the head bag (see [C37_refuted]), and files
    that are only listed in the manifests of other bags. *)
Theorem C37_checksums_partial : forall v us rt bsize ro h loc skip ms bags dest',
  plain_algos v -> hb_del h = None ->
  head_lists ro h = Ok (skip, ms) -> aggregation v h loc ms bags ->
  Forall (fun b => wf_tree (rb_tree b) /\ rb_loc b <> e_dest v /\ plain_manifests v (rb_tree b)) bags ->
  (forall a, In a (e_algos v) -> ~ deleted skip (U "manifest-" ++ a ++ U ".txt")) ->
  (forall b a, In b bags -> In a (e_algos v) -> is_file (U "manifest-" ++ a ++ U ".txt") (rb_tree b) = true ->
     is_file (U "manifest-" ++ a ++ U ".txt") (hb_tree h) = true) ->
  restore v us rt bsize ro h loc [] = Ok dest' ->
  forall a p, In a (e_algos v) -> payload p ->
    (forall before b after, bags = before ++ b :: after -> is_file p (rb_tree b) = true ->
       Forall (fun b => od_get p (rb_tree b) = None) after -> ~ deleted skip p ->
       (exists c, records (rb_tree b) a p c) \/ (forall c, ~ records (hb_tree h) a p c) ->
       forall c, records dest' a p c <-> records (rb_tree b) a p c) /\
    (deleted skip p \/ Forall (fun b => is_file p (rb_tree b) = false) bags ->
       forall c, records dest' a p c <-> records (hb_tree h) a p c).
Proof.
  intros v us rt bsize ro h loc skip ms bags dest' S Hd Hl Ha Fb Ng Cv H a p Ia Py.
  destruct (aggregation_others _ _ _ _ _ Ha) as (bs & F2 & ->).
  assert (N0 : ~ In [] skip) by (apply head_lists_ok in Hl; eapply skip_nonempty; [exact Hd|apply Hl]).
  apply Forall_rev in Fb. rewrite rev_involutive in Fb.
  assert (Fb' : Forall (fun b => wf_tree (rb_tree b) /\ rb_loc b <> e_dest v /\ plain_lists v (rb_tree b)) (head_bag h loc :: bs)).
  { eapply Forall_impl; [|exact Fb]. intros b (A & B & C). split; auto. split; auto. apply plain_manifests_lists; auto. }
  assert (Ng' : forall a, In a (e_algos v) -> gone skip (man_name K_man a) = false).
  { intros x Ix. specialize (Ng x Ix). rewrite deleted_iff in Ng. change (U "manifest-" ++ x ++ U ".txt") with (man_name K_man x) in Ng.
    destruct (gone skip (man_name K_man x)); [exfalso; apply Ng; reflexivity|reflexivity]. }
  assert (Cv' : forall b a, In b bs -> In a (e_algos v) -> is_file (man_name K_man a) (rb_tree b) = true -> is_file (man_name K_man a) (hb_tree h) = true).
  { intros b x Ib Ix Fx. apply (Cv b x); auto. apply -> in_rev. right; auto. }
  destruct (restore_entries v us rt bsize ro h loc skip ms bs dest' S N0 Hl F2 Fb' Ng' Cv' H) as (G & G' & EG & E' & R).
  apply payload_iff in Py. destruct (R p Py) as [R1 R2]. setoid_rewrite records_iff. setoid_rewrite (E' a p _ Ia Py).
  split.
  - intros before b after E Fp Fa Nd Hb c.
    assert (Gn : gone skip p = false) by (rewrite deleted_iff in Nd; destruct (gone skip p); [exfalso; apply Nd|]; reflexivity).
    assert (E2 : head_bag h loc :: bs = rev after ++ b :: rev before).
    { rewrite <- (rev_involutive (head_bag h loc :: bs)), E, rev_app_distr. cbn [rev]. rewrite <- app_assoc. reflexivity. }
    apply Forall_rev in Fa. destruct (rev after) as [|hb0 af]; cbn [app] in E2; inversion E2; subst.
    + cbn [head_bag rb_tree] in *. rewrite R1; [apply EG; auto| |auto].
      left. intros X. unfold is_file in Fp. rewrite X in Fp. discriminate.
    + inversion Fa as [|? ? Nh Fa']; subst. cbn [head_bag rb_tree] in Nh.
      destruct (R2 af b (rev before) eq_refl Fa' Fp Nh Gn a Ia) as [R3 R4]. split; [|apply R3].
      intros E3. destruct (entry_dec K_man (rb_tree b) a p) as [D|[c1 D]].
      * rewrite (R4 D) in E3. exfalso. destruct Hb as [[c' Hb]|Hb]; [eapply D; eauto|]. apply EG in E3; auto. eapply Hb; eauto.
      * rewrite (R3 c1 D) in E3. inversion E3; subst. auto.
  - intros Hp c. rewrite R1; [apply EG; auto| |auto]. rewrite deleted_iff in Hp. destruct Hp as [Hp|Hp]; auto.
    apply Forall_rev in Hp. rewrite rev_involutive in Hp. inversion Hp. auto.
Qed.
Print Assumptions C37_checksums_partial.

(** A check for [plain_manifests]. *)
Definition plain_lineb (hp : pystr * pystr) : bool :=
  match fst hp with [] => false | c :: _ => negb (c =? BOM) end &&
  forallb (fun c => negb (is_ws c)) (fst hp) && negb (startswith (fst hp) [HASH]) &&
  trimmedb (snd hp) && forallb (fun c => negb (is_brk IoText c)) (snd hp) && negb (startswith (snd hp) [STAR]) &&
  good_pathb (snd hp) && negb (substr_in (U "%0D") (snd hp)) && negb (substr_in (U "%0A") (snd hp)).
Definition plain_manifestsb (algs : list pystr) (t : tree) : bool :=
  forallb (fun a => forallb (fun pay =>
    match read (man_name (kind_of pay) a) t with
    | None => true
    | Some c => forallb (fun hp => plain_lineb hp && Bool.eqb (is_payload (snd hp)) pay) (manifest_lines IoText (skip_bom c))
    end) [true; false]) algs.

Lemma plain_lineb_ok h p : plain_lineb (h, p) = true -> plain_line h p.
Proof.
  unfold plain_lineb. cbn [fst snd]. rewrite !andb_true_iff, !negb_true_iff.
  intros ((((((((H1 & H2) & H3) & H4) & H5) & H6) & H7) & H8) & H9).
  split; [|split].
  - constructor; auto.
    + intros ->. discriminate.
    + apply Forall_forall. intros c I. rewrite forallb_forall in H2. apply H2 in I. apply negb_true_iff in I. auto.
  - destruct h as [|c h]; [discriminate|]. cbn [hd]. apply negb_true_iff in H1. apply N.eqb_neq. auto.
  - constructor; auto; [apply trimmedb_ok; auto|apply no_brk_b; auto|apply good_pathb_ok; auto].
Qed.

Lemma plain_manifestsb_ok v t : plain_manifestsb (e_algos v) t = true -> plain_manifests v t.
Proof.
  intros H a p h Ia. unfold plain_manifestsb in H. rewrite forallb_forall in H. specialize (H a Ia). rewrite forallb_forall in H.
  assert (X : forall pay, entry_in IoText (kind_of pay) t a p h -> plain_line h p /\ is_payload p = pay).
  { intros pay (c & R & I). specialize (H pay). rewrite R in H. rewrite forallb_forall in H.
    specialize (H (match pay with true => or_introl eq_refl | false => or_intror (or_introl eq_refl) end) _ I).
    apply andb_true_iff in H. destruct H as [H1 H2]. apply eqb_prop in H2. cbn [snd] in H2. split; auto. apply plain_lineb_ok; auto. }
  split; intros E.
  - apply records_iff in E. destruct (X true E). rewrite payload_iff. auto.
  - apply tag_records_iff in E. destruct (X false E). rewrite payload_iff. split; auto. congruence.
Qed.

Definition sums_of (t : tree) (a : pystr) : list (pystr * pystr) :=
  match read (man_name K_man a) t with Some c => manifest_lines IoText (skip_bom c) | None => [] end.

Lemma sums_records t a p h : In (h, p) (sums_of t a) <-> records t a p h.
Proof.
  rewrite records_iff. unfold sums_of, entry_in. destruct (read (man_name K_man a) t) as [c|].
  - split; [intros I; exists c; auto|intros (c' & E & I); inversion E; subst; auto].
  - split; [intros []|intros (c' & E & _); discriminate].
Qed.

Example C37_case :
  Forall (fun b => wf_tree (rb_tree b) /\ rb_loc b <> e_dest ex_env /\ plain_manifests ex_env (rb_tree b)) ex_aggregate /\
  (forall a, In a (e_algos ex_env) -> ~ deleted ex_skip (U "manifest-" ++ a ++ U ".txt")) /\
  (forall b a, In b ex_aggregate -> In a (e_algos ex_env) -> is_file (U "manifest-" ++ a ++ U ".txt") (rb_tree b) = true ->
     is_file (U "manifest-" ++ a ++ U ".txt") (hb_tree ex_head) = true) /\
  sums_of ex_restored (U "md5") = [(U "o3", U "data/bb"); (U "o5", U "data/oldx"); (U "t1", U "data/a"); (U "t2", U "data/c")].
Proof.
  split; [|split; [|split]].
  - constructor; [|constructor; [|constructor]];
      (split; [apply wf_treeb_ok; vm_compute; reflexivity|split; [discriminate|apply plain_manifestsb_ok; vm_compute; reflexivity]]).
  - intros a [<-|[<-|[]]]; rewrite deleted_iff; vm_compute; congruence.
  - intros b a [<-|[<-|[]]] [<-|[<-|[]]]; vm_compute; congruence.
  - vm_compute. reflexivity.
Qed.

(** A head bag with sha256 checksums replaces a file of a member with md5
    checksums: the restored bag has the new file and the md5 checksum of the
    old one. *)
Definition ex_old : tree :=
  [(U "bagit.txt", NFile ex_bagit);
   (U "bag-info.txt", NFile (txt [U "Multibag-Version: 0.4"]));
   (U "manifest-md5.txt", NFile (txt [U "o1  data/a"]));
   (U "data", NDir); (U "data/a", NFile (U "old"))].
Definition ex_new : tree :=
  [(U "bagit.txt", NFile ex_bagit);
   (U "bag-info.txt", NFile ex_info2);
   (U "manifest-sha256.txt", NFile (txt [U "t1  data/a"]));
   (U "data", NDir); (U "data/a", NFile (U "new"));
   (U "multibag", NDir);
   (U "multibag/member-bags.tsv", NFile (txt [U "one"; U "two"]))].
Definition ex_env3 : env :=
  {| e_algos := [U "md5"; U "sha256"]; e_version := fun _ => Ok (true, true); e_danger := fun _ _ => false;
     e_hash := fun a c => a ++ dec (N.of_nat (length c)); e_dest := U "/out";
     e_find := fun n => if streq n (U "one") then Some {| rb_loc := U "/bags/one"; rb_tree := ex_old |}
                        else None |}.
Definition ex_head3 : hb := open_hb (U "two") ex_new (got [] (load_tags Codecs ex_info2)) Codecs.
Definition ex_bags3 : list rbag :=
  [{| rb_loc := U "/bags/one"; rb_tree := ex_old |}; {| rb_loc := U "/bags/two"; rb_tree := ex_new |}].
Definition ex_restored3 : tree :=
  got [] (restore ex_env3 true true (fun _ => U "1 kB") false ex_head3 (U "/bags/two") []).

Theorem C37_refuted : exists v h loc skip ms before b dest' a p c,
  plain_algos v /\ hb_del h = None /\ head_lists false h = Ok (skip, ms) /\ aggregation v h loc ms (before ++ [b]) /\
  Forall (fun b => wf_tree (rb_tree b) /\ rb_loc b <> e_dest v /\ plain_manifests v (rb_tree b)) (before ++ [b]) /\
  restore v true true (fun _ => U "1 kB") false h loc [] = Ok dest' /\
  payload p /\ ~ deleted skip p /\ is_file p (rb_tree b) = true /\ read p dest' = read p (rb_tree b) /\
  records dest' a p c /\ (forall c', ~ records (rb_tree b) a p c').
Proof.
  exists ex_env3, ex_head3, (U "/bags/two"), [], (match head_lists false ex_head3 with Ok (_, ms) => ms | Err _ => [] end),
    [{| rb_loc := U "/bags/one"; rb_tree := ex_old |}], {| rb_loc := U "/bags/two"; rb_tree := ex_new |},
    ex_restored3, (U "md5"), (U "data/a"), (U "o1").
  split; [intros a [<-|[<-|[]]]; cbn; intuition discriminate|]. split; [reflexivity|]. split; [vm_compute; reflexivity|].
  split.
  { exists [U "one"], [{| rb_loc := U "/bags/one"; rb_tree := ex_old |}]. split; [left; vm_compute; reflexivity|].
    split; [constructor; [reflexivity|constructor]|reflexivity]. }
  split; [constructor; [|constructor; [|constructor]];
      (split; [apply wf_treeb_ok; vm_compute; reflexivity|split; [discriminate|apply plain_manifestsb_ok; vm_compute; reflexivity]])|].
  split; [vm_compute; reflexivity|]. split; [exists (U "a"); reflexivity|]. split; [intros (s & [] & _)|].
  split; [reflexivity|]. split; [vm_compute; reflexivity|].
  split; [apply sums_records|intros c'; rewrite <- sums_records].
  - assert (E : sums_of ex_restored3 (U "md5") = [(U "o1", U "data/a")]) by (vm_compute; reflexivity). rewrite E. left; reflexivity.
  - cbn [rb_tree]. assert (E : sums_of ex_new (U "md5") = []) by (vm_compute; reflexivity). rewrite E. intros [].
Qed.
Print Assumptions C37_refuted.

(** ** C38: different algorithms *)

(** A head bag with a file that the member does not have, a member with a
    file that the head bag does not have, and different algorithms make the
    restoration fail. *)
Definition ex_old4 : tree := ex_old ++ [(U "data/b", NFile (U "b"))].
Definition ex_old4m : tree := od_set (U "manifest-md5.txt") (NFile (txt [U "o1  data/a"; U "o2  data/b"])) ex_old4.
Definition ex_new4 : tree :=
  od_set (U "manifest-sha256.txt") (NFile (txt [U "t1  data/a"; U "t2  data/c"])) (ex_new ++ [(U "data/c", NFile (U "c"))]).
Definition ex_head4 : hb := open_hb (U "two") ex_new4 (got [] (load_tags Codecs ex_info2)) Codecs.
Definition ex_env4 : env :=
  {| e_algos := [U "md5"; U "sha256"]; e_version := fun _ => Ok (true, true); e_danger := fun _ _ => false;
     e_hash := fun a c => a ++ dec (N.of_nat (length c)); e_dest := U "/out";
     e_find := fun n => if streq n (U "one") then Some {| rb_loc := U "/bags/one"; rb_tree := ex_old4m |}
                        else None |}.
Theorem C38_refuted : exists v h loc ms skip bags,
  plain_algos v /\ hb_del h = None /\ head_lists false h = Ok (skip, ms) /\ aggregation v h loc ms bags /\
  Forall (fun b => wf_tree (rb_tree b) /\ rb_loc b <> e_dest v /\ plain_manifests v (rb_tree b) /\
                   exists a, In a (e_algos v) /\ forall p, payload p -> is_file p (rb_tree b) = true ->
                             exists c, records (rb_tree b) a p c) bags /\
  restore v true true (fun _ => U "1 kB") false h loc [] = Err EKey.
Proof.
  exists ex_env4, ex_head4, (U "/bags/two"), (match head_lists false ex_head4 with Ok (_, ms) => ms | Err _ => [] end), [],
    [{| rb_loc := U "/bags/one"; rb_tree := ex_old4m |}; {| rb_loc := U "/bags/two"; rb_tree := ex_new4 |}].
  split; [intros a [<-|[<-|[]]]; cbn; intuition discriminate|]. split; [reflexivity|]. split; [vm_compute; reflexivity|].
  split.
  { exists [U "one"], [{| rb_loc := U "/bags/one"; rb_tree := ex_old4m |}]. split; [left; vm_compute; reflexivity|].
    split; [constructor; [reflexivity|constructor]|reflexivity]. }
  split; [|vm_compute; reflexivity].
  assert (X : forall t a l, forallb (fun f => existsb (fun hp => streq (snd hp) f) (sums_of t a)) l = true ->
     forall p, In p l -> exists c, records t a p c).
  { intros t a l H p I. rewrite forallb_forall in H. apply H in I. apply existsb_exists in I. destruct I as ([c p'] & I & E).
    apply streq_eq in E. cbn [snd] in E. subst. exists c. apply sums_records. exact I. }
  assert (Y : forall t, wf_tree t -> forall p, payload p -> is_file p t = true -> In p (filter is_payload (files t))).
  { intros t W p P F. apply filter_In. split; [apply in_files; auto; apply wf_nodup; auto|apply payload_iff; auto]. }
  assert (W1 : wf_tree ex_old4m) by (apply wf_treeb_ok; vm_compute; reflexivity).
  assert (W2 : wf_tree ex_new4) by (apply wf_treeb_ok; vm_compute; reflexivity).
  constructor; [|constructor; [|constructor]]; (split; [assumption|split; [discriminate|split; [apply plain_manifestsb_ok; vm_compute; reflexivity|]]]).
  - exists (U "md5"). split; [left; reflexivity|]. intros p P F. eapply X; [|exact (Y _ W1 p P F)]. vm_compute; reflexivity.
  - exists (U "sha256"). split; [right; left; reflexivity|]. intros p P F. eapply X; [|exact (Y _ W2 p P F)]. vm_compute; reflexivity.
Qed.
Print Assumptions C38_refuted.

(** ** C39: fetch.txt *)

(** Lines of fetch.txt are URL, LENGTH and FILENAME; see [names_path] and
    [fetch_lines]. The documented rule: the line for [p] is the last one in
    the last bag that lists [p], unless [p] is deleted. *)
Definition documented_fetch (bags : list rbag) (skip : list pystr) (p line : pystr) : Prop :=
  ~ deleted skip p /\
  exists before b after, bags = before ++ b :: after /\ last_for (fetch_lines (rb_tree b)) p line /\
    forall b' l, In b' after -> In l (fetch_lines (rb_tree b')) -> ~ names_path l p.

(** What happens: the head bag's lines and the deletions do not count, and
    the first bag wins. *)
Definition actual_fetch (bags : list rbag) (p line : pystr) : Prop :=
  exists before b after, bags = before ++ b :: after /\ last_for (fetch_lines (rb_tree b)) p line /\
    forall b' l, In b' before -> In l (fetch_lines (rb_tree b')) -> ~ names_path l p.

Lemma last_for_bags (bs : list rbag) p line :
  last_for (flat_map (fun b => fetch_lines (rb_tree b)) (rev bs)) p line <-> actual_fetch bs p line.
Proof.
  induction bs as [|b bs IH].
  - cbn [rev flat_map]. split; [intros (l1 & l2 & E & _); destruct l1; discriminate|].
    intros (l1 & x & l2 & E & _). destruct l1; discriminate.
  - cbn [rev]. rewrite flat_map_app, last_for_app, IH. cbn [flat_map]. rewrite app_nil_r. split.
    + intros [H|[H1 (l1 & x & l2 & -> & H2 & H3)]].
      * exists [], b, bs. split; [reflexivity|]. split; [auto|]. intros b' l [].
      * exists (b :: l1), x, l2. repeat split; auto. intros b' l [<-|I]; eauto.
    + intros (l1 & x & l2 & E & H2 & H3). destruct l1 as [|y l1]; cbn [app] in E; inversion E; subst; auto.
      right. split; [intros l I; apply (H3 y); auto; left; auto|]. exists l1, x, l2. repeat split; auto.
      intros b' l I. apply H3. right; auto.
Qed.

(** With lines for members other than the head bag, the restored fetch.txt
    has one line per path, but of the first bag. *)
Theorem C39_merge_partial : forall v us rt bsize ro h loc skip ms before hd0 dest',
  plain_algos v -> hb_del h = None ->
  head_lists ro h = Ok (skip, ms) -> aggregation v h loc ms (before ++ [hd0]) ->
  Forall (fun b => wf_tree (rb_tree b) /\ rb_loc b <> e_dest v /\
                   forall l, In l (fetch_lines (rb_tree b)) -> exists p, names_path l p) before ->
  wf_tree (hb_tree h) -> Exists (fun b => fetch_lines (rb_tree b) <> []) before ->
  restore v us rt bsize ro h loc [] = Ok dest' ->
  (forall line, In line (fetch_lines dest') <-> exists p, actual_fetch before p line) /\
  one_each (fetch_lines dest').
Proof.
  intros v us rt bsize ro h loc skip ms before hd0 dest' S Hd Hl Ha Fb Wh Ex H.
  destruct (aggregation_others _ _ _ _ _ Ha) as (bs & F2 & E).
  cbn [rev] in E. apply app_inj_tail in E. destruct E as [-> ->].
  assert (N0 : ~ In [] skip) by (apply head_lists_ok in Hl; eapply skip_nonempty; [exact Hd|apply Hl]).
  apply Forall_rev in Fb. rewrite rev_involutive in Fb.
  apply restore_parts in H. destruct H as (skip' & ms' & t & t1 & Hl' & Hg & Hf & Hn).
  rewrite Hl in Hl'. inversion Hl'; subst skip' ms'. clear Hl'.
  assert (Wb : Forall (fun b => wf_tree (rb_tree b)) bs) by (eapply Forall_impl; [|exact Fb]; intros b (? & _); auto).
  destruct (gather_nodes v ro h loc skip ms bs [] t S N0 Hl F2 Wh Wb wf_nil Hg) as [Wt _].
  destruct (fetch_step_nodes _ _ _ _ Wt Hf) as [W1 _].
  destruct (finish_nodes v us rt bsize t1 dest' S W1 Hn) as (_ & _ & Qf).
  assert (Ef : fetch_lines dest' = fetch_lines t1).
  { unfold fetch_lines, read. rewrite (Qf F_fetch) by auto.
    change (in_multibag F_fetch) with false. rewrite andb_false_r. reflexivity. }
  rewrite Ef. clear Ef Qf.
  assert (Hf' : restore_fetch v (others h ms) t = Ok t1).
  { destruct (others h ms); [|exact Hf]. inversion F2; subst. cbn [rev] in Ex. inversion Ex. }
  destruct (restore_fetch_lines v (others h ms) bs t t1 F2) as [_ X]; auto.
  - eapply Forall_impl; [|exact Fb]. intros b (_ & ? & _); auto.
  - intros b l Ib Il. rewrite Forall_forall in Fb. destruct (Fb b Ib) as (_ & _ & P). auto.
  - destruct X as [X1 X2].
    + apply Exists_exists in Ex. destruct Ex as (b & Ib & Nb). apply in_rev in Ib. intros X.
      destruct (fetch_lines (rb_tree b)) as [|l ls] eqn:E; [congruence|].
      assert (I : In l []) by (rewrite <- X; apply in_flat_map; exists b; rewrite E; split; [auto|left; auto]). destruct I.
    + split; auto. intros line. rewrite X1. setoid_rewrite <- last_for_bags. rewrite rev_involutive. reflexivity.
Qed.
Print Assumptions C39_merge_partial.

(** As documented, if no path is listed in two bags, no listed path is deleted
    and either only the head bag or only other bags have lines. *)
Theorem C39_fetch_partial : forall v us rt bsize ro h loc skip ms before hd0 dest',
  plain_algos v -> hb_del h = None ->
  head_lists ro h = Ok (skip, ms) -> aggregation v h loc ms (before ++ [hd0]) ->
  Forall (fun b => wf_tree (rb_tree b) /\ rb_loc b <> e_dest v /\
                   forall l, In l (fetch_lines (rb_tree b)) -> exists p, names_path l p) (before ++ [hd0]) ->
  (forall b l p, In b (before ++ [hd0]) -> In l (fetch_lines (rb_tree b)) -> names_path l p -> ~ deleted skip p) ->
  (forall bs1 b1 bs2 b2 bs3 l1 l2 p, before = bs1 ++ b1 :: bs2 ++ b2 :: bs3 ->
     In l1 (fetch_lines (rb_tree b1)) -> In l2 (fetch_lines (rb_tree b2)) -> names_path l1 p -> ~ names_path l2 p) ->
  (od_get (U "fetch.txt") (hb_tree h) = None \/ Forall (fun b => fetch_lines (rb_tree b) = []) before) ->
  one_each (fetch_lines (hb_tree h)) -> ~ deleted skip (U "fetch.txt") ->
  restore v us rt bsize ro h loc [] = Ok dest' ->
  (forall line, In line (fetch_lines dest') <-> exists p, documented_fetch (before ++ [hd0]) skip p line) /\
  one_each (fetch_lines dest').
Proof.
  intros v us rt bsize ro h loc skip ms before hd0 dest' S Hd Hl Ha Fb Nd Un Hc Oh Df H.
  assert (Eh : rb_tree hd0 = hb_tree h).
  { destruct Ha as (names & bf & _ & _ & E). apply app_inj_tail in E. destruct E as [_ ->]. reflexivity. }
  assert (Fb1 := Fb). apply Forall_app in Fb1. destruct Fb1 as [Fb1 Fh]. inversion Fh as [|? ? (Wh & Lh & Ph) _]; subst. rewrite Eh in *.
  destruct (Exists_dec (fun b => fetch_lines (rb_tree b) <> []) before) as [Ex|Nx].
  { intros b. destruct (fetch_lines (rb_tree b)); [right|left]; congruence. }
  - assert (Nh : od_get F_fetch (hb_tree h) = None).
    { destruct Hc as [Hc|Hc]; auto. exfalso. apply Exists_exists in Ex. destruct Ex as (b & Ib & Nb). rewrite Forall_forall in Hc. auto. }
    assert (Lhd : fetch_lines (rb_tree hd0) = []) by (rewrite Eh; unfold fetch_lines, read; rewrite Nh; reflexivity).
    destruct (C39_merge_partial v us rt bsize ro h loc skip ms before hd0 dest' S Hd Hl Ha Fb1 Wh Ex H) as [M O].
    split; auto. intros line. rewrite M. split; intros (p & X); exists p.
    + destruct X as (bs1 & b & bs2 & E & L & _). assert (L' := L). destruct L' as (l1 & l2 & El & Hn & _).
      assert (Il : In line (fetch_lines (rb_tree b))) by (rewrite El; apply in_or_app; right; left; auto).
      split.
      * apply (Nd b line p); auto. rewrite E. apply in_or_app; left. apply in_or_app. right; left; auto.
      * exists bs1, b, (bs2 ++ [hd0]). split; [rewrite E, <- app_assoc; reflexivity|]. split; auto.
        intros b' l Ib Ilb. apply in_app_iff in Ib. destruct Ib as [Ib|[<-|[]]]; [|rewrite Lhd in Ilb; destruct Ilb].
        apply in_split in Ib. destruct Ib as (m1 & m2 & ->). eapply (Un bs1 b m1 b' m2); eauto.
    + destruct X as [_ (bs1 & b & bs2 & E & L & A)]. assert (L' := L). destruct L' as (l1 & l2 & El & Hn & _).
      assert (Il : In line (fetch_lines (rb_tree b))) by (rewrite El; apply in_or_app; right; left; auto).
      destruct bs2 as [|x bs2] using rev_ind.
      * apply app_inj_tail in E. destruct E as [_ <-]. rewrite Lhd in Il. destruct Il.
      * clear IHbs2. rewrite app_comm_cons, app_assoc in E. apply app_inj_tail in E. destruct E as [E _].
        exists bs1, b, bs2. split; auto. split; auto. intros b' l Ib Ilb Hl2.
        apply in_split in Ib. destruct Ib as (m1 & m2 & ->). rewrite <- app_assoc in E. cbn [app] in E.
        eapply (Un m1 b' m2 b bs2); eauto.
  - assert (Nb : forall b, In b before -> fetch_lines (rb_tree b) = []).
    { intros b Ib. destruct (fetch_lines (rb_tree b)) eqn:E; auto. exfalso. apply Nx. apply Exists_exists. exists b. split; auto. congruence. }
    assert (Ef : fetch_lines dest' = fetch_lines (hb_tree h)).
    { destruct (aggregation_others _ _ _ _ _ Ha) as (bs & F2 & E). cbn [rev] in E. apply app_inj_tail in E. destruct E as [-> ->].
      assert (N0 : ~ In [] skip) by (apply head_lists_ok in Hl; eapply skip_nonempty; [exact Hd|apply Hl]).
      apply Forall_rev in Fb1. rewrite rev_involutive in Fb1.
      apply restore_parts in H. destruct H as (skip' & ms' & t & t1 & Hl' & Hg & Hf & Hn).
      rewrite Hl in Hl'. inversion Hl'; subst skip' ms'. clear Hl'.
      assert (Wb : Forall (fun b => wf_tree (rb_tree b)) bs) by (eapply Forall_impl; [|exact Fb1]; intros b (? & _); auto).
      assert (Lb : Forall (fun b => rb_loc b <> e_dest v) bs) by (eapply Forall_impl; [|exact Fb1]; intros b (_ & ? & _); auto).
      destruct (gather_nodes v ro h loc skip ms bs [] t S N0 Hl F2 Wh Wb wf_nil Hg) as [Wt Q].
      destruct (fetch_step_nodes _ _ _ _ Wt Hf) as [W1 _].
      destruct (finish_nodes v us rt bsize t1 dest' S W1 Hn) as (_ & _ & Qf).
      assert (Et : t1 = t).
      { destruct (others h ms) as [|n ns] eqn:Eo; [inversion Hf; auto|]. rewrite <- Eo in *.
        assert (Hf' : restore_fetch v (others h ms) t = Ok t1) by (rewrite Eo in *; exact Hf).
        destruct (restore_fetch_lines v (others h ms) bs t t1 F2) as [X _]; auto.
        - intros b l Ib Il. rewrite Nb in Il by (apply -> in_rev; auto). destruct Il.
        - apply X. clear - Nb. induction bs as [|b bs IH]; [reflexivity|]. cbn [flat_map]. rewrite Nb by (apply -> in_rev; left; auto).
          apply IH. intros b' I. apply Nb. apply -> in_rev. apply in_rev in I. right. auto. }
      subst t1. unfold fetch_lines at 1, read. rewrite (Qf F_fetch) by auto. change (in_multibag F_fetch) with false. rewrite andb_false_r.
      rewrite (Q F_fetch); [|intros (k & a & [<-|[<-|[]]] & _ & X); discriminate X|discriminate]. cbn [od_get].
      assert (Gf : gone skip F_fetch = false) by (rewrite deleted_iff in Df; unfold F_fetch; destruct (gone skip (U "fetch.txt")); [exfalso; apply Df|]; reflexivity).
      rewrite Gf. rewrite contrib_away by (constructor; [intros X; apply Lh; rewrite <- X; reflexivity|auto]). cbn [map first_of fold_right head_bag rb_tree]. fold (first_of (map rb_tree bs) F_fetch).
      unfold fetch_lines at 1, read. destruct (od_get F_fetch (hb_tree h)) as [[|c]|]; auto.
      clear - Nb. induction bs as [|b bs IH]; [reflexivity|]. cbn [map first_of fold_right].
      assert (X : fetch_lines (rb_tree b) = []) by (apply Nb; apply -> in_rev; left; auto).
      unfold fetch_lines, read in X. destruct (od_get F_fetch (rb_tree b)) as [[|c]|]; auto.
      apply IH. intros b' I. apply Nb. apply -> in_rev. apply in_rev in I. right. auto. }
    rewrite Ef. split; auto. intros line. split.
    + intros I. assert (P := Ph line I). destruct P as [p Hp]. exists p. split; [apply (Nd hd0 line p); auto; [apply in_or_app; right; left; auto|rewrite Eh; auto]|].
      exists before, hd0, []. split; auto. split; [|intros b' l []]. rewrite Eh. apply in_split in I. destruct I as (l1 & l2 & E).
      exists l1, l2. split; auto. split; auto. intros l I2 Hp2. apply in_split in I2. destruct I2 as (m1 & m2 & ->).
      exact (Oh l1 line m1 l m2 p E Hp Hp2).
    + intros (p & _ & bs1 & b & bs2 & E & (l1 & l2 & El & _) & _).
      assert (Il : In line (fetch_lines (rb_tree b))) by (rewrite El; apply in_or_app; right; left; auto).
      assert (Ib : In b (before ++ [hd0])) by (rewrite E; apply in_or_app; right; left; auto).
      apply in_app_iff in Ib. destruct Ib as [Ib|[<-|[]]]; [rewrite (Nb b Ib) in Il; destruct Il|]. rewrite Eh in Il. auto.
Qed.
Print Assumptions C39_fetch_partial.

(** Examples: three bags with given lines in their fetch.txt and a given
    deleted.txt. *)
Definition fetch_file (ls : list pystr) : tree :=
  match ls with [] => [] | _ => [(U "fetch.txt", NFile (txt ls))] end.
Definition ex_f (ls : list pystr) : tree :=
  [(U "bagit.txt", NFile ex_bagit); (U "bag-info.txt", NFile (txt [U "Multibag-Version: 0.4"]));
   (U "manifest-md5.txt", NFile (txt [U "o1  data/a"])); (U "data", NDir); (U "data/a", NFile (U "a"))] ++ fetch_file ls.
Definition ex_fh (ls del : list pystr) : tree :=
  [(U "bagit.txt", NFile ex_bagit); (U "bag-info.txt", NFile ex_info2);
   (U "manifest-md5.txt", NFile (txt [U "t1  data/b"])); (U "data", NDir); (U "data/b", NFile (U "b"));
   (U "multibag", NDir); (U "multibag/member-bags.tsv", NFile (txt [U "one"; U "mid"; U "two"]));
   (U "multibag/deleted.txt", NFile (txt del))] ++ fetch_file ls.
Definition ex_fenv (one mid : list pystr) : env :=
  {| e_algos := [U "md5"]; e_version := fun _ => Ok (true, true); e_danger := fun _ _ => false;
     e_hash := fun a c => a ++ dec (N.of_nat (length c)); e_dest := U "/out";
     e_find := fun n => if streq n (U "one") then Some {| rb_loc := U "/bags/one"; rb_tree := ex_f one |}
                        else if streq n (U "mid") then Some {| rb_loc := U "/bags/mid"; rb_tree := ex_f mid |}
                        else None |}.
Definition ex_fhead (ls del : list pystr) : hb := open_hb (U "two") (ex_fh ls del) (got [] (load_tags Codecs ex_info2)) Codecs.
Definition ex_fbefore (one mid : list pystr) : list rbag :=
  [{| rb_loc := U "/bags/one"; rb_tree := ex_f one |}; {| rb_loc := U "/bags/mid"; rb_tree := ex_f mid |}].
Definition ex_fmembers (ls del : list pystr) : list minfo :=
  match head_lists false (ex_fhead ls del) with Ok (_, ms) => ms | Err _ => [] end.
Definition ex_frestored (one mid two del : list pystr) : tree :=
  got [] (restore (ex_fenv one mid) true true (fun _ => U "1 kB") false (ex_fhead two del) (U "/bags/two") []).

Lemma names_pathb url len p line : line = url ++ [SP] ++ len ++ [SP] ++ p ++ [LF] ->
  forallb (fun w => negb (streq w []) && forallb (fun c => negb (is_ws c)) w) [url; len; p] = true -> names_path line p.
Proof.
  intros E H. assert (X : forall w, In w [url; len; p] -> word w).
  { intros w I. rewrite forallb_forall in H. apply H in I. apply andb_true_iff in I. destruct I as [A B]. split.
    - intros ->. discriminate.
    - apply Forall_forall. intros c I. rewrite forallb_forall in B. apply B in I. apply negb_true_iff in I. auto. }
  assert (B : blanks [SP]) by (split; [discriminate|constructor; auto]).
  exists url, [SP], len, [SP]. split; [exact E|]. repeat split; try (apply X; cbn [In]; tauto); try apply B.
Qed.

Definition f_x1 := U "http://s/1 10 data/x".
Definition f_x2 := U "http://s/2 20 data/x".
Definition f_y := U "http://s/3 30 data/y".
Lemma f_x1_names : names_path (f_x1 ++ [LF]) (U "data/x").
Proof. apply (names_pathb (U "http://s/1") (U "10")); reflexivity. Qed.
Lemma f_x2_names : names_path (f_x2 ++ [LF]) (U "data/x").
Proof. apply (names_pathb (U "http://s/2") (U "20")); reflexivity. Qed.
Lemma f_y_names : names_path (f_y ++ [LF]) (U "data/y").
Proof. apply (names_pathb (U "http://s/3") (U "30")); reflexivity. Qed.

Lemma ex_f_aggregation one mid two del : map Tsv.m_name (ex_fmembers two del) = [U "one"; U "mid"; U "two"] ->
  aggregation (ex_fenv one mid) (ex_fhead two del) (U "/bags/two") (ex_fmembers two del)
    (ex_fbefore one mid ++ [{| rb_loc := U "/bags/two"; rb_tree := ex_fh two del |}]).
Proof.
  intros E. exists [U "one"; U "mid"], (ex_fbefore one mid). split; [left; exact E|].
  split; [constructor; [reflexivity|constructor; [reflexivity|constructor]]|reflexivity].
Qed.

(** Two members with different paths. *)
Example C39_case :
  let v := ex_fenv [f_x1] [f_y] in let h := ex_fhead [] [U "data/z"] in
  let bags := ex_fbefore [f_x1] [f_y] ++ [{| rb_loc := U "/bags/two"; rb_tree := ex_fh [] [U "data/z"] |}] in
  plain_algos v /\ hb_del h = None /\ head_lists false h = Ok ([U "data/z"], ex_fmembers [] [U "data/z"]) /\
  aggregation v h (U "/bags/two") (ex_fmembers [] [U "data/z"]) bags /\
  Forall (fun b => wf_tree (rb_tree b) /\ rb_loc b <> e_dest v /\
                   forall l, In l (fetch_lines (rb_tree b)) -> exists p, names_path l p) bags /\
  (forall b l p, In b bags -> In l (fetch_lines (rb_tree b)) -> names_path l p -> ~ deleted [U "data/z"] p) /\
  (forall bs1 b1 bs2 b2 bs3 l1 l2 p, ex_fbefore [f_x1] [f_y] = bs1 ++ b1 :: bs2 ++ b2 :: bs3 ->
     In l1 (fetch_lines (rb_tree b1)) -> In l2 (fetch_lines (rb_tree b2)) -> names_path l1 p -> ~ names_path l2 p) /\
  od_get (U "fetch.txt") (hb_tree h) = None /\ ~ deleted [U "data/z"] (U "fetch.txt") /\
  restore v true true (fun _ => U "1 kB") false h (U "/bags/two") [] = Ok (ex_frestored [f_x1] [f_y] [] [U "data/z"]) /\
  fetch_lines (ex_frestored [f_x1] [f_y] [] [U "data/z"]) = [f_y ++ [LF]; f_x1 ++ [LF]].
Proof.
  cbv zeta.
  assert (L1 : fetch_lines (ex_f [f_x1]) = [f_x1 ++ [LF]]) by (vm_compute; reflexivity).
  assert (L2 : fetch_lines (ex_f [f_y]) = [f_y ++ [LF]]) by (vm_compute; reflexivity).
  assert (L3 : fetch_lines (ex_fh [] [U "data/z"]) = []) by (vm_compute; reflexivity).
  split; [intros a [<-|[]]; cbn; intuition discriminate|]. split; [reflexivity|]. split; [vm_compute; reflexivity|].
  split; [apply ex_f_aggregation; vm_compute; reflexivity|].
  split.
  { constructor; [|constructor; [|constructor; [|constructor]]]; (split; [apply wf_treeb_ok; vm_compute; reflexivity|split; [discriminate|]]);
      cbn [rb_tree]; intros l I.
    - rewrite L1 in I. destruct I as [<-|[]]. eexists; apply f_x1_names.
    - rewrite L2 in I. destruct I as [<-|[]]. eexists; apply f_y_names.
    - rewrite L3 in I. destruct I. }
  split.
  { assert (D : ~ deleted [U "data/z"] (U "data/x")) by (rewrite deleted_iff; vm_compute; discriminate).
    assert (D2 : ~ deleted [U "data/z"] (U "data/y")) by (rewrite deleted_iff; vm_compute; discriminate).
    intros b l p [<-|[<-|[<-|[]]]] I Hp; cbn [rb_tree] in I.
    - rewrite L1 in I. destruct I as [<-|[]]. rewrite (names_fun _ _ _ Hp f_x1_names). exact D.
    - rewrite L2 in I. destruct I as [<-|[]]. rewrite (names_fun _ _ _ Hp f_y_names). exact D2.
    - rewrite L3 in I. destruct I. }
  split.
  { intros bs1 b1 bs2 b2 bs3 l1 l2 p E I1 I2 H1 H2. unfold ex_fbefore in E.
    destruct bs1 as [|x [|y [|z bs1]]]; cbn [app] in E; [| | |].
    - injection E as <- E. destruct bs2 as [|y bs2]; cbn [app] in E; injection E as <- E.
      + cbn [rb_tree] in I1, I2. rewrite L1 in I1. rewrite L2 in I2. destruct I1 as [<-|[]]. destruct I2 as [<-|[]].
        pose proof (names_fun _ _ _ H1 f_x1_names) as X1. pose proof (names_fun _ _ _ H2 f_y_names) as X2. subst p. discriminate X2.
      + destruct bs2; discriminate E.
    - injection E as _ _ E. destruct bs2; discriminate E.
    - discriminate E.
    - discriminate E. }
  split; [vm_compute; reflexivity|]. split; [rewrite deleted_iff; vm_compute; discriminate|].
  split; vm_compute; reflexivity.
Qed.

(** Two members list the same path: the line of the earlier one is kept. *)
Theorem C39_order_refuted : exists v h loc skip ms bags dest' p line,
  plain_algos v /\ hb_del h = None /\ head_lists false h = Ok (skip, ms) /\ aggregation v h loc ms bags /\
  Forall (fun b => wf_tree (rb_tree b) /\ rb_loc b <> e_dest v) bags /\
  restore v true true (fun _ => U "1 kB") false h loc [] = Ok dest' /\
  documented_fetch bags skip p line /\ ~ In line (fetch_lines dest') /\
  exists line', In line' (fetch_lines dest') /\ names_path line' p.
Proof.
  exists (ex_fenv [f_x1] [f_x2]), (ex_fhead [] []), (U "/bags/two"), [], (ex_fmembers [] []),
    (ex_fbefore [f_x1] [f_x2] ++ [{| rb_loc := U "/bags/two"; rb_tree := ex_fh [] [] |}]),
    (ex_frestored [f_x1] [f_x2] [] []), (U "data/x"), (f_x2 ++ [LF]).
  assert (L2 : fetch_lines (ex_f [f_x2]) = [f_x2 ++ [LF]]) by (vm_compute; reflexivity).
  assert (L3 : fetch_lines (ex_fh [] []) = []) by (vm_compute; reflexivity).
  assert (L4 : fetch_lines (ex_frestored [f_x1] [f_x2] [] []) = [f_x1 ++ [LF]]) by (vm_compute; reflexivity).
  split; [intros a [<-|[]]; cbn; intuition discriminate|]. split; [reflexivity|]. split; [vm_compute; reflexivity|].
  split; [apply ex_f_aggregation; vm_compute; reflexivity|].
  split; [constructor; [|constructor; [|constructor; [|constructor]]]; (split; [apply wf_treeb_ok; vm_compute; reflexivity|discriminate])|].
  split; [vm_compute; reflexivity|].
  split; [split; [intros (s & [] & _)|]|].
  - exists [{| rb_loc := U "/bags/one"; rb_tree := ex_f [f_x1] |}], {| rb_loc := U "/bags/mid"; rb_tree := ex_f [f_x2] |},
      [{| rb_loc := U "/bags/two"; rb_tree := ex_fh [] [] |}]. split; [reflexivity|]. cbn [rb_tree]. rewrite L2. split.
    + exists [], []. split; [reflexivity|]. split; [apply f_x2_names|intros l []].
    + intros b' l [<-|[]] I. cbn [rb_tree] in I. rewrite L3 in I. destruct I.
  - rewrite L4. split; [intros [X|[]]; discriminate X|]. exists (f_x1 ++ [LF]). split; [left; reflexivity|apply f_x1_names].
Qed.
Print Assumptions C39_order_refuted.

(** The head bag's lines get lost if another member has lines. *)
Theorem C39_head_refuted : exists v h loc skip ms bags dest' p line,
  plain_algos v /\ hb_del h = None /\ head_lists false h = Ok (skip, ms) /\ aggregation v h loc ms bags /\
  Forall (fun b => wf_tree (rb_tree b) /\ rb_loc b <> e_dest v) bags /\
  restore v true true (fun _ => U "1 kB") false h loc [] = Ok dest' /\
  documented_fetch bags skip p line /\ forall line', In line' (fetch_lines dest') -> ~ names_path line' p.
Proof.
  exists (ex_fenv [f_x1] []), (ex_fhead [f_y] []), (U "/bags/two"), [], (ex_fmembers [f_y] []),
    (ex_fbefore [f_x1] [] ++ [{| rb_loc := U "/bags/two"; rb_tree := ex_fh [f_y] [] |}]),
    (ex_frestored [f_x1] [] [f_y] []), (U "data/y"), (f_y ++ [LF]).
  assert (L3 : fetch_lines (ex_fh [f_y] []) = [f_y ++ [LF]]) by (vm_compute; reflexivity).
  assert (L4 : fetch_lines (ex_frestored [f_x1] [] [f_y] []) = [f_x1 ++ [LF]]) by (vm_compute; reflexivity).
  split; [intros a [<-|[]]; cbn; intuition discriminate|]. split; [reflexivity|]. split; [vm_compute; reflexivity|].
  split; [apply ex_f_aggregation; vm_compute; reflexivity|].
  split; [constructor; [|constructor; [|constructor; [|constructor]]]; (split; [apply wf_treeb_ok; vm_compute; reflexivity|discriminate])|].
  split; [vm_compute; reflexivity|].
  split; [split; [intros (s & [] & _)|]|].
  - exists (ex_fbefore [f_x1] []), {| rb_loc := U "/bags/two"; rb_tree := ex_fh [f_y] [] |}, []. split; [reflexivity|]. cbn [rb_tree]. rewrite L3. split.
    + exists [], []. split; [reflexivity|]. split; [apply f_y_names|intros l []].
    + intros b' l [].
  - rewrite L4. intros l [<-|[]] X. pose proof (names_fun _ _ _ X f_x1_names) as Y. discriminate Y.
Qed.
Print Assumptions C39_head_refuted.

(** Deleted paths stay in fetch.txt. *)
Theorem C39_deleted_refuted : exists v h loc skip ms bags dest' p line,
  plain_algos v /\ hb_del h = None /\ head_lists false h = Ok (skip, ms) /\ aggregation v h loc ms bags /\
  Forall (fun b => wf_tree (rb_tree b) /\ rb_loc b <> e_dest v) bags /\
  restore v true true (fun _ => U "1 kB") false h loc [] = Ok dest' /\
  deleted skip p /\ In line (fetch_lines dest') /\ names_path line p.
Proof.
  exists (ex_fenv [f_x1] []), (ex_fhead [] [U "data/x"]), (U "/bags/two"), [U "data/x"], (ex_fmembers [] [U "data/x"]),
    (ex_fbefore [f_x1] [] ++ [{| rb_loc := U "/bags/two"; rb_tree := ex_fh [] [U "data/x"] |}]),
    (ex_frestored [f_x1] [] [] [U "data/x"]), (U "data/x"), (f_x1 ++ [LF]).
  assert (L4 : fetch_lines (ex_frestored [f_x1] [] [] [U "data/x"]) = [f_x1 ++ [LF]]) by (vm_compute; reflexivity).
  split; [intros a [<-|[]]; cbn; intuition discriminate|]. split; [reflexivity|]. split; [vm_compute; reflexivity|].
  split; [apply ex_f_aggregation; vm_compute; reflexivity|].
  split; [constructor; [|constructor; [|constructor; [|constructor]]]; (split; [apply wf_treeb_ok; vm_compute; reflexivity|discriminate])|].
  split; [vm_compute; reflexivity|]. split; [rewrite deleted_iff; vm_compute; reflexivity|].
  rewrite L4. split; [left; reflexivity|apply f_x1_names].
Qed.
Print Assumptions C39_deleted_refuted.

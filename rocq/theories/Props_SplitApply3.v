(** * Properties of writing split bags: C30, C31, C45, C70 - C72

    Continues Props_SplitApply2.v. *)

Require Import String NArith PeanoNat Bool List Lia Permutation.
From Verif Require Import PyBase PyFacts Version Tsv TsvProofs Fs FsFacts HeadBag HeadBagProofs HeadBagProofs2 HeadBagProofs3 BagIt BagItProofs BagItProofs2 Split SplitProofs3 SplitApply SplitApplyProofs SplitApplyProofs2 SplitApplyProofs3 SplitApplyProofs4 SplitApplyProofs5 SplitApplyProofs6 SplitApplyProofs7 SplitApplyProofs8 SplitApplyProofs9 Props_SplitApply Props_SplitApply2.
Import ListNotations.
Open Scope N_scope.

(** ** C30, continued *)

Lemma plain_info r (i : infod) : forallb (fun kv => forallb (forallb (fun c => negb (is_brk r c))) (vals_of (snd kv))) i = true ->
  forall k v, In v (tag_values i k) -> no_brk r v.
Proof.
  intros H k v I. unfold tag_values in I. destruct (od_get k i) as [x|] eqn:G; [|destruct I]. apply od_get_in in G.
  rewrite forallb_forall in H. apply H in G. cbn [snd] in G. rewrite forallb_forall in G. apply no_brk_b. apply G.
  destruct x; exact I.
Qed.

Example C30_case :
  Forall (fun b => tag_value_ok Codecs b) (map fst ex_bags) /\
  (forall k v, In v (tag_values (so_info ex_source) k) -> no_brk Codecs v) /\
  tag_values (so_info ex_source) (U "Contact-Name") = [U "A"; U "B"] /\
  tag_values (so_info ex_source) (U "External-Identifier") = [U "ark:/1"] /\
  tag_values (so_info ex_source) (U "Multibag-Version") = [U "0.2"] /\
  map (fun bt : pystr * tree => tag_values (got [] (tags_of Codecs (snd bt))) (U "External-Identifier")) ex_bags =
    [[U "ark:/1/mbag:one"]; [U "ark:/1/mbag:two"]].
Proof.
  destruct ex_splits as [_ E]. split; [|split].
  - rewrite E. apply Forall_forall. intros x [<-|[<-|[]]]; (split; [right; apply trimmedb_ok|apply no_brk_b]; reflexivity).
  - apply plain_info. vm_compute. reflexivity.
  - vm_compute. auto.
Qed.

Print Assumptions C30_bag_info_partial.

Definition folded_info : pystr := U "Note: a" ++ [LF] ++ U " b" ++ [LF] ++ U " c" ++ [LF].
Definition folded_tree : tree :=
  [(U "bagit.txt", NFile (U "BagIt-Version: 1.0" ++ [LF])); (U "bag-info.txt", NFile folded_info); (U "data", NDir)].
Definition folded_source : source :=
  {| so_name := U "src"; so_tree := folded_tree; so_info := got [] (load_tags Codecs folded_info);
     so_algos := ex_algos; so_entries := []; so_reader := Codecs |}.
Definition one_bag_plan (t : tree) (contents : list pystr) : plan :=
  {| p_bag := {| b_name := U "src"; b_tree := t; b_dirsize := fun _ => 0 |};
     p_manifests := [{| m_name := Some (U "one"); m_contents := contents; m_total := 0 |}] |}.

(** A value on three lines is not passed on as it is. *)
Theorem C30_refuted : exists s o p a head t tags k,
  opened s /\ apply_plan s o p None [] = Ok a /\ a_out a = [(head, t)] /\ tags_of (so_reader s) t = Ok tags /\
  startswith k (U "Multibag-") = false /\ ao_nopass o = [] /\
  ~ In k [U "Internal-Sender-Identifier"; U "Internal-Sender-Description"; U "External-Identifier";
          U "Bag-Group-Identifier"; U "Bag-Size"; U "Payload-Oxum"] /\
  tag_values tags k <> tag_values (so_info s) k.
Proof.
  assert (X : opened folded_source) by (vm_compute; reflexivity).
  assert (E : match apply_plan folded_source ex_opts (one_bag_plan folded_tree []) None [] with
              | Ok a => match a_out a with
                        | [(head, t)] => match tags_of Codecs t with
                                         | Ok tags => negb (forallb (fun xy => streq (fst xy) (snd xy))
                                             (combine (tag_values tags (U "Note")) (tag_values (so_info folded_source) (U "Note"))))
                                         | Err _ => false end
                        | _ => false end
              | Err _ => false end = true) by (vm_compute; reflexivity).
  exists folded_source, ex_opts, (one_bag_plan folded_tree []).
  destruct (apply_plan folded_source ex_opts (one_bag_plan folded_tree []) None []) as [a|]; [|discriminate].
  destruct (a_out a) as [|[h t] [|? ?]] eqn:Eo; try discriminate. destruct (tags_of Codecs t) as [d|] eqn:Ed; [|discriminate].
  exists a, h, t, d, (U "Note"). split; [exact X|]. split; [reflexivity|]. split; [exact Eo|]. split; [exact Ed|].
  split; [reflexivity|]. split; [reflexivity|]. split; [cbn; intuition discriminate|].
  intros Q. rewrite Q in E. revert E. generalize (tag_values (so_info folded_source) (U "Note")). clear.
  intros l E. apply negb_true_iff in E. assert (T : forallb (fun xy => streq (fst xy) (snd xy)) (combine l l) = true).
  { induction l as [|x l IH]; [reflexivity|]. cbn [combine forallb fst snd]. rewrite streq_refl. apply IH.
    cbn [combine forallb fst snd] in E. rewrite streq_refl in E. exact E. }
  congruence.
Qed.

Print Assumptions C30_refuted.

(** ** C31: the source *)

(** With hard links, and no planned path that the split writes itself in the
    output bag, the source stays as it was, and the outcome is that of
    copying. Missing for C31: plans with such paths. *)
Theorem C31_source_untouched_partial : forall s o p it out,
  (forall m f, In m (p_manifests p) -> In f (m_contents m) -> ~ own_file true f) ->
  apply_plan_linked s o p it out = let? a := apply_plan s o p it out in Ok (a, so_tree s).
Proof.
  intros s o p it out H. unfold apply_plan_linked, apply_plan. destruct (initial_lists s) as [[ms lu]|e]; [|reflexivity].
  cbn [bind]. apply apply_linked. apply Forall_forall. intros [m h] I. cbn [fst snd]. intros f If O.
  apply (H m f); auto.
  - rewrite <- manifests_fst. apply (in_map fst) in I. exact I.
  - destruct O; constructor; auto.
Qed.

Example C31_case :
  (forall m f, In m (p_manifests ex_plan) -> In f (m_contents m) -> ~ own_file true f) /\
  match apply_plan_linked ex_source ex_opts ex_plan None [] with
  | Ok (a, src) => map fst (a_out a) = [U "one"; U "two"] /\ src = ex_tree
  | Err _ => False
  end.
Proof.
  split.
  - intros m f Im If O. destruct Im as [<-|[<-|[]]]; cbn [m_contents] in If;
      destruct If as [<-|[<-|If]]; try destruct If as [<-|[]]; try contradiction; inversion O.
  - vm_compute. auto.
Qed.

(** A source that is a head bag, and a plan made from its directory and then
    completed: [SplitPlan(path)] opens the directory so that files are linked,
    and [complete_plan()] plans every file that a split does not make anew.
    Its member list is overwritten. (The splitters open their source read-only,
    split.py 545, and so copy.) *)
Theorem C31_refuted : exists s p o a src,
  opened s /\ wf_tree (so_tree s) /\
  p = complete_plan {| p_bag := {| b_name := so_name s; b_tree := so_tree s; b_dirsize := fun _ => 4096 |};
                       p_manifests := [] |} /\
  apply_plan_linked s o p None [] = Ok (a, src) /\
  read (U "multibag/member-bags.tsv") (so_tree s) = Some (U "old" ++ [LF]) /\
  read (U "multibag/member-bags.tsv") src <> Some (U "old" ++ [LF]).
Proof.
  set (s := exh_source [U "old"]).
  set (p := complete_plan {| p_bag := {| b_name := so_name s; b_tree := so_tree s; b_dirsize := fun _ => 4096 |};
                             p_manifests := [] |}).
  assert (Q : match apply_plan_linked s ex_opts p None [] with
              | Ok (a, src) => Some (read (U "multibag/member-bags.tsv") src)
              | Err _ => None
              end = Some (Some (U "old" ++ [LF] ++ U "src_0.mbag" ++ [LF]))) by (vm_compute; reflexivity).
  exists s, p, ex_opts.
  destruct (apply_plan_linked s ex_opts p None []) as [[a src]|] eqn:Ha; [|discriminate].
  exists a, src. split; [vm_compute; reflexivity|]. split; [apply wf_treeb_ok; vm_compute; reflexivity|].
  split; [reflexivity|]. split; [reflexivity|]. split; [reflexivity|]. intros R. rewrite R in Q. discriminate.
Qed.

Print Assumptions C31_source_untouched_partial.
Print Assumptions C31_refuted.

(** ** C45 (the part on splitting) *)

(** What is on the disk in an output bag when the split stops after [k] steps
    on it. *)
Definition stopped (s : source) (o : apply_opts) (b : pystr) (m : manifest) (ishead : bool)
    (members : list pystr) (lookup : dict pystr) (k : nat) : tree :=
  run_until (firstn k (fst (bag_ops s o b m ishead members lookup))) [].

(** The bag says that it is a head bag. *)
Definition designated (r : reader) (t : tree) : Prop :=
  exists d, tags_of r t = Ok d /\ od_has (U "Multibag-Head-Version") d = true.

(** It has its member list and its lookup. *)
Definition has_lists (members : list pystr) (lookup : dict pystr) (t : tree) : Prop :=
  read (U "multibag/member-bags.tsv") t = Some (members_out members) /\
  read (U "multibag/file-lookup.tsv") t = Some (lookup_text lookup).

Lemma run_until_ok ops : forall t t', run_ops ops t = Ok t' -> run_until ops t = t'.
Proof.
  unfold run_ops. induction ops as [|o ops IH]; intros t t' H; cbn [foldM run_until] in *; [congruence|].
  apply bind_ok in H. destruct H as (t1 & E & H). rewrite E. auto.
Qed.

Lemma run_prefix ops k t t' : run_ops ops t = Ok t' -> exists t1,
  run_ops (firstn k ops) t = Ok t1 /\ run_ops (skipn k ops) t1 = Ok t'.
Proof.
  intros H. rewrite <- (firstn_skipn k ops) in H. unfold run_ops in *. rewrite foldM_app in H. apply bind_ok in H.
  destruct H as (t1 & A & B). eauto.
Qed.

Lemma info_untouched s (fs : list pystr) : ~ In F_baginfo fs -> forall x, In x (flat_map (path_ops s) fs) -> ~ touches F_baginfo x.
Proof.
  intros Nf x I T. apply in_flat_map in I. destruct I as (f & If & I). apply in_path_ops in I.
  destruct I as [(c & _ & [->|[->|I]])|(_ & _ & ->)]; cbn [touches] in T; try contradiction.
  - subst. contradiction.
  - apply in_hash_ops in I. destruct I as (a & h & -> & _). cbn [touches] in T. destruct (is_payload f); discriminate.
Qed.

(** A head bag that was interrupted: up to the bag-info.txt (the fifth step
    from the end) it is not designated, and from the lookup on (the last but
    one) it has its lists. Missing for C45: the steps between, see
    [C45_split_refuted]. *)
Theorem C45_split_partial : forall s o b m members lookup k, layout_ok s true ->
  is_file (U "bagit.txt") (so_tree s) = true -> ~ In (U "bag-info.txt") (m_contents m) ->
  let n := length (fst (bag_ops s o b m true members lookup)) in
  let t := stopped s o b m true members lookup k in
  ((k + 5 <= n)%nat -> ~ designated (so_reader s) t) /\
  ((n <= k + 1)%nat -> has_lists members lookup t).
Proof.
  intros s o b m members lookup k L Fb Nb n t.
  apply is_file_read in Fb. destruct Fb as [c Fb].
  assert (Eo : fst (bag_ops s o b m true members lookup) = bag_list s o b m true members lookup c).
  { unfold bag_ops. change F_bagit with (U "bagit.txt"). rewrite Fb. reflexivity. }
  destruct (bag_list_runs s true L o b m members lookup c) as [tf R].
  unfold t, stopped, n in *. rewrite Eo in *. clear Eo t n.
  set (ops := bag_list s o b m true members lookup c) in *.
  destruct (run_prefix ops k [] tf R) as (t1 & R1 & R2). rewrite (run_until_ok _ _ _ R1).
  set (A := start_ops s ++ [OCopy F_bagit c] ++ flat_map (path_ops s) (m_contents m)).
  assert (Es : ops = A ++ [OWrite F_baginfo (tags_text (info_items s o b m true))] ++ multibag_ops s members lookup).
  { unfold ops, bag_list, A. rewrite <- !app_assoc. reflexivity. }
  assert (En : length ops = (length A + 5)%nat) by (rewrite Es, !app_length; reflexivity).
  split.
  - intros Hk (d & Hd & Hh). assert (Rn : read (U "bag-info.txt") t1 = None).
    { rewrite (run_ops_read _ _ _ _ R1). cbn [read od_get].
      rewrite fold_untouched; [reflexivity|]. intros x I.
      assert (I' : In x A).
      { rewrite Es in I. rewrite firstn_app in I. replace (k - length A)%nat with 0%nat in I by lia. cbn [firstn] in I.
        rewrite app_nil_r in I. rewrite <- (firstn_skipn k A). apply in_app_iff. left. exact I. }
      unfold A in I'. rewrite !in_app_iff in I'. destruct I' as [I'|[[<-|[]]|I']].
      - apply in_start_ops in I'. destruct I' as [->|(a & -> & _)]; cbn [touches]; [tauto|]. discriminate.
      - discriminate.
      - apply (info_untouched s (m_contents m)); auto. }
    unfold tags_of in Hd. rewrite Rn in Hd. inversion Hd; subst. discriminate.
  - intros Hk. set (B := A ++ [OWrite F_baginfo (tags_text (info_items s o b m true))] ++ firstn 3 (multibag_ops s members lookup)).
    assert (Ef : exists post, firstn k ops = B ++ post /\ (post = [] \/ exists x, post = [OWrite (U "multibag/aggregation-info.txt") x])).
    { assert (EB : ops = B ++ skipn 3 (multibag_ops s members lookup)).
      { rewrite Es. unfold B. rewrite <- !app_assoc. rewrite firstn_skipn. reflexivity. }
      assert (LB : length B = (length A + 4)%nat) by (unfold B; rewrite !app_length; cbn; lia).
      rewrite EB, firstn_app, firstn_all2 by lia. exists (firstn (k - length B) (skipn 3 (multibag_ops s members lookup))).
      split; [reflexivity|]. cbn [multibag_ops skipn]. destruct (k - length B)%nat as [|[|j]]; cbn [firstn]; eauto. }
    destruct Ef as (post & Ef & Hpost). rewrite Ef in R1. split.
    + apply read_last with (pre := A ++ [OWrite F_baginfo (tags_text (info_items s o b m true)); OMakedirs MULTIBAG])
        (post := OWrite (pjoin MULTIBAG F_lookup) (lookup_text lookup) :: post).
      * intros x [<-|I] T; [discriminate|]. destruct Hpost as [->|(y & ->)]; [destruct I|]. destruct I as [<-|[]]. discriminate.
      * rewrite <- R1. unfold B. rewrite <- !app_assoc. reflexivity.
    + apply read_last with (pre := A ++ [OWrite F_baginfo (tags_text (info_items s o b m true)); OMakedirs MULTIBAG;
                                         OWrite (pjoin MULTIBAG F_members) (members_out members)]) (post := post).
      * intros x I T. destruct Hpost as [->|(y & ->)]; [destruct I|]. destruct I as [<-|[]]. discriminate.
      * rewrite <- R1. unfold B. rewrite <- !app_assoc. reflexivity.
Qed.

(** A member bag is never taken for a head bag, wherever the split stops. *)
Theorem C45_split_members : forall s o b m members lookup k, layout_ok s false ->
  opened s -> plain_opts (so_reader s) o -> no_brk (so_reader s) b ->
  is_file (U "bagit.txt") (so_tree s) = true -> ~ In (U "bag-info.txt") (m_contents m) ->
  ~ designated (so_reader s) (stopped s o b m false members lookup k).
Proof.
  intros s o b m members lookup k L Ho Hp Hb Fb Nb (d & Hd & Hh). apply is_file_read in Fb. destruct Fb as [c Fb].
  unfold stopped in Hd.
  assert (Eo : fst (bag_ops s o b m false members lookup) = bag_list s o b m false members lookup c).
  { unfold bag_ops. change F_bagit with (U "bagit.txt"). rewrite Fb. reflexivity. }
  rewrite Eo in Hd. destruct (bag_list_runs s false L o b m members lookup c) as [tf R].
  set (ops := bag_list s o b m false members lookup c) in *.
  set (A := start_ops s ++ [OCopy F_bagit c] ++ flat_map (path_ops s) (m_contents m)).
  assert (Es : ops = A ++ [OWrite F_baginfo (tags_text (info_items s o b m false))]).
  { unfold ops, bag_list, A. rewrite <- !app_assoc, app_nil_r. reflexivity. }
  destruct (run_prefix ops k [] tf R) as (t1 & R1 & R2). rewrite (run_until_ok _ _ _ R1) in Hd.
  destruct (Nat.le_gt_cases k (length A)) as [Hk|Hk].
  - assert (Rn : read (U "bag-info.txt") t1 = None).
    { rewrite (run_ops_read _ _ _ _ R1). cbn [read od_get].
      rewrite fold_untouched; [reflexivity|]. intros x I.
      assert (I' : In x A).
      { rewrite Es in I. rewrite firstn_app in I. replace (k - length A)%nat with 0%nat in I by lia. cbn [firstn] in I.
        rewrite app_nil_r in I. rewrite <- (firstn_skipn k A). apply in_app_iff. left. exact I. }
      unfold A in I'. rewrite !in_app_iff in I'. destruct I' as [I'|[[<-|[]]|I']].
      - apply in_start_ops in I'. destruct I' as [->|(a & -> & _)]; cbn [touches]; [tauto|]. discriminate.
      - discriminate.
      - apply (info_untouched s (m_contents m)); auto. }
    unfold tags_of in Hd. rewrite Rn in Hd. inversion Hd; subst. discriminate.
  - rewrite firstn_all2 in R1 by (rewrite Es, app_length; cbn [length]; lia).
    assert (O : one_bag s o m false members lookup b t1).
    { exists c. split; [exact Fb|]. split; [exact R1|discriminate]. }
    destruct (bag_tags s o m false members lookup b t1 Ho Hp Hb O) as (d1 & Td1 & Sh1 & V1).
    rewrite Td1 in Hd. inversion Hd; subst d1. specialize (V1 T_HeadVersion). rewrite head_version_values in V1. cbn [map] in V1.
    unfold od_has in Hh. change (U "Multibag-Head-Version") with T_HeadVersion in Hh. unfold tag_values in V1.
    destruct (od_get T_HeadVersion d) as [[v|[|v l]]|] eqn:G; try discriminate.
    apply Sh1 in G. cbn in G. lia.
Qed.

Definition ex_head_ops : list op :=
  fst (bag_ops ex_source ex_opts (U "two") {| m_name := Some (U "two"); m_contents := [U "data/d/b"]; m_total := 4 |}
               true [U "one"; U "two"] []).

(** Between the two the bag says that it is a head bag and has no member
    list. *)
Theorem C45_split_refuted : exists s o b m members lookup k,
  opened s /\ layout_ok s true /\ designated (so_reader s) (stopped s o b m true members lookup k) /\
  members <> [] /\ read (U "multibag/member-bags.tsv") (stopped s o b m true members lookup k) = None.
Proof.
  exists ex_source, ex_opts, (U "two"), {| m_name := Some (U "two"); m_contents := [U "data/d/b"]; m_total := 4 |},
    [U "one"; U "two"], [], (length ex_head_ops - 4)%nat.
  split; [vm_compute; reflexivity|]. split; [apply layoutb_ok; vm_compute; reflexivity|].
  split; [|split; [discriminate|vm_compute; reflexivity]].
  unfold designated. destruct (tags_of _ _) as [d|] eqn:E; [exists d; split; [reflexivity|]|].
  - assert (Q : od_has (U "Multibag-Head-Version") (got [] (tags_of Codecs (stopped ex_source ex_opts (U "two")
      {| m_name := Some (U "two"); m_contents := [U "data/d/b"]; m_total := 4 |} true [U "one"; U "two"] [] (length ex_head_ops - 4)))) = true)
      by (vm_compute; reflexivity).
    change (so_reader ex_source) with Codecs in E. rewrite E in Q. exact Q.
  - vm_compute in E. discriminate.
Qed.

Print Assumptions C45_split_partial.
Print Assumptions C45_split_members.
Print Assumptions C45_split_refuted.

(** ** C70: a source without bag-info.txt *)

Lemma fold_stops {A B} (f : A -> B -> res A) l x : (forall a, exists e, f a x = Err e) -> forall a,
  exists e, foldM f (l ++ [x]) a = Err e.
Proof.
  intros H. induction l as [|y l IH]; intros a; cbn [app foldM].
  - destruct (H a) as [e ->]. exists e. reflexivity.
  - destruct (f a y) as [a'|e]; [apply IH|exists e; reflexivity].
Qed.

(** No split of a bag without bag-info.txt into at least one bag succeeds. *)
Theorem C70_refuted : forall s o p it out,
  read (U "bag-info.txt") (so_tree s) = None -> p_manifests p <> [] ->
  exists e, apply_plan s o p it out = Err e.
Proof.
  intros s o p it out Hn Np. unfold apply_plan. destruct (initial_lists s) as [[ms lu]|e]; [|exists e; reflexivity].
  cbn [bind]. destruct (exists_last Np) as (l & m & E). unfold manifests. rewrite E, mark_head_last.
  apply fold_stops. intros a. unfold apply_one. destruct (next_name m (a_naming a)) as [[x it']|e]; [|exists e; reflexivity].
  cbn [bind]. destruct x as [b|]; [|exists EType; reflexivity].
  destruct (od_has b (a_out a)); [exists EOS; reflexivity|].
  destruct (bag_ops s o b m true (push_member b (a_members a)) (fold_left (add_lookup b) (plan_files s m) (a_lookup a))) as [ops fin] eqn:Eb.
  assert (Ef : exists e, fin = Err e).
  { unfold bag_ops in Eb. change F_baginfo with (U "bag-info.txt") in Eb. rewrite Hn in Eb.
    destruct (read F_bagit (so_tree s)); inversion Eb; eauto. }
  destruct Ef as [e ->]. destruct (run_ops ops []) as [t|e']; [exists e|exists e']; reflexivity.
Qed.

Example C70_case :
  let t := [(U "bagit.txt", NFile (U "BagIt-Version: 1.0" ++ [LF])); (U "data", NDir); (U "data/a", NFile (U "x"))] in
  let s := {| so_name := U "src"; so_tree := t; so_info := []; so_algos := ex_algos; so_entries := []; so_reader := Codecs |} in
  opened s /\ apply_plan s ex_opts (one_bag_plan t [U "data/a"]) None [] = Err EOS.
Proof. split; vm_compute; reflexivity. Qed.

Print Assumptions C70_refuted.

(** ** C71: naming iterators *)

(** The names come from the iterator, and then from the plan, if the iterator
    has a method called next. *)
Theorem C71_names_partial : forall s o p it out bags,
  splits_into s o p (Some {| nm_next := true; nm_names := it |}) out bags ->
  forall i b t, nth_error bags i = Some (b, t) ->
  nth_error it i = Some b \/
  (nth_error it i = None /\ exists m, nth_error (p_manifests p) i = Some m /\ m_name m = Some b).
Proof.
  intros s o p it out bags H i b t Hi. apply made_split in H. destruct H as (_ & _ & _ & _ & _ & _ & _ & _ & E).
  cbn [names_of nm_names] in E.
  assert (Ei : nth_error (map Some (map fst bags)) i = Some (Some b)).
  { rewrite map_map. rewrite (map_nth_error (fun x => Some (fst x)) _ _ Hi). reflexivity. }
  rewrite E in Ei. clear -Ei. revert it i Ei. induction (p_manifests p) as [|m l IH]; intros it i Ei; cbn [names_for] in Ei.
  - destruct it; destruct i; discriminate.
  - destruct it as [|x it]; destruct i as [|i]; cbn [nth_error] in *.
    + right. split; [reflexivity|]. exists m. split; [reflexivity|congruence].
    + apply IH in Ei. destruct i; exact Ei.
    + left. congruence.
    + apply IH in Ei. exact Ei.
Qed.

(** Any other iterator, such as a generator of Python 3, makes the split
    raise AttributeError. *)
Theorem C71_refuted : forall s o p it out ms lu,
  initial_lists s = Ok (ms, lu) -> p_manifests p <> [] ->
  apply_plan s o p (Some {| nm_next := false; nm_names := it |}) out = Err EAttribute.
Proof.
  intros s o p it out ms lu E Np. unfold apply_plan. rewrite E. cbn [bind]. unfold manifests.
  destruct (p_manifests p) as [|m [|m' l]]; [congruence| |]; reflexivity.
Qed.

Example C71_case :
  initial_lists ex_source = Ok ([], []) /\
  match apply_plan ex_source ex_opts ex_plan (Some {| nm_next := true; nm_names := [U "x"] |}) [] with
  | Ok a => map fst (a_out a) = [U "x"; U "two"]
  | Err _ => False
  end.
Proof. split; vm_compute; reflexivity. Qed.

Print Assumptions C71_names_partial.
Print Assumptions C71_refuted.

(** ** C72: split bags are valid *)

(** With [H alg content] the checksum of a content: every checksum that the
    bag records is that of its file. *)
Definition sums_hold (H : pystr -> pystr -> pystr) (e : entries) (t : tree) : Prop :=
  forall a f h, checksum e a f = Some h -> exists c, read f t = Some c /\ H a c = h.

(** A split bag opened anew is valid if the source was: its checksums hold,
    payload files have all the checksums that they had, and all the payload
    manifests are there. Missing for C72: what is missing in C28, and plans
    with paths that the split writes itself. *)
Theorem C72_valid_partial : forall (H : pystr -> pystr -> pystr) s o p it out bags,
  wf_tree (so_tree s) -> NoDup (so_algos s) -> checksums_loaded s ->
  (forall a f h, checksum (so_entries s) a f = Some h -> hd 0 h <> BOM) ->
  sums_hold H (so_entries s) (so_tree s) ->
  splits_into s o p it out bags ->
  (forall m f, In m (p_manifests p) -> In f (m_contents m) ->
     ~ own_file true f /\ ((exists a, checksum (so_entries s) a f <> None) -> manifest_path (so_reader s) f)) ->
  Forall2 (fun mh bt => forall dangerous v1,
     (v1 = true -> NoDup (m_contents (fst mh))) ->
     (forall f, In f (m_contents (fst mh)) -> dangerous f = false) ->
     exists e,
       load_manifests dangerous v1 (so_reader s) (bag_manifests (so_algos s) true (snd bt)) = Ok e /\
       sums_hold H e (snd bt) /\
       (forall f, In f (payload_files (snd bt)) -> forall a, checksum e a f = checksum (so_entries s) a f) /\
       (forall a, In a (so_algos s) -> is_file (U "manifest-" ++ a ++ U ".txt") (so_tree s) = true ->
                  is_file (U "manifest-" ++ a ++ U ".txt") (snd bt) = true))
    (manifests p) bags.
Proof.
  intros H s o p it out bags W Na Lo Hb Sh Hs Hf.
  assert (Hf' : forall m f, In m (p_manifests p) -> In f (m_contents m) ->
     (forall a, f <> U "manifest-" ++ a ++ U ".txt" /\ f <> U "tagmanifest-" ++ a ++ U ".txt") /\
     ((exists a, checksum (so_entries s) a f <> None) -> manifest_path (so_reader s) f)).
  { intros m f Im If. destruct (Hf m f Im If) as [A B]. split; [|exact B]. intros a. split; intros ->; apply A; constructor. }
  pose proof (C28_checksums_partial s o p it out bags Na Lo Hb Hs Hf') as C28.
  pose proof (C25_exact_copies s o p it out bags W Hs) as C25.
  apply made_split in Hs. destruct Hs as (ms0 & lu0 & ms' & lu' & _ & M & _). apply made_each in M.
  assert (Im : Forall (fun mh => In (fst mh) (p_manifests p)) (manifests p)).
  { apply Forall_forall. intros mh I. rewrite <- manifests_fst. apply in_map. exact I. }
  revert C28 C25 M Im. generalize (manifests p). intros mhs C28. induction C28 as [|[m h] [b t] mhs bts C C28 IH]; intros C25 M Im; constructor.
  2:{ inversion C25; inversion M; inversion Im; subst. apply IH; auto. }
  clear IH. inversion C25 as [|? ? ? ? X _]; subst. inversion M as [|? ? ? ? (ms & lu & O) _]; subst. inversion Im as [|? ? I0 _]; subst.
  clear C25 M Im C28. cbn [fst snd] in *. intros dangerous v1 Nv Hd. destruct (C dangerous v1 Nv Hd) as (e & E & Ce).
  exists e. split; [exact E|]. split; [|split].
  - intros a f x Cx. rewrite Ce in Cx. destruct (str_in f (m_contents m) && is_file f (so_tree s)) eqn:Ef; [|discriminate].
    apply andb_true_iff in Ef. destruct Ef as [E1 E2]. apply str_in_iff in E1.
    destruct (Sh a f x Cx) as (c & Rc & Hc). exists c. split; [|exact Hc].
    apply (ec_planned _ _ _ _ X); auto. intros Ow. apply (Hf m f I0 E1). destruct Ow; constructor; auto.
  - intros f If a. rewrite Ce. unfold payload_files in If. apply filter_In in If. destruct If as [If Pf].
    pose proof O as O'. destruct O' as (c & _ & R & _).
    assert (Nt : NoDup (od_keys t)) by (eapply run_ops_nodup; [|exact R]; constructor).
    apply (in_files f t Nt) in If. apply is_file_read in If. destruct If as [x Rx].
    destruct (ec_only _ _ _ _ X f x Rx) as [Ow|[I1 R1]].
    + exfalso. apply own_not_payload in Ow. unfold is_payload in Ow. congruence.
    + apply str_in_iff in I1. rewrite I1. assert (Fx : is_file f (so_tree s) = true) by (apply is_file_read; eauto).
      rewrite Fx. reflexivity.
  - intros a Ia Fa. destruct O as (c & _ & R & _).
    destruct (read (U "manifest-" ++ a ++ U ".txt") t) as [x|] eqn:Rx; [apply is_file_read; eauto|]. exfalso.
    rewrite (run_ops_read _ _ _ _ R) in Rx. revert Rx. apply touched_some. apply Exists_exists.
    exists (OWrite (man_name K_man a) []). split; [|reflexivity]. unfold bag_list. apply in_app_iff. left.
    unfold start_ops. right. apply (in_map (fun f => OWrite f [])). unfold manifest_files. apply filter_In. split; [apply in_map; exact Ia|exact Fa].
Qed.

(** A checksum that makes the example a valid bag. *)
Definition ex_hash (a c : pystr) : pystr :=
  if streq c (U "abcd") then U "h1" else if streq c (U "xyz") then U "h2" else U "h3".

Lemma sums_hold_b H (e : entries) t : forallb (fun fd => forallb (fun ah => match read (fst fd) t with
                                                                | Some c => streq (H (fst ah) c) (snd ah)
                                                                | None => false end) (snd fd)) e = true ->
  sums_hold H e t.
Proof.
  intros B a f h C. unfold checksum in C. destruct (od_get f e) as [d|] eqn:G; [|discriminate C].
  apply od_get_in in G. apply od_get_in in C. rewrite forallb_forall in B. apply B in G. cbn [fst snd] in G.
  rewrite forallb_forall in G. apply G in C. cbn [fst snd] in C. destruct (read f t) as [c|]; [|discriminate].
  apply streq_eq in C. eauto.
Qed.

Example C72_case : sums_hold ex_hash (so_entries ex_source) (so_tree ex_source) /\
  so_entries ex_source <> [] /\
  (forall m f, In m (p_manifests ex_plan) -> In f (m_contents m) ->
     ~ own_file true f /\ ((exists a, checksum (so_entries ex_source) a f <> None) -> manifest_path Codecs f)).
Proof.
  split; [apply sums_hold_b; vm_compute; reflexivity|]. split; [vm_compute; discriminate|]. intros m f Im If. split.
  - destruct C31_case as [Q _]. exact (Q m f Im If).
  - destruct C28_case as (_ & _ & _ & Q & _). apply (Q m f Im If).
Qed.

(** The bag made from a head bag is not valid: its tag manifest has the
    checksum of the old member list. *)
Theorem C72_refuted : exists H s k sp base p o a head t e,
  opened s /\ wf_tree (so_tree s) /\ checksums_loaded s /\ sums_hold H (so_entries s) (so_tree s) /\
  splitter_plan k sp base {| b_name := so_name s; b_tree := so_tree s; b_dirsize := fun _ => 4096 |} = (Ok tt, p) /\
  apply_plan s o p None [] = Ok a /\ a_out a = [(head, t)] /\
  load_manifests (fun _ => false) true (so_reader s) (bag_manifests (so_algos s) true t) = Ok e /\
  ~ sums_hold H e t.
Proof.
  set (s := exh_source [U "old"]). set (sp := {| s_max := 1000; s_target := 1000; s_forhead := [] |}).
  set (bg := {| b_name := so_name s; b_tree := so_tree s; b_dirsize := fun _ => 4096 |}).
  set (H := fun _ c : pystr => if streq c (U "old" ++ [LF]) then U "h2" else U "h1").
  assert (X1 : opened s) by (vm_compute; reflexivity).
  assert (X2 : wf_tree (so_tree s)) by (apply wf_treeb_ok; vm_compute; reflexivity).
  assert (X3 : checksums_loaded s) by (exists (fun _ => false), true; vm_compute; reflexivity).
  assert (X4 : sums_hold H (so_entries s) (so_tree s)) by (apply sums_hold_b; vm_compute; reflexivity).
  assert (Q : match splitter_plan WellPacked sp (U "new") bg with
              | (Ok tt, p) => match new_sums s ex_opts p with
                              | Ok e => checksum e (U "md5") (U "multibag/member-bags.tsv")
                              | Err _ => None
                              end
              | _ => None
              end = Some (U "h2")) by (vm_compute; reflexivity).
  assert (Q2 : match splitter_plan WellPacked sp (U "new") bg with
              | (Ok tt, p) => match apply_plan s ex_opts p None [] with
                              | Ok a => map (fun bt : pystr * tree => match read (U "multibag/member-bags.tsv") (snd bt) with
                                                       Some c => H (U "md5") c | None => [] end) (a_out a)
                              | Err _ => []
                              end
              | _ => []
              end = [U "h1"]) by (vm_compute; reflexivity).
  clearbody H s. exists H, s, WellPacked, sp, (U "new"). fold bg. clearbody bg sp.
  destruct (splitter_plan WellPacked sp (U "new") bg) as [x p] eqn:Ep. destruct x as [[]|]; [|discriminate]. unfold new_sums in Q.
  destruct (apply_plan s ex_opts p None []) as [a|] eqn:Ha; [|discriminate]. cbn [bind] in Q.
  destruct (a_out a) as [|[h t] [|? ?]] eqn:Eo; try discriminate.
  destruct (load_manifests _ _ _ _) as [e|] eqn:Le in Q; [|discriminate].
  exists p, ex_opts, a, h, t, e.
  do 4 (split; [assumption|]). split; [reflexivity|]. split; [exact Ha|]. split; [exact Eo|]. split; [exact Le|].
  intros Sh. apply Sh in Q. destruct Q as (c & Rc & Hc). cbn [map snd] in Q2. rewrite Rc in Q2. rewrite Hc in Q2. discriminate.
Qed.

Print Assumptions C72_valid_partial.
Print Assumptions C72_refuted.

(** ** C64: replicate *)

(** The destination has what the source has at [p]. *)
Definition replicated (src dst : tree) (p : pystr) : Prop :=
  (forall c, read p src = Some c -> read p dst = Some c) /\
  (is_dir p src = true -> is_dir p dst = true).

Lemma below_longer d p : d <> [] -> below d p = true -> (length d < length p)%nat.
Proof. intros Nd B. apply below_iff in B; auto. destruct B as (r & ->). rewrite app_length. cbn. lia. Qed.

Lemma parents_made p dst t : good_path p -> is_file (dirname p) dst = false ->
  (if exists_ (dirname p) dst then Ok dst else makedirs (dirname p) dst) = Ok t ->
  is_dir (dirname p) t = true /\ is_dir p t = is_dir p dst /\ (forall q, read q t = read q dst).
Proof.
  intros G F H. destruct (exists_ (dirname p) dst) eqn:Ex.
  - inversion H; subst. unfold exists_ in Ex. rewrite F in Ex. auto.
  - destruct (good_path_dirname p G) as [E|Gd].
    { rewrite E in Ex. unfold exists_ in Ex. cbn [is_dir] in Ex. rewrite orb_true_r in Ex. discriminate. }
    pose proof (fun q => makedirs_read q _ _ _ H) as Rq.
    pose proof (fun d => mkall_spec d _ _ _ H) as Sp.
    assert (Np : p <> []) by (apply good_path_nonempty; exact G).
    split; [|split; [|exact Rq]].
    + destruct (Sp (dirname p)) as (_ & _ & A). assert (Et : exists_ (dirname p) t = true).
      { apply A. left. apply in_prefixes; auto. split; auto. apply good_path_nonempty. exact Gd. }
      unfold exists_ in Et. apply orb_true_iff in Et. destruct Et as [Et|Et]; auto.
      apply is_file_read in Et. destruct Et as [c Et]. rewrite Rq in Et. assert (X : is_file (dirname p) dst = true) by (apply is_file_read; eauto).
      congruence.
    + destruct (Sp p) as (A & B & _). destruct (is_dir p dst) eqn:Dp.
      * apply is_dir_dirp in Dp; auto. apply is_dir_dirp; auto.
      * destruct (is_dir p t) eqn:Dt; auto. apply is_dir_dirp in Dt; auto. destruct (A Dt) as [I|D].
        -- apply in_prefixes in I; auto. exfalso. destruct I as [_ I].
           assert (Bl : below p p = true).
           { apply below_dirname; auto. destruct I as [I|I]; [left; symmetry; exact I|right; exact I]. }
           apply below_longer in Bl; auto. lia.
        -- apply is_dir_dirp in D; auto. congruence.
Qed.

Lemma dir_made p dst t : good_path p -> is_dir p dst = false -> exists_ p dst = false -> makedirs p dst = Ok t ->
  is_dir p t = true.
Proof.
  intros G D Ex H. destruct (mkall_spec p _ _ _ H) as (_ & _ & A).
  assert (Np : p <> []) by (apply good_path_nonempty; exact G).
  assert (Et : exists_ p t = true) by (apply A; left; apply in_prefixes; auto).
  unfold exists_ in Et. apply orb_true_iff in Et. destruct Et as [Et|Et]; auto.
  apply is_file_read in Et. destruct Et as [c Et]. rewrite (makedirs_read p _ _ _ H) in Et.
  assert (X : is_file p dst = true) by (apply is_file_read; eauto). unfold exists_ in Ex. rewrite X in Ex. discriminate.
Qed.

Lemma read_written p c t t' : write_file p c t = Ok t' -> read p t' = Some c.
Proof. intros H. apply write_file_ok2 in H. destruct H as (-> & _). unfold read. rewrite od_get_set_same. reflexivity. Qed.

Lemma read_not_dir p c t : p <> [] -> read p t = Some c -> is_dir p t = false.
Proof.
  intros Np R. destruct (is_dir p t) eqn:D; auto. apply is_dir_dirp in D; auto. apply read_get in R. unfold dirp in D. congruence.
Qed.

(** replicate of a read-only bag: whatever the copying does, if the call
    returns normally the destination has the content. For a directory this
    rests on a recalled behaviour of the fs library, see [replicate_ro]; for a
    file it does not: [C64_read_only_file]. *)
Theorem C64_replicate_read_only : forall cp src dst p dst', good_path p ->
  replicate_ro cp src dst p = (dst', Ok tt) -> replicated src dst' p.
Proof.
  intros cp src dst p dst' G H. assert (Np : p <> []) by (apply good_path_nonempty; exact G).
  unfold replicate_ro in H. destruct (exists_ p src); cbn [negb] in H; [|discriminate].
  destruct (is_dir p src) eqn:Ds.
  - assert (Rn : read p src = None).
    { destruct (read p src) eqn:E; auto. apply read_not_dir in E; auto. congruence. }
    split; [congruence|]. intros _. destruct (is_dir p dst) eqn:Dd; [inversion H; subst; exact Dd|].
    destruct (exists_ p dst) eqn:Ex; [discriminate|]. destruct (makedirs p dst) as [t|e] eqn:M; [|discriminate].
    inversion H; subst. eapply dir_made; eauto.
  - split; [|congruence]. intros c Rc. rewrite Rc in H.
    destruct (if exists_ (dirname p) dst then Ok dst else makedirs (dirname p) dst) as [t|e]; [|discriminate].
    destruct cp as [|[l|]]; try discriminate. destruct (write_file p c t) as [t'|e] eqn:Ew; [|discriminate].
    inversion H; subst. eapply read_written; eauto.
Qed.

Theorem C64_read_only_file : forall cp src dst p c dst', p <> [] -> read p src = Some c ->
  replicate_ro cp src dst p = (dst', Ok tt) -> read p dst' = Some c.
Proof.
  intros cp src dst p c dst' Np Rc H. unfold replicate_ro in H.
  destruct (exists_ p src); cbn [negb] in H; [|discriminate]. rewrite (read_not_dir p c src Np Rc), Rc in H.
  destruct (if exists_ (dirname p) dst then Ok dst else makedirs (dirname p) dst) as [t|e]; [|discriminate].
  destruct cp as [|[l|]]; try discriminate. destruct (write_file p c t) as [t'|e] eqn:Ew; [|discriminate].
  inversion H; subst. eapply read_written; eauto.
Qed.

(** replicate of a directory bag: the same with a logger, if the destination
    is not a directory. *)
Theorem C64_replicate_with_logger_partial : forall hardlink can_link cp src dst p dst', good_path p ->
  (is_dir p src = true \/ is_dir p dst = false) -> is_file (dirname p) dst = false ->
  replicate hardlink can_link true cp src dst p = (dst', Ok tt) -> replicated src dst' p.
Proof.
  intros hardlink can_link cp src dst p dst' G Hd Hf H. assert (Np : p <> []) by (apply good_path_nonempty; exact G).
  unfold replicate in H. destruct (exists_ p src); cbn [negb] in H; [|discriminate].
  destruct (is_dir p src) eqn:Ds.
  - assert (Rn : read p src = None).
    { destruct (read p src) eqn:E; auto. apply read_not_dir in E; auto. congruence. }
    split; [congruence|]. intros _. destruct (is_dir p dst) eqn:Dd; [inversion H; subst; exact Dd|].
    destruct (exists_ p dst) eqn:Ex; [discriminate|]. destruct (makedirs p dst) as [t|e] eqn:M; [|discriminate].
    inversion H; subst. eapply dir_made; eauto.
  - destruct Hd as [Hd|Hd]; [discriminate|]. split; [|congruence]. intros c Rc. rewrite Rc in H.
    destruct (if exists_ (dirname p) dst then Ok dst else makedirs (dirname p) dst) as [t|e] eqn:M; [|discriminate].
    destruct (parents_made p dst t G Hf M) as (D1 & D2 & D3).
    unfold write_file in H. rewrite D2, Hd in H. rewrite ?D1 in H.
    destruct (hardlink && can_link && negb (exists_ p t)); [inversion H; subst; unfold read; rewrite od_get_set_same; reflexivity|].
    cbn [andb] in H. rewrite andb_true_r in H. destruct hardlink; [discriminate|]. rewrite ?D2, ?Hd, ?D1 in H.
    destruct cp as [|[l|]]; cbn [fst] in H; try discriminate. inversion H; subst. unfold read; rewrite od_get_set_same; reflexivity.
Qed.

(** Without one, if moreover copying does not fail. Missing for C64: failures
    of copying, which are not reported. *)
Theorem C64_replicate_partial : forall hardlink can_link src dst p dst', good_path p ->
  (is_dir p src = true \/ is_dir p dst = false) -> is_file (dirname p) dst = false ->
  replicate hardlink can_link false CopyDone src dst p = (dst', Ok tt) -> replicated src dst' p.
Proof.
  intros hardlink can_link src dst p dst' G Hd Hf H. assert (Np : p <> []) by (apply good_path_nonempty; exact G).
  unfold replicate in H. destruct (exists_ p src); cbn [negb] in H; [|discriminate].
  destruct (is_dir p src) eqn:Ds.
  - assert (Rn : read p src = None).
    { destruct (read p src) eqn:E; auto. apply read_not_dir in E; auto. congruence. }
    split; [congruence|]. intros _. destruct (is_dir p dst) eqn:Dd; [inversion H; subst; exact Dd|].
    destruct (exists_ p dst) eqn:Ex; [discriminate|]. destruct (makedirs p dst) as [t|e] eqn:M; [|discriminate].
    inversion H; subst. eapply dir_made; eauto.
  - destruct Hd as [Hd|Hd]; [discriminate|]. split; [|congruence]. intros c Rc. rewrite Rc in H.
    destruct (if exists_ (dirname p) dst then Ok dst else makedirs (dirname p) dst) as [t|e] eqn:M; [|discriminate].
    destruct (parents_made p dst t G Hf M) as (D1 & D2 & D3).
    unfold write_file in H. rewrite D2, Hd in H. rewrite ?D1 in H.
    destruct (hardlink && can_link && negb (exists_ p t)); [inversion H; subst; unfold read; rewrite od_get_set_same; reflexivity|].
    rewrite andb_false_r, ?D2, ?Hd, ?D1 in H. inversion H; subst. unfold read; rewrite od_get_set_same; reflexivity.
Qed.

(** A copy that fails half way is not reported, and leaves part of the
    content. *)
Theorem C64_refuted : exists src dst p dst' c,
  wf_tree src /\ wf_tree dst /\ replicate true false false (CopyFails (Some (U "ab"))) src dst p = (dst', Ok tt) /\
  read p src = Some c /\ read p dst' <> Some c /\ is_file p dst' = true.
Proof.
  exists [(U "data", NDir); (U "data/a", NFile (U "abcd"))], [(U "data", NDir)], (U "data/a"),
    [(U "data", NDir); (U "data/a", NFile (U "ab"))], (U "abcd").
  split; [apply wf_treeb_ok; reflexivity|]. split; [apply wf_treeb_ok; reflexivity|].
  split; [reflexivity|]. split; [reflexivity|]. split; [discriminate|reflexivity].
Qed.

Example C64_case :
  replicate true true false CopyDone ex_tree [(U "data", NDir)] (U "data/d/b") =
    ([(U "data", NDir); (U "data/d", NDir); (U "data/d/b", NFile (U "xyz"))], Ok tt) /\
  replicate_ro CopyDone ex_tree [] (U "data/d/b") =
    ([(U "data", NDir); (U "data/d", NDir); (U "data/d/b", NFile (U "xyz"))], Ok tt) /\
  good_path (U "data/d/b").
Proof. split; [reflexivity|]. split; [reflexivity|]. apply good_pathb_ok. reflexivity. Qed.

Print Assumptions C64_replicate_read_only.
Print Assumptions C64_read_only_file.
Print Assumptions C64_replicate_with_logger_partial.
Print Assumptions C64_replicate_partial.
Print Assumptions C64_refuted.

(** * Splitting does not depend on the order in which files are listed (C140) *)

Require Import String NArith ZArith PeanoNat Bool List Lia Permutation.
From Verif Require Import PyBase PyFacts Tsv Fs FsFacts HeadBag BagIt BagItProofs Split SplitProofs3 Props_Split HeadBagProofs3 SplitApply SplitApplyProofs SplitApplyProofs6 Props_SplitApply.
Import ListNotations.
Open Scope N_scope.

(** ** Specification *)

(** The same bag, listed in another order by the file system. *)
Definition relisted (b b' : bag) : Prop :=
  b_name b = b_name b' /\ (forall d, b_dirsize b d = b_dirsize b' d) /\ Permutation (b_tree b) (b_tree b').

(** Bags planned for the same files, with the same name and size. *)
Definition alike_bags (m m' : manifest) : Prop :=
  m_name m = m_name m' /\ m_total m = m_total m' /\ Permutation (m_contents m) (m_contents m').

(** ** Plans *)

Lemma perm_wf t t' : wf_tree t -> Permutation t t' -> wf_tree t'.
Proof.
  intros W P. assert (Pk : Permutation (od_keys t) (od_keys t')) by (apply Permutation_map; exact P). constructor.
  - eapply Permutation_NoDup; [exact Pk|apply W].
  - apply Forall_forall. intros p I0. pose proof (wf_paths t W) as F. rewrite Forall_forall in F. apply F. eapply Permutation_in; [symmetry; exact Pk|exact I0].
  - intros p I0. apply (Permutation_in _ (Permutation_sym Pk)) in I0. apply (wf_parents t W) in I0. unfold is_dir in *.
    rewrite <- (od_get_perm (dirname p) t t' (wf_nodup t W) P). exact I0.
Qed.

Section Listed.
  Variables t t' : tree.
  Hypothesis W : wf_tree t.
  Hypothesis P : Permutation t t'.

  Lemma listed_get p : od_get p t = od_get p t'.
  Proof. apply od_get_perm; [apply W|exact P]. Qed.
  Lemma listed_read p : read p t = read p t'.
  Proof. unfold read. rewrite listed_get. reflexivity. Qed.
  Lemma listed_files p : In p (files t) <-> In p (files t').
  Proof.
    rewrite !in_files; [|apply (perm_wf t t' W P)|apply W]. unfold is_file. rewrite listed_get. reflexivity.
  Qed.
  Lemma listed_nonstandard : Permutation (nonstandard t) (nonstandard t').
  Proof.
    apply NoDup_Permutation; [apply NoDup_nonstandard; exact W|apply NoDup_nonstandard; exact (perm_wf t t' W P)|].
    intros p. rewrite (in_nonstandard t W), (in_nonstandard t' (perm_wf t t' W P)), listed_files.
    assert (E : empty_dir p t <-> empty_dir p t').
    { assert (Pk : Permutation (od_keys t) (od_keys t')) by (apply Permutation_map; exact P).
      unfold empty_dir, is_dir. rewrite listed_get. split; intros [H1 H2]; (split; [exact H1|]); intros q Iq; apply H2;
        [apply (Permutation_in _ (Permutation_sym Pk))|apply (Permutation_in _ Pk)]; exact Iq. }
    rewrite E. reflexivity.
  Qed.
End Listed.

Lemma sum_perm {A} (g : A -> N) l l' : Permutation l l' -> forall n, fold_left (fun s f => s + g f) l n = fold_left (fun s f => s + g f) l' n.
Proof.
  induction 1 as [|x l l' _ IH|x y l|l l1 l2 _ IH1 _ IH2]; intros n; cbn [fold_left]; [reflexivity|apply IH| |rewrite IH1; apply IH2].
  f_equal. lia.
Qed.
Lemma alike_refl m : alike_bags m m.
Proof. split; [reflexivity|split; [reflexivity|apply Permutation_refl]]. Qed.
Lemma alike_all ms : Forall2 alike_bags ms ms.
Proof. induction ms; constructor; auto using alike_refl. Qed.

Lemma complete_alike b b' ms : wf_tree (b_tree b) -> relisted b b' ->
  let p := complete_plan {| p_bag := b; p_manifests := ms |} in
  let p' := complete_plan {| p_bag := b'; p_manifests := ms |} in
  Forall2 alike_bags (p_manifests p) (p_manifests p') /\
  (p_manifests p = p_manifests p' \/ exists m m', p_manifests p = ms ++ [m] /\ p_manifests p' = ms ++ [m']).
Proof.
  intros W (En & Ed & P). cbv zeta.
  set (p0 := {| p_bag := b; p_manifests := ms |}). set (p0' := {| p_bag := b'; p_manifests := ms |}).
  assert (M : Permutation (missing p0) (missing p0')).
  { unfold missing, required, find_destination. cbn [p0 p0' p_manifests p_bag]. apply Permutation_filter. apply listed_nonstandard; assumption. }
  assert (Sz : forall f, sizeof b f = sizeof b' f).
  { intros f. unfold sizeof, size_of, read, is_file. rewrite (listed_get _ _ W P), Ed. reflexivity. }
  unfold complete_plan. cbn [p0 p0' p_bag p_manifests]. fold p0 p0'.
  assert (Tot : fold_left (fun s f => s + sizeof b f) (missing p0) 0 = fold_left (fun s f => s + sizeof b' f) (missing p0') 0).
  { rewrite (sum_perm (sizeof b) _ _ M). clear - Sz. generalize 0. induction (missing p0') as [|x l IH]; intros n; cbn [fold_left]; [reflexivity|]. rewrite Sz. apply IH. }
  destruct (missing p0) as [|x l] eqn:E1; destruct (missing p0') as [|x' l'] eqn:E2.
  - cbn [p_manifests p0 p0']. split; [apply alike_all|left; reflexivity].
  - exfalso. apply Permutation_nil_cons in M. exact M.
  - exfalso. symmetry in M. apply Permutation_nil_cons in M. exact M.
  - cbn [p_manifests]. split; [|right; eauto]. apply Forall2_app; [apply alike_all|]. constructor; [|constructor]. split; [cbn [m_name]; rewrite En; reflexivity|]. split; [exact Tot|exact M].
Qed.

Lemma name_alike nm ms ms' : Forall2 alike_bags ms ms' -> forall k,
  fst (name_from nm k ms) = fst (name_from nm k ms') /\ Forall2 alike_bags (snd (name_from nm k ms)) (snd (name_from nm k ms')).
Proof.
  induction 1 as [|m m' ms ms' A F IH]; intros k; cbn [name_from]; [split; [reflexivity|constructor]|].
  destruct (nm k) as [n|]; [|split; [reflexivity|constructor; assumption]]. destruct (IH (S k)) as [I1 I2].
  destruct (name_from nm (S k) ms) as [r l], (name_from nm (S k) ms') as [r' l']. cbn [fst snd] in *. split; [exact I1|]. constructor; [|exact I2].
  destruct A as (_ & A2 & A3). split; [reflexivity|]. split; [exact A2|exact A3].
Qed.
Lemma name_last nm ms m m' : forall k, removelast (snd (name_from nm k (ms ++ [m]))) = removelast (snd (name_from nm k (ms ++ [m']))).
Proof.
  induction ms as [|x ms IH]; intros k; cbn [app name_from]; [destruct (nm k); reflexivity|].
  destruct (nm k) as [n|].
  - specialize (IH (S k)). assert (L : forall y, snd (name_from nm (S k) (ms ++ [y])) <> []).
    { intros y. destruct ms; cbn [app name_from]; destruct (nm (S k)); try discriminate; destruct (name_from nm (S (S k)) _); discriminate. }
    pose proof (L m) as L1. pose proof (L m') as L2.
    destruct (name_from nm (S k) (ms ++ [m])) as [r l], (name_from nm (S k) (ms ++ [m'])) as [r' l']. cbn [snd] in *.
    destruct l as [|y l]; [congruence|]. destruct l' as [|y' l']; [congruence|]. change (removelast (set_name n x :: y :: l)) with (set_name n x :: removelast (y :: l)).
    change (removelast (set_name n x :: y' :: l')) with (set_name n x :: removelast (y' :: l')). rewrite IH. reflexivity.
  - cbn [snd]. change (x :: ms ++ [m]) with ((x :: ms) ++ [m]). change (x :: ms ++ [m']) with ((x :: ms) ++ [m']). rewrite !removelast_last. reflexivity.
Qed.

(** ** C140 *)

(** The plan that a splitter makes for a bag has the same bags, with the same
    names, sizes and files, in whatever order the file system lists the bag;
    for all bags but the last, the files are in the same order too. *)
Theorem C140_plan : forall k s base b b',
  wf_tree (b_tree b) -> relisted b b' ->
  let (r, p) := splitter_plan k s base b in
  let (r', p') := splitter_plan k s base b' in
  r = r' /\ Forall2 alike_bags (p_manifests p) (p_manifests p') /\
  removelast (p_manifests p) = removelast (p_manifests p').
Proof.
  intros k s base b b' W R. unfold splitter_plan, name_output_bags, create_plan.
  destruct (C18_biggest_first_whatever_the_listing s (b_tree b) (b_tree b') W (proj2 (proj2 R))) as [E _]. rewrite <- E.
  set (ms := match k with WellPacked => _ | Neighborly => _ end).
  destruct (complete_alike b b' ms W R) as [F L]. cbv zeta in F, L.
  set (l := p_manifests (complete_plan {| p_bag := b; p_manifests := ms |})) in *.
  set (l' := p_manifests (complete_plan {| p_bag := b'; p_manifests := ms |})) in *.
  destruct (name_alike (simple_namer base) l l' F O) as [N1 N2].
  assert (N3 : removelast (snd (name_from (simple_namer base) 0 l)) = removelast (snd (name_from (simple_namer base) 0 l'))).
  { destruct L as [->|(m & m' & -> & ->)]; [reflexivity|apply name_last]. }
  destruct (name_from (simple_namer base) 0 l) as [r q], (name_from (simple_namer base) 0 l') as [r' q']. cbn [fst snd p_manifests] in *. auto.
Qed.
Print Assumptions C140_plan.

Lemma alike_names ms ms' : Forall2 alike_bags ms ms' -> forall it, names_for it ms = names_for it ms'.
Proof. induction 1 as [|m m' ms ms' A F IH]; intros it; destruct it; cbn [names_for]; try reflexivity; rewrite IH; [|reflexivity]. destruct A as [-> _]. reflexivity. Qed.
Lemma alike_marked ms ms' : Forall2 alike_bags ms ms' ->
  Forall2 (fun mh mh' => alike_bags (fst mh) (fst mh') /\ snd mh = snd mh') (mark_head ms) (mark_head ms').
Proof.
  induction 1 as [|m m' ms ms' A F IH]; [constructor|]. destruct F as [|n n' ns ns' A' F']; [constructor; [split; [exact A|reflexivity]|constructor]|].
  cbn [mark_head]. constructor; [split; [exact A|reflexivity]|exact IH].
Qed.

Lemma forall2_join {A B C D} (R1 : A -> B -> Prop) (R2 : C -> D -> Prop) (R3 : A -> C -> Prop) (Q : B -> D -> Prop) :
  (forall a b c d, R1 a b -> R2 c d -> R3 a c -> Q b d) ->
  forall la lb lc ld, Forall2 R1 la lb -> Forall2 R2 lc ld -> Forall2 R3 la lc -> Forall2 Q lb ld.
Proof.
  intros H la lb lc ld F1. revert lc ld. induction F1 as [|a b la lb H1 F1 IH]; intros lc ld F2 F3; inversion F3; subst; inversion F2; subst; constructor; eauto.
Qed.

Lemma map_some_inj {A} (l l' : list A) : map Some l = map Some l' -> l = l'.
Proof. revert l'. induction l as [|x l IH]; intros [|y l'] E; try discriminate E; [reflexivity|]. injection E as -> E. f_equal. auto. Qed.

(** Splits by such plans make bags with the same names that hold the same
    files with the same content, apart from the files that the split writes
    itself. *)
Theorem C140_bags : forall s s' o o' p p' it out out' bags bags',
  wf_tree (so_tree s) -> Permutation (so_tree s) (so_tree s') ->
  Forall2 alike_bags (p_manifests p) (p_manifests p') ->
  splits_into s o p it out bags -> splits_into s' o' p' it out' bags' ->
  map fst bags = map fst bags' /\
  Forall2 (fun bt bt' => forall q, ~ own_file true q -> read q (snd bt) = read q (snd bt')) bags bags'.
Proof.
  intros s s' o o' p p' it out out' bags bags' W P F H H'.
  apply made_split in H. destruct H as (ms0 & lu0 & ms1 & lu1 & _ & M & _ & _ & Nm).
  apply made_split in H'. destruct H' as (ms0' & lu0' & ms1' & lu1' & _ & M' & _ & _ & Nm'). split.
  - apply map_some_inj. rewrite Nm, Nm'. apply alike_names. exact F.
  - apply made_each in M. apply made_each in M'.
    refine (forall2_join _ _ _ _ _ _ _ _ _ M M' (alike_marked _ _ F)).
    intros [m h] [b t] [m' h'] [b' t'] (ms & lu & c & Rc & R & _) (ms' & lu' & c' & Rc' & R' & _) [A Eh] q Nq. cbn [fst snd] in *. subst h'.
    assert (Nh : ~ own_file h q) by (intros O; apply Nq; destruct O; constructor; reflexivity).
    rewrite (bag_reads s o b m h ms lu c t q R Nh), (bag_reads s' o' b' m' h ms' lu' c' t' q R' Nh).
    rewrite (listed_read _ _ W P). destruct A as (_ & _ & A).
    assert (E : str_in q (m_contents m) = str_in q (m_contents m')).
    { destruct (str_in q (m_contents m)) eqn:E1; destruct (str_in q (m_contents m')) eqn:E2; try reflexivity; exfalso;
        [apply str_in_iff in E1; apply str_in_false in E2; apply E2; apply (Permutation_in _ A); exact E1
        |apply str_in_iff in E2; apply str_in_false in E1; apply E1; apply (Permutation_in _ (Permutation_sym A)); exact E2]. }
    rewrite E. reflexivity.
Qed.
Print Assumptions C140_bags.

(** ** Examples *)

Definition ex_front140 : tree :=
  [(U "bagit.txt", NFile (U "BagIt-Version: 1.0" ++ [LF])); (U "bag-info.txt", NFile ex_info_text);
   (U "manifest-md5.txt", NFile (U "h1  data/x/a" ++ [LF] ++ U "h2  data/y/b" ++ [LF] ++ U "h3  data/c" ++ [LF]));
   (U "data", NDir); (U "data/c", NFile (U "cc"))].
Definition ex_x140 : tree := [(U "data/x", NDir); (U "data/x/a", NFile (U "abcd"))].
Definition ex_y140 : tree := [(U "data/y", NDir); (U "data/y/b", NFile (U "xyz"))].
Definition ex_tree140 (swapped : bool) : tree := ex_front140 ++ if swapped then ex_y140 ++ ex_x140 else ex_x140 ++ ex_y140.
Definition ex_source140 (swapped : bool) : source :=
  {| so_name := U "src"; so_tree := ex_tree140 swapped; so_info := got [] (load_tags Codecs ex_info_text);
     so_algos := ex_algos;
     so_entries := got [] (load_manifests (fun _ => false) true Codecs (bag_manifests ex_algos true (ex_tree140 swapped)));
     so_reader := Codecs |}.
Definition ex_bag140 (swapped : bool) : bag := {| b_name := U "src"; b_tree := ex_tree140 swapped; b_dirsize := fun _ => 0 |}.
Definition ex_split140 : splitter := fst (new_splitter 10 None (Some [U "/data/x/a"; U "/data/y/b"])).
Definition ex_plan140 (swapped : bool) : plan := snd (splitter_plan WellPacked ex_split140 (U "src") (ex_bag140 swapped)).
Definition ex_out140 (swapped : bool) : dict tree :=
  match apply_plan (ex_source140 swapped) ex_opts (ex_plan140 swapped) None [] with Ok a => a_out a | Err _ => [] end.

Lemma ex_perm140 : Permutation (ex_tree140 false) (ex_tree140 true).
Proof. unfold ex_tree140. apply Permutation_app_head. apply Permutation_app_comm. Qed.
Lemma ex_wf140 : wf_tree (ex_tree140 false).
Proof. apply wf_treeb_ok. vm_compute. reflexivity. Qed.
Lemma ex_into140 b : splits_into (ex_source140 b) ex_opts (ex_plan140 b) None [] (ex_out140 b).
Proof.
  unfold ex_out140. destruct (apply_plan (ex_source140 b) ex_opts (ex_plan140 b) None []) as [a|e] eqn:E; [exists a; auto|].
  exfalso. assert (K : PyBase.is_ok (apply_plan (ex_source140 b) ex_opts (ex_plan140 b) None []) = true) by (destruct b; vm_compute; reflexivity). rewrite E in K. discriminate K.
Qed.

(** The files that the split writes do depend on the order: the manifest of
    the head bag has its lines in the order of the listing. *)
Theorem C140_refuted : exists k sp base s s' ds o bags bags' head t t' q,
  wf_tree (so_tree s) /\ Permutation (so_tree s) (so_tree s') /\ so_name s = so_name s' /\ so_info s = so_info s' /\ so_entries s = so_entries s' /\
  splits_into s o (snd (splitter_plan k sp base {| b_name := so_name s; b_tree := so_tree s; b_dirsize := ds |})) None [] bags /\
  splits_into s' o (snd (splitter_plan k sp base {| b_name := so_name s'; b_tree := so_tree s'; b_dirsize := ds |})) None [] bags' /\
  In (head, t) bags /\ In (head, t') bags' /\ q = U "manifest-md5.txt" /\ read q t <> read q t'.
Proof.
  exists WellPacked, ex_split140, (U "src"), (ex_source140 false), (ex_source140 true), (fun _ => 0), ex_opts, (ex_out140 false), (ex_out140 true),
    (U "src_2.mbag"), (match od_get (U "src_2.mbag") (ex_out140 false) with Some t => t | None => [] end),
    (match od_get (U "src_2.mbag") (ex_out140 true) with Some t => t | None => [] end), (U "manifest-md5.txt").
  split; [exact ex_wf140|]. split; [exact ex_perm140|]. split; [reflexivity|]. split; [reflexivity|]. split; [vm_compute; reflexivity|].
  split; [exact (ex_into140 false)|]. split; [exact (ex_into140 true)|].
  assert (K : forall b, match od_get (U "src_2.mbag") (ex_out140 b) with Some _ => true | None => false end = true) by (intros []; vm_compute; reflexivity).
  split; [pose proof (K false) as K1; destruct (od_get (U "src_2.mbag") (ex_out140 false)) eqn:E; [|discriminate K1]; apply od_get_in in E; exact E|].
  split; [pose proof (K true) as K1; destruct (od_get (U "src_2.mbag") (ex_out140 true)) eqn:E; [|discriminate K1]; apply od_get_in in E; exact E|].
  split; [reflexivity|]. intros E.
  assert (X : streq (match read (U "manifest-md5.txt") (match od_get (U "src_2.mbag") (ex_out140 false) with Some t => t | None => [] end) with Some c => c | None => [] end)
                    (match read (U "manifest-md5.txt") (match od_get (U "src_2.mbag") (ex_out140 true) with Some t => t | None => [] end) with Some c => c | None => [] end) = false) by (vm_compute; reflexivity).
  rewrite E, streq_refl in X. discriminate X.
Qed.
Print Assumptions C140_refuted.

Example C140_case :
  relisted (ex_bag140 false) (ex_bag140 true) /\ wf_tree (b_tree (ex_bag140 false)) /\
  splits_into (ex_source140 false) ex_opts (ex_plan140 false) None [] (ex_out140 false) /\
  splits_into (ex_source140 true) ex_opts (ex_plan140 true) None [] (ex_out140 true) /\
  map m_contents (p_manifests (ex_plan140 false)) = [[U "data/c"]; [U "data/x/a"; U "data/y/b"]] /\
  map m_contents (p_manifests (ex_plan140 true)) = [[U "data/c"]; [U "data/y/b"; U "data/x/a"]] /\
  Forall2 alike_bags (p_manifests (ex_plan140 false)) (p_manifests (ex_plan140 true)).
Proof.
  assert (R : relisted (ex_bag140 false) (ex_bag140 true)) by (split; [reflexivity|split; [reflexivity|exact ex_perm140]]).
  split; [exact R|]. split; [exact ex_wf140|]. split; [exact (ex_into140 false)|]. split; [exact (ex_into140 true)|].
  split; [vm_compute; reflexivity|]. split; [vm_compute; reflexivity|].
  pose proof (C140_plan WellPacked ex_split140 (U "src") (ex_bag140 false) (ex_bag140 true) ex_wf140 R) as C. unfold ex_plan140.
  destruct (splitter_plan WellPacked ex_split140 (U "src") (ex_bag140 false)), (splitter_plan WellPacked ex_split140 (U "src") (ex_bag140 true)). apply C.
Qed.

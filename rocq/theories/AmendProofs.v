(** Handles during an amendment *)
Require Import String NArith PeanoNat Bool List Lia.
From Verif Require Import PyBase PyFacts Version Tsv TsvProofs Fs FsFacts HeadBag HeadBagProofs HeadBagProofs2 HeadBagProofs3 BagIt BagItProofs Split SplitApply SplitApplyProofs SplitApplyProofs5 Restore RestoreProofs RestoreProofs6 Amend.
Import ListNotations.
Open Scope N_scope.

(** ** Tables *)

Definition table_ok (h : hb) (d : dict pystr) : Prop :=
  cur_table h = Ok d /\ NoDup (od_keys d) /\ nonempty_keys d.

Lemma fresh_table h d : hb_lu h = None -> cur_table h = Ok d -> table_ok h d.
Proof.
  intros L C. split; [exact C|]. unfold cur_table in C. rewrite L in C. apply (disk_lookup_keys _ _ C).
Qed.

Lemma table_set p b d : p <> [] -> NoDup (od_keys d) -> nonempty_keys d ->
  NoDup (od_keys (od_set p b d)) /\ nonempty_keys (od_set p b d).
Proof.
  intros P Nd Ne. split; [apply od_set_NoDup; auto|]. apply od_set_Forall; auto.
  intros k E. apply streq_eq in E. subst. exact P.
Qed.

Lemma add_lookup_inv p b h h' : add_file_lookup p b h = (h', Ok tt) ->
  p <> [] /\ b <> [] /\ exists d, cur_table h = Ok d.
Proof.
  unfold add_file_lookup. destruct p as [|c p]; [discriminate|]. destruct b as [|c' b]; [discriminate|].
  intros H. split; [discriminate|]. split; [discriminate|]. unfold cur_table, disk_lookup.
  destruct (hb_lu h) as [d|]; [eauto|]. unfold cache_file_lookup in H. destruct (iter_file_lookup h) as [l|e]; [eauto|].
  destruct e; eauto; discriminate.
Qed.

(** What additions to the lookup leave alone. *)
Definition only_table (h h' : hb) : Prop :=
  hb_mem h' = hb_mem h /\ same_disk h h' /\ forall d, table_ok h d -> exists d', table_ok h' d'.

Lemma only_table_refl h : only_table h h.
Proof. split; [auto|]. split; [auto|]. eauto. Qed.
Lemma only_table_trans a b c : only_table a b -> only_table b c -> only_table a c.
Proof.
  intros (M1 & S1 & T1) (M2 & S2 & T2). split; [congruence|]. split; [eapply same_disk_trans; eauto|].
  intros d T. destruct (T1 d T) as [d' T']. exact (T2 d' T').
Qed.

Lemma add_lookup_only p b h h' : add_file_lookup p b h = (h', Ok tt) -> only_table h h'.
Proof.
  intros H. destruct (add_lookup_inv _ _ _ _ H) as (P & B & d & C).
  destruct (add_lookup_effect p b h d P B C) as (h1 & R & L & S & E & _). rewrite R in H. inversion H; subst h1.
  split; [exact E|]. split; [exact S|]. intros d' (C' & Nd & Ne). rewrite C in C'. inversion C'; subst d'.
  exists (od_set p b d). split; [unfold cur_table; rewrite L; reflexivity|]. apply table_set; auto.
Qed.

Lemma forM_only {A} (f : A -> M unit) l : (forall x h h', f x h = (h', Ok tt) -> only_table h h') ->
  forall h h', forM l f h = (h', Ok tt) -> only_table h h'.
Proof.
  intros F. induction l as [|x l IH]; intros h h' H; cbn [forM] in H.
  - inversion H; subst. apply only_table_refl.
  - apply bindM_ok in H. destruct H as ([] & h1 & H1 & H2). eapply only_table_trans; [eapply F; eauto|eauto].
Qed.

Lemma update_only s inc exc nm h h' : update_for_member s inc exc false nm h = (h', Ok tt) -> only_table h h'.
Proof.
  unfold update_for_member. set (e := match exc with SNone => _ | SStr x => _ | SList l => _ end).
  destruct e as [incl excluded]. intros H. apply bindM_ok in H. destruct H as ([] & h1 & H1 & H).
  unfold retM in H1. inversion H1; subst h1. revert H. apply forM_only. intros i a b H.
  destruct (excluded i); [inversion H; subst; apply only_table_refl|].
  destruct (src_isfile s i); [eapply add_lookup_only; eauto|].
  destruct (src_isdir s i); [|inversion H; subst; apply only_table_refl].
  destruct (walk_selected s i excluded) as [fs|er]; [|discriminate].
  revert H. apply forM_only. intros f a' b'. apply add_lookup_only.
Qed.

(** ** Members *)

(** Additions to a member list. *)
Definition add_all (l ms : list minfo) : list minfo :=
  fold_left (fun l m => drop_member (Tsv.m_name m) l ++ [m]) ms l.

Lemma add_member_inv m h h' : add_member_bag m true h = (h', Ok tt) ->
  exists l d, cur_members h = Ok l /\ cur_table h = Ok d.
Proof.
  intros H. unfold add_member_bag in H. apply bindM_ok in H. destruct H as ([] & h1 & H1 & H).
  apply bindM_ok in H. destruct H as ([] & h2 & H2 & H). apply bindM_ok in H. destruct H as ([] & h3 & H3 & _).
  assert (X : exists l, cur_members h = Ok l /\ same_disk h h1 /\ hb_lu h1 = hb_lu h).
  { unfold cur_members. destruct (hb_mem h) as [l|] eqn:E.
    - inversion H1; subst. eauto.
    - apply bindM_ok in H1. destruct H1 as (l & h0 & H1 & H0). unfold retM in H0. inversion H0; subst h0. clear H0.
      unfold member_bags, member_bags_ro in H1. rewrite E in H1. destruct (iter_member_bags h) as [l'|e].
      + inversion H1; subst. eauto.
      + destruct e; inversion H1; subst; eauto. }
  destruct X as (l & L & S & Lu). exists l. inversion H2; subst h2. clear H2.
  set (h2 := match hb_mem h1 with None => set_mem h1 (Some []) | Some _ => h1 end) in *.
  assert (C : cur_table h2 = cur_table h).
  { transitivity (cur_table h1); [unfold h2; destruct (hb_mem h1); reflexivity|]. unfold cur_table.
    rewrite Lu, (same_disk_lookup _ _ S). reflexivity. }
  unfold remove_member_bag in H3. apply bindM_ok in H3. destruct H3 as (fs & h4 & H3 & _).
  set (h5 := match hb_mem h2 with Some l => _ | None => h2 end) in H3.
  assert (C5 : cur_table h5 = cur_table h) by (rewrite <- C; unfold h5; destruct (hb_mem h2); reflexivity).
  rewrite <- C5. unfold files_in_member in H3. unfold cur_table, disk_lookup. destruct (hb_lu h5) as [d|]; [eauto|].
  unfold cache_file_lookup in H3. destruct (iter_file_lookup h5) as [x|e]; [eauto|]. destruct e; eauto; discriminate.
Qed.

Lemma add_member_eff m h h' l d : add_member_bag m true h = (h', Ok tt) -> cur_members h = Ok l -> table_ok h d ->
  hb_mem h' = Some (drop_member (Tsv.m_name m) l ++ [m]) /\ table_ok h' (drop_files (Tsv.m_name m) d) /\ same_disk h h'.
Proof.
  intros H L (C & Nd & Ne). destruct (add_member_effect m h l d L C Nd Ne) as (h1 & R & E & C' & S).
  rewrite R in H. inversion H; subst h1. split; [exact E|]. split; [|exact S].
  split; [exact C'|]. split; [apply drop_files_NoDup; auto|apply drop_files_nonempty; auto].
Qed.

Lemma cur_members_some h l : hb_mem h = Some l -> cur_members h = Ok l.
Proof. intros E. unfold cur_members. rewrite E. reflexivity. Qed.

Lemma add_members_eff ms : forall h h' l d,
  forM ms (fun m => add_member_bag m true) h = (h', Ok tt) -> cur_members h = Ok l -> table_ok h d ->
  cur_members h' = Ok (add_all l ms) /\ (exists d', table_ok h' d') /\ same_disk h h'.
Proof.
  induction ms as [|m ms IH]; intros h h' l d H L T; cbn [forM] in H.
  - inversion H; subst. cbn. eauto.
  - apply bindM_ok in H. destruct H as ([] & h1 & H1 & H2). destruct (add_member_eff _ _ _ _ _ H1 L T) as (E & T1 & S1).
    destruct (IH _ _ _ _ H2 (cur_members_some _ _ E) T1) as (L' & T' & S'). split; [exact L'|]. split; [exact T'|].
    eapply same_disk_trans; eauto.
Qed.

(** The first additions to a handle that was just opened. *)
Lemma first_members_eff ms h h' l : hb_lu h = None ->
  forM ms (fun m => add_member_bag m true) h = (h', Ok tt) -> cur_members h = Ok l ->
  cur_members h' = Ok (add_all l ms) /\ same_disk h h'.
Proof.
  intros Lu H L. destruct ms as [|m ms].
  - inversion H; subst. cbn. auto.
  - pose proof H as H0. cbn [forM] in H0. apply bindM_ok in H0. destruct H0 as ([] & h1 & H1 & _).
    destruct (add_member_inv _ _ _ H1) as (l' & d & _ & C).
    destruct (add_members_eff (m :: ms) h h' l d H L (fresh_table h d Lu C)) as (A & _ & S). auto.
Qed.

(** ** The member file and the lookup file are reset *)

Lemma streq_neq_sym (a b : pystr) : a <> b -> streq b a = false.
Proof. intros H. apply streq_neq. auto. Qed.

Lemma read_del p q (t : tree) : NoDup (od_keys t) -> read q (od_del p t) = if streq q p then None else read q t.
Proof.
  intros D. unfold read. destruct (streq_reflect q p) as [->|E].
  - rewrite get_del_same; auto.
  - rewrite od_get_del_other; auto.
Qed.

Lemma missing_members h td : std_tags (hb_info h) td -> read (sjoin td F_members) (hb_tree h) = None ->
  iter_member_bags h = Err EMissingFile.
Proof. intros [E O] R. unfold iter_member_bags. rewrite E, O. cbn [bind]. rewrite R. reflexivity. Qed.

Lemma missing_lookup h td : std_tags (hb_info h) td -> read (sjoin td F_lookup) (hb_tree h) = None ->
  iter_file_lookup h = Err EMissingFile.
Proof. intros [E O] R. unfold iter_file_lookup. rewrite E, O. cbn [bind]. rewrite R. reflexivity. Qed.

Lemma ensure_inv h h' : ensure_tagdir h = (h', Ok tt) ->
  exists t', h' = set_tree h t' /\ ensure_step (tag_dir (hb_info h)) (hb_tree h) = Ok t'.
Proof.
  unfold ensure_tagdir, ensure_step. destruct (exists_ _ _).
  - intros H. inversion H; subst. exists (hb_tree h'). rewrite set_tree_id. auto.
  - destruct (mkdir _ _) as [t|]; [|discriminate]. intros H. inversion H; subst. eauto.
Qed.

Lemma ensure_step_other td t t' : ensure_step td t = Ok t' ->
  (forall q, q <> td -> od_get q t' = od_get q t) /\ (NoDup (od_keys t) -> NoDup (od_keys t')) /\
  (forall q, read q t' = read q t).
Proof.
  unfold ensure_step. destruct (exists_ td t) eqn:X.
  - intros H. inversion H; subst. auto.
  - intros H. apply mkdir_ok in H. subst t'. split; [|split].
    + intros q E. rewrite od_get_set. rewrite (streq_neq_sym td q) by auto. reflexivity.
    + intros D. apply od_set_NoDup; auto.
    + intros q. unfold read. rewrite od_get_set. apply exists_false in X. destruct X as [X _].
      destruct (streq_reflect q td) as [->|]; [rewrite X|]; reflexivity.
Qed.

Lemma reset_eff h h' td : std_tags (hb_info h) td -> hb_mem h = None -> NoDup (od_keys (hb_tree h)) ->
  reset_members h = (h', Ok tt) ->
  exists t', h' = set_tree h t' /\ reset_step td (hb_tree h) = Ok t' /\ NoDup (od_keys t') /\
    read (sjoin td F_members) t' = None.
Proof.
  intros S Mm D H. pose proof (std_tag_dir _ _ S) as Td. unfold reset_members in H. rewrite Td in H. unfold reset_step.
  destruct (is_file (sjoin td F_members) (hb_tree h)) eqn:F.
  - destruct (remove_file _ _) as [t|] eqn:R; [|discriminate].
    assert (R' : read (sjoin td F_members) t = None).
    { unfold remove_file in R. rewrite F in R. inversion R; subst. rewrite read_del, streq_refl; auto. }
    apply bindM_ok in H. destruct H as (l & h1 & H1 & H). unfold retM in H. inversion H; subst h1. clear H.
    unfold member_bags, member_bags_ro in H1. cbn [hb_mem set_tree] in H1. rewrite Mm in H1.
    rewrite (missing_members (set_tree h t) td S R') in H1. inversion H1; subst.
    exists t. split; [reflexivity|]. split; [reflexivity|]. split; [|exact R'].
    unfold remove_file in R. rewrite F in R. inversion R; subst. apply od_del_NoDup; auto.
  - apply ensure_inv in H. destruct H as (t' & -> & E). rewrite Td in E. exists t'. split; [reflexivity|].
    split; [exact E|]. destruct (ensure_step_other _ _ _ E) as (_ & N' & Rd). split; [auto|]. rewrite Rd.
    unfold is_file in F. unfold read. destruct (od_get _ _) as [[|]|]; auto; discriminate.
Qed.

Lemma clear_eff h h' td : tag_dir (hb_info h) = td -> NoDup (od_keys (hb_tree h)) ->
  clear_file_lookup h = (h', Ok tt) ->
  exists t', h' = set_lu (set_tree h t') None /\ clear_step td (hb_tree h) = Ok t' /\ NoDup (od_keys t') /\
    read (sjoin td F_lookup) t' = None /\ (forall q, q <> sjoin td F_lookup -> read q t' = read q (hb_tree h)).
Proof.
  intros Td D H. unfold clear_file_lookup in H. rewrite Td in H. unfold clear_step.
  destruct (exists_ (sjoin td F_lookup) (hb_tree h)) eqn:X.
  - destruct (remove_file _ _) as [t|] eqn:R; [|discriminate]. inversion H; subst h'. exists t.
    split; [reflexivity|]. split; [reflexivity|]. unfold remove_file in R. destruct (is_file _ _); [|discriminate].
    inversion R; subst t. split; [apply od_del_NoDup; auto|]. split.
    + rewrite read_del, streq_refl; auto.
    + intros q E. rewrite read_del by auto. apply streq_neq in E. rewrite E. reflexivity.
  - inversion H; subst h'. exists (hb_tree h). rewrite set_tree_id. split; [reflexivity|]. split; [reflexivity|].
    split; [exact D|]. split; [|auto]. apply exists_false in X. destruct X as [X _]. unfold read. rewrite X. reflexivity.
Qed.

(** ** Steps *)

Lemma run_app a b t : run_steps (a ++ b) t = (let? x := run_steps a t in run_steps b x).
Proof. unfold run_steps. rewrite foldM_app. reflexivity. Qed.

Lemma run_cons (s : step) l t : run_steps (s :: l) t = (let? x := s t in run_steps l x).
Proof. reflexivity. Qed.

Lemma put_inv p c h h' : put_file p c h = (h', Ok tt) -> exists t', h' = set_tree h t' /\ write_file p c (hb_tree h) = Ok t'.
Proof. unfold put_file. destruct (write_file _ _ _) as [t|]; [|discriminate]. intros H. inversion H; subst. eauto. Qed.

Lemma save_members_steps h h' l : hb_mem h = Some l -> save_member_bags h = (h', Ok tt) ->
  exists t', h' = set_tree h t' /\ run_steps (members_steps (tag_dir (hb_info h)) l) (hb_tree h) = Ok t'.
Proof.
  intros E H. unfold save_member_bags in H. rewrite E in H. apply bindM_ok in H. destruct H as ([] & h1 & H1 & H).
  apply bindM_ok in H. destruct H as ([] & h2 & H2 & H). inversion H; subst h2. clear H.
  apply ensure_inv in H1. destruct H1 as (t1 & -> & S1). apply put_inv in H2. destruct H2 as (t2 & -> & S2).
  exists t2. split; [reflexivity|]. unfold members_steps. rewrite run_cons, S1. cbn [bind]. rewrite run_cons. cbn [hb_tree set_tree] in S2.
  rewrite S2. reflexivity.
Qed.

Lemma save_lookup_steps h h' : save_file_lookup h = (h', Ok tt) ->
  exists t', h' = set_tree h t' /\ run_steps (lookup_steps (tag_dir (hb_info h)) (hb_lu h)) (hb_tree h) = Ok t'.
Proof.
  intros H. unfold save_file_lookup in H. destruct (hb_lu h) as [d|] eqn:E.
  - apply bindM_ok in H. destruct H as ([] & h1 & H1 & H2).
    apply ensure_inv in H1. destruct H1 as (t1 & -> & S1). apply put_inv in H2. destruct H2 as (t2 & -> & S2).
    exists t2. split; [reflexivity|]. unfold lookup_steps. rewrite run_cons, S1. cbn [bind]. rewrite run_cons. cbn [hb_tree set_tree] in S2.
    rewrite S2. reflexivity.
  - inversion H; subst. exists (hb_tree h'). rewrite set_tree_id. auto.
Qed.

Lemma run_map {A} (f : A -> step) l : forall t, run_steps (map f l) t = foldM (fun t a => f a t) l t.
Proof.
  unfold run_steps. induction l as [|a l IH]; intros t; cbn [map foldM]; auto. destruct (f a t); cbn [bind]; auto.
Qed.

Lemma save_run v algs i t t' : save v algs (i t) t = Ok t' -> run_steps (save_steps v algs i) t = Ok t'.
Proof.
  unfold save, save_steps. rewrite run_cons. destruct (write_file _ _ _) as [t1|]; cbn [bind]; [|discriminate].
  intros H. apply bind_ok in H. destruct H as (t2 & H2 & H). apply bind_ok in H. destruct H as (_ & _ & H). inversion H; subst.
  rewrite run_map. exact H2.
Qed.

Lemma update_info_inv v algs bsize version profver h h' :
  update_info_disk v algs bsize version profver h = (h', Ok tt) ->
  let i1 := update_info_tags version profver (hb_info h) in
  exists t1 t2, save v algs i1 (hb_tree h) = Ok t1 /\
    save v algs (od_set T_BagSize (IStr (bsize t1)) i1) t1 = Ok t2 /\
    h' = set_tree (set_info h (od_set T_BagSize (IStr (bsize t1)) i1)) t2.
Proof.
  intros H. cbv zeta. unfold update_info_disk in H. apply bindM_ok in H. destruct H as ([] & h1 & H1 & H). inversion H1; subst h1. clear H1.
  apply bindM_ok in H. destruct H as ([] & h2 & H2 & H). apply bindM_ok in H. destruct H as ([] & h3 & H3 & H).
  inversion H3; subst h3. clear H3. unfold saveM in H2. cbn [hb_info hb_tree set_info] in H2.
  destruct (save v algs (update_info_tags version profver (hb_info h)) (hb_tree h)) as [t1|] eqn:S1; [|discriminate].
  inversion H2; subst h2. clear H2. unfold saveM in H. cbn [hb_info hb_tree set_info set_tree] in H.
  destruct (save v algs (od_set T_BagSize _ _) t1) as [t2|] eqn:S2; [|discriminate].
  inversion H; subst h'. exists t1, t2. split; [first [exact S1|reflexivity]|]. split; [first [exact S2|reflexivity]|]. reflexivity.
Qed.

Lemma update_info_run v algs bsize version profver h h' :
  update_info_disk v algs bsize version profver h = (h', Ok tt) ->
  run_steps (info_steps v algs bsize version profver (hb_info h)) (hb_tree h) = Ok (hb_tree h').
Proof.
  intros H. apply update_info_inv in H. cbv zeta in H. destruct H as (t1 & t2 & S1 & S2 & ->).
  unfold info_steps. rewrite run_app. rewrite (save_run v algs (fun _ => update_info_tags version profver (hb_info h)) _ _ S1).
  cbn [bind]. rewrite (save_run v algs (fun t => od_set T_BagSize (IStr (bsize t)) (update_info_tags version profver (hb_info h))) t1 t2 S2).
  reflexivity.
Qed.

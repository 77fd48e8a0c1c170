(** Proofs about an Amender that is used step by step *)
Require Import String NArith PeanoNat Bool List Lia.
From Verif Require Import PyBase PyFacts Version Tsv TsvProofs Fs FsFacts HeadBag HeadBagProofs HeadBagProofs2 HeadBagProofs3 BagIt BagItProofs Split SplitApply SplitApplyProofs SplitApplyProofs5 SplitApplyProofs8 Restore RestoreProofs RestoreProofs2 RestoreProofs3 RestoreProofs4 RestoreProofs6 RestoreProofs7 RestoreProofs8 RestoreProofs9 RestoreProofs10 Props_Restore Props_Restore3 Amend AmendProofs AmendProofs2 AmendProofs3 AmendProofs4 Props_SplitApply Props_Amend SingleProofs AmendTotalProofs Props_AmendTotal SingleTotalProofs Stepwise SpecStepwise.
Import ListNotations.
Open Scope N_scope.

(** ** A table in memory stays *)

Definition lu_kept {A} (m : M A) : Prop := forall h h' r, m h = (h', r) -> hb_lu h <> None -> hb_lu h' <> None.

Lemma kept_bind {A B} (m : M A) (f : A -> M B) : lu_kept m -> (forall a, lu_kept (f a)) -> lu_kept (bindM m f).
Proof.
  intros Hm Hf h h' r H L. unfold bindM in H. destruct (m h) as [h1 [a|e]] eqn:E.
  - apply (Hf a h1 h' r H). apply (Hm h h1 (Ok a) E L).
  - injection H as <- <-. apply (Hm h h1 (Err e) E L).
Qed.

Lemma kept_ret {A} (a : A) : lu_kept (retM a).
Proof. intros h h' r H L. injection H as <- <-. exact L. Qed.

Lemma kept_forM {A} (f : A -> M unit) l : (forall x, lu_kept (f x)) -> lu_kept (forM l f).
Proof. intros H. induction l as [|x l IH]; cbn [forM]; [apply kept_ret|]. apply kept_bind; [apply H|]. intros _. exact IH. Qed.

Lemma kept_add p b : lu_kept (add_file_lookup p b).
Proof.
  intros h h' r H L. unfold add_file_lookup in H. destruct p; [injection H as <- <-; exact L|]. destruct b; [injection H as <- <-; exact L|].
  destruct (hb_lu h) as [d|]; [|congruence]. injection H as <- <-. discriminate.
Qed.

Lemma kept_remove p : lu_kept (remove_file_lookup p).
Proof.
  intros h h' r H L. unfold remove_file_lookup in H. destruct p; [injection H as <- <-; exact L|].
  destruct (hb_lu h) as [d|]; [|congruence]. injection H as <- <-. discriminate.
Qed.

Lemma kept_files b : lu_kept (files_in_member b).
Proof.
  intros h h' r H L. unfold files_in_member in H. destruct (hb_lu h) as [d|] eqn:E; [|congruence]. injection H as <- <-. congruence.
Qed.

Lemma kept_members re : lu_kept (member_bags re).
Proof.
  intros h h' r H L. unfold member_bags, member_bags_ro in H.
  destruct (hb_mem h) as [l|]; [destruct re|]; try (injection H as <- <-; exact L);
    (destruct (iter_member_bags h) as [x|e]; [injection H as <- <-; exact L|]; destruct e; injection H as <- <-; exact L).
Qed.

Lemma kept_member m o : lu_kept (add_member_bag m o).
Proof.
  intros h h' r H. unfold add_member_bag in H. revert h h' r H.
  change (lu_kept (fun h => ((fun h => match hb_mem h with Some _ => (h, Ok tt) | None => (do _ <- member_bags false ; retM tt) h end) ;;
   (fun h => (match hb_mem h with None => set_mem h (Some []) | Some _ => h end, Ok tt)) ;;
   (if o then remove_member_bag (Tsv.m_name m) else retM tt) ;;
   (fun h => match hb_mem h with Some l => (set_mem h (Some (l ++ [m])), Ok tt) | None => (h, Err EAttribute) end)) h)).
  apply kept_bind; [|intros _; apply kept_bind; [|intros _; apply kept_bind; [|intros _]]].
  - intros h h' r H L. destruct (hb_mem h); [injection H as <- <-; exact L|]. revert H L.
    apply (kept_bind (member_bags false) (fun _ => retM tt)); [apply kept_members|intros _; apply kept_ret].
  - intros h h' r H L. injection H as <- <-. destruct (hb_mem h); exact L.
  - destruct o; [|apply kept_ret]. intros h h' r H L. unfold remove_member_bag in H.
    set (h0 := match hb_mem h with Some l => _ | None => h end) in H. assert (L0 : hb_lu h0 <> None) by (unfold h0; destruct (hb_mem h); exact L).
    revert H L0. generalize h0. clear. intros h0 H L. revert h0 h' r H L.
    apply (kept_bind (files_in_member (Tsv.m_name m)) (fun fs => forM fs (fun f => unset_deleted f ;; remove_file_lookup f))); [apply kept_files|].
    intros fs. apply kept_forM. intros f. apply kept_bind; [|intros _; apply kept_remove].
    intros h h' r H L. injection H as <- <-. exact L.
  - intros h h' r H L. destruct (hb_mem h); injection H as <- <-; exact L.
Qed.

Lemma kept_update s : lu_kept (update_for_member s SNone SNone false None).
Proof.
  unfold update_for_member. cbn [truthy oget]. apply kept_bind; [apply kept_ret|]. intros _. apply kept_forM. intros i.
  destruct (src_isfile s i); [apply kept_add|]. destruct (src_isdir s i); [|apply kept_ret].
  destruct (walk_selected s i _) as [fs|e].
  - apply kept_forM. intros f. apply kept_add.
  - intros h h' r H L. injection H as <- <-. exact L.
Qed.

(** ** One bag is listed *)

Lemma listing m s h l d : cur_members h = Ok l -> table_ok h d -> bag_files (s_tree s) -> s_name s <> [] -> Tsv.m_name m = s_name s ->
  exists h0 h1 d', add_member_bag m true h = (h0, Ok tt) /\ update_for_member s SNone SNone false None h0 = (h1, Ok tt) /\
    same_disk h h0 /\ same_disk h h1 /\ hb_mem h1 = Some (drop_member (Tsv.m_name m) l ++ [m]) /\ table_ok h1 d' /\
    (forall p, od_get p d' = step_lookup (fun q => od_get q d) (bag_of s) p) /\ (hb_lu h <> None -> hb_lu h1 <> None).
Proof.
  intros C T W Nn En. pose proof T as (T1 & T2 & T3).
  destruct (add_member_effect m h l d C T1 T2 T3) as (h0 & R0 & _).
  destruct (add_member_eff _ _ _ _ _ R0 C T) as (E & T' & S1).
  destruct (update_total s h0 _ (proj1 W) Nn (proj1 T')) as (h1 & R1).
  destruct (update_only _ _ _ _ _ _ R1) as (M1 & S2 & _).
  destruct (step_table m s h h0 h1 l d C T W Nn En R0 R1) as (l' & d' & _ & Td & G).
  exists h0, h1, d'. split; [exact R0|]. split; [exact R1|]. split; [exact S1|]. split; [eapply same_disk_trans; eauto|].
  split; [rewrite M1; exact E|]. split; [exact Td|]. split; [exact G|].
  intros L. apply (kept_update s h0 h1 _ R1). apply (kept_member m true h h0 _ R0 L).
Qed.

(** ** The order of calls *)

Lemma own_once pre post own :
  last_ones (pre ++ own :: post ++ [own]) = last_ones (pre ++ post ++ [own]).
Proof.
  induction pre as [|x pre IH]; cbn [app last_ones].
  - assert (E : str_in (Tsv.m_name own) (map Tsv.m_name (post ++ [own])) = true).
    { apply str_in_iff. rewrite map_app. apply in_or_app. right. left. reflexivity. }
    rewrite E. reflexivity.
  - rewrite IH. assert (E : str_in (Tsv.m_name x) (map Tsv.m_name (pre ++ own :: post ++ [own])) = str_in (Tsv.m_name x) (map Tsv.m_name (pre ++ post ++ [own]))).
    { apply eq_true_iff_eq. rewrite !str_in_iff, !map_app. cbn [map]. rewrite !map_app. cbn [map]. rewrite !in_app_iff. cbn [In]. rewrite !in_app_iff. cbn [In]. tauto. }
    rewrite E. reflexivity.
Qed.

(** The entries that the calls add to the member list, and the bags that they add to the table. *)
Definition listed (name : pystr) (calls : list call) : list minfo :=
  map (fun c => match c with CAdd b => plain_member (s_name b) | CFinalize _ => plain_member name end) calls.
Definition tabled (name : pystr) (t : tree) (calls : list call) : list (pystr * tree) :=
  map (fun c => match c with CAdd b => bag_of b | CFinalize _ => (name, t) end) calls.

Lemma listed_once name calls : forall pre,
  last_ones (pre ++ listed name calls ++ [plain_member name]) =
  last_ones (pre ++ map (fun s => plain_member (s_name s)) (bags_added calls) ++ [plain_member name]).
Proof.
  induction calls as [|c calls IH]; intros pre; [reflexivity|]. destruct c as [b|x].
  - change (last_ones (pre ++ (plain_member (s_name b) :: listed name calls) ++ [plain_member name]) =
      last_ones (pre ++ (plain_member (s_name b) :: map (fun s => plain_member (s_name s)) (bags_added calls)) ++ [plain_member name])).
    pose proof (IH (pre ++ [plain_member (s_name b)])) as X. rewrite <- !app_assoc in X. exact X.
  - change (last_ones (pre ++ plain_member name :: listed name calls ++ [plain_member name]) =
      last_ones (pre ++ map (fun s => plain_member (s_name s)) (bags_added calls) ++ [plain_member name])).
    rewrite own_once. apply IH.
Qed.

(** Answers that differ only in naming the bag itself. *)
Definition but_own (own : pystr) (a b : option pystr) : Prop := a = b \/ (a = Some own /\ b = None) \/ (a = None /\ b = Some own).

Lemma own_last own t m m' p : (holds t p = false -> but_own own (m p) (m' p)) -> step_lookup m (own, t) p = step_lookup m' (own, t) p.
Proof.
  intros H. unfold step_lookup. cbn [fst snd]. destruct (holds t p) eqn:E; [reflexivity|].
  destruct (H eq_refl) as [->|[[-> ->]|[-> ->]]]; [reflexivity| |]; rewrite streq_refl; reflexivity.
Qed.

(** What the bag itself answers before does not matter, as it answers again. *)
Lemma but_first own t m : forall p, (holds t p = false) -> but_own own (step_lookup m (own, t) p) (m p).
Proof.
  intros p H. unfold step_lookup. cbn [fst snd]. rewrite H. destruct (m p) as [x|] eqn:E; [|left; reflexivity].
  destruct (streq_reflect x own) as [->|]; [right; right; auto|left; reflexivity].
Qed.

(** The same at one path. *)
Lemma lookups_at own p l : forall m m', but_own own (m p) (m' p) -> but_own own (lookups m l p) (lookups m' l p).
Proof.
  induction l as [|b l IH]; intros m m' H; [exact H|]. cbn [lookups fold_left].
  apply (IH (step_lookup m b) (step_lookup m' b)). unfold step_lookup. destruct (holds (snd b) p); [left; reflexivity|].
  destruct H as [->|[[-> ->]|[-> ->]]]; [left; reflexivity| |]; destruct (streq own (fst b)); unfold but_own; auto.
Qed.

Lemma lookups_end m l b p : lookups m (l ++ [b]) p = step_lookup (lookups m l) b p.
Proof. unfold lookups. rewrite fold_left_app. reflexivity. Qed.

Lemma own_twice own t l m p : lookups m ((own, t) :: l ++ [(own, t)]) p = lookups m (l ++ [(own, t)]) p.
Proof.
  change (lookups (step_lookup m (own, t)) (l ++ [(own, t)]) p = lookups m (l ++ [(own, t)]) p). rewrite !lookups_end.
  apply own_last. intros H. apply lookups_at. apply but_first. exact H.
Qed.

Lemma tabled_once name t calls : forall m p,
  lookups m (tabled name t calls ++ [(name, t)]) p = lookups m (map bag_of (bags_added calls) ++ [(name, t)]) p.
Proof.
  induction calls as [|c calls IH]; intros m p; [reflexivity|]. destruct c as [b|x].
  - change (lookups (step_lookup m (bag_of b)) (tabled name t calls ++ [(name, t)]) p = lookups (step_lookup m (bag_of b)) (map bag_of (bags_added calls) ++ [(name, t)]) p).
    apply IH.
  - change (lookups m ((name, t) :: tabled name t calls ++ [(name, t)]) p = lookups m (map bag_of (bags_added calls) ++ [(name, t)]) p).
    rewrite own_twice. apply IH.
Qed.

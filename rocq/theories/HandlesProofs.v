(** Proofs about several handles on one head bag *)
Require Import String NArith PeanoNat Bool List Lia.
From Verif Require Import PyBase PyFacts Version Tsv TsvProofs Fs FsFacts HeadBag HeadBagProofs HeadBagProofs2 Handles.
Import ListNotations.
Open Scope nat_scope.

(** ** Calls that do not save leave the disk alone *)

Definition saves (k : call) : bool :=
  match k with KSaveMembers | KSaveLookup | KSaveDeleted => true | _ => false end.

Definition quiet {A} (m : M A) : Prop := forall h, same_disk h (fst (m h)).

Lemma quiet_ret {A} (a : A) : quiet (retM a).
Proof. intros h. apply same_disk_refl. Qed.

Lemma quiet_bind {A B} (m : M A) (f : A -> M B) : quiet m -> (forall a, quiet (f a)) -> quiet (bindM m f).
Proof.
  intros Q1 Q2 h. unfold bindM. pose proof (Q1 h) as S1. destruct (m h) as [h1 [a|e]]; simpl in *; auto.
  eapply same_disk_trans; [exact S1|apply Q2].
Qed.

Lemma quiet_forM {A} (l : list A) f : (forall x, quiet (f x)) -> quiet (forM l f).
Proof. intros Q. induction l as [|x l IH]; [apply quiet_ret|]. simpl. apply quiet_bind; auto. Qed.

Lemma quiet_cache : quiet cache_file_lookup.
Proof. intros h. unfold cache_file_lookup. destruct (iter_file_lookup h); simpl; auto. Qed.

Lemma quiet_members re : quiet (member_bags re).
Proof.
  intros h. unfold member_bags, member_bags_ro. destruct (hb_mem h), re; simpl; auto;
    destruct (iter_member_bags h) as [?|[]]; simpl; auto.
Qed.

Lemma quiet_lookup p re : quiet (lookup_file p re).
Proof.
  intros h. unfold lookup_file, lookup_file_ro. pose proof (quiet_cache h) as S1.
  destruct (hb_lu h), re; simpl; auto;
    (destruct (cache_file_lookup h) as [h1 [?|e]]; simpl in *;
     [destruct (hb_lu h1); simpl; auto|destruct e; simpl; auto]).
Qed.

Lemma quiet_files b : quiet (files_in_member b).
Proof.
  intros h. unfold files_in_member. pose proof (quiet_cache h) as S1.
  destruct (hb_lu h); simpl; auto.
  destruct (cache_file_lookup h) as [h1 [?|e]]; simpl in *; [destruct (hb_lu h1); simpl; auto|destruct e; simpl; auto].
Qed.

Lemma quiet_deleted re : quiet (deleted_paths re).
Proof.
  intros h. unfold deleted_paths. destruct (hb_del h), re; simpl; auto; destruct (iter_deleted h); simpl; auto.
Qed.

Lemma quiet_unset p : quiet (unset_deleted p).
Proof. intros h. unfold unset_deleted. simpl. auto. Qed.

Lemma quiet_set p : quiet (set_deleted p).
Proof. intros h. unfold set_deleted. simpl. auto. Qed.

Lemma quiet_add_lookup p b : quiet (add_file_lookup p b).
Proof.
  intros h. unfold add_file_lookup. pose proof (quiet_cache h) as S1.
  destruct p as [|c p]; [simpl; auto|]. destruct b as [|c' b]; [simpl; auto|].
  destruct (hb_lu h) eqn:E.
  - simpl. auto.
  - destruct (cache_file_lookup h) as [h1 [?|e]]; simpl in *.
    + destruct (hb_lu h1); simpl; auto.
    + destruct e; simpl; auto.
Qed.

Lemma quiet_remove_lookup p : quiet (remove_file_lookup p).
Proof.
  intros h. unfold remove_file_lookup. pose proof (quiet_cache h) as S1.
  destruct p as [|c p]; [simpl; auto|].
  destruct (hb_lu h) eqn:E.
  - simpl. auto.
  - destruct (cache_file_lookup h) as [h1 [?|e]]; simpl in *.
    + destruct (hb_lu h1); simpl; auto.
    + destruct e; simpl; auto.
Qed.

Lemma quiet_remove_member b : quiet (remove_member_bag b).
Proof.
  intros h. unfold remove_member_bag.
  set (h0 := match hb_mem h with Some l => _ | None => h end).
  apply (same_disk_trans h h0); [unfold h0; destruct (hb_mem h); auto|].
  apply (quiet_bind (files_in_member b)); [apply quiet_files|].
  intros fs. apply quiet_forM. intros f. apply quiet_bind; [apply quiet_unset|]. intros _. apply quiet_remove_lookup.
Qed.

Lemma quiet_add_member m o : quiet (add_member_bag m o).
Proof.
  unfold add_member_bag. apply quiet_bind; [|intros _; apply quiet_bind; [|intros _; apply quiet_bind; [|intros _]]].
  - intros h. destruct (hb_mem h); [simpl; auto|]. apply quiet_bind; [apply quiet_members|]. intros; apply quiet_ret.
  - intros h. destruct (hb_mem h); simpl; auto.
  - destruct o; [apply quiet_remove_member|apply quiet_ret].
  - intros h. destruct (hb_mem h); simpl; auto.
Qed.

Lemma quiet_call k : saves k = false -> quiet (call_run k).
Proof.
  destruct k; simpl; intros Sv; try discriminate Sv; unfold ret_as; (apply quiet_bind; [|intros; apply quiet_ret]).
  - apply quiet_members.
  - apply quiet_lookup.
  - apply quiet_files.
  - apply quiet_deleted.
  - apply quiet_add_member.
  - apply quiet_remove_member.
  - apply quiet_add_lookup.
  - apply quiet_remove_lookup.
  - apply quiet_set.
  - apply quiet_unset.
Qed.

(** ** Handles *)

Lemma put_length {A} i (x : A) l : length (put i x l) = length l.
Proof. revert i; induction l as [|y l IH]; intros [|i]; simpl; auto. Qed.

Lemma nth_put_same {A} i (x : A) l : i < length l -> nth_error (put i x l) i = Some x.
Proof. revert i; induction l as [|y l IH]; intros [|i]; simpl; intros H; try lia; auto. apply IH; lia. Qed.

Lemma nth_put_other {A} i j (x : A) l : i <> j -> nth_error (put i x l) j = nth_error l j.
Proof.
  revert i j; induction l as [|y l IH]; intros [|i] [|j]; simpl; intros H; auto; try congruence.
Qed.

Lemma nth_put_none {A} i (x : A) l : nth_error l i = None -> nth_error (put i x l) i = None.
Proof. intros H. apply nth_error_None. rewrite put_length. apply nth_error_None; auto. Qed.

(** Two worlds that differ in nothing but handles for which [q] is true. *)
Definition agree (q : nat -> bool) (w w' : world) : Prop :=
  w_name w = w_name w' /\ w_tree w = w_tree w' /\ w_dinfo w = w_dinfo w' /\
  length (w_handles w) = length (w_handles w') /\
  forall i, q i = false -> nth_error (w_handles w) i = nth_error (w_handles w') i.

Lemma agree_refl q w : agree q w w.
Proof. unfold agree. auto. Qed.

Lemma agree_open q r w w' : agree q w w' -> agree q (open_another r w) (open_another r w').
Proof.
  intros (N1 & T1 & D1 & L1 & H1). unfold agree, open_another. simpl.
  rewrite N1, T1, D1. repeat split; auto.
  - rewrite !app_length, L1. reflexivity.
  - intros i Q. specialize (H1 i Q). destruct (Nat.lt_ge_cases i (length (w_handles w))) as [G|G].
    + rewrite nth_error_app1 by auto. rewrite nth_error_app1 by (rewrite <- L1; auto). exact H1.
    + rewrite nth_error_app2 by auto. rewrite nth_error_app2 by (rewrite <- L1; auto). rewrite L1. reflexivity.
Qed.

(** A call of a handle that both have. *)
Lemma agree_on {A} q i (m : M A) w w' : agree q w w' -> q i = false ->
  snd (on i m w) = snd (on i m w') /\ agree q (fst (on i m w)) (fst (on i m w')).
Proof.
  intros (N1 & T1 & D1 & L1 & H1) Q. unfold on. rewrite <- (H1 i Q).
  destruct (nth_error (w_handles w) i) as [a|] eqn:E; [|split; [reflexivity|repeat split; auto]].
  assert (V : view w' a = view w a) by (unfold view; rewrite N1, T1, D1; reflexivity). rewrite V.
  destruct (m (view w a)) as [h r]. split; [reflexivity|]. unfold agree. simpl.
  repeat split; auto.
  - rewrite !put_length. exact L1.
  - intros j Qj. destruct (Nat.eq_dec i j) as [->|NE].
    + assert (Lt : j < length (w_handles w)) by (apply nth_error_Some; congruence).
      rewrite !nth_put_same; auto. rewrite <- L1; auto.
    + rewrite !nth_put_other; auto.
Qed.

(** A call that does not save, of a handle that does not count. *)
Lemma agree_quiet {A} q i (m : M A) w w' : agree q w w' -> q i = true -> quiet m ->
  agree q (fst (on i m w)) w'.
Proof.
  intros (N1 & T1 & D1 & L1 & H1) Q K. unfold on.
  destruct (nth_error (w_handles w) i) as [a|] eqn:E; [|repeat split; auto].
  specialize (K (view w a)). destruct (m (view w a)) as [h r]. simpl in *.
  destruct K as (_ & T2 & D2 & _ & _). simpl in T2, D2. unfold agree. simpl.
  rewrite T2, D2, put_length. repeat split; auto.
  intros j Qj. rewrite nth_put_other; auto. intros ->. congruence.
Qed.

(** The events of the other handles, and their results. *)
Definition others (q : nat -> bool) (l : list event) : list event :=
  filter (fun e => match e with ECall i _ => negb (q i) | EOpen _ => true end) l.

Fixpoint results_of_others (q : nat -> bool) (l : list event) (as_ : list (option (res answer))) : list (option (res answer)) :=
  match l, as_ with
  | EOpen _ :: t, _ => results_of_others q t as_
  | ECall i _ :: t, a :: r => if q i then results_of_others q t r else a :: results_of_others q t r
  | _, _ => []
  end.

Lemma silent_handles q l : (forall i k, In (ECall i k) l -> q i = true -> saves k = false) ->
  forall w w', agree q w w' ->
  agree q (fst (run l w)) (fst (run (others q l) w')) /\
  results_of_others q l (snd (run l w)) = snd (run (others q l) w').
Proof.
  induction l as [|e l IH]; intros Si w w' A; [split; [exact A|reflexivity]|].
  assert (Si' : forall i k, In (ECall i k) l -> q i = true -> saves k = false) by (intros; eapply Si; [right|]; eauto).
  destruct e as [r|i k]; simpl.
  - apply IH; auto. apply agree_open; auto.
  - destruct (q i) eqn:Q; simpl.
    + pose proof (agree_quiet q i (call_run k) w w' A Q (quiet_call k (Si i k (or_introl eq_refl) Q))) as A1.
      destruct (on i (call_run k) w) as [w1 a]. simpl in A1.
      specialize (IH Si' w1 w' A1). destruct (run l w1) as [w2 as_]. simpl in *. exact IH.
    + destruct (agree_on q i (call_run k) w w' A Q) as [R A1].
      destruct (on i (call_run k) w) as [w1 a]. destruct (on i (call_run k) w') as [w1' a']. simpl in R, A1. subst a'.
      specialize (IH Si' w1 w1' A1).
      destruct (run l w1) as [w2 as_]. destruct (run (others q l) w1') as [w2' as_']. simpl in *.
      destruct IH as [IH1 IH2]. split; auto. f_equal; auto.
Qed.

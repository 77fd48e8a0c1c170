(** * Sizes do not depend on the order in which files are listed (C144) *)

Require Import String NArith ZArith PeanoNat Bool List Lia Permutation.
From Verif Require Import PyBase PyFacts Fs FsFacts HeadBag HeadBagProofs3 BagIt Split SplitApply Restore FormatBytes BagSize Props_Reproducible.
Import ListNotations.
Open Scope N_scope.

Lemma sum_N_perm l l' : Permutation l l' -> sum_N l = sum_N l'.
Proof. induction 1; cbn [sum_N]; lia. Qed.
Lemma filter_perm_ {A} (f : A -> bool) l l' : Permutation l l' -> Permutation (filter f l) (filter f l').
Proof.
  induction 1 as [|x l l' _ IH|x y l|l l1 l2 _ IH1 _ IH2]; cbn [filter]; [constructor| | |eapply perm_trans; eassumption].
  - destruct (f x); [apply perm_skip|]; exact IH.
  - destruct (f x), (f y); try apply Permutation_refl. apply perm_swap.
Qed.

(** calc_oxum, the size that is declared by save in a head bag, calc_bag_size
    and the text that update_bag_size makes of it. [ds] is the size that the
    file system gives for a directory, and [old] the size declared before. *)
Theorem C144_sizes : forall t t', wf_tree t -> Permutation t t' ->
  calc_oxum t = calc_oxum t' /\ bag_size t = bag_size t' /\
  forall ds old, calc_bag_size ds old t = calc_bag_size ds old t' /\ declared_size ds old t = declared_size ds old t'.
Proof.
  intros t t' W P.
  assert (Sz : forall p, size_of p t = size_of p t') by (intros p; unfold size_of; rewrite (listed_read _ _ W P); reflexivity).
  assert (Pf : Permutation (files t) (files t')) by (unfold files; apply Permutation_map, filter_perm_, P).
  assert (Pd : Permutation (dirs t) (dirs t')) by (unfold dirs; apply Permutation_map, filter_perm_, P).
  assert (Sum : forall f, sum_N (map (fun p => size_of p t) (filter f (files t))) = sum_N (map (fun p => size_of p t') (filter f (files t')))).
  { intros f. rewrite (map_ext _ (fun p => size_of p t')) by exact Sz. apply sum_N_perm, Permutation_map, filter_perm_, Pf. }
  assert (All : sum_N (map (fun p => size_of p t) (files t)) = sum_N (map (fun p => size_of p t') (files t'))).
  { rewrite (map_ext _ (fun p => size_of p t')) by exact Sz. apply sum_N_perm, Permutation_map, Pf. }
  split; [|split].
  - unfold calc_oxum. assert (D : is_dir DATA t = is_dir DATA t') by (unfold is_dir; rewrite (listed_get _ _ W P); reflexivity).
    rewrite D, Sum, (Permutation_length (filter_perm_ is_payload _ _ Pf)). reflexivity.
  - unfold bag_size. rewrite All. reflexivity.
  - intros ds old. assert (C : calc_bag_size ds old t = calc_bag_size ds old t').
    { unfold calc_bag_size. rewrite All, (sum_N_perm _ _ (Permutation_map ds Pd)). reflexivity. }
    split; [exact C|]. unfold declared_size. rewrite C. reflexivity.
Qed.
Print Assumptions C144_sizes.

Example C144_sizes_case :
  let t := [(U "bag-info.txt", NFile (U "A: b")); (U "data", NDir); (U "data/x", NFile (U "abc")); (U "data/d", NDir); (U "data/d/y", NFile (U "de"))] in
  wf_tree t /\ Permutation t (rev t) /\ calc_oxum (rev t) = Ok (5, 2) /\ bag_size (rev t) = U "20 B" /\
  calc_bag_size (fun _ => 4096) None (rev t) = 8201.
Proof.
  cbv zeta. split; [apply wf_treeb_ok; vm_compute; reflexivity|]. split; [apply Permutation_rev|]. vm_compute. auto.
Qed.

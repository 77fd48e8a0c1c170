(** * Lemmas on splits that run at the same time *)
Require Import String NArith PeanoNat Bool List Lia.
From Verif Require Import PyBase PyFacts Fs FsFacts HeadBag BagIt Split SplitApply SplitApplyProofs SplitApplyProofs6 SplitStop SplitRace.
Import ListNotations.
Open Scope nat_scope.

Lemma od_set_twice {V} b (x y : V) d : od_set b y (od_set b x d) = od_set b y d.
Proof.
  induction d as [|[k v] d IH]; cbn [od_set]; [rewrite streq_refl; reflexivity|].
  destruct (streq b k) eqn:E; cbn [od_set]; rewrite E; [reflexivity|]. rewrite IH. reflexivity.
Qed.

Lemma od_set_kept {V} b (v : V) d : od_get b d = Some v -> od_set b v d = d.
Proof.
  induction d as [|[k x] d IH]; cbn [od_get od_set]; [discriminate|]. destruct (streq_reflect b k) as [->|D]; intros H.
  - injection H as ->. reflexivity.
  - rewrite IH by exact H. reflexivity.
Qed.

Lemma od_set_app {V} b (v : V) d1 d2 : od_get b d1 = None -> od_set b v (d1 ++ d2) = d1 ++ od_set b v d2.
Proof.
  induction d1 as [|[k x] d1 IH]; cbn [od_get od_set app]; [reflexivity|]. destruct (streq b k); [discriminate|]. intros H. rewrite IH by exact H. reflexivity.
Qed.

Definition tree_of (b : pystr) (d : dict tree) : tree := match od_get b d with Some t => t | None => [] end.
Definition state (d : dict tree) (q : proc) : astate :=
  {| a_out := d; a_members := q_members q; a_lookup := q_lookup q; a_naming := q_naming q |}.

(** ** One process alone *)

Fixpoint alone (k : task) (n : nat) (d : dict tree) (q : proc) : dict tree * proc :=
  match n with O => (d, q) | S n => let (d, q) := alone k n d q in step k d q end.

(** What is there after [n] more steps. *)
Definition left_of (k : task) (n : nat) (d : dict tree) (q : proc) : dict tree :=
  match q_where q with
  | Between => left_after (k_source k) (k_opts k) n (q_rest q) (state d q)
  | Writing b ops fin =>
      let d' := od_set b (run_until (firstn n ops) (tree_of b d)) d in
      if n <? length ops then d'
      else match run_ops ops (tree_of b d), fin with
           | Ok _, Ok _ => left_after (k_source k) (k_opts k) (n - length ops) (q_rest q) (state d' q)
           | _, _ => d'
           end
  | _ => d
  end.

(** What the process will end with. *)
Definition ends_with (k : task) (d : dict tree) (q : proc) : res astate :=
  match q_where q with
  | Between => foldM (apply_one (k_source k) (k_opts k)) (q_rest q) (state d q)
  | Writing b ops fin =>
      let? t := run_ops ops (tree_of b d) in
      let? _ := fin in
      foldM (apply_one (k_source k) (k_opts k)) (q_rest q) (state (od_set b t d) q)
  | Ended => Ok (state d q)
  | Raised e => Err e
  end.

Definition writes (d : dict tree) (q : proc) : Prop :=
  match q_where q with Writing b _ _ => od_get b d <> None | _ => True end.

Lemma step_writes k d q d' q' : writes d q -> step k d q = (d', q') -> writes d' q'.
Proof.
  unfold writes, step, next_bag. destruct (q_where q) as [|b ops fin| |e] eqn:W; intros Hw H.
  - destruct (q_rest q) as [|[m h] rest]; [injection H as <- <-; exact Logic.I|].
    destruct (next_name m (q_naming q)) as [[[b|] it]|e]; try (injection H as <- <-; exact Logic.I).
    destruct (od_has b d); [injection H as <- <-; exact Logic.I|].
    destruct (bag_ops (k_source k) (k_opts k) b m h (push_member b (q_members q)) (fold_left (add_lookup b) (plan_files (k_source k) m) (q_lookup q))) as [ops fin].
    injection H as <- <-. cbn [q_where]. rewrite od_get_set, streq_refl. discriminate.
  - destruct ops as [|x ops]; [destruct fin; injection H as <- <-; exact Logic.I|].
    destruct (run_op _ x) as [t|e]; injection H as <- <-; [|exact Logic.I]. cbn [q_where at_]. rewrite od_get_set, streq_refl. discriminate.
  - injection H as <- <-. rewrite W. exact Logic.I.
  - injection H as <- <-. rewrite W. exact Logic.I.
Qed.

Lemma tree_of_set b t d : tree_of b (od_set b t d) = t.
Proof. unfold tree_of. rewrite od_get_set, streq_refl. reflexivity. Qed.

Lemma tree_of_kept b d : od_get b d <> None -> od_set b (tree_of b d) d = d.
Proof. unfold tree_of. destruct (od_get b d) as [t|] eqn:E; [intros _; apply od_set_kept; exact E|congruence]. Qed.

Lemma left_zero s o mhs a : left_after s o 0 mhs a = a_out a.
Proof. destruct mhs as [|[m h] mhs]; reflexivity. Qed.

Lemma left_of_zero k d q : writes d q -> left_of k 0 d q = d.
Proof.
  unfold left_of, writes. destruct (q_where q) as [|b ops fin| |e]; intros Hw; [apply left_zero| |reflexivity|reflexivity].
  cbn [firstn run_until]. rewrite tree_of_kept by exact Hw. destruct (0 <? length ops) eqn:E; [reflexivity|].
  destruct (run_ops ops (tree_of b d)); [|reflexivity]. destruct fin; [|reflexivity]. cbn [Nat.sub]. apply left_zero.
Qed.

Lemma step_left k d q d' q' n : writes d q -> step k d q = (d', q') -> exists n', left_of k n' d q = left_of k n d' q'.
Proof.
  intros Hw H. pose proof (step_writes k d q d' q' Hw H) as Hw'.
  assert (Stay : d' = d -> left_of k n d' q' = d' -> exists n', left_of k n' d q = left_of k n d' q').
  { intros -> E. exists 0. rewrite (left_of_zero k d q Hw). symmetry. exact E. }
  unfold step, next_bag in H. destruct (q_where q) as [|b ops fin| |e] eqn:W.
  - destruct (q_rest q) as [|[m h] rest] eqn:Er; [injection H as <- <-; apply Stay; reflexivity|].
    destruct (next_name m (q_naming q)) as [[[b|] it]|e] eqn:En; try (injection H as <- <-; apply Stay; reflexivity).
    destruct (od_has b d) eqn:Hb; [injection H as <- <-; apply Stay; reflexivity|].
    destruct (bag_ops (k_source k) (k_opts k) b m h (push_member b (q_members q)) (fold_left (add_lookup b) (plan_files (k_source k) m) (q_lookup q))) as [ops fin] eqn:Eo.
    injection H as <- <-. exists (S n). unfold left_of. rewrite W, Er. cbn [q_where left_after state a_naming a_out a_members a_lookup q_rest q_members q_lookup q_naming].
    rewrite En, Hb, Eo, tree_of_set, od_set_twice. reflexivity.
  - destruct ops as [|x ops].
    + destruct fin as [[]|e]; injection H as <- <-.
      * exists n. unfold left_of. rewrite W. cbn [at_ q_where length q_rest run_ops foldM]. rewrite firstn_nil. cbn [run_until].
        unfold writes in Hw. rewrite W in Hw. rewrite tree_of_kept by exact Hw. rewrite Nat.sub_0_r. destruct n; reflexivity.
      * apply Stay; reflexivity.
    + fold (tree_of b d) in H. destruct (run_op (tree_of b d) x) as [t|e] eqn:Ex; injection H as <- <-; [|apply Stay; reflexivity].
      exists (S n). unfold left_of. rewrite W. cbn [at_ q_where length q_rest]. cbn [firstn run_until]. rewrite Ex, tree_of_set, od_set_twice.
      unfold run_ops. cbn [foldM]. rewrite Ex. cbn [bind]. reflexivity.
  - injection H as <- <-. exists n. reflexivity.
  - injection H as <- <-. exists n. reflexivity.
Qed.

Lemma step_ends k d q d' q' : writes d q -> step k d q = (d', q') -> ends_with k d' q' = ends_with k d q.
Proof.
  unfold step, next_bag. destruct (q_where q) as [|b ops fin| |e] eqn:W; intros Hw H.
  - unfold ends_with at 2. rewrite W. destruct (q_rest q) as [|[m h] rest] eqn:Er; [injection H as <- <-; reflexivity|]. cbn [foldM]. unfold apply_one at 1. cbn [state a_naming a_out a_members a_lookup].
    destruct (next_name m (q_naming q)) as [[[b|] it]|e] eqn:En; try (injection H as <- <-; reflexivity). cbn [bind].
    destruct (od_has b d) eqn:Hb; [injection H as <- <-; reflexivity|].
    destruct (bag_ops (k_source k) (k_opts k) b m h (push_member b (q_members q)) (fold_left (add_lookup b) (plan_files (k_source k) m) (q_lookup q))) as [ops fin] eqn:Eo.
    injection H as <- <-. unfold ends_with. cbn [q_where q_rest]. rewrite tree_of_set. destruct (run_ops ops []) as [t|e]; [|reflexivity]. cbn [bind]. destruct fin as [u|e]; [|reflexivity].
    cbn [bind]. rewrite od_set_twice. reflexivity.
  - unfold ends_with at 2. rewrite W. destruct ops as [|x ops].
    + cbn [run_ops foldM bind]. destruct fin as [[]|e]; injection H as <- <-; [|reflexivity]. cbn [bind]. unfold ends_with. cbn [at_ q_where q_rest].
      unfold writes in Hw. rewrite W in Hw. rewrite tree_of_kept by exact Hw. reflexivity.
    + fold (tree_of b d) in H. unfold run_ops. cbn [foldM]. destruct (run_op (tree_of b d) x) as [t|e] eqn:Ex; injection H as <- <-; [|reflexivity].
      cbn [bind]. unfold ends_with. cbn [at_ q_where q_rest]. rewrite tree_of_set. unfold run_ops. destruct (foldM run_op ops t); [|reflexivity]. cbn [bind]. destruct fin; [|reflexivity].
      cbn [bind]. rewrite od_set_twice. reflexivity.
  - injection H as <- <-. reflexivity.
  - injection H as <- <-. reflexivity.
Qed.

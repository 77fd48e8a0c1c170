Require Import String NArith ZArith Bool List Lia.
From Verif Require Import PyBase PyFacts Version.
Import ListNotations.
Open Scope Z_scope.

(** Specification: lexicographic order on lists of integers. *)
Inductive lex : list Z -> list Z -> Prop :=
| lex_prefix y t : lex [] (y :: t)
| lex_first x y s t : x < y -> lex (x :: s) (y :: t)
| lex_next x s t : lex s t -> lex (x :: s) (x :: t).

Lemma zs_eq_iff a b : zs_eq a b = true <-> a = b.
Proof.
  revert b; induction a as [|x a IH]; destruct b as [|y b]; simpl;
    try (split; [discriminate|discriminate]); try tauto.
  rewrite andb_true_iff, IH, Z.eqb_eq. split; [intros [-> ->]; auto|].
  intros H; injection H; auto.
Qed.

Lemma zs_lt_iff a b : zs_lt a b = true <-> lex a b.
Proof.
  revert b; induction a as [|x a IH]; destruct b as [|y b]; simpl.
  - split; [discriminate|inversion 1].
  - split; constructor.
  - split; [discriminate|inversion 1].
  - destruct (Z.eqb_spec x y) as [->|N].
    + rewrite IH. split; [intros; apply lex_next; auto|].
      inversion 1; subst; [lia|auto].
    + rewrite Z.ltb_lt. split; [intros; apply lex_first; auto|].
      inversion 1; subst; [auto|congruence].
Qed.

Lemma lex_irrefl a : ~ lex a a.
Proof. intros H. remember a as b eqn:E in H at 2. revert E. induction H; intros E; try discriminate; injection E; intros; subst; [lia|auto]. Qed.

Lemma lex_trans a b c : lex a b -> lex b c -> lex a c.
Proof.
  intros H; revert c; induction H; intros c H2; inversion H2; subst; try constructor; auto; lia.
Qed.

Lemma lex_total a b : lex a b \/ a = b \/ lex b a.
Proof.
  revert b; induction a as [|x a IH]; destruct b as [|y b]; auto.
  - left; constructor.
  - right; right; constructor.
  - destruct (Z.lt_trichotomy x y) as [H|[->|H]].
    + left; constructor; auto.
    + destruct (IH b) as [H|[->|H]]; auto.
      * left; apply lex_next; auto.
      * right; right; apply lex_next; auto.
    + right; right; constructor; auto.
Qed.

Lemma version_fields s : fields (vstr s) = FList (map _2int (split_on DOT s)).
Proof. reflexivity. Qed.

Definition nums (s : pystr) := map _2int (split_on DOT s).

Lemma v_lt_iff a b : v_lt (vstr a) (vstr b) = Ok true <-> lex (nums a) (nums b).
Proof. rewrite <- zs_lt_iff. unfold v_lt, nums; simpl. split; [intros H; injection H; auto|intros ->; auto]. Qed.

Lemma v_lt_false a b : v_lt (vstr a) (vstr b) = Ok false <-> ~ lex (nums a) (nums b).
Proof.
  rewrite <- zs_lt_iff. unfold v_lt, nums; simpl.
  destruct (zs_lt _ _); split; intros H; try discriminate; auto. exfalso; apply H; reflexivity.
Qed.

Lemma v_eq_iff a b : v_eq (vstr a) (vstr b) = true <-> nums a = nums b.
Proof. unfold v_eq; simpl. apply zs_eq_iff. Qed.

Lemma total_order a b :
  let lt x y := v_lt (vstr x) (vstr y) = Ok true in
  let eq x y := v_eq (vstr x) (vstr y) = true in
  (lt a b /\ ~ eq a b /\ ~ lt b a) \/ (~ lt a b /\ eq a b /\ ~ lt b a) \/
  (~ lt a b /\ ~ eq a b /\ lt b a).
Proof.
  cbv zeta. rewrite !v_lt_iff, v_eq_iff.
  assert (I := lex_irrefl). assert (T := lex_trans).
  destruct (lex_total (nums a) (nums b)) as [H|[H|H]].
  - left. repeat split; auto; intros K; [rewrite K in H|]; eapply I; eauto.
  - right; left. rewrite H. repeat split; auto.
  - right; right. repeat split; auto; intros K; [|rewrite K in H]; eapply I; eauto.
Qed.

Lemma transitive a b c :
  v_lt (vstr a) (vstr b) = Ok true -> v_lt (vstr b) (vstr c) = Ok true ->
  v_lt (vstr a) (vstr c) = Ok true.
Proof. rewrite !v_lt_iff. apply lex_trans. Qed.

Lemma operators a b :
  exists l, v_lt (vstr a) (vstr b) = Ok l /\
    v_le (vstr a) (vstr b) = Ok (l || v_eq (vstr a) (vstr b)) /\
    v_ge (vstr a) (vstr b) = Ok (negb l) /\
    v_gt (vstr a) (vstr b) = Ok (negb (l || v_eq (vstr a) (vstr b))) /\
    v_gt (vstr a) (vstr b) = v_lt (vstr b) (vstr a) /\
    v_ge (vstr a) (vstr b) = v_le (vstr b) (vstr a) /\
    v_ne (vstr a) (vstr b) = negb (v_eq (vstr a) (vstr b)).
Proof.
  destruct (v_lt (vstr a) (vstr b)) as [l|] eqn:E; [|discriminate].
  exists l. unfold v_le, v_ge, v_gt, v_le, v_ne. rewrite E. cbn [bind].
  destruct (v_lt (vstr b) (vstr a)) as [l'|] eqn:E'; [|discriminate].
  pose proof (total_order a b) as T. cbv beta zeta in T. rewrite E, E' in T.
  assert (S : v_eq (vstr b) (vstr a) = v_eq (vstr a) (vstr b)).
  { destruct (v_eq (vstr a) (vstr b)) eqn:K.
    - apply v_eq_iff. symmetry. apply v_eq_iff; auto.
    - destruct (v_eq (vstr b) (vstr a)) eqn:K2; auto.
      apply v_eq_iff in K2. symmetry in K2. apply v_eq_iff in K2. congruence. }
  rewrite S. cbn [bind]. clear E E' S. revert T. destruct (v_eq (vstr a) (vstr b)), l, l'; simpl;
    intros T; repeat split; auto; exfalso;
    destruct T as [(?&?&?)|[(?&?&?)|(?&?&?)]]; congruence.
Qed.

Lemma dotted_no_dot n : ~ In DOT (dec n).
Proof.
  intros H. pose proof (dec_digits n) as F. rewrite Forall_forall in F. apply F in H. discriminate.
Qed.

Lemma nums_dotted ns : ns <> [] -> nums (join [DOT] (map dec ns)) = map Z.of_N ns.
Proof.
  intros NE. unfold nums. rewrite split_join.
  - rewrite map_map. apply map_ext. intros n. unfold _2int. rewrite py_int_dec. reflexivity.
  - destruct ns; [congruence|discriminate].
  - apply Forall_forall. intros w H. apply in_map_iff in H as (n & <- & _). apply dotted_no_dot.
Qed.

Lemma dotted_lt ns ms : ns <> [] -> ms <> [] ->
  (v_lt (vstr (join [DOT] (map dec ns))) (vstr (join [DOT] (map dec ms))) = Ok true
   <-> lex (map Z.of_N ns) (map Z.of_N ms)).
Proof. intros. rewrite v_lt_iff, !nums_dotted by auto. tauto. Qed.

Lemma dotted_eq ns ms : ns <> [] -> ms <> [] ->
  (v_eq (vstr (join [DOT] (map dec ns))) (vstr (join [DOT] (map dec ms))) = true <-> ns = ms).
Proof.
  intros. rewrite v_eq_iff, !nums_dotted by auto. split; [|congruence].
  intros E. assert (I : forall a b, map Z.of_N a = map Z.of_N b -> a = b).
  { induction a; destruct b; simpl; intros K; try discriminate; auto.
    injection K as K1 K2. f_equal; auto. lia. }
  auto.
Qed.

(** A field with a character that is not a digit, sign, underscore or blank
    is counted as -1. *)
Lemma digits_val_bad acc prev s c :
  In c s -> is_digit c = false -> c <> 95%N -> digits_val acc prev s = None.
Proof.
  intros H D N. revert acc prev. induction s as [|x s IH]; simpl in *; [tauto|]. intros acc prev.
  destruct H as [->|H].
  - rewrite D. apply N.eqb_neq in N as ->. reflexivity.
  - destruct (is_digit x); auto. destruct ((x =? 95)%N && prev); auto.
Qed.

Lemma nonnumeric_field w c :
  In c (strip w) -> is_digit c = false -> c <> 95%N -> c <> 45%N -> c <> 43%N -> _2int w = -1.
Proof.
  intros H D N1 N2 N3. unfold _2int, py_int. destruct (strip w) as [|x t]; [reflexivity|].
  destruct (N.eqb_spec x 45) as [->|].
  - destruct H as [H|H]; [congruence|]. rewrite (digits_val_bad 0 false t c H D N1). reflexivity.
  - destruct (N.eqb_spec x 43) as [->|].
    + destruct H as [H|H]; [congruence|]. rewrite (digits_val_bad 0 false t c H D N1). reflexivity.
    + rewrite (digits_val_bad 0 false (x :: t) c H D N1). reflexivity.
Qed.

Lemma tuple_order l m :
  (v_lt (mk_version (VTup l)) (mk_version (VTup m)) = Ok true <-> lex l m) /\
  (v_eq (mk_version (VTup l)) (mk_version (VTup m)) = true <-> l = m).
Proof.
  unfold v_lt, v_eq; simpl. rewrite zs_eq_iff, <- zs_lt_iff.
  split; [|tauto]. split; [intros H; injection H; auto|intros ->; auto].
Qed.

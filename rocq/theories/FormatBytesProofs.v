Require Import String NArith ZArith QArith Qabs Qpower Bool List Lia Lqa.
From Verif Require Import PyBase PyFacts PyFloat PyFloatProofs FormatBytes.
Import ListNotations.
Open Scope Q_scope.

(** ** Accumulated rounding *)

Definition near (k : Z) (x y : Q) : Prop := y * (1 - inject_Z k * u) <= x /\ x <= y * (1 + 2 * inject_Z k * u).
Definition small (k : Z) : Prop := (0 <= k <= 2 ^ 20)%Z.

Lemma small_Q k : small k -> 0 <= inject_Z k /\ inject_Z k <= 1048576.
Proof. intros [A B]. change 0 with (inject_Z 0). change 1048576 with (inject_Z (2 ^ 20)). rewrite <- !Zle_Qle. auto. Qed.
Lemma near_refl x : near 0 x x.
Proof. unfold near. change (inject_Z 0) with 0. split; ring_simplify; apply Qle_refl. Qed.
Lemma near_nonneg k x y : small k -> 0 <= y -> near k x y -> 0 <= x.
Proof.
  intros S Y [A _]. apply small_Q in S. destruct S as [S1 S2]. eapply Qle_trans; [|exact A]. apply Qmult_le_0_compat; [exact Y|]. rewrite u_value. lra.
Qed.
Lemma near_rnd k x y : small k -> 0 <= y -> near k x y -> near (k + 1) (rnd x) y.
Proof.
  intros S Y Nr. pose proof (near_nonneg _ _ _ S Y Nr) as X. destruct Nr as [A B]. destruct (rnd_error x X) as [R1 R2].
  apply small_Q in S. destruct S as [S1 S2]. unfold near. rewrite inject_Z_plus. change (inject_Z 1) with 1. set (K := inject_Z k) in *. clearbody K.
  rewrite u_value in *. split.
  - apply Qle_trans with (x * (1 - (1 # 9007199254740992))); [|exact R1].
    apply Qle_trans with (y * (1 - K * (1 # 9007199254740992)) * (1 - (1 # 9007199254740992))); [|apply Qmult_le_r; [reflexivity|exact A]].
    rewrite <- Qmult_assoc. rewrite (Qmult_comm y), (Qmult_comm y). apply Qmult_le_compat_r; [|exact Y]. lra.
  - apply Qle_trans with (x * (1 + (1 # 9007199254740992))); [exact R2|].
    apply Qle_trans with (y * (1 + 2 * K * (1 # 9007199254740992)) * (1 + (1 # 9007199254740992))); [apply Qmult_le_r; [reflexivity|exact B]|].
    rewrite <- Qmult_assoc. rewrite (Qmult_comm y), (Qmult_comm y). apply Qmult_le_compat_r; [|exact Y]. lra.
Qed.
Lemma near_scale k x y c : 0 <= c -> near k x y -> near k (x * c) (y * c).
Proof.
  intros C [A B]. split.
  - assert (E : y * c * (1 - inject_Z k * u) == y * (1 - inject_Z k * u) * c) by ring. rewrite E. apply Qmult_le_compat_r; auto.
  - assert (E : y * c * (1 + 2 * inject_Z k * u) == y * (1 + 2 * inject_Z k * u) * c) by ring. rewrite E. apply Qmult_le_compat_r; auto.
Qed.
Lemma near_eq k x y x' y' : x == x' -> y == y' -> near k x y -> near k x' y'.
Proof. intros E F [A B]. unfold near. rewrite <- E, <- F. auto. Qed.
Lemma near_mul a b x y x' y' : small a -> small b -> 0 <= y -> 0 <= y' -> near a x y -> near b x' y' -> near (a + b + 1) (x * x') (y * y').
Proof.
  intros Sa Sb Y Y' Na Nb. pose proof (near_nonneg _ _ _ Sa Y Na) as X. pose proof (near_nonneg _ _ _ Sb Y' Nb) as X'.
  destruct Na as [A1 A2], Nb as [B1 B2]. apply small_Q in Sa. apply small_Q in Sb. destruct Sa as [Sa1 Sa2], Sb as [Sb1 Sb2].
  unfold near. rewrite !inject_Z_plus. change (inject_Z 1) with 1. set (K := inject_Z a) in *. set (L := inject_Z b) in *. clearbody K L. rewrite u_value in *.
  set (w := 1 # 9007199254740992) in *.
  assert (W : 0 <= K * L /\ K * L <= 1048576 * L) by (split; [apply Qmult_le_0_compat; auto|apply Qmult_le_compat_r; auto]).
  split.
  - apply Qle_trans with ((y * (1 - K * w)) * (y' * (1 - L * w))).
    + assert (E : y * (1 - K * w) * (y' * (1 - L * w)) == ((1 - K * w) * (1 - L * w)) * (y * y')) by ring. rewrite E.
      rewrite (Qmult_comm (y * y')). apply Qmult_le_compat_r; [|apply Qmult_le_0_compat; auto].
      assert (E2 : (1 - K * w) * (1 - L * w) == 1 - K * w - L * w + (K * L) * (w * w)) by ring. rewrite E2. unfold w. lra.
    + apply Qle_trans with (x * (y' * (1 - L * w))).
      * apply Qmult_le_compat_r; [exact A1|]. apply Qmult_le_0_compat; [exact Y'|]. unfold w. lra.
      * rewrite (Qmult_comm x), (Qmult_comm x). apply Qmult_le_compat_r; auto.
  - apply Qle_trans with ((y * (1 + 2 * K * w)) * (y' * (1 + 2 * L * w))).
    + apply Qle_trans with ((y * (1 + 2 * K * w)) * x').
      * apply Qmult_le_compat_r; auto.
      * rewrite !(Qmult_comm (y * (1 + 2 * K * w))). apply Qmult_le_compat_r; [exact B2|]. apply Qmult_le_0_compat; [exact Y|]. unfold w. lra.
    + assert (E : y * (1 + 2 * K * w) * (y' * (1 + 2 * L * w)) == ((1 + 2 * K * w) * (1 + 2 * L * w)) * (y * y')) by ring. rewrite E.
      rewrite (Qmult_comm (y * y')). apply Qmult_le_compat_r; [|apply Qmult_le_0_compat; auto].
      assert (E2 : (1 + 2 * K * w) * (1 + 2 * L * w) == 1 + 2 * K * w + 2 * L * w + 4 * (K * L) * (w * w)) by ring. rewrite E2. unfold w. lra.
Qed.

Lemma near_div k x y c : (0 <= k < 2 ^ 20)%Z -> 0 <= y -> (0 < c <= 2 ^ 53)%Z -> near k x y -> near (k + 2) (fdiv x (inject_Z c)) (y / inject_Z c).
Proof.
  intros S Y C Nr. assert (Cp : 0 < inject_Z c) by (change 0 with (inject_Z 0); rewrite <- Zlt_Qlt; lia). unfold fdiv.
  pose proof (near_rnd k x y ltac:(unfold small; lia) Y Nr) as N1.
  assert (N2 : near (k + 1) (rnd x / rnd (inject_Z c)) (y / inject_Z c)).
  { unfold Qdiv. eapply near_eq; [|reflexivity|apply near_scale; [|exact N1]].
    - rewrite rnd_int by lia. reflexivity.
    - apply Qinv_le_0_compat. apply Qlt_le_weak. exact Cp. }
  replace (k + 2)%Z with (k + 1 + 1)%Z by lia. apply near_rnd; [unfold small; lia| |exact N2].
  apply Qle_shift_div_l; [exact Cp|]. ring_simplify. exact Y.
Qed.
Lemma div_ge x (c j : Z) : (0 < c <= 2 ^ 53)%Z -> (0 < j <= 2 ^ 53)%Z -> (j * c <= 2 ^ 53)%Z ->
  inject_Z (j * c) <= x -> inject_Z j <= fdiv x (inject_Z c).
Proof.
  intros C J JC H. unfold fdiv. apply rnd_ge; [exact J|]. assert (Cp : 0 < inject_Z c) by (change 0 with (inject_Z 0); rewrite <- Zlt_Qlt; lia).
  rewrite rnd_int by lia. apply Qle_shift_div_l; [exact Cp|]. rewrite <- inject_Z_mult. apply rnd_ge; [nia|exact H].
Qed.

(** ** The first loop *)

Definition order (n : N) : nat :=
  if (n <? 1000)%N then 0 else if (n <? 1000000)%N then 1 else if (n <? 1000000000)%N then 2 else if (n <? 1000000000000)%N then 3 else 4.

Record at_order (n : N) (j : nat) (x : Q) : Prop := {
  ao_near : near (2 * Z.of_nat j) x (inject_Z (Z.of_N n) / inject_Z (1000 ^ Z.of_nat j));
  ao_ge : forall i, (j <= i <= 5)%nat -> (1000 ^ Z.of_nat i <= Z.of_N n)%Z -> inject_Z (1000 ^ Z.of_nat (i - j)) <= x
}.

Lemma thousand_pos j : 0 < inject_Z (1000 ^ Z.of_nat j).
Proof. change 0 with (inject_Z 0). rewrite <- Zlt_Qlt. apply Z.pow_pos_nonneg; lia. Qed.
Lemma count_nonneg n j : 0 <= inject_Z (Z.of_N n) / inject_Z (1000 ^ Z.of_nat j).
Proof.
  apply Qle_shift_div_l; [apply thousand_pos|]. ring_simplify. change 0 with (inject_Z 0). rewrite <- Zle_Qle. lia.
Qed.

Lemma at_order_next n j x : (j < 5)%nat -> at_order n j x -> inject_Z 1000 <= x -> at_order n (S j) (fdiv x (inject_Z 1000)).
Proof.
  intros J [A B] X. split.
  - replace (2 * Z.of_nat (S j))%Z with (2 * Z.of_nat j + 2)%Z by lia.
    apply (near_eq _ (fdiv x (inject_Z 1000)) (inject_Z (Z.of_N n) / inject_Z (1000 ^ Z.of_nat j) / inject_Z 1000)); [reflexivity| |apply near_div; [lia|apply count_nonneg|lia|exact A]].
    replace (Z.of_nat (S j)) with (Z.of_nat j + 1)%Z by lia. rewrite Z.pow_add_r by lia. rewrite inject_Z_mult. change (1000 ^ 1)%Z with 1000%Z.
    pose proof (thousand_pos j). field; lra.
  - intros i I H. assert (P : (1000 ^ Z.of_nat (i - S j) * 1000 = 1000 ^ Z.of_nat (i - j))%Z).
    { replace (Z.of_nat (i - j)) with (Z.of_nat (i - S j) + 1)%Z by lia. rewrite Z.pow_add_r by lia. reflexivity. }
    assert (L : (1000 ^ Z.of_nat (i - j) <= 1000 ^ 5)%Z) by (apply Z.pow_le_mono_r; lia).
    assert (L' : (0 < 1000 ^ Z.of_nat (i - S j) <= 1000 ^ 5)%Z) by (split; [apply Z.pow_pos_nonneg; lia|apply Z.pow_le_mono_r; lia]).
    change (1000 ^ 5)%Z with 1000000000000000%Z in *.
    apply div_ge; [lia|lia|lia|]. rewrite P. apply B; [lia|exact H].
Qed.
Lemma at_order_below n j x : (j <= 3)%nat -> at_order n j x -> (Z.of_N n < 1000 ^ Z.of_nat (S j))%Z -> x < inject_Z 1000.
Proof.
  intros J [[_ A] _] H. eapply Qle_lt_trans; [exact A|]. rewrite u_value.
  assert (Hn : inject_Z (Z.of_N n) <= inject_Z (1000 ^ Z.of_nat (S j) - 1)) by (rewrite <- Zle_Qle; lia).
  set (v := inject_Z (Z.of_N n)) in *. clearbody v. clear A H.
  do 4 (destruct j as [|j]; [match goal with |- context [inject_Z (1000 ^ ?a)] => let z := eval vm_compute in (1000 ^ a)%Z in change (1000 ^ a)%Z with z end;
    match goal with H : context [(1000 ^ ?a - 1)%Z] |- _ => let z := eval vm_compute in (1000 ^ a - 1)%Z in change (1000 ^ a - 1)%Z with z in H end;
    match goal with |- context [inject_Z (2 * Z.of_nat ?a)] => let z := eval vm_compute in (2 * Z.of_nat a)%Z in change (2 * Z.of_nat a)%Z with z end;
    unfold inject_Z in *; unfold Qdiv; match goal with |- context [/ ?c] => let z := eval vm_compute in (/ c) in change (/ c) with z end; lra|]). lia.
Qed.
Lemma at_order_above n j x : (j <= 3)%nat -> at_order n j x -> (1000 ^ Z.of_nat (S j) <= Z.of_N n)%Z -> inject_Z 1000 <= x.
Proof. intros J [_ B] H. specialize (B (S j) ltac:(lia) H). replace (S j - j)%nat with 1%nat in B by lia. exact B. Qed.

Lemma test_order n j x : (j <= 3)%nat -> at_order n j x -> Qle_bool (inject_Z 1000) x = (1000 ^ Z.of_nat (S j) <=? Z.of_N n)%Z.
Proof.
  intros J A. destruct (Z.leb_spec (1000 ^ Z.of_nat (S j)) (Z.of_N n)) as [H|H].
  - apply Qle_bool_iff. eapply at_order_above; eauto.
  - pose proof (at_order_below n j x J A H) as B. destruct (Qle_bool _ x) eqn:E; [|reflexivity]. apply Qle_bool_iff in E. exfalso. lra.
Qed.

Lemma thousands_spec n : exists x, thousands 4 (inject_Z (Z.of_N n)) 0 = (x, order n) /\ at_order n (order n) x.
Proof.
  set (x := inject_Z (Z.of_N n)).
  assert (A0 : at_order n 0 x).
  { split.
    - apply (near_eq _ x x); [reflexivity| |apply near_refl]. unfold x. change (1000 ^ Z.of_nat 0)%Z with 1%Z. field.
    - intros i I H. rewrite Nat.sub_0_r. unfold x. rewrite <- Zle_Qle. exact H. }
  clearbody x. cbn [thousands].
  unfold order. rewrite (test_order n 0 x) by (auto; lia). change (1000 ^ Z.of_nat 1)%Z with (Z.of_N 1000).
  destruct (N.ltb_spec n 1000) as [H|H]; [replace (Z.of_N 1000 <=? Z.of_N n)%Z with false by (symmetry; apply Z.leb_gt; lia); exists x; auto|].
  replace (Z.of_N 1000 <=? Z.of_N n)%Z with true by (symmetry; apply Z.leb_le; lia).
  assert (A1 := at_order_next n 0 x ltac:(lia) A0 ltac:(eapply at_order_above; [|exact A0|]; [lia|change (1000 ^ Z.of_nat 1)%Z with 1000%Z; lia])).
  set (x1 := fdiv x _) in *. clearbody x1. rewrite (test_order n 1 x1) by (auto; lia). change (1000 ^ Z.of_nat 2)%Z with (Z.of_N 1000000).
  destruct (N.ltb_spec n 1000000) as [H1|H1]; [replace (Z.of_N 1000000 <=? Z.of_N n)%Z with false by (symmetry; apply Z.leb_gt; lia); exists x1; auto|].
  replace (Z.of_N 1000000 <=? Z.of_N n)%Z with true by (symmetry; apply Z.leb_le; lia).
  assert (A2 := at_order_next n 1 x1 ltac:(lia) A1 ltac:(eapply at_order_above; [|exact A1|]; [lia|change (1000 ^ Z.of_nat 2)%Z with 1000000%Z; lia])).
  set (x2 := fdiv x1 _) in *. clearbody x2. rewrite (test_order n 2 x2) by (auto; lia). change (1000 ^ Z.of_nat 3)%Z with (Z.of_N 1000000000).
  destruct (N.ltb_spec n 1000000000) as [H2|H2]; [replace (Z.of_N 1000000000 <=? Z.of_N n)%Z with false by (symmetry; apply Z.leb_gt; lia); exists x2; auto|].
  replace (Z.of_N 1000000000 <=? Z.of_N n)%Z with true by (symmetry; apply Z.leb_le; lia).
  assert (A3 := at_order_next n 2 x2 ltac:(lia) A2 ltac:(eapply at_order_above; [|exact A2|]; [lia|change (1000 ^ Z.of_nat 3)%Z with 1000000000%Z; lia])).
  set (x3 := fdiv x2 _) in *. clearbody x3. rewrite (test_order n 3 x3) by (auto; lia). change (1000 ^ Z.of_nat 4)%Z with (Z.of_N 1000000000000).
  destruct (N.ltb_spec n 1000000000000) as [H3|H3]; [replace (Z.of_N 1000000000000 <=? Z.of_N n)%Z with false by (symmetry; apply Z.leb_gt; lia); exists x3; auto|].
  replace (Z.of_N 1000000000000 <=? Z.of_N n)%Z with true by (symmetry; apply Z.leb_le; lia).
  assert (A4 := at_order_next n 3 x3 ltac:(lia) A3 ltac:(eapply at_order_above; [|exact A3|]; [lia|change (1000 ^ Z.of_nat 4)%Z with 1000000000000%Z; lia])).
  exists (fdiv x3 (inject_Z 1000)). auto.
Qed.

(** ** The second loop *)

Lemma tens_spec f : forall k x y r, (0 <= k)%Z -> (k + 2 * Z.of_nat f < 2 ^ 20)%Z -> near k x y -> inject_Z 1 <= x -> 0 <= y -> y <= inject_Z (4 * 2 ^ Z.of_nat f) ->
  exists m s, tens f x r = (m, (r + s)%nat) /\ near (k + 2 * Z.of_nat s) m (y / inject_Z (10 ^ Z.of_nat s)) /\ inject_Z 1 <= m /\ m < inject_Z 10 /\ (s <= f)%nat.
Proof.
  assert (Stop : forall f k x y r, (0 <= k)%Z -> near k x y -> inject_Z 1 <= x -> x < inject_Z 10 ->
    exists m s, (x, r) = (m, (r + s)%nat) /\ near (k + 2 * Z.of_nat s) m (y / inject_Z (10 ^ Z.of_nat s)) /\ inject_Z 1 <= m /\ m < inject_Z 10 /\ (s <= f)%nat).
  { intros g k x y r K Nr X T. exists x, 0%nat. rewrite Nat.add_0_r. split; [reflexivity|]. split; [|split; [exact X|split; [exact T|lia]]].
    apply (near_eq _ x y); [reflexivity| |replace (k + 2 * Z.of_nat 0)%Z with k by lia; exact Nr]. change (10 ^ Z.of_nat 0)%Z with 1%Z. field. }
  induction f as [|f IH]; intros k x y r K Sm Nr X Y B; cbn [tens].
  - apply Stop; auto. destruct Nr as [_ Nr]. eapply Qle_lt_trans; [exact Nr|].
    assert (Sk : 0 <= inject_Z k /\ inject_Z k <= 1048576) by (apply small_Q; unfold small; lia). destruct Sk as [Sk1 Sk2].
    change (inject_Z (4 * 2 ^ Z.of_nat 0)) with (4#1) in B. change (inject_Z 10) with (10#1). rewrite u_value.
    apply Qle_lt_trans with (y * 2); [|lra]. rewrite !(Qmult_comm y). apply Qmult_le_compat_r; [lra|exact Y].
  - destruct (Qle_bool (inject_Z 10) x) eqn:T.
    2: { apply Stop; auto. apply Qnot_le_lt. rewrite <- Qle_bool_iff. congruence. }
    apply Qle_bool_iff in T.
    destruct (IH (k + 2)%Z (fdiv x (inject_Z 10)) (y / inject_Z 10) (S r)) as (m & s & E & Nm & M1 & M2 & L).
    + lia.
    + lia.
    + apply near_div; auto; lia.
    + apply div_ge; [lia|lia|lia|]. exact T.
    + apply Qle_shift_div_l; [reflexivity|]. ring_simplify. exact Y.
    + apply Qle_shift_div_r; [reflexivity|]. eapply Qle_trans; [exact B|]. rewrite <- inject_Z_mult, <- Zle_Qle.
      replace (Z.of_nat (S f)) with (Z.of_nat f + 1)%Z by lia. rewrite Z.pow_add_r by lia. pose proof (Z.pow_pos_nonneg 2 (Z.of_nat f)). lia.
    + exists m, (S s). split; [rewrite E; f_equal; lia|]. split; [|split; [exact M1|split; [exact M2|lia]]].
      apply (near_eq _ m (y / inject_Z 10 / inject_Z (10 ^ Z.of_nat s))); [reflexivity| |replace (k + 2 * Z.of_nat (S s))%Z with (k + 2 + 2 * Z.of_nat s)%Z by lia; exact Nm].
      replace (Z.of_nat (S s)) with (1 + Z.of_nat s)%Z by lia. rewrite Z.pow_add_r by lia. rewrite inject_Z_mult. change (10 ^ 1)%Z with 10%Z.
      assert (0 < inject_Z (10 ^ Z.of_nat s)) by (change 0 with (inject_Z 0); rewrite <- Zlt_Qlt; apply Z.pow_pos_nonneg; lia). field; lra.
Qed.

(** ** The number that is written *)

Lemma pow10_pos r : 0 < inject_Z (10 ^ Z.of_nat r).
Proof. change 0 with (inject_Z 0). rewrite <- Zlt_Qlt. apply Z.pow_pos_nonneg; lia. Qed.

Lemma round_close m M : near 2100 m M -> inject_Z 1 <= m -> m < inject_Z 10 -> 0 <= M ->
  let q := nearest (m * inject_Z 1000) in
  (1000 <= q)%Z /\ Qabs (inject_Z q / inject_Z 1000 - M) <= M * (1 # 2000) * (9999#10000).
Proof.
  intros [A B] M1 M2 Mp q. change (inject_Z 1) with 1 in M1. change (inject_Z 10) with (10#1) in M2. change (inject_Z 2100) with (2100#1) in *. rewrite u_value in *.
  assert (Q1 : (1000 <= q)%Z) by (apply nearest_ge; change (inject_Z 1000) with (1000#1); lra). split; [exact Q1|].
  pose proof (nearest_error (m * inject_Z 1000)) as E. fold q in E. apply Qabs_Qle_condition in E. destruct E as [E1 E2].
  change (inject_Z 1000) with (1000#1) in *. unfold Qdiv. change (/ (1000#1)) with (1#1000).
  assert (C : (q = 1000 \/ 1001 <= q)%Z) by lia. apply Qabs_Qle_condition. destruct C as [->|C].
  - change (inject_Z 1000) with (1000#1) in *. split; lra.
  - rewrite Zle_Qle in C. change (inject_Z 1001) with (1001#1) in C. set (w := inject_Z q) in *. clearbody w. split; lra.
Qed.

Lemma written_close p r q : (3 <= p)%nat -> (0 <= q)%Z ->
  let Y := inject_Z q / inject_Z 1000 * inject_Z (10 ^ Z.of_nat r) in
  let y := fmul (rnd (inject_Z q / inject_Z 1000)) (inject_Z (10 ^ Z.of_nat r)) in
  let k := nearest (y * inject_Z (10 ^ Z.of_nat p)) in
  Qabs (inject_Z k / inject_Z (10 ^ Z.of_nat p) - Y) <= Y * (1 # 10000000000000).
Proof.
  intros P Q0 Y y k. pose proof (pow10_pos r) as R0. pose proof (pow10_pos p) as P0.
  assert (X0 : 0 <= inject_Z q / inject_Z 1000).
  { apply Qle_shift_div_l; [reflexivity|]. ring_simplify. change 0 with (inject_Z 0). rewrite <- Zle_Qle. exact Q0. }
  assert (Y0 : 0 <= Y) by (apply Qmult_le_0_compat; [exact X0|apply Qlt_le_weak; exact R0]).
  assert (Ny : near 5 y Y).
  { unfold y, fmul. apply (near_rnd 4); [unfold small; lia|exact Y0|]. apply (near_mul 2 1); [unfold small; lia|unfold small; lia|exact X0|apply Qlt_le_weak; exact R0| |].
    - apply (near_rnd 1); [unfold small; lia|exact X0|]. apply (near_rnd 0); [unfold small; lia|exact X0|]. apply near_refl.
    - apply (near_rnd 0); [unfold small; lia|apply Qlt_le_weak; exact R0|]. apply near_refl. }
  destruct Ny as [N1 N2]. change (inject_Z 5) with (5#1) in *. rewrite u_value in *.
  set (T := inject_Z (10 ^ Z.of_nat p)) in *.
  assert (Z1 : Y * T == inject_Z (q * 10 ^ Z.of_nat r * 10 ^ Z.of_nat (p - 3))).
  { unfold Y, T. replace (Z.of_nat p) with (3 + Z.of_nat (p - 3))%Z by lia. rewrite Z.pow_add_r by lia. rewrite !inject_Z_mult.
    change (10 ^ 3)%Z with 1000%Z. field. }
  assert (YT : 0 <= Y * T) by (apply Qmult_le_0_compat; [exact Y0|apply Qlt_le_weak; exact P0]).
  assert (H1 : y * T <= Y * T * (1 + 2 * (5#1) * (1 # 9007199254740992))).
  { assert (E : Y * T * (1 + 2 * (5#1) * (1 # 9007199254740992)) == Y * (1 + 2 * (5#1) * (1 # 9007199254740992)) * T) by ring. rewrite E.
    apply Qmult_le_compat_r; [exact N2|apply Qlt_le_weak; exact P0]. }
  assert (H2 : Y * T * (1 - (5#1) * (1 # 9007199254740992)) <= y * T).
  { assert (E : Y * T * (1 - (5#1) * (1 # 9007199254740992)) == Y * (1 - (5#1) * (1 # 9007199254740992)) * T) by ring. rewrite E.
    apply Qmult_le_compat_r; [exact N1|apply Qlt_le_weak; exact P0]. }
  destruct (Qlt_le_dec (100000000000000#1) (Y * T)) as [Big|Small].
  - pose proof (nearest_error (y * T)) as E. fold k in E. apply Qabs_Qle_condition in E. destruct E as [E1 E2].
    assert (F : inject_Z k / T - Y == (inject_Z k - Y * T) / T) by (field; lra). rewrite F.
    assert (G : Y * (1 # 10000000000000) == (Y * T * (1 # 10000000000000)) / T) by (field; lra). rewrite G.
    assert (W : forall a b, -b <= a -> a <= b -> Qabs (a / T) <= b / T).
    { intros a b L1 L2. apply Qabs_Qle_condition. split.
      - apply Qle_shift_div_l; [exact P0|]. assert (V : - (b / T) * T == - b) by (field; lra). rewrite V. exact L1.
      - apply Qle_shift_div_r; [exact P0|]. assert (V : b / T * T == b) by (field; lra). rewrite V. exact L2. }
    apply W; lra.
  - assert (K : k = (q * 10 ^ Z.of_nat r * 10 ^ Z.of_nat (p - 3))%Z).
    { apply nearest_unique. rewrite <- Z1. apply Qabs_Qlt_condition. split; lra. }
    rewrite K, <- Z1. assert (F : Y * T / T - Y == 0) by (field; lra). rewrite F. change (Qabs 0) with 0.
    apply Qmult_le_0_compat; [exact Y0|discriminate].
Qed.

Lemma near_weaken a b x y : (a <= b)%Z -> 0 <= y -> near a x y -> near b x y.
Proof.
  intros L Y [A B]. assert (Q : inject_Z a <= inject_Z b) by (rewrite <- Zle_Qle; exact L). rewrite u_value in *. unfold near. rewrite u_value.
  set (p := inject_Z a) in *. set (q := inject_Z b) in *. clearbody p q. split.
  - eapply Qle_trans; [|exact A]. rewrite !(Qmult_comm y). apply Qmult_le_compat_r; [lra|exact Y].
  - eapply Qle_trans; [exact B|]. rewrite !(Qmult_comm y). apply Qmult_le_compat_r; [lra|exact Y].
Qed.

(** The number [k] of units of the [p]th decimal that the text shows. *)
Theorem format_number p n : (3 <= p)%nat -> (1 <= n < 2 ^ 1023)%N -> exists k : N,
  format_bytes p n = strip_dot (strip_zeros (decimals p k)) ++ U " " ++ nth (order n) prefixes [] ++ U "B" /\
  let value := inject_Z (Z.of_N k) / inject_Z (10 ^ Z.of_nat p) * inject_Z (1000 ^ Z.of_nat (order n)) in
  Qabs (value - inject_Z (Z.of_N n)) <= inject_Z (Z.of_N n) * (1 # 2000).
Proof.
  intros P [N1 N2]. destruct (thousands_spec n) as (x & T & [An Ag]). unfold format_bytes. rewrite T.
  assert (Oj : (order n <= 4)%nat) by (unfold order; repeat destruct (_ <? _)%N; lia).
  assert (On : (1000 ^ Z.of_nat (order n) <= Z.of_N n)%Z).
  { unfold order. destruct (N.ltb_spec n 1000); [cbn; lia|]. destruct (N.ltb_spec n 1000000); [cbn; lia|].
    destruct (N.ltb_spec n 1000000000); [cbn; lia|]. destruct (N.ltb_spec n 1000000000000); cbn; lia. }
  pose proof (Ag (order n) ltac:(lia) On) as X1. rewrite Nat.sub_diag in X1. change (1000 ^ Z.of_nat 0)%Z with 1%Z in X1.
  pose proof (count_nonneg n (order n)) as V0. set (o := order n) in *. set (V := inject_Z (Z.of_N n) / inject_Z (1000 ^ Z.of_nat o)) in *.
  pose proof (thousand_pos o) as Tp.
  assert (Lg : (N.log2 n < 1023)%N) by (apply N.log2_lt_pow2; lia).
  assert (Vb : V <= inject_Z (4 * 2 ^ Z.of_nat (S (N.to_nat (N.log2 n))))).
  { apply Qle_trans with (inject_Z (Z.of_N n)).
    - unfold V. apply Qle_shift_div_r; [exact Tp|]. rewrite <- inject_Z_mult, <- Zle_Qle. pose proof (Z.pow_pos_nonneg 1000 (Z.of_nat o) ltac:(lia) ltac:(lia)). nia.
    - rewrite <- Zle_Qle. pose proof (N.log2_spec n ltac:(lia)) as [_ L]. replace (Z.of_nat (S (N.to_nat (N.log2 n)))) with (Z.of_N (N.succ (N.log2 n))) by lia.
      assert (H : (Z.of_N n < Z.of_N (2 ^ N.succ (N.log2 n)))%Z) by lia. rewrite N2Z.inj_pow in H. change (Z.of_N 2) with 2%Z in H. lia. }
  destruct (tens_spec (S (N.to_nat (N.log2 n))) (2 * Z.of_nat o) x V 0) as (m & s & E & Nm & M1 & M2 & Ls); auto; [lia|lia|].
  cbn [plus] in E. rewrite E. clear E.
  assert (S10 := pow10_pos s).
  assert (Mp : 0 <= V / inject_Z (10 ^ Z.of_nat s)) by (apply Qle_shift_div_l; [exact S10|ring_simplify; exact V0]).
  apply (near_weaken _ 2100) in Nm; [|lia|exact Mp].
  destruct (round_close m _ Nm M1 M2 Mp) as [Q1 Qe]. unfold round3. set (q := nearest (m * inject_Z 1000)) in *.
  pose proof (written_close p s q P ltac:(lia)) as W. cbv zeta in W.
  set (y := fmul _ _) in *. set (k := nearest (y * _)) in *. pose proof (pow10_pos p) as Pp.
  assert (K0 : (0 <= k)%Z).
  { apply nearest_ge. change (inject_Z 0) with 0. apply Qmult_le_0_compat; [|apply Qlt_le_weak; exact Pp]. unfold y, fmul. apply rnd_nonneg.
    apply Qmult_le_0_compat; apply rnd_nonneg; [apply rnd_nonneg|apply Qlt_le_weak; exact S10].
    apply Qle_shift_div_l; [reflexivity|]. ring_simplify. change 0 with (inject_Z 0). rewrite <- Zle_Qle. lia. }
  exists (Z.to_N k). split; [reflexivity|]. cbv zeta. rewrite Z2N.id by exact K0.
  apply Qabs_Qle_condition in W. apply Qabs_Qle_condition in Qe. destruct W as [W1 W2], Qe as [Q2 Q3].
  set (D := inject_Z k / inject_Z (10 ^ Z.of_nat p)) in *. set (c := inject_Z q / inject_Z 1000) in *. set (t := inject_Z (10 ^ Z.of_nat s)) in *.
  assert (Vt : V == V / t * t) by (field; lra). set (M := V / t) in *.
  assert (B1 : c * t <= (M * (1 # 2000) * (9999 # 10000) + M) * t) by (apply Qmult_le_compat_r; lra).
  assert (B2 : (M - M * (1 # 2000) * (9999 # 10000)) * t <= c * t) by (apply Qmult_le_compat_r; lra).
  set (Y := c * t) in *.
  assert (B3 : Y <= V * ((1 # 2000) * (9999 # 10000) + 1)) by (rewrite Vt; lra).
  assert (B4 : V * (1 - (1 # 2000) * (9999 # 10000)) <= Y) by (rewrite Vt at 1; lra).
  assert (H : -(V * (1#2000)) <= D - V /\ D - V <= V * (1#2000)).
  { clear Vt B1 B2. clearbody Y D M. split; lra. }
  destruct H as [H1 H2].
  assert (Nn : inject_Z (Z.of_N n) == V * inject_Z (1000 ^ Z.of_nat o)) by (unfold V; field; lra). rewrite Nn.
  set (h := inject_Z (1000 ^ Z.of_nat o)) in *.
  apply Qabs_Qle_condition. split.
  - assert (F : - (V * h * (1#2000)) == -(V * (1#2000)) * h) by ring. rewrite F. assert (G : D * h - V * h == (D - V) * h) by ring. rewrite G.
    apply Qmult_le_compat_r; [exact H1|apply Qlt_le_weak; exact Tp].
  - assert (F : V * h * (1#2000) == (V * (1#2000)) * h) by ring. rewrite F. assert (G : D * h - V * h == (D - V) * h) by ring. rewrite G.
    apply Qmult_le_compat_r; [exact H2|apply Qlt_le_weak; exact Tp].
Qed.

(** Error bounds of [PyFloat] *)
Require Import ZArith QArith Qpower Qround Qabs Lia Lqa.
From Verif Require Import PyFloat.
Open Scope Q_scope.

Lemma nearest_error y : Qabs.Qabs (inject_Z (nearest y) - y) <= 1#2.
Proof.
  apply Qabs.Qabs_Qle_condition. destruct y as [n d]. unfold nearest. cbn [Qnum Qden].
  pose proof (Z.mod_pos_bound n (Zpos d) eq_refl) as B. pose proof (Z.div_mod n (Zpos d) ltac:(discriminate)) as E.
  assert (X : forall z : Z, (-(1#2) <= inject_Z z - (n#d) <= 1#2) <-> (- Zpos d <= 2 * (z * Zpos d - n) <= Zpos d)%Z).
  { intros z. unfold Qle, Qminus, Qplus, Qopp, inject_Z. cbn [Qnum Qden]. rewrite !Pos.mul_1_l. lia. }
  apply X. destruct (Z.ltb_spec (2 * (n mod Zpos d)) (Zpos d)); [nia|]. destruct (Z.ltb_spec (Zpos d) (2 * (n mod Zpos d))); [nia|].
  destruct (Z.even _); nia.
Qed.
Lemma nearest_ge y (k : Z) : inject_Z k <= y -> (k <= nearest y)%Z.
Proof.
  destruct y as [n d]. unfold nearest, Qle, inject_Z. cbn [Qnum Qden]. intros H.
  pose proof (Z.mod_pos_bound n (Zpos d) eq_refl) as B. pose proof (Z.div_mod n (Zpos d) ltac:(discriminate)) as E.
  assert (k <= n / Zpos d)%Z by (apply Z.div_le_lower_bound; lia).
  destruct (_ <? _)%Z; [auto|]. destruct (_ <? _)%Z; [lia|]. destruct (Z.even _); lia.
Qed.
Lemma nearest_le y (k : Z) : y <= inject_Z k -> (nearest y <= k)%Z.
Proof.
  destruct y as [n d]. unfold nearest, Qle, inject_Z. cbn [Qnum Qden]. intros H.
  pose proof (Z.mod_pos_bound n (Zpos d) eq_refl) as B. pose proof (Z.div_mod n (Zpos d) ltac:(discriminate)) as E.
  assert (F : (n / Zpos d <= k)%Z) by (apply Z.div_le_upper_bound; lia).
  destruct (Z.ltb_spec (2 * (n mod Zpos d)) (Zpos d)); [auto|]. assert (n / Zpos d <> k)%Z by nia.
  destruct (_ <? _)%Z; [lia|]. destruct (Z.even _); lia.
Qed.
Lemma nearest_unique y (k : Z) : Qabs.Qabs (y - inject_Z k) < 1#2 -> nearest y = k.
Proof.
  intros H. apply Qabs.Qabs_Qlt_condition in H. pose proof (nearest_error y) as E. apply Qabs.Qabs_Qle_condition in E. destruct H as [H1 H2], E as [E1 E2].
  assert (A : inject_Z (nearest y) < inject_Z (k + 1)) by (rewrite inject_Z_plus; change (inject_Z 1) with 1; lra).
  assert (B : inject_Z (k - 1) < inject_Z (nearest y)) by (unfold Z.sub; rewrite inject_Z_plus, inject_Z_opp; change (inject_Z 1) with 1; lra).
  rewrite <- Zlt_Qlt in A. rewrite <- Zlt_Qlt in B. lia.
Qed.

Lemma two_pos e : 0 < two e.
Proof. unfold two. apply Qpower_0_lt. reflexivity. Qed.
Lemma two_plus a b : two (a + b) == two a * two b.
Proof. unfold two. apply Qpower_plus. discriminate. Qed.
Lemma two_Z (k : Z) : (0 <= k)%Z -> two k == inject_Z (2 ^ k).
Proof. intros H. unfold two. rewrite <- Zpower_Qpower by exact H. reflexivity. Qed.

Lemma expo_bounds x : 0 < x -> two (expo x + 52) <= x /\ x < two (expo x + 53).
Proof.
  intros P. unfold expo. set (k := (Z.log2 (Qnum x) - Z.log2 (Zpos (Qden x)))%Z). destruct x as [n d]. cbn [Qnum Qden] in *.
  assert (Pn : (0 < n)%Z) by (unfold Qlt in P; cbn in P; lia).
  destruct (Z.log2_spec n Pn) as [N1 N2]. destruct (Z.log2_spec (Zpos d) eq_refl) as [D1 D2].
  pose proof (Z.log2_nonneg n) as Ln. pose proof (Z.log2_nonneg (Zpos d)) as Ld.
  assert (Hx : (n # d) * inject_Z (Zpos d) == inject_Z n) by (unfold Qeq, Qmult, inject_Z; cbn; lia).
  assert (K : forall j, two (k + j) * two (Z.log2 (Zpos d)) == two (Z.log2 n + j)).
  { intros j. rewrite <- two_plus. unfold k. replace (Z.log2 n - Z.log2 (Zpos d) + j + Z.log2 (Zpos d))%Z with (Z.log2 n + j)%Z by lia. reflexivity. }
  assert (Dp : 0 < inject_Z (Zpos d)) by reflexivity.
  assert (Qn1 : two (Z.log2 n) <= inject_Z n) by (rewrite two_Z by lia; rewrite <- Zle_Qle; exact N1).
  assert (Qn2 : inject_Z n < two (Z.log2 n + 1)) by (rewrite two_Z by lia; rewrite <- Zlt_Qlt; exact N2).
  assert (Qd1 : two (Z.log2 (Zpos d)) <= inject_Z (Zpos d)) by (rewrite two_Z by lia; rewrite <- Zle_Qle; exact D1).
  assert (Qd2 : inject_Z (Zpos d) < two (Z.log2 (Zpos d) + 1)) by (rewrite two_Z by lia; rewrite <- Zlt_Qlt; exact D2).
  pose proof (two_pos (Z.log2 (Zpos d))) as Pd.
  assert (Up : n # d < two (k + 1)).
  { apply Qmult_lt_r with (inject_Z (Zpos d)); [exact Dp|]. rewrite Hx. eapply Qlt_le_trans; [exact Qn2|].
    rewrite <- K. apply Qmult_le_l; [apply two_pos|exact Qd1]. }
  assert (Lo : two (k - 1) <= n # d).
  { apply Qmult_le_r with (inject_Z (Zpos d)); [exact Dp|]. rewrite Hx. eapply Qle_trans; [|exact Qn1].
    assert (X : two (k - 1) * two (Z.log2 (Zpos d) + 1) == two (Z.log2 n)).
    { rewrite <- two_plus. unfold k. replace (Z.log2 n - Z.log2 (Zpos d) - 1 + (Z.log2 (Zpos d) + 1))%Z with (Z.log2 n) by lia. reflexivity. }
    rewrite <- X. apply Qmult_le_l; [apply two_pos|apply Qlt_le_weak; exact Qd2]. }
  destruct (Qle_bool (two k) (n # d)) eqn:E.
  - apply Qle_bool_iff in E. replace (k - 52 + 52)%Z with k by lia. replace (k - 52 + 53)%Z with (k + 1)%Z by lia. auto.
  - assert (F : n # d < two k) by (apply Qnot_le_lt; rewrite <- Qle_bool_iff; congruence).
    replace (k - 53 + 52)%Z with (k - 1)%Z by lia. replace (k - 53 + 53)%Z with k by lia. auto.
Qed.

(** Unit roundoff. *)
Definition u : Q := two (-53).
Lemma u_value : u == 1 # 9007199254740992. Proof. reflexivity. Qed.

Lemma Qle_bool_pos x : 0 < x -> Qle_bool x 0 = false.
Proof. intros P. destruct (Qle_bool x 0) eqn:E; [|reflexivity]. apply Qle_bool_iff in E. lra. Qed.

Lemma rnd_eq x : 0 < x -> rnd x == inject_Z (nearest (x / two (expo x))) * two (expo x).
Proof. intros P. unfold rnd. rewrite (Qle_bool_pos x P). apply Qred_correct. Qed.

Lemma rnd_error x : 0 <= x -> x * (1 - u) <= rnd x /\ rnd x <= x * (1 + u).
Proof.
  intros P. destruct (Qle_lt_or_eq _ _ P) as [Lt|E].
  2: { unfold rnd. assert (X : Qle_bool x 0 = true) by (apply Qle_bool_iff; rewrite <- E; apply Qle_refl). rewrite X, <- E. split; [ring_simplify; apply Qle_refl|ring_simplify; apply Qle_refl]. }
  pose proof (rnd_eq x Lt) as R. destruct (expo_bounds x Lt) as [B _]. set (e := expo x) in *. pose proof (two_pos e) as Te.
  pose proof (nearest_error (x / two e)) as N. apply Qabs.Qabs_Qle_condition in N. destruct N as [N1 N2].
  set (z := inject_Z (nearest (x / two e))) in *. rewrite R.
  assert (X : x == (x / two e) * two e) by (field; lra). set (y := x / two e) in *. clearbody y z.
  assert (H1 : (z - y) * two e <= (1#2) * two e) by (apply Qmult_le_r; auto).
  assert (H2 : (y - z) * two e <= (1#2) * two e) by (apply Qmult_le_r; [auto|lra]).
  assert (H3 : (1#2) * two e == u * two (e + 52)).
  { rewrite two_plus. rewrite u_value. assert (two 52 == inject_Z 4503599627370496) by (rewrite two_Z by lia; reflexivity). rewrite H.
    set (w := two e). clearbody w. change (inject_Z 4503599627370496) with (4503599627370496#1). lra. }
  assert (H4 : u * two (e + 52) <= u * x) by (apply Qmult_le_l; [reflexivity|exact B]).
  split; lra.
Qed.

Lemma rnd_nonneg x : 0 <= x -> 0 <= rnd x.
Proof. intros P. destruct (rnd_error x P) as [H _]. eapply Qle_trans; [|exact H]. apply Qmult_le_0_compat; [exact P|]. rewrite u_value. lra. Qed.

(** Rounding does not cross a small integer from above. *)
Lemma rnd_ge x (k : Z) : (0 < k <= 2 ^ 53)%Z -> inject_Z k <= x -> inject_Z k <= rnd x.
Proof.
  intros [K1 K2] H. assert (P : 0 < x) by (eapply Qlt_le_trans; [|exact H]; change 0 with (inject_Z 0); rewrite <- Zlt_Qlt; exact K1).
  rewrite (rnd_eq x P). destruct (expo_bounds x P) as [B1 B2]. set (e := expo x) in *. pose proof (two_pos e) as Te.
  destruct (Z.le_gt_cases e 0) as [Le|Gt].
  - assert (X : inject_Z (k * 2 ^ (- e)) * two e == inject_Z k).
    { rewrite inject_Z_mult. rewrite <- (two_Z (- e)) by lia. rewrite <- Qmult_assoc, <- two_plus.
      replace (- e + e)%Z with 0%Z by lia. change (two 0) with 1. ring. }
    rewrite <- X at 1. apply Qmult_le_r; [exact Te|]. rewrite <- Zle_Qle. apply nearest_ge.
    apply Qmult_le_r with (two e); [exact Te|]. rewrite X. assert (Y : x / two e * two e == x) by (field; lra). rewrite Y. exact H.
  - assert (M : (2 ^ 52 <= nearest (x / two e))%Z).
    { apply nearest_ge. apply Qmult_le_r with (two e); [exact Te|]. assert (Y : x / two e * two e == x) by (field; lra). rewrite Y.
      rewrite <- (two_Z 52) by lia. rewrite <- two_plus. replace (52 + e)%Z with (e + 52)%Z by lia. exact B1. }
    apply Qle_trans with (inject_Z (2 ^ 52) * two e).
    + rewrite (two_Z e) by lia. rewrite <- inject_Z_mult, <- Zle_Qle. assert (2 ^ 1 <= 2 ^ e)%Z by (apply Z.pow_le_mono_r; lia).
      eapply Z.le_trans; [exact K2|]. change (2 ^ 53)%Z with (2 ^ 52 * 2 ^ 1)%Z. apply Z.mul_le_mono_nonneg_l; lia.
    + apply Qmult_le_r; [exact Te|]. rewrite <- Zle_Qle. exact M.
Qed.

(** Integers up to 2^53 are floats. *)
Lemma rnd_int (k : Z) : (0 <= k <= 2 ^ 53)%Z -> rnd (inject_Z k) == inject_Z k.
Proof.
  intros [K1 K2]. destruct (Z.eq_dec k 0) as [->|Nz]; [reflexivity|].
  assert (P : 0 < inject_Z k) by (change 0 with (inject_Z 0); rewrite <- Zlt_Qlt; lia).
  rewrite (rnd_eq _ P). destruct (expo_bounds _ P) as [B1 B2]. set (e := expo (inject_Z k)) in *. pose proof (two_pos e) as Te.
  destruct (Z.le_gt_cases e 0) as [Le|Gt].
  - assert (X : inject_Z (k * 2 ^ (- e)) * two e == inject_Z k).
    { rewrite inject_Z_mult. rewrite <- (two_Z (- e)) by lia. rewrite <- Qmult_assoc, <- two_plus.
      replace (- e + e)%Z with 0%Z by lia. change (two 0) with 1. ring. }
    assert (Y : inject_Z k / two e == inject_Z (k * 2 ^ (- e))) by (rewrite <- X; field; lra).
    assert (Z0 : nearest (inject_Z k / two e) = (k * 2 ^ (- e))%Z).
    { apply nearest_unique. rewrite Y. assert (W : inject_Z (k * 2 ^ (- e)) - inject_Z (k * 2 ^ (- e)) == 0) by ring. rewrite W. reflexivity. }
    rewrite Z0. exact X.
  - assert (e = 1%Z /\ k = (2 ^ 53)%Z) as [E1 E2].
    { assert (C : two (e + 52) <= inject_Z (2 ^ 53)) by (eapply Qle_trans; [exact B1|rewrite <- Zle_Qle; exact K2]).
      rewrite two_Z in C by lia. rewrite <- Zle_Qle in C. apply Z.pow_le_mono_r_iff in C; [|lia|lia]. assert (e = 1%Z) by lia. split; [auto|].
      rewrite H in B1. rewrite two_Z in B1 by lia. rewrite <- Zle_Qle in B1. change (1 + 52)%Z with 53%Z in B1. lia. }
    rewrite E2, E1. reflexivity.
Qed.

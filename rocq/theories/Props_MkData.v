(** Test data (C57, C58) *)
Require Import String NArith ZArith QArith Qabs Bool List Lia Lqa.
From Coq Require Qcanon.
From Verif Require Import PyBase PyFacts PyFloat PyFloatProofs MkData FormatBytes FormatBytesProofs Props_Size.
Import ListNotations.
Open Scope Z_scope.

(** ** C57 *)

Definition total (l : list Z) : Z := fold_right Z.add 0 l.

(** Sizes that add up, differ by at most one and are not negative. *)
Definition even_split (tz : Z) (nf : nat) (l : list Z) : Prop :=
  length l = nf /\ total l = tz /\ exists a, 0 <= a /\ Forall (fun s => s = a \/ s = a + 1) l.

Lemma rnd_int_eq k : 0 <= k <= 2 ^ 53 -> rnd (inject_Z k) = inject_Z k.
Proof.
  intros K. pose proof (rnd_int k K) as E. destruct (Z.eq_dec k 0) as [->|Nz]; [reflexivity|].
  assert (P : (0 < inject_Z k)%Q) by (change 0%Q with (inject_Z 0); rewrite <- Zlt_Qlt; lia).
  assert (I : Qred (inject_Z k) = inject_Z k) by (apply Qcanon.Qred_identity; cbn [Qnum Qden inject_Z]; apply Z.gcd_1_r).
  rewrite <- I at 2. unfold rnd in *. rewrite (Qle_bool_pos _ P) in *. rewrite Qred_correct in E. apply Qred_complete. exact E.
Qed.

Lemma constant_sizes n sz extra : Z.of_nat n < Z.abs extra \/ extra = 0 -> sizes n sz extra = repeat sz n.
Proof.
  intros H. induction n as [|n IH]; [reflexivity|]. cbn [sizes repeat]. destruct (Z.eqb_spec (Z.of_nat (S n)) (Z.abs extra)); [lia|].
  f_equal. apply IH. lia.
Qed.
Lemma total_repeat z n : total (repeat z n) = z * Z.of_nat n.
Proof. unfold total. induction n as [|n IH]; [cbn; lia|]. cbn [repeat fold_right]. rewrite IH. lia. Qed.
Lemma total_app a b : total (a ++ b) = total a + total b.
Proof. unfold total. induction a as [|x a IH]; [reflexivity|]. cbn [app fold_right]. rewrite IH. lia. Qed.

(** The sizes: [sz] as long as more than [extra] files are left. *)
Lemma sizes_shape n sz extra : Z.abs extra <= Z.of_nat n ->
  sizes n sz extra = repeat sz (n - Z.to_nat (Z.abs extra)) ++ repeat (sz + Z.sgn extra) (Z.to_nat (Z.abs extra)).
Proof.
  induction n as [|n IH]; intros H.
  - replace (Z.to_nat (Z.abs extra)) with 0%nat by lia. reflexivity.
  - cbn [sizes]. destruct (Z.eqb_spec (Z.of_nat (S n)) (Z.abs extra)) as [E|E].
    + rewrite constant_sizes by lia. rewrite <- E, Nat2Z.id, Nat.sub_diag. reflexivity.
    + rewrite IH by lia. replace (S n - Z.to_nat (Z.abs extra))%nat with (S (n - Z.to_nat (Z.abs extra))) by lia. reflexivity.
Qed.

Lemma floor_bounds x : (inject_Z (ffloor x) <= x /\ x < inject_Z (ffloor x) + 1)%Q.
Proof.
  unfold ffloor. destruct x as [n d]. cbn [Qnum Qden]. pose proof (Z.mod_pos_bound n (Zpos d) eq_refl). pose proof (Z.div_mod n (Zpos d) ltac:(discriminate)).
  unfold Qle, Qlt, Qplus, inject_Z. cbn [Qnum Qden]. split; nia.
Qed.

Theorem C57_partial : forall tz nf, 0 <= tz < 2 ^ 50 -> 0 < nf < 2 ^ 50 ->
  exists l, iterate (Some tz) (Some nf) = Ok l /\ even_split tz (Z.to_nat nf) l.
Proof.
  intros tz nf T F. unfold iterate. destruct (Z.ltb_spec tz 0); [lia|]. destruct (Z.ltb_spec nf 0); [lia|]. destruct (Z.eqb_spec nf 0); [lia|].
  eexists. split; [reflexivity|]. set (sz := ffloor _). set (extra := tz - sz * nf).
  assert (B : - nf < extra < nf /\ 0 <= sz).
  { assert (Fp : (0 < inject_Z nf)%Q) by (change 0%Q with (inject_Z 0); rewrite <- Zlt_Qlt; lia).
    assert (Tp : (0 <= inject_Z tz)%Q) by (change 0%Q with (inject_Z 0); rewrite <- Zle_Qle; lia).
    assert (E1 : fmul (inject_Z 1) (inject_Z tz) = inject_Z tz).
    { unfold fmul. rewrite (rnd_int_eq 1), (rnd_int_eq tz) by lia. rewrite <- (rnd_int_eq tz) at 2 by lia. f_equal.
      unfold Qmult, inject_Z. cbn [Qnum Qden]. rewrite Z.mul_1_l. reflexivity. }
    assert (E2 : fdiv (fmul (inject_Z 1) (inject_Z tz)) (inject_Z nf) = rnd (inject_Z tz / inject_Z nf)).
    { rewrite E1. unfold fdiv. rewrite !rnd_int_eq by lia. reflexivity. }
    set (V := (inject_Z tz / inject_Z nf)%Q) in *.
    assert (Es : sz = ffloor (rnd (rnd (rnd V) + rnd (1 # 2)))) by (unfold sz, fadd; rewrite E2; reflexivity).
    clear E1 E2. change (rnd (1 # 2)) with (1 # 2)%Q in Es. unfold extra. clear extra. clearbody sz.
    assert (V0 : (0 <= V)%Q) by (apply Qle_shift_div_l; [exact Fp|ring_simplify; exact Tp]).
    assert (V1 : (V <= 1125899906842624)%Q).
    { apply Qle_shift_div_r; [exact Fp|]. change 1125899906842624%Q with (inject_Z (2 ^ 50)). rewrite <- inject_Z_mult, <- Zle_Qle. nia. }
    destruct (rnd_error V V0) as [A1 A2]. set (x := rnd V) in *. assert (X0 : (0 <= x)%Q) by (apply rnd_nonneg; exact V0).
    destruct (rnd_error x X0) as [B1 B2]. set (y := rnd x) in *. assert (Y0 : (0 <= y)%Q) by (apply rnd_nonneg; exact X0).
    assert (Z0 : (0 <= y + (1 # 2))%Q) by lra.
    destruct (rnd_error _ Z0) as [C1 C2]. set (z := rnd (y + (1 # 2))) in *. destruct (floor_bounds z) as [D1 D2].
    rewrite <- Es in D1, D2. clear Es. clearbody z y x. rewrite u_value in *.
    assert (G1 : (inject_Z sz <= V + (95 # 100))%Q) by lra.
    assert (G2 : (V - (95 # 100) <= inject_Z sz)%Q) by lra.
    assert (G3 : (-(1) < inject_Z sz)%Q) by lra.
    assert (VT : (V * inject_Z nf == inject_Z tz)%Q) by (unfold V; field; lra).
    assert (H1 : (inject_Z (sz * nf) <= inject_Z tz + (95 # 100) * inject_Z nf)%Q).
    { rewrite inject_Z_mult, <- VT. apply Qle_trans with ((V + (95 # 100)) * inject_Z nf)%Q; [apply Qmult_le_r; auto|]. lra. }
    assert (H2 : (inject_Z tz - (95 # 100) * inject_Z nf <= inject_Z (sz * nf))%Q).
    { rewrite inject_Z_mult, <- VT. apply Qle_trans with ((V - (95 # 100)) * inject_Z nf)%Q; [lra|apply Qmult_le_r; auto]. }
    assert (H3 : (inject_Z (sz * nf) < inject_Z (tz + nf))%Q) by (rewrite inject_Z_plus; lra).
    assert (H4 : (inject_Z (tz - nf) < inject_Z (sz * nf))%Q) by (unfold Z.sub; rewrite inject_Z_plus, inject_Z_opp; lra).
    rewrite <- Zlt_Qlt in H3. rewrite <- Zlt_Qlt in H4. change (- (1))%Q with (inject_Z (-1)) in G3. rewrite <- Zlt_Qlt in G3. lia. }
  destruct B as [B S0]. rewrite sizes_shape by lia. set (e := Z.to_nat (Z.abs extra)).
  assert (Le : (e <= Z.to_nat nf)%nat) by lia. split; [rewrite app_length, !repeat_length; lia|]. split.
  - rewrite total_app, !total_repeat. assert (Ex : Z.sgn extra * Z.of_nat e = extra) by (unfold e; rewrite Z2Nat.id by lia; destruct extra; cbn; lia).
    rewrite Nat2Z.inj_sub by exact Le. rewrite Z2Nat.id by lia. rewrite Z.mul_sub_distr_l, Z.mul_add_distr_r, Ex. unfold extra. lia.
  - destruct (Z.neg_nonneg_cases extra) as [Ng|Ps].
    + replace (Z.sgn extra) with (-1) by lia. exists (sz - 1). split.
      * assert (sz <> 0) by (intros Z; unfold extra in Ng; rewrite Z in Ng; lia). lia.
      * apply Forall_app. split; apply Forall_forall; intros s I; apply repeat_spec in I; lia.
    + exists sz. split; [exact S0|]. apply Forall_app. split; apply Forall_forall; intros s I; apply repeat_spec in I; [lia|].
      destruct (Z.eq_dec extra 0) as [Z|Z]; [unfold e in I; rewrite Z in I|]; lia.
Qed.
Print Assumptions C57_partial.

Example C57_case :
  iterate (Some 10) (Some 4) = Ok [3; 3; 2; 2] /\ iterate (Some 5) (Some 4) = Ok [1; 1; 1; 2] /\ iterate (Some 0) (Some 2) = Ok [0; 0].
Proof. repeat split; vm_compute; reflexivity. Qed.

(** No files at all cannot be asked for, and beyond 2^53 the division is not
    exact enough. *)
Theorem C57_refuted :
  (forall tz, 0 <= tz -> iterate (Some tz) (Some 0) = Err EZeroDivision) /\
  (exists tz l, 0 <= tz /\ iterate (Some tz) (Some 1) = Ok l /\ total l <> tz).
Proof.
  split.
  - intros tz H. unfold iterate. destruct (Z.ltb_spec tz 0); [lia|]. reflexivity.
  - exists (2 ^ 54 + 2), [2 ^ 54]. split; [lia|]. split; [vm_compute; reflexivity|]. vm_compute. discriminate.
Qed.
Print Assumptions C57_refuted.

(** ** C58 *)

Lemma ln_from_ge k x j : (j <= k)%nat -> E_NUM ^ Z.of_nat j <= x * E_DEN ^ Z.of_nat j -> Z.of_nat j <= ln_from k x.
Proof.
  intros L H. induction k as [|k IH]; [cbn; lia|]. cbn [ln_from]. destruct (Z.leb_spec (E_NUM ^ Z.of_nat (S k)) (x * E_DEN ^ Z.of_nat (S k))); [lia|].
  assert (j <> S k) by (intros ->; lia). apply IH. lia.
Qed.
Lemma ln_from_le k x : 0 <= ln_from k x <= Z.of_nat k.
Proof. induction k as [|k IH]; [cbn; lia|]. cbn [ln_from]. destruct (_ <=? _); lia. Qed.

Lemma dec_long n : (2 <= length (dec n))%nat -> (10 ^ N.of_nat (length (dec n) - 1) <= n)%N.
Proof.
  intros L. destruct (dec n) as [|c t] eqn:E; [cbn in L; lia|]. destruct (dec_head n c t E) as [[-> ->]|C]; [cbn in L; lia|].
  pose proof (num_dec n) as V. rewrite E in V. change (c :: t) with ([c] ++ t) in V. rewrite num_app in V.
  pose proof (dec_digits n) as F. rewrite E in F. pose proof (Forall_inv F) as D. cbv beta in D. unfold is_digit in D. rewrite andb_true_iff, !N.leb_le in D.
  assert (1 <= num [c])%N by (unfold num; cbn [fold_left]; lia). cbn [length]. replace (S (length t) - 1)%nat with (length t) by lia.
  rewrite <- V. nia.
Qed.

Lemma width i n : 0 <= i <= n -> Z.of_nat (length (dec (Z.to_N i))) <= floor_ln (n + 1) + 1.
Proof.
  intros H. set (d := length (dec (Z.to_N i))). destruct (Nat.le_gt_cases d 1) as [L|L].
  - pose proof (ln_from_le (Z.to_nat (Z.log2 (n + 1))) (n + 1)). unfold floor_ln. lia.
  - assert (B : (10 ^ N.of_nat (d - 1) <= Z.to_N i)%N) by (apply dec_long; lia).
    assert (B' : 10 ^ Z.of_nat (d - 1) <= i).
    { replace (Z.of_nat (d - 1)) with (Z.of_N (N.of_nat (d - 1))) by lia. rewrite <- (N2Z.inj_pow 10). lia. }
    assert (P : 0 < 10 ^ Z.of_nat (d - 1)) by (apply Z.pow_pos_nonneg; lia).
    enough (Z.of_nat (d - 1) <= floor_ln (n + 1)) by lia. apply ln_from_ge.
    + assert (Z.of_nat (d - 1) <= Z.log2 (n + 1)); [|lia]. apply Z.log2_le_pow2; [lia|].
      assert (2 ^ Z.of_nat (d - 1) <= 10 ^ Z.of_nat (d - 1)) by (apply Z.pow_le_mono_l; lia). lia.
    + apply Z.le_trans with (10 ^ Z.of_nat (d - 1) * E_DEN ^ Z.of_nat (d - 1)).
      * rewrite <- Z.pow_mul_l. apply Z.pow_le_mono_l. unfold E_NUM, E_DEN. lia.
      * apply Z.mul_le_mono_nonneg_r; [apply Z.pow_nonneg; unfold E_DEN; lia|lia].
Qed.

Lemma number_length w i : Z.of_nat (length (dec (Z.to_N i))) <= w -> Z.of_nat (length (number w i)) = w + 1.
Proof. intros H. unfold number. rewrite !app_length, repeat_length. cbn [length]. lia. Qed.
Lemma xs_length n : 0 <= n -> Z.of_nat (length (xs n)) = n.
Proof. intros H. unfold xs. rewrite repeat_length. lia. Qed.

Lemma full_lines size : 0 <= size < 2 ^ 53 -> ffloor (fdiv (inject_Z size) (inject_Z 100)) = size / 100.
Proof.
  intros S. unfold fdiv. rewrite (rnd_int_eq size), (rnd_int_eq 100) by lia. set (k := size / 100).
  pose proof (Z.div_mod size 100 ltac:(discriminate)) as D. pose proof (Z.mod_pos_bound size 100 eq_refl) as M. fold k in D.
  assert (K : 0 <= k) by (unfold k; apply Z.div_pos; lia).
  set (x := (inject_Z size / inject_Z 100)%Q).
  assert (Xe : (x * 100 == inject_Z size)%Q) by (unfold x; change (inject_Z 100) with 100%Q; field).
  assert (X1 : (inject_Z k * 100 <= inject_Z size)%Q) by (change 100%Q with (inject_Z 100); rewrite <- inject_Z_mult, <- Zle_Qle; lia).
  assert (X2 : (inject_Z size <= inject_Z k * 100 + 99)%Q) by (change 100%Q with (inject_Z 100); change 99%Q with (inject_Z 99); rewrite <- inject_Z_mult, <- inject_Z_plus, <- Zle_Qle; lia).
  assert (X3 : (inject_Z size < 9007199254740992)%Q) by (change 9007199254740992%Q with (inject_Z (2 ^ 53)); rewrite <- Zlt_Qlt; lia).
  assert (X4 : (0 <= inject_Z size)%Q) by (change 0%Q with (inject_Z 0); rewrite <- Zle_Qle; lia).
  assert (X0 : (0 <= x)%Q) by lra. destruct (rnd_error x X0) as [_ R]. rewrite u_value in R.
  assert (L : (inject_Z k <= rnd x)%Q).
  { destruct (Z.eq_dec k 0) as [->|Nz]; [apply rnd_nonneg; exact X0|]. apply rnd_ge; [lia|]. lra. }
  destruct (floor_bounds (rnd x)) as [F1 F2]. set (f := ffloor (rnd x)) in *.
  assert (G1 : (inject_Z f < inject_Z (k + 1))%Q) by (rewrite inject_Z_plus; change (inject_Z 1) with 1%Q; lra).
  assert (G2 : (inject_Z k < inject_Z (f + 1))%Q) by (rewrite inject_Z_plus; change (inject_Z 1) with 1%Q; lra).
  rewrite <- Zlt_Qlt in G1. rewrite <- Zlt_Qlt in G2. lia.
Qed.

Lemma ln_small n : 0 <= n < 2 ^ 53 -> 0 <= floor_ln (n + 1) <= 53.
Proof.
  intros H. pose proof (ln_from_le (Z.to_nat (Z.log2 (n + 1))) (n + 1)) as B. fold (floor_ln (n + 1)) in B.
  assert (Z.log2 (n + 1) <= 53) by (change 53 with (Z.log2 (2 ^ 53)); apply Z.log2_le_mono; lia). pose proof (Z.log2_nonneg (n + 1)). lia.
Qed.

Lemma flat_length (f : nat -> pystr) l : (forall i, In i l -> length (f i) = 100%nat) -> length (flat_map f l) = (100 * length l)%nat.
Proof.
  intros H. induction l as [|i l IH]; [reflexivity|]. cbn [flat_map length]. rewrite app_length, (H i) by (left; reflexivity).
  rewrite IH by (intros j J; apply H; right; exact J). lia.
Qed.

Lemma number_chars w i c : In c (number w i) -> is_digit c = true \/ c = 32%N.
Proof.
  unfold number. intros I. apply in_app_or in I. destruct I as [I|I]; [right; apply repeat_spec in I; exact I|].
  apply in_app_or in I. destruct I as [I|[I|[]]]; [left|right; auto]. pose proof (dec_digits (Z.to_N i)) as F. rewrite Forall_forall in F. apply F. exact I.
Qed.
Lemma no_lf w i n : ~ In LF (number w i ++ xs n).
Proof.
  intros I. apply in_app_or in I. destruct I as [I|I]; [apply number_chars in I; destruct I as [I|I]; discriminate|].
  unfold xs in I. apply repeat_spec in I. discriminate.
Qed.

(** The content has the size asked for, and lines of at most 100 bytes, of
    which it is the only one that may lack the line break. *)
Theorem C58_partial : forall size, 0 <= size < 2 ^ 53 -> exists c, create_file size = Ok c /\ Z.of_nat (length c) = size /\
  Forall (fun line => (length line <= 99)%nat) (split_on LF c) /\ Forall (fun ch => (ch < 128)%N) c.
Proof.
  intros size S. unfold create_file. destruct (Z.ltb_spec size 0); [lia|]. rewrite full_lines by exact S. set (k := size / 100).
  pose proof (Z.div_mod size 100 ltac:(discriminate)) as D. pose proof (Z.mod_pos_bound size 100 eq_refl) as M. fold k in D.
  assert (K : 0 <= k) by (unfold k; apply Z.div_pos; lia). assert (Kb : k < 2 ^ 53) by lia.
  pose proof (ln_small k ltac:(lia)) as W. set (nwd := floor_ln (k + 1) + 1).
  assert (Wi : forall i, 0 <= i <= k -> Z.of_nat (length (number nwd i)) = nwd + 1) by (intros i I; apply number_length, width; exact I).
  assert (Wl : forall i, In i (seq 0 (Z.to_nat k)) -> length (number nwd (Z.of_nat i) ++ xs (98 - nwd) ++ [LF]) = 100%nat).
  { intros i I. apply in_seq in I. specialize (Wi (Z.of_nat i) ltac:(lia)). pose proof (xs_length (98 - nwd) ltac:(lia)). rewrite !app_length. cbn [length]. lia. }
  set (full := flat_map _ _). assert (Lf : Z.of_nat (length full) = 100 * k) by (unfold full; rewrite (flat_length _ _ Wl), seq_length; lia).
  specialize (Wi k ltac:(lia)).
  set (rest := let '(c1, lft) := if nwd <? size - k * 100 then (number nwd k, size - k * 100 - (nwd + 1)) else ([], size - k * 100) in
               let '(c2, lft) := if 1 <? lft then (xs (lft - 1), 1) else ([], lft) in c1 ++ c2 ++ (if 0 <? lft then [LF] else [])).
  exists (full ++ rest). split.
  { unfold rest. destruct (nwd <? size - k * 100); destruct (1 <? _); reflexivity. }
  assert (R : Z.of_nat (length rest) = size - k * 100 /\ exists a b, rest = a ++ b /\ ~ In LF a /\ (b = [] \/ b = [LF]) /\ Forall (fun ch => (ch < 128)%N) rest).
  { assert (Nc : forall w i n, Forall (fun ch => (ch < 128)%N) (number w i ++ xs n)).
    { intros w i n. apply Forall_forall. intros c I. apply in_app_or in I. destruct I as [I|I].
      - apply number_chars in I. destruct I as [I| ->]; [|reflexivity]. unfold is_digit in I. rewrite andb_true_iff, !N.leb_le in I. lia.
      - unfold xs in I. apply repeat_spec in I. subst. reflexivity. }
    assert (Shape : forall c1 c2 (b : bool), (c1 = [] \/ c1 = number nwd k) -> (c2 = [] \/ exists n, c2 = xs n) ->
      exists a e, c1 ++ c2 ++ (if b then [LF] else []) = a ++ e /\ ~ In LF a /\ (e = [] \/ e = [LF]) /\ Forall (fun ch => (ch < 128)%N) (c1 ++ c2 ++ (if b then [LF] else []))).
    { intros c1 c2 b H1 H2. exists (c1 ++ c2), (if b then [LF] else []). split; [rewrite app_assoc; reflexivity|].
      assert (A : exists w i n, c1 ++ c2 = number w i ++ xs n \/ incl (c1 ++ c2) (number w i ++ xs n)).
      { exists nwd, k. destruct H2 as [->|[n ->]]; [exists 0|exists n]; right; destruct H1 as [->| ->]; intros c I; apply in_or_app; apply in_app_or in I; destruct I as [I|I]; auto; destruct I. }
      destruct A as (w & i & n & A). assert (A' : incl (c1 ++ c2) (number w i ++ xs n)) by (destruct A as [->|A]; [apply incl_refl|exact A]).
      split; [intros I; apply (no_lf w i n), A'; exact I|]. split; [destruct b; auto|]. rewrite app_assoc. apply Forall_app. split.
      - specialize (Nc w i n). rewrite Forall_forall in *. auto.
      - destruct b; repeat constructor. }
    unfold rest. destruct (Z.ltb_spec nwd (size - k * 100)) as [A|A].
    - destruct (Z.ltb_spec 1 (size - k * 100 - (nwd + 1))) as [B|B].
      + split; [|apply Shape; eauto]. change (0 <? 1) with true. cbv iota. rewrite !app_length. pose proof (xs_length (size - k * 100 - (nwd + 1) - 1) ltac:(lia)). cbn [length]. lia.
      + split; [|apply Shape; eauto]. rewrite !app_length. destruct (Z.ltb_spec 0 (size - k * 100 - (nwd + 1))); cbn [length]; lia.
    - destruct (Z.ltb_spec 1 (size - k * 100)) as [B|B].
      + split; [|apply Shape; eauto]. change (0 <? 1) with true. cbv iota. rewrite !app_length. pose proof (xs_length (size - k * 100 - 1) ltac:(lia)). cbn [length]. lia.
      + split; [|apply Shape; eauto]. rewrite !app_length. destruct (Z.ltb_spec 0 (size - k * 100)); cbn [length]; lia. }
  destruct R as [Lr (a & b & Er & Na & Hb & Cr)]. split; [rewrite app_length, Nat2Z.inj_add, Lf, Lr; lia|].
  assert (Full : Forall (fun ch => (ch < 128)%N) full /\ forall tail, Forall (fun line => (length line <= 99)%nat) (split_on LF tail) -> Forall (fun line => (length line <= 99)%nat) (split_on LF (full ++ tail))).
  { unfold full. revert Wl. generalize (seq 0 (Z.to_nat k)). induction l as [|i l IH]; intros Wl; [split; [constructor|auto]|].
    destruct IH as [IH1 IH2]; [intros j J; apply Wl; right; exact J|]. specialize (Wl i (or_introl eq_refl)). cbn [flat_map]. split.
    - apply Forall_app. split; [|exact IH1]. apply Forall_forall. intros c I. apply in_app_or in I. destruct I as [I|I].
      + apply number_chars in I. destruct I as [I| ->]; [|reflexivity]. unfold is_digit in I. rewrite andb_true_iff, !N.leb_le in I. lia.
      + apply in_app_or in I. destruct I as [I|[<-|[]]]; [|reflexivity]. unfold xs in I. apply repeat_spec in I. subst. reflexivity.
    - intros tail Ht. rewrite <- !app_assoc. cbn [app]. rewrite (app_assoc (number nwd (Z.of_nat i))).
      rewrite split_on_app by apply no_lf. constructor; [|apply IH2; exact Ht]. rewrite !app_length in Wl. cbn [length] in Wl. rewrite app_length. lia. }
  destruct Full as [F1 F2]. split; [|apply Forall_app; split; auto]. apply F2. rewrite Er. 
  assert (La : (length a <= 99)%nat) by (assert (length a <= length rest)%nat by (rewrite Er, app_length; lia); lia).
  destruct Hb as [->| ->]; [rewrite app_nil_r, split_on_none by exact Na; auto|]. cbn [app]. rewrite split_on_app by exact Na. constructor; [exact La|]. repeat constructor.
Qed.
Print Assumptions C58_partial.

Example C58_case :
  create_file 5 = Ok (U "0 xx" ++ [LF]) /\ create_file 1 = Ok [LF] /\ create_file 2 = Ok (U "0 ") /\
  option_map (fun c => length c) (match create_file 1234 with Ok c => Some c | Err _ => None end) = Some 1234%nat.
Proof. repeat split; vm_compute; reflexivity. Qed.

(** For a negative size there is an exception, and from 2^53 on the number of
    lines is not exact. *)
Theorem C58_refuted : (forall size, size < 0 -> create_file size = Err EValue) /\
  exists size, 0 <= size /\ ffloor (fdiv (inject_Z size) (inject_Z 100)) * 100 > size.
Proof.
  split; [intros size H; unfold create_file; destruct (Z.ltb_spec size 0); [reflexivity|lia]|].
  exists (2 ^ 60 * 100 - 1). split; [lia|]. vm_compute. reflexivity.
Qed.
Print Assumptions C58_refuted.

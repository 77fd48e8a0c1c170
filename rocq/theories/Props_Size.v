(** Sizes as text (C59) *)
Require Import String NArith ZArith QArith Qabs Bool List Lia.
Require DecimalFacts DecimalN.
From Verif Require Import PyBase PyFacts TsvProofs BagIt BagItProofs Fs SplitApply SplitApplyProofs5 Props_Restore3 PyFloat PyFloatProofs FormatBytes FormatBytesProofs.
Import ListNotations.
Open Scope N_scope.

(** ** Specification *)

(** The value of a string of digits, and of a decimal numeral with at most one
    dot. *)
Definition digits (s : pystr) : option N :=
  match s with
  | [] => None
  | _ => if forallb is_digit s then Some (fold_left (fun a c => 10 * a + (c - 48)) s 0) else None
  end.
Definition numeral (s : pystr) : option Q :=
  match split_on DOT s with
  | [a] => option_map (fun n => inject_Z (Z.of_N n)) (digits a)
  | [a; b] => match digits a, digits b with
              | Some n, Some f => Some (inject_Z (Z.of_N n) + inject_Z (Z.of_N f) / inject_Z (10 ^ Z.of_nat (length b)))%Q
              | _, _ => None
              end
  | _ => None
  end.

(** The prefix for the size: the greatest power of 1000 below it, up to T. *)
Definition prefix_for (n : N) (o : nat) (prefix : pystr) : Prop :=
  In (o, prefix) [(0%nat, U ""); (1%nat, U "k"); (2%nat, U "M"); (3%nat, U "G"); (4%nat, U "T")] /\
  (o = 0%nat \/ 1000 ^ N.of_nat o <= n) /\ (o = 4%nat \/ n < 1000 ^ N.of_nat (S o)).

(** ** Proofs *)

Definition num (s : pystr) : N := fold_left (fun a c => 10 * a + (c - 48)) s 0.
Lemma num_acc s : forall a, fold_left (fun a c => 10 * a + (c - 48)) s a = a * 10 ^ N.of_nat (length s) + num s.
Proof.
  unfold num. induction s as [|c s IH]; intros a; cbn [fold_left length]; [cbn; lia|].
  rewrite IH, (IH (10 * 0 + (c - 48))). replace (N.of_nat (S (length s))) with (N.succ (N.of_nat (length s))) by lia. rewrite N.pow_succ_r'. lia.
Qed.
Lemma num_app a b : num (a ++ b) = num a * 10 ^ N.of_nat (length b) + num b.
Proof. unfold num at 1. rewrite fold_left_app. fold (num a). apply num_acc. Qed.
Lemma num_zeros j : num (repeat 48 j) = 0.
Proof. induction j as [|j IH]; [reflexivity|]. change (repeat 48 (S j)) with ([48] ++ repeat 48 j). rewrite num_app, IH. reflexivity. Qed.

Lemma digits_val_num s : Forall (fun c => is_digit c = true) s -> s <> [] \/ True -> forall a,
  digits_val a true s = Some (fold_left (fun a c => 10 * a + (c - 48)) s a).
Proof. intros F _. induction F as [|c s D F IH]; intros a; cbn [digits_val fold_left]; [reflexivity|]. rewrite D. apply IH. Qed.
Lemma num_dec n : num (dec n) = n.
Proof.
  pose proof (dec_digits n) as F. pose proof (dec_nonempty n) as NE.
  assert (V : digits_val 0 false (dec n) = Some n).
  { unfold dec. rewrite digits_val_uint; [rewrite DecimalN.Unsigned.of_to; reflexivity|].
    left. intros E. apply NE. unfold dec. rewrite E. reflexivity. }
  unfold num. destruct (dec n) as [|c t]; [congruence|]. inversion F as [|? ? D F']; subst. cbn [digits_val fold_left] in *. rewrite D in V.
  rewrite digits_val_num in V by auto. congruence.
Qed.
Lemma digits_ok s : s <> [] -> Forall (fun c => is_digit c = true) s -> digits s = Some (num s).
Proof. intros NE F. unfold digits, num. destruct s as [|c s]; [congruence|]. rewrite (proj2 (forallb_forall _ _)); [reflexivity|apply Forall_forall; exact F]. Qed.

Lemma dec_head n c t : dec n = c :: t -> n = 0 /\ t = [] \/ c <> 48.
Proof.
  unfold dec. intros H. pose proof (DecimalN.Unsigned.to_of (N.to_uint n)) as U. rewrite DecimalN.Unsigned.of_to in U.
  unfold Decimal.unorm in U.
  destruct (Decimal.nzhead (N.to_uint n)) eqn:E; rewrite U in H; cbn [digits_of_uint] in H; inversion H; subst; try (right; discriminate).
  - left. split; [|reflexivity]. rewrite <- (DecimalN.Unsigned.of_to n), U. reflexivity.
  - exfalso. clear -E. induction (N.to_uint n); cbn in E; try discriminate. auto.
Qed.
Lemma dec_short n p : (0 < p)%nat -> n < 10 ^ N.of_nat p -> (length (dec n) <= p)%nat.
Proof.
  intros P H. destruct (dec n) as [|c t] eqn:E; [cbn; lia|]. destruct (dec_head n c t E) as [[-> ->]|C]; [cbn; lia|].
  pose proof (num_dec n) as V. rewrite E in V. change (c :: t) with ([c] ++ t) in V. rewrite num_app in V.
  pose proof (dec_digits n) as F. rewrite E in F. pose proof (Forall_inv F) as D. cbv beta in D. unfold is_digit in D. rewrite andb_true_iff, !N.leb_le in D.
  assert (1 <= num [c]) by (unfold num; cbn [fold_left]; lia). cbn [length].
  assert (L : 10 ^ N.of_nat (length t) < 10 ^ N.of_nat p) by nia. apply N.pow_lt_mono_r_iff in L; lia.
Qed.

Lemma drop_zeros_spec l : exists j, l = repeat 48 j ++ drop_zeros l /\ match drop_zeros l with [] => True | c :: _ => c <> 48 end.
Proof.
  induction l as [|c l (j & IH & H)]; [exists 0%nat; split; [reflexivity|exact I]|]. cbn [drop_zeros]. destruct (N.eqb_spec c 48) as [->|Ne].
  - exists (S j). split; [cbn; f_equal; exact IH|exact H].
  - exists 0%nat. split; [reflexivity|exact Ne].
Qed.
Lemma drop_zeros_app l c r : c <> 48 -> drop_zeros (l ++ c :: r) = drop_zeros l ++ c :: r.
Proof.
  intros Ne. induction l as [|x l IH]; cbn [drop_zeros app]; [destruct (N.eqb_spec c 48); [contradiction|reflexivity]|].
  destruct (x =? 48); [exact IH|reflexivity].
Qed.
Lemma rev_repeat' (c : N) j : rev (repeat c j) = repeat c j.
Proof. induction j as [|j IH]; [reflexivity|]. cbn [repeat rev]. rewrite IH. symmetry. change (c :: repeat c j) with (repeat c (S j)). replace (S j) with (j + 1)%nat by lia. rewrite repeat_app. reflexivity. Qed.

Lemma strip_zeros_dec a z : exists z' j, z = z' ++ repeat 48 j /\ strip_zeros (a ++ [DOT] ++ z) = a ++ [DOT] ++ z' /\
  (z' = [] \/ exists y c, z' = y ++ [c] /\ c <> 48).
Proof.
  destruct (drop_zeros_spec (rev z)) as (j & E & H). exists (rev (drop_zeros (rev z))), j. split; [|split].
  - rewrite <- (rev_repeat' 48 j), <- rev_app_distr, <- E, rev_involutive. reflexivity.
  - unfold strip_zeros. cbn [app]. rewrite rev_app_distr. cbn [rev]. rewrite <- app_assoc. cbn [app]. rewrite drop_zeros_app by discriminate.
    rewrite rev_app_distr. cbn [rev]. rewrite rev_involutive, <- app_assoc. reflexivity.
  - destruct (drop_zeros (rev z)) as [|c l]; [left; reflexivity|]. right. exists (rev l), c. split; [reflexivity|exact H].
Qed.

Lemma is_digit_not_dot c : is_digit c = true -> c <> DOT.
Proof. intros H ->. discriminate. Qed.
Lemma digits_no_dot s : Forall (fun c => is_digit c = true) s -> ~ In DOT s.
Proof. intros F I. rewrite Forall_forall in F. apply (is_digit_not_dot DOT); auto. Qed.

Lemma shown p k : (0 < p)%nat ->
  let s := strip_dot (strip_zeros (decimals p k)) in
  (exists v, numeral s = Some v /\ v == inject_Z (Z.of_N k) / inject_Z (10 ^ Z.of_nat p))%Q /\
  s <> [] /\ Forall (fun c => is_digit c = true \/ c = DOT) s.
Proof.
  intros P s. unfold decimals in s. cbv zeta in s. set (unit := 10 ^ N.of_nat p) in *.
  assert (Up : 0 < unit) by (apply N.neq_0_lt_0, N.pow_nonzero; discriminate).
  set (b := k mod unit) in *. set (frac := dec b) in *. set (z := repeat 48 (p - length frac) ++ frac) in *.
  assert (K : k = k / unit * unit + b) by (unfold b; pose proof (N.div_mod k unit ltac:(lia)); lia).
  assert (B : b < unit) by (apply N.mod_lt; lia).
  assert (Lf : (length frac <= p)%nat) by (apply dec_short; auto).
  assert (Lz : length z = p) by (unfold z; rewrite app_length, repeat_length; lia).
  assert (Nz : num z = b) by (unfold z; rewrite num_app, num_zeros; unfold frac; rewrite num_dec; lia).
  assert (Fz : Forall (fun c => is_digit c = true) z).
  { unfold z. apply Forall_app. split; [|apply dec_digits]. apply Forall_forall. intros c I0. apply repeat_spec in I0. rewrite I0; reflexivity. }
  destruct (strip_zeros_dec (dec (k / unit)) z) as (z' & j & E & S & T). unfold s. rewrite S. clear s. clearbody z. clearbody frac. clearbody b. clear frac Lf.
  assert (Fz' : Forall (fun c => is_digit c = true) z') by (rewrite E in Fz; apply Forall_app in Fz; apply Fz).
  assert (Nz' : b = num z' * 10 ^ N.of_nat j) by (rewrite E, num_app, num_zeros, repeat_length in Nz; lia).
  assert (Lz' : (length z' + j = p)%nat) by (rewrite E, app_length, repeat_length in Lz; exact Lz).
    pose proof (pow10_pos p) as Pp.
  assert (Uq : (inject_Z (Z.of_N unit) == inject_Z (10 ^ Z.of_nat p))%Q).
  { unfold unit. rewrite N2Z.inj_pow. replace (Z.of_N (N.of_nat p)) with (Z.of_nat p) by lia. reflexivity. }
  assert (Kq : (inject_Z (Z.of_N k) == inject_Z (Z.of_N (k / unit)) * inject_Z (10 ^ Z.of_nat p) + inject_Z (Z.of_N b))%Q).
  { rewrite K at 1. rewrite N2Z.inj_add, N2Z.inj_mul, inject_Z_plus, inject_Z_mult, Uq. reflexivity. }
  assert (NE := dec_nonempty (k / unit)). assert (FD := dec_digits (k / unit)).
  destruct T as [->|(y & c & Ez & Nc)].
  - cbn [app]. unfold strip_dot. rewrite rev_app_distr. cbn [rev app]. rewrite N.eqb_refl, rev_involutive.
    split; [|split; [exact NE|eapply Forall_impl; [|exact FD]; auto]].
    exists (inject_Z (Z.of_N (k / unit))). split.
    + unfold numeral. rewrite split_on_none by (apply digits_no_dot; exact FD). rewrite (digits_ok _ NE FD), num_dec. reflexivity.
    + change (num []) with 0 in Nz'. assert (b = 0) by lia. rewrite Kq, H. change (inject_Z (Z.of_N 0)) with 0%Q. field. intros Z0. rewrite Z0 in Pp. discriminate.
  - assert (X : strip_dot (dec (k / unit) ++ [DOT] ++ z') = dec (k / unit) ++ [DOT] ++ z').
    { unfold strip_dot. rewrite Ez. rewrite !app_assoc, rev_app_distr. cbn [rev app].
      assert (Dc : is_digit c = true) by (rewrite Ez in Fz'; apply Forall_app in Fz'; destruct Fz' as [_ F']; inversion F'; auto).
      destruct (N.eqb_spec c DOT) as [Y|_]; [apply is_digit_not_dot in Dc; contradiction|reflexivity]. }
    rewrite X. assert (NE' : z' <> []) by (rewrite Ez; destruct y; discriminate).
    split; [|split; [destruct (dec (k / unit)); discriminate|]].
    + exists (inject_Z (Z.of_N (k / unit)) + inject_Z (Z.of_N (num z')) / inject_Z (10 ^ Z.of_nat (length z')))%Q. split.
      * unfold numeral. cbn [app]. rewrite split_on_app by (apply digits_no_dot; exact FD). rewrite split_on_none by (apply digits_no_dot; exact Fz').
        rewrite (digits_ok _ NE FD), num_dec, (digits_ok _ NE' Fz'). reflexivity.
      * pose proof (pow10_pos (length z')) as P1. pose proof (pow10_pos j) as P2.
        assert (Q1 : (inject_Z (10 ^ Z.of_nat p) == inject_Z (10 ^ Z.of_nat (length z')) * inject_Z (10 ^ Z.of_nat j))%Q).
        { rewrite <- inject_Z_mult, <- Z.pow_add_r by lia. replace (Z.of_nat (length z') + Z.of_nat j)%Z with (Z.of_nat p) by lia. reflexivity. }
        assert (Q2 : (inject_Z (Z.of_N b) == inject_Z (Z.of_N (num z')) * inject_Z (10 ^ Z.of_nat j))%Q).
        { rewrite Nz', N2Z.inj_mul, N2Z.inj_pow, inject_Z_mult. replace (Z.of_N (N.of_nat j)) with (Z.of_nat j) by lia. reflexivity. }
        rewrite Kq, Q2, Q1. field. split; intros Z0; [rewrite Z0 in P2|rewrite Z0 in P1]; discriminate.
    + apply Forall_app. split; [eapply Forall_impl; [|exact FD]; auto|]. constructor; [right; reflexivity|]. eapply Forall_impl; [|exact Fz']. auto.
Qed.

Theorem C59_close : forall p n, In p [3; 6]%nat -> 1 <= n < 2 ^ 1023 -> exists s v o prefix,
  format_bytes p n = s ++ U " " ++ prefix ++ U "B" /\ prefix_for n o prefix /\
  numeral s = Some v /\ (Qabs (v * inject_Z (1000 ^ Z.of_nat o) - inject_Z (Z.of_N n)) <= inject_Z (Z.of_N n) * (5 # 10000))%Q.
Proof.
  intros p n I H. destruct (format_number p n) as (k & E & Q); [destruct I as [<-|[<-|[]]]; lia|exact H|].
  destruct (shown p k) as [(v & V1 & V2) _]; [destruct I as [<-|[<-|[]]]; lia|].
  eexists _, v, (order n), (nth (order n) prefixes []). split; [exact E|]. split; [|split; [exact V1|]].
  - unfold prefix_for, order. destruct (N.ltb_spec n 1000); [cbn; split; [auto|split; [auto|right; exact H0]]|].
    destruct (N.ltb_spec n 1000000); [cbn; split; [auto|split; [right; exact H0|right; exact H1]]|].
    destruct (N.ltb_spec n 1000000000); [cbn; split; [auto|split; [right; exact H1|right; exact H2]]|].
    destruct (N.ltb_spec n 1000000000000); [cbn; split; [auto|split; [right; exact H2|right; exact H3]]|].
    cbn. split; [auto 6|split; [right; exact H3|left; reflexivity]].
  - cbv zeta in Q. rewrite V2. change (5 # 10000)%Q with (5 # 10000)%Q. eapply Qle_trans; [exact Q|].
    assert (X : (1 # 2000 == 5 # 10000)%Q) by reflexivity. rewrite X. apply Qle_refl.
Qed.
Print Assumptions C59_close.

(** Below a thousand bytes the text is exact. *)
Theorem C59_exact : forall p n, In p [3; 6]%nat -> n < 1000 -> format_bytes p n = dec n ++ U " B".
Proof.
  intros p n I H.
  assert (A : forall q, In q [3; 6]%nat -> forallb (fun i => streq (format_bytes q (N.of_nat i)) (dec (N.of_nat i) ++ U " B")) (seq 0 1000) = true)
    by (intros q [<-|[<-|[]]]; vm_compute; reflexivity).
  specialize (A p I). rewrite forallb_forall in A. specialize (A (N.to_nat n) ltac:(apply in_seq; lia)). apply streq_eq in A.
  rewrite N2Nat.id in A. exact A.
Qed.
Print Assumptions C59_exact.

(** The text of a size can be written as a tag and read again, whatever is
    counted: this is what the theorems about amendments, single multibags and
    restorations ask for. *)
Theorem C59_plain : forall p (count : tree -> N), In p [3; 6]%nat -> plain_size (fun t => format_bytes p (count t)).
Proof.
  intros p count I t. assert (P : (0 < p)%nat) by (destruct I as [<-|[<-|[]]]; lia). cbv beta. unfold format_bytes.
  destruct (thousands _ _ _) as [x o]. destruct (tens _ _ _) as [m r]. cbv zeta.
  match goal with |- context [decimals p ?k] => destruct (shown p k P) as (_ & NE & F); set (s := strip_dot _) in * end.
  assert (Ip : In (nth o prefixes []) ([] :: prefixes)) by (destruct (nth_in_or_default o prefixes []) as [Y| ->]; [right; exact Y|left; reflexivity]).
  set (pre := nth o prefixes []) in *. clearbody s pre. split.
  - apply Forall_app. split; [eapply Forall_impl; [|exact F]; intros c [D| ->]; [apply ws_not_brk, is_digit_not_ws; exact D|reflexivity]|].
    destruct Ip as [<-|[<-|[<-|[<-|[<-|[<-|[]]]]]]]; repeat constructor.
  - split.
    + destruct s as [|c s]; [congruence|]. inversion F as [|? ? D _]; subst. exists c. eexists. split; [reflexivity|].
      destruct D as [D| ->]; [apply is_digit_not_ws; exact D|reflexivity].
    + exists (s ++ U " " ++ pre), 66. split; [rewrite <- !app_assoc; reflexivity|reflexivity].
Qed.
Print Assumptions C59_plain.

(** So does the size that a head bag gets when its tags are updated. It is that
    of all the files in the bag and of a line with the size, so it is right up
    to 0.05%. *)
Definition size_text (n : N) (text : pystr) : Prop := exists s v o prefix,
  text = s ++ U " " ++ prefix ++ U "B" /\ prefix_for n o prefix /\
  numeral s = Some v /\ (Qabs (v * inject_Z (1000 ^ Z.of_nat o) - inject_Z (Z.of_N n)) <= inject_Z (Z.of_N n) * (5 # 10000))%Q.
Definition total_size (t : tree) : N := fold_right N.add 0 (map (fun f => size_of f t) (files t)).

Lemma total_sum l : fold_right N.add 0 l = sum_N l.
Proof. induction l as [|x l IH]; [reflexivity|]. cbn [fold_right sum_N]. rewrite IH. reflexivity. Qed.

Theorem C59_bag_size : plain_size bag_size /\
  forall t, total_size t < 2 ^ 1000 ->
    size_text (total_size t + N.of_nat (length (U "Bag-Size: " ++ dec (total_size t)))) (bag_size t).
Proof.
  split.
  - apply (C59_plain 3 (fun t => let size := sum_N (map (fun f => size_of f t) (files t)) in size + N.of_nat (length (U "Bag-Size: " ++ dec size)))). left. reflexivity.
  - intros t L. unfold bag_size, total_size in *. rewrite total_sum in *. apply C59_close; [left; reflexivity|].
    set (n := sum_N _) in *. clearbody n. rewrite app_length. change (length (U "Bag-Size: ")) with 10%nat. pose proof (dec_short n 1000 ltac:(lia)) as D.
    assert (B : n < 10 ^ N.of_nat 1000) by (eapply N.lt_trans; [exact L|vm_compute; reflexivity]). specialize (D B).
    assert (2 ^ 1000 + 1010 < 2 ^ 1023) by (vm_compute; reflexivity). split; [lia|].
    eapply N.le_lt_trans; [|exact H]. lia.
Qed.
Print Assumptions C59_bag_size.

Example C59_case :
  format_bytes 3 1234567 = U "1.235 MB" /\ format_bytes 6 1234567 = U "1.235 MB" /\ format_bytes 3 123456 = U "123.5 kB" /\
  format_bytes 3 999960 = U "1000 kB" /\ format_bytes 3 1000 = U "1 kB" /\ format_bytes 3 0 = U "0 B" /\
  format_bytes 3 (2 ^ 60) = U "1153000 TB" /\ numeral (U "123.5") <> None.
Proof. repeat split; vm_compute; try reflexivity; discriminate. Qed.

(** * Facts about the Python built-ins of [PyBase] *)

Require Import String Ascii DecimalN DecimalFacts NArith ZArith Bool List Lia.
Require Import Permutation.
From Verif Require Import PyBase.
Import ListNotations.
Open Scope N_scope.

(** ** Results *)

Lemma bind_ok {A B} (x : res A) (f : A -> res B) b :
  bind x f = Ok b <-> exists a, x = Ok a /\ f a = Ok b.
Proof.
  destruct x; simpl; split; intros H.
  - eauto.
  - destruct H as (a' & E & H); congruence.
  - discriminate.
  - destruct H as (a' & E & H); discriminate.
Qed.

Lemma mapM_ok_map {A B} (f : A -> res B) (g : A -> B) l :
  (forall x, In x l -> f x = Ok (g x)) -> mapM f l = Ok (map g l).
Proof.
  induction l as [|x t IH]; simpl; intros H; [reflexivity|].
  rewrite H by auto. simpl. rewrite IH by auto. reflexivity.
Qed.

Lemma mapM_app {A B} (f : A -> res B) l1 l2 r1 r2 :
  mapM f l1 = Ok r1 -> mapM f l2 = Ok r2 -> mapM f (l1 ++ l2) = Ok (r1 ++ r2).
Proof.
  revert r1; induction l1 as [|x t IH]; simpl; intros r1 H1 H2.
  - injection H1 as <-. exact H2.
  - destruct (f x) eqn:E; simpl in *; [|discriminate].
    destruct (mapM f t) as [l|] eqn:E2; simpl in *; [|discriminate].
    injection H1 as <-. rewrite (IH l eq_refl H2). reflexivity.
Qed.

Lemma foldM_app {A S} (f : S -> A -> res S) l1 l2 s :
  foldM f (l1 ++ l2) s = bind (foldM f l1 s) (foldM f l2).
Proof.
  revert s; induction l1 as [|x t IH]; simpl; intros s; [reflexivity|].
  destruct (f s x); simpl; auto.
Qed.

Lemma foldM_pure {A S} (f : S -> A -> res S) (g : S -> A -> S) l s :
  (forall s x, In x l -> f s x = Ok (g s x)) -> foldM f l s = Ok (fold_left g l s).
Proof.
  revert s; induction l as [|x t IH]; simpl; intros s H; [reflexivity|].
  rewrite H by auto; simpl. apply IH; auto.
Qed.

(** ** String equality and order *)

Lemma streq_refl a : streq a a = true.
Proof. induction a; simpl; auto. rewrite N.eqb_refl; auto. Qed.

Lemma streq_eq a b : streq a b = true <-> a = b.
Proof.
  split; [|intros ->; apply streq_refl].
  revert b; induction a; destruct b; simpl; intros H; try discriminate; auto.
  apply andb_prop in H as [H1 H2]. apply N.eqb_eq in H1 as ->. f_equal; auto.
Qed.

Lemma streq_neq a b : streq a b = false <-> a <> b.
Proof.
  destruct (streq a b) eqn:E; split; intros H; auto; try discriminate.
  - apply streq_eq in E; contradiction.
  - intros ->. rewrite streq_refl in E; discriminate.
Qed.

Lemma streq_sym a b : streq a b = streq b a.
Proof.
  destruct (streq b a) eqn:E.
  - apply streq_eq in E as ->. apply streq_refl.
  - apply streq_neq. apply streq_neq in E. congruence.
Qed.

Lemma streq_reflect a b : reflect (a = b) (streq a b).
Proof. destruct (streq a b) eqn:E; constructor; [apply streq_eq|apply streq_neq]; auto. Qed.

Definition str_eq_dec : forall a b : pystr, {a = b} + {a <> b} := list_eq_dec N.eq_dec.

Lemma str_in_iff x l : str_in x l = true <-> In x l.
Proof.
  induction l; simpl; [split; [discriminate|tauto]|].
  rewrite orb_true_iff, IHl, streq_eq. intuition congruence.
Qed.

Lemma str_in_false x l : str_in x l = false <-> ~ In x l.
Proof.
  rewrite <- str_in_iff. destruct (str_in x l); split; intros; auto; try congruence.
Qed.

Lemma strlt_irrefl a : strlt a a = false.
Proof. induction a; simpl; auto. rewrite N.ltb_irrefl, N.eqb_refl, IHa. reflexivity. Qed.

Lemma strlt_trans a b c : strlt a b = true -> strlt b c = true -> strlt a c = true.
Proof.
  revert b c; induction a as [|x a IH]; destruct b as [|y b], c as [|z c]; simpl;
    intros H1 H2; try discriminate; auto.
  apply orb_true_iff in H1, H2. apply orb_true_iff.
  destruct H1 as [H1|H1], H2 as [H2|H2];
    rewrite ?andb_true_iff, ?N.ltb_lt, ?N.eqb_eq in *; try (left; lia).
  right. destruct H1, H2; split; [lia|eauto].
Qed.

Lemma strlt_total a b : a = b \/ strlt a b = true \/ strlt b a = true.
Proof.
  revert b; induction a as [|x a IH]; destruct b as [|y b]; simpl; auto.
  destruct (N.lt_trichotomy x y) as [H|[H|H]].
  - right; left. apply N.ltb_lt in H. rewrite H. reflexivity.
  - subst. rewrite N.ltb_irrefl, N.eqb_refl. simpl.
    destruct (IH b) as [->|[H|H]]; auto.
  - right; right. apply N.ltb_lt in H. rewrite H. reflexivity.
Qed.

Lemma strlt_asym a b : strlt a b = true -> strlt b a = false.
Proof.
  intros H. destruct (strlt b a) eqn:E; auto.
  pose proof (strlt_trans _ _ _ H E) as K.
  rewrite strlt_irrefl in K; discriminate.
Qed.

(** ** startswith *)

Lemma startswith_iff s p : startswith s p = true <-> exists t, s = p ++ t.
Proof.
  revert s; induction p as [|x p IH]; intros s; simpl.
  - split; eauto. destruct s; auto.
  - destruct s as [|y s]; simpl.
    + split; [discriminate|]. intros (t & H); discriminate.
    + rewrite andb_true_iff, IH, N.eqb_eq. split.
      * intros (-> & t & ->); eauto.
      * intros (t & H). injection H as -> ->. eauto.
Qed.

Lemma startswith_nil s : startswith s [] = true.
Proof. destruct s; reflexivity. Qed.

Lemma startswith_app p t : startswith (p ++ t) p = true.
Proof. apply startswith_iff; eauto. Qed.

Lemma startswith_refl p : startswith p p = true.
Proof. apply startswith_iff; exists []; rewrite app_nil_r; reflexivity. Qed.

Lemma endswith_iff s p : endswith s p = true <-> exists t, s = t ++ p.
Proof.
  unfold endswith. rewrite startswith_iff. split; intros (t & H).
  - exists (rev t). rewrite <- (rev_involutive s), H, rev_app_distr, rev_involutive. reflexivity.
  - exists (rev t). rewrite H, rev_app_distr. reflexivity.
Qed.

(** ** strip *)

Lemma lstrip_if_app p w s :
  Forall (fun c => p c = true) w -> lstrip_if p (w ++ s) = lstrip_if p s.
Proof. induction 1; simpl; auto. rewrite H; auto. Qed.

Lemma lstrip_if_head p c s : p c = false -> lstrip_if p (c :: s) = c :: s.
Proof. simpl; intros ->; reflexivity. Qed.

Lemma rstrip_if_all p w : Forall (fun c => p c = true) w -> rstrip_if p w = [].
Proof. induction 1; simpl; auto. rewrite IHForall, H; reflexivity. Qed.

Lemma rstrip_if_app p s w :
  Forall (fun c => p c = true) w -> rstrip_if p (s ++ w) = rstrip_if p s.
Proof.
  intros H. induction s as [|c s IH]; simpl; [apply rstrip_if_all; auto|].
  rewrite IH; reflexivity.
Qed.

Lemma rstrip_if_last p s c : p c = false -> rstrip_if p (s ++ [c]) = s ++ [c].
Proof.
  intros H. induction s as [|x s IH]; simpl; [rewrite H; reflexivity|].
  rewrite IH. destruct (s ++ [c]) eqn:E; auto. destruct s; discriminate.
Qed.

Lemma rstrip_if_app_neq p s t : rstrip_if p t <> [] -> rstrip_if p (s ++ t) = s ++ rstrip_if p t.
Proof.
  intros H. induction s as [|x s IH]; simpl; auto. rewrite IH.
  destruct (s ++ rstrip_if p t) eqn:E; auto.
  destruct s; simpl in E; [contradiction|discriminate].
Qed.

Lemma rstrip_if_split p s :
  exists w, s = rstrip_if p s ++ w /\ Forall (fun c => p c = true) w.
Proof.
  induction s as [|c s (w & E & F)]; simpl.
  - exists []; auto.
  - destruct (rstrip_if p s) eqn:R.
    + destruct (p c) eqn:P.
      * exists (c :: s). split; auto. simpl in E; subst; constructor; auto.
      * exists w. simpl in E. subst. auto.
    + exists w. simpl in *. split; [f_equal; auto|auto].
Qed.

Lemma lstrip_if_split p s :
  exists w, s = w ++ lstrip_if p s /\ Forall (fun c => p c = true) w.
Proof.
  induction s as [|c s (w & E & F)]; simpl.
  - exists []; auto.
  - destruct (p c) eqn:P.
    + exists (c :: w). simpl; split; [congruence|auto].
    + exists []; auto.
Qed.

(** First and last characters are not whitespace (and there is one). *)
Definition trimmed (s : pystr) : Prop :=
  (exists c t, s = c :: t /\ is_ws c = false) /\
  (exists t c, s = t ++ [c] /\ is_ws c = false).

Lemma strip_trimmed s : trimmed s -> strip s = s.
Proof.
  intros [(c & t & -> & H) (t' & c' & E & H')]. unfold strip.
  rewrite lstrip_if_head by auto. rewrite E. apply rstrip_if_last; auto.
Qed.

Lemma strip_app_ws s w : Forall (fun c => is_ws c = true) w -> strip (s ++ w) = strip s.
Proof.
  intros H. unfold strip.
  induction s as [|c s IH]; simpl.
  - pose proof (lstrip_if_app is_ws w [] H) as E. rewrite app_nil_r in E. rewrite E. reflexivity.
  - destruct (is_ws c) eqn:W; auto.
    apply (rstrip_if_app is_ws (c :: s) w H).
Qed.

Lemma strip_ws_app s w : Forall (fun c => is_ws c = true) w -> strip (w ++ s) = strip s.
Proof. intros H. unfold strip. rewrite lstrip_if_app; auto. Qed.

Lemma trimmed_nonempty s : trimmed s -> s <> [].
Proof. intros [(c & t & -> & _) _]; discriminate. Qed.

Lemma trimmed_cons_snoc a b s : is_ws a = false -> is_ws b = false -> trimmed (a :: s ++ [b]).
Proof.
  intros. split; [exists a, (s ++ [b]); auto|].
  exists (a :: s), b; auto.
Qed.

(** Two trimmed strings with anything between them are trimmed. *)
Lemma trimmed_app a m b : trimmed a -> trimmed b -> trimmed (a ++ m ++ b).
Proof.
  intros [(c & t & -> & H) _] [_ (t' & c' & -> & H')]. split.
  - exists c, (t ++ m ++ t' ++ [c']); auto.
  - exists ((c :: t) ++ m ++ t'), c'. rewrite !app_assoc. auto.
Qed.

Lemma strip_is_trimmed s : strip s = [] \/ trimmed (strip s).
Proof.
  unfold strip. destruct (lstrip_if is_ws s) as [|c t] eqn:L; [left; reflexivity|].
  assert (W : is_ws c = false).
  { clear -L. induction s as [|x s IH]; simpl in L; [discriminate|].
    destruct (is_ws x) eqn:E; auto. congruence. }
  right. split.
  - simpl. destruct (rstrip_if is_ws t) eqn:R.
    + rewrite W. exists c, []; auto.
    + eexists _, _; split; eauto.
  - assert (G : forall l, rstrip_if is_ws l = [] \/ exists t c, rstrip_if is_ws l = t ++ [c] /\ is_ws c = false).
    { induction l as [|x l IH]; simpl; auto. destruct IH as [->|(u & d & -> & D)].
      - destruct (is_ws x) eqn:E; auto. right; exists [], x; auto.
      - right. exists (x :: u), d. split; auto. destruct u; reflexivity. }
    destruct (G (c :: t)) as [E|E]; auto.
    simpl in E. rewrite W in E. destruct (rstrip_if is_ws t); discriminate.
Qed.

(** ** split *)

Lemma split_on_none c s : ~ In c s -> split_on c s = [s].
Proof.
  induction s as [|x s IH]; simpl; intros H; auto.
  destruct (N.eqb_spec x c); [subst; tauto|]. rewrite IH by tauto. reflexivity.
Qed.

Lemma split_on_app c a b : ~ In c a -> split_on c (a ++ c :: b) = a :: split_on c b.
Proof.
  induction a as [|x a IH]; simpl; intros H.
  - rewrite N.eqb_refl; reflexivity.
  - destruct (N.eqb_spec x c); [subst; tauto|]. rewrite IH by tauto. reflexivity.
Qed.

Lemma split_on_nonempty c s : split_on c s <> [].
Proof. destruct s; simpl; [discriminate|]. destruct (n =? c); [discriminate|]. destruct (split_on c s); discriminate. Qed.

Lemma join_split c s : join [c] (split_on c s) = s.
Proof.
  induction s as [|x s IH]; simpl; auto.
  destruct (N.eqb_spec x c) as [->|].
  - destruct (split_on c s) as [|w ws] eqn:E; [now apply split_on_nonempty in E|].
    change (join [c] ([] :: w :: ws)) with ([] ++ [c] ++ join [c] (w :: ws)).
    rewrite IH. reflexivity.
  - destruct (split_on c s) as [|w ws] eqn:E; [now apply split_on_nonempty in E|].
    destruct ws; simpl in *; congruence.
Qed.

Lemma split_join c l : l <> [] -> Forall (fun w => ~ In c w) l -> split_on c (join [c] l) = l.
Proof.
  intros NE F. induction F as [|w l H F IH]; [congruence|].
  destruct l as [|w' l]; simpl; [apply split_on_none; auto|].
  rewrite split_on_app by auto. f_equal. apply IH. discriminate.
Qed.

Lemma split_on_no_sep c s : Forall (fun w => ~ In c w) (split_on c s).
Proof.
  induction s as [|x s IH]; simpl; [repeat constructor; simpl; tauto|].
  destruct (N.eqb_spec x c).
  - constructor; auto.
  - destruct (split_on c s); inversion IH; subst; constructor; auto; simpl; intuition.
Qed.

Lemma split1_app c a b : ~ In c a -> split1 c (a ++ c :: b) = Some (a, b).
Proof.
  induction a as [|x a IH]; simpl; intros H.
  - rewrite N.eqb_refl; reflexivity.
  - destruct (N.eqb_spec x c); [subst; tauto|]. rewrite IH by tauto. reflexivity.
Qed.

Lemma split1_none c s : ~ In c s -> split1 c s = None.
Proof.
  induction s as [|x s IH]; simpl; intros H; auto.
  destruct (N.eqb_spec x c); [subst; tauto|]. rewrite IH by tauto. reflexivity.
Qed.

Lemma split1_some c s a b : split1 c s = Some (a, b) -> s = a ++ c :: b /\ ~ In c a.
Proof.
  revert a b; induction s as [|x s IH]; simpl; intros a b H; [discriminate|].
  destruct (N.eqb_spec x c) as [->|N].
  - injection H as <- <-. simpl; auto.
  - destruct (split1 c s) as [[a' b']|]; [|discriminate]. injection H as <- <-.
    destruct (IH _ _ eq_refl) as [-> NI]. simpl; intuition.
Qed.

Lemma span_not_app p a c b :
  Forall (fun x => p x = false) a -> p c = true -> span_not p (a ++ c :: b) = (a, c :: b).
Proof. induction 1; simpl; intros Hc; [rewrite Hc; auto|]. rewrite H, IHForall; auto. Qed.

Lemma span_not_all p a : Forall (fun x => p x = false) a -> span_not p a = (a, []).
Proof. induction 1; simpl; auto. rewrite H, IHForall; auto. Qed.

(** ** Lines *)

Lemma pylines_app r l rest :
  Forall (fun c => is_brk r c = false) l ->
  pylines r (l ++ LF :: rest) = (l ++ [LF]) :: pylines r rest.
Proof.
  intros H. induction H as [|c l Hc _ IH].
  - simpl. assert (is_brk r LF = true) as -> by (destruct r; reflexivity).
    destruct rest; reflexivity.
  - cbn [app pylines]. rewrite Hc, IH. reflexivity.
Qed.

Lemma pylines_concat r s : concat (pylines r s) = s.
Proof.
  remember (length s) as n. assert (L : (length s <= n)%nat) by lia. clear Heqn. revert s L.
  induction n as [|n IH]; intros s L.
  - destruct s; simpl in *; [auto|lia].
  - destruct s as [|c t]; simpl; auto. simpl in L.
    destruct (is_brk r c).
    + destruct t as [|d t']; [reflexivity|].
      destruct ((c =? 13) && (d =? 10)).
      * cbn [concat app]. rewrite IH by (simpl in L; lia). reflexivity.
      * cbn [concat app]. rewrite IH by (simpl in *; lia). reflexivity.
    + destruct (pylines r t) eqn:E.
      * simpl. specialize (IH t ltac:(lia)). rewrite E in IH. simpl in IH. congruence.
      * specialize (IH t ltac:(lia)). rewrite E in IH. simpl in *. congruence.
Qed.

Lemma pylines_flat_map {A} r (f : A -> pystr) l :
  (forall x, In x l -> Forall (fun c => is_brk r c = false) (f x)) ->
  pylines r (flat_map (fun x => f x ++ [LF]) l) = map (fun x => f x ++ [LF]) l.
Proof.
  induction l as [|x l IH]; simpl; intros H; [reflexivity|].
  rewrite <- app_assoc. simpl. rewrite pylines_app by auto. f_equal. auto.
Qed.

Lemma is_brk_ws r c : is_brk r c = true -> is_ws c = true.
Proof.
  unfold is_brk, is_ws. intros H. destruct r; repeat rewrite orb_true_iff in *;
  repeat rewrite andb_true_iff in *; repeat rewrite N.eqb_eq in *; repeat rewrite N.leb_le in *; lia.
Qed.

Lemma is_brk_iotext r c : is_brk r c = false -> is_brk IoText c = false.
Proof.
  destruct r; simpl; auto. intros H. apply orb_false_iff.
  repeat rewrite orb_false_iff in H. rewrite !andb_false_iff, !N.leb_gt, !N.eqb_neq in H.
  rewrite !N.eqb_neq. lia.
Qed.

(** ** Decimal *)

Lemma digits_of_uint_inj d d' : digits_of_uint d = digits_of_uint d' -> d = d'.
Proof.
  revert d'; induction d; destruct d'; simpl; intros H; try discriminate; auto;
    injection H as H; f_equal; auto.
Qed.

Lemma dec_inj n m : dec n = dec m -> n = m.
Proof.
  unfold dec. intros H. apply digits_of_uint_inj in H.
  rewrite <- (DecimalN.Unsigned.of_to n), <- (DecimalN.Unsigned.of_to m). congruence.
Qed.

Lemma digits_of_uint_digits d : Forall (fun c => is_digit c = true) (digits_of_uint d).
Proof. induction d; simpl; constructor; auto. Qed.

Lemma dec_digits n : Forall (fun c => is_digit c = true) (dec n).
Proof. apply digits_of_uint_digits. Qed.

Lemma dec_nonempty n : dec n <> [].
Proof.
  unfold dec. intros H.
  assert (E : N.to_uint n = Decimal.Nil) by (destruct (N.to_uint n); simpl in H; congruence).
  pose proof (DecimalN.Unsigned.of_to n) as K. rewrite E in K. simpl in K. subst. discriminate.
Qed.

Lemma is_digit_not_ws c : is_digit c = true -> is_ws c = false.
Proof.
  unfold is_digit. rewrite andb_true_iff, !N.leb_le. intros H.
  unfold is_ws. rewrite !orb_false_iff, !andb_false_iff, !N.leb_gt, !N.eqb_neq. lia.
Qed.

Lemma trimmed_no_ws s : s <> [] -> Forall (fun c => is_ws c = false) s -> trimmed s.
Proof.
  intros NE F. split.
  - destruct s as [|c t]; [congruence|]. inversion F; subst. eauto.
  - destruct (exists_last NE) as (t & c & ->). exists t, c. split; auto.
    apply Forall_app in F as [_ F]. inversion F; auto.
Qed.

Lemma dec_trimmed n : trimmed (dec n).
Proof.
  apply trimmed_no_ws; [apply dec_nonempty|].
  eapply Forall_impl; [|apply dec_digits]. apply is_digit_not_ws.
Qed.

Lemma digits_val_pos d acc :
  digits_val (Npos acc) true (digits_of_uint d) = Some (Npos (Pos.of_uint_acc d acc)).
Proof.
  revert acc; induction d; intros acc; cbn [digits_of_uint digits_val Pos.of_uint_acc]; auto;
  match goal with |- context [is_digit ?x] => change (is_digit x) with true end; cbv iota;
  rewrite <- IHd; f_equal; lia.
Qed.

Lemma digits_val_uint d prev : d <> Decimal.Nil \/ prev = true ->
  digits_val 0 prev (digits_of_uint d) = Some (N.of_uint d).
Proof.
  revert prev; induction d; intros prev H; cbn [digits_of_uint digits_val].
  - destruct H as [H| ->]; [congruence|reflexivity].
  - change (is_digit 48) with true; cbv iota. change (10 * 0 + (48 - 48)) with 0. rewrite (IHd true) by auto. reflexivity.
  - change (is_digit 49) with true; cbv iota. apply (digits_val_pos d 1).
  - change (is_digit 50) with true; cbv iota. apply (digits_val_pos d 2).
  - change (is_digit 51) with true; cbv iota. apply (digits_val_pos d 3).
  - change (is_digit 52) with true; cbv iota. apply (digits_val_pos d 4).
  - change (is_digit 53) with true; cbv iota. apply (digits_val_pos d 5).
  - change (is_digit 54) with true; cbv iota. apply (digits_val_pos d 6).
  - change (is_digit 55) with true; cbv iota. apply (digits_val_pos d 7).
  - change (is_digit 56) with true; cbv iota. apply (digits_val_pos d 8).
  - change (is_digit 57) with true; cbv iota. apply (digits_val_pos d 9).
Qed.

Lemma py_int_dec n : py_int (dec n) = Some (Z.of_N n).
Proof.
  unfold py_int. rewrite strip_trimmed by apply dec_trimmed.
  pose proof (dec_digits n) as F. pose proof (dec_nonempty n) as NE.
  assert (V : digits_val 0 false (dec n) = Some n).
  { unfold dec. rewrite digits_val_uint.
    - rewrite DecimalN.Unsigned.of_to. reflexivity.
    - left. intros E. apply NE. unfold dec. rewrite E. reflexivity. }
  destruct (dec n) as [|c t]; [congruence|]. inversion F as [|? ? D _]; subst.
  unfold is_digit in D. rewrite andb_true_iff, !N.leb_le in D.
  destruct (N.eqb_spec c 45); [lia|]. destruct (N.eqb_spec c 43); [lia|].
  rewrite V. reflexivity.
Qed.

(** ** Dictionaries *)

Section Dict.
Context {V : Type}.
Implicit Types (d : dict V) (k : pystr) (v : V).

Lemma od_get_set_same k v d : od_get k (od_set k v d) = Some v.
Proof.
  induction d as [|[k' v'] d IH]; simpl.
  - rewrite streq_refl; reflexivity.
  - destruct (streq k k') eqn:E; simpl; rewrite E; auto.
Qed.

Lemma od_get_set_other k k' v d : k <> k' -> od_get k (od_set k' v d) = od_get k d.
Proof.
  intros N. induction d as [|[k0 v0] d IH]; simpl.
  - apply streq_neq in N. rewrite N; reflexivity.
  - destruct (streq k' k0) eqn:E; simpl.
    + apply streq_eq in E as <-. apply streq_neq in N. rewrite N. reflexivity.
    + destruct (streq k k0); auto.
Qed.

Lemma od_get_set k k' v d :
  od_get k (od_set k' v d) = if streq k k' then Some v else od_get k d.
Proof.
  destruct (streq_reflect k k') as [->|N]; [apply od_get_set_same|apply od_get_set_other; auto].
Qed.

Lemma od_get_in k v d : od_get k d = Some v -> In (k, v) d.
Proof.
  induction d as [|[k0 v0] d IH]; simpl; [discriminate|].
  destruct (streq_reflect k k0) as [->|N]; intros H; [injection H as ->; auto|auto].
Qed.

Lemma od_get_none k d : od_get k d = None <-> ~ In k (od_keys d).
Proof.
  induction d as [|[k0 v0] d IH]; simpl; [tauto|].
  destruct (streq_reflect k k0) as [->|N]; [split; [discriminate|tauto]|].
  rewrite IH. intuition congruence.
Qed.

Lemma od_get_some_key k v d : od_get k d = Some v -> In k (od_keys d).
Proof. intros H. apply od_get_in in H. apply (in_map fst) in H. exact H. Qed.

Lemma od_key_some k d : In k (od_keys d) -> exists v, od_get k d = Some v.
Proof.
  intros H. destruct (od_get k d) eqn:E; eauto. apply od_get_none in E; contradiction.
Qed.

Lemma od_has_iff k d : od_has k d = true <-> In k (od_keys d).
Proof.
  unfold od_has. destruct (od_get k d) eqn:E.
  - split; auto. intros _. eapply od_get_some_key; eauto.
  - apply od_get_none in E. split; [discriminate|contradiction].
Qed.

Lemma od_has_false k d : od_has k d = false <-> od_get k d = None.
Proof. unfold od_has. destruct (od_get k d); split; congruence. Qed.

Lemma od_in_get k v d : NoDup (od_keys d) -> In (k, v) d -> od_get k d = Some v.
Proof.
  induction d as [|[k0 v0] d IH]; simpl; [tauto|].
  intros ND [H|H]; inversion ND; subst.
  - injection H as -> ->. rewrite streq_refl; reflexivity.
  - destruct (streq_reflect k k0) as [->|N]; [|auto].
    apply (in_map fst) in H; simpl in H; contradiction.
Qed.

Lemma od_keys_set_in k v d : In k (od_keys d) -> od_keys (od_set k v d) = od_keys d.
Proof.
  induction d as [|[k0 v0] d IH]; simpl; [tauto|].
  destruct (streq_reflect k k0) as [->|N]; [reflexivity|].
  intros [H|H]; [congruence|]. simpl. f_equal; auto.
Qed.

Lemma od_set_fresh k v d : ~ In k (od_keys d) -> od_set k v d = d ++ [(k, v)].
Proof.
  induction d as [|[k0 v0] d IH]; simpl; intros H; auto.
  destruct (streq_reflect k k0) as [->|N]; [tauto|]. rewrite IH by tauto; reflexivity.
Qed.

Lemma od_keys_set_fresh k v d : ~ In k (od_keys d) -> od_keys (od_set k v d) = od_keys d ++ [k].
Proof. intros H. rewrite od_set_fresh by auto. unfold od_keys. rewrite map_app. reflexivity. Qed.

Lemma in_od_keys_set k k' v d : In k (od_keys (od_set k' v d)) <-> k = k' \/ In k (od_keys d).
Proof.
  destruct (in_dec str_eq_dec k' (od_keys d)) as [H|H].
  - rewrite od_keys_set_in by auto. intuition congruence.
  - rewrite od_keys_set_fresh by auto. rewrite in_app_iff; simpl. intuition congruence.
Qed.

Lemma NoDup_snoc {A} (l : list A) x : NoDup l -> ~ In x l -> NoDup (l ++ [x]).
Proof.
  intros H N. apply NoDup_rev in H. rewrite <- (rev_involutive (l ++ [x])).
  apply NoDup_rev. rewrite rev_app_distr. simpl. constructor; auto.
  rewrite <- in_rev; auto.
Qed.

Lemma od_set_NoDup k v d : NoDup (od_keys d) -> NoDup (od_keys (od_set k v d)).
Proof.
  intros H. destruct (in_dec str_eq_dec k (od_keys d)).
  - rewrite od_keys_set_in; auto.
  - rewrite od_keys_set_fresh by auto. apply NoDup_snoc; auto.
Qed.

Lemma od_get_del_other k k' d : k <> k' -> od_get k (od_del k' d) = od_get k d.
Proof.
  intros N. induction d as [|[k0 v0] d IH]; simpl; auto.
  destruct (streq_reflect k' k0) as [->|N'].
  - apply streq_neq in N. rewrite N. reflexivity.
  - simpl. destruct (streq k k0); auto.
Qed.

Lemma od_del_notin k d : ~ In k (od_keys d) -> od_del k d = d.
Proof.
  induction d as [|[k0 v0] d IH]; simpl; intros H; auto.
  destruct (streq_reflect k k0) as [->|N]; [tauto|]. rewrite IH by tauto; reflexivity.
Qed.

Lemma in_od_keys_del k k' d : In k (od_keys (od_del k' d)) -> In k (od_keys d).
Proof.
  induction d as [|[k0 v0] d IH]; simpl; auto.
  destruct (streq k' k0); simpl; intuition.
Qed.

Lemma od_del_NoDup k d : NoDup (od_keys d) -> NoDup (od_keys (od_del k d)).
Proof.
  induction d as [|[k0 v0] d IH]; simpl; intros H; auto. inversion H; subst.
  destruct (streq k k0); simpl; auto. constructor; auto.
  intros I. apply in_od_keys_del in I. contradiction.
Qed.

Lemma od_get_del_same k d : NoDup (od_keys d) -> od_get k (od_del k d) = None.
Proof.
  induction d as [|[k0 v0] d IH]; simpl; intros H; auto. inversion H; subst.
  destruct (streq_reflect k k0) as [->|N].
  - apply od_get_none; auto.
  - simpl. apply streq_neq in N as ->. auto.
Qed.

Lemma od_get_del k k' d : NoDup (od_keys d) ->
  od_get k (od_del k' d) = if streq k k' then None else od_get k d.
Proof.
  intros H. destruct (streq_reflect k k') as [->|N].
  - apply od_get_del_same; auto.
  - apply od_get_del_other; auto.
Qed.

Lemma od_get_app k d1 d2 :
  od_get k (d1 ++ d2) = match od_get k d1 with Some v => Some v | None => od_get k d2 end.
Proof.
  induction d1 as [|[k0 v0] d IH]; simpl; auto. destruct (streq k k0); auto.
Qed.

Lemma fold_od_set_NoDup (l : list (pystr * V)) d :
  NoDup (od_keys d) -> NoDup (od_keys (fold_left (fun d kv => od_set (fst kv) (snd kv) d) l d)).
Proof. revert d; induction l; simpl; intros d H; auto. apply IHl, od_set_NoDup; auto. Qed.

Lemma od_of_pairs_NoDup l : NoDup (od_keys (od_of_pairs (V:=V) l)).
Proof. apply fold_od_set_NoDup. constructor. Qed.

Lemma fold_od_set_fresh (l : list (pystr * V)) d :
  NoDup (od_keys d ++ map fst l) ->
  fold_left (fun d kv => od_set (fst kv) (snd kv) d) l d = d ++ l.
Proof.
  revert d; induction l as [|[k v] l IH]; simpl; intros d H; [rewrite app_nil_r; auto|].
  assert (K : ~ In k (od_keys d)).
  { apply NoDup_remove_2 in H. rewrite in_app_iff in H. tauto. }
  rewrite od_set_fresh by auto. rewrite IH.
  - rewrite <- app_assoc. reflexivity.
  - unfold od_keys in *. rewrite map_app. simpl. rewrite <- app_assoc. exact H.
Qed.

Lemma od_of_pairs_id l : NoDup (map fst l) -> od_of_pairs (V:=V) l = l.
Proof. intros H. unfold od_of_pairs. rewrite fold_od_set_fresh; auto. Qed.

(** Looking up in [od_of_pairs l] finds the last pair. *)
Lemma od_get_fold k (l : list (pystr * V)) d :
  od_get k (fold_left (fun d kv => od_set (fst kv) (snd kv) d) l d) =
  match od_get k (rev l) with Some v => Some v | None => od_get k d end.
Proof.
  revert d; induction l as [|[k0 v0] l IH]; simpl; intros d; auto.
  rewrite IH, od_get_app, od_get_set. simpl.
  destruct (od_get k (rev l)); auto.
  destruct (streq k k0); reflexivity.
Qed.

Lemma od_get_of_pairs k l : od_get k (od_of_pairs (V:=V) l) = od_get k (rev l).
Proof. unfold od_of_pairs. rewrite od_get_fold. simpl. destruct (od_get k (rev l)); auto. Qed.

(** Two dictionaries with the same keys in the same order and the same
    values are equal. *)
Lemma od_ext d d' :
  NoDup (od_keys d) -> od_keys d = od_keys d' -> (forall k, od_get k d = od_get k d') -> d = d'.
Proof.
  revert d'; induction d as [|[k v] d IH]; destruct d' as [|[k' v'] d']; simpl;
    intros ND E G; try discriminate; auto.
  injection E as -> E. inversion ND; subst.
  assert (v = v') as ->.
  { specialize (G k'). rewrite streq_refl in G. congruence. }
  f_equal. apply IH; auto. intros q. specialize (G q).
  destruct (streq_reflect q k') as [Eq|N]; [subst q; clear G|exact G].
  assert (od_get k' d = None) as -> by (apply od_get_none; auto).
  symmetry. apply od_get_none. rewrite <- E; auto.
Qed.

End Dict.

(** ** Sets *)

Lemma in_set_add x y s : In x (set_add y s) <-> x = y \/ In x s.
Proof.
  unfold set_add. destruct (str_in y s) eqn:E.
  - apply str_in_iff in E. intuition congruence.
  - rewrite in_app_iff; simpl. intuition congruence.
Qed.

Lemma set_add_NoDup y s : NoDup s -> NoDup (set_add y s).
Proof.
  unfold set_add. destruct (str_in y s) eqn:E; auto.
  intros H. apply str_in_false in E. apply NoDup_snoc; auto.
Qed.

Lemma in_set_remove x y s : In x (set_remove y s) <-> x <> y /\ In x s.
Proof.
  unfold set_remove. rewrite filter_In, negb_true_iff, streq_neq. intuition congruence.
Qed.

Lemma in_set_fold x l s : In x (fold_left (fun s x => set_add x s) l s) <-> In x l \/ In x s.
Proof.
  revert s; induction l as [|y l IH]; simpl; intros s; [tauto|].
  rewrite IH, in_set_add. intuition congruence.
Qed.

Lemma in_set_of x l : In x (set_of l) <-> In x l.
Proof. unfold set_of. rewrite in_set_fold. simpl; tauto. Qed.

Lemma set_of_NoDup l : NoDup (set_of l).
Proof.
  unfold set_of. assert (H : NoDup (@nil pystr)) by constructor.
  revert H. generalize (@nil pystr). induction l; simpl; auto.
  intros. apply IHl, set_add_NoDup; auto.
Qed.

(** Properties of the validators *)
Require Import String NArith PeanoNat Bool List Lia Permutation.
From Verif Require Import PyBase PyFacts Version Tsv TsvProofs Fs FsFacts HeadBag HeadBagProofs HeadBagProofs2 HeadBagProofs3 BagIt BagItProofs Split SplitApply Validate ValidateProofs.
Import ListNotations.
Open Scope N_scope.

Ltac computed := repeat match goal with |- _ /\ _ => split end; vm_compute; reflexivity.

(** ** C47 *)

(** A test that was recorded: the issue, its type, the outcome, comments. *)
Record call := { c_issue : issue; c_type : N; c_passed : bool; c_comments : list pystr }.
Definition record_calls (calls : list call) (r : vres) : res vres :=
  foldM (fun r c => add_issue (c_issue c) (c_type c) (c_passed c) (c_comments c) r) calls r.

(** The types of a mask. *)
Definition selected (m : N) (c : call) : bool := negb (N.land (c_type c) m =? 0).
(** What is remembered of a call. *)
Definition remembered (c : call) : issue :=
  {| i_label := i_label (c_issue c); i_type := c_type c; i_spec := i_spec (c_issue c); i_passed := c_passed c;
     i_comments := i_comments (c_issue c) ++ c_comments c; i_pver := i_pver (c_issue c) |}.

Lemma record_lists calls : forall r r', record_calls calls r = Ok r' ->
  vr_want r' = vr_want r /\
  vr_error r' = vr_error r ++ map remembered (filter (fun c => c_type c =? ERROR) calls) /\
  vr_warn r' = vr_warn r ++ map remembered (filter (fun c => c_type c =? WARN) calls) /\
  vr_rec r' = vr_rec r ++ map remembered (filter (fun c => c_type c =? REC) calls) /\
  Forall (fun c => c_type c = ERROR \/ c_type c = WARN \/ c_type c = REC) calls.
Proof.
  induction calls as [|c calls IH]; intros r r' H.
  - injection H as <-. cbn [filter map]. rewrite !app_nil_r. auto.
  - unfold record_calls in H. cbn [foldM] in H. apply bind_ok in H. destruct H as (r1 & H1 & H). destruct (IH _ _ H) as (W & E & Wa & R & F). clear IH.
    cbn [filter]. rewrite W, E, Wa, R. unfold add_issue in H1.
    destruct (c_type c =? ERROR) eqn:X1; [|destruct (c_type c =? WARN) eqn:X2; [|destruct (c_type c =? REC) eqn:X3; [|discriminate]]];
      injection H1 as <-; cbn [vr_error vr_warn vr_rec vr_want];
      (split; [reflexivity|]).
    + apply N.eqb_eq in X1. rewrite X1 in *. cbn [map N.eqb]. rewrite <- app_assoc. split; [unfold remembered; rewrite X1; reflexivity|]. auto 10.
    + apply N.eqb_eq in X2. rewrite X2 in *. cbn [map N.eqb]. rewrite <- app_assoc. split; [reflexivity|]. split; [unfold remembered; rewrite X2; reflexivity|]. auto 10.
    + apply N.eqb_eq in X3. rewrite X3 in *. cbn [map N.eqb]. rewrite <- app_assoc. split; [reflexivity|]. split; [reflexivity|]. split; [unfold remembered; rewrite X3; reflexivity|]. auto 10.
Qed.

Lemma filter_split {A} (p q : A -> bool) l : (forall x, In x l -> p x = true -> q x = true -> False) ->
  Permutation (filter (fun x => p x || q x) l) (filter p l ++ filter q l).
Proof.
  induction l as [|x l IH]; intros D; [constructor|]. cbn [filter]. specialize (IH (fun y I => D y (or_intror I))).
  destruct (p x) eqn:P, (q x) eqn:Q; cbn [orb].
  - exfalso. apply (D x); auto. left; reflexivity.
  - cbn [app]. constructor. exact IH.
  - apply Permutation_cons_app. exact IH.
  - exact IH.
Qed.
Lemma filter_ext_in' {A} (p q : A -> bool) l : (forall x, In x l -> p x = q x) -> filter p l = filter q l.
Proof. induction l as [|x l IH]; intros E; [reflexivity|]. cbn [filter]. rewrite (E x) by (left; reflexivity). rewrite IH; [reflexivity|]. intros y I. apply E. right; exact I. Qed.

Lemma by_type m r l : Forall (fun c => c_type c = ERROR \/ c_type c = WARN \/ c_type c = REC) l ->
  vr_error r = map remembered (filter (fun c => c_type c =? ERROR) l) ->
  vr_warn r = map remembered (filter (fun c => c_type c =? WARN) l) ->
  vr_rec r = map remembered (filter (fun c => c_type c =? REC) l) ->
  Permutation (applied m r) (map remembered (filter (selected m) l)).
Proof.
  intros F E W R. unfold applied. rewrite E, W, R. clear E W R. rewrite Forall_forall in F.
  assert (X : forall T, (if has_bits T m then map remembered (filter (fun c => c_type c =? T) l) else []) =
                        map remembered (filter (fun c => (c_type c =? T) && selected m c) l)).
  { intros T. unfold has_bits, selected. destruct (N.land T m =? 0) eqn:B; cbn [negb].
    - rewrite (filter_ext_in' _ (fun _ => false)); [clear; induction l; auto|]. intros c _. destruct (c_type c =? T) eqn:Y; [|reflexivity]. apply N.eqb_eq in Y. rewrite Y, B. reflexivity.
    - f_equal. apply filter_ext_in'. intros c _. destruct (c_type c =? T) eqn:Y; [|reflexivity]. apply N.eqb_eq in Y. rewrite Y, B. reflexivity. }
  rewrite !X, <- !map_app. apply Permutation_map. symmetry.
  rewrite (filter_ext_in' (selected m) (fun c => ((c_type c =? ERROR) && selected m c) || (((c_type c =? WARN) && selected m c) || ((c_type c =? REC) && selected m c)))).
  2:{ intros c I. destruct (selected m c); [|rewrite !andb_false_r; reflexivity]. destruct (F c I) as [->|[->| ->]]; reflexivity. }
  rewrite filter_split.
  2:{ intros c _ A B. apply andb_prop in A. destruct A as [A _]. apply N.eqb_eq in A. rewrite A in B. discriminate. }
  apply Permutation_app_head. apply filter_split. intros c _ A B. apply andb_prop in A. destruct A as [A _]. apply N.eqb_eq in A. rewrite A in B. discriminate.
Qed.

Lemma filter_remembered (q : bool -> bool) l : length (filter (fun i => q (i_passed i)) (map remembered l)) = length (filter (fun c => q (c_passed c)) l).
Proof. induction l as [|c l IH]; [reflexivity|]. cbn [map filter]. change (i_passed (remembered c)) with (c_passed c). destruct (q (c_passed c)); cbn [length]; rewrite IH; reflexivity. Qed.

Lemma filter_perm {A} (p : A -> bool) l l' : Permutation l l' -> Permutation (filter p l) (filter p l').
Proof.
  induction 1; cbn [filter]; auto.
  - destruct (p x); auto.
  - destruct (p x), (p y); auto. apply perm_swap.
  - eapply Permutation_trans; eauto.
Qed.

Lemma filter_filter' {A} (p q : A -> bool) l : filter p (filter q l) = filter (fun x => q x && p x) l.
Proof. induction l as [|x l IH]; [reflexivity|]. cbn [filter]. destruct (q x); cbn [filter andb]; [destruct (p x)|]; rewrite IH; reflexivity. Qed.

Theorem C47_results : forall calls target want version r,
  record_calls calls (new_results target want version) = Ok r ->
  (forall m, Permutation (applied m r) (map remembered (filter (selected m) calls)) /\
             count_failed m r = length (filter (fun c => selected m c && negb (c_passed c)) calls) /\
             count_passed m r = length (filter (fun c => selected m c && c_passed c) calls) /\
             count_applied m r = (count_passed m r + count_failed m r)%nat) /\
  (ok r = true <-> forall c, In c calls -> N.land (c_type c) want <> 0 -> c_passed c = true).
Proof.
  intros calls target want version r H. apply record_lists in H. destruct H as (W & E & Wa & R & F). cbn [new_results vr_error vr_warn vr_rec vr_want app] in *.
  assert (P : forall m, Permutation (applied m r) (map remembered (filter (selected m) calls))) by (intros m; apply by_type; auto).
  assert (Cf : forall m, count_failed m r = length (filter (fun c => selected m c && negb (c_passed c)) calls)).
  { intros m. unfold count_failed, failed. rewrite (Permutation_length (filter_perm _ _ _ (P m))), (filter_remembered negb), filter_filter'. reflexivity. }
  split.
  - intros m. split; [apply P|]. split; [apply Cf|]. split.
    + unfold count_passed, passed. rewrite (Permutation_length (filter_perm _ _ _ (P m))), (filter_remembered (fun x => x)), filter_filter'. reflexivity.
    + unfold count_applied, count_passed, count_failed, passed, failed. induction (applied m r) as [|i l IH]; [reflexivity|]. cbn [filter length].
      destruct (i_passed i); cbn [negb length]; lia.
  - unfold ok. rewrite Cf, W, Nat.eqb_eq, length_zero_iff_nil. unfold selected. split.
    + intros Q c I L. destruct (c_passed c) eqn:Pc; [reflexivity|]. exfalso.
      assert (J : In c (filter (fun c => negb (N.land (c_type c) want =? 0) && negb (c_passed c)) calls)).
      { apply filter_In. split; [exact I|]. rewrite Pc. apply N.eqb_neq in L. rewrite L. reflexivity. }
      rewrite Q in J. destruct J.
    + intros Q. destruct (filter (fun c => negb (N.land (c_type c) want =? 0) && negb (c_passed c)) calls) as [|c l] eqn:X; [reflexivity|]. exfalso. assert (J : In c (c :: l)) by (left; reflexivity). rewrite <- X in J.
      apply filter_In in J. destruct J as [I J]. apply andb_prop in J. destruct J as [J K]. rewrite (Q c I) in K; [discriminate|].
      destruct (N.land (c_type c) want =? 0) eqn:Y; [discriminate|]. apply N.eqb_neq. exact Y.
Qed.
Print Assumptions C47_results.

(** Disjoint masks add up. *)
Theorem C47_additive : forall calls target want version r m m',
  record_calls calls (new_results target want version) = Ok r ->
  N.land (N.land m m') ALL = 0 ->
  count_applied (N.lor m m') r = (count_applied m r + count_applied m' r)%nat /\
  count_failed (N.lor m m') r = (count_failed m r + count_failed m' r)%nat /\
  count_passed (N.lor m m') r = (count_passed m r + count_passed m' r)%nat.
Proof.
  intros calls target want version r m m' H D. destruct (C47_results _ _ _ _ _ H) as [A _]. apply record_lists in H. destruct H as (_ & _ & _ & _ & F).
  rewrite Forall_forall in F.
  assert (S : forall c, In c calls -> selected (N.lor m m') c = selected m c || selected m' c).
  { intros c I. unfold selected. rewrite N.land_lor_distr_r. destruct (N.land (c_type c) m =? 0) eqn:X, (N.land (c_type c) m' =? 0) eqn:Y; cbn [negb orb].
    - apply N.eqb_eq in X, Y. rewrite X, Y. reflexivity.
    - apply N.eqb_neq in Y. apply negb_true_iff, N.eqb_neq. intros E. apply N.lor_eq_0_iff in E. tauto.
    - apply N.eqb_neq in X. apply negb_true_iff, N.eqb_neq. intros E. apply N.lor_eq_0_iff in E. tauto.
    - apply N.eqb_neq in X. apply negb_true_iff, N.eqb_neq. intros E. apply N.lor_eq_0_iff in E. tauto. }
  assert (B : forall i, (i < 3)%N -> N.testbit m i = true -> N.testbit m' i = true -> False).
  { intros i L X Y. apply (f_equal (fun x => N.testbit x i)) in D. rewrite !N.land_spec, X, Y, N.bits_0 in D. cbn [andb] in D.
    assert (i = 0 \/ i = 1 \/ i = 2) by lia. destruct H as [->|[->| ->]]; discriminate. }
  assert (Q : forall c, In c calls -> selected m c = true -> selected m' c = true -> False).
  { intros c I X Y. unfold selected in X, Y.
    assert (Z : forall k i, (i < 3)%N -> c_type c = 2 ^ i -> negb (N.land (c_type c) k =? 0) = true -> N.testbit k i = true).
    { intros k i L E J. rewrite E in J. destruct (N.testbit k i) eqn:T; [reflexivity|]. exfalso. apply negb_true_iff, N.eqb_neq in J. apply J.
      apply N.bits_inj. intros n. rewrite N.land_spec, N.bits_0. destruct (N.eq_dec i n) as [<-|Ne]; [rewrite T; apply andb_false_r|].
      rewrite N.pow2_bits_false by auto. reflexivity. }
    destruct (F c I) as [E|[E|E]].
    - apply (B 0); [lia| |]; eapply Z; eauto; lia.
    - apply (B 1); [lia| |]; eapply Z; eauto; lia.
    - apply (B 2); [lia| |]; eapply Z; eauto; lia. }
  assert (G : forall q, length (filter (fun c => selected (N.lor m m') c && q c) calls) =
                        (length (filter (fun c => selected m c && q c) calls) + length (filter (fun c => selected m' c && q c) calls))%nat).
  { intros q. rewrite <- app_length. apply Permutation_length. rewrite <- filter_split.
    - erewrite filter_ext_in'; [reflexivity|]. intros c I. cbv beta. rewrite (S c I). destruct (selected m c), (selected m' c); reflexivity || (cbn; rewrite ?orb_false_r; reflexivity) || (destruct (q c); reflexivity).
    - intros c I X Y. apply andb_prop in X, Y. apply (Q c I); tauto. }
  destruct (A m) as (_ & F1 & P1 & A1), (A m') as (_ & F2 & P2 & A2), (A (N.lor m m')) as (_ & F3 & P3 & A3).
  pose proof (G (fun c => negb (c_passed c))) as G1. pose proof (G c_passed) as G2. lia.
Qed.
Print Assumptions C47_additive.

Definition ex_issue (lab : string) : issue := mk_issue (new_results (U "b") PROB (U "0.4")) (U lab) (U "it must").
Example C47_case : exists r,
  record_calls [{| c_issue := ex_issue "a"; c_type := ERROR; c_passed := true; c_comments := [] |};
                {| c_issue := ex_issue "b"; c_type := REC; c_passed := false; c_comments := [U "x"] |};
                {| c_issue := ex_issue "c"; c_type := WARN; c_passed := false; c_comments := [] |}] (new_results (U "b") ERROR (U "0.4")) = Ok r /\
  ok r = true /\ count_failed ALL r = 2%nat /\ count_applied PROB r = 2%nat.
Proof. eexists. split; [reflexivity|]. repeat split. Qed.

(** ** C48 *)

Theorem C48_ensure : forall validate want,
  (ensure_valid validate want = Err EValidation <-> is_valid validate want = Ok false \/ validate want = Err EValidation) /\
  (ensure_valid validate want = Ok tt <-> is_valid validate want = Ok true).
Proof.
  intros validate want. unfold ensure_valid, is_valid. destruct (validate want) as [r|e]; cbn [bind].
  - destruct (ok r); split; split; intros H; try discriminate; auto; destruct H; discriminate.
  - split; split; intros H; try discriminate.
    + right. congruence.
    + destruct H as [H|H]; congruence.
Qed.
Print Assumptions C48_ensure.

(** The count in the message of the exception is not the count of the wanted
    tests that failed: for the default mask it includes recommendations. *)
Theorem C48_message_refuted : exists r, ok r = false /\ vr_want r = PROB /\ count_failed (vr_want r) r = 1%nat /\ error_count r = 2%nat.
Proof.
  exists {| vr_target := U "b"; vr_want := PROB; vr_version := U "0.4"; vr_error := [{| i_label := U "4.1-3"; i_type := ERROR; i_spec := U "x"; i_passed := false; i_comments := []; i_pver := U "0.4" |}];
            vr_warn := []; vr_rec := [{| i_label := U "3-2"; i_type := REC; i_spec := U "x"; i_passed := false; i_comments := []; i_pver := U "0.4" |}] |}.
  repeat split.
Qed.
Print Assumptions C48_message_refuted.

(** ** C49 *)

(** The last value of an element of bag-info.txt. *)
Definition last_value (i : infod) (k : string) : option pystr :=
  match rev (tag_values i (U k)) with v :: _ => Some v | [] => None end.
(** The multibag directory that a bag designates. *)
Definition multibag_directory (b : vbag) (md : pystr) : Prop :=
  (tag_values (b_info b) (U "Multibag-Tag-Directory") = [] \/ tag_values (b_info b) (U "Multibag-Tag-Directory") = [[]]) /\ md = U "multibag" \/
  (last_value (b_info b) "Multibag-Tag-Directory" = Some md /\ md <> []).
(** A bag for version 0.2 of the profile. *)
Definition old_profile (b : vbag) : bool :=
  match last_value (b_info b) "Multibag-Version" with Some v => streq v (U "0.2") | None => false end.

(** Fields of a line of the member list (of version 0.2, if [old]). *)
Definition columns (old : bool) (line : pystr) : list pystr :=
  map strip (if old then py_words (strip line) else split_on TAB (strip line)).
Definition cell (n : nat) (l : list pystr) : pystr := nth n l [].
(** Lines that are not blank. *)
Definition text_lines (text : pystr) : list pystr := filter nonblank (pylines IoText text).
Definition names_listed (old : bool) (text : pystr) : list pystr := map (fun line => cell 0 (columns old line)) (text_lines text).

Lemma last_value_vals i k x : od_get (U k) i = Some x -> last_value i k = last_of (vals x).
Proof. intros E. unfold last_value, tag_values, last_of. rewrite E. destruct x; reflexivity. Qed.

Lemma dir_spec b x md : multibag_dir b = Ok x -> multibag_directory b md -> x = md.
Proof.
  unfold multibag_dir, multibag_directory, last_value, tag_values. change T_TagDir with (U "Multibag-Tag-Directory").
  destruct (od_get (U "Multibag-Tag-Directory") (b_info b)) as [[s|l]|] eqn:E.
  - destruct s as [|c s]; cbn [truthy_val vals last_of rev app].
    + intros H [[_ ->]|[X Y]]; [|injection X as <-; congruence]. destruct (nonempty _); [|discriminate]. destruct (od_has _ _); [|discriminate]. injection H as <-. reflexivity.
    + intros H [[[X|X] _]|[X Y]]; try discriminate. injection X as <-. cbn [nonempty] in H. destruct (od_has _ _); [|discriminate]. injection H as <-. reflexivity.
  - destruct l as [|s l]; cbn [truthy_val vals].
    + intros H [[_ ->]|[X Y]]; [|discriminate]. destruct (nonempty _); [|discriminate]. destruct (od_has _ _); [|discriminate]. injection H as <-. reflexivity.
    + unfold last_of. destruct (rev (s :: l)) as [|q t] eqn:R.
      { intros H. discriminate. }
      intros H [[[X|X] _]|[X Y]]; try discriminate.
      * rewrite X in R. cbn in R. injection R as <- _. discriminate.
      * injection X as ->. destruct md; [congruence|]. cbn [nonempty] in H. destruct (od_has _ _); [|discriminate]. injection H as <-. reflexivity.
  - intros H [[_ ->]|[X Y]]; [|discriminate]. destruct (nonempty _); [|discriminate]. destruct (od_has _ _); [|discriminate]. injection H as <-. reflexivity.
Qed.

Lemma old_spec b : old_profile b = is_02 (version_of (b_info b)).
Proof.
  unfold old_profile, is_02, version_of. change T_Version with (U "Multibag-Version"). destruct (od_get (U "Multibag-Version") (b_info b)) as [x|] eqn:E.
  - rewrite (last_value_vals _ _ _ E). reflexivity.
  - unfold last_value, tag_values. rewrite E. reflexivity.
Qed.


Lemma columns_model old line : columns old line = member_fields old line.
Proof. unfold columns, member_fields. destruct old; reflexivity. Qed.

Lemma names_model old text : listed old (numbered_lines text) = names_listed old text.
Proof.
  unfold listed, names_listed, text_lines. rewrite <- numbered_snd, map_map. apply map_ext. intros il. rewrite columns_model. unfold cell, first_of.
  destruct (member_fields old (snd il)); reflexivity.
Qed.

Lemma no_lines {A} (p : pystr -> bool) (ls : list (A * pystr)) : length (map fst (filter (fun il => p (snd il)) ls)) = 0%nat <-> forall line, In line (map snd ls) -> p line = false.
Proof.
  rewrite length_zero_iff_nil. split.
  - intros E line I. apply in_map_iff in I. destruct I as (il & <- & I). destruct (p (snd il)) eqn:P; [|reflexivity]. exfalso.
    assert (J : In (fst il) (map fst (filter (fun il => p (snd il)) ls))) by (apply in_map, filter_In; auto). rewrite E in J. destruct J.
  - intros H. destruct (filter _ ls) as [|il t] eqn:E; [reflexivity|]. exfalso. assert (J : In il (il :: t)) by (left; reflexivity). rewrite <- E in J.
    apply filter_In in J. destruct J as [J P]. rewrite H in P; [discriminate|]. apply in_map. exact J.
Qed.

(** What the validator says about the members of a head bag. [u] is urlparse;
    p1 to p5 are the outcomes of the tests 4.1-1 to 4.1-5. *)
Definition member_tests (u : pystr -> res (pystr * pystr)) (b : vbag) (text : pystr) (p1 p2 p3 p4 p5 : bool) : Prop :=
  let old := old_profile b in
  let names := names_listed old text in
  (p1 = true <-> (old = true -> forall line, In line (text_lines text) -> (length (columns old line) <= 2)%nat)) /\
  (p2 = true <-> forall line, In line (text_lines text) -> cell 1 (columns old line) <> [] ->
     exists scheme, u (cell 1 (columns old line)) = Ok (scheme, []) /\ scheme <> []) /\
  (p3 = true <-> In (b_name b) names) /\
  (p4 = true <-> exists l, names = l ++ [b_name b]) /\
  (p5 = true <-> NoDup names).

Lemma head_dir u b target want r : head_validate u b target want = Ok r -> exists md, multibag_dir b = Ok md.
Proof.
  intros H. destruct (head_validate_parts _ _ _ _ _ H) as (r7 & r8 & r9 & H8 & _). unfold validate_member_bags in H8.
  destruct (multibag_dir b) as [md|e]; [eauto|discriminate].
Qed.

Lemma members_model u b text s :
  foldM (member_line u (b_name b) (is_02 (version_of (b_info b)))) (numbered_lines text) mstart = Ok s ->
  member_tests u b text (Nat.eqb (length (ms_badfmt s)) 0) (Nat.eqb (length (ms_badurl s)) 0) (ms_foundme s)
    (match ms_last s with Some n => streq n (b_name b) | None => false end) (Nat.eqb (length (ms_repl s)) 0).
Proof.
  intros Hs.
  destruct (members_loop _ _ _ _ _ _ Hs) as (M & L & Q & B & _ & Rp). cbn [mstart ms_badurl ms_repl ms_found ms_foundme ms_last ms_badfmt orb app In length] in *.
  rewrite names_model in *. unfold member_tests. rewrite old_spec. set (old := is_02 (version_of (b_info b))) in *.
  split; [|split; [|split; [|split]]].
  - rewrite Nat.eqb_eq, Q, (no_lines (long_line old)), numbered_snd. fold (text_lines text). unfold long_line. destruct old; cbn [andb].
    + split; intros Z; [intros _ line I|intros line I].
      * rewrite columns_model. apply Z in I. apply Nat.ltb_ge in I. exact I.
      * apply Nat.ltb_ge. rewrite <- columns_model. apply Z; auto.
    + split; [intros _; discriminate|reflexivity].
  - rewrite Nat.eqb_eq, B, (no_lines (bad_url u old)), numbered_snd. fold (text_lines text). unfold bad_url.
    assert (Y : forall line, (match member_fields old line with _ :: w :: _ => nonempty w && match u w with Ok (sc, n) => negb (nonempty sc) || nonempty n | Err _ => true end | _ => false end) = false <->
      (cell 1 (columns old line) <> [] -> exists scheme, u (cell 1 (columns old line)) = Ok (scheme, []) /\ scheme <> [])).
    { intros line. rewrite columns_model. destruct (member_fields old line) as [|n [|w t]]; [split; [intros _ A; destruct A; reflexivity|reflexivity]..|].
      change (cell 1 (n :: w :: t)) with w. destruct w as [|c w]; [split; [intros _ A; destruct A; reflexivity|reflexivity]|]. cbn [nonempty andb].
      destruct (u (c :: w)) as [[sc ne]|e].
      - split.
        + intros Z _. apply orb_false_iff in Z. destruct Z as [Z1 Z2]. exists sc. destruct ne; [|discriminate]. destruct sc; [discriminate|]. split; [reflexivity|discriminate].
        + intros Z. destruct Z as (sc' & E & N0); [discriminate|]. injection E as -> ->. destruct sc'; [congruence|reflexivity].
      - split; [discriminate|]. intros Z. destruct Z as (sc' & E & _); discriminate. }
    split; intros Z line I; [apply Y; apply Z; exact I|apply Y; apply Z; exact I].
  - rewrite M, str_in_iff. reflexivity.
  - rewrite L. destruct (rev (names_listed old text)) as [|n t] eqn:E.
    + split; [discriminate|]. intros (l & Z). rewrite Z, rev_app_distr in E. discriminate.
    + assert (E' : names_listed old text = rev t ++ [n]) by (rewrite <- (rev_involutive (names_listed old text)), E; reflexivity).
      rewrite streq_eq. split; [intros ->; eauto|]. intros (l & Z). rewrite E' in Z. apply app_inj_tail in Z. tauto.
  - rewrite Nat.eqb_eq, Rp. split; [tauto|]. intros Z. split; [reflexivity|]. split; [exact Z|]. intros n _ [].
Qed.

Theorem C49_members : forall u b target want r md text,
  head_validate u b target want = Ok r ->
  multibag_directory b md -> is_dir md (b_tree b) = true ->
  read (md ++ U "/" ++ (if old_profile b then U "group-members.txt" else U "member-bags.tsv")) (b_tree b) = Some text ->
  exists p1 p2 p3 p4 p5, member_tests u b text p1 p2 p3 p4 p5 /\
    outcome (U "4.1-1") r = [(ERROR, p1)] /\ outcome (U "4.1-2") r = [(ERROR, p2)] /\ outcome (U "4.1-3") r = [(ERROR, p3)] /\
    outcome (U "4.1-4") r = [(ERROR, p4)] /\ outcome (U "4.1-5") r = [(WARN, p5)].
Proof.
  intros u b target want r md text H Md D R. destruct (head_dir _ _ _ _ _ H) as (x & X). rewrite (dir_spec _ _ _ X Md) in X. clear x.
  destruct (head_validate_parts _ _ _ _ _ H) as (r7 & r8 & r9 & H8 & H9 & H10 & O & _). rewrite old_spec in R.
  assert (R' : read (sjoin md (if is_02 (version_of (b_info b)) then U "group-members.txt" else F_members)) (b_tree b) = Some text) by exact R.
  destruct (members_outcomes _ _ _ _ _ _ _ H8 X D R') as (s & Hs & O1 & O2 & O3 & O4 & O5).
  { intros lab I. apply O. cbn [In] in I. decompose [or] I; subst; reflexivity || contradiction. }
  apply emits_lookup in H9. apply emits_aggregation in H10. destruct H9 as (_ & _ & H9), H10 as (_ & _ & H10).
  assert (K : forall lab, In lab ["4.1-1"; "4.1-2"; "4.1-3"; "4.1-4"; "4.1-5"]%string -> outcome (U lab) r = outcome (U lab) r8).
  { intros lab I. rewrite H10, H9; [reflexivity|..]; cbn [In] in I; decompose [or] I; subst; reflexivity || contradiction. }
  exists (Nat.eqb (length (ms_badfmt s)) 0), (Nat.eqb (length (ms_badurl s)) 0), (ms_foundme s), (match ms_last s with Some n => streq n (b_name b) | None => false end), (Nat.eqb (length (ms_repl s)) 0).
  split; [|rewrite !K by (cbn [In]; tauto); auto]. clear O1 O2 O3 O4 O5.
  apply members_model. exact Hs.
Qed.
Print Assumptions C49_members.

(** Fields of a line of the file lookup. *)
Definition lookup_columns (old : bool) (line : pystr) : list pystr :=
  map strip (if old then py_words line else split_on TAB line).
Definition paths_listed (old : bool) (text : pystr) : list pystr := map (fun line => cell 0 (lookup_columns old line)) (text_lines text).
(** Files whose name starts with a dot or an underscore need not be listed. *)
Definition concealed (p : pystr) : Prop := exists n, (basename p = U "." ++ n \/ basename p = U "_" ++ n).

(** p1 to p4 are the outcomes of the tests 4.2-1 to 4.2-4. *)
Definition lookup_tests (b : vbag) (text : pystr) (p1 p2 p3 p4 : bool) : Prop :=
  let old := old_profile b in
  (p1 = true <-> forall line, In line (text_lines text) -> length (lookup_columns old line) = 2%nat) /\
  (p2 = true <-> forall line, In line (text_lines text) -> (2 <= length (lookup_columns old line))%nat -> cell 1 (lookup_columns old line) = b_name b ->
     is_file (cell 0 (lookup_columns old line)) (b_tree b) = true) /\
  (p3 = true <-> NoDup (paths_listed old text)) /\
  (p4 = true <-> forall p, is_file p (b_tree b) = true -> is_payload p = true -> ~ concealed p -> In p (paths_listed old text)).

Lemma lookup_columns_model old line : lookup_columns old line = lookup_fields old line.
Proof. unfold lookup_columns, lookup_fields. destruct old; reflexivity. Qed.
Lemma paths_model old text : listed_paths old (numbered_lines text) = paths_listed old text.
Proof.
  unfold listed_paths, paths_listed, text_lines. rewrite <- numbered_snd, map_map. apply map_ext. intros il. rewrite lookup_columns_model. unfold cell, first_of.
  destruct (lookup_fields old (snd il)); reflexivity.
Qed.

Lemma hidden_iff p : hidden p = true <-> concealed p.
Proof.
  unfold hidden, concealed. split.
  - destruct (basename p) as [|c t]; [discriminate|]. intros H. exists t. change (U ".") with [46] in *. change (U "_") with [95] in *.
    cbn [startswith] in H. rewrite !startswith_nil, !andb_true_r in H. apply orb_prop in H. destruct H as [H|H]; apply N.eqb_eq in H; subst c; [left|right]; reflexivity.
  - intros (n & [E|E]); rewrite E; destruct n; reflexivity.
Qed.

Lemma lookup_model b text s : NoDup (od_keys (b_tree b)) ->
  foldM (lookup_line b (is_02 (version_of (b_info b)))) (numbered_lines text) {| ls_badfmt := []; ls_repl := []; ls_missing := []; ls_paths := [] |} = Ok s ->
  lookup_tests b text (Nat.eqb (length (ls_badfmt s)) 0) (Nat.eqb (length (ls_missing s)) 0) (Nat.eqb (length (ls_repl s)) 0)
    (Nat.eqb (length (filter (fun p => negb (str_in p (ls_paths s))) (expected_files (b_tree b)))) 0).
Proof.
  intros Nd Hs.
  destruct (lookup_loop _ _ _ _ _ Hs) as (B & M & P & Rp). cbn [ls_badfmt ls_repl ls_missing ls_paths app In length] in *.
  rewrite paths_model in *. unfold lookup_tests. rewrite old_spec. set (old := is_02 (version_of (b_info b))) in *.
  split; [|split; [|split]].
  - rewrite Nat.eqb_eq, B, (no_lines (fun line => negb (Nat.eqb (length (lookup_fields old line)) 2))), numbered_snd. fold (text_lines text).
    split; intros Z line I; specialize (Z line I); [rewrite lookup_columns_model; apply negb_false_iff, Nat.eqb_eq in Z; exact Z|].
    apply negb_false_iff, Nat.eqb_eq. rewrite <- lookup_columns_model. exact Z.
  - rewrite Nat.eqb_eq, M, (no_lines (missing_own b old)), numbered_snd. fold (text_lines text). unfold missing_own.
    split; intros Z line I; specialize (Z line I); rewrite lookup_columns_model in *.
    + destruct (lookup_fields old line) as [|p [|n t]]; cbn [length]; [lia..|]. intros _ E. change (cell 1 (p :: n :: t)) with n in E. change (cell 0 (p :: n :: t)) with p.
      rewrite E, streq_refl in Z. apply negb_false_iff. exact Z.
    + destruct (lookup_fields old line) as [|p [|n t]]; [reflexivity..|]. destruct (streq_reflect n (b_name b)) as [E|E]; [|reflexivity]. cbn [andb length] in *.
      apply negb_false_iff. apply Z; [lia|exact E].
  - rewrite Nat.eqb_eq, Rp. split; [tauto|]. intros Z. split; [reflexivity|]. split; [exact Z|]. intros n _ [].
  - rewrite Nat.eqb_eq, length_zero_iff_nil. unfold expected_files. split.
    + intros Z p F Y C. destruct (str_in p (ls_paths s)) eqn:S; [apply str_in_iff, P in S; tauto|]. exfalso.
      assert (J : In p (filter (fun p => negb (str_in p (ls_paths s))) (filter (fun p => is_payload p && negb (hidden p)) (files (b_tree b))))).
      { apply filter_In. rewrite S. split; [|reflexivity]. apply filter_In. split; [apply (in_files _ _ Nd); exact F|]. rewrite Y. apply negb_true_iff.
        destruct (hidden p) eqn:Hh; [|reflexivity]. apply hidden_iff in Hh. contradiction. }
      rewrite Z in J. destruct J.
    + intros Z. match goal with |- ?l = [] => destruct l as [|p t] eqn:E; [reflexivity|] end. exfalso. assert (J : In p (p :: t)) by (left; reflexivity). rewrite <- E in J.
      apply filter_In in J. destruct J as [J S]. apply filter_In in J. destruct J as [J Y]. apply andb_prop in Y. destruct Y as [Y C].
      apply negb_true_iff, str_in_false in S. apply S, P. right. apply Z; [apply (in_files _ _ Nd); exact J|exact Y|].
      intros C'. apply hidden_iff in C'. rewrite C' in C. discriminate.
Qed.

Theorem C49_lookup : forall u b target want r md text,
  NoDup (od_keys (b_tree b)) -> head_validate u b target want = Ok r ->
  multibag_directory b md -> is_dir md (b_tree b) = true ->
  read (md ++ U "/" ++ (if old_profile b then U "group-directory.txt" else U "file-lookup.tsv")) (b_tree b) = Some text ->
  exists p1 p2 p3 p4, lookup_tests b text p1 p2 p3 p4 /\
    outcome (U "4.2-1") r = [(ERROR, p1)] /\ outcome (U "4.2-2") r = [(ERROR, p2)] /\ outcome (U "4.2-3") r = [(WARN, p3)] /\
    outcome (U "4.2-4") r = [(REC, p4)].
Proof.
  intros u b target want r md text Nd H Md D R. destruct (head_dir _ _ _ _ _ H) as (x & X). rewrite (dir_spec _ _ _ X Md) in X. clear x.
  destruct (head_validate_parts _ _ _ _ _ H) as (r7 & r8 & r9 & H8 & H9 & H10 & O & _). rewrite old_spec in R.
  assert (R' : read (sjoin md (if is_02 (version_of (b_info b)) then U "group-directory.txt" else F_lookup)) (b_tree b) = Some text) by exact R.
  apply emits_members in H8. destruct H8 as (_ & _ & H8).
  destruct (lookup_outcomes _ _ _ _ _ _ H9 X D R') as (s & Hs & O1 & O2 & O3 & O4).
  { intros lab I. rewrite H8; [apply O|]; cbn [In] in I; decompose [or] I; subst; reflexivity || contradiction. }
  apply emits_aggregation in H10. destruct H10 as (_ & _ & H10).
  assert (K : forall lab, In lab ["4.2-1"; "4.2-2"; "4.2-3"; "4.2-4"]%string -> outcome (U lab) r = outcome (U lab) r9).
  { intros lab I. rewrite H10; [reflexivity|..]; cbn [In] in I; decompose [or] I; subst; reflexivity || contradiction. }
  eexists _, _, _, _. split; [|rewrite !K by (cbn [In]; tauto); eauto]. clear O1 O2 O3 O4.
  apply lookup_model; assumption.
Qed.
Print Assumptions C49_lookup.

(** A head bag to look at, and a simple urlparse. *)
Definition ex_urlparse (w : pystr) : res (pystr * pystr) :=
  match split_on 58 w with
  | s :: _ :: _ => let rest := skipn (S (length s)) w in
                   Ok (s, if startswith rest (U "//") then match split_on SLASH (skipn 2 rest) with h :: _ => h | [] => [] end else [])
  | _ => Ok ([], [])
  end.
Definition lines (l : list pystr) : pystr := flat_map (fun x => x ++ [LF]) l.
Definition tabbed (l : list pystr) : pystr := join [TAB] l.
Definition ex_head_info : infod :=
  [(U "Multibag-Version", IStr (U "0.4")); (U "Multibag-Head-Version", IStr (U "1"))].
Definition ex_head (name : pystr) (info : infod) (members lookup : list pystr) : vbag :=
  {| b_name := name; b_info := info; b_plain := Ok None;
     b_tree := [(U "data", NDir); (U "data/a", NFile (U "aa")); (U "data/.hidden", NFile (U "x")); (U "data/s", NDir); (U "data/s/b", NFile (U "bb"));
                (U "multibag", NDir); (U "multibag/member-bags.tsv", NFile (lines members)); (U "multibag/file-lookup.tsv", NFile (lines lookup))] |}.
Definition ex_good : vbag :=
  ex_head (U "mine") ex_head_info [U "other"; tabbed [U "mine"; U "ark:/1"]] [tabbed [U "data/a"; U "mine"]; tabbed [U "data/x"; U "other"]].
Definition ex_result (b : vbag) : vres := match head_validate ex_urlparse b (U "target") PROB with Ok r => r | Err _ => new_results [] 0 [] end.

Example C49_case :
  multibag_directory ex_good (U "multibag") /\ is_dir (U "multibag") (b_tree ex_good) = true /\ old_profile ex_good = false /\ NoDup (od_keys (b_tree ex_good)) /\
  read (U "multibag" ++ U "/" ++ U "member-bags.tsv") (b_tree ex_good) = Some (lines [U "other"; tabbed [U "mine"; U "ark:/1"]]) /\
  names_listed false (lines [U "other"; tabbed [U "mine"; U "ark:/1"]]) = [U "other"; U "mine"] /\
  head_validate ex_urlparse ex_good (U "target") PROB = Ok (ex_result ex_good) /\ ok (ex_result ex_good) = true /\
  outcome (U "4.1-4") (ex_result ex_good) = [(ERROR, true)] /\ outcome (U "4.2-4") (ex_result ex_good) = [(REC, false)].
Proof.
  split; [left; split; [left|]; reflexivity|]. split; [reflexivity|]. split; [reflexivity|]. split; [apply nodupb_ok; reflexivity|].
  computed.
Qed.

Definition ex_bad : vbag := ex_head (U "mine") ex_head_info [U "mine"; U "other"; U "mine "; U "third"] [tabbed [U "data/z"; U "mine"]; tabbed [U "data/z"; U "other"; U "x"]].
Example C49_case_bad :
  head_validate ex_urlparse ex_bad (U "target") PROB = Ok (ex_result ex_bad) /\ ok (ex_result ex_bad) = false /\
  outcome (U "4.1-3") (ex_result ex_bad) = [(ERROR, true)] /\ outcome (U "4.1-4") (ex_result ex_bad) = [(ERROR, false)] /\
  outcome (U "4.1-5") (ex_result ex_bad) = [(WARN, false)] /\ outcome (U "4.2-1") (ex_result ex_bad) = [(ERROR, false)] /\
  outcome (U "4.2-2") (ex_result ex_bad) = [(ERROR, false)] /\ outcome (U "4.2-3") (ex_result ex_bad) = [(WARN, false)].
Proof. computed. Qed.

(** ** C50 *)

Lemma failing u b target want r lab ty : head_validate u b target want = Ok r -> In (ty, false) (outcome lab r) -> N.land ty want <> 0 -> ok r = false.
Proof.
  intros H I L. destruct (head_validate_parts _ _ _ _ _ H) as (_ & _ & _ & _ & _ & _ & _ & W & T). apply outcome_In in I. destruct I as (i & I & _ & Ty & P).
  destruct (ok r) eqn:O; [|reflexivity]. apply (proj1 (ok_all r T)) with (i := i) in O; [congruence|exact I|]. rewrite Ty, W. exact L.
Qed.

(** A URL of a member that has a scheme and a host fails the test 4.1-2, and
    so does whatever else urlparse gives a host for. *)
Theorem C50_refuted : forall u b target want r md text line scheme host,
  head_validate u b target want = Ok r ->
  multibag_directory b md -> is_dir md (b_tree b) = true ->
  read (md ++ U "/" ++ (if old_profile b then U "group-members.txt" else U "member-bags.tsv")) (b_tree b) = Some text ->
  In line (text_lines text) -> cell 1 (columns (old_profile b) line) <> [] ->
  u (cell 1 (columns (old_profile b) line)) = Ok (scheme, host) -> scheme <> [] -> host <> [] ->
  outcome (U "4.1-2") r = [(ERROR, false)] /\ (N.land ERROR want <> 0 -> ok r = false).
Proof.
  intros u b target want r md text line scheme host H Md D R I C Hu S Hh.
  destruct (C49_members _ _ _ _ _ _ _ H Md D R) as (p1 & p2 & p3 & p4 & p5 & (_ & M2 & _) & _ & O2 & _).
  assert (p2 = false).
  { destruct p2; [|reflexivity]. exfalso. destruct (proj1 M2 eq_refl line I C) as (sc & E & _). rewrite Hu in E. injection E as _ E2. contradiction. }
  subst p2. split; [exact O2|]. intros L. apply (failing _ _ _ _ _ (U "4.1-2") ERROR H); [rewrite O2; left; reflexivity|exact L].
Qed.
Print Assumptions C50_refuted.

Definition ex_url : vbag := ex_head (U "mine") ex_head_info [tabbed [U "mine"; U "https://example.org/bags/mine.zip"]] [tabbed [U "data/a"; U "mine"]].
Example C50_refuted_case :
  head_validate ex_urlparse ex_url (U "target") PROB = Ok (ex_result ex_url) /\
  cell 1 (columns false (tabbed [U "mine"; U "https://example.org/bags/mine.zip"] ++ [LF])) = U "https://example.org/bags/mine.zip" /\
  ex_urlparse (U "https://example.org/bags/mine.zip") = Ok (U "https", U "example.org") /\
  outcome (U "4.1-2") (ex_result ex_url) = [(ERROR, false)] /\ ok (ex_result ex_url) = false /\
  count_failed PROB (ex_result ex_url) = 1%nat.
Proof. computed. Qed.

(** A member with a comment and without a URL fails it, too: the comment is
    taken for the URL. *)
Theorem C50_comment_refuted : forall u b target want r md text line name comment,
  head_validate u b target want = Ok r ->
  multibag_directory b md -> is_dir md (b_tree b) = true -> old_profile b = false ->
  read (md ++ U "/" ++ U "member-bags.tsv") (b_tree b) = Some text ->
  legal_member IoText {| Tsv.m_name := name; m_uri := None; m_comment := Some comment; m_info := [] |} ->
  format_member {| Tsv.m_name := name; m_uri := None; m_comment := Some comment; m_info := [] |} = Ok line ->
  In line (text_lines text) ->
  u (U "# " ++ comment) = Ok ([], []) ->
  outcome (U "4.1-2") r = [(ERROR, false)].
Proof.
  intros u b target want r md text line name comment H Md D Old R Lm Fm I Hu.
  destruct (C49_members u b target want r md text H Md D) as (p1 & p2 & p3 & p4 & p5 & (_ & M2 & _) & _ & O2 & _); [rewrite Old; exact R|].
  rewrite O2. destruct p2; [|reflexivity]. exfalso. rewrite Old in M2.
  rewrite (format_member_body IoText _ Lm) in Fm. injection Fm as <-.
  destruct Lm as ((Ln & Bn) & _ & (Lc & Bc) & _). cbn [Tsv.m_name m_comment] in *.
  assert (E : columns false (member_body {| Tsv.m_name := name; m_uri := None; m_comment := Some comment; m_info := [] |} ++ [LF]) = [name; U "# " ++ comment]).
  { change (map strip (split_on TAB (strip ((name ++ [TAB; HASH; SP] ++ comment) ++ [LF]))) = [name; U "# " ++ comment]). rewrite strip_app_ws by (constructor; [reflexivity|constructor]).
    destruct Ln as [Tn Nn], Lc as [Tc Nc].
    rewrite strip_trimmed by (apply (trimmed_app name [TAB; HASH; SP] comment); auto).
    change ([TAB; HASH; SP] ++ comment) with (TAB :: ([HASH; SP] ++ comment)). rewrite split_on_app by auto.
    rewrite split_on_none.
    - cbn [map]. rewrite (strip_trimmed name) by auto. rewrite strip_trimmed; [reflexivity|].
      destruct Tc as [_ (t & c & -> & W)]. split; [exists HASH, (SP :: t ++ [c]); auto|]. exists (HASH :: SP :: t), c. auto.
    - intros J. apply in_app_or in J. destruct J as [[J|[J|[]]]|J]; try discriminate. apply Nc. exact J. }
  destruct (proj1 M2 eq_refl _ I) as (sc & X & N0).
  - rewrite E. discriminate.
  - rewrite E in X. change (cell 1 [name; U "# " ++ comment]) with (U "# " ++ comment) in X. rewrite Hu in X. injection X as <-. contradiction.
Qed.
Print Assumptions C50_comment_refuted.

Definition ex_comment : vbag := ex_head (U "mine") ex_head_info [tabbed [U "mine"; U "# the last one"]] [tabbed [U "data/a"; U "mine"]].
Example C50_comment_case :
  format_member {| Tsv.m_name := U "mine"; m_uri := None; m_comment := Some (U "the last one"); m_info := [] |} = Ok (tabbed [U "mine"; U "# the last one"] ++ [LF]) /\
  ex_urlparse (U "# " ++ U "the last one") = Ok ([], []) /\
  outcome (U "4.1-2") (ex_result ex_comment) = [(ERROR, false)] /\ count_failed PROB (ex_result ex_comment) = 1%nat.
Proof. computed. Qed.

(** ** C51 *)

(** What the rules say of names. *)
Definition bad_name (name : pystr) : Prop :=
  In TAB name \/ (exists c t, name = c :: t /\ is_ws c = true) \/ (exists c t, name = t ++ [c] /\ is_ws c = true).

Lemma bad_name_iff name : bad_name name <-> existsb (N.eqb TAB) name = true \/ outer_space name = true.
Proof.
  unfold bad_name, outer_space. split.
  - intros [I|[(c & t & -> & W)|(c & t & -> & W)]].
    + left. apply existsb_exists. exists TAB. split; [exact I|apply N.eqb_refl].
    + right. rewrite W. reflexivity.
    + right. rewrite rev_app_distr. cbn [rev app]. rewrite W. apply orb_true_r.
  - intros [H|H].
    + apply existsb_exists in H. destruct H as (x & I & E). apply N.eqb_eq in E. subst x. left. exact I.
    + right. apply orb_prop in H. destruct H as [H|H].
      * left. destruct name as [|c t]; [discriminate|]. eauto.
      * right. destruct (rev name) as [|c t] eqn:E; [discriminate|]. exists c, (rev t). split; [|exact H].
        rewrite <- (rev_involutive name), E. reflexivity.
Qed.

Lemma outcome_ok r : typed r -> (ok r = true <-> forall lab ty, In (ty, false) (outcome lab r) -> N.land ty (vr_want r) = 0).
Proof.
  intros T. rewrite (ok_all r T). split.
  - intros H lab ty I. apply outcome_In in I. destruct I as (i & I & _ & E & P). destruct (N.eq_dec (N.land ty (vr_want r)) 0) as [Z|Z]; [exact Z|].
    rewrite <- E in Z. rewrite (H i I Z) in P. discriminate.
  - intros H i I L. destruct (i_passed i) eqn:P; [reflexivity|]. exfalso. apply L. apply (H (i_label i)). apply outcome_In. eauto 10.
Qed.

(** Without [results], as is_valid() calls it, the outcome depends on the
    check of the plain bag and the presence of a version alone: neither the
    name nor the rules for bags that are not head bags matter. *)
Theorem C51_refuted : forall b target want r,
  member_validate b target want None = Ok r ->
  (forall lab, In lab [U "2.1a-name-TAB"; U "2.1b-name-wsp"; U "2-Head-Deprecates"; U "2-Tag-Directory"] -> outcome lab r = []) /\
  (b_plain b = Ok None -> N.land REC want = 0 -> is_valid (fun w => member_validate b target w None) want = Ok true).
Proof.
  intros b target want r H.
  assert (X : exists r1 g, bag_validate b want (new_results target want CURRENT_VERSION) = Ok r1 /\
              rec_issue REC "3-Version-for-member" "A member multibag should include header: Multibag-Version" g [] r1 = Ok r).
  { unfold member_validate in H. apply bind_ok in H. destruct H as (r1 & H1 & H). apply bind_ok in H. destruct H as (r2 & H2 & H).
    exists r1, (match version_of (b_info b) with Some s => nonempty s | None => false end). split; [exact H1|].
    destruct (match version_of (b_info b) with Some s => nonempty s | None => false end); [|injection H as <-; exact H2].
    apply bind_ok in H. destruct H as (r3 & _ & H). apply bind_ok in H. destruct H as (r4 & _ & H). injection H as <-. exact H2. }
  destruct X as (r1 & g & H1 & H2).
  pose proof (emits_bag _ _ _ _ H1) as (W1 & T1 & O1). pose proof (emits_rec ["3-Version-for-member"%string] _ "A member multibag should include header: Multibag-Version" REC g [] (or_introl eq_refl) _ _ H2) as (W2 & T2 & O2).
  split.
  - intros lab I. cbn [In] in I. decompose [or] I; subst; try contradiction; (rewrite O2, O1; reflexivity).
  - intros P L. unfold is_valid. rewrite H. cbn [bind]. f_equal. assert (T : typed r) by (apply T2, T1; repeat split; constructor). apply (ok_all r T).
    intros i I Z. rewrite W2, W1 in Z. cbn [new_results vr_want] in Z. destruct (i_passed i) eqn:Pi; [reflexivity|]. exfalso.
    assert (J : In (i_type i, false) (outcome (i_label i) r)) by (apply outcome_In; eauto 10).
    unfold bag_validate in H1. rewrite P in H1. cbn [bind] in H1.
    destruct (streq (i_label i) (U "2-Bag")) eqn:S2.
    + apply streq_eq in S2. rewrite S2, O2 in J by reflexivity. destruct (has_bits want ERROR).
      * apply (add_same (U "2-Bag")) in H1; [|reflexivity..]. rewrite H1 in J. destruct J as [J|[]]. discriminate.
      * injection H1 as <-. destruct J.
    + destruct (streq (i_label i) (U "3-Version-for-member")) eqn:S3.
      * apply streq_eq in S3. rewrite S3 in J. destruct (rec_out _ _ _ _ _ _ _ H2) as [_ Q]. rewrite Q in J.
        { destruct J as [J|[]]. injection J as E _. apply Z. rewrite <- E. exact L. }
        rewrite O1 by reflexivity. reflexivity.
      * rewrite O2, O1 in J; [destruct J|..]; cbn [map str_in]; rewrite ?S2, ?S3; reflexivity.
Qed.
Print Assumptions C51_refuted.

Definition ex_tab_name : vbag := {| b_name := U " a" ++ [TAB] ++ U "b"; b_info := [(U "Multibag-Version", IStr (U "0.4")); (U "Multibag-Head-Deprecates", IStr (U "1"))];
  b_tree := [(U "data", NDir); (U "multibag", NDir)]; b_plain := Ok None |}.
Example C51_refuted_case : bad_name (b_name ex_tab_name) /\ is_valid (fun w => member_validate ex_tab_name (U "t") w None) PROB = Ok true.
Proof. split; [apply bad_name_iff; left; reflexivity|]. reflexivity. Qed.

(** With [results] given, they are reported. *)
Theorem C51_partial : forall b target want r0 r,
  (forall lab, outcome lab r0 = []) -> typed r0 -> N.land ERROR (vr_want r0) <> 0 ->
  last_value (b_info b) "Multibag-Version" <> Some (U "0.2") ->
  last_value (b_info b) "Multibag-Version" <> Some [] -> last_value (b_info b) "Multibag-Version" <> None ->
  bad_name (b_name b) ->
  member_validate b target want (Some r0) = Ok r -> ok r = false.
Proof.
  intros b target want r0 r O0 T0 L V2 V0 Vn B H. unfold member_validate in H. apply bind_ok in H. destruct H as (r1 & H1 & H). apply bind_ok in H. destruct H as (r2 & H2 & H).
  assert (Ev : version_of (b_info b) = last_value (b_info b) "Multibag-Version").
  { unfold version_of. change T_Version with (U "Multibag-Version"). destruct (od_get (U "Multibag-Version") (b_info b)) as [x|] eqn:E; [rewrite (last_value_vals _ _ _ E); reflexivity|].
    unfold last_value, tag_values. rewrite E. reflexivity. }
  rewrite Ev in H. destruct (last_value (b_info b) "Multibag-Version") as [v|]; [|exfalso; apply Vn; reflexivity]. destruct v as [|c v]; [exfalso; apply V0; reflexivity|].
  cbn [nonempty] in H. apply bind_ok in H. destruct H as (r3 & H3 & H4). unfold validate_bagname in H3.
  assert (E2 : is_02 (@Some pystr (c :: v)) = false).
  { unfold is_02. apply streq_neq. intros X. apply V2. rewrite X. reflexivity. }
  rewrite E2 in H3. apply bind_ok in H3. destruct H3 as (r3' & H3' & H3).
  pose proof (emits_bag _ _ _ _ H1) as (W1 & T1 & O1).
  pose proof (emits_rec ["3-Version-for-member"%string] _ _ _ _ _ (or_introl eq_refl) _ _ H2) as (W2 & T2 & O2).
  pose proof (emits_rec ["2.1a-name-TAB"%string] _ _ _ _ _ (or_introl eq_refl) _ _ H3') as (W3 & T3 & O3).
  pose proof (emits_rec ["2.1b-name-wsp"%string] _ _ _ _ _ (or_introl eq_refl) _ _ H3) as (W4 & T4 & O4).
  assert (Em : emits ["2-Head-Deprecates"; "2-Tag-Directory"]%string (validate_as_nonhead b)).
  { unfold validate_as_nonhead. destruct (od_has T_HeadVersion (b_info b)); [apply emits_ok|].
    apply emits_bind; [apply emits_rec; ins|]. apply emits_bind; [apply emits_rec; ins|]. cbv zeta.
    match goal with |- context [foldM _ ?l] => generalize l end. intros l. induction l as [|d l IH]; [apply emits_ok|].
    cbn [foldM]. apply emits_bind; [apply (emits_add _ "2-Tag-Directory"); ins|exact IH]. }
  pose proof (Em _ _ H4) as (W5 & T5 & O5).
  assert (T : typed r) by auto 10. assert (W : vr_want r = vr_want r0) by congruence.
  destruct (ok r) eqn:K; [|reflexivity]. exfalso. rewrite (outcome_ok r T) in K. rewrite W in K.
  apply bad_name_iff in B. destruct B as [B|B].
  - apply L. apply (K (U "2.1a-name-TAB")). rewrite O5, O4 by reflexivity. destruct (rec_out _ _ _ _ _ _ _ H3') as [_ Q].
    rewrite Q by (rewrite O2, O1 by reflexivity; apply O0). rewrite B. left. reflexivity.
  - apply L. apply (K (U "2.1b-name-wsp")). rewrite O5 by reflexivity. destruct (rec_out _ _ _ _ _ _ _ H3) as [_ Q].
    rewrite Q by (rewrite O3, O2, O1 by reflexivity; apply O0). rewrite B. left. reflexivity.
Qed.
Print Assumptions C51_partial.

Example C51_partial_case : exists r, member_validate ex_tab_name (U "t") PROB (Some (new_results (U "t") PROB CURRENT_VERSION)) = Ok r /\
  last_value (b_info ex_tab_name) "Multibag-Version" = Some (U "0.4") /\ ok r = false /\ count_failed PROB r = 4%nat.
Proof. eexists. split; [vm_compute; reflexivity|]. computed. Qed.

(** ** C60 *)

Theorem C60_refuted : forall i, from_tuple (to_tuple i) = Err EType.
Proof. reflexivity. Qed.
Print Assumptions C60_refuted.

Theorem C60_json_refuted : forall i, i_type i = ERROR \/ i_type i = WARN \/ i_type i = REC -> to_json_obj i = Err EAttribute.
Proof. intros i [E|[E|E]]; unfold to_json_obj; rewrite E; reflexivity. Qed.
Print Assumptions C60_json_refuted.

(** The text of a validation error (C106) *)
Require Import String NArith PeanoNat Bool List Lia.
From Verif Require Import PyBase PyFacts Validate ValidateText.
Import ListNotations.
Open Scope N_scope.

Definition part_of (s text : pystr) : Prop := exists a b, text = a ++ s ++ b.

(** Problems by their numbers: 1 for an error, 2 for a warning, 4 for a
    recommendation. *)
Definition kind (ty : N) : pystr :=
  match ty with 1 => U "ERROR" | 2 => U "WARNING" | _ => U "RECOMMENDATION" end.

(** A text tells of a test: what kind of problem it is, its label, what it is
    about, and all remarks. *)
Definition tells (text : pystr) (i : issue) : Prop :=
  part_of (kind (i_type i) ++ U ": multibag " ++ i_pver i ++ U " " ++ i_label i) text /\
  part_of (i_spec i) text /\ Forall (fun c => part_of c text) (i_comments i).

(** The three types are ranked; a mask that has a type has the graver ones as
    well: ERROR, PROB and ALL. *)
Definition gravest (want : N) : Prop :=
  (has_bits WARN want = true -> has_bits ERROR want = true) /\
  (has_bits REC want = true -> has_bits ERROR want = true /\ has_bits WARN want = true).

Lemma part_refl s : part_of s s.
Proof. exists [], []. rewrite app_nil_r. reflexivity. Qed.
Lemma part_l s t u : part_of s t -> part_of s (t ++ u).
Proof. intros (a & b & ->). exists a, (b ++ u). rewrite <- !app_assoc. reflexivity. Qed.
Lemma part_r s t u : part_of s t -> part_of s (u ++ t).
Proof. intros (a & b & ->). exists (u ++ a), b. rewrite <- !app_assoc. reflexivity. Qed.
Lemma part_join s sep l : In s l -> part_of s (join sep l).
Proof.
  induction l as [|x l IH]; intros I; [destruct I|]. destruct l as [|y l].
  - destruct I as [->|[]]. apply part_refl.
  - change (join sep (x :: y :: l)) with (x ++ sep ++ join sep (y :: l)). destruct I as [->|I]; [apply part_l, part_refl|]. apply part_r, part_r, IH, I.
Qed.
Lemma part_concat s x l : In x l -> part_of s x -> part_of s (concat l).
Proof.
  induction l as [|y l IH]; intros I P; [destruct I|]. cbn [concat]. destruct I as [->|I]; [apply part_l, P|apply part_r, IH; auto].
Qed.

Lemma kind_label ty : kind ty = type_label ty.
Proof.
  unfold kind, type_label, ERROR, WARN. destruct ty as [|p]; [reflexivity|]. destruct p as [p|p|]; [destruct p; reflexivity|destruct p; reflexivity|reflexivity].
Qed.

Lemma summary_tells i : i_passed i = false ->
  part_of (kind (i_type i) ++ U ": multibag " ++ i_pver i ++ U " " ++ i_label i) (summary i) /\ part_of (i_spec i) (summary i).
Proof.
  intros E. unfold summary. rewrite E, kind_label. split.
  - exists [], (match i_spec i with [] => [] | s => U ": " ++ s end). cbn [app]. rewrite <- !app_assoc. reflexivity.
  - do 5 apply part_r. destruct (i_spec i) as [|c s]; [apply part_refl|]. apply part_r, part_refl.
Qed.

Lemma description_tells i text : i_passed i = false -> part_of (description i) text -> tells text i.
Proof.
  intros E (a & b & ->). unfold description. destruct (summary_tells i E) as [S1 S2].
  split; [apply part_r, part_l, part_l, S1|]. split; [apply part_r, part_l, part_l, S2|].
  apply Forall_forall. intros c I. apply part_r, part_l, part_r. destruct (i_comments i) as [|x l]; [destruct I|]. apply part_r, part_join, I.
Qed.

Lemma failed_not_passed m r i : In i (failed m r) -> i_passed i = false.
Proof. intros I. apply filter_In in I. apply negb_true_iff, I. Qed.

(** The first three tests that failed are told of. *)
Lemma told r i : In i (firstn 3 (failed ALL r)) -> tells (error_text r) i.
Proof.
  intros I. assert (Ip : i_passed i = false).
  { apply (failed_not_passed ALL r). rewrite <- (firstn_skipn 3). apply in_or_app. auto. }
  unfold error_text, error_message, count_failed. destruct (failed ALL r) as [|x [|y l]] eqn:F; [destruct I| |].
  - destruct I as [->|[]]. cbn [length Nat.ltb Nat.leb]. destruct (summary_tells i Ip) as [S1 S2].
    destruct (i_comments i) as [|c cs] eqn:Ec; [split; [exact S1|split; [exact S2|rewrite Ec; constructor]]|].
    split; [apply part_l, S1|]. split; [apply part_l, S2|]. rewrite Ec. apply Forall_forall. intros z Iz. apply part_r, part_r, part_join, Iz.
  - cbn [length]. assert (L : Nat.ltb (S (S (length l))) 2 = false) by (apply Nat.ltb_ge; lia). rewrite L.
    apply description_tells; [exact Ip|]. do 3 apply part_r. apply (part_concat _ ([10; 10] ++ U " * " ++ description i)).
    + apply in_map_iff. exists i. auto.
    + apply part_r, part_r, part_refl.
Qed.

(** The error that [ensure_valid] raises, if the types wanted are ERROR, PROB
    or ALL, tells of a test because of which it is raised; it tells of all
    tests that failed if these are at most three. *)
Theorem C106_told_partial : forall r, ok r = false ->
  (gravest (vr_want r) -> exists i, In i (failed (vr_want r) r) /\ tells (error_text r) i) /\
  ((count_failed ALL r <= 3)%nat -> forall i, In i (failed ALL r) -> tells (error_text r) i) /\
  forall i, In i (firstn 3 (failed ALL r)) -> tells (error_text r) i.
Proof.
  intros r Hok. split; [|split; [|apply told]].
  - intros [G1 G2]. assert (F : exists i l, failed ALL r = i :: l /\ In i (failed (vr_want r) r)).
    { unfold ok, count_failed in Hok. apply Nat.eqb_neq in Hok. unfold failed, applied in *.
      change (has_bits ERROR ALL) with true. change (has_bits WARN ALL) with true. change (has_bits REC ALL) with true. cbv iota.
      rewrite !filter_app in *.
      set (e := filter _ (vr_error r)) in *. set (w := filter _ (vr_warn r)) in *. set (c := filter _ (vr_rec r)) in *.
      destruct (has_bits ERROR (vr_want r)) eqn:B1, (has_bits WARN (vr_want r)) eqn:B2, (has_bits REC (vr_want r)) eqn:B3; cbn [filter app] in *; fold e w c;
        try (destruct (G2 eq_refl); congruence); try (specialize (G1 eq_refl); congruence); try (cbn in Hok; congruence);
        fold e w c in Hok; rewrite ?app_nil_r in *.
      - destruct (e ++ w ++ c) as [|i l] eqn:E; [cbn in Hok; congruence|]. exists i, l. split; [reflexivity|left; reflexivity].
      - destruct (e ++ w) as [|i l] eqn:E; [cbn in Hok; congruence|]. exists i, (l ++ c). rewrite app_assoc, E. split; [reflexivity|left; reflexivity].
      - destruct e as [|i l] eqn:E; [cbn in Hok; congruence|]. exists i, (l ++ w ++ c). split; [reflexivity|left; reflexivity]. }
    destruct F as (i & l & F & I). exists i. split; [exact I|]. apply told. rewrite F. left. reflexivity.
  - intros L i I. apply told. rewrite firstn_all2; auto.
Qed.
Print Assumptions C106_told_partial.

(** The number in the text is that of all tests that failed. *)
Theorem C106_count : forall r, (2 <= count_failed ALL r)%nat ->
  exists rest, error_text r = dec (N.of_nat (count_failed ALL r)) ++ U " validation errors detected" ++ rest.
Proof.
  intros r L. unfold error_text, error_message, count_failed in *. destruct (failed ALL r) as [|x [|y l]]; [cbn in L; lia|cbn in L; lia|].
  assert (X : Nat.ltb (length (x :: y :: l)) 2 = false) by (apply Nat.ltb_ge; cbn; lia). rewrite X. eexists. rewrite <- app_assoc. reflexivity.
Qed.
Print Assumptions C106_count.

(** The text says that there are more if and only if there are more than the
    three that it tells of. *)
Theorem C106_including : forall r, (2 <= count_failed ALL r)%nat ->
  ((3 < count_failed ALL r)%nat -> exists rest,
     error_text r = dec (N.of_nat (count_failed ALL r)) ++ U " validation errors detected, including:" ++ rest) /\
  ((count_failed ALL r <= 3)%nat -> exists rest,
     error_text r = dec (N.of_nat (count_failed ALL r)) ++ U " validation errors detected:" ++ rest).
Proof.
  intros r L. unfold error_text, error_message, count_failed in *. destruct (failed ALL r) as [|x [|y l]]; [cbn in L; lia|cbn in L; lia|].
  assert (X : Nat.ltb (length (x :: y :: l)) 2 = false) by (apply Nat.ltb_ge; cbn; lia). rewrite X. split; intros Y.
  - apply Nat.ltb_lt in Y. rewrite Y. eexists. rewrite <- !app_assoc. reflexivity.
  - apply Nat.ltb_ge in Y. rewrite Y. eexists. rewrite <- !app_assoc. reflexivity.
Qed.
Print Assumptions C106_including.

Definition ex_fail (ty : N) (lab : string) (remarks : list pystr) : issue :=
  {| i_label := U lab; i_type := ty; i_spec := U "it must"; i_passed := false; i_comments := remarks; i_pver := U "0.4" |}.
Definition ex_results (want : N) : vres :=
  {| vr_target := U "b"; vr_want := want; vr_version := U "0.4";
     vr_error := [ex_fail ERROR "a" [U "line 3"; U "line 5"]; ex_fail ERROR "b" []; ex_fail ERROR "c" []];
     vr_warn := []; vr_rec := [ex_fail REC "d" [U "zzz"]] |}.
Example C106_case :
  ok (ex_results PROB) = false /\ gravest PROB /\ count_failed ALL (ex_results PROB) = 4%nat /\
  error_text (ex_results PROB) =
    U "4 validation errors detected, including:" ++ [10; 10] ++ U " * ERROR: multibag 0.4 a: it must" ++ [10] ++ U "   line 3" ++ [10] ++ U "   line 5" ++
    [10; 10] ++ U " * ERROR: multibag 0.4 b: it must" ++ [10; 10] ++ U " * ERROR: multibag 0.4 c: it must".
Proof. split; [reflexivity|]. split; [split; [reflexivity|intros X; discriminate X]|]. split; vm_compute; reflexivity. Qed.

(** If only recommendations are wanted, the text need not have anything about
    the reason for the error. *)
Fixpoint occurs (s text : pystr) : bool :=
  startswith text s || match text with [] => false | _ :: t => occurs s t end.
Lemma occurs_iff s text : part_of s text -> occurs s text = true.
Proof.
  intros (a & b & ->). induction a as [|c a IH].
  - cbn [app]. destruct (s ++ b) eqn:E; cbn [occurs]; rewrite <- E, startswith_app; reflexivity.
  - cbn [app occurs]. rewrite IH, orb_true_r. reflexivity.
Qed.
Theorem C106_refuted : exists r, ok r = false /\ vr_want r = REC /\
  forall i, In i (failed (vr_want r) r) -> ~ part_of (i_label i ++ U ": ") (error_text r) /\ ~ tells (error_text r) i.
Proof.
  exists (ex_results REC). split; [reflexivity|]. split; [reflexivity|]. intros i [<-|[]]. split.
  - intros P. apply occurs_iff in P. vm_compute in P. discriminate P.
  - intros (_ & _ & F). apply Forall_inv in F. apply occurs_iff in F. vm_compute in F. discriminate F.
Qed.
Print Assumptions C106_refuted.

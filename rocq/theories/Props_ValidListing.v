(** * Validation does not depend on the order in which files are listed (C143) *)

Require Import String NArith ZArith PeanoNat Bool List Lia Permutation.
From Verif Require Import PyBase PyFacts Tsv Fs FsFacts BagIt HeadBag Split SplitApply Validate BagValid HeadBagProofs3 Props_Validate Props_BagValid Props_Reproducible.
Import ListNotations.
Open Scope N_scope.

(** ** Specification *)

(** The same ending of a validation: the paths that are named as missing or
    as unexpected may come in another order. *)
Definition same_verdict (x y : verdict) : Prop :=
  match x, y with
  | VPass, VPass => True
  | VInvalid m l, VInvalid m' l' => m = m' /\ Permutation l l'
  | VBagError, VBagError => True
  | VRaise e, VRaise e' => e = e'
  | _, _ => False
  end.

(** The same bag, opened where its files are listed in another order. *)
Definition same_open (x y : res obag) : Prop :=
  match x, y with
  | Ok b, Ok b' => Permutation (o_tree b) (o_tree b') /\ o_version b = o_version b' /\ o_info b = o_info b' /\ o_entries b = o_entries b'
  | Err e, Err e' => e = e'
  | _, _ => False
  end.

(** ** Proofs *)

Lemma same_refl x : same_verdict x x.
Proof. destruct x; cbn; auto. Qed.

Lemma same_then a a' b b' : same_verdict a a' -> same_verdict b b' -> same_verdict (andthen a b) (andthen a' b').
Proof. destruct a, a'; cbn; auto; try contradiction. Qed.

Lemma filter_perm {A} (f : A -> bool) l l' : Permutation l l' -> Permutation (filter f l) (filter f l').
Proof.
  induction 1 as [|x l l' _ IH|x y l|l l1 l2 _ IH1 _ IH2]; cbn [filter]; [constructor| | |eapply perm_trans; eassumption].
  - destruct (f x); [apply perm_skip|]; exact IH.
  - destruct (f x), (f y); try apply Permutation_refl. apply perm_swap.
Qed.

Section Trees.
  Variables (t t' : tree).
  Hypothesis W : wf_tree t.
  Hypothesis P : Permutation t t'.

  Lemma vl_exists p : exists_ p t = exists_ p t'.
  Proof. unfold exists_, is_file, is_dir. rewrite (listed_get _ _ W P). reflexivity. Qed.
  Lemma vl_file p : is_file p t = is_file p t'.
  Proof. unfold is_file. rewrite (listed_get _ _ W P). reflexivity. Qed.
  Lemma vl_dir p : is_dir p t = is_dir p t'.
  Proof. unfold is_dir. destruct p; rewrite ?(listed_get _ _ W P); reflexivity. Qed.
  Lemma vl_size p : size_of p t = size_of p t'.
  Proof. unfold size_of. rewrite ?(listed_read _ _ W P), ?(listed_get _ _ W P). reflexivity. Qed.

  Lemma vl_manifests algos f : bag_manifests algos f t = bag_manifests algos f t'.
  Proof.
    unfold bag_manifests. f_equal; [f_equal; apply map_ext; intros a; rewrite (listed_read _ _ W P); reflexivity|].
    destruct f; [|reflexivity]. f_equal. apply map_ext. intros a. rewrite (listed_read _ _ W P). reflexivity.
  Qed.

  Lemma vl_files : Permutation (files t) (files t').
  Proof. unfold files. apply Permutation_map, filter_perm, P. Qed.
  Lemma vl_disk : Permutation (on_disk t) (on_disk t').
  Proof. unfold on_disk. apply filter_perm, vl_files. Qed.

  Lemma vl_sum : sum_N (map (fun f => size_of f t) (on_disk t)) = sum_N (map (fun f => size_of f t') (on_disk t')).
  Proof.
    rewrite (map_ext _ (fun f => size_of f t')) by (intros; apply vl_size).
    generalize (Permutation_map (fun f => size_of f t') vl_disk). generalize (map (fun f => size_of f t') (on_disk t)), (map (fun f => size_of f t') (on_disk t')).
    induction 1; cbn [sum_N]; lia.
  Qed.
End Trees.

Theorem C143_opened : forall v t t', wf_tree t -> Permutation t t' -> same_open (open_plain v t) (open_plain v t').
Proof.
  intros v t t' W P. unfold open_plain. rewrite <- (listed_read _ _ W P). destruct (read F_bagit t) as [c|]; [|reflexivity].
  destruct (read_version v c) as [[vi f]|e]; cbn [bind]; [|reflexivity].
  rewrite <- (vl_exists t t' W P), <- (listed_read _ _ W P f), <- (vl_manifests t t' W P).
  destruct (if exists_ f t then _ else _) as [info|e]; cbn [bind]; [|reflexivity].
  destruct (load_manifests _ _ _ _) as [es|e]; cbn [bind]; [|reflexivity].
  cbn [same_open o_tree o_version o_info o_entries]. auto.
Qed.
Print Assumptions C143_opened.

Theorem C143_validated : forall v b b', wf_tree (o_tree b) -> same_open (Ok b) (Ok b') ->
  same_verdict (validate_plain v b) (validate_plain v b').
Proof.
  intros v [t vi info es] [t' vi' info' es'] W (P & E1 & E2 & E3). cbn [o_tree o_version o_info o_entries] in *. subst vi' info' es'.
  unfold validate_plain. repeat apply same_then.
  - unfold check_structure. cbn [o_tree]. rewrite <- (vl_dir t t' W P), <- (vl_exists t t' W P).
    replace (manifest_files (v_algos v) t') with (manifest_files (v_algos v) t); [apply same_refl|].
    unfold manifest_files. apply filter_ext; intros a; apply (vl_file t t' W P).
  - unfold check_bagittxt. cbn [o_tree]. rewrite <- (listed_read _ _ W P). apply same_refl.
  - unfold check_fetch. cbn [o_tree]. rewrite <- (listed_read _ _ W P). apply same_refl.
  - unfold check_oxum. cbn [o_tree o_info].
    assert (C : forall s, check_oxum_value t s = check_oxum_value t' s).
    { intros s. unfold check_oxum_value. rewrite <- (vl_sum t t' W P), <- (Permutation_length (vl_disk t t' P)). reflexivity. }
    destruct (od_get T_OXUM info) as [[s|[|s l]]|]; rewrite ?C; apply same_refl.
  - unfold check_completeness.
    assert (A1 : only_in_manifests {| o_tree := t; o_version := vi; o_info := info; o_entries := es |} =
                 only_in_manifests {| o_tree := t'; o_version := vi; o_info := info; o_entries := es |}).
    { unfold only_in_manifests. cbn [o_tree o_version o_entries]. apply filter_ext. intros p. rewrite <- (vl_file t t' W P).
      replace (str_in p (on_disk t')) with (str_in p (on_disk t)); [reflexivity|].
      apply eq_true_iff_eq. rewrite !str_in_iff. split; apply Permutation_in; [|apply Permutation_sym]; apply vl_disk, P. }
    assert (A2 : Permutation (only_on_disk {| o_tree := t; o_version := vi; o_info := info; o_entries := es |})
                             (only_on_disk {| o_tree := t'; o_version := vi; o_info := info; o_entries := es |})).
    { unfold only_on_disk. cbn [o_tree o_entries]. apply filter_perm, vl_disk, P. }
    rewrite <- A1. pose proof (Permutation_app_head (only_in_manifests {| o_tree := t; o_version := vi; o_info := info; o_entries := es |}) A2) as A3.
    destruct (_ ++ only_on_disk _) eqn:L1 in A3 |- *.
    + apply Permutation_nil in A3. rewrite A3. exact Logic.I.
    + destruct (_ ++ only_on_disk {| o_tree := t'; o_version := vi; o_info := info; o_entries := es |}) eqn:L2 in A3 |- *.
      * apply Permutation_sym, Permutation_nil in A3. discriminate A3.
      * split; [reflexivity|exact A3].
  - unfold check_entries. cbn [o_tree o_entries].
    replace (mapM (mismatches v t') es) with (mapM (mismatches v t) es); [apply same_refl|].
    induction es as [|e es IH]; [reflexivity|]. cbn [mapM]. rewrite IH. unfold mismatches. rewrite <- (listed_read _ _ W P). reflexivity.
Qed.
Print Assumptions C143_validated.

(** ** The validators *)

(** The same issue, but for the order of its comments. *)
Definition same_issue (i i' : issue) : Prop :=
  i_label i = i_label i' /\ i_type i = i_type i' /\ i_spec i = i_spec i' /\ i_passed i = i_passed i' /\
  i_pver i = i_pver i' /\ Permutation (i_comments i) (i_comments i').
Definition same_results (r r' : vres) : Prop :=
  vr_target r = vr_target r' /\ vr_want r = vr_want r' /\ vr_version r = vr_version r' /\
  Forall2 same_issue (vr_error r) (vr_error r') /\ Forall2 same_issue (vr_warn r) (vr_warn r') /\
  Forall2 same_issue (vr_rec r) (vr_rec r').
Definition same_outcome (x y : res vres) : Prop :=
  match x, y with
  | Ok r, Ok r' => same_results r r'
  | Err e, Err e' => e = e'
  | _, _ => False
  end.

Lemma issue_refl i : same_issue i i.
Proof. repeat split. apply Permutation_refl. Qed.
Lemma issues_refl l : Forall2 same_issue l l.
Proof. induction l; constructor; [apply issue_refl|assumption]. Qed.
Lemma results_refl r : same_results r r.
Proof. repeat split; apply issues_refl. Qed.
Lemma outcome_refl x : same_outcome x x.
Proof. destruct x; [apply results_refl|reflexivity]. Qed.

Lemma same_add i i' ty p c c' r r' : same_issue i i' -> Permutation c c' -> same_results r r' ->
  same_outcome (add_issue i ty p c r) (add_issue i' ty p c' r').
Proof.
  intros (A1 & A2 & A3 & A4 & A5 & A6) Pc (B1 & B2 & B3 & B4 & B5 & B6). unfold add_issue.
  assert (X : same_issue {| i_label := i_label i; i_type := ty; i_spec := i_spec i; i_passed := p; i_comments := i_comments i ++ c; i_pver := i_pver i |}
                         {| i_label := i_label i'; i_type := ty; i_spec := i_spec i'; i_passed := p; i_comments := i_comments i' ++ c'; i_pver := i_pver i' |}).
  { repeat split; cbn; auto. apply Permutation_app; assumption. }
  destruct (ty =? ERROR); [|destruct (ty =? WARN); [|destruct (ty =? REC)]]; [| | |reflexivity]; cbn [same_outcome]; unfold same_results;
    cbn [vr_target vr_want vr_version vr_error vr_warn vr_rec]; (split; [assumption|split; [assumption|split; [assumption|]]]);
    (split; [|split]); try assumption; apply Forall2_app; auto.
Qed.

Lemma same_made l s ty p c r r' : same_results r r' ->
  same_outcome (add_issue (mk_issue r l s) ty p c r) (add_issue (mk_issue r' l s) ty p c r').
Proof.
  intros R. apply same_add; [|apply Permutation_refl|exact R]. destruct R as (_ & _ & E & _).
  repeat split; cbn; auto. 
Qed.

Lemma same_rec ty l s p c r r' : same_results r r' -> same_outcome (rec_issue ty l s p c r) (rec_issue ty l s p c r').
Proof. intros R. unfold rec_issue. apply same_made; exact R. Qed.

Lemma same_bind x y (f g : vres -> res vres) : same_outcome x y -> (forall r r', same_results r r' -> same_outcome (f r) (g r')) ->
  same_outcome (bind x f) (bind y g).
Proof. destruct x, y; cbn [same_outcome bind]; auto; try contradiction. Qed.

(** A step that does not look at what was found before. *)
Definition blind (f : vres -> res vres) : Prop := forall r r', same_results r r' -> same_outcome (f r) (f r').

Lemma blind_bind f g : blind f -> blind g -> blind (fun r => bind (f r) g).
Proof. intros F G r r' R. apply same_bind; [apply F, R|exact G]. Qed.
Lemma blind_ok : blind Ok.
Proof. intros r r' R. exact R. Qed.

Ltac blind_step :=
  match goal with
  | |- same_outcome (Ok _) (Ok _) => assumption
  | |- same_outcome (Err _) (Err _) => reflexivity
  | |- same_outcome (rec_issue _ _ _ _ _ _) _ => apply same_rec; assumption
  | |- same_outcome (add_issue (mk_issue ?r _ _) _ _ _ ?r) _ => apply same_made; assumption
  | |- same_outcome (bind (rec_issue _ _ _ _ _ _) _) _ => apply same_bind; [apply same_rec; assumption|intros ? ? ?]
  | |- same_outcome (bind (add_issue (mk_issue ?r _ _) _ _ _ ?r) _) _ => apply same_bind; [apply same_made; assumption|intros ? ? ?]
  | |- same_outcome (bind ?x _) (bind ?x _) => destruct x; cbn [bind]; [|reflexivity]
  | |- same_outcome (let (_, _) := ?x in _) _ => destruct x
  | |- same_outcome (if ?x then _ else _) _ => destruct x
  | |- same_outcome (match ?x with _ => _ end) _ => destruct x
  end.
Ltac blind_all := intros r r' R; repeat (cbv beta zeta; blind_step).

Section Blind.
  Variable urlparse : pystr -> res (pystr * pystr).
  Variable b : vbag.

  Lemma bl_version v : blind (validate_version b v).
  Proof. unfold validate_version. blind_all. Qed.
  Lemma bl_reference : blind (validate_reference urlparse b).
  Proof. unfold validate_reference. blind_all. Qed.
  Lemma bl_tagdir : blind (validate_tag_directory b).
  Proof. unfold validate_tag_directory. blind_all. Qed.
  Lemma bl_headversion : blind (validate_head_version b).
  Proof. unfold validate_head_version. blind_all. Qed.
  Lemma bl_deprecates : blind (validate_head_deprecates b).
  Proof. unfold validate_head_deprecates. blind_all. Qed.
  Lemma bl_recommended el : blind (recommended b el).
  Proof. unfold recommended. blind_all. Qed.
  Lemma bl_recs : blind (validate_baginfo_recs b).
  Proof. unfold validate_baginfo_recs. apply blind_bind; [apply bl_recommended|]. apply blind_bind; apply bl_recommended. Qed.
  Lemma bl_members v : blind (validate_member_bags urlparse b v).
  Proof. unfold validate_member_bags, validate_members_file. blind_all. Qed.
  Lemma bl_lookup v : blind (validate_file_lookup b v).
  Proof. unfold validate_file_lookup, validate_lookup_file. blind_all. Qed.
  Lemma bl_agginfo v : blind (validate_aggregation_info b v).
  Proof. unfold validate_aggregation_info. blind_all. Qed.
  Lemma bl_name v : blind (validate_bagname b v).
  Proof. unfold validate_bagname. blind_all. Qed.
  Lemma bl_fold {A} (f : vres -> A -> res vres) : (forall x, blind (fun r => f r x)) -> forall l, blind (fun r => foldM f l r).
  Proof.
    intros F l. induction l as [|x l IH]; [exact blind_ok|]. intros r r' R. cbn [foldM]. apply same_bind; [apply (F x), R|exact IH].
  Qed.
  Lemma bl_nonhead : blind (validate_as_nonhead b).
  Proof.
    unfold validate_as_nonhead. blind_all.
    all: match goal with |- same_outcome (foldM ?f ?l _) _ => apply (bl_fold f) end; [|assumption].
    all: intros x ra ra' Ra; cbv beta; apply same_made; assumption.
  Qed.
End Blind.

(** The bag with its files in another order. *)
Section Swap.
  Variable urlparse : pystr -> res (pystr * pystr).
  Variables b b' : vbag.
  Hypothesis W : wf_tree (b_tree b).
  Hypothesis P : Permutation (b_tree b) (b_tree b').
  Hypothesis En : b_name b = b_name b'.
  Hypothesis Ei : b_info b = b_info b'.

  Lemma sw_version v r : validate_version b v r = validate_version b' v r.
  Proof. unfold validate_version. rewrite Ei. reflexivity. Qed.
  Lemma sw_reference r : validate_reference urlparse b r = validate_reference urlparse b' r.
  Proof. unfold validate_reference. rewrite Ei. reflexivity. Qed.
  Lemma sw_tagdir r : validate_tag_directory b r = validate_tag_directory b' r.
  Proof.
    unfold validate_tag_directory. rewrite Ei, (vl_dir _ _ W P). destruct (od_get T_TagDir (b_info b')) as [x|]; [|reflexivity].
    destruct (last_of (vals x)); rewrite ?(vl_dir _ _ W P); reflexivity.
  Qed.
  Lemma sw_headversion r : validate_head_version b r = validate_head_version b' r.
  Proof. unfold validate_head_version. rewrite Ei. reflexivity. Qed.
  Lemma sw_deprecates r : validate_head_deprecates b r = validate_head_deprecates b' r.
  Proof. unfold validate_head_deprecates, deprecates_self. rewrite Ei, En. reflexivity. Qed.
  Lemma sw_recs r : validate_baginfo_recs b r = validate_baginfo_recs b' r.
  Proof. unfold validate_baginfo_recs, recommended. rewrite Ei. reflexivity. Qed.
  Lemma sw_dir : multibag_dir b = multibag_dir b'.
  Proof. unfold multibag_dir. rewrite Ei. reflexivity. Qed.
  Lemma sw_members v r : validate_member_bags urlparse b v r = validate_member_bags urlparse b' v r.
  Proof.
    unfold validate_member_bags, validate_members_file. rewrite sw_dir. destruct (multibag_dir b') as [d|e]; cbn [bind]; [|reflexivity].
    rewrite (vl_dir _ _ W P), (vl_file _ _ W P), (listed_read _ _ W P), En. reflexivity.
  Qed.
  Lemma sw_line v02 s il : lookup_line b v02 s il = lookup_line b' v02 s il.
  Proof.
    unfold lookup_line. destruct (lookup_fields v02 (snd il)) as [|p [|n rest]]; try reflexivity. rewrite (vl_file _ _ W P), En. reflexivity.
  Qed.
  Lemma sw_lines v02 l : forall s, foldM (lookup_line b v02) l s = foldM (lookup_line b' v02) l s.
  Proof. induction l as [|x l IH]; intros s; [reflexivity|]. cbn [foldM]. rewrite sw_line. destruct (lookup_line b' v02 s x); cbn [bind]; auto. Qed.
  Lemma sw_unlisted paths : length (filter (fun p => negb (str_in p paths)) (expected_files (b_tree b))) =
    length (filter (fun p => negb (str_in p paths)) (expected_files (b_tree b'))).
  Proof. apply Permutation_length, filter_perm. unfold expected_files. apply filter_perm, vl_files, P. Qed.
  Lemma sw_lookup v r : validate_file_lookup b v r = validate_file_lookup b' v r.
  Proof.
    unfold validate_file_lookup, validate_lookup_file. rewrite sw_dir. destruct (multibag_dir b') as [d|e]; cbn [bind]; [|reflexivity].
    rewrite (vl_dir _ _ W P d), (vl_file _ _ W P), (listed_read _ _ W P), (vl_dir _ _ W P (U "data")).
    destruct (rec_issue ERROR "3-Tag-Directory" _ _ _ r) as [r1|]; cbn [bind]; [|reflexivity].
    destruct (is_dir d (b_tree b')); [|reflexivity].
    destruct (rec_issue ERROR "4.0-2" _ _ _ r1) as [r2|]; cbn [bind]; [|reflexivity].
    destruct (read _ (b_tree b')) as [text|]; [|reflexivity]. rewrite sw_lines.
    destruct (foldM _ _ _) as [s|]; cbn [bind]; [|reflexivity].
    destruct (rec_issue ERROR "4.2-1" _ _ _ r2) as [r3|]; cbn [bind]; [|reflexivity].
    destruct (rec_issue ERROR "4.2-2" _ _ _ r3) as [r4|]; cbn [bind]; [|reflexivity].
    destruct (rec_issue WARN "4.2-3" _ _ _ r4) as [r5|]; cbn [bind]; [|reflexivity].
    rewrite sw_unlisted. reflexivity.
  Qed.
  Lemma sw_agginfo v r : validate_aggregation_info b v r = validate_aggregation_info b' v r.
  Proof.
    unfold validate_aggregation_info. rewrite sw_dir. destruct (multibag_dir b') as [d|e]; cbn [bind]; [|reflexivity].
    rewrite (vl_exists _ _ W P), (listed_read _ _ W P). reflexivity.
  Qed.
  Lemma sw_name v r : validate_bagname b v r = validate_bagname b' v r.
  Proof. unfold validate_bagname. rewrite En. reflexivity. Qed.
  Lemma sw_nonhead r : validate_as_nonhead b r = validate_as_nonhead b' r.
  Proof.
    unfold validate_as_nonhead. rewrite Ei. destruct (od_has T_HeadVersion (b_info b')); [reflexivity|].
    destruct (rec_issue WARN "2-Head-Deprecates" _ _ _ r) as [r1|]; cbn [bind]; [|reflexivity].
    destruct (rec_issue WARN "2-Tag-Directory" _ _ _ r1) as [r2|]; cbn [bind]; [|reflexivity].
    generalize (match od_get T_TagDir (b_info b') with Some x => if truthy_val (Some x) then vals x else [U "multibag"] | None => [U "multibag"] end).
    intros l. revert r2. induction l as [|d l IH]; intros r2; [reflexivity|]. cbn [foldM]. rewrite (vl_exists _ _ W P).
    destruct (add_issue _ _ _ _ _); cbn [bind]; auto.
  Qed.
End Swap.

(** What the check of the plain bag gives, with its comments in another order. *)
Definition same_plain (x y : res (option (list pystr))) : Prop :=
  match x, y with
  | Ok None, Ok None => True
  | Ok (Some l), Ok (Some l') => Permutation l l'
  | Err e, Err e' => e = e'
  | _, _ => False
  end.

Lemma same_bag_step b b' want r r' : same_plain (b_plain b) (b_plain b') -> same_results r r' ->
  same_outcome (bag_validate b want r) (bag_validate b' want r').
Proof.
  intros S R. unfold bag_validate. destruct (has_bits want ERROR); [|exact R].
  destruct (b_plain b) as [[l|]|e], (b_plain b') as [[l'|]|e']; cbn [same_plain] in S; try contradiction; cbn [bind]; auto.
  - apply same_add; [apply issue_refl|exact S|exact R].
  - apply same_add; [apply issue_refl|apply Permutation_refl|exact R].
Qed.

Lemma same_caught x y : same_verdict x y -> same_plain (caught x) (caught y).
Proof. destruct x, y; cbn; auto; try contradiction. intros [-> P]. apply perm_skip. exact P. Qed.

(** ** The theorems *)

(** The validators of head bags and of member bags say the same of a bag in
    whatever order its files are listed: the same issues in the same order,
    each of them passed or failed in both cases; only the comments of an
    issue may come in another order. *)
Theorem C143_head : forall urlparse v name target want b b', wf_tree (o_tree b) -> same_open (Ok b) (Ok b') ->
  same_outcome (head_validate urlparse (under_validation v name b) target want)
               (head_validate urlparse (under_validation v name b') target want).
Proof.
  intros urlparse v name target want b b' W S.
  pose proof (same_caught _ _ (C143_validated v b b' W S)) as Sp. destruct S as (P & _ & Ei & _).
  set (x := under_validation v name b). set (y := under_validation v name b').
  assert (Wx : wf_tree (b_tree x)) by exact W. assert (Px : Permutation (b_tree x) (b_tree y)) by exact P.
  assert (En : b_name x = b_name y) by reflexivity. assert (Ex : b_info x = b_info y) by exact Ei.
  unfold head_validate, head_validate_into. rewrite Ex.
  apply same_bind; [apply same_bag_step; [exact Sp|apply results_refl]|intros r1 r1' R1].
  rewrite (sw_version x y Ex). apply same_bind; [apply bl_version; exact R1|intros r2 r2' R2].
  rewrite (sw_reference urlparse x y Ex). apply same_bind; [apply bl_reference; exact R2|intros r3 r3' R3].
  rewrite (sw_tagdir x y Wx Px Ex). apply same_bind; [apply bl_tagdir; exact R3|intros r4 r4' R4].
  rewrite (sw_headversion x y Ex). apply same_bind; [apply bl_headversion; exact R4|intros r5 r5' R5].
  rewrite (sw_deprecates x y En Ex). apply same_bind; [apply bl_deprecates; exact R5|intros r6 r6' R6].
  rewrite (sw_recs x y Ex). apply same_bind; [apply bl_recs; exact R6|intros r7 r7' R7].
  rewrite (sw_members urlparse x y Wx Px En Ex). apply same_bind; [apply bl_members; exact R7|intros r8 r8' R8].
  rewrite (sw_lookup x y Wx Px En Ex). apply same_bind; [apply bl_lookup; exact R8|intros r9 r9' R9].
  rewrite (sw_agginfo x y Wx Px Ex). apply bl_agginfo; exact R9.
Qed.

Theorem C143_member : forall v name target want results b b', wf_tree (o_tree b) -> same_open (Ok b) (Ok b') ->
  same_outcome (member_validate (under_validation v name b) target want results)
               (member_validate (under_validation v name b') target want results).
Proof.
  intros v name target want results b b' W S.
  pose proof (same_caught _ _ (C143_validated v b b' W S)) as Sp. destruct S as (P & _ & Ei & _).
  set (x := under_validation v name b). set (y := under_validation v name b').
  assert (Wx : wf_tree (b_tree x)) by exact W. assert (Px : Permutation (b_tree x) (b_tree y)) by exact P.
  assert (En : b_name x = b_name y) by reflexivity. assert (Ex : b_info x = b_info y) by exact Ei.
  unfold member_validate. rewrite Ex.
  apply same_bind; [apply same_bag_step; [exact Sp|apply results_refl]|intros r1 r1' R1].
  apply same_bind; [apply same_rec; exact R1|intros r2 r2' R2].
  destruct (match version_of (b_info y) with Some s => nonempty s | None => false end); [|exact R2].
  destruct results as [r|].
  - rewrite (sw_name x y En). apply same_bind; [apply bl_name; exact R2|intros r3 r3' R3].
    rewrite (sw_nonhead x y Wx Px Ex). apply bl_nonhead; exact R3.
  - rewrite (sw_name x y En). destruct (validate_bagname y _ _); cbn [bind]; [|reflexivity].
    rewrite (sw_nonhead x y Wx Px Ex). destruct (validate_as_nonhead y _); cbn [bind]; [exact R2|reflexivity].
Qed.

(** And so a bag that is valid is valid in every listing. *)
Lemma same_failed m r r' : same_results r r' -> count_failed m r = count_failed m r'.
Proof.
  intros (_ & _ & _ & E1 & E2 & E3). unfold count_failed, failed, applied.
  assert (F : Forall2 same_issue ((if has_bits ERROR m then vr_error r else []) ++ (if has_bits WARN m then vr_warn r else []) ++ (if has_bits REC m then vr_rec r else []))
                ((if has_bits ERROR m then vr_error r' else []) ++ (if has_bits WARN m then vr_warn r' else []) ++ (if has_bits REC m then vr_rec r' else []))).
  { repeat apply Forall2_app; [destruct (has_bits ERROR m)|destruct (has_bits WARN m)|destruct (has_bits REC m)]; auto. }
  induction F as [|i i' l l' (_ & _ & _ & E & _) _ IH]; [reflexivity|]. cbn [filter]. rewrite E. destruct (i_passed i'); cbn [negb length]; auto.
Qed.

Theorem C143_valid : forall urlparse v name target want t t', wf_tree t -> Permutation t t' ->
  let valid t := let? b := open_plain v t in is_valid (head_validate urlparse (under_validation v name b) target) want in
  valid t = valid t'.
Proof.
  intros urlparse v name target want t t' W P valid. subst valid. cbv beta.
  pose proof (C143_opened v t t' W P) as S.
  destruct (open_plain v t) as [b|e] eqn:Eb, (open_plain v t') as [b'|e'] eqn:Eb'; cbn [same_open] in S; try contradiction; cbn [bind]; [|congruence].
  assert (Wb : wf_tree (o_tree b)).
  { unfold open_plain in Eb. destruct (read F_bagit t); [|discriminate]. destruct (read_version v p) as [[vi f]|]; cbn [bind] in Eb; [|discriminate].
    destruct (if exists_ f t then _ else _); cbn [bind] in Eb; [|discriminate]. destruct (load_manifests _ _ _ _); cbn [bind] in Eb; [|discriminate].
    injection Eb as <-. exact W. }
  pose proof (C143_head urlparse v name target want b b' Wb S) as H. unfold is_valid.
  destruct (head_validate urlparse (under_validation v name b) target want) as [r|e], (head_validate urlparse (under_validation v name b') target want) as [r'|e'];
    cbn [same_outcome] in H; try contradiction; cbn [bind]; [|congruence].
  unfold ok. rewrite (same_failed _ _ _ H). destruct H as (_ & -> & _). reflexivity.
Qed.

Print Assumptions C143_head.
Print Assumptions C143_member.
Print Assumptions C143_valid.

(** A case: a head bag, with [more] files of the payload that its manifest
    does not have. *)
Definition ex_tree143 (more : list string) : tree :=
  [(U "bagit.txt", NFile ex_bagit);
   (U "bag-info.txt", NFile (ln "Multibag-Version: 0.4" ++ ln "Multibag-Head-Version: 1"));
   (U "manifest-md5.txt", NFile (ln "0acba  data/one"));
   (U "multibag", NDir); (U "multibag/member-bags.tsv", NFile (ln "mine"));
   (U "multibag/file-lookup.tsv", NFile (U "data/one" ++ [TAB] ++ ln "mine"));
   (U "data", NDir); (U "data/one", NFile (U "abc"))] ++ map (fun f => (U f, NFile [])) more.
Definition ex_valid143 (t : tree) : res bool :=
  let? b := open_plain ex_env t in is_valid (head_validate ex_urlparse (under_validation ex_env (U "mine") b) (U "target")) PROB.
Definition ex_comments143 (t : tree) : res (list pystr) :=
  let? b := open_plain ex_env t in
  let? r := head_validate ex_urlparse (under_validation ex_env (U "mine") b) (U "target") PROB in
  Ok (flat_map i_comments (failed PROB r)).

Example C143_case :
  let good := ex_tree143 [] in let bad := ex_tree143 ["data/x"; "data/y"]%string in
  wf_tree good /\ wf_tree bad /\ Permutation good (rev good) /\ Permutation bad (rev bad) /\
  ex_valid143 good = Ok true /\ ex_valid143 (rev good) = Ok true /\ ex_valid143 bad = Ok false /\ ex_valid143 (rev bad) = Ok false.
Proof.
  cbv zeta. split; [apply wf_treeb_ok; vm_compute; reflexivity|]. split; [apply wf_treeb_ok; vm_compute; reflexivity|].
  split; [apply Permutation_rev|]. split; [apply Permutation_rev|]. vm_compute. auto.
Qed.

(** The comments do come in another order. *)
Theorem C143_comments_order : exists t t' l l', wf_tree t /\ Permutation t t' /\
  ex_comments143 t = Ok l /\ ex_comments143 t' = Ok l' /\ l <> l' /\ Permutation l l'.
Proof.
  exists (ex_tree143 ["data/x"; "data/y"]%string), (rev (ex_tree143 ["data/x"; "data/y"]%string)),
    [U "Bag validation failed"; U "data/x"; U "data/y"], [U "Bag validation failed"; U "data/y"; U "data/x"].
  split; [apply wf_treeb_ok; vm_compute; reflexivity|]. split; [apply Permutation_rev|].
  split; [vm_compute; reflexivity|]. split; [vm_compute; reflexivity|]. split; [intros X; discriminate X|]. apply perm_skip, perm_swap.
Qed.
Print Assumptions C143_comments_order.

(** The comments of the validator, and the validator of member bags *)
Require Import String NArith PeanoNat Bool List Lia.
From Verif Require Import PyBase PyFacts Version Tsv TsvProofs Fs FsFacts HeadBag HeadBagProofs HeadBagProofs2 HeadBagProofs3 BagIt BagItProofs Split SplitApply Validate ValidateProofs Props_Validate Props_Validate3.
Import ListNotations.
Open Scope N_scope.

(** ** C84: the comments tell where the problems are *)

(** The comments of the tests called [lab]. *)
Definition remarks (lab : pystr) (r : vres) : list (list pystr) :=
  map i_comments (filter (fun i => streq lab (i_label i)) (applied ALL r)).

(** The numbers, from 1 on, of the lines that are bad. [bad] gets the lines
    before it and the line; blank lines are left out. *)
Definition positions (bad : list pystr -> pystr -> bool) (ls : list pystr) : list N :=
  map (fun n => N.of_nat (S n))
    (filter (fun n => match nth_error ls n with Some l => nonblank l && bad (firstn n ls) l | None => false end) (seq 0 (length ls))).

(** The remark: all of the numbers if there are at most four, else the first three. *)
Definition remark (ns : list N) : list pystr :=
  match ns with
  | [] => []
  | [a] => [U "line " ++ dec a]
  | [a; b] => [U "lines " ++ dec a ++ U ", " ++ dec b]
  | [a; b; c] => [U "lines " ++ dec a ++ U ", " ++ dec b ++ U ", " ++ dec c]
  | [a; b; c; d] => [U "lines " ++ dec a ++ U ", " ++ dec b ++ U ", " ++ dec c ++ U ", " ++ dec d]
  | a :: b :: c :: _ => [U "lines " ++ dec a ++ U ", " ++ dec b ++ U ", " ++ dec c ++ U ", ..."]
  end.

Lemma remark_model ns : lines_comment ns = remark ns.
Proof.
  destruct ns as [|a [|b [|c [|d [|e t]]]]]; [reflexivity|..].
  all: unfold lines_comment, remark; cbn [length Nat.ltb Nat.leb firstn map app join]; rewrite ?app_nil_r, <- ?app_assoc; reflexivity.
Qed.

Lemma positions_snoc bad ls l : positions bad (ls ++ [l]) = positions bad ls ++ (if nonblank l && bad ls l then [N.of_nat (S (length ls))] else []).
Proof.
  unfold positions. rewrite app_length. cbn [length]. rewrite Nat.add_1_r, seq_S, filter_app, map_app. f_equal.
  - f_equal. apply filter_ext_in. intros n I. apply in_seq in I. rewrite nth_error_app1 by lia. rewrite firstn_app. replace (n - length ls)%nat with 0%nat by lia.
    cbn [firstn]. rewrite app_nil_r. reflexivity.
  - cbn [filter]. rewrite Nat.add_0_l, nth_error_app2 by lia. rewrite Nat.sub_diag. cbn [nth_error]. rewrite firstn_app, firstn_all, Nat.sub_diag. cbn [firstn]. rewrite app_nil_r.
    destruct (nonblank l && bad ls l); reflexivity.
Qed.

Lemma number_snoc {A} (ls : list A) l : forall i, number i (ls ++ [l]) = number i ls ++ [(i + N.of_nat (S (length ls)), l)].
Proof.
  induction ls as [|x ls IH]; intros i; [cbn; do 2 f_equal; lia|]. cbn [app number length]. rewrite IH. cbn [app]. do 3 f_equal. f_equal. lia.
Qed.

Definition numbered (ls : list pystr) : list (N * pystr) := filter (fun il => nonblank (snd il)) (number 0 ls).
Lemma numbered_snoc ls l : numbered (ls ++ [l]) = numbered ls ++ (if nonblank l then [(N.of_nat (S (length ls)), l)] else []).
Proof. unfold numbered. rewrite number_snoc, filter_app. cbn [filter snd]. rewrite N.add_0_l. reflexivity. Qed.

Lemma filter_positions p ls : map fst (filter (fun il => p (snd il)) (numbered ls)) = positions (fun _ l => p l) ls.
Proof.
  induction ls as [|l ls IH] using rev_ind; [reflexivity|]. rewrite numbered_snoc, positions_snoc, filter_app, map_app, IH. f_equal.
  destruct (nonblank l); [|reflexivity]. cbn [filter snd andb]. destruct (p l); reflexivity.
Qed.

(** Lines of which the first field was there before. *)
Definition again (key : pystr -> pystr) (before : list pystr) (l : pystr) : bool := str_in (key l) (map key (filter nonblank before)).

Lemma again_members u me v02 ls : forall s, foldM (member_line u me v02) (numbered ls) mstart = Ok s ->
  ms_repl s = positions (again (fun l => first_of (member_fields v02 l))) ls /\
  (forall n, In n (ms_found s) <-> In n (map (fun l => first_of (member_fields v02 l)) (filter nonblank ls))).
Proof.
  induction ls as [|l ls IH] using rev_ind; intros s H; [injection H as <-; split; [reflexivity|reflexivity]|].
  rewrite numbered_snoc, foldM_app in H. apply bind_ok in H. destruct H as (s1 & H1 & H). destruct (IH _ H1) as [R F]. rewrite positions_snoc, filter_app, map_app.
  cbn [filter]. destruct (nonblank l).
  - cbn [foldM] in H. apply bind_ok in H. destruct H as (s2 & H2 & H). injection H as <-. apply member_line_ok in H2. cbv zeta in H2. cbn [snd fst] in H2. destruct H2 as (_ & R2 & F2 & _).
    set (K := fun l => first_of (member_fields v02 l)) in *. change (first_of (member_fields v02 l)) with (K l) in *. cbn [andb map]. rewrite R2, F2, R.
    assert (E : again K ls l = str_in (K l) (ms_found s1)).
    { unfold again. apply Bool.eq_iff_eq_true. rewrite !str_in_iff. symmetry. apply F. }
    rewrite E. destruct (str_in (K l) (ms_found s1)) eqn:Q.
    + split; [reflexivity|]. intros n. rewrite in_app_iff. cbn [In]. apply str_in_iff in Q. rewrite F in *. split; [tauto|]. intros [X|[<-|[]]]; assumption.
    + split; [rewrite app_nil_r; reflexivity|]. intros n. rewrite !in_app_iff, F. cbn [In]. reflexivity.
  - injection H as <-. cbn [andb map]. rewrite !app_nil_r. auto.
Qed.

Lemma again_lookup b v02 ls : forall s, foldM (lookup_line b v02) (numbered ls) {| ls_badfmt := []; ls_repl := []; ls_missing := []; ls_paths := [] |} = Ok s ->
  ls_repl s = positions (again (fun l => first_of (lookup_fields v02 l))) ls /\
  (forall n, In n (ls_paths s) <-> In n (map (fun l => first_of (lookup_fields v02 l)) (filter nonblank ls))).
Proof.
  induction ls as [|l ls IH] using rev_ind; intros s H; [injection H as <-; split; [reflexivity|reflexivity]|].
  rewrite numbered_snoc, foldM_app in H. apply bind_ok in H. destruct H as (s1 & H1 & H). destruct (IH _ H1) as [R F]. rewrite positions_snoc, filter_app, map_app.
  cbn [filter]. destruct (nonblank l).
  - cbn [foldM] in H. apply bind_ok in H. destruct H as (s2 & H2 & H). injection H as <-. apply lookup_line_ok in H2. cbv zeta in H2. cbn [snd fst] in H2. destruct H2 as (_ & _ & R2 & F2).
    set (K := fun l => first_of (lookup_fields v02 l)) in *. change (first_of (lookup_fields v02 l)) with (K l) in *. cbn [andb map]. rewrite R2, F2, R.
    assert (E : again K ls l = str_in (K l) (ls_paths s1)).
    { unfold again. apply Bool.eq_iff_eq_true. rewrite !str_in_iff. symmetry. apply F. }
    rewrite E. destruct (str_in (K l) (ls_paths s1)) eqn:Q.
    + split; [reflexivity|]. intros n. rewrite in_app_iff. cbn [In]. apply str_in_iff in Q. rewrite F in *. split; [tauto|]. intros [X|[<-|[]]]; assumption.
    + split; [rewrite app_nil_r; reflexivity|]. intros n. rewrite !in_app_iff, F. cbn [In]. reflexivity.
  - injection H as <-. cbn [andb map]. rewrite !app_nil_r. auto.
Qed.

(** Recording of comments. *)
Lemma remarks_other lab i ty p c r r' : streq lab (i_label i) = false -> add_issue i ty p c r = Ok r' -> remarks lab r' = remarks lab r.
Proof.
  intros L H. unfold remarks. rewrite !applied_all, !filter_app, !map_app. unfold add_issue in H.
  destruct (ty =? ERROR); [|destruct (ty =? WARN); [|destruct (ty =? REC); [|discriminate]]]; inversion H; subst r'; cbn [vr_error vr_warn vr_rec];
    rewrite filter_app, map_app; cbn [filter i_label]; rewrite L; cbn [map]; rewrite app_nil_r; reflexivity.
Qed.
Lemma remarks_same lab i ty p c r r' : streq lab (i_label i) = true -> i_comments i = [] -> remarks lab r = [] -> add_issue i ty p c r = Ok r' -> remarks lab r' = [c].
Proof.
  intros L N0 E H. unfold remarks in *. rewrite !applied_all, !filter_app, !map_app in *.
  apply app_eq_nil in E. destruct E as [E1 E]. apply app_eq_nil in E. destruct E as [E2 E3]. unfold add_issue in H. rewrite N0 in H.
  destruct (ty =? ERROR); [|destruct (ty =? WARN); [|destruct (ty =? REC); [|discriminate]]]; inversion H; subst r'; cbn [vr_error vr_warn vr_rec];
    rewrite filter_app, map_app, ?E1, ?E2, ?E3; cbn [filter i_label]; rewrite L; reflexivity.
Qed.
Lemma outcome_remarks lab r : outcome lab r = [] <-> remarks lab r = [].
Proof. unfold outcome, remarks. split; intros E; apply map_eq_nil in E; rewrite E; reflexivity. Qed.

Lemma rec_rem ty lab spec p c r r' : rec_issue ty lab spec p c r = Ok r' ->
  (forall l, streq l (U lab) = false -> remarks l r' = remarks l r) /\ (remarks (U lab) r = [] -> remarks (U lab) r' = [c]).
Proof.
  intros H. split; [intros l L; exact (remarks_other l (mk_issue r (U lab) (U spec)) ty p c r r' L H)|].
  intros E. exact (remarks_same (U lab) (mk_issue r (U lab) (U spec)) ty p c r r' (streq_refl _) eq_refl E H).
Qed.

(** Tests leave the remarks of other labels alone. *)
Definition leaves (labs : list string) (f : vres -> res vres) : Prop :=
  forall r r', f r = Ok r' -> forall lab, str_in lab (map U labs) = false -> remarks lab r' = remarks lab r.
Lemma leaves_ok labs : leaves labs (fun r => Ok r).
Proof. intros r r' H. injection H as <-. reflexivity. Qed.
Lemma leaves_err labs e : leaves labs (fun _ => Err e).
Proof. intros r r' H. discriminate. Qed.
Lemma leaves_bind labs f (g : vres -> res vres) : leaves labs f -> leaves labs g -> leaves labs (fun r => let? r := f r in g r).
Proof. intros F G r r' H lab L. apply bind_ok in H. destruct H as (r1 & H1 & H2). rewrite (G _ _ H2 lab L), (F _ _ H1 lab L). reflexivity. Qed.
Lemma leaves_rec labs lab spec ty p c : In lab labs -> leaves labs (rec_issue ty lab spec p c).
Proof.
  intros I r r' H l L. apply rec_rem in H. destruct H as [H _]. apply H. destruct (streq l (U lab)) eqn:E; [|reflexivity]. apply streq_eq in E. subst l.
  exfalso. apply str_in_false in L. apply L. apply in_map. exact I.
Qed.
Lemma leaves_const {A} labs (x : res A) (g : A -> vres -> res vres) :
  (forall a, leaves labs (g a)) -> leaves labs (fun r => let? a := x in g a r).
Proof. intros H. destruct x as [a|e]; cbn [bind]; [apply H|apply leaves_err]. Qed.

Lemma leaves_members u b ver : leaves member_labels (validate_member_bags u b ver).
Proof.
  unfold validate_member_bags. apply leaves_const. intros md. apply leaves_bind; [apply leaves_rec; unfold member_labels; ins|].
  destruct (is_dir md (b_tree b)); [|apply leaves_ok]. unfold validate_members_file. cbv zeta.
  apply leaves_bind; [apply leaves_rec; unfold member_labels; ins|]. destruct (read _ _) as [text|]; [|apply leaves_ok].
  apply leaves_const. intros s. repeat (apply leaves_bind; [apply leaves_rec; unfold member_labels; ins|]). apply leaves_rec; unfold member_labels; ins.
Qed.
Lemma leaves_lookup b ver : leaves lookup_labels (validate_file_lookup b ver).
Proof.
  unfold validate_file_lookup. apply leaves_const. intros md. apply leaves_bind; [apply leaves_rec; unfold lookup_labels; ins|].
  destruct (is_dir md (b_tree b)); [|apply leaves_ok]. unfold validate_lookup_file. cbv zeta.
  apply leaves_bind; [apply leaves_rec; unfold lookup_labels; ins|]. destruct (read _ _) as [text|]; [|apply leaves_ok].
  apply leaves_const. intros s. repeat (apply leaves_bind; [apply leaves_rec; unfold lookup_labels; ins|]).
  destruct (is_dir (U "data") (b_tree b)); [apply leaves_rec; unfold lookup_labels; ins|apply leaves_err].
Qed.
Lemma leaves_aggregation b ver : leaves ["4.4-1"]%string (validate_aggregation_info b ver).
Proof.
  unfold validate_aggregation_info. apply leaves_const. intros md. destruct (_ || _ || _); [apply leaves_ok|].
  destruct (read _ _) as [c|]; [|apply leaves_err]. destruct (load_tags IoText c) as [i|e]; [apply leaves_rec; ins|].
  destruct e; try apply leaves_err. apply leaves_rec; ins.
Qed.

Ltac rems H := let r := fresh "q" in let A := fresh "A" in apply bind_ok in H; destruct H as (r & A & H); apply rec_rem in A; destruct A.
Ltac rothers := repeat match goal with
  | O : forall l, streq l (U ?a) = false -> remarks l ?r = _ |- context [remarks ?lab ?r] => rewrite (O lab) by (vm_compute; reflexivity)
  end.

(** A URL field that is not taken for an absolute URL. *)
Definition not_absolute (u : pystr -> res (pystr * pystr)) (w : pystr) : bool :=
  match w with
  | [] => false
  | _ => match u w with Ok (_ :: _, []) => false | _ => true end
  end.

Lemma bad_url_spec u old l : bad_url u old l = not_absolute u (cell 1 (columns old l)).
Proof.
  unfold bad_url, not_absolute. rewrite columns_model. destruct (member_fields old l) as [|n [|w t]]; [reflexivity..|]. change (cell 1 (n :: w :: t)) with w.
  destruct w as [|c w]; [reflexivity|]. cbn [nonempty andb]. destruct (u (c :: w)) as [[[|x sc] [|y ne]]|e]; reflexivity.
Qed.
Lemma positions_ext f g ls : (forall before l, f before l = g before l) -> positions f ls = positions g ls.
Proof. intros E. unfold positions. f_equal. apply filter_ext. intros n. destruct (nth_error ls n); [rewrite E|]; reflexivity. Qed.
Lemma first_cell l : first_of l = cell 0 l.
Proof. destruct l; reflexivity. Qed.

Theorem C84_members : forall u b target want r md text,
  head_validate u b target want = Ok r ->
  multibag_directory b md -> is_dir md (b_tree b) = true ->
  read (md ++ U "/" ++ (if old_profile b then U "group-members.txt" else U "member-bags.tsv")) (b_tree b) = Some text ->
  let old := old_profile b in
  let bad p := remark (positions p (pylines IoText text)) in
  remarks (U "4.1-1") r = [bad (fun _ l => old && Nat.ltb 2 (length (columns old l)))] /\
  remarks (U "4.1-2") r = [bad (fun _ l => not_absolute u (cell 1 (columns old l)))] /\
  remarks (U "4.1-5") r = [bad (again (fun l => cell 0 (columns old l)))].
Proof.
  intros u b target want r md text H Md D R. destruct (head_dir _ _ _ _ _ H) as (x & X). rewrite (dir_spec _ _ _ X Md) in X. clear x.
  destruct (head_validate_parts _ _ _ _ _ H) as (r7 & r8 & r9 & H8 & H9 & H10 & O & _). rewrite old_spec in *.
  assert (R' : read (sjoin md (if is_02 (version_of (b_info b)) then U "group-members.txt" else F_members)) (b_tree b) = Some text) by exact R.
  intros old bad. fold old in R'.
  assert (K : forall lab, In lab ["4.1-1"; "4.1-2"; "4.1-5"]%string -> remarks (U lab) r = remarks (U lab) r8).
  { intros lab I. rewrite (leaves_aggregation _ _ _ _ H10), (leaves_lookup _ _ _ _ H9); [reflexivity|..]; cbn [In] in I; decompose [or] I; try subst lab; reflexivity || contradiction. }
  rewrite !K by ins. clear K H9 H10.
  assert (K : forall lab, In lab ["4.1-1"; "4.1-2"; "4.1-5"]%string -> remarks (U lab) r7 = []).
  { intros lab I. apply outcome_remarks, O. cbn [In] in I. decompose [or] I; try subst lab; reflexivity || contradiction. }
  rename H8 into G. unfold validate_member_bags in G. rewrite X in G. cbn [bind] in G. rems G. rewrite D in G. fold old in G. unfold validate_members_file in G. cbv zeta in G.
  rems G. rewrite R' in G. apply bind_ok in G. destruct G as (s & Hs & G). rems G. rems G. rems G. rems G. apply rec_rem in G. destruct G as [Gy Gz].
  change (numbered_lines text) with (numbered (pylines IoText text)) in Hs.
  destruct (members_loop _ _ _ _ _ _ Hs) as (_ & _ & Q & B & _ & _). cbn [mstart ms_badurl ms_badfmt app] in Q, B. destruct (again_members _ _ _ _ _ Hs) as [Rp _].
  rewrite filter_positions in Q, B. rewrite remark_model in *. rewrite Q, B, Rp in *. clear Q B Rp Hs.
  split; [|split].
  - rothers. match goal with Y : remarks (U "4.1-1") _ = [] -> _ |- _ => rewrite Y; [|rothers; apply K; ins] end. unfold bad. do 2 f_equal. apply positions_ext. intros _ l.
    unfold long_line. rewrite columns_model. reflexivity.
  - rothers. match goal with Y : remarks (U "4.1-2") _ = [] -> _ |- _ => rewrite Y; [|rothers; apply K; ins] end. unfold bad. do 2 f_equal. apply positions_ext. intros _ l.
    apply bad_url_spec.
  - rewrite Gz; [|rothers; apply K; ins]. unfold bad. do 2 f_equal. apply positions_ext. intros before l. unfold again. rewrite first_cell, <- columns_model.
    f_equal. apply map_ext. intros l'. rewrite first_cell, <- columns_model. reflexivity.
Qed.
Print Assumptions C84_members.

Theorem C84_lookup : forall u b target want r md text,
  head_validate u b target want = Ok r ->
  multibag_directory b md -> is_dir md (b_tree b) = true ->
  read (md ++ U "/" ++ (if old_profile b then U "group-directory.txt" else U "file-lookup.tsv")) (b_tree b) = Some text ->
  let old := old_profile b in
  let bad p := remark (positions p (pylines IoText text)) in
  remarks (U "4.2-1") r = [bad (fun _ l => negb (Nat.eqb (length (lookup_columns old l)) 2))] /\
  remarks (U "4.2-2") r = [bad (fun _ l => Nat.leb 2 (length (lookup_columns old l)) && streq (cell 1 (lookup_columns old l)) (b_name b) && negb (is_file (cell 0 (lookup_columns old l)) (b_tree b)))] /\
  remarks (U "4.2-3") r = [bad (again (fun l => cell 0 (lookup_columns old l)))].
Proof.
  intros u b target want r md text H Md D R. destruct (head_dir _ _ _ _ _ H) as (x & X). rewrite (dir_spec _ _ _ X Md) in X. clear x.
  destruct (head_validate_parts _ _ _ _ _ H) as (r7 & r8 & r9 & H8 & H9 & H10 & O & _). rewrite old_spec in *.
  assert (R' : read (sjoin md (if is_02 (version_of (b_info b)) then U "group-directory.txt" else F_lookup)) (b_tree b) = Some text) by exact R.
  intros old bad. fold old in R'.
  assert (K : forall lab, In lab ["4.2-1"; "4.2-2"; "4.2-3"]%string -> remarks (U lab) r = remarks (U lab) r9).
  { intros lab I. rewrite (leaves_aggregation _ _ _ _ H10); [reflexivity|..]; cbn [In] in I; decompose [or] I; try subst lab; reflexivity || contradiction. }
  rewrite !K by ins. clear K H10.
  assert (K : forall lab, In lab ["4.2-1"; "4.2-2"; "4.2-3"]%string -> remarks (U lab) r8 = []).
  { intros lab I. rewrite (leaves_members _ _ _ _ _ H8); [apply outcome_remarks, O|]; cbn [In] in I; decompose [or] I; try subst lab; reflexivity || contradiction. }
  rename H9 into G. unfold validate_file_lookup in G. rewrite X in G. cbn [bind] in G. rems G. rewrite D in G. fold old in G. unfold validate_lookup_file in G. cbv zeta in G.
  rems G. rewrite R' in G. apply bind_ok in G. destruct G as (s & Hs & G). rems G. rems G. rems G.
  destruct (is_dir (U "data") (b_tree b)); [|discriminate]. apply rec_rem in G. destruct G as [Gy Gz].
  change (numbered_lines text) with (numbered (pylines IoText text)) in Hs.
  destruct (lookup_loop _ _ _ _ _ Hs) as (Q & B & _). cbn [ls_badfmt ls_missing app] in Q, B. destruct (again_lookup _ _ _ _ Hs) as [Rp _].
  rewrite (filter_positions (fun l => negb (Nat.eqb (length (lookup_fields old l)) 2))) in Q. rewrite filter_positions in B. rewrite remark_model in *. rewrite Q, B, Rp in *. clear Q B Rp Hs Gz.
  split; [|split].
  - rothers. match goal with Y : remarks (U "4.2-1") _ = [] -> _ |- _ => rewrite Y; [|rothers; apply K; ins] end. unfold bad. do 2 f_equal. apply positions_ext. intros _ l.
    rewrite lookup_columns_model. reflexivity.
  - rothers. match goal with Y : remarks (U "4.2-2") _ = [] -> _ |- _ => rewrite Y; [|rothers; apply K; ins] end. unfold bad. do 2 f_equal. apply positions_ext. intros _ l.
    unfold missing_own. rewrite lookup_columns_model. destruct (lookup_fields old l) as [|p [|n t]]; reflexivity.
  - rothers. match goal with Y : remarks (U "4.2-3") _ = [] -> _ |- _ => rewrite Y; [|rothers; apply K; ins] end. unfold bad. do 2 f_equal. apply positions_ext. intros before l. unfold again. rewrite first_cell, <- lookup_columns_model.
    f_equal. apply map_ext. intros l'. rewrite first_cell, <- lookup_columns_model. reflexivity.
Qed.
Print Assumptions C84_lookup.

(** Payload files that are missing in the lookup are never named. *)
Theorem C84_missing_refuted : forall u b target want r md text,
  head_validate u b target want = Ok r ->
  multibag_directory b md -> is_dir md (b_tree b) = true ->
  read (md ++ U "/" ++ (if old_profile b then U "group-directory.txt" else U "file-lookup.tsv")) (b_tree b) = Some text ->
  remarks (U "4.2-4") r = [[]].
Proof.
  intros u b target want r md text H Md D R. destruct (head_dir _ _ _ _ _ H) as (x & X). rewrite (dir_spec _ _ _ X Md) in X. clear x.
  destruct (head_validate_parts _ _ _ _ _ H) as (r7 & r8 & r9 & H8 & H9 & H10 & O & _). rewrite old_spec in *.
  assert (R' : read (sjoin md (if is_02 (version_of (b_info b)) then U "group-directory.txt" else F_lookup)) (b_tree b) = Some text) by exact R.
  rewrite (leaves_aggregation _ _ _ _ H10) by reflexivity.
  assert (K : remarks (U "4.2-4") r8 = []) by (rewrite (leaves_members _ _ _ _ _ H8) by reflexivity; apply outcome_remarks, O; reflexivity).
  rename H9 into G. unfold validate_file_lookup in G. rewrite X in G. cbn [bind] in G. rems G. rewrite D in G. unfold validate_lookup_file in G. cbv zeta in G.
  rems G. rewrite R' in G. apply bind_ok in G. destruct G as (s & _ & G). rems G. rems G. rems G.
  destruct (is_dir (U "data") (b_tree b)); [|discriminate]. apply rec_rem in G. destruct G as [_ Gz]. apply Gz. rothers. exact K.
Qed.
Print Assumptions C84_missing_refuted.

Example C84_case :
  multibag_directory ex_bad (U "multibag") /\ is_dir (U "multibag") (b_tree ex_bad) = true /\ old_profile ex_bad = false /\
  (head_validate ex_urlparse ex_bad (U "target") PROB = Ok (ex_result ex_bad) /\
   remarks (U "4.1-5") (ex_result ex_bad) = [[U "line 3"]] /\ remarks (U "4.1-2") (ex_result ex_bad) = [[]] /\
   remarks (U "4.2-1") (ex_result ex_bad) = [[U "line 2"]] /\ remarks (U "4.2-2") (ex_result ex_bad) = [[U "line 1"]] /\
   remarks (U "4.2-4") (ex_result ex_bad) = [[]] /\ outcome (U "4.2-4") (ex_result ex_bad) = [(REC, false)] /\
   remark [2; 5; 7; 8; 9] = [U "lines 2, 5, 7, ..."]).
Proof. split; [left; split; [left|]; reflexivity|]. split; [reflexivity|]. split; [reflexivity|]. computed. Qed.

(** ** C85: the validator of member bags *)

(** Rules for a bag that says it is part of a multibag. *)
Definition member_bag_rules (b : vbag) (want : N) : Prop :=
  (asks want ERROR -> last_value (b_info b) "Multibag-Version" <> Some (U "0.2") -> ~ bad_name (b_name b)) /\
  (asks want WARN -> values b "Multibag-Head-Version" = [] ->
     values b "Multibag-Head-Deprecates" = [] /\ values b "Multibag-Tag-Directory" = [] /\ exists_ (U "multibag") (b_tree b) = false).
Definition says_multibag (b : vbag) : Prop := exists v, last_value (b_info b) "Multibag-Version" = Some v /\ v <> [].

Lemma passing_name b want r r' : validate_bagname b (version_of (b_info b)) r = Ok r' ->
  (passing want r' <-> passing want r /\ (asks want ERROR -> last_value (b_info b) "Multibag-Version" <> Some (U "0.2") -> ~ bad_name (b_name b))).
Proof.
  intros H. unfold validate_bagname in H. assert (V : last_value (b_info b) "Multibag-Version" = version_of (b_info b)) by (rewrite last_value_get; reflexivity). rewrite V. clear V.
  destruct (is_02 (version_of (b_info b))) eqn:V2.
  - injection H as <-. split; [intros A; split; [exact A|]|tauto]. intros _ Z. exfalso. apply Z. unfold is_02 in V2. destruct (version_of (b_info b)) as [v|]; [|discriminate]. apply streq_eq in V2. rewrite V2. reflexivity.
  - apply bind_ok in H. destruct H as (r1 & H1 & H). apply (passing_rec want) in H1. apply (passing_rec want) in H. rewrite H, H1, !negb_true_iff, bad_name_iff.
    assert (Z : version_of (b_info b) <> Some (U "0.2")) by (intros E; rewrite E in V2; discriminate).
    destruct (existsb (N.eqb TAB) (b_name b)), (outer_space (b_name b)); split; intros X; decompose [and] X; clear X; repeat split; auto; intros W; try (exfalso; intuition congruence); intuition congruence.
Qed.

Lemma passing_nonhead b want r r' : read_tags (b_info b) -> validate_as_nonhead b r = Ok r' ->
  (passing want r' <-> passing want r /\ (asks want WARN -> values b "Multibag-Head-Version" = [] ->
     values b "Multibag-Head-Deprecates" = [] /\ values b "Multibag-Tag-Directory" = [] /\ exists_ (U "multibag") (b_tree b) = false)).
Proof.
  intros T H. unfold validate_as_nonhead in H.
  assert (Ev : forall k, od_has (U k) (b_info b) = false <-> values b k = []).
  { intros k. rewrite values_get. unfold od_has. destruct (od_get (U k) (b_info b)) as [[s|l]|] eqn:E; [split; discriminate| |tauto].
    destruct (read_list _ _ _ T E) as (a & a' & t & ->). split; discriminate. }
  change T_HeadVersion with (U "Multibag-Head-Version") in H. change T_HeadDeprecates with (U "Multibag-Head-Deprecates") in H. change T_TagDir with (U "Multibag-Tag-Directory") in H.
  rewrite <- !Ev. destruct (od_has (U "Multibag-Head-Version") (b_info b)).
  - injection H as <-. split; [intros A; split; [exact A|]; intros _; discriminate|tauto].
  - apply bind_ok in H. destruct H as (r1 & H1 & H). apply (passing_rec want) in H1. apply bind_ok in H. destruct H as (r2 & H2 & H). apply (passing_rec want) in H2. cbv zeta in H.
    set (ds := match od_get (U "Multibag-Tag-Directory") (b_info b) with Some x => if truthy_val (Some x) then vals x else [U "multibag"] | None => [U "multibag"] end) in *.
    assert (L : forall ds r r', foldM (fun r d => add_issue (mk_issue r (U "2-Tag-Directory")
                                  (U "bag-info.txt: Multibag tag directory (" ++ d ++ U ") should exist only in Head Bags"))
                                WARN (negb (exists_ d (b_tree b))) [] r) ds r = Ok r' ->
                (passing want r' <-> passing want r /\ (asks want WARN -> forall d, In d ds -> exists_ d (b_tree b) = false))).
    { clear. induction ds as [|d ds IH]; intros r r' H; [injection H as <-; split; [intros A; split; [exact A|intros _ d []]|tauto]|].
      cbn [foldM] in H. apply bind_ok in H. destruct H as (r1 & H1 & H). apply (passing_add want) in H1. apply IH in H. rewrite H, H1, negb_true_iff. split.
      - intros [[A B] C]. split; [exact A|]. intros W d' [<-|I]; [exact (B W)|exact (C W d' I)].
      - intros [A B]. split; [split; [exact A|]|]; intros W; [apply (B W); left; reflexivity|]. intros d' I. apply (B W). right. exact I. }
    apply L in H. rewrite H, H2, H1. clear L H H1 H2. rewrite !negb_true_iff. unfold od_has in *.
    assert (Ds : match od_get (U "Multibag-Tag-Directory") (b_info b) with Some _ => true | None => false end = false -> ds = [U "multibag"]).
    { unfold ds. destruct (od_get (U "Multibag-Tag-Directory") (b_info b)); [discriminate|reflexivity]. }
    split.
    + intros [[[A B1] B2] B3]. split; [exact A|]. intros W _. split; [exact (B1 W)|]. split; [exact (B2 W)|]. apply (B3 W). rewrite (Ds (B2 W)). left. reflexivity.
    + intros [A B]. split; [split; [split; [exact A|]|]|]; intros W; destruct (B W eq_refl) as (C1 & C2 & C3); try assumption.
      intros d I. rewrite (Ds C2) in I. destruct I as [<-|[]]. exact C3.
Qed.

(** With results to add to, the rules are decided. *)
Theorem C85_member_partial : forall b target want r0 r,
  read_tags (b_info b) -> typed r0 -> vr_want r0 = want ->
  member_validate b target want (Some r0) = Ok r ->
  (ok r = true <-> ok r0 = true /\ (asks want ERROR -> b_plain b = Ok None) /\ (asks want REC -> says_multibag b) /\ (says_multibag b -> member_bag_rules b want)).
Proof.
  intros b target want r0 r T Ty W H. unfold member_validate in H. apply bind_ok in H. destruct H as (r1 & H1 & H). apply bind_ok in H. destruct H as (r2 & H2 & H).
  set (given := match version_of (b_info b) with Some s => nonempty s | None => false end) in *.
  assert (Eg : given = true <-> says_multibag b).
  { unfold given, says_multibag. rewrite last_value_get. change (version_of (b_info b)) with (match od_get (U "Multibag-Version") (b_info b) with Some x => last_of (vals x) | None => None end).
    destruct (match od_get (U "Multibag-Version") (b_info b) with Some x => last_of (vals x) | None => None end) as [s|].
    - rewrite ne_nonempty. split; [eauto|]. intros (v & E & Nv). injection E as ->. exact Nv.
    - split; [discriminate|]. intros (v & E & _). discriminate. }
  assert (Wr : vr_want r = want /\ typed r).
  { apply emits_bag in H1. destruct H1 as (W1 & T1 & _). apply (emits_rec ["3-Version-for-member"%string] _ _ _ _ _ (or_introl eq_refl)) in H2. destruct H2 as (W2 & T2 & _).
    destruct given; [|injection H as <-; split; [congruence|auto]]. apply bind_ok in H. destruct H as (r3 & H3 & H4).
    assert (E3 : emits ["2.1a-name-TAB"; "2.1b-name-wsp"]%string (validate_bagname b (version_of (b_info b)))).
    { unfold validate_bagname. destruct (is_02 _); [apply emits_ok|]. apply emits_bind; apply emits_rec; ins. }
    assert (E4 : emits ["2-Head-Deprecates"; "2-Tag-Directory"]%string (validate_as_nonhead b)).
    { unfold validate_as_nonhead. destruct (od_has _ _); [apply emits_ok|]. apply emits_bind; [apply emits_rec; ins|]. apply emits_bind; [apply emits_rec; ins|]. cbv zeta.
      match goal with |- context [foldM _ ?l] => generalize l end. induction l as [|d l IH]; [apply emits_ok|]. cbn [foldM].
      apply (emits_bind _ (fun r => add_issue (mk_issue r (U "2-Tag-Directory") _) WARN _ [] r)); [apply (emits_add _ "2-Tag-Directory"); ins|exact IH]. }
    apply E3 in H3. apply E4 in H4. destruct H3 as (W3 & T3 & _), H4 as (W4 & T4 & _). split; [congruence|auto]. }
  destruct Wr as [Wr Tr]. rewrite (ok_all r Tr), (ok_all r0 Ty), Wr, W.
  change (passing want r <-> passing want r0 /\ (asks want ERROR -> b_plain b = Ok None) /\ (asks want REC -> says_multibag b) /\ (says_multibag b -> member_bag_rules b want)).
  apply passing_bag in H1. apply (passing_rec want) in H2. rewrite Eg in H2. unfold member_bag_rules. destruct given.
  - apply bind_ok in H. destruct H as (r3 & H3 & H4). rewrite (passing_nonhead _ want _ _ T H4), (passing_name _ want _ _ H3), H2, H1. assert (S : says_multibag b) by tauto. tauto.
  - injection H as <-. rewrite H2, H1. assert (S : ~ says_multibag b) by (intros S; apply Eg in S; discriminate). tauto.
Qed.
Print Assumptions C85_member_partial.

(** Without them only the first two are. *)
Theorem C85_refuted : forall b target want r,
  member_validate b target want None = Ok r ->
  (ok r = true <-> (asks want ERROR -> b_plain b = Ok None) /\ (asks want REC -> says_multibag b)).
Proof.
  intros b target want r H. unfold member_validate in H. apply bind_ok in H. destruct H as (r1 & H1 & H). apply bind_ok in H. destruct H as (r2 & H2 & H).
  set (given := match version_of (b_info b) with Some s => nonempty s | None => false end) in *.
  assert (Eg : given = true <-> says_multibag b).
  { unfold given, says_multibag. rewrite last_value_get. change (version_of (b_info b)) with (match od_get (U "Multibag-Version") (b_info b) with Some x => last_of (vals x) | None => None end).
    destruct (match od_get (U "Multibag-Version") (b_info b) with Some x => last_of (vals x) | None => None end) as [s|].
    - rewrite ne_nonempty. split; [eauto|]. intros (v & E & Nv). injection E as ->. exact Nv.
    - split; [discriminate|]. intros (v & E & _). discriminate. }
  assert (E : r = r2) by (destruct given; [apply bind_ok in H; destruct H as (? & _ & H); apply bind_ok in H; destruct H as (? & _ & H)|]; injection H as <-; reflexivity). subst r2. clear H.
  assert (Wr : vr_want r = want /\ typed r).
  { pose proof (emits_bag _ _ _ _ H1) as (W1 & T1 & _). pose proof (emits_rec ["3-Version-for-member"%string] _ _ _ _ _ (or_introl eq_refl) _ _ H2) as (W2 & T2 & _).
    split; [rewrite W2, W1; reflexivity|]. apply T2, T1. repeat split; constructor. }
  destruct Wr as [Wr Tr]. rewrite (ok_all r Tr), Wr. change (passing want r <-> (asks want ERROR -> b_plain b = Ok None) /\ (asks want REC -> says_multibag b)).
  apply passing_bag in H1. apply (passing_rec want) in H2. rewrite H2, H1, Eg. assert (P : passing want (new_results target want CURRENT_VERSION)) by (intros i []). tauto.
Qed.
Print Assumptions C85_refuted.

(** A member bag with the tags and the directory of a head bag. *)
Definition ex_member (info : infod) : vbag :=
  {| b_name := U "part"; b_info := info; b_plain := Ok None; b_tree := [(U "data", NDir); (U "multibag", NDir)] |}.
Example C85_case :
  read_tags [(U "Multibag-Version", IStr (U "0.4")); (U "Multibag-Head-Deprecates", IStr (U "1"))] /\
  typed (new_results (U "t") PROB CURRENT_VERSION) /\
  is_valid (fun w => member_validate (ex_member [(U "Multibag-Version", IStr (U "0.4")); (U "Multibag-Head-Deprecates", IStr (U "1"))]) (U "t") w (Some (new_results (U "t") w CURRENT_VERSION))) PROB = Ok false /\
  is_valid (fun w => member_validate (ex_member [(U "Multibag-Version", IStr (U "0.4")); (U "Multibag-Head-Deprecates", IStr (U "1"))]) (U "t") w None) PROB = Ok true.
Proof.
  split; [apply read_tags_ok; reflexivity|]. split; [repeat split; constructor|]. computed.
Qed.

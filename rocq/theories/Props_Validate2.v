(** More properties of the validators: when they raise, and what a bag that
    passes is good for *)
Require Import String NArith PeanoNat Bool List Lia.
From Verif Require Import PyBase PyFacts Version Tsv TsvProofs Fs FsFacts HeadBag HeadBagProofs HeadBagProofs2 HeadBagProofs3 BagIt BagItProofs Split SplitApply Validate ValidateProofs Props_Validate.
Import ListNotations.
Open Scope N_scope.

(** ** C77: validate() returns results *)

Lemma raises_no_head u b r : od_get T_HeadVersion (b_info b) = None -> forall ver r', validate_member_bags u b ver r <> Ok r'.
Proof.
  intros E ver r'. unfold validate_member_bags, multibag_dir. cbv zeta. unfold od_has. rewrite E. destruct (nonempty _); discriminate.
Qed.

(** Validation of a bag that is not a head bag raises: the missing
    Multibag-Head-Version is never reported to the caller. *)
Theorem C77_refuted : forall u b target want,
  tag_values (b_info b) (U "Multibag-Head-Version") = [] ->
  od_get (U "Multibag-Head-Version") (b_info b) = None ->
  forall r, head_validate u b target want <> Ok r.
Proof.
  intros u b target want _ E r H. destruct (head_validate_parts _ _ _ _ _ H) as (r7 & r8 & _ & H8 & _). exact (raises_no_head _ _ _ E _ _ H8).
Qed.
Print Assumptions C77_refuted.

(** Nor is it for a bag that deprecates one while its own version is empty. *)
Theorem C77_deprecates_refuted : forall u b target want x,
  od_get (U "Multibag-Head-Deprecates") (b_info b) = Some x ->
  last_value (b_info b) "Multibag-Head-Version" = Some [] ->
  forall r, head_validate u b target want <> Ok r.
Proof.
  intros u b target want x D V r H. unfold head_validate, head_validate_into in H.
  apply bind_ok in H. destruct H as (r1 & _ & H). apply bind_ok in H. destruct H as (r2 & _ & H). apply bind_ok in H. destruct H as (r3 & _ & H).
  apply bind_ok in H. destruct H as (r4 & _ & H). apply bind_ok in H. destruct H as (r5 & _ & H). apply bind_ok in H. destruct H as (r6 & H & _).
  unfold validate_head_deprecates in H. change T_HeadDeprecates with (U "Multibag-Head-Deprecates") in H. change T_HeadVersion with (U "Multibag-Head-Version") in H.
  rewrite D in H. cbv zeta in H. destruct (od_get (U "Multibag-Head-Version") (b_info b)) as [y|] eqn:E.
  - rewrite (last_value_vals _ _ _ E) in V. rewrite V in H. discriminate.
  - discriminate.
Qed.
Print Assumptions C77_deprecates_refuted.

Definition ex_member : vbag := {| b_name := U "mine"; b_info := [(U "Multibag-Version", IStr (U "0.4"))]; b_tree := [(U "data", NDir)]; b_plain := Ok None |}.
Definition ex_empty_version : vbag := ex_head (U "mine") [(U "Multibag-Version", IStr (U "0.4")); (U "Multibag-Head-Version", IStr []); (U "Multibag-Head-Deprecates", IStr (U "1"))] [U "mine"] [tabbed [U "data/a"; U "mine"]].
Example C77_refuted_case :
  head_validate ex_urlparse ex_member (U "t") PROB = Err EAssertion /\ head_validate ex_urlparse ex_empty_version (U "t") PROB = Err EAssertion.
Proof. computed. Qed.

(** A test that always gives results. *)
Definition total (f : vres -> res vres) : Prop := forall r, exists r', f r = Ok r'.
Lemma total_ok : total (fun r => Ok r).
Proof. intros r. eauto. Qed.
Lemma total_bind f g : total f -> total g -> total (fun r => let? r := f r in g r).
Proof. intros F G r. destruct (F r) as [r1 H1]. destruct (G r1) as [r2 H2]. exists r2. rewrite H1. exact H2. Qed.
Lemma total_add i ty p c : ty = ERROR \/ ty = WARN \/ ty = REC -> total (add_issue i ty p c).
Proof. intros [->|[->| ->]] r; eexists; reflexivity. Qed.
Lemma total_add' (i : vres -> issue) ty p c : ty = ERROR \/ ty = WARN \/ ty = REC -> total (fun r => add_issue (i r) ty p c r).
Proof. intros [->|[->| ->]] r; eexists; reflexivity. Qed.
Lemma total_rec ty lab spec p c : ty = ERROR \/ ty = WARN \/ ty = REC -> total (rec_issue ty lab spec p c).
Proof. intros T r. apply (total_add _ _ _ _ T). Qed.
Lemma total_const {A} (x : A) (g : A -> vres -> res vres) y : y = Ok x -> total (g x) -> total (fun r => let? a := y in g a r).
Proof. intros -> G r. apply G. Qed.
Ltac tot := repeat first
  [ apply total_ok | apply total_bind | apply total_rec; tauto | apply total_add'; tauto | apply total_add; tauto ].

Lemma split_if_ne p s : split_if p s <> [].
Proof. destruct s as [|c s]; [discriminate|]. cbn. destruct (p c); [discriminate|]. destruct (split_if p s); discriminate. Qed.
Lemma words_ne s c : In c s -> is_ws c = false -> py_words s <> [].
Proof.
  intros I W. assert (X : exists w, In w (split_if is_ws s) /\ w <> []).
  { induction s as [|x s IH]; [destruct I|]. cbn [split_if]. destruct (is_ws x) eqn:Wx.
    - destruct I as [->|I]; [congruence|]. destruct (IH I) as (w & Iw & Nw). exists w. split; [right; exact Iw|exact Nw].
    - destruct (split_if is_ws s) as [|w ws]; [exists [x]|exists (x :: w)]; (split; [left; reflexivity|discriminate]). }
  destruct X as (w & Iw & Nw). intros E. assert (J : In w (py_words s)) by (apply filter_In; split; [exact Iw|destruct w; [congruence|reflexivity]]).
  rewrite E in J. destruct J.
Qed.
Lemma nonblank_char line : nonblank line = true -> exists c, In c (strip line) /\ In c line /\ is_ws c = false.
Proof.
  unfold nonblank. intros H. destruct (strip_is_trimmed line) as [E|T]; [rewrite E in H; discriminate|]. destruct T as [(c & t & E & W) _].
  exists c. assert (I : In c (strip line)) by (rewrite E; left; reflexivity). split; [exact I|]. split; [|exact W].
  unfold strip in I. destruct (rstrip_if_split is_ws (lstrip_if is_ws line)) as (w' & E' & _). destruct (lstrip_if_split is_ws line) as (w & E0 & _).
  rewrite E0. apply in_or_app. right. rewrite E'. apply in_or_app. left. exact I.
Qed.

Lemma members_total u me v02 ls s : (forall w, exists sc ne, u w = Ok (sc, ne)) -> (forall il, In il ls -> nonblank (snd il) = true) ->
  exists s', foldM (member_line u me v02) ls s = Ok s'.
Proof.
  intros Hu. revert s. induction ls as [|il ls IH]; intros s B; [eexists; reflexivity|]. cbn [foldM].
  assert (X : exists s1, member_line u me v02 s il = Ok s1).
  { unfold member_line. destruct (nonblank_char (snd il)) as (c & I & _ & W); [apply B; left; reflexivity|].
    assert (Ne : member_fields v02 (snd il) <> []).
    { unfold member_fields. destruct v02; intros E; apply map_eq_nil in E; [exact (words_ne _ _ I W E)|exact (split_on_ne _ _ E)]. }
    destruct (member_fields v02 (snd il)) as [|n parts]; [congruence|]. cbv zeta. destruct parts as [|w parts]; [eexists; reflexivity|].
    destruct (nonempty w); [|eexists; reflexivity]. destruct (Hu w) as (sc & ne & ->). eexists. reflexivity. }
  destruct X as [s1 ->]. cbn [bind]. apply IH. intros x I. apply B. right. exact I.
Qed.
Lemma lookup_total b v02 ls s : (forall il, In il ls -> nonblank (snd il) = true) -> exists s', foldM (lookup_line b v02) ls s = Ok s'.
Proof.
  revert s. induction ls as [|il ls IH]; intros s B; [eexists; reflexivity|]. cbn [foldM].
  assert (X : exists s1, lookup_line b v02 s il = Ok s1).
  { unfold lookup_line. destruct (nonblank_char (snd il)) as (c & _ & I & W); [apply B; left; reflexivity|].
    assert (Ne : lookup_fields v02 (snd il) <> []).
    { unfold lookup_fields. destruct v02; intros E; apply map_eq_nil in E; [exact (words_ne _ _ I W E)|exact (split_on_ne _ _ E)]. }
    destruct (lookup_fields v02 (snd il)) as [|n parts]; [congruence|]. eexists. reflexivity. }
  destruct X as [s1 ->]. cbn [bind]. apply IH. intros x I. apply B. right. exact I.
Qed.

Lemma parse_tag_errors ls : forall cur e, parse_tag_lines cur ls = Err e -> e = EBag.
Proof.
  induction ls as [|l ls IH]; intros cur e H; [discriminate|]. cbn [parse_tag_lines] in H. destruct (blank l); [eauto|].
  destruct (if starts_ws l then cur else None) as [[k v]|]; [eauto|]. destruct (split1 COLON (strip l)) as [[k v]|]; [|congruence].
  destruct (parse_tag_lines (Some (strip k, v)) ls) eqn:E; cbn [bind] in H; [discriminate|]. injection H as <-. eauto.
Qed.

(** What validation needs in order not to raise. *)
Definition validatable (u : pystr -> res (pystr * pystr)) (b : vbag) (md : pystr) : Prop :=
  (exists c, b_plain b = Ok c) /\ (forall w, exists sc ne, u w = Ok (sc, ne)) /\
  (exists v, last_value (b_info b) "Multibag-Head-Version" = Some v /\ v <> []) /\
  (last_value (b_info b) "Multibag-Tag-Directory" = None /\ md = U "multibag" \/ last_value (b_info b) "Multibag-Tag-Directory" = Some md /\ md <> []) /\
  is_dir (U "data") (b_tree b) = true /\ is_dir (md ++ U "/aggregation-info.txt") (b_tree b) = false.

Theorem C77_partial : forall u b target want md, validatable u b md -> exists r, head_validate u b target want = Ok r.
Proof.
  intros u b target want md ((c & Hc) & Hu & (v & Hv & Nv) & Md & Dd & Da).
  assert (Hh : exists x, od_get T_HeadVersion (b_info b) = Some x /\ last_of (vals x) = Some v).
  { change T_HeadVersion with (U "Multibag-Head-Version"). destruct (od_get (U "Multibag-Head-Version") (b_info b)) as [x|] eqn:E.
    - exists x. split; [reflexivity|]. rewrite <- (last_value_vals _ _ _ E). exact Hv.
    - unfold last_value, tag_values in Hv. rewrite E in Hv. discriminate. }
  destruct Hh as (x & Hx & Lx).
  assert (X : multibag_dir b = Ok md).
  { unfold multibag_dir, od_has. rewrite Hx. change T_TagDir with (U "Multibag-Tag-Directory"). destruct (od_get (U "Multibag-Tag-Directory") (b_info b)) as [y|] eqn:E.
    - rewrite (last_value_vals _ _ _ E) in Md. destruct Md as [[L ->]|[L Nm]].
      + destruct y as [s|l]; [discriminate|]. destruct l as [|s l]; [reflexivity|]. unfold last_of, vals in L. destruct (rev (s :: l)) eqn:R; [|discriminate].
        apply (f_equal (@length _)) in R. rewrite rev_length in R. discriminate.
      + assert (T : truthy_val (Some y) = true).
        { destruct y as [s|l]; [|destruct l; [discriminate|reflexivity]]. destruct s; [|reflexivity]. injection L as <-. congruence. }
        rewrite T, L. destruct md; [congruence|reflexivity].
    - unfold last_value, tag_values in Md. rewrite E in Md. destruct Md as [[_ ->]|[L _]]; [reflexivity|discriminate]. }
  assert (Nb : forall text il, In il (numbered_lines text) -> nonblank (snd il) = true) by (intros text il I; apply filter_In in I; tauto).
  set (ver := version_of (b_info b)).
  assert (T : total (fun r => let? r := bag_validate b want r in let? r := validate_version b ver r in let? r := validate_reference u b r in
    let? r := validate_tag_directory b r in let? r := validate_head_version b r in let? r := validate_head_deprecates b r in
    let? r := validate_baginfo_recs b r in let? r := validate_member_bags u b ver r in let? r := validate_file_lookup b ver r in validate_aggregation_info b ver r)).
  { apply total_bind; [|apply total_bind; [|apply total_bind; [|apply total_bind; [|apply total_bind; [|apply total_bind; [|apply total_bind; [|apply total_bind; [|apply total_bind]]]]]]]].
    - unfold bag_validate. destruct (has_bits want ERROR); [|tot]. rewrite Hc. cbn [bind]. tot.
    - unfold validate_version. apply total_bind; [tot|]. destruct (od_get T_Version (b_info b)); [|tot]. destruct (truthy_val _); tot.
    - unfold validate_reference. apply total_bind; [tot|]. destruct (od_get T_Reference (b_info b)) as [y|]; [|tot]. destruct (truthy_val _); [|tot].
      apply total_bind; [tot|]. destruct (Hu (match last_of (vals y) with Some s => s | None => [] end)) as (sc & ne & ->). cbn [bind]. tot.
    - unfold validate_tag_directory. destruct (od_get T_TagDir (b_info b)) as [y|]; [|tot]. apply total_bind; [tot|]. destruct (last_nonempty (vals y)); tot.
    - unfold validate_head_version. rewrite Hx. apply total_bind; [tot|]. destruct (vals x); tot.
    - unfold validate_head_deprecates. destruct (od_get T_HeadDeprecates (b_info b)) as [y|]; [|tot]. rewrite Hx. cbv zeta. rewrite Lx. destruct v as [|v0 v]; [congruence|]. cbn [nonempty].
      apply total_bind; [tot|]. destruct (match vals y with s :: _ => nonempty s | [] => false end); tot.
    - unfold validate_baginfo_recs, recommended. cbv zeta.
      apply total_bind; [|apply total_bind]; (apply total_bind; [tot|]; match goal with |- total (fun r => if ?c then _ else _) => destruct c; tot end).
    - unfold validate_member_bags. rewrite X. cbn [bind]. apply total_bind; [tot|]. destruct (is_dir md (b_tree b)); [|tot]. unfold validate_members_file. cbv zeta.
      apply total_bind; [tot|]. destruct (read _ _) as [text|]; [|tot].
      destruct (members_total u (b_name b) (is_02 ver) (numbered_lines text) mstart Hu (Nb text)) as [s ->]. cbn [bind]. tot.
    - unfold validate_file_lookup. rewrite X. cbn [bind]. apply total_bind; [tot|]. destruct (is_dir md (b_tree b)); [|tot]. unfold validate_lookup_file. cbv zeta.
      apply total_bind; [tot|]. destruct (read _ _) as [text|]; [|tot].
      destruct (lookup_total b (is_02 ver) (numbered_lines text) {| ls_badfmt := []; ls_repl := []; ls_missing := []; ls_paths := [] |} (Nb text)) as [s ->]. cbn [bind].
      rewrite Dd. tot.
    - unfold validate_aggregation_info. rewrite X. cbn [bind]. change (sjoin md (U "aggregation-info.txt")) with (md ++ U "/aggregation-info.txt").
      destruct (_ || _ || negb _) eqn:G; [tot|]. apply orb_false_iff in G. destruct G as [_ G]. apply negb_false_iff in G. unfold exists_ in G.
      assert (R : exists cc, read (md ++ U "/aggregation-info.txt") (b_tree b) = Some cc).
      { rewrite Da, orb_false_r in G. unfold is_file in G. unfold read. destruct (od_get (md ++ _) (b_tree b)) as [[|cc]|]; try discriminate. eexists. reflexivity. }
      destruct R as [cc ->]. destruct (load_tags IoText cc) as [i|e] eqn:Lt; [tot|].
      assert (e = EBag).
      { unfold load_tags in Lt. destruct (parse_tags IoText (decode IoText cc)) as [l|e'] eqn:P; cbn [bind] in Lt; [discriminate|]. injection Lt as <-.
        unfold parse_tags in P. eapply parse_tag_errors; eauto. }
      subst e. tot. }
  exact (T (new_results target want CURRENT_VERSION)).
Qed.
Print Assumptions C77_partial.

Example C77_partial_case : validatable ex_urlparse ex_bad (U "multibag").
Proof.
  split; [eexists; reflexivity|]. split.
  { intros w. unfold ex_urlparse. destruct (split_on 58 w) as [|s [|s' l]]; eauto. }
  split; [exists (U "1"); split; [reflexivity|discriminate]|]. split; [left; split; reflexivity|]. split; reflexivity.
Qed.

(** ** C78: the version of the profile *)

(** A single value of Multibag-Version passes, whatever it is. *)
Theorem C78_refuted : forall u b target want r s,
  tag_values (b_info b) (U "Multibag-Version") = [s] -> s <> [] -> od_get (U "Multibag-Version") (b_info b) = Some (IStr s) ->
  head_validate u b target want = Ok r -> outcome (U "3-Version-val") r = [(ERROR, true)].
Proof.
  intros u b target want r s _ Ns E H. unfold head_validate, head_validate_into in H.
  assert (V : version_of (b_info b) = Some s) by (unfold version_of; change T_Version with (U "Multibag-Version"); rewrite E; reflexivity).
  rewrite V in H.
  apply bind_ok in H. destruct H as (r1 & H1 & H). apply bind_ok in H. destruct H as (r2 & H2 & H). apply bind_ok in H. destruct H as (r3 & H3 & H).
  apply bind_ok in H. destruct H as (r4 & H4 & H). apply bind_ok in H. destruct H as (r5 & H5 & H). apply bind_ok in H. destruct H as (r6 & H6 & H).
  apply bind_ok in H. destruct H as (r7 & H7 & H). apply bind_ok in H. destruct H as (r8 & H8 & H). apply bind_ok in H. destruct H as (r9 & H9 & H).
  apply emits_bag in H1. apply emits_reference in H3. apply emits_tagdir in H4. apply emits_headversion in H5.
  apply emits_deprecates in H6. apply emits_recs in H7. apply emits_members in H8. apply emits_lookup in H9. apply emits_aggregation in H.
  destruct H1 as (_ & _ & O1), H3 as (_ & _ & O3), H4 as (_ & _ & O4), H5 as (_ & _ & O5), H6 as (_ & _ & O6), H7 as (_ & _ & O7), H8 as (_ & _ & O8), H9 as (_ & _ & O9), H as (_ & _ & O10).
  rewrite O10, O9, O8, O7, O6, O5, O4, O3 by reflexivity. unfold validate_version in H2. change T_Version with (U "Multibag-Version") in H2. rewrite E in H2. cbv zeta in H2.
  apply bind_ok in H2. destruct H2 as (q1 & Q1 & H2). assert (Tr : truthy_val (Some (IStr s)) = true) by (destruct s; [congruence|reflexivity]). rewrite Tr in H2.
  apply bind_ok in H2. destruct H2 as (q2 & Q2 & H2). cbn [is_list] in H2. rewrite streq_refl in H2.
  apply (add_same (U "3-Version-val")) in H2; [exact H2|reflexivity|].
  apply rec_out in Q1. apply rec_out in Q2. destruct Q1 as [Q1 _], Q2 as [Q2 _]. rewrite Q2, Q1, O1 by reflexivity. reflexivity.
Qed.
Print Assumptions C78_refuted.

Definition ex_unknown : vbag := ex_head (U "mine") [(U "Multibag-Version", IStr (U "eleventy")); (U "Multibag-Head-Version", IStr (U "1"))] [U "mine"] [tabbed [U "data/a"; U "mine"]].
Example C78_refuted_case : tag_values (b_info ex_unknown) (U "Multibag-Version") = [U "eleventy"] /\
  head_validate ex_urlparse ex_unknown (U "target") PROB = Ok (ex_result ex_unknown) /\ ok (ex_result ex_unknown) = true.
Proof. computed. Qed.

(** ** C79: a bag that passes can be read *)

Definition plain_fields (line : pystr) : Prop := Forall (fun f => strip f = f) (split_on TAB (strip line)).

Lemma mapM_all {A B} (f : A -> res B) l : (forall x, In x l -> exists y, f x = Ok y) -> exists ys, mapM f l = Ok ys.
Proof.
  induction l as [|x l IH]; intros H; [eexists; reflexivity|]. destruct (H x (or_introl eq_refl)) as [y E]. destruct IH as [ys E']; [intros z I; apply H; right; exact I|].
  exists (y :: ys). cbn [mapM]. rewrite E, E'. reflexivity.
Qed.
Lemma mapM_names {A B} (f : A -> res B) (g : B -> pystr) (h : A -> pystr) l ys : (forall x y, In x l -> f x = Ok y -> g y = h x) -> mapM f l = Ok ys -> map g ys = map h l.
Proof.
  revert ys. induction l as [|x l IH]; intros ys H E; [injection E as <-; reflexivity|]. cbn [mapM] in E. apply bind_ok in E. destruct E as (y & Ey & E).
  apply bind_ok in E. destruct E as (t & Et & E). injection E as <-. cbn [map]. rewrite (H x y (or_introl eq_refl) Ey), (IH t); auto. intros z w I. apply H. right. exact I.
Qed.

Lemma parse_member_name line m : parse_member_03 line = Ok m -> exists rest, split_on TAB (strip line) = Tsv.m_name m :: rest.
Proof.
  unfold parse_member_03. destruct (split_on TAB (strip line)) as [|[|c n] flds]; [discriminate..|].
  destruct (match flds with [] => ([], None) | x :: t => let '(ini, lst) := unsnoc x t in if startswith lst [HASH] then (ini, Some (strip (lstrip_if (N.eqb HASH) lst))) else (flds, None) end) as [fl co].
  destruct (match fl with [] => ([], None) | u :: t => (t, Some u) end) as [fl' ur]. intros H. injection H as <-. eexists. reflexivity.
Qed.
Lemma first_piece line : nonblank line = true -> exists c n rest, split_on TAB (strip line) = (c :: n) :: rest /\ is_ws c = false.
Proof.
  unfold nonblank. intros H. destruct (strip_is_trimmed line) as [E|T]; [rewrite E in H; discriminate|]. destruct T as [(c & t & E & W) _]. rewrite E. cbn [split_on].
  destruct (c =? TAB) eqn:X; [apply N.eqb_eq in X; subst c; discriminate|]. destruct (split_on TAB t) as [|w ws]; [exists c, [], []|exists c, w, ws]; auto.
Qed.
Lemma parse_member_total line : nonblank line = true -> exists m, parse_member_03 line = Ok m.
Proof.
  intros H. destruct (first_piece line H) as (c & n & rest & E & _). unfold parse_member_03. rewrite E.
  repeat match goal with |- exists m, (let '(_, _) := ?x in _) = _ => destruct x end. eexists. reflexivity.
Qed.

(** The names in a member list are those that the validator sees, up to the
    white space around them. *)
Lemma names_parsed text : exists l, parse_file IoText parse_member_03 text = Ok l /\ names_listed false text = map (fun m => strip (Tsv.m_name m)) l.
Proof.
  destruct (mapM_all parse_member_03 (text_lines text)) as [l E].
  { intros line I. apply parse_member_total. apply filter_In in I. tauto. }
  exists l. split; [exact E|]. unfold names_listed. symmetry. eapply mapM_names; [|exact E].
  intros line m _ P. destruct (parse_member_name _ _ P) as [rest R]. unfold columns. rewrite R. reflexivity.
Qed.

(** A bag that passes, for version 0.3 or later by both accounts, has a member
    list that can be read; it ends with the bag itself, and no member is
    repeated -- provided that there is no white space around the fields. *)
Theorem C79_partial : forall u b target r md text,
  head_validate u b target PROB = Ok r -> ok r = true ->
  (tag_values (b_info b) (U "Multibag-Tag-Directory") = [] /\ md = U "multibag" \/ od_get (U "Multibag-Tag-Directory") (b_info b) = Some (IStr md) /\ md <> []) ->
  od_get (U "Multibag-Tag-Directory") (b_info b) <> Some (IList []) ->
  is_dir md (b_tree b) = true -> read (md ++ U "/member-bags.tsv") (b_tree b) = Some text ->
  old_profile b = false -> older_than_03 (profile_version (b_info b)) = false ->
  (forall line, In line (text_lines text) -> plain_fields line) ->
  exists l l', iter_member_bags (open_hb (b_name b) (b_tree b) (b_info b) IoText) = Ok l /\
    map (fun m => Tsv.m_name m) l = l' ++ [b_name b] /\ NoDup (map (fun m => Tsv.m_name m) l).
Proof.
  intros u b target r md text H K Md Ml D R Old Older P.
  assert (Md' : multibag_directory b md).
  { destruct Md as [[T ->]|[G Nm]]; [left; auto|]. right. split; [|exact Nm]. unfold last_value, tag_values. rewrite G. reflexivity. }
  destruct (C49_members _ _ _ _ _ _ text H Md' D) as (p1 & p2 & p3 & p4 & p5 & M & _ & _ & _ & O4 & O5); [rewrite Old; exact R|].
  destruct M as (_ & _ & _ & M4 & M5). rewrite Old in M4, M5.
  destruct (head_validate_parts _ _ _ _ _ H) as (_ & _ & _ & _ & _ & _ & _ & W & T). rewrite (outcome_ok r T), W in K.
  assert (p4 = true) by (destruct p4; [reflexivity|]; specialize (K (U "4.1-4") ERROR); rewrite O4 in K; discriminate (K (or_introl eq_refl))).
  assert (p5 = true) by (destruct p5; [reflexivity|]; specialize (K (U "4.1-5") WARN); rewrite O5 in K; discriminate (K (or_introl eq_refl))).
  subst p4 p5. destruct (proj1 M4 eq_refl) as [l' El]. pose proof (proj1 M5 eq_refl) as Nd.
  destruct (names_parsed text) as (l & Pl & Nl).
  assert (Nm : names_listed false text = map (fun m => Tsv.m_name m) l).
  { unfold names_listed. symmetry. eapply mapM_names; [|exact Pl]. intros line m I Pm. destruct (parse_member_name _ _ Pm) as [rest Rr].
    unfold columns. rewrite Rr. specialize (P line I). unfold plain_fields in P. rewrite Rr in P. inversion P as [|? ? E _]. cbn [map cell nth]. congruence. }
  exists l, l'. split; [|rewrite <- Nm; auto].
  unfold iter_member_bags. cbn [open_hb hb_info hb_tree hb_reader]. rewrite Older.
  assert (Tr : tag_dir_raw (b_info b) = Ok md).
  { unfold tag_dir_raw. change T_TagDir with (U "Multibag-Tag-Directory"). destruct Md as [[X ->]|[X _]]; [|rewrite X; reflexivity].
    unfold tag_values in X. destruct (od_get (U "Multibag-Tag-Directory") (b_info b)) as [[s|q]|]; [discriminate|subst q; congruence|reflexivity]. }
  rewrite Tr. cbn [bind]. change (sjoin md F_members) with (md ++ U "/member-bags.tsv"). rewrite R. exact Pl.
Qed.
Print Assumptions C79_partial.

Example C79_partial_case : ok (ex_result ex_good) = true /\ older_than_03 (profile_version (b_info ex_good)) = false /\
  (forall line, In line (text_lines (lines [U "other"; tabbed [U "mine"; U "ark:/1"]])) -> plain_fields line) /\
  bind (iter_member_bags (open_hb (b_name ex_good) (b_tree ex_good) (b_info ex_good) IoText)) (fun l => Ok (map (fun m => Tsv.m_name m) l)) = Ok [U "other"; U "mine"].
Proof.
  split; [vm_compute; reflexivity|]. split; [vm_compute; reflexivity|]. split; [|vm_compute; reflexivity].
  assert (E : text_lines (lines [U "other"; tabbed [U "mine"; U "ark:/1"]]) = [U "other" ++ [LF]; tabbed [U "mine"; U "ark:/1"] ++ [LF]]) by (vm_compute; reflexivity).
  intros line I. rewrite E in I. unfold plain_fields. destruct I as [<-|[<-|[]]]; [repeat constructor|]. repeat constructor.
Qed.

(** With white space around the name, the bag passes although it is not among
    the members that it lists. *)
Definition ex_padded : vbag := ex_head (U "mine") ex_head_info [tabbed [U "mine "; U "ark:/1"]] [tabbed [U "data/a"; U "mine"]].
Theorem C79_refuted : exists b u l, ok (ex_result b) = true /\ head_validate u b (U "target") PROB = Ok (ex_result b) /\
  iter_member_bags (open_hb (b_name b) (b_tree b) (b_info b) IoText) = Ok l /\ ~ In (b_name b) (map (fun m => Tsv.m_name m) l).
Proof.
  exists ex_padded, ex_urlparse. eexists. split; [vm_compute; reflexivity|]. split; [vm_compute; reflexivity|]. split; [vm_compute; reflexivity|].
  intros [I|[]]. discriminate.
Qed.
Print Assumptions C79_refuted.

(** A file lookup with an empty bag name passes, but cannot be read. *)
Definition ex_halfline : vbag := ex_head (U "mine") ex_head_info [U "mine"] [tabbed [U "data/a"; U "mine"]; U "data/s/b" ++ [TAB]].
Theorem C79_lookup_refuted : exists b u, ok (ex_result b) = true /\ head_validate u b (U "target") PROB = Ok (ex_result b) /\
  iter_file_lookup (open_hb (b_name b) (b_tree b) (b_info b) IoText) = Err EMultibag.
Proof. exists ex_halfline, ex_urlparse. computed. Qed.
Print Assumptions C79_lookup_refuted.

(** A bag for version 0.1 passes with the files of version 0.3, while its
    members are looked up in those of version 0.2. *)
Definition ex_older : vbag := ex_head (U "mine") [(U "Multibag-Version", IStr (U "0.1")); (U "Multibag-Head-Version", IStr (U "1"))] [U "mine"] [tabbed [U "data/a"; U "mine"]].
Theorem C79_version_refuted : exists b u, ok (ex_result b) = true /\ head_validate u b (U "target") PROB = Ok (ex_result b) /\
  iter_member_bags (open_hb (b_name b) (b_tree b) (b_info b) IoText) = Err EMissingFile.
Proof. exists ex_older, ex_urlparse. computed. Qed.
Print Assumptions C79_version_refuted.

(** ** C80: the location of the bag *)

Lemma names_nonempty text : ~ In [] (names_listed false text).
Proof.
  intros I. apply in_map_iff in I. destruct I as (line & E & I). apply filter_In in I. destruct I as [_ B]. destruct (first_piece line B) as (c & n & rest & R & W).
  unfold columns in E. rewrite R in E. cbn [map cell nth] in E. unfold strip in E. cbn [lstrip_if] in E. rewrite W in E.
  destruct (rstrip_if_split is_ws (c :: n)) as (w & Ew & F). rewrite E in Ew. cbn [app] in Ew. rewrite <- Ew in F. inversion F as [|? ? Wc _]. congruence.
Qed.

(** A location that ends with a slash gives a bag without a name, and then
    validation fails. *)
Theorem C80_refuted : forall u b dir target want r md text,
  b_name b = validator_name (dir ++ U "/") -> old_profile b = false -> N.land ERROR want <> 0 ->
  head_validate u b target want = Ok r ->
  multibag_directory b md -> is_dir md (b_tree b) = true -> read (md ++ U "/member-bags.tsv") (b_tree b) = Some text ->
  outcome (U "4.1-3") r = [(ERROR, false)] /\ ok r = false.
Proof.
  intros u b dir target want r md text Nm Old L H Md D R.
  assert (Ne : b_name b = []) by (rewrite Nm; unfold validator_name; apply basename_app; intros []).
  destruct (C49_members _ _ _ _ _ _ text H Md D) as (p1 & p2 & p3 & p4 & p5 & (_ & _ & M3 & _) & _ & _ & O3 & _); [rewrite Old; exact R|].
  rewrite Old, Ne in M3. assert (p3 = false) by (destruct p3; [exfalso; apply (names_nonempty text), M3; reflexivity|reflexivity]). subst p3.
  split; [exact O3|]. apply (failing _ _ _ _ _ (U "4.1-3") ERROR H); [rewrite O3; left; reflexivity|exact L].
Qed.
Print Assumptions C80_refuted.

Definition ex_slash : vbag := ex_head (validator_name (U "/bags/mine/")) ex_head_info [U "mine"] [tabbed [U "data/a"; U "mine"]].
Definition ex_no_slash : vbag := ex_head (validator_name (U "/bags/mine")) ex_head_info [U "mine"] [tabbed [U "data/a"; U "mine"]].
Example C80_refuted_case : ok (ex_result ex_no_slash) = true /\ ok (ex_result ex_slash) = false /\
  head_validate ex_urlparse ex_slash (U "target") PROB = Ok (ex_result ex_slash).
Proof. computed. Qed.

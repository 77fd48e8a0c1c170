(** What holds of some properties that do not hold in general (C50, C75, C78,
    C80) *)
Require Import String NArith PeanoNat Bool List Lia.
From Verif Require Import PyBase PyFacts Version Tsv TsvProofs Fs FsFacts HeadBag HeadBagProofs HeadBagProofs2 HeadBagProofs3 BagIt BagItProofs Split SplitApply SplitApplyProofs8 Props_SplitApply Props_SplitApply2 Restore RestoreProofs RestoreProofs2 RestoreProofs3 Props_Restore Props_Restore3 Validate ValidateProofs Props_Validate Props_Validate2.
Import ListNotations.
Open Scope N_scope.

(** ** C75 *)

(** Tags that the head bag has itself have the value that merging gives. *)
Theorem C75_partial : forall v bsize ro h loc skip ms bags text i dest' k,
  plain_algos v -> plain_size bsize -> hb_del h = None ->
  head_lists ro h = Ok (skip, ms) -> aggregation v h loc ms bags ->
  Forall (fun b => wf_tree (rb_tree b) /\ rb_loc b <> e_dest v) bags ->
  read (U "multibag/aggregation-info.txt") (hb_tree h) = None -> ~ deleted skip (U "bag-info.txt") ->
  read (U "bag-info.txt") (hb_tree h) = Some text -> load_tags Codecs text = Ok i ->
  restore v true true bsize ro h loc [] = Ok dest' ->
  ~ excepted k -> tag_values i k <> [] -> Forall (no_brk Codecs) (tag_values i k) ->
  forall r, exists d, tags_of r dest' = Ok d /\ tag_values d k = last_values (map rb_tree bags) k.
Proof.
  intros v bsize ro h loc skip ms bags text i dest' k S B Hd Hl Ha Wb Na Nd Rt Li H Ek Nk Fk r.
  pose proof Ha as (names & before & _ & _ & Eb).
  assert (Ls : info_source h skip bags text).
  { unfold info_source. rewrite Na. split; [exact Nd|]. rewrite Eb, map_app. unfold latest. rewrite fold_left_app. cbn [map fold_left rb_tree].
    apply read_get in Rt. rewrite Rt. reflexivity. }
  destruct (C74_tags v bsize ro h loc skip ms bags text dest' S B Hd Hl Ha Wb Ls H) as (i' & Li' & Q). rewrite Li in Li'. injection Li' as <-.
  destruct (Q r) as (d & Ld & V). exists d. split; [exact Ld|].
  assert (K1 : ~ In k multibag_tags).
  { intros Ik. apply Ek. right.
    destruct Ik as [<-|[<-|[<-|[<-|[<-|[]]]]]]; [exists (U "Version")|exists (U "Reference")|exists (U "Tag-Directory")|exists (U "Head-Version")|exists (U "Head-Deprecates")]; reflexivity. }
  destruct (V k K1) as [_ V']; [intros ->; apply Ek; left; cbn; tauto|intros ->; apply Ek; left; cbn; tauto|]. rewrite (V' Fk).
  unfold last_values. rewrite Eb, map_app, fold_left_app. cbn [map fold_left rb_tree]. unfold tags_of. rewrite Rt, Li.
  destruct (tag_values i k); [contradiction|reflexivity].
Qed.
Print Assumptions C75_partial.

Example C75_partial_case :
  read (U "multibag/aggregation-info.txt") (hb_tree ex_org_head) = None /\
  (exists text i, read (U "bag-info.txt") (hb_tree ex_org_head) = Some text /\ load_tags Codecs text = Ok i /\ tag_values i (U "Contact-Name") = [U "C"]) /\
  last_values (map rb_tree ex_org_bags) (U "Contact-Name") = [U "C"] /\
  match tags_of Codecs ex_org_restored with Ok d => tag_values d (U "Contact-Name") | Err _ => [] end = [U "C"].
Proof.
  split; [reflexivity|]. split; [|split; vm_compute; reflexivity].
  exists (match read (U "bag-info.txt") (hb_tree ex_org_head) with Some c => c | None => [] end),
    (got [] (load_tags Codecs (match read (U "bag-info.txt") (hb_tree ex_org_head) with Some c => c | None => [] end))).
  split; [reflexivity|]. split; vm_compute; reflexivity.
Qed.

(** ** C50 *)

(** The test of URLs passes if and only if every URL has a scheme and no
    host: URNs and the like. *)
Theorem C50_partial : forall u b target want r md text,
  head_validate u b target want = Ok r ->
  multibag_directory b md -> is_dir md (b_tree b) = true ->
  read (md ++ U "/" ++ (if old_profile b then U "group-members.txt" else U "member-bags.tsv")) (b_tree b) = Some text ->
  (outcome (U "4.1-2") r = [(ERROR, true)] <->
   forall line, In line (text_lines text) -> cell 1 (columns (old_profile b) line) <> [] ->
     exists scheme, u (cell 1 (columns (old_profile b) line)) = Ok (scheme, []) /\ scheme <> []) /\
  (outcome (U "4.1-2") r = [(ERROR, true)] \/ outcome (U "4.1-2") r = [(ERROR, false)]).
Proof.
  intros u b target want r md text H Md D R.
  destruct (C49_members _ _ _ _ _ _ _ H Md D R) as (p1 & p2 & p3 & p4 & p5 & (_ & M2 & _) & _ & O2 & _).
  rewrite O2. split; [|destruct p2; auto]. rewrite <- M2. split; [intros E; injection E; auto|intros ->; reflexivity].
Qed.
Print Assumptions C50_partial.

Example C50_partial_case :
  head_validate ex_urlparse ex_good (U "target") PROB = Ok (ex_result ex_good) /\
  multibag_directory ex_good (U "multibag") /\ is_dir (U "multibag") (b_tree ex_good) = true /\
  outcome (U "4.1-2") (ex_result ex_good) = [(ERROR, true)] /\
  outcome (U "4.1-2") (ex_result ex_url) = [(ERROR, false)].
Proof.
  split; [vm_compute; reflexivity|]. split; [left; split; [left|]; reflexivity|]. split; [reflexivity|]. split; vm_compute; reflexivity.
Qed.

(** ** C78 *)

(** A repeated version does not pass. *)
Theorem C78_partial : forall u b target want r l s,
  od_get (U "Multibag-Version") (b_info b) = Some (IList (l ++ [s])) ->
  head_validate u b target want = Ok r -> outcome (U "3-Version-val") r = [(ERROR, false)].
Proof.
  intros u b target want r l s E H. unfold head_validate, head_validate_into in H.
  apply bind_ok in H. destruct H as (r1 & H1 & H). apply bind_ok in H. destruct H as (r2 & H2 & H). apply bind_ok in H. destruct H as (r3 & H3 & H).
  apply bind_ok in H. destruct H as (r4 & H4 & H). apply bind_ok in H. destruct H as (r5 & H5 & H). apply bind_ok in H. destruct H as (r6 & H6 & H).
  apply bind_ok in H. destruct H as (r7 & H7 & H). apply bind_ok in H. destruct H as (r8 & H8 & H). apply bind_ok in H. destruct H as (r9 & H9 & H).
  apply emits_bag in H1. apply emits_reference in H3. apply emits_tagdir in H4. apply emits_headversion in H5.
  apply emits_deprecates in H6. apply emits_recs in H7. apply emits_members in H8. apply emits_lookup in H9. apply emits_aggregation in H.
  destruct H1 as (_ & _ & O1), H3 as (_ & _ & O3), H4 as (_ & _ & O4), H5 as (_ & _ & O5), H6 as (_ & _ & O6), H7 as (_ & _ & O7), H8 as (_ & _ & O8), H9 as (_ & _ & O9), H as (_ & _ & O10).
  rewrite O10, O9, O8, O7, O6, O5, O4, O3 by reflexivity. unfold validate_version in H2. change T_Version with (U "Multibag-Version") in H2. rewrite E in H2. cbv zeta in H2.
  apply bind_ok in H2. destruct H2 as (q1 & Q1 & H2). assert (Tr : truthy_val (Some (IList (l ++ [s]))) = true) by (destruct l; reflexivity). rewrite Tr in H2.
  apply bind_ok in H2. destruct H2 as (q2 & Q2 & H2). cbn [is_list] in H2.
  apply (add_same (U "3-Version-val")) in H2; [exact H2|reflexivity|].
  apply rec_out in Q1. apply rec_out in Q2. destruct Q1 as [Q1 _], Q2 as [Q2 _]. rewrite Q2, Q1, O1 by reflexivity. reflexivity.
Qed.
Print Assumptions C78_partial.

Definition ex_repeated : vbag :=
  ex_head (U "mine") [(U "Multibag-Version", IList [U "0.3"; U "0.4"]); (U "Multibag-Head-Version", IStr (U "1"))] [U "mine"] [tabbed [U "data/a"; U "mine"]].
Example C78_partial_case :
  od_get (U "Multibag-Version") (b_info ex_repeated) = Some (IList ([U "0.3"] ++ [U "0.4"])) /\
  head_validate ex_urlparse ex_repeated (U "target") PROB = Ok (ex_result ex_repeated) /\
  outcome (U "3-Version-val") (ex_result ex_repeated) = [(ERROR, false)].
Proof. split; [reflexivity|]. split; vm_compute; reflexivity. Qed.

(** ** C80 *)

(** Locations without a slash at the end give the same results. *)
Theorem C80_partial : forall u b1 b2 dir1 dir2 n target want,
  ~ In SLASH n -> b_name b1 = validator_name (dir1 ++ U "/" ++ n) -> b_name b2 = validator_name (dir2 ++ U "/" ++ n) ->
  b_tree b1 = b_tree b2 -> b_info b1 = b_info b2 -> b_plain b1 = b_plain b2 ->
  head_validate u b1 target want = head_validate u b2 target want.
Proof.
  intros u [n1 i1 t1 p1] [n2 i2 t2 p2] dir1 dir2 n target want Ns. cbn. unfold validator_name. intros -> -> -> -> ->.
  rewrite !basename_app by auto. reflexivity.
Qed.
Print Assumptions C80_partial.

Example C80_partial_case :
  ~ In SLASH (U "mine") /\ b_name ex_good = validator_name (U "/bags" ++ U "/" ++ U "mine") /\
  b_name ex_good = validator_name (U "../elsewhere" ++ U "/" ++ U "mine").
Proof. split; [|split; vm_compute; reflexivity]. vm_compute. intros H. decompose [or] H; try discriminate; assumption. Qed.

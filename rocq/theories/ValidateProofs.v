(** Lemmas about the validators *)
Require Import String NArith PeanoNat Bool List Lia.
From Verif Require Import PyBase PyFacts Version Tsv TsvProofs Fs FsFacts HeadBag BagIt Split SplitApply Validate.
Import ListNotations.
Open Scope N_scope.

(** ** Recording *)

(** What the tests called [lab] gave: their types, and whether they passed. *)
Definition outcome (lab : pystr) (r : vres) : list (N * bool) :=
  map (fun i => (i_type i, i_passed i)) (filter (fun i => streq lab (i_label i)) (applied ALL r)).

Lemma applied_all r : applied ALL r = vr_error r ++ vr_warn r ++ vr_rec r.
Proof. reflexivity. Qed.

Lemma add_want i ty p c r r' : add_issue i ty p c r = Ok r' -> vr_want r' = vr_want r.
Proof. unfold add_issue. destruct (ty =? ERROR); [|destruct (ty =? WARN); [|destruct (ty =? REC); [|discriminate]]]; intros H; inversion H; reflexivity. Qed.

Lemma add_other lab i ty p c r r' : streq lab (i_label i) = false -> add_issue i ty p c r = Ok r' -> outcome lab r' = outcome lab r.
Proof.
  intros L H. unfold outcome. rewrite !applied_all, !filter_app, !map_app. unfold add_issue in H.
  destruct (ty =? ERROR); [|destruct (ty =? WARN); [|destruct (ty =? REC); [|discriminate]]]; inversion H; subst r'; cbn [vr_error vr_warn vr_rec];
    rewrite filter_app, map_app; cbn [filter i_label]; rewrite L; cbn [map]; rewrite app_nil_r; reflexivity.
Qed.

Lemma add_same lab i ty p c r r' : streq lab (i_label i) = true -> outcome lab r = [] -> add_issue i ty p c r = Ok r' -> outcome lab r' = [(ty, p)].
Proof.
  intros L E H. unfold outcome in *. rewrite !applied_all, !filter_app, !map_app in *.
  apply app_eq_nil in E. destruct E as [E1 E]. apply app_eq_nil in E. destruct E as [E2 E3]. unfold add_issue in H.
  destruct (ty =? ERROR); [|destruct (ty =? WARN); [|destruct (ty =? REC); [|discriminate]]]; inversion H; subst r'; cbn [vr_error vr_warn vr_rec];
    rewrite filter_app, map_app, ?E1, ?E2, ?E3; cbn [filter i_label]; rewrite L; reflexivity.
Qed.

(** The three lists have issues of their type. *)
Definition typed (r : vres) : Prop :=
  Forall (fun i => i_type i = ERROR) (vr_error r) /\ Forall (fun i => i_type i = WARN) (vr_warn r) /\ Forall (fun i => i_type i = REC) (vr_rec r).

Lemma add_typed i ty p c r r' : add_issue i ty p c r = Ok r' -> typed r -> typed r'.
Proof.
  unfold add_issue, typed. intros H (T1 & T2 & T3).
  destruct (ty =? ERROR) eqn:E1; [|destruct (ty =? WARN) eqn:E2; [|destruct (ty =? REC) eqn:E3; [|discriminate]]]; inversion H; subst r'; cbn [vr_error vr_warn vr_rec].
  - apply N.eqb_eq in E1. split; [apply Forall_app; auto|auto].
  - apply N.eqb_eq in E2. split; [auto|]. split; [apply Forall_app; auto|auto].
  - apply N.eqb_eq in E3. split; [auto|]. split; [auto|apply Forall_app; auto].
Qed.

Lemma ok_all r : typed r -> (ok r = true <-> forall i, In i (applied ALL r) -> N.land (i_type i) (vr_want r) <> 0 -> i_passed i = true).
Proof.
  intros (T1 & T2 & T3). rewrite Forall_forall in T1, T2, T3. unfold ok, count_failed, failed.
  assert (X : forall i, In i (applied (vr_want r) r) <-> In i (applied ALL r) /\ N.land (i_type i) (vr_want r) <> 0).
  { intros i. rewrite applied_all. unfold applied, has_bits. rewrite !in_app_iff.
    assert (Y : forall T l, (forall x, In x l -> i_type x = T) -> In i (if negb (N.land T (vr_want r) =? 0) then l else []) <-> In i l /\ N.land (i_type i) (vr_want r) <> 0).
    { intros T l A. destruct (N.land T (vr_want r) =? 0) eqn:E; cbn [negb].
      - apply N.eqb_eq in E. split; [intros []|]. intros [I Z]. rewrite (A _ I) in Z. contradiction.
      - apply N.eqb_neq in E. split; [intros I; split; [exact I|rewrite (A _ I); exact E]|tauto]. }
    rewrite (Y ERROR _ T1), (Y WARN _ T2), (Y REC _ T3). tauto. }
  rewrite Nat.eqb_eq, length_zero_iff_nil. split.
  - intros E i I L. destruct (i_passed i) eqn:P; [reflexivity|]. exfalso.
    assert (J : In i (filter (fun i => negb (i_passed i)) (applied (vr_want r) r))) by (apply filter_In; rewrite P; split; [apply X; auto|reflexivity]).
    rewrite E in J. destruct J.
  - intros H. destruct (filter _ _) as [|i t] eqn:E; [reflexivity|]. exfalso.
    assert (J : In i (i :: t)) by (left; reflexivity). rewrite <- E in J. apply filter_In in J. destruct J as [J P]. apply X in J. rewrite (H i) in P by tauto. discriminate.
Qed.

Lemma outcome_In lab r ty p : In (ty, p) (outcome lab r) <-> exists i, In i (applied ALL r) /\ i_label i = lab /\ i_type i = ty /\ i_passed i = p.
Proof.
  unfold outcome. rewrite in_map_iff. split.
  - intros (i & E & I). apply filter_In in I. destruct I as [I L]. apply streq_eq in L. inversion E. exists i. auto.
  - intros (i & I & L & T & P). exists i. split; [congruence|]. apply filter_In. split; [exact I|]. rewrite L. apply streq_refl.
Qed.

(** A test adds results with the given labels only, and keeps the wanted types. *)
Definition emits (labs : list string) (f : vres -> res vres) : Prop :=
  forall r r', f r = Ok r' -> vr_want r' = vr_want r /\ (typed r -> typed r') /\
    forall lab, str_in lab (map U labs) = false -> outcome lab r' = outcome lab r.

Lemma emits_ok labs : emits labs (fun r => Ok r).
Proof. intros r r' H. inversion H; subst. auto. Qed.
Lemma emits_err labs e : emits labs (fun _ => Err e).
Proof. intros r r' H. discriminate. Qed.
Lemma emits_bind labs f (g : vres -> res vres) : emits labs f -> emits labs g -> emits labs (fun r => let? r := f r in g r).
Proof.
  intros F G r r' H. apply bind_ok in H. destruct H as (r1 & H1 & H2). destruct (F _ _ H1) as (W1 & T1 & O1). destruct (G _ _ H2) as (W2 & T2 & O2).
  split; [congruence|]. split; [auto|]. intros lab L. rewrite O2, O1; auto.
Qed.
Lemma emits_add labs lab spec ty p c : In lab labs -> emits labs (fun r => add_issue (mk_issue r (U lab) spec) ty p c r).
Proof.
  intros I r r' H. split; [apply (add_want _ _ _ _ _ _ H)|]. split; [apply (add_typed _ _ _ _ _ _ H)|]. intros l L. apply (add_other l) in H; [exact H|].
  cbn [mk_issue i_label]. destruct (streq l (U lab)) eqn:E; [|reflexivity]. apply streq_eq in E. subst l.
  exfalso. apply str_in_false in L. apply L. apply in_map. exact I.
Qed.
Lemma emits_rec labs lab spec ty p c : In lab labs -> emits labs (rec_issue ty lab spec p c).
Proof. intros I. exact (emits_add labs lab (U spec) ty p c I). Qed.
Lemma emits_sub labs labs' f : emits labs f -> (forall l, In l labs -> In l labs') -> emits labs' f.
Proof.
  intros F S r r' H. destruct (F _ _ H) as (W & T & O). split; [exact W|]. split; [exact T|]. intros lab L. apply O. apply str_in_false. intros I.
  apply str_in_false in L. apply L. apply in_map_iff in I. destruct I as (x & <- & I). apply in_map. auto.
Qed.

Ltac ins := cbn [In]; tauto.

Lemma emits_version b ver : emits ["3-Version"; "3-Version-val"]%string (validate_version b ver).
Proof.
  unfold validate_version. apply emits_bind; [apply emits_rec; ins|]. destruct (od_get T_Version (b_info b)) as [x|]; [|apply emits_ok].
  destruct (truthy_val (Some x)); [|apply emits_ok]. apply emits_bind; [apply emits_rec; ins|]. apply (emits_add _ "3-Version-val"); ins.
Qed.

Lemma emits_reference u b : emits ["3-Reference"; "3-Reference-val"]%string (validate_reference u b).
Proof.
  unfold validate_reference. apply emits_bind; [apply emits_rec; ins|]. destruct (od_get T_Reference (b_info b)) as [x|]; [|apply emits_ok].
  destruct (truthy_val (Some x)); [|apply emits_ok]. apply emits_bind; [apply emits_rec; ins|].
  destruct (u _) as [[s n]|e]; cbn [bind]; [apply emits_rec; ins|apply emits_err].
Qed.

Lemma emits_tagdir b : emits ["3-Tag-Directory"]%string (validate_tag_directory b).
Proof.
  unfold validate_tag_directory. destruct (od_get T_TagDir (b_info b)) as [x|]; [|apply emits_rec; ins].
  apply emits_bind; [apply emits_rec; ins|]. destruct (last_nonempty (vals x)); [|apply emits_ok].
  apply emits_bind; apply emits_rec; ins.
Qed.

Lemma emits_headversion b : emits ["3-Head-Version_nonempty"; "3-Head-Version_single"; "3-Head-Version"]%string (validate_head_version b).
Proof.
  unfold validate_head_version. destruct (od_get T_HeadVersion (b_info b)) as [x|]; [|apply emits_rec; ins].
  apply emits_bind; [apply emits_rec; ins|]. destruct (vals x); [apply emits_ok|apply emits_rec; ins].
Qed.

Lemma emits_deprecates b : emits ["3-Head-Deprecates_notempty"; "3-Head-Deprecates_format"; "3-Head-Deprecates_notselfdep"]%string (validate_head_deprecates b).
Proof.
  unfold validate_head_deprecates. destruct (od_get T_HeadDeprecates (b_info b)) as [x|]; [|apply emits_ok]. cbv zeta.
  destruct (nonempty _); [|apply emits_err]. apply emits_bind; [apply emits_rec; ins|].
  destruct (match vals x with s :: _ => nonempty s | [] => false end); [|apply emits_ok].
  apply emits_bind; [apply emits_rec; ins|]. apply emits_bind; apply emits_rec; ins.
Qed.

Lemma emits_recommended b el : emits ["3-2"]%string (recommended b el).
Proof.
  unfold recommended. cbv zeta. apply emits_bind; [apply (emits_add _ "3-2"); ins|].
  destruct (match od_get (U el) (b_info b) with Some (IStr s) => nonempty s | Some (IList l) => last_nonempty l | None => false end);
    [apply (emits_add _ "3-2"); ins|apply emits_ok].
Qed.
Lemma emits_recs b : emits ["3-2"]%string (validate_baginfo_recs b).
Proof. unfold validate_baginfo_recs. apply emits_bind; [apply emits_recommended|]. apply emits_bind; apply emits_recommended. Qed.

Lemma emits_const {A} labs (x : res A) (g : A -> vres -> res vres) :
  (forall a, x = Ok a -> emits labs (g a)) -> emits labs (fun r => let? a := x in g a r).
Proof. intros H. destruct x as [a|e]; cbn [bind]; [apply H; reflexivity|apply emits_err]. Qed.

Definition member_labels := ["3-Tag-Directory"; "4.0-1"; "4.1-1"; "4.1-2"; "4.1-3"; "4.1-4"; "4.1-5"]%string.
Definition lookup_labels := ["3-Tag-Directory"; "4.0-2"; "4.2-1"; "4.2-2"; "4.2-3"; "4.2-4"]%string.

Lemma emits_members u b ver : emits member_labels (validate_member_bags u b ver).
Proof.
  unfold validate_member_bags. apply emits_const. intros md _. apply emits_bind; [apply emits_rec; unfold member_labels; ins|].
  destruct (is_dir md (b_tree b)); [|apply emits_ok]. unfold validate_members_file. cbv zeta.
  apply emits_bind; [apply emits_rec; unfold member_labels; ins|]. destruct (read _ _) as [text|]; [|apply emits_ok].
  apply emits_const. intros s _. repeat (apply emits_bind; [apply emits_rec; unfold member_labels; ins|]). apply emits_rec; unfold member_labels; ins.
Qed.

Lemma emits_lookup b ver : emits lookup_labels (validate_file_lookup b ver).
Proof.
  unfold validate_file_lookup. apply emits_const. intros md _. apply emits_bind; [apply emits_rec; unfold lookup_labels; ins|].
  destruct (is_dir md (b_tree b)); [|apply emits_ok]. unfold validate_lookup_file. cbv zeta.
  apply emits_bind; [apply emits_rec; unfold lookup_labels; ins|]. destruct (read _ _) as [text|]; [|apply emits_ok].
  apply emits_const. intros s _. repeat (apply emits_bind; [apply emits_rec; unfold lookup_labels; ins|]).
  destruct (is_dir (U "data") (b_tree b)); [apply emits_rec; unfold lookup_labels; ins|apply emits_err].
Qed.

Lemma emits_aggregation b ver : emits ["4.4-1"]%string (validate_aggregation_info b ver).
Proof.
  unfold validate_aggregation_info. apply emits_const. intros md _. destruct (_ || _ || _); [apply emits_ok|].
  destruct (read _ _) as [c|]; [|apply emits_err]. destruct (load_tags IoText c) as [i|e]; [apply emits_rec; ins|].
  destruct e; try apply emits_err. apply emits_rec; ins.
Qed.

Lemma emits_bag b want : emits ["2-Bag"]%string (bag_validate b want).
Proof.
  unfold bag_validate. destruct (has_bits want ERROR); [|apply emits_ok]. apply emits_const. intros c _ r r' H.
  split; [apply (add_want _ _ _ _ _ _ H)|]. split; [apply (add_typed _ _ _ _ _ _ H)|]. intros lab L. apply (add_other lab) in H; [exact H|]. cbn [i_label].
  destruct (streq lab (U "2-Bag")) eqn:E; [|reflexivity]. apply streq_eq in E. subst lab. vm_compute in L. discriminate.
Qed.

Lemma outcome_new lab target want ver : outcome lab (new_results target want ver) = [].
Proof. reflexivity. Qed.

(** ** The whole of the head bag validator *)

Lemma head_validate_parts u b target want r : head_validate u b target want = Ok r ->
  let ver := version_of (b_info b) in
  exists r7 r8 r9,
    validate_member_bags u b ver r7 = Ok r8 /\ validate_file_lookup b ver r8 = Ok r9 /\
    validate_aggregation_info b ver r9 = Ok r /\
    (forall lab, str_in lab (map U ["2-Bag"; "3-Version"; "3-Version-val"; "3-Reference"; "3-Reference-val"; "3-Tag-Directory";
       "3-Head-Version_nonempty"; "3-Head-Version_single"; "3-Head-Version";
       "3-Head-Deprecates_notempty"; "3-Head-Deprecates_format"; "3-Head-Deprecates_notselfdep"; "3-2"]%string) = false -> outcome lab r7 = []) /\
    vr_want r = want /\ typed r.
Proof.
  intros H ver. unfold head_validate, head_validate_into in H. fold ver in H.
  apply bind_ok in H. destruct H as (r1 & H1 & H). apply bind_ok in H. destruct H as (r2 & H2 & H). apply bind_ok in H. destruct H as (r3 & H3 & H).
  apply bind_ok in H. destruct H as (r4 & H4 & H). apply bind_ok in H. destruct H as (r5 & H5 & H). apply bind_ok in H. destruct H as (r6 & H6 & H).
  apply bind_ok in H. destruct H as (r7 & H7 & H). apply bind_ok in H. destruct H as (r8 & H8 & H). apply bind_ok in H. destruct H as (r9 & H9 & H).
  exists r7, r8, r9. split; [exact H8|]. split; [exact H9|]. split; [exact H|].
  apply emits_bag in H1. apply emits_version in H2. apply emits_reference in H3. apply emits_tagdir in H4. apply emits_headversion in H5.
  apply emits_deprecates in H6. apply emits_recs in H7. apply emits_members in H8. apply emits_lookup in H9. apply emits_aggregation in H.
  destruct H1 as (W1 & T1 & O1), H2 as (W2 & T2 & O2), H3 as (W3 & T3 & O3), H4 as (W4 & T4 & O4), H5 as (W5 & T5 & O5), H6 as (W6 & T6 & O6), H7 as (W7 & T7 & O7), H8 as (W8 & T8 & _), H9 as (W9 & T9 & _), H as (W10 & T10 & _).
  split; [|split; [cbn [vr_want new_results] in W1; congruence|apply T10, T9, T8, T7, T6, T5, T4, T3, T2, T1; repeat split; constructor]].
  intros lab L.
  assert (X : forall l, (forall s, In s l -> In s ["2-Bag"; "3-Version"; "3-Version-val"; "3-Reference"; "3-Reference-val"; "3-Tag-Directory";
       "3-Head-Version_nonempty"; "3-Head-Version_single"; "3-Head-Version";
       "3-Head-Deprecates_notempty"; "3-Head-Deprecates_format"; "3-Head-Deprecates_notselfdep"; "3-2"]%string) -> str_in lab (map U l) = false).
  { intros l S. apply str_in_false. intros I. apply str_in_false in L. apply L. apply in_map_iff in I. destruct I as (s & <- & I). apply in_map. auto. }
  rewrite O7, O6, O5, O4, O3, O2, O1; [apply outcome_new|..]; apply X; cbn [In]; tauto.
Qed.

(** ** Loops *)

Lemma number_nth {A} (l : list A) : forall i k x, In (k, x) (number i l) -> exists n, k = i + 1 + N.of_nat n /\ nth_error l n = Some x.
Proof.
  induction l as [|y l IH]; intros i k x I; [destruct I|]. destruct I as [E|I].
  - inversion E; subst. exists 0%nat. split; [lia|reflexivity].
  - destruct (IH _ _ _ I) as (n & -> & E). exists (S n). split; [lia|exact E].
Qed.
Lemma number_snd {A} (l : list A) : forall i, map snd (number i l) = l.
Proof. induction l as [|x l IH]; intros i; [reflexivity|]. cbn. rewrite IH. reflexivity. Qed.

Lemma filter_map_snd {A B} (p : B -> bool) (l : list (A * B)) : map snd (filter (fun x => p (snd x)) l) = filter p (map snd l).
Proof. induction l as [|[a b] l IH]; [reflexivity|]. cbn. destruct (p b); cbn; rewrite IH; reflexivity. Qed.

Lemma numbered_snd text : map snd (numbered_lines text) = filter nonblank (pylines IoText text).
Proof. unfold numbered_lines. rewrite filter_map_snd, number_snd. reflexivity. Qed.

(** The first one of some fields. *)
Definition first_of (l : list pystr) : pystr := match l with f :: _ => f | [] => [] end.

Lemma split_on_ne c s : split_on c s <> [].
Proof. destruct s as [|x s]; [discriminate|]. cbn. destruct (x =? c); [discriminate|]. destruct (split_on c s); discriminate. Qed.

(** The names of a member list, line by line. *)
Definition listed (v02 : bool) (ls : list (N * pystr)) : list pystr := map (fun il => first_of (member_fields v02 (snd il))) ls.

Definition bad_url (u : pystr -> res (pystr * pystr)) (v02 : bool) (line : pystr) : bool :=
  match member_fields v02 line with
  | _ :: w :: _ => nonempty w && match u w with Ok (s, n) => negb (nonempty s) || nonempty n | Err _ => true end
  | _ => false
  end.
Definition long_line (v02 : bool) (line : pystr) : bool := v02 && Nat.ltb 2 (length (member_fields v02 line)).

Lemma member_line_ok u me v02 s il s' : member_line u me v02 s il = Ok s' ->
  let n := first_of (member_fields v02 (snd il)) in
  ms_badurl s' = (if bad_url u v02 (snd il) then ms_badurl s ++ [fst il] else ms_badurl s) /\
  ms_repl s' = (if str_in n (ms_found s) then ms_repl s ++ [fst il] else ms_repl s) /\
  ms_found s' = (if str_in n (ms_found s) then ms_found s else ms_found s ++ [n]) /\
  ms_foundme s' = ms_foundme s || streq n me /\ ms_last s' = Some n /\
  ms_badfmt s' = (if long_line v02 (snd il) then ms_badfmt s ++ [fst il] else ms_badfmt s).
Proof.
  intros H n. unfold member_line in H. unfold bad_url, long_line.
  destruct (member_fields v02 (snd il)) as [|f parts] eqn:E; [discriminate|]. cbv zeta in H. apply bind_ok in H. destruct H as (bu & Hb & H).
  inversion H; subst s'. cbn [ms_badurl ms_repl ms_found ms_foundme ms_last ms_badfmt]. subst n. cbn [first_of].
  split; [|auto 10]. destruct parts as [|w parts]; [inversion Hb; reflexivity|]. destruct (nonempty w); [|inversion Hb; reflexivity].
  cbn [andb]. destruct (u w) as [[sc ne]|e]; cbn [bind] in Hb; [inversion Hb; reflexivity|discriminate].
Qed.

Lemma members_loop u me v02 ls : forall s s', foldM (member_line u me v02) ls s = Ok s' ->
  (ms_foundme s' = ms_foundme s || str_in me (listed v02 ls)) /\
  (ms_last s' = match rev (listed v02 ls) with n :: _ => Some n | [] => ms_last s end) /\
  (ms_badfmt s' = ms_badfmt s ++ map fst (filter (fun il => long_line v02 (snd il)) ls)) /\
  (ms_badurl s' = ms_badurl s ++ map fst (filter (fun il => bad_url u v02 (snd il)) ls)) /\
  ((forall n, In n (ms_found s') <-> In n (ms_found s) \/ In n (listed v02 ls))) /\
  (length (ms_repl s') = 0%nat <-> length (ms_repl s) = 0%nat /\ NoDup (listed v02 ls) /\ forall n, In n (listed v02 ls) -> ~ In n (ms_found s)).
Proof.
  induction ls as [|il ls IH]; intros s s' H.
  - inversion H; subst s'. cbn [listed map rev str_in filter In]. rewrite orb_false_r, !app_nil_r.
    split; [reflexivity|]. split; [reflexivity|]. split; [reflexivity|]. split; [reflexivity|]. split; [tauto|].
    split; [intros E; split; [exact E|split; [constructor|tauto]]|tauto].
  - cbn [foldM] in H. apply bind_ok in H. destruct H as (s1 & H1 & H). apply member_line_ok in H1. cbv zeta in H1.
    destruct H1 as (B1 & R1 & F1 & M1 & L1 & Q1). destruct (IH _ _ H) as (M2 & L2 & Q2 & B2 & F2 & R2). clear IH.
    set (n := first_of (member_fields v02 (snd il))) in *. change (listed v02 (il :: ls)) with (n :: listed v02 ls).
    split; [|split; [|split; [|split; [|split]]]].
    + rewrite M2, M1. cbn [str_in]. rewrite <- orb_assoc. f_equal. f_equal. apply streq_sym.
    + rewrite L2. cbn [rev]. destruct (rev (listed v02 ls)) as [|x t]; [exact L1|reflexivity].
    + rewrite Q2, Q1. cbn [filter]. destruct (long_line v02 (snd il)); [rewrite <- app_assoc; reflexivity|reflexivity].
    + rewrite B2, B1. cbn [filter]. destruct (bad_url u v02 (snd il)); [rewrite <- app_assoc; reflexivity|reflexivity].
    + intros x. rewrite F2, F1. cbn [In]. destruct (str_in n (ms_found s)) eqn:E.
      * apply str_in_iff in E. split; [intuition|]. intros [X|[<-|X]]; auto.
      * rewrite in_app_iff. cbn [In]. intuition.
    + rewrite R2, R1, F1. destruct (str_in n (ms_found s)) eqn:E.
      * split; [rewrite app_length; cbn; lia|]. intros (_ & _ & X). exfalso. apply (X n); [left; reflexivity|]. apply str_in_iff. exact E.
      * apply str_in_false in E. split.
        { intros (A & D & X). split; [exact A|]. split.
          - constructor; [|exact D]. intros I. apply (X n I). apply in_or_app. right. left. reflexivity.
          - intros y [<-|I]; [exact E|]. intros J. apply (X y I). apply in_or_app. auto. }
        { intros (A & D & X). inversion D as [|? ? Nn D']; subst. split; [exact A|]. split; [exact D'|]. intros y I J.
          apply in_app_or in J. destruct J as [J|[<-|[]]]; [apply (X y); [right; exact I|exact J]|contradiction]. }
Qed.

(** The loop over the file lookup. *)
Definition missing_own (b : vbag) (v02 : bool) (line : pystr) : bool :=
  match lookup_fields v02 line with
  | p :: n :: _ => streq n (b_name b) && negb (is_file p (b_tree b))
  | _ => false
  end.
Definition listed_paths (v02 : bool) (ls : list (N * pystr)) : list pystr := map (fun il => first_of (lookup_fields v02 (snd il))) ls.

Lemma lookup_line_ok b v02 s il s' : lookup_line b v02 s il = Ok s' ->
  let p := first_of (lookup_fields v02 (snd il)) in
  ls_badfmt s' = (if Nat.eqb (length (lookup_fields v02 (snd il))) 2 then ls_badfmt s else ls_badfmt s ++ [fst il]) /\
  ls_missing s' = (if missing_own b v02 (snd il) then ls_missing s ++ [fst il] else ls_missing s) /\
  ls_repl s' = (if str_in p (ls_paths s) then ls_repl s ++ [fst il] else ls_repl s) /\
  ls_paths s' = (if str_in p (ls_paths s) then ls_paths s else ls_paths s ++ [p]).
Proof.
  intros H p. unfold lookup_line in H. subst p. unfold missing_own.
  destruct (lookup_fields v02 (snd il)) as [|p rest]; [discriminate|]. inversion H; subst s'. cbn [ls_badfmt ls_repl ls_missing ls_paths first_of].
  split; [|split; [|auto]].
  - cbn [length]. destruct rest as [|? [|? ?]]; reflexivity.
  - destruct rest; reflexivity.
Qed.

Lemma lookup_loop b v02 ls : forall s s', foldM (lookup_line b v02) ls s = Ok s' ->
  (ls_badfmt s' = ls_badfmt s ++ map fst (filter (fun il => negb (Nat.eqb (length (lookup_fields v02 (snd il))) 2)) ls)) /\
  (ls_missing s' = ls_missing s ++ map fst (filter (fun il => missing_own b v02 (snd il)) ls)) /\
  (forall p, In p (ls_paths s') <-> In p (ls_paths s) \/ In p (listed_paths v02 ls)) /\
  (length (ls_repl s') = 0%nat <-> length (ls_repl s) = 0%nat /\ NoDup (listed_paths v02 ls) /\
     forall n, In n (listed_paths v02 ls) -> ~ In n (ls_paths s)).
Proof.
  induction ls as [|il ls IH]; intros s s' H.
  - inversion H; subst s'. cbn [filter listed_paths map In]. rewrite !app_nil_r.
    split; [reflexivity|]. split; [reflexivity|]. split; [tauto|].
    split; [intros E; split; [exact E|split; [constructor|tauto]]|tauto].
  - cbn [foldM] in H. apply bind_ok in H. destruct H as (s1 & H1 & H). destruct (IH _ _ H) as (B2 & M2 & P2 & R2). clear IH.
    apply lookup_line_ok in H1. cbv zeta in H1. destruct H1 as (B1 & M1 & R1 & P1).
    set (p := first_of (lookup_fields v02 (snd il))) in *. change (listed_paths v02 (il :: ls)) with (p :: listed_paths v02 ls).
    cbn [filter]. split; [|split; [|split]].
    + rewrite B2, B1. destruct (Nat.eqb _ 2); cbn [negb map]; [reflexivity|rewrite <- app_assoc; reflexivity].
    + rewrite M2, M1. destruct (missing_own b v02 (snd il)); cbn [map]; [rewrite <- app_assoc; reflexivity|reflexivity].
    + intros x. rewrite P2, P1. cbn [In]. destruct (str_in p (ls_paths s)) eqn:Q.
      * apply str_in_iff in Q. split; [intuition|]. intros [X|[<-|X]]; auto.
      * rewrite in_app_iff. cbn [In]. intuition.
    + rewrite R2, R1, P1. destruct (str_in p (ls_paths s)) eqn:Q.
      * split; [rewrite app_length; cbn; lia|]. intros (_ & _ & X). exfalso. apply (X p); [left; reflexivity|]. apply str_in_iff. exact Q.
      * apply str_in_false in Q. split.
        { intros (A & D & X). split; [exact A|]. split.
          - constructor; [|exact D]. intros I. apply (X p I). apply in_or_app. right. left. reflexivity.
          - intros y [<-|I]; [exact Q|]. intros J. apply (X y I). apply in_or_app. auto. }
        { intros (A & D & X). inversion D as [|? ? Nn D']; subst. split; [exact A|]. split; [exact D'|]. intros y I J.
          apply in_app_or in J. destruct J as [J|[<-|[]]]; [apply (X y); [right; exact I|exact J]|contradiction]. }
Qed.

(** ** One recorded test *)

Lemma rec_out ty lab spec p c r r' : rec_issue ty lab spec p c r = Ok r' ->
  (forall l, streq l (U lab) = false -> outcome l r' = outcome l r) /\ (outcome (U lab) r = [] -> outcome (U lab) r' = [(ty, p)]).
Proof.
  intros H. split; [intros l L; exact (add_other l (mk_issue r (U lab) (U spec)) ty p c r r' L H)|].
  intros E. exact (add_same (U lab) (mk_issue r (U lab) (U spec)) ty p c r r' (streq_refl _) E H).
Qed.

Ltac recs H := let r := fresh "q" in let A := fresh "A" in apply bind_ok in H; destruct H as (r & A & H); apply rec_out in A; destruct A.
Ltac others := repeat match goal with
  | O : forall l, streq l (U ?a) = false -> outcome l ?r = _ |- context [outcome ?lab ?r] => rewrite (O lab) by (vm_compute; reflexivity)
  end.

Lemma members_outcomes u b ver r r' md text :
  validate_member_bags u b ver r = Ok r' -> multibag_dir b = Ok md -> is_dir md (b_tree b) = true ->
  read (sjoin md (if is_02 ver then U "group-members.txt" else F_members)) (b_tree b) = Some text ->
  (forall lab, In lab ["4.1-1"; "4.1-2"; "4.1-3"; "4.1-4"; "4.1-5"]%string -> outcome (U lab) r = []) ->
  exists s, foldM (member_line u (b_name b) (is_02 ver)) (numbered_lines text) mstart = Ok s /\
    outcome (U "4.1-1") r' = [(ERROR, Nat.eqb (length (ms_badfmt s)) 0)] /\
    outcome (U "4.1-2") r' = [(ERROR, Nat.eqb (length (ms_badurl s)) 0)] /\
    outcome (U "4.1-3") r' = [(ERROR, ms_foundme s)] /\
    outcome (U "4.1-4") r' = [(ERROR, match ms_last s with Some n => streq n (b_name b) | None => false end)] /\
    outcome (U "4.1-5") r' = [(WARN, Nat.eqb (length (ms_repl s)) 0)].
Proof.
  intros H Md D R O. unfold validate_member_bags in H. rewrite Md in H. cbn [bind] in H. recs H. rewrite D in H.
  unfold validate_members_file in H. cbv zeta in H. recs H. rewrite R in H. apply bind_ok in H. destruct H as (s & Hs & H). exists s. split; [exact Hs|].
  recs H. recs H. recs H. recs H. apply rec_out in H. destruct H as [Hy Hz].
  repeat split.
  - others. match goal with X : outcome (U "4.1-1") _ = [] -> _ |- _ => rewrite X; [reflexivity|] end. others. apply O; ins.
  - others. match goal with X : outcome (U "4.1-2") _ = [] -> _ |- _ => rewrite X; [reflexivity|] end. others. apply O; ins.
  - others. match goal with X : outcome (U "4.1-3") _ = [] -> _ |- _ => rewrite X; [reflexivity|] end. others. apply O; ins.
  - others. match goal with X : outcome (U "4.1-4") _ = [] -> _ |- _ => rewrite X; [reflexivity|] end. others. apply O; ins.
  - others. match goal with X : outcome (U "4.1-5") _ = [] -> _ |- _ => rewrite X; [reflexivity|] end. others. apply O; ins.
Qed.

Lemma lookup_outcomes b ver r r' md text :
  validate_file_lookup b ver r = Ok r' -> multibag_dir b = Ok md -> is_dir md (b_tree b) = true ->
  read (sjoin md (if is_02 ver then U "group-directory.txt" else F_lookup)) (b_tree b) = Some text ->
  (forall lab, In lab ["4.2-1"; "4.2-2"; "4.2-3"; "4.2-4"]%string -> outcome (U lab) r = []) ->
  exists s, foldM (lookup_line b (is_02 ver)) (numbered_lines text) {| ls_badfmt := []; ls_repl := []; ls_missing := []; ls_paths := [] |} = Ok s /\
    outcome (U "4.2-1") r' = [(ERROR, Nat.eqb (length (ls_badfmt s)) 0)] /\
    outcome (U "4.2-2") r' = [(ERROR, Nat.eqb (length (ls_missing s)) 0)] /\
    outcome (U "4.2-3") r' = [(WARN, Nat.eqb (length (ls_repl s)) 0)] /\
    outcome (U "4.2-4") r' = [(REC, Nat.eqb (length (filter (fun p => negb (str_in p (ls_paths s))) (expected_files (b_tree b)))) 0)].
Proof.
  intros H Md D R O. unfold validate_file_lookup in H. rewrite Md in H. cbn [bind] in H. recs H. rewrite D in H.
  unfold validate_lookup_file in H. cbv zeta in H. recs H. rewrite R in H. apply bind_ok in H. destruct H as (s & Hs & H). exists s. split; [exact Hs|].
  recs H. recs H. recs H. destruct (is_dir (U "data") (b_tree b)); [|discriminate]. apply rec_out in H. destruct H as [Hy Hz].
  repeat split.
  - others. match goal with X : outcome (U "4.2-1") _ = [] -> _ |- _ => rewrite X; [reflexivity|] end. others. apply O; ins.
  - others. match goal with X : outcome (U "4.2-2") _ = [] -> _ |- _ => rewrite X; [reflexivity|] end. others. apply O; ins.
  - others. match goal with X : outcome (U "4.2-3") _ = [] -> _ |- _ => rewrite X; [reflexivity|] end. others. apply O; ins.
  - others. match goal with X : outcome (U "4.2-4") _ = [] -> _ |- _ => rewrite X; [reflexivity|] end. others. apply O; ins.
Qed.

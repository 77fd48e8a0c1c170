(** The size that a bag declares is the size that it has (C111) *)
Require Import String NArith ZArith QArith Qabs PeanoNat Bool List Lia.
From Verif Require Import PyBase PyFacts Version Tsv TsvProofs Fs FsFacts HeadBag HeadBagProofs HeadBagProofs2 HeadBagProofs3 BagIt BagItProofs BagItProofs2 Split SplitApply SplitApplyProofs SplitApplyProofs5 SplitApplyProofs8 RestoreProofs4 Restore RestoreProofs RestoreProofs2 RestoreProofs3 RestoreProofs6 Props_SplitApply Props_Restore Props_Restore3 Amend AmendProofs AmendProofs2 AmendProofs3 SingleProofs SaveValidProofs Props_BagValid2 Props_BagValid4 Props_Amend Props_Single Props_AmendValid FormatBytes Props_Size BagSize BagSizeProofs.
Import ListNotations.
Open Scope N_scope.

(** ** Specification *)

(** The text is a number and a unit that mean a size of [n] bytes, up to 0.05%
    and [slack] bytes. *)
Definition says (n slack : N) (text : pystr) : Prop := exists s v o prefix,
  text = s ++ U " " ++ prefix ++ U "B" /\
  In (o, prefix) [(0%nat, U ""); (1%nat, U "k"); (2%nat, U "M"); (3%nat, U "G"); (4%nat, U "T")] /\
  numeral s = Some v /\
  (Qabs (v * inject_Z (1000 ^ Z.of_nat o) - inject_Z (Z.of_N n)) <=
   inject_Z (Z.of_N n) * (5 # 10000) + inject_Z (Z.of_N slack))%Q.

(** The bag has the one tag Bag-Size [text], however it is read. *)
Definition has_size_tag (t : tree) (text : pystr) : Prop :=
  forall r, exists i, tags_of r t = Ok i /\ tag_values i (U "Bag-Size") = [text].

(** ** Proofs *)

Lemma size_text_says m n d text : size_text m text -> m <= n + d -> n <= m + d -> d <= 2000 -> says n (d + 1) text.
Proof.
  intros (s & v & o & prefix & E & (P & _) & V & Q) H1 H2 H3. exists s, v, o, prefix. split; [exact E|]. split; [exact P|]. split; [exact V|].
  set (x := (v * inject_Z (1000 ^ Z.of_nat o))%Q) in *. clearbody x. apply Qabs_Qle_condition in Q. apply Qabs_Qle_condition.
  assert (A1 : (inject_Z (Z.of_N m) <= inject_Z (Z.of_N n) + inject_Z (Z.of_N d))%Q) by (rewrite <- inject_Z_plus, <- Zle_Qle; lia).
  assert (A2 : (inject_Z (Z.of_N n) <= inject_Z (Z.of_N m) + inject_Z (Z.of_N d))%Q) by (rewrite <- inject_Z_plus, <- Zle_Qle; lia).
  assert (A3 : (inject_Z (Z.of_N d) <= inject_Z 2000)%Q) by (rewrite <- Zle_Qle; lia).
  rewrite N2Z.inj_add, inject_Z_plus. change (inject_Z 2000) with (2000 # 1)%Q in A3. change (inject_Z (Z.of_N 1)) with (1 # 1)%Q.
  set (mq := inject_Z (Z.of_N m)) in *. set (nq := inject_Z (Z.of_N n)) in *. set (dq := inject_Z (Z.of_N d)) in *. clearbody mq nq dq.
  assert (B : (mq * (5 # 10000) <= nq * (5 # 10000) + (1 # 1))%Q).
  { apply Qle_trans with ((nq + dq) * (5 # 10000))%Q; [apply Qmult_le_compat_r; [exact A1|discriminate]|].
    rewrite Qmult_plus_distr_l. apply Qplus_le_compat; [apply Qle_refl|].
    apply Qle_trans with ((2000 # 1) * (5 # 10000))%Q; [apply Qmult_le_compat_r; [exact A3|discriminate]|]. discriminate. }
  destruct Q as [Q1 Q2]. set (e := (mq * (5 # 10000))%Q) in *. set (f := (nq * (5 # 10000))%Q) in *. clearbody e f. clear A3.
  destruct x as [x1 x2], mq as [m1 m2], nq as [n1 n2], dq as [d1 d2], e as [e1 e2], f as [f1 f2]. split.
  - apply Qle_trans with ((m1 # m2) - (e1 # e2) - (n1 # n2))%Q.
    + apply Qle_trans with ((m1 # m2) - ((f1 # f2) + (1 # 1)) - (n1 # n2))%Q.
      * apply Qle_minus_iff. apply Qle_minus_iff in A2. setoid_replace ((m1 # m2) - ((f1 # f2) + (1 # 1)) - (n1 # n2) + - - ((f1 # f2) + ((d1 # d2) + (1 # 1))))%Q with ((m1 # m2) + (d1 # d2) + - (n1 # n2))%Q by ring. exact A2.
      * apply Qle_minus_iff. apply Qle_minus_iff in B. setoid_replace ((m1 # m2) - (e1 # e2) - (n1 # n2) + - ((m1 # m2) - ((f1 # f2) + (1 # 1)) - (n1 # n2)))%Q with ((f1 # f2) + (1 # 1) + - (e1 # e2))%Q by ring. exact B.
    + apply Qle_minus_iff. apply Qle_minus_iff in Q1. setoid_replace ((x1 # x2) - (n1 # n2) + - ((m1 # m2) - (e1 # e2) - (n1 # n2)))%Q with ((x1 # x2) - (m1 # m2) + - - (e1 # e2))%Q by ring. exact Q1.
  - apply Qle_trans with ((m1 # m2) + (e1 # e2) - (n1 # n2))%Q.
    + apply Qle_minus_iff. apply Qle_minus_iff in Q2. setoid_replace ((m1 # m2) + (e1 # e2) - (n1 # n2) + - ((x1 # x2) - (n1 # n2)))%Q with ((e1 # e2) + - ((x1 # x2) - (m1 # m2)))%Q by ring. exact Q2.
    + apply Qle_trans with ((m1 # m2) + ((f1 # f2) + (1 # 1)) - (n1 # n2))%Q.
      * apply Qle_minus_iff. apply Qle_minus_iff in B. setoid_replace ((m1 # m2) + ((f1 # f2) + (1 # 1)) - (n1 # n2) + - ((m1 # m2) + (e1 # e2) - (n1 # n2)))%Q with ((f1 # f2) + (1 # 1) + - (e1 # e2))%Q by ring. exact B.
      * apply Qle_minus_iff. apply Qle_minus_iff in A1. setoid_replace ((f1 # f2) + ((d1 # d2) + (1 # 1)) + - ((m1 # m2) + ((f1 # f2) + (1 # 1)) - (n1 # n2)))%Q with ((n1 # n2) + (d1 # d2) + - (m1 # m2))%Q by ring. exact A1.
Qed.

(** The line of the tag. *)
Lemma size_weight x : no_brk IoText x -> Forall (fun c => c < 128) x -> tag_weight (T_BagSize, IStr x) = 11 + N.of_nat (length x).
Proof.
  intros B F. unfold tag_weight. cbn [fst snd vals_of map items tags_text flat_map]. rewrite one_line_plain by exact B.
  unfold tag_line. cbn [fst snd]. rewrite !utf8_app, (utf8_ascii x F). change (utf8_len T_BagSize) with 8. change (utf8_len [COLON; SP]) with 2.
  change (utf8_len [LF]) with 1. change (utf8_len []) with 0. lia.
Qed.

Lemma format_plain p n : In p [3; 6]%nat -> no_brk Codecs (format_bytes p n) /\ trimmed (format_bytes p n).
Proof. intros I. exact (C59_plain p (fun _ => n) I []). Qed.

Lemma total_all t : total_size t = all_sizes t.
Proof. unfold total_size. apply total_sum. Qed.

(** The tag that was written last is read again. *)
Lemma tag_again i x t : info_ok Codecs i -> no_brk Codecs x -> trimmed x ->
  read F_baginfo t = Some (info_text (od_set T_BagSize (IStr x) i)) -> has_size_tag t x.
Proof.
  intros O Bx Tx R r.
  assert (O2 : info_ok Codecs (od_set T_BagSize (IStr x) i)).
  { apply info_ok_put; [exact O|apply lit_name; reflexivity|discriminate|]. constructor; [|constructor]. apply value_ok_plain. split; auto. }
  destruct (info_read r _ T_BagSize (IStr x) O2) as (d & L & V); [apply od_get_in; apply od_get_set_same|reflexivity|].
  exists d. split.
  - unfold tags_of. change (U "bag-info.txt") with F_baginfo. rewrite R. exact L.
  - rewrite V. unfold tag_values. change (U "Bag-Size") with T_BagSize. rewrite od_get_set_same. cbn [map].
    rewrite read_plain; [reflexivity|]. split; auto.
Qed.

(** Updating the tags of a head bag. *)
Lemma info_steps_size v algs version pv i t t2 : fixed_hash v -> NoDup (od_keys t) -> info_ok Codecs i ->
  tag_value_ok Codecs version -> tag_value_ok Codecs pv ->
  run_steps (info_steps v algs bag_size (Some version) pv i) t = Ok t2 -> total_size t2 < 999 * 10 ^ 12 ->
  exists text, has_size_tag t2 text /\ says (total_size t2) 12 text.
Proof.
  intros F D O Tv Tp H L. unfold info_steps in H. cbv zeta in H. set (u := update_info_tags (Some version) pv i) in *.
  assert (Ou : info_ok Codecs u) by (apply update_tags_ok; assumption).
  assert (Nu : od_get T_BagSize u = None).
  { unfold u, update_info_tags. cbv zeta. apply od_get_del_same. apply od_del_NoDup. pose proof (proj1 O) as D0.
    assert (Sd : forall k (w : ival) d, NoDup (od_keys d) -> NoDup (od_keys (od_setdefault k w d))).
    { intros k w d Hd. unfold od_setdefault. destruct (od_has k d); [exact Hd|apply od_set_NoDup; exact Hd]. }
    repeat first [exact D0 | apply od_set_NoDup | apply Sd |
      match goal with |- NoDup (od_keys (match ?x with Some _ => _ | None => _ end)) => destruct x
                    | |- NoDup (od_keys (if ?x then _ else _)) => destruct x end]. }
  rewrite run_app in H. apply bind_ok in H. destruct H as (t1 & H1 & H2).
  assert (H2' : run_steps (save_steps v algs (fun _ => od_set T_BagSize (IStr (bag_size t1)) u)) t1 = Ok t2) by exact H2.
  destruct (resaved v algs u T_BagSize (IStr (bag_size t1)) t t1 t2 F D H1 H2') as (_ & _ & _ & _ & R & S). rewrite Nu in S.
  destruct C59_bag_size as [_ C]. specialize (C t1). rewrite total_all in *.
  set (n := all_sizes t1 + N.of_nat (length (U "Bag-Size: " ++ dec (all_sizes t1)))) in *.
  assert (En : bag_size t1 = format_bytes 3 n) by reflexivity.
  destruct (format_plain 3 n (or_introl eq_refl)) as [Bp Tp'].
  assert (B1 : all_sizes t1 < 999 * 10 ^ 12) by lia.
  assert (Ld : (1 <= length (dec (all_sizes t1)) <= 15)%nat).
  { pose proof (dec_nonempty (all_sizes t1)). pose proof (dec_short (all_sizes t1) 15 ltac:(lia)) as X.
    specialize (X ltac:(eapply N.lt_trans; [exact B1|vm_compute; reflexivity])). destruct (dec (all_sizes t1)); [congruence|]. cbn [length] in *. lia. }
  assert (Bn : n < 10 ^ 15).
  { unfold n. rewrite app_length. change (length (U "Bag-Size: ")) with 10%nat. change (10 ^ 15) with (1000 * 10 ^ 12). lia. }
  destruct (format_len 3 n (or_introl eq_refl) Bn) as [Lf Af]. rewrite En in S, R, C.
  rewrite size_weight in S; [|apply no_brk_any; exact Bp|exact Af].
  exists (format_bytes 3 n). split; [apply (tag_again u); assumption|].
  apply (size_text_says n (all_sizes t2) 11).
  - apply C. eapply N.lt_trans; [exact B1|vm_compute; reflexivity].
  - unfold n in *. rewrite app_length in *. change (length (U "Bag-Size: ")) with 10%nat in *. lia.
  - unfold n in *. rewrite app_length in *. change (length (U "Bag-Size: ")) with 10%nat in *. lia.
  - lia.
Qed.

(** ** C111 *)

(** The new head bag of an amendment declares its own size, as it is in the
    end, if a checksum is as long for one file as for another. *)
Theorem C111_amended : forall v algs repr ro old bags own inc exc version new new' old' name t td,
  fixed_hash v -> amendment bag_size repr old new name t td version ->
  amend v algs bag_size repr false ro old bags own inc exc version new = (new', Ok old') ->
  total_size (hb_tree new') < 999 * 10 ^ 12 ->
  exists text, has_size_tag (hb_tree new') text /\ says (total_size (hb_tree new')) 12 text.
Proof.
  intros v algs repr ro old bags own inc exc version new new' old' name t td Fh (B & (i & Ti & En & Td) & D & Tv & Nv & Vv & Fd) H L.
  destruct (amend_disk v algs bag_size repr ro old bags own inc exc version new new' old' name t td B) as
    (ms & t2 & h & d & _ & _ & R1 & _ & Eh & _ & _ & _ & _ & _ & _ & _ & _ & R2 & _); auto.
  { exists i. auto. }
  { subst new. exact Td. }
  rewrite app_assoc, run_app in R2. apply bind_ok in R2. destruct R2 as (t3 & R3 & R4).
  refine (info_steps_size v algs version CURRENT_VERSION (hb_info h) t3 (hb_tree new') Fh _ _ Vv (plain_valueb_ok CURRENT_VERSION eq_refl) R4 L).
  - assert (X : run_steps ([reset_step td; clear_step td] ++ members_steps td (last_ones (ms ++ map ab_member bags ++ [own name])) ++ lookup_steps td (hb_lu h)) t = Ok t3)
      by (rewrite run_app, R1; exact R3).
    refine (proj1 (run_only td algs _ _ t t3 D X)).
    apply Forall_app. split; [constructor; [apply reset_only|constructor; [apply clear_only|constructor]]|].
    apply Forall_app. split; [apply members_only|apply lookup_only].
  - rewrite Eh. apply init_info_ok; [|exact Fd]. subst new. exact (tags_of_ok _ _ _ Ti).
Qed.
Print Assumptions C111_amended.

(** So does a bag that is made a multibag of its own. *)
Theorem C111_single : forall v bagdir name t td version pid t',
  fixed_hash v -> plain_algos v -> convertible t td ->
  name <> [] -> ~ In SLASH name -> bagdir = name \/ (exists d, bagdir = d ++ SLASH :: name) ->
  version <> [] -> tag_value_ok Codecs version ->
  make_single_multibag v bag_size bagdir t version pid = Ok t' ->
  total_size t' < 999 * 10 ^ 12 ->
  exists text, has_size_tag t' text /\ says (total_size t') 12 text.
Proof.
  intros v bagdir name t td version pid t' Fh Pa (W & i & Ti & Td & Ov & Tv & Gt & Ot) N0 Ns Hb Nv Vv H L.
  destruct (name_at_path bagdir name N0 Ns Hb) as [Eb En].
  unfold make_single_multibag in H. apply bind_ok in H. destruct H as ([i' es] & Ho & H). apply bind_ok in H. destruct H as (algs & Ha & H).
  assert (i' = i).
  { unfold open_bag in Ho. destruct (read F_bagit t) as [x|]; [|discriminate]. apply bind_ok in Ho. destruct Ho as ([v97 v1'] & _ & Ho).
    apply bind_ok in Ho. destruct Ho as (i0 & Hi & Ho). apply bind_ok in Ho. destruct Ho as (e0 & _ & Ho). injection Ho as -> _.
    unfold tags_of in Ti. change (U "bag-info.txt") with F_baginfo in Ti. destruct (read F_baginfo t); congruence. }
  subst i'. rewrite En in H. destruct (convert v algs bag_size bagdir version pid (open_hb name t i Codecs)) as [h' [[]|e]] eqn:C; [|discriminate].
  injection H as <-.
  destruct (convert_run v algs bag_size bagdir version pid name t i h' td Pa (algorithms_in _ _ _ Ha) (proj1 C59_bag_size) Ti Td Ov Tv Gt Ot Nv Vv W N0 C)
    as (i2 & lu & d & [Et O2] & R & _).
  pose proof (wf_nodup _ (proj1 W)) as D. unfold single_steps in R. cbv zeta in R. rewrite Et in R.
  rewrite !app_assoc, run_app in R. apply bind_ok in R. destruct R as (t3 & R3 & R4).
  refine (info_steps_size v algs version CURRENT_VERSION i2 t3 (hb_tree h') Fh _ O2 Vv (plain_valueb_ok CURRENT_VERSION eq_refl) R4 L).
  refine (proj1 (run_only td algs _ _ t t3 D R3)).
  rewrite <- !app_assoc. apply Forall_app. split; [destruct (info_truthy T_Version i); [constructor|apply info_only]|].
  apply Forall_app. split; [apply members_only|]. apply Forall_app. split; [constructor; [apply clear_only|constructor]|apply lookup_only].
Qed.
Print Assumptions C111_single.

(** What the files and the directories of a bag take, if a directory takes
    [ds]. *)
Definition on_disk (ds : pystr -> N) (t : tree) : N := total_size t + fold_right N.add 0 (map ds (dirs t)).

(** A text of one line, in ASCII. *)
Definition ascii_line (x : pystr) : Prop := Forall (fun c => c < 128 /\ c <> LF /\ c <> CR) x.

Lemma ascii_parts x : ascii_line x -> Forall (fun c => c < 128) x /\ no_brk IoText x.
Proof.
  intros A. split; (eapply Forall_impl; [|exact A]); intros c (H1 & H2 & H3); [exact H1|].
  cbv beta. cbn [is_brk]. apply orb_false_iff. split; apply N.eqb_neq; assumption.
Qed.

(** A restored bag declares what its files and directories take in the end, if
    any tag Bag-Size that was there before is one line of ASCII. *)
Theorem C111_restored_partial : forall v rt ds ro h loc skip ms bags text i dest',
  fixed_hash v -> plain_algos v -> hb_del h = None ->
  head_lists ro h = Ok (skip, ms) -> aggregation v h loc ms bags ->
  Forall (fun b => wf_tree (rb_tree b) /\ rb_loc b <> e_dest v) bags ->
  info_source h skip bags text -> load_tags Codecs text = Ok i ->
  (forall x, od_get (U "Bag-Size") i = Some x -> exists s, x = IStr s /\ ascii_line s) ->
  restore v true rt (declared_size ds (od_get (U "Bag-Size") i)) ro h loc [] = Ok dest' ->
  on_disk ds dest' < 999 * 10 ^ 12 ->
  exists text', has_size_tag dest' text' /\ says (on_disk ds dest') 26 text'.
Proof.
  intros v rt ds ro h loc skip ms bags text i dest' Fh S Hd Hl Ha Wb Hs Li Ob H L.
  assert (W : Forall (fun b => wf_tree (rb_tree b)) bags) by (eapply Forall_impl; [|exact Wb]; intros b [? ?]; auto).
  assert (Lc : Forall (fun b => rb_loc b <> e_dest v) bags) by (eapply Forall_impl; [|exact Wb]; intros b [? ?]; auto).
  destruct (restored_end _ _ _ _ _ _ _ _ _ _ _ _ S Hd Hl Ha W wf_nil H) as (t & Wt & Hn & Q).
  assert (R0 : read F_baginfo t = Some text).
  { unfold read. rewrite Q. unfold info_source in Hs. destruct (read (U "multibag/aggregation-info.txt") (hb_tree h)) as [c|].
    - subst. reflexivity.
    - destruct Hs as [Nd La]. cbn [od_get]. rewrite deleted_iff in Nd. change (U "bag-info.txt") with F_baginfo in *.
      destruct (gone skip F_baginfo); [congruence|]. rewrite (contrib_away _ _ Lc), La. reflexivity. }
  clear Q H Hs. unfold finish in Hn. apply bind_ok in Hn. destruct Hn as ([info es] & Ho & H). apply bind_ok in H. destruct H as (algs & _ & H).
  assert (Ei : info = i).
  { unfold open_bag in Ho. destruct (read F_bagit t); [|discriminate]. apply bind_ok in Ho. destruct Ho as ([v97 v1] & _ & Ho).
    rewrite R0 in Ho. apply bind_ok in Ho. destruct Ho as (i' & E & Ho). apply bind_ok in Ho. destruct Ho as (e & _ & Ho).
    injection Ho as <- _. congruence. }
  subst info. pose proof (load_tags_ok _ _ _ Li) as Oi. change (U "Bag-Size") with T_BagSize in *.
  apply bind_ok in H. destruct H as ([i1 t0] & H1 & H).
  assert (X : NoDup (od_keys t0) /\ info_ok Codecs i1 /\ od_get T_BagSize i1 = od_get T_BagSize i).
  { destruct rt.
    - apply bind_ok in H1. destruct H1 as (tr & Hr & H1). cbv zeta in H1. apply bind_ok in H1. destruct H1 as (ts & Hsv & H1). injection H1 as <- <-.
      split; [|split].
      + apply (save_NoDup _ _ _ _ _ Hsv). unfold rmtree in Hr. destruct (od_get MULTIBAG t) as [[|]|]; try discriminate Hr. injection Hr as <-.
        unfold od_keys. apply wf_nodup in Wt. unfold od_keys in Wt. clear -Wt. induction t as [|[k n] t IH]; [constructor|]. cbn [map filter fst] in *.
        inversion Wt; subst. destruct (negb _); [|auto]. cbn [map fst]. constructor; [|auto].
        intros I0. apply H1. apply in_map_iff in I0. destruct I0 as (kv & <- & I0). apply filter_In in I0. apply in_map. apply I0.
      + apply (drop_tags_ok Codecs mb_keys). exact Oi.
      + transitivity (od_get T_BagSize (drop_tags mb_keys i)); [reflexivity|]. rewrite drop_tags_get by apply Oi. reflexivity.
    - injection H1 as <- <-. split; [apply wf_nodup; exact Wt|]. split; [exact Oi|reflexivity]. }
  destruct X as (D0 & O1 & G1).
  apply bind_ok in H. destruct H as ([sz nf] & C & H). cbv zeta in H. apply bind_ok in H. destruct H as (t1 & S1 & S2).
  set (ox := IStr (dec sz ++ [DOT] ++ dec nf)) in *. set (i2 := od_set T_OXUM ox i1) in *.
  assert (O2 : info_ok Codecs i2).
  { apply info_ok_set; [exact O1|apply tag_name_lit; [apply trimmedb_ok; reflexivity|reflexivity|reflexivity]|apply plain_is_folded; exact (oxum_value_no_brk Codecs (sz, nf))|].
    right. apply trimmed_app; apply dec_trimmed. }
  assert (G2 : od_get T_BagSize i2 = od_get T_BagSize i) by (unfold i2; rewrite od_get_set_other by discriminate; exact G1).
  set (ob := od_get T_BagSize i) in *. set (n := calc_bag_size ds ob t1) in *. change (declared_size ds ob t1) with (format_bytes 6 n) in *.
  apply (save_run v algs (fun _ => i2)) in S1. apply (save_run v algs (fun _ => od_set T_BagSize (IStr (format_bytes 6 n)) i2)) in S2.
  destruct (resaved v algs i2 T_BagSize (IStr (format_bytes 6 n)) t0 t1 dest' Fh D0 S1 S2) as (D1 & Ef & Ed & R1 & R2 & Sz).
  rewrite G2 in Sz. destruct (format_plain 6 n (or_intror (or_introl eq_refl))) as [Bp Tp].
  unfold on_disk in *. rewrite total_all in *. rewrite Ed in *. rewrite total_sum in *.
  assert (W1 : 1 <= all_sizes t1).
  { assert (Gx : od_get T_OXUM i2 = Some ox) by (unfold i2; apply od_get_set_same).
    pose proof (weight_le i2 T_OXUM ox t1 D1 R1 Gx) as Wx. assert (Y : 1 <= tag_weight (T_OXUM, ox)); [|lia].
    unfold tag_weight, ox. cbn [fst snd vals_of map items tags_text flat_map]. unfold tag_line. cbn [fst snd]. rewrite !utf8_app.
    change (utf8_len [LF]) with 1. lia. }
  set (dd := sum_N (map ds (dirs t1))) in *.
  assert (Big : 999 * 10 ^ 12 + 100 < 10 ^ 15) by (vm_compute; reflexivity).
  assert (Fin : n < 10 ^ 15 -> 1 <= n -> exists text', has_size_tag dest' text' /\
            (size_text n text' /\ text' = format_bytes 6 n /\ (3 <= length text' <= 14)%nat /\ tag_weight (T_BagSize, IStr text') = 11 + N.of_nat (length text'))).
  { intros Bn N1. destruct (format_len 6 n (or_intror (or_introl eq_refl)) Bn) as [Lf Af].
    exists (format_bytes 6 n). split; [apply (tag_again i2); assumption|]. split.
    - apply C59_close; [right; left; reflexivity|]. split; [exact N1|]. eapply N.lt_trans; [exact Bn|vm_compute; reflexivity].
    - split; [reflexivity|]. split; [lia|]. apply size_weight; [apply no_brk_any; exact Bp|exact Af]. }
  destruct ob as [x|] eqn:Eo.
  - destruct (Ob x eq_refl) as (s & -> & As). apply ascii_parts in As. destruct As as [A1 A2].
    rewrite size_weight in Sz by assumption.
    assert (Gs : od_get T_BagSize i2 = Some (IStr s)) by (rewrite G2; reflexivity).
    pose proof (weight_le i2 T_BagSize (IStr s) t1 D1 R1 Gs) as Ws. rewrite size_weight in Ws by assumption.
    unfold calc_bag_size in n. fold (all_sizes t1) in n. fold dd in n. cbv zeta in n. cbn [tag_len] in n.
    set (m := all_sizes t1 + dd - N.of_nat (length s)) in *.
    assert (Wn : 11 <= tag_weight (T_BagSize, IStr (format_bytes 6 n))).
    { unfold tag_weight. cbn [fst snd vals_of map items tags_text flat_map]. unfold tag_line. cbn [fst snd]. rewrite !utf8_app.
      change (utf8_len T_BagSize) with 8. change (utf8_len [COLON; SP]) with 2. change (utf8_len [LF]) with 1. lia. }
    assert (Bm : m < 10 ^ 15) by lia.
    destruct (format_len 6 m (or_intror (or_introl eq_refl)) Bm) as [Lm _].
    destruct Fin as (text' & Ht & St & Et & Lt & Wt'); [unfold n; lia|unfold n; lia|]. rewrite <- Et in Sz. rewrite Wt' in Sz.
    exists text'. split; [exact Ht|]. apply (size_text_says n _ 25); [exact St| | |lia]; unfold n, m in *; lia.
  - unfold calc_bag_size in n. fold (all_sizes t1) in n. fold dd in n. cbv zeta in n.
    destruct Fin as (text' & Ht & St & Et & Lt & Wt'); [unfold n; lia|unfold n; lia|]. rewrite <- Et in Sz. rewrite Wt' in Sz.
    exists text'. split; [exact Ht|]. apply (size_text_says n _ 25); [exact St| | |lia]; unfold n in *; lia.
Qed.
Print Assumptions C111_restored_partial.

(** Checksums of two letters, and the bags of C109 and C74. *)
Definition two_letters (a c : pystr) : pystr :=
  [97 + N.of_nat (length c) mod 16; 97 + N.of_nat (length c) / 16 mod 10].
Definition bz (v : env) : env :=
  {| e_algos := e_algos v; e_version := e_version v; e_danger := e_danger v; e_hash := two_letters; e_dest := e_dest v; e_find := e_find v |}.
Definition bz_amend : hb * res hb :=
  amend (bz va_env) (got [] (algorithms va_env va_tree)) bag_size ex_repr false false ex_amendee
    (map default_bag [ex_four]) (own_member None None []) SNone SNone (U "2") nv_new.
Definition bz_single : tree := got [] (make_single_multibag (bz va_env) bag_size (U "/bags/src") va_tree (U "1") None).
Definition dir_4096 (d : pystr) : N := 4096.
Definition bz_restored (ds : pystr -> N) : tree :=
  got [] (restore (bz ex_env) true true (declared_size ds (Some (IStr (U "3 MB")))) false ex_ag_head (U "/bags/two") []).

Lemma bz_fixed v : fixed_hash (bz v).
Proof.
  intros a c c'. cbn [e_hash bz]. rewrite !utf8_ascii; [reflexivity| |].
  all: unfold two_letters; repeat constructor.
  all: match goal with |- _ + ?x mod ?m < _ => pose proof (N.mod_lt x m ltac:(discriminate)); lia end.
Qed.

Lemma tag_twice t i x : tags_of Codecs t = Ok i -> tags_of IoText t = Ok i -> tag_values i (U "Bag-Size") = [x] -> has_size_tag t x.
Proof. intros A B E []; exists i; auto. Qed.

Example C111_case :
  fixed_hash (bz va_env) /\ amendment bag_size ex_repr ex_amendee nv_new (U "src") va_tree (U "multibag") (U "2") /\
  (exists old', snd bz_amend = Ok old') /\
  total_size (hb_tree (fst bz_amend)) = 940 /\ has_size_tag (hb_tree (fst bz_amend)) (U "937 B") /\
  plain_algos (bz va_env) /\ convertible va_tree (U "multibag") /\
  make_single_multibag (bz va_env) bag_size (U "/bags/src") va_tree (U "1") None = Ok bz_single /\
  total_size bz_single = 876 /\ has_size_tag bz_single (U "873 B").
Proof.
  pose proof C109_case as (_ & _ & _ & Pa & (_ & A2 & A3 & A4 & A5 & A6 & A7) & _ & _ & _ & _ & Cv & _).
  split; [apply bz_fixed|]. split.
  { split; [exact (proj1 C59_bag_size)|]. split; [exact A2|]. split; [exact A3|]. split; [exact A4|]. split; [exact A5|]. split; [exact A6|exact A7]. }
  split; [eexists; vm_compute; reflexivity|]. split; [vm_compute; reflexivity|].
  split; [apply (tag_twice _ (got [] (tags_of Codecs (hb_tree (fst bz_amend))))); vm_compute; reflexivity|].
  split; [exact Pa|]. split; [exact Cv|]. split; [vm_compute; reflexivity|]. split; [vm_compute; reflexivity|].
  apply (tag_twice _ (got [] (tags_of Codecs bz_single))); vm_compute; reflexivity.
Qed.

(** The directories are counted as well. Where a directory takes 4096 bytes, a
    restored bag with files of 211 bytes declares 8.403 kB, and not the size of
    its files. All that the theorem above asks for is given. *)
Theorem C111_restored_refuted : exists v ds h loc skip ms bags text i dest',
  fixed_hash v /\ plain_algos v /\ hb_del h = None /\
  head_lists false h = Ok (skip, ms) /\ aggregation v h loc ms bags /\
  Forall (fun b => wf_tree (rb_tree b) /\ rb_loc b <> e_dest v) bags /\
  info_source h skip bags text /\ load_tags Codecs text = Ok i /\
  od_get (U "Bag-Size") i = Some (IStr (U "3 MB")) /\ ascii_line (U "3 MB") /\
  restore v true true (declared_size ds (od_get (U "Bag-Size") i)) false h loc [] = Ok dest' /\
  on_disk ds dest' = 8403 /\ total_size dest' = 211 /\ has_size_tag dest' (U "8.403 kB").
Proof.
  exists (bz ex_env), dir_4096, ex_ag_head, (U "/bags/two"), ex_skip, ex_members, ex_ag_bags, ex_ag_text, (got [] (load_tags Codecs ex_ag_text)), (bz_restored dir_4096).
  pose proof C74_case as (C1 & C2 & (ns & bs & G1 & G2 & G3) & C4 & C5 & _).
  split; [apply bz_fixed|]. split; [exact (proj1 C33_case)|]. split; [exact C1|]. split; [exact C2|]. split; [exists ns, bs; auto|].
  split; [exact C4|]. split; [exact C5|]. split; [vm_compute; reflexivity|]. split; [vm_compute; reflexivity|].
  split; [repeat (constructor; [split; [reflexivity|split; discriminate]|]); constructor|].
  split; [vm_compute; reflexivity|]. split; [vm_compute; reflexivity|]. split; [vm_compute; reflexivity|].
  apply (tag_twice _ (got [] (tags_of Codecs (bz_restored dir_4096)))); vm_compute; reflexivity.
Qed.
Print Assumptions C111_restored_refuted.

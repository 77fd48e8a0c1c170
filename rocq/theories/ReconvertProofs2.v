(** Proofs about conversions that are made again, continued *)
Require Import String NArith PeanoNat Bool List Lia.
From Verif Require Import PyBase PyFacts Version Tsv TsvProofs Fs FsFacts HeadBag HeadBagProofs HeadBagProofs2 HeadBagProofs3 BagIt BagItProofs Split SplitApply SplitApplyProofs SplitApplyProofs5 SplitApplyProofs8 Restore RestoreProofs RestoreProofs2 RestoreProofs3 RestoreProofs4 RestoreProofs6 RestoreProofs7 RestoreProofs8 RestoreProofs9 RestoreProofs10 Props_Restore Props_Restore3 Amend AmendProofs AmendProofs2 AmendProofs3 AmendProofs4 Props_SplitApply Props_Amend SingleProofs AmendTotalProofs SingleTotalProofs AgainProofs AgainProofs2 Reconvert ReconvertProofs.
Import ListNotations.
Open Scope N_scope.

(** ** Tags, in memory and read again *)

Definition rest_tags (td : pystr) (i0 j : infod) : Prop :=
  AmendTotalProofs.no_bom j /\ tag_dir_raw j = Ok td /\ older_than_03 (profile_version j) = false /\ ReconvertProofs.alike i0 j.

Lemma about_plain l : Forall (tag_value_ok Codecs) l -> Forall (tag_value_ok Codecs) (with_about l).
Proof.
  intros F. unfold with_about. destruct (existsb _ _); [exact F|]. apply Forall_app. split; [exact F|]. constructor; [|constructor].
  apply plain_valueb_ok. vm_compute. reflexivity.
Qed.

Definition updated (bsize : tree -> pystr) (version : pystr) (i i2 : infod) : Prop :=
  i2 = update_info_tags (Some version) CURRENT_VERSION i \/
  exists x, i2 = od_set T_BagSize (IStr (bsize x)) (update_info_tags (Some version) CURRENT_VERSION i).

Section Tags.
Variables (bsize : tree -> pystr) (version td : pystr) (i0 i i2 : infod).
Hypothesis Bs : plain_size bsize.
Hypothesis Nv : version <> [].
Hypothesis Vv : tag_value_ok Codecs version.
Hypothesis Vt : tag_value_ok Codecs td.
Hypothesis Oi : info_ok Codecs i.
Hypothesis Ri : rest_tags td i0 i.
Hypothesis Up : updated bsize version i i2.

Let i1 := update_info_tags (Some version) CURRENT_VERSION i.

Lemma updated_get k : k <> T_BagSize -> od_get k i2 = od_get k i1.
Proof. intros K. destruct Up as [->|[x ->]]; [reflexivity|]. apply od_get_set_other. auto. Qed.

Lemma updated_dir : od_get T_TagDir i2 = match od_get T_TagDir i with Some x => Some x | None => Some (IStr (U "multibag")) end.
Proof.
  rewrite updated_get by discriminate. unfold i1. rewrite update_tags_get; [|exact Nv|apply Oi|discriminate|discriminate|discriminate].
  change (streq T_TagDir T_HeadVersion) with false. change (streq T_TagDir T_Version) with false. change (streq T_TagDir T_Reference) with false. rewrite streq_refl.
  reflexivity.
Qed.

Lemma updated_ok : info_ok Codecs i2.
Proof.
  assert (O1 : info_ok Codecs i1) by (apply update_tags_ok; auto; apply plain_valueb_ok; reflexivity).
  destruct Up as [->|[x ->]]; [exact O1|]. apply info_ok_put; [exact O1|apply lit_name; reflexivity|discriminate|].
  constructor; [|constructor]. destruct (Bs x). apply value_ok_plain. split; auto.
Qed.

Lemma updated_bom : AmendTotalProofs.no_bom i2.
Proof.
  assert (B1 : AmendTotalProofs.no_bom i1) by (apply no_bom_update; apply Ri).
  destruct Up as [->|[x ->]]; [exact B1|apply no_bom_set; [exact B1|discriminate]].
Qed.

Lemma updated_version : od_get T_Version i2 = Some (IStr CURRENT_VERSION).
Proof.
  rewrite updated_get by discriminate. unfold i1. rewrite update_tags_get; [|exact Nv|apply Oi|discriminate|discriminate|discriminate]. reflexivity.
Qed.

Lemma updated_others k : ~ In k info_keys -> tag_values i2 k = tag_values i k.
Proof.
  intros K1. assert (K3 := K1). unfold info_keys in K1. cbn [In] in K1. unfold tag_values. rewrite updated_get by (intros ->; tauto).
  unfold i1. rewrite update_tags_get; auto; try (intros ->; tauto); [|apply Oi].
  assert (X : forall a, a <> k -> streq k a = false) by (intros a Ha; apply streq_neq; auto).
  rewrite !X by (intros <-; tauto). destruct (od_get k i); reflexivity.
Qed.

Lemma updated_about : tag_values i2 T_ISD = with_about (tag_values i T_ISD).
Proof.
  unfold tag_values at 1. rewrite updated_get by discriminate. change (tag_values i1 T_ISD = with_about (tag_values i T_ISD)).
  apply update_tags_about; [exact Nv|apply Oi].
Qed.

Lemma current_new d : od_get T_Version d = Some (IStr CURRENT_VERSION) -> older_than_03 (profile_version d) = false.
Proof. intros E. unfold profile_version, required_info. rewrite E. vm_compute. reflexivity. Qed.

Lemma updated_rest : rest_tags td i0 i2.
Proof.
  destruct Ri as (Nb & Td & Ov & [A1 A2]). split; [exact updated_bom|]. split; [|split; [|split]].
  - unfold tag_dir_raw in *. rewrite updated_dir. destruct (od_get T_TagDir i) as [[|]|]; congruence.
  - apply current_new. exact updated_version.
  - intros k K F. rewrite updated_others by exact K. apply A1; auto.
  - intros F. destruct (A2 F) as [F1 E1]. rewrite updated_about. split; [apply about_plain; exact F1|]. rewrite about_once. exact E1.
Qed.

(** What is read after they were written. *)
Lemma updated_read : exists j, load_tags Codecs (info_text i2) = Ok j /\ rest_tags td i0 j.
Proof.
  destruct Ri as (Nb & Td & Ov & [A1 A2]).
  destruct (info_read Codecs i2 T_Version (IStr CURRENT_VERSION) updated_ok (od_get_in _ _ _ updated_version) eq_refl) as (j & L & V).
  exists j. split; [exact L|]. pose proof (load_shape _ _ _ L) as Sh. split; [|split; [|split; [|split]]].
  - intros k Ik. apply updated_bom. destruct (od_get k i2) eqn:E; [apply od_get_in in E; apply in_map_iff; eexists; split; [|exact E]; reflexivity|].
    exfalso. revert Ik. apply no_values; [exact Sh|]. rewrite V. unfold tag_values. rewrite E. reflexivity.
  - assert (T : od_get T_TagDir j = Some (IStr td)).
    { apply one_value; [exact Sh|]. rewrite V. unfold tag_values. rewrite updated_dir.
      unfold tag_dir_raw in Td. destruct (od_get T_TagDir i) as [[s|l]|]; inversion Td; subst; cbn [map]; rewrite read_plain; auto. }
    unfold tag_dir_raw. rewrite T. reflexivity.
  - apply current_new. apply one_value; [exact Sh|]. rewrite V. unfold tag_values. rewrite updated_version. cbn [map]. rewrite read_plain; [reflexivity|].
    apply plain_valueb_ok. reflexivity.
  - intros k K F. rewrite V, updated_others, A1 by assumption. apply read_plains. exact F.
  - intros F. destruct (A2 F) as [F1 E1]. rewrite V, updated_about. rewrite read_plains by (apply about_plain; exact F1).
    split; [apply about_plain; exact F1|]. rewrite about_once. exact E1.
Qed.
End Tags.

(** ** One attempt *)

Lemma rest_algorithms v algs t : algorithms v t = Ok algs -> incl algs (e_algos v).
Proof. intros H a A. exact (algorithms_in _ _ _ H a A). Qed.

Lemma open_bag_tags v t i es : open_bag v Codecs (e_dest v) t = Ok (i, es) -> tags_of Codecs t = Ok i.
Proof.
  intros Ho. unfold open_bag in Ho. destruct (read F_bagit t) as [c|]; [|discriminate]. apply bind_ok in Ho. destruct Ho as ([v97 v1] & _ & Ho).
  apply bind_ok in Ho. destruct Ho as (i0 & Hi & Ho). apply bind_ok in Ho. destruct Ho as (e0 & _ & Ho). injection Ho as -> _.
  unfold tags_of. change (U "bag-info.txt") with F_baginfo. destruct (read F_baginfo t); congruence.
Qed.

(** The tags in memory when the lists are written. *)
Lemma ensure_tags v algs bsize h h' : ensure_info v algs bsize h = (h', Ok tt) -> NoDup (od_keys (hb_info h)) ->
  (info_truthy T_Version (hb_info h) = true /\ h' = h) \/
  (info_truthy T_Version (hb_info h) = false /\ info_truthy T_Version (hb_info h') = true /\ updated bsize (U "1") (hb_info h) (hb_info h') /\
   hb_mem h' = hb_mem h).
Proof.
  intros H D. unfold ensure_info in H. destruct (info_truthy T_Version (hb_info h)); [left; injection H as <-; auto|]. right. split; [reflexivity|].
  apply update_info_inv in H. cbv zeta in H. destruct H as (t1 & t2 & S1 & S2 & ->). cbn [hb_info set_info set_tree hb_mem].
  split; [|split; [right; eexists; reflexivity|reflexivity]]. unfold info_truthy. rewrite od_get_set_other by discriminate.
  rewrite update_tags_get by (auto; discriminate). reflexivity.
Qed.

Lemma clear_info h h' : clear_file_lookup h = (h', Ok tt) -> hb_info h' = hb_info h /\ hb_mem h' = hb_mem h.
Proof.
  unfold clear_file_lookup. destruct (exists_ _ (hb_tree h)).
  - destruct (remove_file _ (hb_tree h)); intros H; [injection H as <-; auto|discriminate H].
  - intros H. injection H as <-. auto.
Qed.

Lemma lists_tags v algs bsize bagdir pid h h' : NoDup (od_keys (hb_info h)) ->
  convert_lists v algs bsize bagdir pid h = (h', Ok tt) ->
  (info_truthy T_Version (hb_info h) = true /\ hb_info h' = hb_info h) \/
  (info_truthy T_Version (hb_info h) = false /\ updated bsize (U "1") (hb_info h) (hb_info h')).
Proof.
  intros D H. unfold convert_lists in H. apply bindM_ok in H. destruct H as ([] & h1 & H1 & H). apply bindM_ok in H. destruct H as ([] & h2 & H2 & H).
  apply bindM_ok in H. destruct H as ([] & h3 & H3 & H4).
  unfold write_member_bags in H1. apply bindM_ok in H1. destruct H1 as ([] & h4 & H5 & H1). apply bindM_ok in H1. destruct H1 as ([] & h5 & H6 & H7).
  injection H6 as <-. match type of H7 with save_member_bags (set_mem _ (Some ?ms)) = _ => destruct (save_members_steps (set_mem h4 (Some ms)) h1 ms eq_refl H7) as (t4 & -> & _) end. clear H7.
  apply clear_info in H3. destruct H3 as [E3 _].
  destruct (update_only _ _ _ _ _ _ H4) as (_ & (_ & _ & _ & E4 & _) & _).
  assert (E : info_truthy T_Version (hb_info h4) = true /\ hb_info h2 = hb_info h4 ->
              hb_info h' = hb_info h4) by (intros [_ E]; congruence).
  assert (Q : info_truthy T_Version (hb_info h4) = true -> hb_info h2 = hb_info h4).
  { intros Tr. unfold ensure_info in H2. cbn [hb_info set_tree set_mem] in H2. rewrite Tr in H2. injection H2 as <-. reflexivity. }
  destruct (ensure_tags _ _ _ _ _ H5 D) as [[A ->]|(A & B & C & _)].
  - left. split; [exact A|]. apply E. auto.
  - right. split; [exact A|]. rewrite E; auto.
Qed.

Section One.
Variables (v : env) (bsize : tree -> pystr) (td : pystr) (t0 : tree) (i0 : infod).
Hypothesis Hs : sane v.
Hypothesis Hg : good_hash v.
Hypothesis Bs : plain_size bsize.
Hypothesis Vt : tag_value_ok Codecs td.

Lemma one_keeps bagdir version pid t t' : version <> [] -> tag_value_ok Codecs version ->
  rest v (e_algos v) td t0 i0 t -> conversion v bsize bagdir version pid t t' -> rest v (e_algos v) td t0 i0 t'.
Proof.
  intros Nv Vv L (i & es & algs & h & l & t1 & Op & Al & Li & Hm & [k R] & Cut).
  apply open_bag_tags in Op. pose proof (rest_algorithms _ _ _ Al) as Ia.
  destruct (r_tags _ _ _ _ _ _ L) as (j & Tj & Lt). assert (j = i) by congruence. subst j. clear Tj.
  change (rest_tags td i0 i) in Lt.
  assert (Oi : info_ok Codecs i) by (apply (tags_of_ok _ _ _ Op)).
  assert (V1 : tag_value_ok Codecs (U "1")) by (apply plain_valueb_ok; reflexivity).
  assert (X : info_ok Codecs (hb_info h) /\ rest_tags td i0 (hb_info h)).
  { destruct (lists_tags v algs bsize bagdir pid (open_hb (name_at bagdir) t i Codecs) h (proj1 Oi) Li) as [[_ E]|[_ E]]; cbn [hb_info open_hb] in E.
    - rewrite E. auto.
    - split; [apply (updated_ok bsize (U "1") i); auto|apply (updated_rest bsize (U "1") td i0 i); auto; discriminate]. }
  destruct X as [Oh Rh].
  assert (Th : tag_dir (hb_info h) = td).
  { destruct Rh as (_ & Td & Ov & _). apply std_tag_dir. split; assumption. }
  assert (Ks : forall f : tree -> infod, (forall x, exists j, load_tags Codecs (info_text (f x)) = Ok j /\ rest_tags td i0 j) ->
             Forall (holds_on v (e_algos v) td t0 i0) (save_steps v algs f)).
  { intros f F. constructor; [apply (rk_info v (e_algos v) td t0 i0 Hs (incl_refl _) Vt f F)|]. rewrite Forall_map. apply Forall_forall. intros a A. apply rk_tagman; auto. apply incl_refl. }
  assert (Ki : forall ver i', ver <> [] -> tag_value_ok Codecs ver -> info_ok Codecs i' -> rest_tags td i0 i' ->
             Forall (holds_on v (e_algos v) td t0 i0) (info_steps v algs bsize (Some ver) CURRENT_VERSION i')).
  { intros ver i' Nr Vr Or Rr. unfold info_steps. cbv zeta. apply Forall_app. split; apply Ks; intros x.
    - apply (updated_read bsize ver td i0 i'); auto. left. reflexivity.
    - apply (updated_read bsize ver td i0 i'); auto. right. eexists. reflexivity. }
  assert (L1 : rest v (e_algos v) td t0 i0 t1).
  { refine (run_rk v (e_algos v) td t0 i0 _ _ t t1 L R). apply Props_Amend.Forall_firstn. unfold single_steps. cbv zeta. rewrite Th.
    repeat rewrite Forall_app. split; [|split; [|split; [|split]]].
    - destruct (info_truthy T_Version i); [constructor|]. apply Ki; auto; discriminate.
    - constructor; [apply (rk_ensure v (e_algos v) td t0 i0 Hs (incl_refl _) Vt)|]. constructor; [|constructor]. apply (rk_put v (e_algos v) td t0 i0 Hs (incl_refl _) Vt); cbn; auto.
    - constructor; [apply (rk_clear v (e_algos v) td t0 i0 Hs (incl_refl _) Vt)|constructor].
    - unfold lookup_steps. destruct (hb_lu h) as [d0|]; [|constructor]. constructor; [apply (rk_ensure v (e_algos v) td t0 i0 Hs (incl_refl _) Vt)|]. constructor; [|constructor].
      apply (rk_put v (e_algos v) td t0 i0 Hs (incl_refl _) Vt); cbn; auto.
    - apply Ki; auto. }
  destruct Cut as [->|(f & c & If & W)]; [exact L1|]. rewrite Th in W. exact (rk_put v (e_algos v) td t0 i0 Hs (incl_refl _) Vt f c If t1 t' L1 W).
Qed.
End One.

(** ** A whole conversion *)

Lemma clear_run h h' : clear_file_lookup h = (h', Ok tt) -> clear_step (tag_dir (hb_info h)) (hb_tree h) = Ok (hb_tree h').
Proof.
  unfold clear_file_lookup, clear_step. destruct (exists_ _ (hb_tree h)).
  - destruct (remove_file _ (hb_tree h)); intros H; [injection H as <-; reflexivity|discriminate H].
  - intros H. injection H as <-. reflexivity.
Qed.

Lemma convert_steps v algs bsize bagdir version pid h h' : NoDup (od_keys (hb_info h)) ->
  convert v algs bsize bagdir version pid h = (h', Ok tt) ->
  exists h5 l, convert_lists v algs bsize bagdir pid h = (h5, Ok tt) /\ hb_mem h5 = Some l /\
    run_steps (single_steps v algs bsize version (hb_info h) (hb_info h5) l (hb_lu h5)) (hb_tree h) = Ok (hb_tree h').
Proof.
  intros D H. unfold convert in H. apply bindM_ok in H. destruct H as ([] & h4 & H1 & H). apply bindM_ok in H. destruct H as ([] & h8 & H2 & Hf).
  pose proof H1 as W. unfold write_member_bags in H1. apply bindM_ok in H1. destruct H1 as ([] & h1 & H1 & H). apply bindM_ok in H. destruct H as ([] & h2 & H3 & H4).
  injection H3 as <-. set (ms := [{| Tsv.m_name := basename bagdir; m_uri := pid; m_comment := None; m_info := [] |}]) in *.
  unfold write_file_lookup in H2. apply bindM_ok in H2. destruct H2 as ([] & h3 & H5 & H2).
  apply bindM_ok in H2. destruct H2 as ([] & h5 & H6 & H2). apply bindM_ok in H2. destruct H2 as ([] & h6 & H7 & H8).
  assert (Cl : convert_lists v algs bsize bagdir pid h = (h6, Ok tt)).
  { unfold convert_lists. unfold bindM at 1. rewrite W. unfold bindM at 1. rewrite H5. unfold bindM at 1. rewrite H6. exact H7. }
  destruct (save_members_steps (set_mem h1 (Some ms)) h4 ms eq_refl H4) as (t4 & E4 & R4). cbn [hb_info hb_tree set_mem] in R4.
  assert (Tr : info_truthy T_Version (hb_info h1) = true /\
    run_steps (if info_truthy T_Version (hb_info h) then [] else info_steps v algs bsize (Some (U "1")) CURRENT_VERSION (hb_info h)) (hb_tree h) = Ok (hb_tree h1)).
  { destruct (ensure_tags _ _ _ _ _ H1 D) as [[A ->]|(A & B & _)].
    - split; [exact A|]. rewrite A. reflexivity.
    - split; [exact B|]. rewrite A. unfold ensure_info in H1. rewrite A in H1. apply (update_info_run v algs bsize (Some (U "1")) CURRENT_VERSION h h1 H1). }
  destruct Tr as [Tr R1].
  assert (E3 : h3 = h4). { unfold ensure_info in H5. subst h4. cbn [hb_info set_tree set_mem] in H5. rewrite Tr in H5. congruence. }
  subst h3. pose proof (clear_run _ _ H6) as R6. destruct (clear_info _ _ H6) as [I6 M6].
  destruct (update_only _ _ _ _ _ _ H7) as (M7 & (_ & T7 & _ & I7 & _) & _).
  assert (I4 : hb_info h4 = hb_info h1) by (subst h4; reflexivity).
  assert (E : hb_info h6 = hb_info h1) by congruence.
  destruct (save_lookup_steps _ _ H8) as (t8 & -> & R8). rewrite E, T7 in R8. rewrite I4 in R6. subst h4. cbn [hb_tree set_tree set_mem] in R6.
  exists h6, ms. split; [exact Cl|]. split; [rewrite M7, M6; reflexivity|].
  unfold single_steps. cbv zeta. rewrite E. rewrite run_app, R1. cbn [bind]. rewrite run_app, R4. cbn [bind]. rewrite run_app, run_cons, R6. cbn [bind].
  change (run_steps [] (hb_tree h5)) with (@Ok tree (hb_tree h5)). cbn [bind]. rewrite run_app, R8. cbn [bind].
  pose proof (update_info_run _ _ _ _ _ _ _ Hf) as X. cbn [hb_info hb_tree set_tree] in X. rewrite E in X. exact X.
Qed.

Lemma single_is_conversion v bsize bagdir version pid t t' :
  make_single_multibag v bsize bagdir t version pid = Ok t' -> conversion v bsize bagdir version pid t t'.
Proof.
  intros H. unfold make_single_multibag in H. apply bind_ok in H. destruct H as ([i es] & Ho & H). apply bind_ok in H. destruct H as (algs & Ha & H).
  destruct (convert v algs bsize bagdir version pid (open_hb (name_at bagdir) t i Codecs)) as [h' [[]|e]] eqn:C; [|discriminate H]. injection H as <-.
  pose proof (tags_of_ok _ _ _ (open_bag_tags _ _ _ _ Ho)) as Oi.
  destruct (convert_steps _ _ _ _ _ _ _ _ (proj1 Oi : NoDup (od_keys (hb_info (open_hb (name_at bagdir) t i Codecs)))) C) as (h5 & l & A & B & R).
  exists i, es, algs, h5, l, (hb_tree h'). split; [exact Ho|]. split; [exact Ha|]. split; [exact A|]. split; [exact B|]. split; [|left; reflexivity].
  eexists. rewrite firstn_all. exact R.
Qed.

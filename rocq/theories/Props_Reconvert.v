(** C130: a conversion that was interrupted can be made again *)
Require Import String NArith PeanoNat Bool List Lia.
From Verif Require Import PyBase PyFacts Version Tsv TsvProofs Fs FsFacts HeadBag HeadBagProofs HeadBagProofs2 HeadBagProofs3 BagIt BagItProofs Split SplitApply SplitApplyProofs SplitApplyProofs5 SplitApplyProofs8 Restore RestoreProofs RestoreProofs2 RestoreProofs3 RestoreProofs4 RestoreProofs6 RestoreProofs7 RestoreProofs8 RestoreProofs9 RestoreProofs10 Props_Restore Props_Restore3 Amend AmendProofs AmendProofs2 AmendProofs3 AmendProofs4 Props_SplitApply Props_Amend SingleProofs Props_Single AmendTotalProofs SingleTotalProofs Props_SingleTotal SpecAgain AgainProofs AgainProofs2 Reconvert SpecReconvert ReconvertProofs ReconvertProofs2.
Import ListNotations.
Open Scope N_scope.

Lemma conversions_rest v bsize td t0 i0 t : sane v -> good_hash v -> plain_size bsize -> tag_value_ok Codecs td ->
  rest v (e_algos v) td t0 i0 t0 -> conversions v bsize t0 t -> rest v (e_algos v) td t0 i0 t.
Proof. intros S G B V L H. induction H; [exact L|]. eapply one_keeps; eauto. Qed.

Lemma rest_begin v td t i : convertible t td -> unobstructed v td t -> tags_of Codecs t = Ok i -> rest v (e_algos v) td t i t.
Proof.
  intros (W & i' & Ti & Td & Ov & Tv & Gt & Ot) [D F Vn M Nm Ls Bi Tg [O1 O2] Bm] Ti'. assert (i' = i) by congruence. subst i'.
  assert (Ns : ~ saved_file td) by (intros [E|[a E]]; [exact (O1 E)|exact (O2 a E)]).
  assert (Ht : tagdir_ok t td) by (split; [exact D|]; intros f If; rewrite Forall_forall in F; apply (F f); cbn in If |- *; tauto).
  assert (Sv : savable v (e_algos v) t) by (constructor; auto; exact (proj1 W)).
  constructor; [constructor; auto|reflexivity|]. exists i. split; [exact Ti|]. split; [|split; [exact Td|split; [exact Ov|split; [reflexivity|intros H; auto]]]].
  intros k I. unfold od_keys in I. apply in_map_iff in I. destruct I as (kv & <- & I). specialize (Bm i Ti). rewrite Forall_forall in Bm. apply Bm. exact I.
Qed.

Lemma rest_convertible v td t0 i0 t : tag_value_ok Codecs td -> rest v (e_algos v) td t0 i0 t -> convertible t td.
Proof.
  intros V [R _ (j & T & _ & D & O & _)]. destruct R. split; [assumption|]. exists j. auto 10.
Qed.

Lemma rest_total v bsize bagdir version pid name td t0 i0 t : plain_algos v -> NoDup (e_algos v) -> good_hash v -> plain_size bsize ->
  tag_value_ok Codecs td -> name <> [] -> name_at bagdir = name -> tag_value_ok Codecs version ->
  rest v (e_algos v) td t0 i0 t -> exists t', make_single_multibag v bsize bagdir t version pid = Ok t'.
Proof.
  intros Pa Na Gh B Vt Nn En Vv [R _ (j & T & Nb & D & O & _)]. destruct R. apply (single_total v bsize bagdir version pid name t j td); auto.
Qed.

Lemma rest_holds v td t0 i0 t : rest v (e_algos v) td t0 i0 t -> forall p, is_payload p && is_file p t = is_payload p && is_file p t0.
Proof.
  intros L p. destruct (is_payload p) eqn:P; [|reflexivity]. cbn [andb]. unfold is_file.
  assert (O : outside_payload td) by apply L.
  rewrite (r_rest _ _ _ _ _ _ L); [reflexivity|apply saved_outside; exact P|apply td_outside; assumption| |];
    intros ->; rewrite outside_file in P; cbn; auto; discriminate P.
Qed.

(** The tags after a conversion. *)
Lemma single_tags v bsize bagdir version pid t td i t' : plain_algos v -> plain_size bsize -> convertible t td -> tags_of Codecs t = Ok i ->
  name_at bagdir <> [] -> version <> [] -> tag_value_ok Codecs version ->
  make_single_multibag v bsize bagdir t version pid = Ok t' ->
  exists j, tags_of Codecs t' = Ok j /\ tag_values j T_HeadVersion = [version] /\
      tag_values j T_Version = [CURRENT_VERSION] /\ tag_values j T_Reference = [CURRENT_REFERENCE] /\ tag_values j T_TagDir = [td] /\
      tag_values j T_ISD = map (fun x => unfold_value Codecs (one_line x)) (with_about (tag_values i T_ISD)) /\
      (forall k, ~ In k info_keys -> tag_values j k = map (fun x => unfold_value Codecs (one_line x)) (tag_values i k)).
Proof.
  intros Pa B (W & i' & Ti & Td & Ov & Tv & Gt & Ot) Ti' N0 Nv Vv H. assert (i' = i) by congruence. subst i'.
  unfold make_single_multibag in H. apply bind_ok in H. destruct H as ([i' es] & Ho & H). apply bind_ok in H. destruct H as (algs & Ha & H).
  apply open_bag_tags in Ho. assert (i' = i) by congruence. subst i'.
  destruct (convert v algs bsize bagdir version pid (open_hb (name_at bagdir) t i Codecs)) as [h' [[]|e]] eqn:C; [|discriminate]. injection H as <-.
  destruct (convert_run v algs bsize bagdir version pid _ t i h' td Pa (algorithms_in _ _ _ Ha) B Ti Td Ov Tv Gt Ot Nv Vv W N0 C)
    as (i2 & lu & d & _ & _ & _ & _ & _ & _ & _ & _ & T).
  destruct (T Codecs) as (j & J1 & _ & J). exists j. split; [exact J1|exact J].
Qed.

(** Whatever conversions were made before and wherever they stopped: the bag
    can be opened and converted, and the result is that of the first
    conversion of the bag as it was. *)
Theorem C130_again_partial : forall v bsize bagdir name t td i version pid t',
  plain_algos v -> NoDup (e_algos v) -> good_hash v -> plain_size bsize ->
  convertible t td -> unobstructed v td t -> tags_of Codecs t = Ok i ->
  name <> [] -> ~ In SLASH name -> bagdir = name \/ (exists d, bagdir = d ++ SLASH :: name) ->
  version <> [] -> tag_value_ok Codecs version ->
  storable_member Codecs {| Tsv.m_name := name; m_uri := pid; m_comment := None; m_info := [] |} ->
  (forall p, is_payload p && is_file p t = true -> storable_entry Codecs (p, name)) ->
  conversions v bsize t t' ->
  exists t1 t2,
    make_single_multibag v bsize bagdir t version pid = Ok t1 /\
    make_single_multibag v bsize bagdir t' version pid = Ok t2 /\
    same_head name td i t1 t2.
Proof.
  intros v bsize bagdir name t td i version pid t' Pa Na Gh B Cv Uo Ti Nn Ns Hb Nv Vv Sm Se Cs.
  assert (Vt : tag_value_ok Codecs td) by (destruct Cv as (_ & ? & _ & _ & _ & ? & _); assumption).
  destruct (name_at_path bagdir name Nn Ns Hb) as [_ En].
  pose proof (rest_begin v td t i Cv Uo Ti) as L0. pose proof (conversions_rest v bsize td t i t' Pa Gh B Vt L0 Cs) as L.
  destruct (rest_total v bsize bagdir version pid name td t i t) as [t1 H1]; auto.
  destruct (rest_total v bsize bagdir version pid name td t i t') as [t2 H2]; auto.
  exists t1, t2. split; [exact H1|]. split; [exact H2|].
  pose proof (rest_convertible v td t i t' Vt L) as Cv'.
  destruct (C46_head_partial v bsize bagdir name t td version pid t1 Pa B Cv Nn Ns Hb Nv Vv H1) as [_ X1].
  destruct (C46_head_partial v bsize bagdir name t' td version pid t2 Pa B Cv' Nn Ns Hb Nv Vv H2) as [_ X2].
  assert (Hh := rest_holds v td t i t' L).
  destruct (X1 Codecs Sm Se) as (j1 & T1 & _ & M1 & K1 & _).
  destruct (X2 Codecs Sm) as (j2 & T2 & _ & M2 & K2 & _); [intros p P; apply Se; rewrite <- Hh; exact P|].
  destruct (r_tags _ _ _ _ _ _ L) as (i' & Ti' & _ & _ & _ & [A1 A2]).
  assert (Na' : name_at bagdir <> []) by congruence.
  destruct (single_tags v bsize bagdir version pid t td i t1 Pa B Cv Ti Na' Nv Vv H1) as (a1 & B1 & B2 & B3 & B4 & B5 & B6 & B7).
  destruct (single_tags v bsize bagdir version pid t' td i' t2 Pa B Cv' Ti' Na' Nv Vv H2) as (a2 & C1 & C2 & C3 & C4 & C5 & C6 & C7).
  assert (a1 = j1) by congruence. assert (a2 = j2) by congruence. subst a1 a2.
  exists j1, j2. split; [exact T1|]. split; [exact T2|]. split; [|split; [|split]].
  - intros k Q1 Q2 F.
    destruct (str_eq_dec k T_HeadVersion) as [->|N1]; [congruence|]. 
    destruct (str_eq_dec k T_Version) as [->|N3]; [congruence|]. destruct (str_eq_dec k T_Reference) as [->|N4]; [congruence|].
    destruct (str_eq_dec k T_TagDir) as [->|N5]; [congruence|]. destruct (str_eq_dec k T_ISD) as [->|N6].
    { rewrite B6, C6. destruct (A2 F) as [_ E]. rewrite E. reflexivity. }
    assert (Nk : ~ In k info_keys) by (unfold info_keys; cbn [In]; intros [X|[X|[X|[X|[X|[X|[X|[]]]]]]]]; subst k; auto).
    rewrite B7, C7 by auto. rewrite (A1 k Nk F). reflexivity.
  - eexists. split; [exact M1|exact M2].
  - intros p. eexists. split; [apply K1|]. rewrite K2, Hh. reflexivity.
  - intros q Q1 Q2 Q3 Q4.
    assert (Nq : ~ saved_file q) by (intros [X|[a X]]; [exact (Q1 X)|exact (Q2 a X)]).
    assert (L1 : rest v (e_algos v) td t i t1) by (exact (one_keeps v bsize td t i Pa Gh B Vt bagdir version pid t t1 Nv Vv L0 (single_is_conversion _ _ _ _ _ _ _ H1))).
    assert (L2 : rest v (e_algos v) td t i t2) by (exact (one_keeps v bsize td t i Pa Gh B Vt bagdir version pid t' t2 Nv Vv L (single_is_conversion _ _ _ _ _ _ _ H2))).
    destruct (str_eq_dec q td) as [->|Nt].
    + assert (Z : forall s : tree, tagdir_ok s td -> read td s = None).
      { assert (G : good_path td) by apply L. intros s [[Y|[Y _]] _].
        - unfold is_dir in Y. unfold read. destruct td; [exfalso; apply (good_path_nonempty _ G); reflexivity|]. destruct (od_get (n :: td) s) as [[|]|]; congruence.
        - apply exists_false in Y. destruct Y as [Y _]. unfold read. rewrite Y. reflexivity. }
      rewrite !Z; [reflexivity|apply L1|apply L2].
    + unfold read. rewrite (r_rest _ _ _ _ _ _ L1 q Nq Nt Q3 Q4), (r_rest _ _ _ _ _ _ L2 q Nq Nt Q3 Q4). reflexivity.
Qed.
Print Assumptions C130_again_partial.

(** A conversion that came to its end is one of those. So converting twice is
    like converting once, also with another version or identifier before. *)
Theorem C130_whole : forall v bsize bagdir version pid t t',
  version <> [] -> tag_value_ok Codecs version ->
  make_single_multibag v bsize bagdir t version pid = Ok t' -> conversions v bsize t t'.
Proof.
  intros v bsize bagdir version pid t t' Nv Vv H. econstructor; [constructor|exact Nv|exact Vv|]. apply single_is_conversion. exact H.
Qed.
Print Assumptions C130_whole.

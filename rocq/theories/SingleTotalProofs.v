(** Conversions that succeed: proofs *)
Require Import String NArith PeanoNat Bool List Lia.
From Verif Require Import PyBase PyFacts Version Tsv TsvProofs Fs FsFacts HeadBag HeadBagProofs HeadBagProofs2 HeadBagProofs3 BagIt BagItProofs Split SplitApply SplitApplyProofs SplitApplyProofs5 SplitApplyProofs7 SplitApplyProofs8 Restore RestoreProofs RestoreProofs2 RestoreProofs3 RestoreProofs4 RestoreProofs6 RestoreProofs7 RestoreProofs8 RestoreProofs9 RestoreProofs10 Props_SplitApply Props_Restore Props_Restore3 Amend AmendProofs AmendProofs2 AmendProofs3 AmendProofs4 SingleProofs AmendTotalProofs.
Import ListNotations.
Open Scope N_scope.

(** A change of the lists, and of nothing else. *)
Definition near (td : pystr) (t t' : tree) : Prop :=
  forall q, q <> td -> q <> sjoin td F_members -> q <> sjoin td F_lookup -> od_get q t' = od_get q t.

Lemma savable_near v algs td t t2 : sane v -> incl algs (e_algos v) -> good_path td -> ~ saved_file td ->
  is_file td t = false -> is_dir td t2 = true -> wf_tree t2 -> near td t t2 ->
  Forall (good_name v) [sjoin td F_members; sjoin td F_lookup] -> savable v algs t -> savable v algs t2.
Proof.
  intros S Ia G Ns Ft Hd2 W2 X Gn [W (c0 & v1 & Rb & V0) Gm Nm Bi Nd].
  inversion Gn as [|? ? Gn1 Gn']; subst. inversion Gn' as [|? ? Gn2 _]; subst. clear Gn Gn'.
  assert (Top : forall q, q <> td -> (q = F_bagit \/ q = F_baginfo \/ (exists k a, In k [K_man; K_tag] /\ In a (e_algos v) /\ q = man_name k a)) ->
     od_get q t2 = od_get q t).
  { intros q Q H. apply X; [exact Q| |]; apply (top_not_join v algs); assumption. }
  assert (Nf : forall q c, od_get q t2 = Some (NFile c) -> q <> td).
  { intros q c E ->. unfold is_dir in Hd2. destruct td; [apply good_path_nonempty in G; apply G; reflexivity|]. rewrite E in Hd2. discriminate Hd2. }
  constructor.
  - exact W2.
  - exists c0, v1. split; [|exact V0]. unfold read in *. rewrite Top; [exact Rb| |auto]. intros E. rewrite <- E in Ft. unfold is_file in Ft.
    destruct (od_get F_bagit t) as [[|]|]; discriminate.
  - intros pay a c1 A R. apply (Gm pay a c1 A). apply read_get in R. apply read_get. rewrite <- R. symmetry. apply Top; [eapply Nf; exact R|].
    right; right. exists (kind_of pay), a. split; [destruct pay; cbn; auto|auto].
  - intros p F T1 T2. unfold is_file in F. destruct (od_get p t2) as [[|c]|] eqn:E; try discriminate F.
    destruct (streq_reflect p (sjoin td F_members)) as [->|N1]; [exact Gn1|]. destruct (streq_reflect p (sjoin td F_lookup)) as [->|N2]; [exact Gn2|].
    apply Nm; auto. unfold is_file. rewrite <- (X p (Nf _ _ E) N1 N2), E. reflexivity.
  - rewrite Top; [exact Bi| |auto]. intros Y. apply Ns. left. symmetry. exact Y.
  - intros a A. rewrite Top; [apply Nd; exact A| |]; [intros Y; apply Ns; right; exists a; symmetry; exact Y|]. right; right. exists K_tag, a. cbn. auto.
Qed.

(** The files that saving writes. *)
Definition written (algs : list pystr) (q : pystr) : Prop := q = F_baginfo \/ exists a, In a algs /\ q = man_name K_tag a.

Lemma save_same v algs i t t' q : save v algs i t = Ok t' -> ~ written algs q -> od_get q t' = od_get q t.
Proof.
  unfold save. intros H N0. apply bind_ok in H. destruct H as (t1 & H1 & H). apply bind_ok in H. destruct H as (t2 & H2 & H).
  apply bind_ok in H. destruct H as (_ & _ & H). injection H as <-. apply write_file_ok in H1.
  transitivity (od_get q t1).
  - clear H1. assert (Nt : forall a, In a algs -> q <> man_name K_tag a) by (intros a A E; apply N0; right; eauto).
    clear N0. revert t1 H2 Nt. induction algs as [|a l IH]; intros t1 H Nt; cbn [foldM] in H.
    + injection H as <-. reflexivity.
    + apply bind_ok in H. destruct H as (t3 & H1 & H2). rewrite (IH t3 H2) by (intros b Ib; apply Nt; right; exact Ib). apply write_file_ok in H1. subst t3.
      apply od_get_set_other. apply Nt. left. reflexivity.
  - subst t1. apply od_get_set_other. intros E. apply N0. left. exact E.
Qed.

Lemma below_not_written v algs td f : sane v -> incl algs (e_algos v) -> ~ written algs (sjoin td f).
Proof.
  intros S Ia [E|(a & A & E)]; symmetry in E; revert E; apply (top_not_join v algs); auto. right; right. exists K_tag, a. cbn. auto.
Qed.

(** Updating the tags keeps what the next update needs. *)
Lemma info_total2 v algs bsize version profver h : sane v -> NoDup (e_algos v) -> good_hash v -> incl algs (e_algos v) -> savable v algs (hb_tree h) ->
  plain_size bsize -> info_ok Codecs (hb_info h) -> no_bom (hb_info h) -> tag_value_ok Codecs version -> tag_value_ok Codecs profver ->
  good_name v F_baginfo ->
  exists h', update_info_disk v algs bsize (Some version) profver h = (h', Ok tt) /\ savable v algs (hb_tree h') /\ no_bom (hb_info h') /\
    (forall q, ~ written algs q -> od_get q (hb_tree h') = od_get q (hb_tree h)).
Proof.
  intros S ND Gh Ia Sv B Oi Nb Vv Pv Gb. set (i1 := update_info_tags (Some version) profver (hb_info h)).
  assert (O1 : info_ok Codecs i1) by (apply update_tags_ok; auto). assert (B1 : no_bom i1) by (apply no_bom_update; exact Nb).
  destruct (save_total v algs i1 (hb_tree h) S ND Gh Ia Sv O1 B1 Gb) as (t1 & S1 & Sv1).
  set (i2 := od_set T_BagSize (IStr (bsize t1)) i1).
  assert (O2 : info_ok Codecs i2).
  { destruct (B t1) as [Bb Bt]. apply info_ok_put; [exact O1|apply lit_name; reflexivity|discriminate|].
    constructor; [|constructor]. apply value_ok_plain. split; auto. }
  assert (B2 : no_bom i2) by (apply no_bom_set; [exact B1|discriminate]).
  destruct (save_total v algs i2 t1 S ND Gh Ia Sv1 O2 B2 Gb) as (t2 & S2 & Sv2).
  eexists. split.
  - unfold update_info_disk, bindM, saveM. cbn [hb_info hb_tree set_info set_tree]. fold i1. rewrite S1. cbn [hb_info hb_tree set_info set_tree].
    fold i2. rewrite S2. reflexivity.
  - cbn [hb_info hb_tree set_info set_tree]. split; [exact Sv2|]. split; [exact B2|].
    intros q Q. rewrite (save_same _ _ _ _ _ _ S2 Q). apply (save_same _ _ _ _ _ _ S1 Q).
Qed.

(** The disk of a handle is ready for the lists. *)
Lemma ensure_total h td : tag_dir (hb_info h) = td -> good_path td -> tagdir_ok (hb_tree h) td ->
  exists t1, ensure_tagdir h = (set_tree h t1, Ok tt) /\ is_dir td t1 = true /\ tagdir_ok t1 td /\
    (forall q, q <> td -> od_get q t1 = od_get q (hb_tree h)).
Proof.
  intros Td G [Hd Hf]. unfold ensure_tagdir. rewrite Td. destruct Hd as [Hd|[He Hp]].
  - assert (E : exists_ td (hb_tree h) = true) by (unfold exists_; rewrite Hd; apply orb_true_r). rewrite E. exists (hb_tree h).
    rewrite tree_eta. split; [reflexivity|]. split; [exact Hd|]. split; [|auto]. split; [left; exact Hd|exact Hf].
  - rewrite He. unfold mkdir. rewrite He, Hp. exists (od_set td NDir (hb_tree h)). split; [reflexivity|].
    assert (Hd : is_dir td (od_set td NDir (hb_tree h)) = true) by (unfold is_dir; rewrite od_get_set_same; destruct td; reflexivity).
    assert (X : forall q, q <> td -> od_get q (od_set td NDir (hb_tree h)) = od_get q (hb_tree h)) by (intros q Q; apply od_get_set_other; exact Q).
    split; [exact Hd|]. split; [|exact X]. split; [left; exact Hd|]. intros f If. rewrite (dir_same _ (hb_tree h)); [apply Hf; exact If|].
    apply X. apply sjoin_ne. cbn in If. destruct If as [<-|[<-|[<-|[]]]]; discriminate.
Qed.

(** ** The conversion *)

Lemma convert_total v algs bsize bagdir version pid name t i td :
  plain_algos v -> NoDup (e_algos v) -> good_hash v -> incl algs (e_algos v) -> plain_size bsize ->
  tags_of Codecs t = Ok i -> no_bom i -> tag_dir_raw i = Ok td -> older_than_03 (profile_version i) = false ->
  good_path td -> outside_payload td -> ~ saved_file td -> tag_value_ok Codecs td ->
  bag_files t -> tagdir_ok t td -> savable v algs t ->
  Forall (good_name v) [F_baginfo; sjoin td F_members; sjoin td F_lookup] ->
  name <> [] -> tag_value_ok Codecs version ->
  exists h', convert v algs bsize bagdir version pid (open_hb name t i Codecs) = (h', Ok tt).
Proof.
  intros S ND Gh Ia B Ti Nb Td Ov G O Ns Tv Bf Ht Sv Gn Nn Vv.
  inversion Gn as [|? ? Gb Gl]; subst. clear Gn.
  set (h0 := open_hb name t i Codecs). pose proof (tags_of_ok _ _ _ Ti) as Oi.
  assert (Al : forall a, In a algs -> In a (e_algos v)) by exact Ia.
  (* the tags *)
  assert (X1 : exists h1, ensure_info v algs bsize h0 = (h1, Ok tt) /\ info_ok Codecs (hb_info h1) /\ std_tags (hb_info h1) td /\
    info_truthy T_Version (hb_info h1) = true /\ hb_lu h1 = None /\ hb_name h1 = name /\ no_bom (hb_info h1) /\
    bag_files (hb_tree h1) /\ tagdir_ok (hb_tree h1) td /\ savable v algs (hb_tree h1)).
  { unfold ensure_info. cbn [hb_info h0 open_hb]. destruct (info_truthy T_Version i) eqn:E.
    - exists h0. split; [reflexivity|]. split; [exact Oi|]. split; [split; assumption|]. split; [exact E|]. auto 10.
    - destruct (info_total2 v algs bsize (U "1") CURRENT_VERSION h0 S ND Gh Ia Sv B Oi Nb (plain_valueb_ok (U "1") eq_refl) (plain_valueb_ok CURRENT_VERSION eq_refl) Gb)
        as (h1 & E1 & Sv1 & Nb1 & K1).
      destruct (update_info_mem v algs bsize (U "1") CURRENT_VERSION h0 h1 td B Oi) as (A1 & A2 & A3 & A4 & A5 & A6 & _); auto;
        try discriminate; try (apply plain_valueb_ok; reflexivity); try reflexivity.
      exists h1. split; [exact E1|]. split; [exact A1|]. split; [exact A2|]. split; [exact A3|]. split; [exact A5|]. split; [exact A6|].
      split; [exact Nb1|]. split; [apply (update_keeps v algs bsize (Some (U "1")) CURRENT_VERSION h0 h1 S Al E1 Bf)|]. split; [|exact Sv1].
      assert (Ns' : ~ written algs td) by (intros [Y|(a & _ & Y)]; apply Ns; [left; exact Y|right; eauto]).
      destruct Ht as [Hd Hf]. split.
      + destruct Hd as [Hd|[He Hp]].
        * left. rewrite (dir_same td t); [exact Hd|]. apply K1. exact Ns'.
        * right. split.
          -- unfold exists_, is_file in *. rewrite (dir_same td t) by (apply K1; exact Ns'). rewrite K1 by exact Ns'. exact He.
          -- destruct (streq_reflect (dirname td) []) as [->|Nd]; [reflexivity|]. rewrite (dir_same (dirname td) t); [exact Hp|]. apply K1.
             intros Y. assert (D : od_get (dirname td) t = Some NDir).
             { unfold is_dir in Hp. destruct (dirname td) as [|dn dl]; [contradiction|]. destruct (od_get (dn :: dl) t) as [[|]|]; try discriminate Hp. reflexivity. }
             destruct Y as [Y|(a & A & Y)]; rewrite Y in D; [exact (sv_info _ _ _ Sv D)|exact (sv_tags _ _ _ Sv a A D)].
      + intros f If. rewrite (dir_same _ t); [apply Hf; exact If|]. apply K1. apply (below_not_written v); assumption. }
  destruct X1 as (h1 & E1 & O1 & S1 & V1 & L1 & N1 & Nb1 & Bf1 & Ht1 & Sv1).
  pose proof (std_tag_dir _ _ S1) as Td1.
  (* the members *)
  set (ms := [{| Tsv.m_name := basename bagdir; m_uri := pid; m_comment := None; m_info := [] |}]).
  set (h2 := set_mem h1 (Some ms)).
  destruct (ensure_total h2 td Td1 G Ht1) as (t2 & E2 & Hd2 & Ht2 & K2).
  destruct (put_total td F_members (fst (members_prefix ms)) (set_tree h2 t2) Td1 ltac:(cbn; auto) Hd2 Ht2) as (_ & W3 & Hd3 & Ht3).
  cbn [hb_tree set_tree] in W3, Hd3, Ht3. set (t3 := od_set (sjoin td F_members) (NFile (fst (members_prefix ms))) t2) in *.
  assert (Sm : save_member_bags h2 = (set_tree h2 t3, Ok tt)).
  { unfold save_member_bags. cbn [hb_mem h2 set_mem]. unfold bindM. fold h2. rewrite E2. unfold put_file. cbn [hb_tree set_tree].
    change (hb_info h2) with (hb_info h1). rewrite Td1, W3. rewrite (members_formatted ms) by (constructor; [reflexivity|constructor]). reflexivity. }
  assert (Bf3 : bag_files t3).
  { destruct (save_members_steps h2 _ ms eq_refl Sm) as (t3' & Et & R). apply (f_equal hb_tree) in Et. cbn in Et. subst t3'.
    change (hb_info h2) with (hb_info h1) in R. rewrite Td1 in R. exact (proj1 (members_keeps td ms _ _ G O R Bf1)). }
  (* the list of files *)
  destruct (clear_total (set_tree h2 t3) td Td1 (proj2 Ht3 F_lookup ltac:(cbn; auto))) as (t4 & E4 & C4). cbn [hb_tree set_tree] in C4.
  pose proof (proj1 (clear_keeps td t3 t4 O C4 Bf3)) as Bf4.
  assert (D3 : NoDup (od_keys t3)) by (apply wf_nodup; apply Bf3).
  destruct (clear_nodes td t3 t4 D3 Ht3 C4) as (K4 & Ht4). specialize (Ht4 Hd3).
  pose proof (proj1 (clear_step_none td t3 t4 D3 C4)) as Rl4.
  assert (Hd4 : is_dir td t4 = true).
  { rewrite (dir_same td t3); [exact Hd3|]. apply K4. intros Y. symmetry in Y. apply sjoin_ne in Y; [exact Y|discriminate]. }
  set (h4 := set_lu (set_tree (set_tree h2 t3) t4) None) in *.
  assert (C4' : cur_table h4 = Ok []).
  { unfold cur_table, disk_lookup. cbn [hb_lu h4 set_lu]. fold h4. rewrite (missing_lookup h4 td S1 Rl4). reflexivity. }
  destruct (update_total (src_of false h4) h4 []) as (h5 & E5).
  { apply Bf4. }
  { cbn [s_name src_of h4 hb_name set_lu set_tree h2 set_mem]. rewrite N1. exact Nn. }
  { exact C4'. }
  destruct (update_only _ _ _ _ _ _ E5) as (M5 & S5 & _). destruct S5 as (S5n & S5t & _ & S5i & S5r).
  assert (I5 : hb_info h5 = hb_info h1) by (rewrite S5i; reflexivity).
  assert (Tr5 : hb_tree h5 = t4) by (rewrite S5t; reflexivity).
  assert (X6 : exists t6, save_file_lookup h5 = (set_tree h5 t6, Ok tt) /\ is_dir td t6 = true /\ forall q, q <> sjoin td F_lookup -> od_get q t6 = od_get q t4).
  { unfold save_file_lookup. destruct (hb_lu h5) as [d|].
    - assert (Td5 : tag_dir (hb_info h5) = td) by (rewrite I5; exact Td1). rewrite Td5.
      destruct (put_total td F_lookup (lookup_text d) h5 Td5 ltac:(cbn; auto)) as (P & _ & Hd6 & _); [rewrite Tr5; exact Hd4|rewrite Tr5; exact Ht4|].
      eexists. split; [exact P|]. split; [exact Hd6|]. intros q Q. rewrite od_get_set_other by exact Q. rewrite Tr5. reflexivity.
    - exists t4. split; [|split; [exact Hd4|auto]]. rewrite <- Tr5 at 1. rewrite tree_eta. reflexivity. }
  destruct X6 as (t6 & E6 & Hd6 & K6).
  assert (Bf6 : bag_files t6).
  { destruct (save_lookup_steps _ _ E6) as (t6' & Et & R). apply (f_equal hb_tree) in Et. cbn in Et. subst t6'.
    rewrite I5, Td1, Tr5 in R. exact (proj1 (lookup_keeps td (hb_lu h5) _ _ G O R Bf4)). }
  assert (Nf : is_file td (hb_tree h1) = false).
  { destruct Ht1 as [[Hd|[He _]] _].
    - unfold is_dir in Hd. unfold is_file. destruct td; [apply good_path_nonempty in G; exfalso; apply G; reflexivity|].
      destruct (od_get (n :: td) (hb_tree h1)) as [[|]|]; try discriminate Hd. reflexivity.
    - unfold exists_ in He. apply orb_false_iff in He. apply He. }
  assert (Nr : near td (hb_tree h1) t6).
  { intros q Q1 Q2 Q3. rewrite (K6 q Q3), (K4 q Q3). unfold t3. rewrite od_get_set_other by exact Q2. exact (K2 q Q1). }
  pose proof (savable_near v algs td _ t6 S Ia G Ns Nf Hd6 (proj1 Bf6) Nr Gl Sv1) as Sv6.
  (* the tags again *)
  destruct (info_total v algs bsize version CURRENT_VERSION (set_tree h5 t6) S ND Gh Ia Sv6 B) as (h' & E7); auto.
  { cbn [hb_info set_tree]. rewrite I5. exact O1. }
  { cbn [hb_info set_tree]. rewrite I5. exact Nb1. }
  { apply plain_valueb_ok. reflexivity. }
  exists h'. unfold convert, write_member_bags, write_file_lookup. unfold bindM. rewrite E1. unfold set_member_bags. fold ms. fold h2. rewrite Sm.
  unfold ensure_info at 1. cbn [hb_info set_tree]. change (hb_info h2) with (hb_info h1). rewrite V1. rewrite E4. rewrite E5. rewrite E6. exact E7.
Qed.

Lemma single_total v bsize bagdir version pid name t i td :
  plain_algos v -> NoDup (e_algos v) -> good_hash v -> plain_size bsize ->
  tags_of Codecs t = Ok i -> no_bom i -> tag_dir_raw i = Ok td -> older_than_03 (profile_version i) = false ->
  good_path td -> outside_payload td -> ~ saved_file td -> tag_value_ok Codecs td ->
  bag_files t -> tagdir_ok t td -> savable v (e_algos v) t ->
  Forall (good_name v) [F_baginfo; sjoin td F_members; sjoin td F_lookup] ->
  name <> [] -> name_at bagdir = name -> tag_value_ok Codecs version ->
  exists t', make_single_multibag v bsize bagdir t version pid = Ok t'.
Proof.
  intros S ND Gh B Ti Nb Td Ov G O Ns Tv Bf Ht Sv Gl Nn En Vv.
  destruct (sv_version _ _ _ Sv) as (c0 & v1 & Rb & V0). unfold make_single_multibag.
  assert (Op : exists es, open_bag v Codecs (e_dest v) t = Ok (i, es)).
  { unfold open_bag. rewrite Rb, V0. cbn [bind]. destruct (load_good v (e_dest v) t Codecs true v1 ND (sv_mans _ _ _ Sv)) as (es & Hl & _).
    unfold tags_of in Ti. change (U "bag-info.txt") with F_baginfo in Ti. exists es.
    destruct (read F_baginfo t); rewrite Ti; cbn [bind]; rewrite Hl; reflexivity. }
  destruct Op as [es Op]. rewrite Op. cbn [bind].
  assert (Ha : exists algs, algorithms v t = Ok algs) by (unfold algorithms; rewrite Rb, V0; eexists; reflexivity).
  destruct Ha as [algs Ha]. rewrite Ha. cbn [bind]. rewrite En.
  destruct (convert_total v algs bsize bagdir version pid name t i td S ND Gh) as [h' E]; auto.
  - intros a A. exact (algorithms_in _ _ _ Ha a A).
  - destruct Sv as [A1 A2 A3 A4 A5 A6]. constructor; auto. intros a A. apply A6. exact (algorithms_in _ _ _ Ha a A).
  - rewrite E. eauto.
Qed.

(** ** Bags without payload files *)

Lemma convert_quiet v algs bsize bagdir version pid name t i h' td :
  plain_algos v -> incl algs (e_algos v) -> plain_size bsize ->
  tags_of Codecs t = Ok i -> tag_dir_raw i = Ok td -> older_than_03 (profile_version i) = false ->
  good_path td -> outside_payload td -> bag_files t -> name <> [] -> (forall p, holds t p = false) ->
  convert v algs bsize bagdir version pid (open_hb name t i Codecs) = (h', Ok tt) ->
  read (sjoin td F_lookup) (hb_tree h') = None.
Proof.
  intros Pa Al B Ti Td Ov Gt Ot W Nn Np H. unfold convert in H.
  apply bindM_ok in H. destruct H as ([] & h4 & H1 & H). apply bindM_ok in H. destruct H as ([] & h8 & H2 & Hf).
  unfold write_member_bags in H1. apply bindM_ok in H1. destruct H1 as ([] & h1 & H1 & H). apply bindM_ok in H. destruct H as ([] & h2 & H3 & H4).
  injection H3 as <-.
  set (h0 := open_hb name t i Codecs) in *. pose proof (tags_of_ok _ _ _ Ti) as Oi.
  assert (X1 : std_tags (hb_info h1) td /\ info_truthy T_Version (hb_info h1) = true /\ hb_name h1 = name /\ keeps t (hb_tree h1)).
  { unfold ensure_info in H1. cbn [hb_info h0 open_hb] in H1. destruct (info_truthy T_Version i) eqn:E.
    - injection H1 as <-. split; [split; auto|]. split; [exact E|]. split; [reflexivity|]. apply keeps_refl.
    - destruct (update_info_mem v algs bsize (U "1") CURRENT_VERSION h0 h1 td B Oi) as (A1 & A2 & A3 & A4 & A5 & A6 & _ & A7 & A8); auto;
        try discriminate; try (apply plain_valueb_ok; reflexivity); try reflexivity.
      split; [exact A2|]. split; [exact A3|]. split; [exact A6|].
      apply (update_keeps v algs bsize (Some (U "1")) CURRENT_VERSION h0 h1); auto. }
  destruct X1 as (S1 & V1 & N1 & K1). set (ms := [{| Tsv.m_name := basename bagdir; m_uri := pid; m_comment := None; m_info := [] |}]) in *.
  destruct (save_members_steps (set_mem h1 (Some ms)) h4 ms eq_refl H4) as (t4 & -> & R4).
  cbn [hb_info hb_tree set_mem] in R4. rewrite (std_tag_dir _ _ S1) in R4.
  unfold write_file_lookup in H2. apply bindM_ok in H2. destruct H2 as ([] & h5 & H5 & H2).
  unfold ensure_info in H5. cbn [hb_info set_mem set_tree] in H5. rewrite V1 in H5. injection H5 as <-.
  apply bindM_ok in H2. destruct H2 as ([] & h5 & H5 & H2). apply bindM_ok in H2. destruct H2 as ([] & h6 & H6 & H7).
  set (h4 := set_tree (set_mem h1 (Some ms)) t4) in *.
  assert (K4 : keeps t t4) by (apply (keeps_trans t (hb_tree h1) t4); [exact K1|apply (members_keeps td ms); auto]).
  assert (D4 : NoDup (od_keys (hb_tree h4))) by (apply (K4 W)).
  destruct (clear_eff h4 h5 td (std_tag_dir _ _ S1) D4 H5) as (t5 & E5 & R5 & D5 & Rl5 & _).
  assert (K5 : keeps t t5) by (apply (keeps_trans t t4 t5); [exact K4|apply (clear_keeps td); auto]).
  destruct (K5 W) as [W5 P5].
  assert (Q5 : no_table h5).
  { subst h5. split; [reflexivity|]. apply (missing_lookup (set_lu (set_tree h4 t5) None) td S1 Rl5). }
  assert (E6 : h6 = h5).
  { apply (update_quiet (src_of false h5) h5 h6); [| | |exact Q5|exact H6]; subst h5.
    - exact W5.
    - cbn. rewrite N1. exact Nn.
    - intros p. cbn [s_tree src_of hb_tree set_lu set_tree]. specialize (Np p). unfold holds in *. destruct (is_payload p) eqn:P; [|reflexivity].
      cbn [andb] in *. unfold is_file in *. rewrite (P5 p P). exact Np. }
  subst h6. unfold save_file_lookup in H7. rewrite (proj1 Q5) in H7. injection H7 as <-.
  apply update_info_inv in Hf. cbv zeta in Hf. destruct Hf as (t6 & t7 & S6 & S7 & ->). cbn [hb_tree set_tree].
  assert (Nw : ~ written algs (sjoin td F_lookup)) by (apply (below_not_written v); assumption).
  unfold read. rewrite (save_same _ _ _ _ _ _ S7 Nw), (save_same _ _ _ _ _ _ S6 Nw). subst h5. exact Rl5.
Qed.

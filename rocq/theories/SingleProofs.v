(** Making a single multibag *)
Require Import String NArith PeanoNat Bool List Lia.
From Verif Require Import PyBase PyFacts Version Tsv TsvProofs Fs FsFacts HeadBag HeadBagProofs HeadBagProofs2 HeadBagProofs3 BagIt BagItProofs Split SplitApply SplitApplyProofs SplitApplyProofs5 SplitApplyProofs7 SplitApplyProofs8 Restore RestoreProofs RestoreProofs2 RestoreProofs3 RestoreProofs6 Props_SplitApply Props_Restore Props_Restore3 Amend AmendProofs AmendProofs2 AmendProofs3 AmendProofs4.
Import ListNotations.
Open Scope N_scope.

(** ** What stays *)

Definition keeps (t t' : tree) : Prop :=
  bag_files t -> bag_files t' /\ forall p, is_payload p = true -> od_get p t' = od_get p t.

Lemma keeps_refl t : keeps t t.
Proof. intros W. auto. Qed.
Lemma keeps_trans a b c : keeps a b -> keeps b c -> keeps a c.
Proof. intros H1 H2 W. destruct (H1 W) as [W1 E1]. destruct (H2 W1) as [W2 E2]. split; auto. intros p P. rewrite E2, E1; auto. Qed.

Lemma payload_not_saved p : is_payload p = true -> ~ saved_file p.
Proof.
  intros P [->|[a ->]].
  - vm_compute in P. discriminate.
  - unfold is_payload, man_name in P. apply startswith_iff in P. destruct P as [r E]. cbn in E. discriminate.
Qed.

Lemma save_keeps v algs i t t' : plain_algos v -> (forall a, In a algs -> In a (e_algos v)) -> save v algs i t = Ok t' -> keeps t t'.
Proof.
  intros S A H [W F]. destruct (save_nodes v algs i t t' S A W H) as [W' _]. split; [split; [exact W'|]|].
  - unfold is_file. rewrite (save_other _ _ _ _ _ _ H); [exact F|]. intros [X|[a X]]; [discriminate|]. unfold man_name in X. cbn in X. discriminate.
  - intros p P. apply (save_other _ _ _ _ _ _ H). apply payload_not_saved; auto.
Qed.

Lemma ensure_keeps td t t' : good_path td -> ensure_step td t = Ok t' -> outside_payload td -> keeps t t'.
Proof.
  intros G H O [W F]. unfold ensure_step in H. destruct (exists_ td t) eqn:Ex; [inversion H; subst; split; [split|]; auto|].
  unfold mkdir in H. rewrite Ex in H. destruct (is_dir (dirname td) t) eqn:Ed; [|discriminate]. inversion H; subst t'.
  split; [split; [apply wf_set; auto|]|].
  - unfold is_file in *. rewrite od_get_set. destruct (streq DATA td); [reflexivity|exact F].
  - intros p P. apply od_get_set_other. intros ->. unfold outside_payload, is_payload in *. apply startswith_iff in P. destruct P as [r ->].
    rewrite <- app_assoc in O. assert (X : startswith (U "data/" ++ r ++ [SLASH]) (U "data/") = true) by (apply startswith_iff; eauto). congruence.
Qed.

Lemma write_keeps td f c t t' : good_path td -> outside_payload td -> In f [F_members; F_lookup] ->
  write_file (sjoin td f) c t = Ok t' -> keeps t t'.
Proof.
  intros G O I H [W F]. apply write_file_ok2 in H. destruct H as (-> & E1 & E2).
  assert (Gf : good_path (sjoin td f)).
  { unfold sjoin. cbn [app]. apply good_path_app. split; [exact G|]. destruct I as [<-|[<-|[]]]; apply good_pathb_ok; reflexivity. }
  split; [split; [apply wf_set; auto|]|].
  - unfold is_file. rewrite od_get_set_other; [exact F|]. intros X. assert (Y : In SLASH (sjoin td f)) by (unfold sjoin; apply in_or_app; right; left; reflexivity).
    rewrite <- X in Y. vm_compute in Y. intuition discriminate.
  - intros p P. apply od_get_set_other. intros ->. rewrite (outside_file td f O I) in P. discriminate.
Qed.

Lemma clear_keeps td t t' : outside_payload td -> clear_step td t = Ok t' -> keeps t t'.
Proof.
  intros O H [W F]. unfold clear_step in H. destruct (exists_ (sjoin td F_lookup) t) eqn:Ex.
  - unfold remove_file in H. destruct (is_file (sjoin td F_lookup) t) eqn:E; [|discriminate]. inversion H; subst t'.
    split; [split; [apply wf_del; auto|]|].
    + unfold is_file. rewrite od_get_del_other; [exact F|]. intros Y. rewrite Y in F. congruence.
    + intros p P. apply od_get_del_other. intros ->. rewrite (outside_file td F_lookup O) in P; [discriminate|cbn; auto].
  - inversion H; subst. split; [split|]; auto.
Qed.

Lemma members_keeps td l t t' : good_path td -> outside_payload td -> run_steps (members_steps td l) t = Ok t' -> keeps t t'.
Proof.
  intros G O H. unfold members_steps in H. rewrite run_cons in H. apply bind_ok in H. destruct H as (t1 & H1 & H).
  rewrite run_cons in H. apply bind_ok in H. destruct H as (t2 & H2 & H). inversion H; subst t2.
  eapply keeps_trans; [eapply ensure_keeps; eauto|]. apply (write_keeps td F_members _ _ _ G O) in H2; cbn; auto.
Qed.

Lemma lookup_keeps td d t t' : good_path td -> outside_payload td -> run_steps (lookup_steps td d) t = Ok t' -> keeps t t'.
Proof.
  intros G O H. unfold lookup_steps in H. destruct d as [d|]; [|inversion H; subst; apply keeps_refl].
  rewrite run_cons in H. apply bind_ok in H. destruct H as (t1 & H1 & H).
  rewrite run_cons in H. apply bind_ok in H. destruct H as (t2 & H2 & H). inversion H; subst t2.
  eapply keeps_trans; [eapply ensure_keeps; eauto|]. apply (write_keeps td F_lookup _ _ _ G O) in H2; cbn; auto.
Qed.

Lemma update_keeps v algs bsize version pv h h' : plain_algos v -> (forall a, In a algs -> In a (e_algos v)) ->
  update_info_disk v algs bsize version pv h = (h', Ok tt) -> keeps (hb_tree h) (hb_tree h').
Proof.
  intros S A H. apply update_info_inv in H. cbv zeta in H. destruct H as (t1 & t2 & S1 & S2 & ->). cbn [hb_tree set_tree].
  eapply keeps_trans; eapply save_keeps; eauto.
Qed.

(** ** Tags in memory after update_info *)

Lemma update_info_mem v algs bsize version profver h h' td :
  plain_size bsize -> info_ok Codecs (hb_info h) -> version <> [] -> tag_value_ok Codecs version ->
  tag_dir_raw (hb_info h) = Ok td ->
  tag_value_ok Codecs profver -> older_than_03 profver = false -> profver <> [] ->
  update_info_disk v algs bsize (Some version) profver h = (h', Ok tt) ->
  info_ok Codecs (hb_info h') /\ std_tags (hb_info h') td /\ info_truthy T_Version (hb_info h') = true /\
  hb_mem h' = hb_mem h /\ hb_lu h' = hb_lu h /\ hb_name h' = hb_name h /\ hb_reader h' = hb_reader h /\
  tag_values (hb_info h') T_ISD = with_about (tag_values (hb_info h) T_ISD) /\
  (forall k, ~ In k info_keys -> tag_values (hb_info h') k = tag_values (hb_info h) k).
Proof.
  intros B O Nv Hv Td Hp Op Np H. apply update_info_inv in H. cbv zeta in H. destruct H as (t1 & t2 & S1 & S2 & ->).
  cbn [hb_info hb_mem hb_lu hb_name hb_reader set_tree set_info].
  pose proof (proj1 O) as D.
  assert (O1 : info_ok Codecs (update_info_tags (Some version) profver (hb_info h))) by (apply update_tags_ok; auto).
  assert (Gv : od_get T_Version (od_set T_BagSize (IStr (bsize t1)) (update_info_tags (Some version) profver (hb_info h))) = Some (IStr profver)).
  { rewrite od_get_set_other by discriminate. rewrite update_tags_get by (auto; discriminate).
    change (streq T_Version T_HeadVersion) with false. rewrite streq_refl. reflexivity. }
  split; [|split; [split|split; [|split; [reflexivity|split; [reflexivity|split; [reflexivity|split; [reflexivity|split]]]]]]].
  - destruct (B t1) as [Bb Bt]. apply info_ok_put; [exact O1|apply lit_name; reflexivity|discriminate|].
    constructor; [|constructor]. apply value_ok_plain. split; auto.
  - unfold tag_dir_raw in *. rewrite od_get_set_other by discriminate. rewrite update_tags_get by (auto; discriminate).
    change (streq T_TagDir T_HeadVersion) with false. change (streq T_TagDir T_Version) with false. change (streq T_TagDir T_Reference) with false.
    rewrite streq_refl. destruct (od_get T_TagDir (hb_info h)) as [[s|l]|]; inversion Td; subst; reflexivity.
  - unfold profile_version, required_info. rewrite Gv. exact Op.
  - unfold info_truthy. rewrite Gv. destruct profver; congruence.
  - rewrite <- (update_tags_about version profver) by auto. unfold tag_values. rewrite od_get_set_other by discriminate. reflexivity.
  - intros k K. unfold tag_values. cbn [info_keys In] in K. rewrite od_get_set_other by (intros ->; tauto).
    rewrite update_tags_get; auto; try (intros ->; tauto).
    assert (X : forall a, a <> k -> streq k a = false) by (intros a Ha; apply streq_neq; auto).
    rewrite !X by (intros <-; tauto). destruct (od_get k (hb_info h)); reflexivity.
Qed.

(** ** The conversion *)

Lemma convert_run v algs bsize bagdir version pid name t i h' td :
  plain_algos v -> (forall a, In a algs -> In a (e_algos v)) -> plain_size bsize ->
  tags_of Codecs t = Ok i -> tag_dir_raw i = Ok td -> older_than_03 (profile_version i) = false ->
  tag_value_ok Codecs td -> good_path td -> outside_payload td ->
  version <> [] -> tag_value_ok Codecs version -> bag_files t -> name <> [] ->
  convert v algs bsize bagdir version pid (open_hb name t i Codecs) = (h', Ok tt) ->
  let ms := [{| Tsv.m_name := basename bagdir; m_uri := pid; m_comment := None; m_info := [] |}] in
  exists i2 lu d,
    (tag_dir i2 = td /\ info_ok Codecs i2) /\
    run_steps (single_steps v algs bsize version i i2 ms lu) t = Ok (hb_tree h') /\
    keeps t (hb_tree h') /\
    (forall p, od_get p d = if holds t p then Some name else None) /\ NoDup (od_keys d) /\
    (lu = Some d \/ (lu = None /\ d = [])) /\
    read (sjoin td F_members) (hb_tree h') = Some (fst (members_prefix ms)) /\
    read (sjoin td F_lookup) (hb_tree h') = (match lu with Some d => Some (lookup_text d) | None => None end) /\
    forall r, exists j, tags_of r (hb_tree h') = Ok j /\ std_tags j td /\ tag_values j T_HeadVersion = [version] /\
      tag_values j T_Version = [CURRENT_VERSION] /\ tag_values j T_Reference = [CURRENT_REFERENCE] /\ tag_values j T_TagDir = [td] /\
      tag_values j T_ISD = map (fun x => unfold_value r (one_line x)) (with_about (tag_values i T_ISD)) /\
      (forall k, ~ In k info_keys -> tag_values j k = map (fun x => unfold_value r (one_line x)) (tag_values i k)).
Proof.
  intros Pa Al B Ti Td Ov Tv Gt Ot Nv Vv W Nn H ms. unfold convert in H.
  apply bindM_ok in H. destruct H as ([] & h4 & H1 & H). apply bindM_ok in H. destruct H as ([] & h8 & H2 & Hf).
  unfold write_member_bags in H1. apply bindM_ok in H1. destruct H1 as ([] & h1 & H1 & H). apply bindM_ok in H. destruct H as ([] & h2 & H3 & H4).
  inversion H3; subst h2. clear H3.
  set (h0 := open_hb name t i Codecs) in *. pose proof (tags_of_ok _ _ _ Ti) as Oi.
  assert (X1 : info_ok Codecs (hb_info h1) /\ std_tags (hb_info h1) td /\ info_truthy T_Version (hb_info h1) = true /\
    hb_lu h1 = None /\ hb_name h1 = name /\ keeps t (hb_tree h1) /\
    run_steps (if info_truthy T_Version i then [] else info_steps v algs bsize (Some (U "1")) CURRENT_VERSION i) t = Ok (hb_tree h1) /\
    with_about (tag_values (hb_info h1) T_ISD) = with_about (tag_values i T_ISD) /\
    (forall k, ~ In k info_keys -> tag_values (hb_info h1) k = tag_values i k)).
  { unfold ensure_info in H1. cbn [hb_info h0 open_hb] in H1. destruct (info_truthy T_Version i) eqn:E.
    - inversion H1; subst h1. split; [exact Oi|]. split; [split; auto|]. split; [exact E|]. split; [reflexivity|]. split; [reflexivity|].
      split; [apply keeps_refl|]. split; [reflexivity|]. split; reflexivity.
    - destruct (update_info_mem v algs bsize (U "1") CURRENT_VERSION h0 h1 td B Oi) as (A1 & A2 & A3 & A4 & A5 & A6 & _ & A7 & A8); auto;
        try discriminate; try (apply plain_valueb_ok; reflexivity); try reflexivity.
      split; [exact A1|]. split; [exact A2|]. split; [exact A3|]. split; [exact A5|]. split; [exact A6|].
      split; [apply (update_keeps v algs bsize (Some (U "1")) CURRENT_VERSION h0 h1); auto|].
      split; [apply (update_info_run v algs bsize (Some (U "1")) CURRENT_VERSION h0 h1); exact H1|].
      split; [rewrite A7; apply about_once|exact A8]. }
  destruct X1 as (O1 & S1 & V1 & L1 & N1 & K1 & R1 & Ia & Ik).
  destruct (save_members_steps (set_mem h1 (Some ms)) h4 ms eq_refl H4) as (t4 & -> & R4).
  destruct (save_members_ok (set_mem h1 (Some ms)) _ ms eq_refl H4) as (t4' & E4 & Rm & Ro4). apply (f_equal hb_tree) in E4. cbn in E4. subst t4'.
  cbn [hb_info hb_tree set_mem] in R4, Rm, Ro4. rewrite (std_tag_dir _ _ S1) in R4, Rm, Ro4.
  unfold write_file_lookup in H2. apply bindM_ok in H2. destruct H2 as ([] & h5 & H5 & H2).
  unfold ensure_info in H5. cbn [hb_info set_mem set_tree] in H5. rewrite V1 in H5. inversion H5; subst h5. clear H5.
  apply bindM_ok in H2. destruct H2 as ([] & h5 & H5 & H2). apply bindM_ok in H2. destruct H2 as ([] & h6 & H6 & H7).
  set (h4 := set_tree (set_mem h1 (Some ms)) t4) in *.
  assert (W4 : bag_files t4 /\ forall p, is_payload p = true -> od_get p t4 = od_get p t).
  { apply (keeps_trans t (hb_tree h1) t4); auto. apply (members_keeps td ms); auto. }
  assert (D4 : NoDup (od_keys (hb_tree h4))) by (apply W4).
  destruct (clear_eff h4 h5 td (std_tag_dir _ _ S1) D4 H5) as (t5 & E5 & R5 & D5 & Rl5 & Ro5).
  assert (W5 : bag_files t5 /\ forall p, is_payload p = true -> od_get p t5 = od_get p t4).
  { apply (clear_keeps td); auto. apply W4. }
  assert (T5 : table_ok h5 []).
  { subst h5. apply fresh_table; [reflexivity|]. unfold cur_table, disk_lookup. cbn [hb_lu set_lu].
    rewrite (missing_lookup (set_lu (set_tree h4 t5) None) td S1 Rl5). reflexivity. }
  destruct (update_only _ _ _ _ _ _ H6) as (M6 & S6 & T6). destruct (T6 _ T5) as [d Td6].
  assert (Nm5 : hb_name h5 = name) by (subst h5; exact N1). assert (Tr5 : hb_tree h5 = t5) by (subst h5; reflexivity).
  destruct (default_update (src_of false h5) h5 h6 []) as (d' & C6 & G6); auto.
  { cbn [s_tree src_of]. rewrite Tr5. apply W5. }
  { cbn [s_name src_of]. rewrite Nm5. exact Nn. }
  { apply T5. }
  assert (d' = d) by (destruct Td6 as [Td6 _]; congruence). subst d'. cbn [s_tree s_name src_of od_get] in G6. rewrite Tr5, Nm5 in G6.
  destruct S6 as (S6n & S6t & _ & S6i & S6r).
  assert (I6 : hb_info h6 = hb_info h1) by (rewrite S6i; subst h5; reflexivity).
  assert (Tr6 : hb_tree h6 = t5) by (rewrite S6t; exact Tr5).
  destruct (save_lookup_steps _ _ H7) as (t8 & -> & R8). rewrite I6, (std_tag_dir _ _ S1), Tr6 in R8.
  exists (hb_info h1), (hb_lu h6), d. split; [split; [apply std_tag_dir; exact S1|exact O1]|].
  assert (K8 : keeps t t8).
  { eapply keeps_trans; [exact K1|]. eapply keeps_trans; [apply (members_keeps td ms); eauto|].
    eapply keeps_trans; [apply (clear_keeps td); eauto|]. apply (lookup_keeps td (hb_lu h6)); auto. }
  assert (Od : info_ok Codecs (hb_info (set_tree h6 t8))) by (cbn [hb_info set_tree]; rewrite I6; exact O1).
  destruct (update_info_tags_read v algs bsize version CURRENT_VERSION (set_tree h6 t8) h' B Od Nv Vv (plain_valueb_ok CURRENT_VERSION eq_refl) Hf)
    as (Nf & Mf & Lf & Qf & Tf).
  cbn [hb_tree hb_info hb_name hb_lu set_tree] in Qf, Tf. rewrite I6 in Tf.
  split.
  { unfold single_steps. cbv zeta. rewrite (std_tag_dir _ _ S1). rewrite run_app, R1. cbn [bind]. rewrite run_app, R4. cbn [bind].
    rewrite run_app, run_cons.
    cbn [hb_tree h4 set_tree] in R5. rewrite R5. cbn [bind]. change (run_steps [] t5) with (@Ok tree t5). cbn [bind]. rewrite run_app, R8. cbn [bind].
    pose proof (update_info_run _ _ _ _ _ _ _ Hf) as X. cbn [hb_info hb_tree set_tree] in X. rewrite I6 in X. exact X. }
  split; [eapply keeps_trans; [exact K8|]; apply (update_keeps _ _ _ _ _ _ _ Pa Al Hf)|].
  split.
  { intros p. rewrite G6. unfold holds. destruct (is_payload p) eqn:P; [|reflexivity]. cbn [andb]. unfold is_file.
    rewrite (proj2 W5 p P), (proj2 W4 p P). reflexivity. }
  split; [apply Td6|]. split.
  { destruct Td6 as [C _]. unfold cur_table, disk_lookup in C. destruct (hb_lu h6) as [d0|] eqn:L; [left; injection C as ->; reflexivity|]. right. split; [reflexivity|].
    rewrite (missing_lookup h6 td) in C; [inversion C; reflexivity|rewrite I6; exact S1|rewrite Tr6; exact Rl5]. }
  assert (Rd : forall q, ~ saved_file q -> read q (hb_tree h') = read q t8) by (intros q Hq; unfold read; rewrite Qf; auto).
  assert (X8 : read (sjoin td F_lookup) t8 = (match hb_lu h6 with Some d0 => Some (lookup_text d0) | None => None end) /\
               read (sjoin td F_members) t8 = read (sjoin td F_members) t5).
  { destruct (hb_lu h6) as [d0|] eqn:L.
    - destruct (save_lookup_ok h6 _ d0 L H7) as (t8' & E8 & Rl & Rx). apply (f_equal hb_tree) in E8. cbn in E8. subst t8'.
      rewrite I6, (std_tag_dir _ _ S1) in Rl, Rx. split; [exact Rl|]. rewrite Rx, Tr6; [reflexivity|apply members_not_lookup].
    - cbn in R8. inversion R8; subst t8. split; [exact Rl5|reflexivity]. }
  destruct X8 as [X8 Y8].
  split; [rewrite Rd by (apply tagfile_not_saved; cbn; auto); rewrite Y8, Ro5 by (apply members_not_lookup); exact Rm|].
  split; [rewrite Rd by (apply tagfile_not_saved; cbn; auto); exact X8|].
  intros r. destruct (Tf r) as (j & J1 & J2 & J3 & J4 & J5 & J6 & J7). exists j. split; [exact J1|].
  assert (Sj : tag_shape j).
  { unfold tags_of in J1. destruct (read (U "bag-info.txt") (hb_tree h')) as [c|]; [exact (Props_Restore3.load_shape _ _ _ J1)|]. injection J1 as <-. discriminate J2. }
  split; [|split; [exact J2|split; [exact J3|split; [exact J6|split; [unfold tag_values; rewrite (J4 td); [reflexivity|apply S1|exact Tv]|split; [rewrite J7, Ia; reflexivity|intros k K; rewrite (J5 k K), (Ik k K); reflexivity]]]]]]. split.
  - unfold tag_dir_raw. rewrite (J4 td); [reflexivity| |exact Tv]. apply S1.
  - unfold profile_version, required_info. rewrite (one_value _ _ _ Sj J3). reflexivity.
Qed.

(** C129: an amendment that was interrupted can be made again *)
Require Import String NArith PeanoNat Bool List Lia.
From Verif Require Import PyBase PyFacts Version Tsv TsvProofs Fs FsFacts HeadBag HeadBagProofs HeadBagProofs2 HeadBagProofs3 BagIt BagItProofs Split SplitApply SplitApplyProofs SplitApplyProofs5 SplitApplyProofs8 Restore RestoreProofs RestoreProofs2 RestoreProofs3 RestoreProofs4 RestoreProofs6 RestoreProofs7 RestoreProofs8 RestoreProofs9 RestoreProofs10 Props_Restore Props_Restore3 Amend AmendProofs AmendProofs2 AmendProofs3 AmendProofs4 Props_SplitApply Props_Amend AmendTotalProofs Props_AmendTotal Again SpecAgain AgainProofs AgainProofs2.
Import ListNotations.
Open Scope N_scope.

Lemma attempts_keep v algs bsize repr name td t0 i0 t :
  sane v -> NoDup (e_algos v) -> good_hash v -> incl algs (e_algos v) -> plain_size bsize -> tag_value_ok Codecs td -> name <> [] ->
  left v algs td t0 i0 t0 -> attempts v algs bsize repr name t0 t -> left v algs td t0 i0 t.
Proof. intros S1 S2 S3 S4 S5 S6 S7 L H. induction H; [exact L|]. eapply attempt_keeps; eauto. Qed.

Lemma left_refl v algs td t0 i0 : roomy v algs td t0 -> tags_of Codecs t0 = Ok i0 -> AmendTotalProofs.no_bom i0 -> tag_dir_raw i0 = Ok td -> left v algs td t0 i0 t0.
Proof.
  intros R T B D. constructor; [exact R|reflexivity|]. exists i0. split; [exact T|]. split; [exact B|]. split; [exact D|].
  split; [reflexivity|]. intros F. split; [exact F|reflexivity].
Qed.

(** Whatever attempts were made before: the bag can be opened and amended, and
    the result is that of the first amendment of the bag as it was. *)
Theorem C129_again_partial : forall v algs bsize repr ro old bags version new name t td ms t',
  plain_algos v -> NoDup (e_algos v) -> good_hash v -> incl algs (e_algos v) ->
  amendment bsize repr old new name t td version -> room v algs td t (hb_info new) -> name <> [] ->
  amends repr name t old bags version ->
  members_of old ms -> Forall (storable_member Codecs) (ms ++ map (fun s => plain_member (s_name s)) bags ++ [plain_member name]) ->
  attempts v algs bsize repr name t t' ->
  exists i' new1 old1 new2 old2,
    amend_bag_with v algs bsize repr ro old bags version new = (new1, Ok old1) /\
    tags_of Codecs t' = Ok i' /\
    amend_bag_with v algs bsize repr ro old bags version (open_hb name t' i' Codecs) = (new2, Ok old2) /\
    same_head name td (hb_info new) (hb_tree new1) (hb_tree new2).
Proof.
  intros v algs bsize repr ro old bags version new name t td ms t' Pa Na Gh Ia Am Rm Nn As Hm Fm At.
  pose proof As as (Nv & Vv & Fd & Ao & Lo & Wo & No & Wb & St).
  pose proof Am as (B & (i & Ti & En & Td) & D & Tv & _). subst new.
  destruct (room_roomy _ _ _ _ _ Rm) as [R1 R2]. cbn [open_hb hb_info] in R2.
  assert (L0 : left v algs td t i t) by (apply left_refl; auto).
  assert (L : left v algs td t i t') by (apply (attempts_keep v algs bsize repr name); auto).
  destruct (l_tags _ _ _ _ _ _ L) as (i' & Ti' & Nb' & Td' & Ak). pose proof (l_room _ _ _ _ _ _ L) as R1'.
  assert (Wb' : Forall (fun s => wf_tree (s_tree s) /\ s_name s <> []) bags) by (eapply Forall_impl; [|exact Wb]; intros s [[W _] N0]; auto).
  destruct (amend_total v algs bsize repr ro old bags version name t i td) as (new1 & old1 & H1); auto; [apply amendable_takes; exact Ao|].
  destruct (amend_total v algs bsize repr ro old bags version name t' i' td) as (new2 & old2 & H2); auto; [apply amendable_takes; exact Ao|].
  exists i', new1, old1, new2, old2. split; [exact H1|]. split; [exact Ti'|]. split; [exact H2|].
  assert (Wt : bag_files t) by apply R1. assert (Wt' : bag_files t') by apply R1'.
  assert (D' : NoDup (od_keys t')) by (apply wf_nodup; exact (proj1 Wt')).
  assert (Am' : amendment bsize repr old (open_hb name t' i' Codecs) name t' td version).
  { split; [exact B|]. split; [exists i'; auto|]. auto. }
  assert (G : good_path td) by apply R1. assert (O : outside_payload td) by apply R1.
  assert (Hh : is_head old = true -> hb_lu old = None /\ exists es, iter_file_lookup old = Ok es).
  { intros Eh. split; [exact Lo|]. destruct Ao as [(Eh' & _)|(_ & _ & es & Ies & _)]; [congruence|eauto]. }
  assert (St' : all_storable Codecs old (map bag_of bags ++ [(name, t')])).
  { split; [apply St|]. intros b p Ib Hb. apply in_app_or in Ib. destruct Ib as [Ib|[<-|[]]].
    - apply St; [apply in_or_app; left; exact Ib|exact Hb].
    - cbn [fst snd] in *. change (holds t' p = true) in Hb. rewrite (left_holds _ _ _ _ _ _ L) in Hb.
      exact (proj2 St (name, t) p ltac:(apply in_or_app; right; left; reflexivity) Hb). }
  assert (Em : map entry_of (map default_bag bags) = map (fun s => plain_member (s_name s)) bags) by (rewrite map_map; reflexivity).
  assert (Fm' : Forall (storable_member Codecs) (ms ++ map entry_of (map default_bag bags) ++ [own_member None None [] name])) by (rewrite Em; exact Fm).
  destruct (C41_members v algs bsize repr ro old (map default_bag bags) (own_member None None []) SNone SNone version _ new1 old1 name t td ms Am Hm H1 Codecs Fm') as (j1 & T1 & _ & M1).
  destruct (C41_members v algs bsize repr ro old (map default_bag bags) (own_member None None []) SNone SNone version _ new2 old2 name t' td ms Am' Hm H2 Codecs Fm') as (j2 & T2 & _ & M2).
  destruct (C42_exact v algs bsize repr ro old bags version _ new1 old1 name t td Am G O Hh Wo No Wb Wt Nn H1 Codecs St) as (j1' & T1' & K1).
  destruct (C42_exact v algs bsize repr ro old bags version _ new2 old2 name t' td Am' G O Hh Wo No Wb Wt' Nn H2 Codecs St') as (j2' & T2' & K2).
  assert (j1' = j1) by congruence. assert (j2' = j2) by congruence. subst j1' j2'.
  exists j1, j2. split; [exact T1|]. split; [exact T2|]. split; [|split; [|split]].
  - destruct (amend_disk v algs bsize repr ro old (map default_bag bags) (own_member None None []) SNone SNone version _ new1 old1 name t td B (ex_intro _ i (conj Ti eq_refl)) D Td Tv Nv Vv Fd H1) as
      (? & ? & ? & ? & _ & _ & _ & _ & _ & _ & _ & _ & _ & _ & _ & _ & _ & _ & X1).
    destruct (amend_disk v algs bsize repr ro old (map default_bag bags) (own_member None None []) SNone SNone version _ new2 old2 name t' td B (ex_intro _ i' (conj Ti' eq_refl)) D' Td' Tv Nv Vv Fd H2) as
      (? & ? & ? & ? & _ & _ & _ & _ & _ & _ & _ & _ & _ & _ & _ & _ & _ & _ & X2).
    destruct (X1 Codecs) as (a1 & A1 & _ & A3 & A4 & A5 & A6 & A7 & A8 & A9). assert (a1 = j1) by congruence. subst a1.
    destruct (X2 Codecs) as (a2 & A1' & _ & A3' & A4' & A5' & A6' & A7' & A8' & A9'). assert (a2 = j2) by congruence. subst a2.
    cbn [open_hb hb_info] in *. destruct Ak as [Ak1 Ak2].
    intros k Q1 Q2 F.
    destruct (str_eq_dec k T_HeadVersion) as [->|N1]; [congruence|]. destruct (str_eq_dec k T_HeadDeprecates) as [->|N2]; [congruence|].
    destruct (str_eq_dec k T_Version) as [->|N3]; [congruence|]. destruct (str_eq_dec k T_Reference) as [->|N4]; [congruence|].
    destruct (str_eq_dec k T_TagDir) as [->|N5]; [congruence|]. destruct (str_eq_dec k T_ISD) as [->|N6].
    { rewrite A8, A8'. destruct (Ak2 F) as [_ E]. rewrite E. reflexivity. }
    assert (Nk : ~ In k info_keys) by (unfold info_keys; cbn [In]; intros [X|[X|[X|[X|[X|[X|[X|[]]]]]]]]; subst k; auto).
    rewrite A9, A9' by auto. rewrite (Ak1 k Nk N2 F). reflexivity.
  - eexists. split; [exact M1|exact M2].
  - intros p. eexists. split; [apply K1|]. rewrite K2. f_equal. apply (left_lookups _ _ _ _ _ _ _ _ _ L).
  - intros q Q1 Q2 Q3 Q4.
    assert (Ns : ~ saved_file q) by (intros [X|[a X]]; [exact (Q1 X)|exact (Q2 a X)]).
    rewrite (C43_unchanged v algs bsize repr ro old (map default_bag bags) (own_member None None []) SNone SNone version _ new2 old2 name t' td q Am' Q3 Q4 Ns H2).
    rewrite (C43_unchanged v algs bsize repr ro old (map default_bag bags) (own_member None None []) SNone SNone version _ new1 old1 name t td q Am Q3 Q4 Ns H1).
    destruct (str_eq_dec q td) as [->|Nq].
    + destruct (ry_tagdir _ _ _ _ R1) as [X _]. destruct (ry_tagdir _ _ _ _ R1') as [X' _].
      assert (Z : forall s : tree, is_dir td s = true \/ exists_ td s = false /\ is_dir (dirname td) s = true -> read td s = None).
      { intros s [Y|[Y _]].
        - unfold is_dir in Y. unfold read. destruct td; [exfalso; apply (good_path_nonempty _ G); reflexivity|]. destruct (od_get (n :: td) s) as [[|]|]; congruence.
        - apply exists_false in Y. destruct Y as [Y _]. unfold read. rewrite Y. reflexivity. }
      rewrite !Z by assumption. reflexivity.
    + unfold read. rewrite (l_rest _ _ _ _ _ _ L q Ns Nq Q3 Q4). reflexivity.
Qed.
Print Assumptions C129_again_partial.

(** An amendment that came to its end is one of the attempts. So amending twice
    is like amending once. *)
Theorem C129_whole : forall v algs bsize repr ro old bags version new new' old' name t td,
  amendment bsize repr old new name t td version ->
  amend_bag_with v algs bsize repr ro old bags version new = (new', Ok old') ->
  attempt v algs bsize repr ro old bags version name t (hb_tree new').
Proof.
  intros v algs bsize repr ro old bags version new new' old' name t td (B & (i & Ti & En & Td) & D & Tv & Nv & Vv & Fd) H. subst new.
  destruct (amend_disk v algs bsize repr ro old (map default_bag bags) (own_member None None []) SNone SNone version _ new' old' name t td B (ex_intro _ i (conj Ti eq_refl)) D Td Tv Nv Vv Fd H) as
    (ms & t2 & h & d & _ & Al & R1 & _ & Ei & Hm & _ & _ & _ & _ & _ & _ & _ & R2 & _).
  exists i, h, old', (last_ones (ms ++ map ab_member (map default_bag bags) ++ [own_member None None [] name])).
  split; [exact Ti|]. split; [exact Al|]. split; [exact Hm|].
  assert (S0 : std_tags (hb_info h) td) by (rewrite Ei; apply init_std; exact Td).
  assert (Pv : profile_version (hb_info h) = CURRENT_VERSION) by (unfold profile_version, required_info; rewrite Ei, init_info_version; reflexivity).
  exists (length (amend_steps v algs bsize version (hb_info h) (last_ones (ms ++ map ab_member (map default_bag bags) ++ [own_member None None [] name])) (hb_lu h))).
  rewrite firstn_all. unfold amend_steps. cbv zeta. rewrite (std_tag_dir _ _ S0), Pv. rewrite run_app, R1. exact R2.
Qed.
Print Assumptions C129_whole.

(** ** What is missing: stops in the middle of a write *)

(** If the table of files was cut inside a path, it cannot be read, and the
    amendment cannot be made again: the table is read before it is removed. *)
Theorem C129_table_refuted : forall v algs bsize repr ro old bags version name t i td ms c e,
  NoDup (od_keys t) -> tag_dir_raw i = Ok td -> members_of old ms -> ms <> [] ->
  read (td ++ U "/file-lookup.tsv") t = Some c -> parse_file Codecs parse_lookup_03 (decode Codecs c) = Err e -> e <> EMissingFile ->
  forall new' old', amend_bag_with v algs bsize repr ro old bags version (open_hb name t i Codecs) <> (new', Ok old').
Proof.
  intros v algs bsize repr ro old bags version name t i td ms c e D Td Hm Nm R Pe Ne new' old' H.
  set (new := open_hb name t i Codecs) in *. pose proof (init_std repr old new td Td) as S0.
  unfold amend_bag_with, amend in H. apply bindM_ok in H. destruct H as (o & h & H & _). unfold amend_lists in H.
  pose proof (init_new repr false old new) as En. pose proof (init_old repr false old new) as Eo. cbv zeta in Eo.
  destruct (init_multibag_info repr false old new) as [o' n]. cbn [fst snd] in En, Eo. subst n. destruct Eo as (Eh & Em & _ & Ena & _).
  apply bindM_ok in H. destruct H as ([] & h1 & H & _). unfold init_member_bags in H. apply bindM_ok in H. destruct H as ([] & h2 & H1 & H).
  destruct (reset_eff (set_info new (init_info repr false old new)) h2 td S0 eq_refl D H1) as (t1 & -> & R1 & _ & _).
  assert (X : exists m h3, add_member_bag m true (set_tree (set_info new (init_info repr false old new)) t1) = (h3, Ok tt)).
  { rewrite Eh, Em, Ena in H. destruct Hm as [[Hd Hm]|[Hd Hm]]; rewrite Hd in H.
    - rewrite Hm in H. destruct ms as [|m ms]; [congruence|]. cbn [forM] in H. apply bindM_ok in H. destruct H as ([] & h3 & H & _). eauto.
    - eauto. }
  destruct X as (m & h3 & X). apply add_member_inv in X. destruct X as (l & d & _ & C). unfold cur_table, disk_lookup in C. cbn [hb_lu set_tree set_info open_hb] in C.
  change (hb_lu new) with (@None (dict pystr)) in C. cbv iota in C.
  assert (R2 : read (sjoin td F_lookup) t1 = Some c).
  { change (reset_step td t = Ok t1) in R1. unfold reset_step in R1. destruct (is_file (sjoin td F_members) t) eqn:F.
    - unfold remove_file in R1. rewrite F in R1. injection R1 as <-. unfold read. rewrite od_get_del_other; [exact R|].
      intros X. apply sjoin_eq in X. discriminate X.
    - rewrite (proj2 (proj2 (ensure_step_other td t t1 R1))). exact R. }
  rewrite (iter_lookup_read (set_tree (set_info new (init_info repr false old new)) t1) td c S0 R2) in C.
  change (hb_reader (set_tree (set_info new (init_info repr false old new)) t1)) with Codecs in C. rewrite Pe in C. destruct e; try discriminate C. congruence.
Qed.
Print Assumptions C129_table_refuted.

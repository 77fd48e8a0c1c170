(** Proofs about amendments that are made again, continued *)
Require Import String NArith PeanoNat Bool List Lia.
From Verif Require Import PyBase PyFacts Version Tsv TsvProofs Fs FsFacts HeadBag HeadBagProofs HeadBagProofs2 HeadBagProofs3 BagIt BagItProofs Split SplitApply SplitApplyProofs SplitApplyProofs5 SplitApplyProofs8 Restore RestoreProofs RestoreProofs2 RestoreProofs3 RestoreProofs4 RestoreProofs6 RestoreProofs7 RestoreProofs8 RestoreProofs9 RestoreProofs10 Props_Restore Props_Restore3 Amend AmendProofs AmendProofs2 AmendProofs3 AmendProofs4 Props_SplitApply Props_Amend AmendTotalProofs Props_AmendTotal Again SpecAgain AgainProofs.
Import ListNotations.
Open Scope N_scope.

(** ** The tags that an attempt leaves *)

Definition left_tags (td : pystr) (i0 j : infod) : Prop :=
  AmendTotalProofs.no_bom j /\ tag_dir_raw j = Ok td /\ alike i0 j.

Lemma info_left repr old new td i0 version i2 :
  version <> [] -> tag_value_ok Codecs version -> tag_value_ok Codecs td ->
  Forall (tag_value_ok Codecs) (deprecates repr (hb_info old)) ->
  info_ok Codecs (hb_info new) -> left_tags td i0 (hb_info new) ->
  (i2 = update_info_tags (Some version) CURRENT_VERSION (init_info repr false old new) \/
   exists x, tag_value_ok Codecs x /\ i2 = od_set T_BagSize (IStr x) (update_info_tags (Some version) CURRENT_VERSION (init_info repr false old new))) ->
  exists j, load_tags Codecs (info_text i2) = Ok j /\ left_tags td i0 j.
Proof.
  intros Nv Vv Vt Fd Oi (Nb & Td & [A1 A2]) I2. set (ii := init_info repr false old new) in *.
  assert (O0 : info_ok Codecs ii) by (apply init_info_ok; auto). pose proof (proj1 O0) as D0.
  assert (B0 : AmendTotalProofs.no_bom ii) by (apply no_bom_init; exact Nb).
  set (i1 := update_info_tags (Some version) CURRENT_VERSION ii) in *.
  assert (O1 : info_ok Codecs i1) by (apply update_tags_ok; auto; apply plain_valueb_ok; reflexivity).
  assert (B1 : AmendTotalProofs.no_bom i1) by (apply no_bom_update; exact B0).
  assert (O2 : info_ok Codecs i2).
  { destruct I2 as [->|(x & Hx & ->)]; [exact O1|]. apply info_ok_put; [exact O1|apply lit_name; reflexivity|discriminate|].
    constructor; [|constructor]. apply value_ok_plain. exact Hx. }
  assert (B2 : AmendTotalProofs.no_bom i2) by (destruct I2 as [->|(x & Hx & ->)]; [exact B1|apply no_bom_set; [exact B1|discriminate]]).
  assert (G2 : forall k, k <> T_BagSize -> od_get k i2 = od_get k i1) by (intros k K; destruct I2 as [->|(x & Hx & ->)]; [reflexivity|apply od_get_set_other; auto]).
  assert (V2 : forall k, k <> T_BagSize -> tag_values i2 k = tag_values i1 k) by (intros k K; unfold tag_values; rewrite G2 by exact K; reflexivity).
  assert (Gv : od_get T_Version i2 = Some (IStr CURRENT_VERSION)).
  { rewrite G2 by discriminate. unfold i1. rewrite update_tags_get by (auto; discriminate). reflexivity. }
  destruct (info_read Codecs i2 T_Version (IStr CURRENT_VERSION) O2 (od_get_in _ _ _ Gv) eq_refl) as (j & L & V).
  exists j. split; [exact L|]. pose proof (load_shape _ _ _ L) as Sh. split; [|split; [|split]].
  - intros k Ik. apply B2. destruct (od_get k i2) eqn:E; [apply od_get_in in E; apply in_map_iff; eexists; split; [|exact E]; reflexivity|].
    exfalso. revert Ik. apply no_values; [exact Sh|]. rewrite V. unfold tag_values. rewrite E. reflexivity.
  - assert (T : od_get T_TagDir j = Some (IStr td)).
    { apply one_value; [exact Sh|]. rewrite V, V2 by discriminate. unfold tag_values, i1. rewrite update_tags_get by (auto; discriminate).
      change (streq T_TagDir T_HeadVersion) with false. change (streq T_TagDir T_Version) with false. change (streq T_TagDir T_Reference) with false. rewrite streq_refl.
      unfold ii. rewrite init_info_get by discriminate. change (streq T_TagDir T_HeadDeprecates) with false. cbv iota.
      unfold tag_dir_raw in Td. destruct (od_get T_TagDir (hb_info new)) as [[s|l]|]; inversion Td; subst; cbn [map]; rewrite read_plain; auto. }
    unfold tag_dir_raw. rewrite T. reflexivity.
  - intros k K1 K2 F. rewrite V. assert (K3 := K1). unfold info_keys in K1. cbn [In] in K1. rewrite V2 by (intros ->; tauto).
    assert (E : tag_values i1 k = tag_values (hb_info new) k).
    { unfold tag_values, i1. rewrite update_tags_get; auto; try (intros ->; tauto).
      assert (X : forall a, a <> k -> streq k a = false) by (intros a Ha; apply streq_neq; auto).
      rewrite !X by (intros <-; tauto). unfold ii. rewrite init_info_get by (intros ->; tauto). rewrite (X T_HeadDeprecates) by auto.
      destruct (od_get k (hb_info new)); reflexivity. }
    rewrite E, A1 by assumption. apply read_plains. exact F.
  - intros F. destruct (A2 F) as [F1 E1].
    assert (E : tag_values j T_ISD = with_about (tag_values (hb_info new) T_ISD)).
    { rewrite V, V2 by discriminate. unfold i1. rewrite update_tags_about by auto.
      assert (E2 : tag_values ii T_ISD = tag_values (hb_info new) T_ISD) by (unfold tag_values, ii; rewrite init_info_get by discriminate; reflexivity).
      rewrite E2. apply read_plains. unfold with_about. destruct (existsb _ _); [exact F1|]. apply Forall_app. split; [exact F1|]. constructor; [|constructor].
      apply plain_valueb_ok. vm_compute. reflexivity. }
    rewrite E. split; [|rewrite about_once; exact E1].
    unfold with_about. destruct (existsb _ _); [exact F1|]. apply Forall_app. split; [exact F1|]. constructor; [|constructor].
    apply plain_valueb_ok. vm_compute. reflexivity.
Qed.

(** ** One attempt *)

Lemma td_outside td p : outside_payload td -> is_payload p = true -> p <> td.
Proof.
  intros O P ->. unfold outside_payload, is_payload in *. apply startswith_iff in P. destruct P as (r & P). 
  assert (Y : startswith (td ++ [SLASH]) (U "data/") = true) by (apply startswith_iff; exists (r ++ [SLASH]); rewrite app_assoc; f_equal; exact P). congruence.
Qed.

Lemma saved_outside p : is_payload p = true -> ~ saved_file p.
Proof. intros P [->|[a ->]]; discriminate P. Qed.

Lemma left_holds v algs td t0 i0 t : left v algs td t0 i0 t -> forall p, holds t p = holds t0 p.
Proof.
  intros L p. unfold holds. destruct (is_payload p) eqn:P; [|reflexivity]. cbn [andb]. unfold is_file.
  assert (O : outside_payload td) by apply L.
  rewrite (l_rest v algs td t0 i0 t L); [reflexivity|apply saved_outside; exact P|apply td_outside; assumption| |];
    intros ->; rewrite outside_file in P; cbn; auto; discriminate P.
Qed.

Lemma lookups_app m l l' p : lookups m (l ++ l') p = lookups (lookups m l) l' p.
Proof. unfold lookups. rewrite fold_left_app. reflexivity. Qed.

Lemma left_lookups v algs td t0 i0 t m bags name : left v algs td t0 i0 t ->
  forall p, lookups m (bags ++ [(name, t)]) p = lookups m (bags ++ [(name, t0)]) p.
Proof.
  intros L p. rewrite !lookups_app. cbn [lookups fold_left]. unfold step_lookup. cbn [fst snd].
  assert (H := left_holds _ _ _ _ _ _ L). unfold lookups. cbn [fold_left]. unfold step_lookup. cbn [fst snd]. rewrite H. reflexivity.
Qed.

Lemma attempt_keeps v algs bsize repr ro old bags version name td t0 i0 t t' :
  sane v -> NoDup (e_algos v) -> good_hash v -> incl algs (e_algos v) -> plain_size bsize -> tag_value_ok Codecs td -> name <> [] ->
  amends repr name t0 old bags version -> left v algs td t0 i0 t ->
  attempt v algs bsize repr ro old bags version name t t' -> left v algs td t0 i0 t'.
Proof.
  intros Hs Na Hg Hi Bs Vt Nn (Nv & Vv & Fd & Ao & Lo & Wo & No & Wb & St) L (i & h & o & l & Ti & Al & Hm & k & R).
  change (tags_of Codecs t = Ok i) in Ti.
  destruct (l_tags _ _ _ _ _ _ L) as (j & Tj & Lt). assert (j = i) by congruence. subst j. destruct Lt as (Nb & Td & Ak).
  pose proof (l_room _ _ _ _ _ _ L) as Ry. set (new := open_hb name t i Codecs) in *.
  assert (Wt : bag_files t) by apply Ry. assert (G : good_path td) by apply Ry. assert (O : outside_payload td) by apply Ry.
  assert (D : NoDup (od_keys t)) by (apply wf_nodup; exact (proj1 Wt)).
  destruct (amend_total v algs bsize repr ro old bags version name t i td) as (new' & o' & H); auto.
  { apply amendable_takes. exact Ao. }
  { eapply Forall_impl; [|exact Wb]. intros s [[W _] N0]. auto. }
  fold new in H.
  destruct (amend_disk v algs bsize repr ro old (map default_bag bags) (own_member None None []) SNone SNone version new new' o' name t td Bs) as
    (ms & t2 & h' & d & Om & Al' & R1 & Et & Ei & Hm' & Tb & Ln & _); auto.
  { exists i. auto. }
  assert (h' = h) by congruence. subst h'.
  pose proof (init_std repr old new td Td) as S0.
  destruct (amend_table repr ro old bags new h o td S0 eq_refl eq_refl D Wo No Wb Wt Nn G O Al) as (d' & Tb' & Gd).
  assert (d' = d) by (destruct Tb as [Tb _], Tb' as [Tb' _]; congruence). subst d'.
  assert (Pl : forall d0, hb_lu h = Some d0 -> exists es, parse_file Codecs parse_lookup_03 (decode Codecs (lookup_text d0)) = Ok es).
  { intros d0 E0. assert (d0 = d) by (destruct Tb as [Tb _]; unfold cur_table in Tb; rewrite E0 in Tb; congruence). subst d0.
    assert (Sd : Forall (storable_entry Codecs) d).
    { apply Forall_forall. intros [q x] I. assert (E : od_get q d = Some x) by (apply od_in_get; [apply Tb|exact I]). rewrite Gd in E.
      change (hb_name new) with name in E. change (hb_tree new) with t in E.
      rewrite (left_lookups _ _ _ _ _ _ _ _ _ L) in E. apply lookups_from in E. destruct E as [E|(b & Ib & Hb & ->)].
      - apply St. unfold answer_of. unfold old_answer in E. destruct (is_head old) eqn:Eh.
        + left. split; [reflexivity|]. destruct Ao as [(Eh' & _)|(_ & _ & es & Ies & _)]; [congruence|]. unfold lookup_file_ro, cache_file_lookup. rewrite Lo, Ies.
          rewrite Ies in E. cbn. rewrite E. reflexivity.
        + right. split; [reflexivity|]. unfold holds in E. rewrite E. reflexivity.
      - apply St; auto. }
    exists d. rewrite decode_id by (apply lookup_text_no_bom; auto). apply lookup_roundtrip. apply Forall_storable_legal. exact Sd. }
  assert (Oi : info_ok Codecs i) by (apply (tags_of_ok _ _ _ Ti)).
  assert (Pv : profile_version (hb_info h) = CURRENT_VERSION) by (unfold profile_version, required_info; rewrite Ei, init_info_version; reflexivity).
  assert (Th : tag_dir (hb_info h) = td) by (rewrite Ei; apply std_tag_dir; exact S0).
  assert (Lt : left_tags td i0 (hb_info new)) by (exact (conj Nb (conj Td Ak))).
  refine (run_keeps v algs td t0 i0 _ _ t t' L R). apply Props_Amend.Forall_firstn. unfold amend_steps. cbv zeta. rewrite Th, Pv, Ei.
  assert (Ks : forall f : tree -> infod, (forall x, exists j, load_tags Codecs (info_text (f x)) = Ok j /\ left_tags td i0 j) ->
             Forall (keeps v algs td t0 i0) (save_steps v algs f)).
  { intros f F. constructor; [apply keep_info; assumption|]. rewrite Forall_map. apply Forall_forall. intros a Ia. apply keep_tagman; assumption. }
  repeat rewrite Forall_app. split; [|split; [|split]].
  - constructor; [apply keep_reset; assumption|]. constructor; [apply keep_clear; assumption|constructor].
  - constructor; [apply keep_ensure; assumption|]. constructor; [|constructor]. apply keep_put; try assumption; [cbn; auto|discriminate].
  - unfold lookup_steps. destruct (hb_lu h) as [d0|]; [|constructor]. constructor; [apply keep_ensure; assumption|]. constructor; [|constructor].
    apply keep_put; try assumption; [cbn; auto|]. intros _. apply Pl. reflexivity.
  - unfold info_steps. cbv zeta. apply Forall_app. split; apply Ks; intros x.
    + apply (info_left repr old new td i0 version); auto.
    + apply (info_left repr old new td i0 version); auto. right. exists (bsize x). split; [|reflexivity]. destruct (Bs x). split; auto.
Qed.

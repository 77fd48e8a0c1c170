(** Proofs about an Amender that is used step by step: the first call and the result *)
Require Import String NArith PeanoNat Bool List Lia.
From Verif Require Import PyBase PyFacts Version Tsv TsvProofs Fs FsFacts HeadBag HeadBagProofs HeadBagProofs2 HeadBagProofs3 BagIt BagItProofs Split SplitApply SplitApplyProofs SplitApplyProofs5 SplitApplyProofs8 Restore RestoreProofs RestoreProofs2 RestoreProofs3 RestoreProofs4 RestoreProofs6 RestoreProofs7 RestoreProofs8 RestoreProofs9 RestoreProofs10 Props_Restore Props_Restore3 Amend AmendProofs AmendProofs2 AmendProofs3 AmendProofs4 Props_SplitApply Props_Amend SingleProofs AmendTotalProofs Props_AmendTotal SingleTotalProofs Stepwise SpecStepwise StepwiseProofs StepwiseProofs2.
Import ListNotations.
Open Scope N_scope.

Lemma reset_nodup td t t1 : NoDup (od_keys t) -> reset_step td t = Ok t1 -> NoDup (od_keys t1).
Proof.
  intros D R1. unfold reset_step in R1. destruct (is_file _ _) eqn:F.
  - unfold remove_file in R1. rewrite F in R1. injection R1 as <-. apply od_del_NoDup; auto.
  - apply (ensure_step_other _ _ _ R1). auto.
Qed.

(** After init_from_amendee. *)
Lemma init_state v algs repr ro old name t i td : sane v -> incl algs (e_algos v) ->
  tags_of Codecs t = Ok i -> no_bom i -> tag_dir_raw i = Ok td -> name <> [] -> roomy v algs td t ->
  Forall (tag_value_ok Codecs) (deprecates repr (hb_info old)) ->
  takes_over old -> bag_files (hb_tree old) -> hb_name old <> [] ->
  exists old' h ms d, init_from_amendee repr false ro old (open_hb name t i Codecs) = (h, Ok old') /\
    old_members old ms /\ between v algs name td t (init_info repr false old (open_hb name t i Codecs)) h (last_ones ms) d /\
    (forall p, od_get p d = old_answer old p).
Proof.
  intros Hs Ia Ti Nb Td Nn [Bf G O Ns Tt Lr Sv Gn] Fd To Wo No. set (new := open_hb name t i Codecs).
  destruct (lists_total repr ro old [] new td name t i eq_refl Td Nn Bf G O Tt Lr To ltac:(constructor)) as (hz & oz & tz & El & _).
  unfold init_from_amendee. unfold amend_lists in El.
  pose proof (init_std repr old new td Td) as S0.
  pose proof (init_new repr false old new) as En. pose proof (init_old repr false old new) as Eo. cbv zeta in Eo.
  set (i0 := init_info repr false old new) in *.
  destruct (init_multibag_info repr false old new) as [o n]. cbn [fst snd] in En, Eo. subst n. destruct Eo as (Eh & Em & Ef & Ena & Et).
  apply bindM_ok in El. destruct El as ([] & h1 & H1 & El). apply bindM_ok in El. destruct El as ([] & h2 & H2 & _).
  assert (D : NoDup (od_keys t)) by (apply wf_nodup; exact (proj1 Bf)).
  destruct (init_members_eff o (set_info new i0) h1 td S0 eq_refl eq_refl D H1) as (ms & t1 & Om & R1 & D1 & S1 & C1).
  change (hb_tree (set_info new i0)) with t in R1.
  destruct S1 as (Sn & St & Sdi & Si & Sr). cbn [hb_name hb_tree hb_info hb_dinfo hb_reader set_tree set_info] in Sn, St, Sdi, Si, Sr.
  assert (S' : std_tags (hb_info h1) td) by (rewrite Si; exact S0).
  assert (D' : NoDup (od_keys (hb_tree h1))) by (rewrite St; exact D1).
  destruct (init_lookup_eff ro o h1 h2 td _ S' D' C1 H2) as (t2 & hx & R2 & D2 & Ex & Tx & Ox & C2 & Src).
  destruct (proj2 (proj2 Ox) _ Tx) as [d2 T2].
  exists o, h2, ms, d2. split; [unfold bindM; rewrite H1, H2; reflexivity|].
  assert (Om' : old_members old ms) by (unfold old_members in *; rewrite Eh, Em, Ena in Om; exact Om).
  split; [exact Om'|].
  assert (Ov : same_disk (set_tree (set_info new i0) t2) h2).
  { eapply same_disk_trans; [|exact (proj1 (proj2 Ox))]. subst hx.
    unfold same_disk. cbn [hb_name hb_tree hb_info hb_dinfo hb_reader set_tree set_info set_lu]. auto. }
  destruct Ov as (On & Ott & _ & Oi & _). cbn [hb_name hb_tree hb_info set_tree set_info] in On, Ott, Oi.
  rewrite St in R2. destruct (reset_payload td t t1 t2 G O Bf R1 R2) as [W2 Hh].
  destruct (savable_reset v algs td t t1 t2 Hs Ia G O Ns Tt Bf R1 R2 Sv) as (Sv2 & Hd2 & Ht2).
  split.
  - constructor; rewrite ?Ott, ?Oi.
    + exact On.
    + rewrite <- add_all_last. exact C2.
    + rewrite <- add_all_last. apply add_all_Forall; [|constructor]. unfold takes_over in To. unfold old_members in Om'. destruct (is_head old).
      * destruct To as ((ms' & E & F) & _). assert (ms' = ms) by congruence. subst ms'. exact F.
      * subst ms. repeat constructor.
    + exact T2.
    + intros _. apply (clear_step_none td t1 t2 D1 R2).
    + apply init_info_ok; [exact (tags_of_ok _ _ _ Ti)|exact Fd].
    + apply no_bom_init. exact Nb.
    + exact (proj1 S0).
    + apply init_info_version.
    + reflexivity.
    + reflexivity.
    + exact Sv2.
    + split; assumption.
    + exact W2.
    + exact Hh.
    + intros q Q1 Q2 Q3 Q4. destruct (clear_step_none td t1 t2 D1 R2) as [_ Z]. rewrite Z by exact Q4.
      exact (proj1 (reset_nodes td t t1 G D Tt R1) q Q2 Q3).
  - intros p. unfold old_answer. rewrite Eh in Src. destruct (is_head old).
    + destruct Src as (es & Ies & Fe). rewrite Ef in Ies. rewrite Ies.
      pose proof (entries_table _ _ _ _ (proj1 Tx) Fe) as C. destruct T2 as [T2 _]. rewrite C in T2. inversion T2 as [T2'].
      unfold od_of_pairs. reflexivity.
    + destruct (default_update (src_of ro o) hx h2 []) as (d' & C & Gp).
      * cbn [s_tree src_of]. rewrite Et. exact Wo.
      * cbn [s_name src_of]. rewrite Ena. exact No.
      * apply Tx.
      * exact Src.
      * destruct T2 as [T2 _]. rewrite C in T2. inversion T2; subst d'. rewrite Gp. cbn [s_tree s_name src_of od_get]. rewrite Et, Ena. reflexivity.
Qed.

Lemma forM_app {A} (f : A -> M unit) a b h : forM (a ++ b) f h = (forM a f ;; forM b f) h.
Proof.
  revert h. induction a as [|x a IH]; intros h; [reflexivity|]. cbn [app forM]. unfold bindM. destruct (f x h) as [h1 [[]|e]]; [|reflexivity].
  rewrite IH. unfold bindM. reflexivity.
Qed.

(** amend_bag_with makes the calls one after the other. *)
Lemma amend_is_calls v algs bsize repr ro old bags version new :
  amend_bag_with v algs bsize repr ro old bags version new = use_amender v algs bsize repr ro old (map CAdd bags ++ [CFinalize version]) new.
Proof.
  assert (X : forall h, forM (map default_bag bags) add_amending_bag h = forM (map CAdd bags) (do_call v algs bsize) h).
  { induction bags as [|b bags IH]; intros h; [reflexivity|]. cbn [map forM]. unfold bindM. cbn [do_call].
    destruct (add_amending_bag (default_bag b) h) as [h3 [[]|e]]; [|reflexivity]. apply IH. }
  unfold amend_bag_with, amend, use_amender, amend_lists, init_from_amendee, bindM.
  destruct (init_multibag_info repr false old new) as [o n].
  destruct (init_member_bags o n) as [h1 [[]|e]]; [|reflexivity]. destruct (init_file_lookup ro o h1) as [h2 [[]|e]]; [|reflexivity].
  unfold retM. rewrite forM_app. unfold bindM. rewrite X.
  destruct (forM (map CAdd bags) (do_call v algs bsize) h2) as [h3 [[]|e]]; [|reflexivity].
  cbn [forM do_call]. unfold finalize, bindM.
  destruct (list_itself (own_member None None [] (hb_name h3)) SNone SNone h3) as [h4 [[]|e]]; [|reflexivity].
  destruct (write_all v algs bsize version h4) as [h5 [[]|e]]; reflexivity.
Qed.

(** C131: an Amender can be used step by step *)
Require Import String NArith PeanoNat Bool List Lia.
From Verif Require Import PyBase PyFacts Version Tsv TsvProofs Fs FsFacts HeadBag HeadBagProofs HeadBagProofs2 HeadBagProofs3 BagIt BagItProofs Split SplitApply SplitApplyProofs SplitApplyProofs5 SplitApplyProofs8 Restore RestoreProofs RestoreProofs2 RestoreProofs3 RestoreProofs4 RestoreProofs6 RestoreProofs7 RestoreProofs8 RestoreProofs9 RestoreProofs10 Props_Restore Props_Restore3 Amend AmendProofs AmendProofs2 AmendProofs3 AmendProofs4 Props_SplitApply Props_Amend SingleProofs AmendTotalProofs Props_AmendTotal SingleTotalProofs Again SpecAgain Stepwise SpecStepwise StepwiseProofs StepwiseProofs2 StepwiseProofs3.
Import ListNotations.
Open Scope N_scope.

Lemma good_calls calls : Forall (fun s => bag_files (s_tree s) /\ s_name s <> []) (bags_added calls) ->
  Forall (fun x => x <> [] /\ tag_value_ok Codecs x) (versions_given calls) -> Forall good_call calls.
Proof.
  induction calls as [|c calls IH]; intros F1 F2; constructor.
  - destruct c as [b|x]; cbn [good_call].
    + inversion F1; assumption.
    + inversion F2; assumption.
  - destruct c as [b|x].
    + inversion F1; subst. apply IH; assumption.
    + inversion F2; subst. apply IH; assumption.
Qed.

Lemma added_all bags : bags_added (map CAdd bags) = bags.
Proof. induction bags as [|b bags IH]; [reflexivity|]. cbn [map bags_added flat_map app]. f_equal. exact IH. Qed.

Lemma added_versions bags : versions_given (map CAdd bags) = [].
Proof. induction bags as [|b bags IH]; [reflexivity|]. exact IH. Qed.

(** What is on disk after the last finalize. *)
Lemma result v algs bsize repr ro old calls version name t i td ms :
  sane v -> NoDup (e_algos v) -> good_hash v -> incl algs (e_algos v) -> plain_size bsize -> tag_value_ok Codecs td ->
  tags_of Codecs t = Ok i -> no_bom i -> tag_dir_raw i = Ok td -> name <> [] -> roomy v algs td t ->
  amends repr name t old (bags_added calls) version -> Forall (fun x => x <> [] /\ tag_value_ok Codecs x) (versions_given calls) ->
  members_of old ms -> Forall (storable_member Codecs) (ms ++ map (fun s => plain_member (s_name s)) (bags_added calls) ++ [plain_member name]) ->
  let i0 := init_info repr false old (open_hb name t i Codecs) in
  let ls := last_ones (ms ++ map (fun s => plain_member (s_name s)) (bags_added calls) ++ [plain_member name]) in
  exists new' old' d, use_amender v algs bsize repr ro old (calls ++ [CFinalize version]) (open_hb name t i Codecs) = (new', Ok old') /\
    between v algs name td t i0 new' ls d /\ finalized td i0 version new' ls /\
    exists j, tags_of Codecs (hb_tree new') = Ok j /\
      iter_member_bags (open_hb name (hb_tree new') j Codecs) = Ok ls /\
      forall p, snd (lookup_file p false (open_hb name (hb_tree new') j Codecs)) =
        Ok (lookups (old_answer old) (map bag_of (bags_added calls) ++ [(name, t)]) p).
Proof.
  intros Hs Hn Hg Hi Hb Vt Ti Nb Td Nn Rm (Nv & Vv & Fd & Ao & Lo & Wo & No & Wb & St) Fv Hm Fm i0 ls.
  destruct (init_state v algs repr ro old name t i td Hs Hi Ti Nb Td Nn Rm Fd (amendable_takes _ Ao) Wo No) as (old' & h & ms' & d & R0 & Om & B0 & G0).
  assert (ms' = ms) by (eapply members_of_unique; eauto). subst ms'. fold i0 in B0.
  pose proof Rm as [Bf G O Ns Tt Lr Sv Gn].
  destruct (calls_made v algs bsize name td t i0 Hs Hn Hg Hi Hb Vt G O Ns Gn Nn calls h _ d B0 (good_calls calls Wb Fv)) as (h1 & d1 & R1 & B1 & G1).
  destruct (call_finalize v algs bsize name td t i0 Hs Hn Hg Hi Hb Vt G O Ns Gn Nn version h1 _ d1 B1 Nv Vv) as (h2 & d2 & R2 & B2 & G2 & F2).
  assert (El : drop_member name (add_all (last_ones ms) (listed name calls)) ++ [plain_member name] = ls).
  { change (add_all (add_all (last_ones ms) (listed name calls)) [plain_member name] = ls). rewrite <- add_all_app, <- add_all_last, <- add_all_app, add_all_last.
    unfold ls. apply listed_once. }
  rewrite El in B2, F2.
  assert (Gd : forall p, od_get p d2 = lookups (old_answer old) (map bag_of (bags_added calls) ++ [(name, t)]) p).
  { intros p. rewrite G2, <- tabled_once, lookups_end. unfold step_lookup. cbn [fst snd]. rewrite G1.
    rewrite (lookups_ext (tabled name t calls) (fun q => od_get q d) (old_answer old) G0 p). reflexivity. }
  exists h2, old', d2. split.
  { unfold use_amender, bindM. rewrite R0. rewrite forM_app. unfold bindM. rewrite R1. cbn [forM do_call]. unfold bindM. rewrite R2. reflexivity. }
  split; [exact B2|]. split; [exact F2|].
  destruct F2 as (Rm2 & Rl2 & j & J1 & J2 & _). exists j. split; [exact J1|]. split.
  - apply (members_again Codecs name _ j td ls J2 Rm2). apply Forall_forall. intros m Im. unfold ls in Im. apply last_ones_in in Im.
    exact (proj1 (Forall_forall _ _) Fm m Im).
  - intros p. pose proof (b_table _ _ _ _ _ _ _ _ _ B2) as Tb.
    assert (Ge : match hb_lu h2 with Some d => od_get p d | None => None end = od_get p d2).
    { destruct Tb as [Tb _]. unfold cur_table, disk_lookup in Tb. destruct (hb_lu h2) as [d0|] eqn:L; [inversion Tb; subst; reflexivity|].
      rewrite (missing_lookup h2 td (between_std _ _ _ _ _ _ _ _ _ B2) (b_first _ _ _ _ _ _ _ _ _ B2 L)) in Tb. inversion Tb; subst. reflexivity. }
    rewrite (lookup_again Codecs name _ j td (hb_lu h2) p J2 Rl2).
    + rewrite Ge, Gd. reflexivity.
    + intros d0 L. assert (d0 = d2) by (destruct Tb as [Tb _]; unfold cur_table in Tb; rewrite L in Tb; congruence). subst d0.
      split; [apply Tb|]. apply Forall_forall. intros [q x] I.
      assert (E : od_get q d2 = Some x) by (apply od_in_get; [apply Tb|exact I]). rewrite Gd in E. apply lookups_from in E.
      destruct E as [E|(b & Ib & Hh & ->)].
      * apply St. unfold answer_of. unfold old_answer in E. destruct (is_head old) eqn:Eh.
        -- left. split; [reflexivity|]. destruct Ao as [(Eh' & _)|(_ & _ & es & Ies & _)]; [congruence|]. unfold lookup_file_ro, cache_file_lookup. rewrite Lo, Ies.
           rewrite Ies in E. cbn. rewrite E. reflexivity.
        -- right. split; [reflexivity|]. unfold holds in E. rewrite E. reflexivity.
      * apply St; auto.
Qed.

(** Any calls of add_amending_bag and finalize, with a finalize at the end: they
    all succeed, and the bag is as if it had been amended once, by all the bags
    that were added and with the last version. *)
Theorem C131_stepwise_partial : forall v algs bsize repr ro old calls version new name t td ms,
  plain_algos v -> NoDup (e_algos v) -> good_hash v -> incl algs (e_algos v) ->
  amendment bsize repr old new name t td version -> room v algs td t (hb_info new) -> name <> [] ->
  amends repr name t old (bags_added calls) version ->
  Forall (fun x => x <> [] /\ tag_value_ok Codecs x) (versions_given calls) ->
  members_of old ms -> Forall (storable_member Codecs) (ms ++ map (fun s => plain_member (s_name s)) (bags_added calls) ++ [plain_member name]) ->
  exists new1 old1 new2 old2,
    amend_bag_with v algs bsize repr ro old (bags_added calls) version new = (new1, Ok old1) /\
    use_amender v algs bsize repr ro old (calls ++ [CFinalize version]) new = (new2, Ok old2) /\
    same_amendment name td (hb_tree new1) (hb_tree new2).
Proof.
  intros v algs bsize repr ro old calls version new name t td ms Hs Hn Hg Hi (Hb & (i & Ti & En & Td) & _ & Vt & _) Rm Nn Am Fv Hm Fm. subst new.
  destruct (room_roomy _ _ _ _ _ Rm) as [R1 R2]. cbn [open_hb hb_info] in R2.
  set (bags := bags_added calls) in *.
  destruct (result v algs bsize repr ro old (map CAdd bags) version name t i td ms Hs Hn Hg Hi Hb Vt Ti R2 Td Nn R1) as (n1 & o1 & d1 & U1 & B1 & F1 & j1 & T1 & M1 & L1);
    [rewrite added_all; exact Am|rewrite added_versions; constructor|exact Hm|rewrite added_all; exact Fm|].
  destruct (result v algs bsize repr ro old calls version name t i td ms Hs Hn Hg Hi Hb Vt Ti R2 Td Nn R1 Am Fv Hm Fm) as (n2 & o2 & d2 & U2 & B2 & F2 & j2 & T2 & M2 & L2).
  rewrite added_all in *. fold bags in B2, F2, M2, L2.
  exists n1, o1, n2, o2. split; [rewrite amend_is_calls; exact U1|]. split; [exact U2|].
  exists j1, j2. split; [exact T1|]. split; [exact T2|].
  destruct F1 as (X1 & _ & a1 & A1 & _ & A3 & A4 & A5 & A6 & A7 & A8). assert (a1 = j1) by congruence. subst a1.
  destruct F2 as (X2 & _ & a2 & A1' & _ & A3' & A4' & A5' & A6' & A7' & A8'). assert (a2 = j2) by congruence. subst a2.
  split; [|split; [|split]].
  - intros k Q1 Q2.
    destruct (str_eq_dec k T_HeadVersion) as [->|N1]; [congruence|].
    destruct (str_eq_dec k T_Version) as [->|N3]; [congruence|]. destruct (str_eq_dec k T_Reference) as [->|N4]; [congruence|].
    destruct (str_eq_dec k T_TagDir) as [->|N5]; [congruence|]. destruct (str_eq_dec k T_ISD) as [->|N6]; [congruence|].
    assert (Nk : ~ In k info_keys) by (unfold info_keys; cbn [In]; intros [X|[X|[X|[X|[X|[X|[X|[]]]]]]]]; subst k; auto).
    rewrite A8, A8' by exact Nk. reflexivity.
  - eexists. split; [exact M1|exact M2].
  - intros p. eexists. split; [apply L1|apply L2].
  - intros q Q1 Q2 Q3.
    assert (Ns : ~ saved_file q) by (intros [X|[a X]]; [exact (Q1 X)|exact (Q2 a X)]).
    destruct (str_eq_dec q (sjoin td F_members)) as [->|Q4]; [congruence|].
    destruct (str_eq_dec q td) as [->|Q5].
    + assert (Z : forall s : tree, is_dir td s = true -> read td s = None).
      { intros s Y. unfold is_dir in Y. unfold read. destruct td; [exfalso; apply (good_path_nonempty _ (ry_dir _ _ _ _ R1)); reflexivity|]. destruct (od_get (n :: td) s) as [[|]|]; congruence. }
      rewrite !Z; [reflexivity|exact (proj1 (b_tagdir _ _ _ _ _ _ _ _ _ B1))|exact (proj1 (b_tagdir _ _ _ _ _ _ _ _ _ B2))].
    + unfold read. rewrite (b_rest _ _ _ _ _ _ _ _ _ B1 q Ns Q5 Q4 Q3), (b_rest _ _ _ _ _ _ _ _ _ B2 q Ns Q5 Q4 Q3). reflexivity.
Qed.
Print Assumptions C131_stepwise_partial.

(** amend_bag_with is one of these uses. *)
Theorem C131_amend : forall v algs bsize repr ro old bags version new,
  amend_bag_with v algs bsize repr ro old bags version new =
  use_amender v algs bsize repr ro old (map CAdd bags ++ [CFinalize version]) new.
Proof. exact amend_is_calls. Qed.
Print Assumptions C131_amend.

(** ** What is missing: init_from_amendee called again *)

Definition info_kept {A} (m : M A) : Prop := forall h h' r, m h = (h', r) -> hb_info h' = hb_info h.

Lemma ikept_bind {A B} (m : M A) (f : A -> M B) : info_kept m -> (forall a, info_kept (f a)) -> info_kept (bindM m f).
Proof.
  intros Hm Hf h h' r H. unfold bindM in H. destruct (m h) as [h1 [a|e]] eqn:E.
  - rewrite (Hf a h1 h' r H). apply (Hm h h1 (Ok a) E).
  - injection H as <- <-. apply (Hm h h1 (Err e) E).
Qed.

Lemma ikept_ret {A} (a : A) : info_kept (retM a).
Proof. intros h h' r H. injection H as <- <-. reflexivity. Qed.

Lemma ikept_forM {A} (f : A -> M unit) l : (forall x, info_kept (f x)) -> info_kept (forM l f).
Proof. intros H. induction l as [|x l IH]; cbn [forM]; [apply ikept_ret|]. apply ikept_bind; [apply H|]. intros _. exact IH. Qed.

Lemma ikept_cache : info_kept cache_file_lookup.
Proof. intros h h' r H. unfold cache_file_lookup in H. destruct (iter_file_lookup h); injection H as <- <-; reflexivity. Qed.

Lemma ikept_add p b : info_kept (add_file_lookup p b).
Proof.
  intros h h' r H. unfold add_file_lookup in H. destruct p; [injection H as <- <-; reflexivity|]. destruct b; [injection H as <- <-; reflexivity|].
  destruct (hb_lu h) as [d|]; [injection H as <- <-; reflexivity|].
  destruct (cache_file_lookup h) as [h1 [[]|e]] eqn:E; pose proof (ikept_cache _ _ _ E) as K.
  - destruct (hb_lu h1); injection H as <- <-; exact K.
  - destruct e; cbn in H; injection H as <- <-; exact K.
Qed.

Lemma ikept_remove p : info_kept (remove_file_lookup p).
Proof.
  intros h h' r H. unfold remove_file_lookup in H. destruct p; [injection H as <- <-; reflexivity|].
  destruct (hb_lu h) as [d|]; [injection H as <- <-; reflexivity|].
  destruct (cache_file_lookup h) as [h1 [[]|e]] eqn:E; pose proof (ikept_cache _ _ _ E) as K.
  - destruct (hb_lu h1); injection H as <- <-; exact K.
  - destruct e; cbn in H; injection H as <- <-; exact K.
Qed.

Lemma ikept_files b : info_kept (files_in_member b).
Proof.
  intros h h' r H. unfold files_in_member in H. destruct (hb_lu h) as [d|]; [injection H as <- <-; reflexivity|].
  destruct (cache_file_lookup h) as [h1 [[]|e]] eqn:E; pose proof (ikept_cache _ _ _ E) as K.
  - destruct (hb_lu h1); injection H as <- <-; exact K.
  - destruct e; cbn in H; injection H as <- <-; exact K.
Qed.

Lemma ikept_members re : info_kept (member_bags re).
Proof.
  intros h h' r H. unfold member_bags, member_bags_ro in H.
  destruct (hb_mem h) as [l|]; [destruct re|]; try (injection H as <- <-; reflexivity);
    (destruct (iter_member_bags h) as [x|e]; [injection H as <- <-; reflexivity|]; destruct e; injection H as <- <-; reflexivity).
Qed.

Lemma ikept_member m o : info_kept (add_member_bag m o).
Proof.
  intros h h' r H. unfold add_member_bag in H. revert h h' r H.
  change (info_kept (fun h => ((fun h => match hb_mem h with Some _ => (h, Ok tt) | None => (do _ <- member_bags false ; retM tt) h end) ;;
   (fun h => (match hb_mem h with None => set_mem h (Some []) | Some _ => h end, Ok tt)) ;;
   (if o then remove_member_bag (Tsv.m_name m) else retM tt) ;;
   (fun h => match hb_mem h with Some l => (set_mem h (Some (l ++ [m])), Ok tt) | None => (h, Err EAttribute) end)) h)).
  apply ikept_bind; [|intros _; apply ikept_bind; [|intros _; apply ikept_bind; [|intros _]]].
  - intros h h' r H. destruct (hb_mem h); [injection H as <- <-; reflexivity|]. revert H.
    apply (ikept_bind (member_bags false) (fun _ => retM tt)); [apply ikept_members|intros _; apply ikept_ret].
  - intros h h' r H. injection H as <- <-. destruct (hb_mem h); reflexivity.
  - destruct o; [|apply ikept_ret]. intros h h' r H. unfold remove_member_bag in H.
    set (h0 := match hb_mem h with Some l => _ | None => h end) in H. assert (L0 : hb_info h0 = hb_info h) by (unfold h0; destruct (hb_mem h); reflexivity).
    rewrite <- L0. revert H. generalize h0. clear. intros h0 H. revert h0 h' r H.
    apply (ikept_bind (files_in_member (Tsv.m_name m)) (fun fs => forM fs (fun f => unset_deleted f ;; remove_file_lookup f))); [apply ikept_files|].
    intros fs. apply ikept_forM. intros f. apply ikept_bind; [|intros _; apply ikept_remove].
    intros h h' r H. injection H as <- <-. reflexivity.
  - intros h h' r H. destruct (hb_mem h); injection H as <- <-; reflexivity.
Qed.

Lemma ikept_update s : info_kept (update_for_member s SNone SNone false None).
Proof.
  unfold update_for_member. cbn [truthy oget]. apply ikept_bind; [apply ikept_ret|]. intros _. apply ikept_forM. intros i.
  destruct (src_isfile s i); [apply ikept_add|]. destruct (src_isdir s i); [|apply ikept_ret].
  destruct (walk_selected s i _) as [fs|e].
  - apply ikept_forM. intros f. apply ikept_add.
  - intros h h' r H. injection H as <- <-. reflexivity.
Qed.

Lemma ikept_reset : info_kept reset_members.
Proof.
  intros h h' r H. unfold reset_members in H. destruct (is_file _ _).
  - destruct (remove_file _ _) as [t|e]; [|injection H as <- <-; reflexivity]. change (hb_info h) with (hb_info (set_tree h t)). revert H.
    apply (ikept_bind (member_bags true) (fun _ => retM tt)); [apply ikept_members|intros _; apply ikept_ret].
  - unfold ensure_tagdir in H. destruct (exists_ _ _); [injection H as <- <-; reflexivity|]. destruct (mkdir _ _); injection H as <- <-; reflexivity.
Qed.

Lemma ikept_init_members old : info_kept (init_member_bags old).
Proof.
  apply ikept_bind; [apply ikept_reset|]. intros _. destruct (is_head old); [|apply ikept_member].
  destruct (iter_member_bags old) as [ms|e]; [apply ikept_forM; intros m; apply ikept_member|]. intros h h' r H. injection H as <- <-. reflexivity.
Qed.

Lemma ikept_init_lookup ro old : info_kept (init_file_lookup ro old).
Proof.
  apply ikept_bind.
  - intros h h' r H. unfold clear_file_lookup in H. destruct (exists_ _ _); [|injection H as <- <-; reflexivity]. destruct (remove_file _ _); injection H as <- <-; reflexivity.
  - intros _. destruct (is_head old); [|apply ikept_update].
    destruct (iter_file_lookup old) as [es|e]; [apply ikept_forM; intros x; apply ikept_add|]. intros h h' r H. injection H as <- <-. reflexivity.
Qed.

Lemma init_handles repr ro old new h old' : init_from_amendee repr false ro old new = (h, Ok old') ->
  old' = fst (init_multibag_info repr false old new) /\ hb_info h = init_info repr false old new.
Proof.
  unfold init_from_amendee, init_info. destruct (init_multibag_info repr false old new) as [o n]. cbn [fst snd]. intros H.
  apply bindM_ok in H. destruct H as ([] & h1 & H1 & H). apply bindM_ok in H. destruct H as ([] & h2 & H2 & H). injection H as <- <-.
  split; [reflexivity|]. rewrite (ikept_init_lookup _ _ _ _ _ H2). apply (ikept_init_members _ _ _ _ H1).
Qed.

(** If the amendee deprecates several versions, its list is shared with the new
    head bag, and the second call appends the version of the amendee to it once
    more. *)
Theorem C131_init_refuted : forall repr ro ro' old l x new h old' new' old'',
  od_get (U "Multibag-Head-Deprecates") (hb_info old) = Some (IList l) -> od_get (U "Multibag-Head-Version") (hb_info old) = Some (IStr x) ->
  init_from_amendee repr false ro old new = (h, Ok old') ->
  init_from_amendee repr false ro' old' h = (new', Ok old'') ->
  tag_values (hb_info h) (U "Multibag-Head-Deprecates") = l ++ [x] /\
  tag_values (hb_info new') (U "Multibag-Head-Deprecates") = l ++ [x; x].
Proof.
  intros repr ro ro' old l x new h old' new' old'' D V H1 H2. destruct (init_handles _ _ _ _ _ _ H1) as [-> E1]. destruct (init_handles _ _ _ _ _ _ H2) as [_ E2].
  change (U "Multibag-Head-Deprecates") with T_HeadDeprecates in *. change (U "Multibag-Head-Version") with T_HeadVersion in *.
  unfold tag_values. rewrite E1, E2. rewrite !init_info_get by discriminate. rewrite streq_refl.
  unfold init_multibag_info, deprecates, old_version, tag_values. rewrite D, V. cbn [fst hb_info set_info].
  rewrite od_get_set_same, od_get_set_other by discriminate. rewrite V. split; [reflexivity|]. rewrite <- app_assoc. reflexivity.
Qed.
Print Assumptions C131_init_refuted.

(** Otherwise the list is not shared, and the second call sets it again. *)
Theorem C131_init_again : forall repr ro ro' old new h old' new' old'',
  (forall l, od_get (U "Multibag-Head-Deprecates") (hb_info old) <> Some (IList l)) ->
  init_from_amendee repr false ro old new = (h, Ok old') ->
  init_from_amendee repr false ro' old' h = (new', Ok old'') ->
  old' = old /\ tag_values (hb_info new') (U "Multibag-Head-Deprecates") = tag_values (hb_info h) (U "Multibag-Head-Deprecates").
Proof.
  intros repr ro ro' old new h old' new' old'' D H1 H2. destruct (init_handles _ _ _ _ _ _ H1) as [E0 E1]. destruct (init_handles _ _ _ _ _ _ H2) as [_ E2].
  assert (E : old' = old).
  { rewrite E0. unfold init_multibag_info. change T_HeadDeprecates with (U "Multibag-Head-Deprecates"). destruct (od_get (U "Multibag-Head-Deprecates") (hb_info old)) as [[s|l]|] eqn:X; [reflexivity| |reflexivity].
    exfalso. exact (D l eq_refl). }
  split; [exact E|]. rewrite E in E2. change (U "Multibag-Head-Deprecates") with T_HeadDeprecates. unfold tag_values. rewrite E1, E2.
  rewrite !init_info_get by discriminate. reflexivity.
Qed.
Print Assumptions C131_init_again.

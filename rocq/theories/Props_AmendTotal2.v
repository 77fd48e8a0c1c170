(** C114: cases; C115: histories of amendments can always be carried on *)
Require Import String NArith ZArith PeanoNat Bool List Lia.
From Verif Require Import PyBase PyFacts Version Tsv TsvProofs Fs FsFacts HeadBag HeadBagProofs HeadBagProofs2 HeadBagProofs3 BagIt BagItProofs BagItProofs2 Split SplitApply SplitApplyProofs SplitApplyProofs5 SplitApplyProofs7 SplitApplyProofs8 Restore RestoreProofs RestoreProofs2 RestoreProofs3 RestoreProofs4 RestoreProofs6 RestoreProofs7 RestoreProofs8 RestoreProofs9 RestoreProofs10 RestoreProofs11 Props_SplitApply Props_Restore Props_Restore3 Props_Restore4 BagValid BagValidProofs Props_BagValid Props_BagValid2 Props_BagValid4 Amend AmendProofs AmendProofs2 AmendProofs3 AmendProofs4 SingleProofs SaveValidProofs Props_RoundTrip2 Props_Amend Props_Validate5 Props_AmendRestore Props_AmendValid Props_AmendRestore2 Props_AmendHistory Props_AmendHistory2 AmendTotalProofs Props_AmendTotal.
Import ListNotations.
Open Scope N_scope.

(** ** C115 *)

(** The amendment of the head bag [n] with files [t] for the release [x], with
    given ways to write sizes and lists of versions. *)
Definition performed (v : env) (place : pystr -> pystr) (r : reader) (bsize : tree -> pystr) (repr : list pystr -> pystr) (ro : bool)
    (n : pystr) (t : tree) (x : release) (t' : tree) : Prop :=
  exists algs i j new' old',
    tags_of r t = Ok i /\ tags_of Codecs (rl_tree x) = Ok j /\
    algorithms (there v (place (rl_name x))) (rl_tree x) = Ok algs /\
    amend_bag_with (there v (place (rl_name x))) algs bsize repr ro (open_hb n t i r) (rl_bags x) (rl_version x)
      (open_hb (rl_name x) (rl_tree x) j Codecs) = (new', Ok old') /\
    t' = hb_tree new'.

Lemma performed_sound v place r bsize repr ro n t x t' : plain_size bsize -> performed v place r bsize repr ro n t x t' ->
  sound_amendment v place r n t x t'.
Proof.
  intros B (algs & i & j & new' & old' & H1 & H2 & H3 & H4 & H5). exists algs, bsize, repr, ro, i, j, new', old'. auto 10.
Qed.

(** The new head bag of a release has room for its lists. *)
Definition roomy_release (v : env) (place : pystr -> pystr) (x : release) : Prop :=
  exists j algs, tags_of Codecs (rl_tree x) = Ok j /\ algorithms (there v (place (rl_name x))) (rl_tree x) = Ok algs /\
    room (there v (place (rl_name x))) algs (rl_td x) (rl_tree x) j.

(** Some file is known to the first version or to the first release. *)
Definition some_file (h : hb) (rs : list release) : Prop :=
  (exists p y, answers h p (Some y)) \/
  match rs with x :: _ => exists b p, In b (bags_in x) /\ is_payload p && is_file p (snd b) = true | [] => True end.

Lemma holder_some bags p : (exists b, In b bags /\ is_payload p && is_file p (snd b) = true) -> exists y, holder bags p = Some y.
Proof.
  induction bags as [|[n t] bags IH]; intros (b & I0 & H); [destruct I0|]. cbn [holder]. destruct I0 as [<-|I0].
  - destruct (holder bags p); [eauto|]. cbn [snd] in H. rewrite H. eauto.
  - destruct IH as [y ->]; eauto.
Qed.

(** After an amendment the lists can be taken over again. *)
Lemma taken_again r n t i ms A vs x t' :
  version_at r n t i ms A vs -> good_release r x -> one_amendment r n t x t' ->
  NoDup (map Tsv.m_name ms ++ map fst (bags_in x)) -> (forall p y, A p = Some y -> ~ In y (map fst (bags_in x))) ->
  takes_over (open_hb n t i r) -> Forall (fun m => m_info m = []) ms -> (exists p y, over A (bags_in x) p = Some y) ->
  forall i', tags_of r t' = Ok i' -> takes_over (open_hb (rl_name x) t' i' r).
Proof.
  intros V G O Nd Na To Fm (p0 & y0 & Ep) i' Ti'.
  destruct (next_version _ _ _ _ _ _ _ _ _ V G O Nd Na) as (k & V' & Hd). assert (k = i') by (pose proof (va_tags _ _ _ _ _ _ _ V'); congruence). subst k.
  unfold takes_over. rewrite Hd. split.
  - destruct (va_members _ _ _ _ _ _ _ V') as [[_ E]|[E _]]; [|congruence]. eexists. split; [exact E|]. apply Forall_app. split; [exact Fm|].
    unfold members_in. apply Forall_map. apply Forall_forall. reflexivity.
  - destruct O as (v & algs & bsize & repr & ro & i1 & j & new' & old' & Pa & Al & B & Ti & Tj & H & ->).
    assert (i1 = i) by (pose proof (va_tags _ _ _ _ _ _ _ V); congruence). subst i1.
    pose proof (amendment_of bsize repr _ _ _ _ _ _ _ _ _ B V G Tj) as (_ & (j' & Tj' & En & Td) & D & Tv & Nv & Vv & Fd).
    set (old := open_hb n t i r) in *. set (new := open_hb (rl_name x) (rl_tree x) j Codecs) in *.
    assert (Td' : tag_dir_raw (hb_info new) = Ok (rl_td x)) by (unfold new; cbn [open_hb hb_info]; congruence).
    destruct (amend_disk v algs bsize repr ro old (map default_bag (rl_bags x)) (own_member None None []) SNone SNone (rl_version x) new new' old'
      (rl_name x) (rl_tree x) (rl_td x) B) as
      (ms' & t2 & h & d & Om & Al' & _ & Et & Ei & Hm & Tb & Ln & En' & El & _ & _ & Rl & _ & T); auto.
    { exists j. auto. }
    pose proof G as (Ls & _ & Gt & Ot & _). pose proof V as [Vb Vn Vt Vm Va Vl Vh Vp Sm Sa].
    assert (Lb : Forall (fun s => bag_files (s_tree s) /\ s_name s <> []) (rl_bags x)).
    { apply Forall_app in Ls. destruct Ls as [Ls _]. rewrite Forall_map in Ls. revert Ls. apply Forall_impl.
      intros s (S1 & S2 & _). split; [exact S2|]. exact (storable_some _ _ S1). }
    assert (Lh : listable r (rl_name x, rl_tree x)).
    { apply Forall_app in Ls. destruct Ls as [_ Ls]. inversion Ls; assumption. }
    destruct Lh as (Sh & Bh & _). cbn [fst snd] in Sh, Bh.
    pose proof (init_std repr old new (rl_td x) Td') as S0.
    destruct (amend_table repr ro old (rl_bags x) new h old' (rl_td x) S0 eq_refl eq_refl D Vb Vn Lb Bh (storable_some _ _ Sh) Gt Ot Al') as (d' & Tb' & Gd).
    assert (d' = d) by (destruct Tb as [Tb _], Tb' as [Tb' _]; congruence). subst d'.
    change (map bag_of (rl_bags x) ++ [(hb_name new, hb_tree new)]) with (bags_in x) in Gd.
    assert (Gx : forall p, od_get p d = over A (bags_in x) p).
    { intros p. rewrite Gd. unfold over. rewrite lookups_holder.
      - rewrite Va. reflexivity.
      - revert Nd. generalize (map Tsv.m_name ms). intros l0. induction l0 as [|y l0 IH]; [tauto|]. intros D0. inversion D0; auto.
      - intros q y E. rewrite Va in E. exact (Na q y E). }
    destruct (T r) as (k & J1 & J2 & _). assert (k = i') by congruence. subst k.
    destruct (hb_lu h) as [d0|] eqn:L; [|rewrite (Ln eq_refl) in Gx; rewrite <- Gx in Ep; discriminate Ep].
    assert (d0 = d) by (destruct Tb as [Tb _]; unfold cur_table in Tb; rewrite L in Tb; congruence). subst d0.
    assert (Se : forall q y, In (q, y) d -> storable r q /\ storable r y).
    { intros q y I0. apply (va_st_answers _ _ _ _ _ _ _ V' q y). rewrite <- Gx. apply od_in_get; [apply Tb|exact I0]. }
    exists d. split.
    + rewrite (iter_lookup_read (open_hb (rl_name x) (hb_tree new') i' r) (rl_td x) _ J2 Rl). cbn [hb_reader open_hb].
      assert (St : Forall (storable_entry r) d) by (apply Forall_forall; intros [q y] I0; exact (Se q y I0)).
      rewrite decode_id by (apply lookup_text_no_bom with (r := r); exact St). apply lookup_roundtrip. apply Forall_storable_legal. exact St.
    + apply Forall_forall. intros [q y] I0. destruct (Se q y I0) as [S1 S2]. split; [exact (storable_some _ _ S1)|exact (storable_some _ _ S2)].
Qed.

(** Releases can be added one after another, whatever their number: if the
    first version can be amended, every release has room for its lists, and
    there is a file to begin with, then every amendment succeeds. *)
Theorem C115_history_succeeds : forall v place r bsize repr ro n0 t0 i0 ms0 ov0 rs,
  plain_algos v -> NoDup (e_algos v) -> good_hash v -> plain_size bsize ->
  first_version r n0 t0 i0 ms0 ov0 -> amendable (open_hb n0 t0 i0 r) -> some_file (open_hb n0 t0 i0 r) rs ->
  Forall (good_release r) rs -> all_distinct r n0 t0 i0 ms0 rs -> Forall (roomy_release v place) rs ->
  exists n t added, amended_by (performed v place r bsize repr ro) n0 t0 rs n t added.
Proof.
  intros v place r bsize repr ro n0 t0 i0 ms0 ov0 rs Pa Na Gh B F Ao Sf G D R.
  assert (X : forall rs1 rs2, rs = rs1 ++ rs2 -> exists n t added, amended_by (performed v place r bsize repr ro) n0 t0 rs1 n t added /\
     forall i, tags_of r t = Ok i -> takes_over (open_hb n t i r)).
  { intros rs1. induction rs1 as [|x rs1 IH] using rev_ind; intros rs2 E.
    - exists n0, t0, []. split; [constructor|]. intros i Ti. assert (i = i0) by (pose proof (fv_tags _ _ _ _ _ _ F); congruence). subst i.
      apply amendable_takes. exact Ao.
    - rewrite <- app_assoc in E. destruct (IH _ E) as (n & t & added & H & To).
      assert (G1 : Forall (good_release r) (rs1 ++ [x])) by (rewrite E, app_assoc in G; apply Forall_app in G; exact (proj1 G)).
      assert (R1 : roomy_release v place x) by (rewrite E in R; apply Forall_app in R; destruct R as [_ R]; inversion R; assumption).
      assert (D1 : all_distinct r n0 t0 i0 ms0 (rs1 ++ [x])).
      { clear - D E. rewrite app_assoc in E. cbn [app] in E. subst rs. destruct D as [D1 D2].
        rewrite <- app_assoc in D1, D2. rewrite app_assoc in D1, D2. rewrite flat_map_app, map_app in D1, D2. split.
        - rewrite app_assoc in D1. apply NoDup_front in D1. exact (proj1 D1).
        - intros p y A0 X. apply (D2 p y A0). apply in_or_app. left. exact X. }
      apply Forall_app in G1. destruct G1 as [G1 Gx]. inversion Gx as [|? ? Gx' _]; subst. clear Gx.
      pose proof (distinct_front _ _ _ _ _ _ _ D1) as D0.
      assert (H1 : amended_by (one_amendment r) n0 t0 rs1 n t added).
      { apply (sound_by v place); [exact Pa|]. clear - H B. induction H as [|rs n t added x t' H IH O]; [constructor|].
        apply Next with (n := n) (t := t); [exact IH|]. eapply performed_sound; eauto. }
      destruct (history_at _ _ _ _ _ _ _ _ _ _ H1 G1 F D0) as (i & V & _ & _).
      destruct R1 as (j & algs & Tj & Ag & Rm).
      pose proof (amendment_of bsize repr _ _ _ _ _ _ _ _ _ B V Gx' Tj) as Am.
      pose proof Am as (_ & (j' & Tj' & En & Td) & _ & _ & _ & Vv & Fd). assert (j' = j) by congruence. subst j'.
      pose proof Gx' as (Ls & _).
      assert (Lb : Forall (fun s => wf_tree (s_tree s) /\ s_name s <> []) (rl_bags x)).
      { apply Forall_app in Ls. destruct Ls as [Ls _]. rewrite Forall_map in Ls. revert Ls. apply Forall_impl.
        intros s (S1 & [S2 _] & _). split; [exact S2|]. exact (storable_some _ _ S1). }
      assert (Nx : rl_name x <> []).
      { apply Forall_app in Ls. destruct Ls as [_ Ls]. inversion Ls as [|? ? (S1 & _) _]; subst. exact (storable_some _ _ S1). }
      destruct (room_roomy _ _ _ _ _ Rm) as [R1 R2].
      destruct (amend_total (there v (place (rl_name x))) algs bsize repr ro (open_hb n t i r) (rl_bags x) (rl_version x) (rl_name x) (rl_tree x) j (rl_td x)
        Pa Na Gh (algorithms_in _ _ _ Ag) B Tj R2 Td Nx R1 Vv Fd (To i (va_tags _ _ _ _ _ _ _ V)) Lb) as (new' & old' & Ha).
      assert (Pf : performed v place r bsize repr ro n t x (hb_tree new')).
      { exists algs, i, j, new', old'. split; [exact (va_tags _ _ _ _ _ _ _ V)|]. auto. }
      exists (rl_name x), (hb_tree new'). eexists. split; [apply Next with (n := n) (t := t); [exact H|exact Pf]|].
      pose proof (sound_one _ _ _ _ _ _ _ Pa (performed_sound _ _ _ _ _ _ _ _ _ _ B Pf)) as O1.
      intros i' Ti'. refine (taken_again _ _ _ _ _ _ _ _ _ V Gx' O1 _ _ (To i (va_tags _ _ _ _ _ _ _ V)) _ _ i' Ti').
      + destruct D1 as [D1 _]. rewrite flat_map_app, map_app in D1. cbn [flat_map] in D1. rewrite app_nil_r in D1.
        rewrite map_app, map_map, <- app_assoc. exact D1.
      + destruct D1 as [D1 D2]. rewrite flat_map_app, map_app in D1, D2. cbn [flat_map] in D1, D2. rewrite app_nil_r in D1, D2.
        intros p y Eo X. unfold over in Eo. destruct (holder (flat_map bags_in rs1) p) as [z|] eqn:Ez.
        * injection Eo as ->. apply holder_in in Ez. destruct Ez as (u & Iu & _). rewrite app_assoc in D1. apply NoDup_front in D1.
          apply (proj2 D1 y); [|exact X]. apply in_or_app. right. apply in_map_iff. exists (y, u). auto.
        * destruct (fv_lookup _ _ _ _ _ _ F p) as (z & Z). rewrite (answers_open _ _ _ _ p z Z) in Eo. subst z.
          apply (D2 p y Z). apply in_or_app. right. exact X.
      + apply Forall_app. split; [|apply Forall_map, Forall_forall; reflexivity].
        pose proof (fv_members _ _ _ _ _ _ F) as Fm. destruct Ao as [(Eh & _)|(Eh & (ms & Em & Fi) & _)].
        * destruct Fm as [[E1 _]|[_ ->]]; [congruence|]. repeat constructor.
        * destruct Fm as [[_ E1]|[E1 _]]; [|congruence]. assert (ms = ms0) by congruence. subst ms. exact Fi.
      + assert (Ov : forall p, over (over (old_answer (open_hb n0 t0 i0 r)) (flat_map bags_in rs1)) (bags_in x) p =
                               over (old_answer (open_hb n0 t0 i0 r)) (flat_map bags_in (rs1 ++ [x])) p).
        { intros p. unfold over. rewrite flat_map_app, holder_app. cbn [flat_map]. rewrite app_nil_r. destruct (holder (bags_in x) p); reflexivity. }
        destruct Sf as [(p & y & A0)|Sf].
        * exists p. rewrite Ov. unfold over. destruct (holder _ p) as [z|]; [eauto|]. exists y. apply answers_open. exact A0.
        * assert (Z : exists y0 l, rs1 ++ [x] = y0 :: l) by (destruct rs1; cbn; eauto). destruct Z as (y0 & l & Z).
          rewrite app_assoc, Z in Sf. cbn [app] in Sf. destruct Sf as (b & p & Ib & Hb).
          exists p. rewrite Ov, Z. unfold over.
          destruct (holder_some (flat_map bags_in (y0 :: l)) p) as [z ->]; [|eauto].
          exists b. split; [|exact Hb]. cbn [flat_map]. apply in_or_app. left. exact Ib. }
  destruct (X rs [] (eq_sym (app_nil_r rs))) as (n & t & added & H & _). eauto.
Qed.
Print Assumptions C115_history_succeeds.

(** ** From the first version to the restored bag *)

(** The same world with another way to find member bags. *)
Definition searching (v : env) (f : pystr -> option rbag) : env :=
  {| e_algos := e_algos v; e_version := e_version v; e_danger := e_danger v; e_hash := e_hash v; e_dest := e_dest v; e_find := f |}.

Lemma searching_ready v f w loc td t : ready (there v loc) w td t -> ready (there (searching v f) loc) w td t.
Proof. intros [R1 R2 R3 R4 R5 R6]. constructor; assumption. Qed.

Lemma searching_uses v f A t : uses v A t -> uses (searching v f) A t.
Proof. intros [R1 R2]. constructor; assumption. Qed.

Lemma searching_member v f A b : member_ok v A b -> member_ok (searching v f) A b.
Proof. intros []. constructor; try assumption. apply searching_uses. assumption. Qed.

Lemma searching_agg v f A skip us rt h bs : agg_ok v A skip us rt h bs -> agg_ok (searching v f) A skip us rt h bs.
Proof. intros [M]. constructor; try assumption. revert M. apply Forall_impl. intros b. apply searching_member. Qed.

Lemma searching_parts v f w A loc h others dl : valid_parts v w A loc h others dl -> valid_parts (searching v f) w A loc h others dl.
Proof. intros [R1 R2 R3 R4 R5 R6 R7 R8]. constructor; try assumption; [apply searching_ready; exact R1|apply searching_agg; exact R4]. Qed.

Lemma searching_fit v f w place x : fit v w place x -> fit (searching v f) w place x.
Proof. intros (F1 & F2 & F3). split; [exact F1|]. split; [apply searching_ready; exact F2|exact F3]. Qed.

Lemma searching_amended v f place r bsize repr ro n0 t0 rs n t added :
  plain_size bsize -> amended_by (performed v place r bsize repr ro) n0 t0 rs n t added -> amended_by (sound_amendment (searching v f) place r) n0 t0 rs n t added.
Proof.
  intros B H. induction H as [|rs n t added x t' H IH O]; [constructor|]. apply Next with (n := n) (t := t); [exact IH|].
  exact (performed_sound _ _ _ _ _ _ _ _ _ _ B O).
Qed.

Theorem C115_life_cycle : forall v w A r place bsize repr ro n0 t0 i0 ms0 ov0 rs x olds j dl bs ro',
  plain_algos v -> NoDup (e_algos v) -> incl A (e_algos v) -> good_hash v -> same_world v w -> plain_size bsize -> plain_text bs ->
  first_version r n0 t0 i0 ms0 ov0 -> amendable (open_hb n0 t0 i0 r) -> some_file (open_hb n0 t0 i0 r) (rs ++ [x]) ->
  Forall (good_release r) (rs ++ [x]) -> all_distinct r n0 t0 i0 ms0 (rs ++ [x]) -> Forall (roomy_release v place) (rs ++ [x]) ->
  Forall (fit v w place) (rs ++ [x]) ->
  tags_of Codecs (rl_tree x) = Ok j -> iter_deleted (open_hb (rl_name x) (rl_tree x) j r) = Ok dl ->
  valid_parts v w A (place (rl_name x)) (open_hb (rl_name x) (rl_tree x) j r)
    (olds ++ map (put place) (flat_map bags_in rs ++ map (fun s => (s_name s, s_tree s)) (rl_bags x))) dl ->
  exists t before, amended_by (performed v place r bsize repr ro) n0 t0 (rs ++ [x]) (rl_name x) t (before ++ [(rl_name x, t)]) /\
    forall f, Forall2 (fun m b => f (Tsv.m_name m) = Some b) ms0 olds -> Forall (fun b => f (fst b) = Some (put place b)) before ->
    exists i dest, tags_of r t = Ok i /\
      restore (searching v f) true true bs ro' (open_hb (rl_name x) t i r) (place (rl_name x)) [] = Ok dest /\
      passes_plain (at_place v w (e_dest v)) dest /\
      forall p, ~ describing p -> ~ multibag_path p ->
        (deleted dl p -> od_get p dest = None) /\
        (~ deleted dl p -> od_get p dest = latest (map rb_tree olds ++ map snd (flat_map bags_in (rs ++ [x]))) p).
Proof.
  intros v w A r place bsize repr ro n0 t0 i0 ms0 ov0 rs x olds j dl bs ro' Pa Na Ia Gh Sw B Pt F Ao Sf G D R Ft Tj Dl Vp.
  destruct (C115_history_succeeds v place r bsize repr ro n0 t0 i0 ms0 ov0 (rs ++ [x]) Pa Na Gh B F Ao Sf G D R) as (n & t & added & H).
  assert (X : exists before, n = rl_name x /\ added = before ++ [(rl_name x, t)]).
  { remember (rs ++ [x]) as rs1 eqn:E1. destruct H as [|rs' n' t' added' x' t'' H O]; [destruct rs; discriminate E1|].
    apply app_inj_tail in E1. destruct E1 as [-> ->]. rewrite app_assoc. eauto. }
  destruct X as (before & -> & ->). exists t, before. split; [exact H|]. intros f Fo Fb.
  refine (C113_history_restores_valid (searching v f) w A r place n0 t0 i0 ms0 ov0 rs x (rl_name x) t before olds j dl bs ro' Pa Na Ia Gh _ Pt
    (searching_amended _ f _ _ _ _ _ _ _ _ _ _ _ B H) G F D _ Tj Dl (searching_parts _ f _ _ _ _ _ _ Vp) Fo Fb).
  - destruct Sw as [S1 S2 S3]. constructor; assumption.
  - revert Ft. apply Forall_impl. intros y. apply searching_fit.
Qed.
Print Assumptions C115_life_cycle.

(** ** Cases *)

Lemma hg_room l td t i algs : forallb good_nameb (od_keys t) = true -> bag_files t -> good_mans (there hg_env l) l t ->
  td = U "multibag" -> is_dir td t = true -> forallb (fun f => negb (is_dir (td ++ U "/" ++ f) t)) [U "member-bags.tsv"; U "file-lookup.tsv"; U "deleted.txt"] = true ->
  read (td ++ U "/file-lookup.tsv") t = None -> read (U "bagit.txt") t = Some va_bagit -> is_dir (U "bag-info.txt") t = false ->
  forallb (fun a => negb (is_dir (U "tagmanifest-" ++ a ++ U ".txt") t)) algs = true -> forallb (fun kv => negb (N.eqb (hd 0 (fst kv)) BOM)) i = true ->
  room (there hg_env l) algs td t i.
Proof.
  intros Hn Hb Hm -> Hd Hf Hl Hv Hi Ht Ho. constructor.
  - exact Hb.
  - apply good_pathb_ok. reflexivity.
  - reflexivity.
  - left. exact Hd.
  - apply Forall_forall. intros f F. rewrite forallb_forall in Hf. apply Hf in F. apply negb_true_iff in F. exact F.
  - intros c C. rewrite Hl in C. discriminate C.
  - exists va_bagit, true. split; [exact Hv|vm_compute; reflexivity].
  - exact Hm.
  - apply hg_names. exact Hn.
  - repeat (apply Forall_cons; [apply hg_good; vm_compute; reflexivity|]). constructor.
  - intros X. unfold is_dir in Hi. rewrite X in Hi. discriminate Hi.
  - intros a A X. rewrite forallb_forall in Ht. apply Ht in A. unfold is_dir in A. cbn [app U] in A. rewrite X in A. discriminate A.
  - split; [discriminate|]. intros a X. discriminate X.
  - apply Forall_forall. intros kv K. rewrite forallb_forall in Ho. apply Ho in K. apply negb_true_iff, N.eqb_neq in K. exact K.
Qed.

Lemma hg_rooms : Forall (roomy_release hg_env ar_place) ([hg_r1] ++ [hg_r2]).
Proof.
  apply Forall_cons; [|apply Forall_cons; [|constructor]].
  - exists (got [] (tags_of Codecs ar_next)), (got [] (algorithms ar_env ar_next)). split; [vm_compute; reflexivity|]. split; [vm_compute; reflexivity|].
    apply hg_room; try (vm_compute; reflexivity).
    + apply ex_bag_files; vm_compute; reflexivity.
    + apply good_mansb_ok; [reflexivity|vm_compute; reflexivity].
  - exists (got [] (tags_of Codecs hg_last)), (got [] (algorithms ar_env hg_last)). split; [vm_compute; reflexivity|]. split; [vm_compute; reflexivity|].
    apply hg_room; try (vm_compute; reflexivity).
    + apply ex_bag_files; vm_compute; reflexivity.
    + apply good_mansb_ok; [reflexivity|vm_compute; reflexivity].
Qed.

(** The second amendment of C113: the amendee is a head bag. *)
Example C114_case :
  plain_algos hg_env /\ NoDup (e_algos hg_env) /\ good_hash hg_env /\
  amendment (fun _ => U "1 kB") ex_repr (hg_open (U "next") hg_t1) (hg_open (U "last") hg_last) (U "last") hg_last (U "multibag") (U "3") /\
  room (there hg_env (ar_place (U "last"))) (got [] (algorithms ar_env hg_last)) (U "multibag") hg_last (hb_info (hg_open (U "last") hg_last)) /\
  amendable (hg_open (U "next") hg_t1) /\ is_head (hg_open (U "next") hg_t1) = true.
Proof.
  split. { intros a I. cbn in I. destruct I as [<-|[<-|[]]]; intros X; cbn in X; intuition discriminate. }
  split; [apply nodupb_ok; reflexivity|]. split; [intros a c; apply h_dec_hash|]. split.
  { split; [exact ex_size|]. split; [exists (got [] (tags_of Codecs hg_last)); split; [vm_compute; reflexivity|split; [reflexivity|vm_compute; reflexivity]]|].
    split; [apply nodupb_ok; vm_compute; reflexivity|]. split; [apply plain_valueb_ok; reflexivity|]. split; [discriminate|]. split; [apply plain_valueb_ok; reflexivity|].
    assert (E : deprecates ex_repr (hb_info (hg_open (U "next") hg_t1)) = [U "1"; U "2"]) by (vm_compute; reflexivity). rewrite E.
    repeat (apply Forall_cons; [apply plain_valueb_ok; reflexivity|]). constructor. }
  split.
  { pose proof hg_rooms as H. apply Forall_app in H. destruct H as [_ H]. inversion H as [|? ? (j & algs & Tj & Ta & R) _]; subst.
    assert (E : hb_info (hg_open (U "last") hg_last) = j) by (cbn [hg_r2 rl_tree] in Tj; unfold hg_open; cbn [open_hb hb_info]; rewrite Tj; reflexivity).
    assert (E2 : got [] (algorithms ar_env hg_last) = algs).
    { change (algorithms (there hg_env (ar_place (rl_name hg_r2))) (rl_tree hg_r2)) with (algorithms ar_env hg_last) in Ta. rewrite Ta. reflexivity. }
    rewrite E, E2. exact R. }
  assert (Hd : is_head (hg_open (U "next") hg_t1) = true) by (vm_compute; reflexivity). split; [|exact Hd]. right. split; [exact Hd|]. split.
  - exists [plain_member (U "src"); plain_member (U "more"); plain_member (U "next")]. split; [vm_compute; reflexivity|repeat constructor].
  - exists [(U "data/a", U "more"); (U "data/d/b", U "src"); (U "data/c", U "next")]. split; [vm_compute; reflexivity|].
    repeat (apply Forall_cons; [split; discriminate|]). constructor.
Qed.

(** Two bags without payload: the first amendment succeeds. *)
Definition nb_bag : tree :=
  [(U "bagit.txt", NFile va_bagit); (U "bag-info.txt", NFile (ln "Contact-Name: C")); (U "manifest-md5.txt", NFile []); (U "data", NDir)].
Definition nb_step : hb * res hb :=
  amend_bag_with (there hg_env (ar_place (U "two"))) [U "md5"] (fun _ => U "1 kB") ex_repr false (hg_open (U "one") nb_bag) [] (U "2") (hg_open (U "two") nb_bag).
Example C114_no_payload_case :
  amendment (fun _ => U "1 kB") ex_repr (hg_open (U "one") nb_bag) (hg_open (U "two") nb_bag) (U "two") nb_bag (U "multibag") (U "2") /\
  is_head (hg_open (U "one") nb_bag) = false /\ (bag_files nb_bag /\ forall p, is_payload p && is_file p nb_bag = false) /\
  (exists old', nb_step = (fst nb_step, Ok old')) /\
  iter_member_bags (hg_open (U "two") (hb_tree (fst nb_step))) = Ok [plain_member (U "one"); plain_member (U "two")].
Proof.
  split.
  { split; [exact ex_size|]. split; [exists (got [] (tags_of Codecs nb_bag)); split; [vm_compute; reflexivity|split; [reflexivity|vm_compute; reflexivity]]|].
    split; [apply nodupb_ok; vm_compute; reflexivity|]. split; [apply plain_valueb_ok; reflexivity|]. split; [discriminate|]. split; [apply plain_valueb_ok; reflexivity|].
    assert (E : deprecates ex_repr (hb_info (hg_open (U "one") nb_bag)) = [U "1"]) by (vm_compute; reflexivity). rewrite E.
    repeat (apply Forall_cons; [apply plain_valueb_ok; reflexivity|]). constructor. }
  split; [vm_compute; reflexivity|]. split.
  { split; [apply ex_bag_files; vm_compute; reflexivity|]. intros p. destruct (is_payload p && is_file p nb_bag) eqn:E; [|reflexivity].
    apply andb_true_iff in E. destruct E as [E1 E2]. apply is_file_read in E2. destruct E2 as [c E2]. apply read_get in E2. apply od_get_in in E2.
    unfold nb_bag in E2. repeat (destruct E2 as [E2|E2]; [injection E2 as <- _; vm_compute in E1; discriminate E1 | ]) || idtac.
    all: try (destruct E2 as [E2|E2]); try discriminate E2; try (destruct E2). }
  split; [|vm_compute; reflexivity]. exists (hg_open (U "one") nb_bag). vm_compute. reflexivity.
Qed.

(** A head bag whose first member has a field besides name, address and
    comment. *)
Definition fd_bag : tree :=
  [(U "bagit.txt", NFile va_bagit); (U "bag-info.txt", NFile (ln "Multibag-Version: 0.4" ++ ln "Multibag-Head-Version: 1"));
   (U "manifest-md5.txt", NFile (ln "h1  data/x")); (U "data", NDir); (U "data/x", NFile (U "x")); (U "multibag", NDir);
   (U "multibag/member-bags.tsv", NFile (U "zero" ++ [TAB] ++ U "http://z/" ++ [TAB] ++ U "extra" ++ [LF] ++ ln "one"));
   (U "multibag/file-lookup.tsv", NFile (U "data/x" ++ [TAB] ++ U "one" ++ [LF]))].
Example C114_fields_case :
  amendment (fun _ => U "1 kB") ex_repr (hg_open (U "one") fd_bag) (hg_open (U "last") hg_last) (U "last") hg_last (U "multibag") (U "3") /\
  is_head (hg_open (U "one") fd_bag) = true /\
  iter_member_bags (hg_open (U "one") fd_bag) =
    Ok [{| Tsv.m_name := U "zero"; m_uri := Some (U "http://z/"); m_comment := None; m_info := [U "extra"] |}; plain_member (U "one")] /\
  iter_file_lookup (hg_open (U "one") fd_bag) = Ok [(U "data/x", U "one")] /\
  snd (amend_bag_with (there hg_env (ar_place (U "last"))) (got [] (algorithms ar_env hg_last)) (fun _ => U "1 kB") ex_repr false
    (hg_open (U "one") fd_bag) [] (U "3") (hg_open (U "last") hg_last)) = Err EName.
Proof.
  split.
  { split; [exact ex_size|]. split; [exists (got [] (tags_of Codecs hg_last)); split; [vm_compute; reflexivity|split; [reflexivity|vm_compute; reflexivity]]|].
    split; [apply nodupb_ok; vm_compute; reflexivity|]. split; [apply plain_valueb_ok; reflexivity|]. split; [discriminate|]. split; [apply plain_valueb_ok; reflexivity|].
    assert (E : deprecates ex_repr (hb_info (hg_open (U "one") fd_bag)) = [U "1"]) by (vm_compute; reflexivity). rewrite E.
    repeat (apply Forall_cons; [apply plain_valueb_ok; reflexivity|]). constructor. }
  split; [vm_compute; reflexivity|]. split; [vm_compute; reflexivity|]. split; vm_compute; reflexivity.
Qed.

(** The history of C113 meets the conditions of C115. *)
Example C115_case :
  plain_size (fun _ => U "1 kB") /\
  first_version Codecs (U "src") va_tree (got [] (tags_of Codecs va_tree)) [plain_member (U "src")] (U "1") /\
  amendable (hg_open (U "src") va_tree) /\ some_file (hg_open (U "src") va_tree) ([hg_r1] ++ [hg_r2]) /\
  Forall (good_release Codecs) ([hg_r1] ++ [hg_r2]) /\
  all_distinct Codecs (U "src") va_tree (got [] (tags_of Codecs va_tree)) [plain_member (U "src")] ([hg_r1] ++ [hg_r2]) /\
  Forall (roomy_release hg_env ar_place) ([hg_r1] ++ [hg_r2]) /\ Forall (fit hg_env va_world ar_place) ([hg_r1] ++ [hg_r2]) /\
  iter_deleted (hg_open (U "last") hg_last) = Ok [U "data/a"] /\
  valid_parts hg_env va_world Props_SplitApply.ex_algos (ar_place (U "last")) (hg_open (U "last") hg_last)
    (ar_olds ++ map (put ar_place) (flat_map bags_in [hg_r1] ++ map (fun s => (s_name s, s_tree s)) (rl_bags hg_r2))) [U "data/a"].
Proof.
  split; [exact ex_size|]. split; [exact hg_first|]. split.
  { left. split; [vm_compute; reflexivity|]. split; [discriminate|]. apply wf_treeb_ok. vm_compute. reflexivity. }
  split. { left. exists (U "data/a"), (U "src"). right. split; vm_compute; reflexivity. }
  split; [exact hg_releases|]. split; [exact hg_distinct|]. split; [exact hg_rooms|]. split; [exact hg_fit|]. split; [vm_compute; reflexivity|exact hg_parts].
Qed.

(** C134: restoring from what a split that stopped, or that goes on, has made *)
Require Import String NArith PeanoNat Bool List Lia.
From Verif Require Import PyBase PyFacts Tsv TsvProofs Fs FsFacts HeadBag HeadBagProofs HeadBagProofs3 BagIt BagItProofs Split SplitApply SplitApplyProofs SplitApplyProofs2 SplitApplyProofs6 SplitApplyProofs8 SplitApplyProofs7 Props_SplitApply Props_SplitApply2 Props_SplitApply3 Restore RestoreProofs RestoreProofs2 RestoreProofs3 Props_Restore Props_RoundTrip SplitStop SpecSplitStop SplitStopProofs Props_SplitStop.
Import ListNotations.
Open Scope nat_scope.

Definition LIST : pystr := U "multibag/member-bags.tsv".

Lemma wf_root t : wf_tree t -> od_get [] t = None.
Proof.
  intros W. destruct (od_get [] t) eqn:E; [|reflexivity]. apply od_get_some_key in E. pose proof (wf_paths t W) as F. rewrite Forall_forall in F. apply F in E. apply good_path_nonempty in E. congruence.
Qed.

Section Left.
  Variables (s : source) (o : apply_opts) (p : plan) (it : option naming) (out bags : dict tree).
  Hypothesis Op : opened s.
  Hypothesis Hp : plain_opts (so_reader s) o.
  Hypothesis Hh : od_has (U "Multibag-Head-Version") (so_info s) = false.
  Hypothesis Lo : layout_ok s true.
  Hypothesis Nm : forall q, multibag_path q -> od_get q (so_tree s) = None.
  Hypothesis Np : p_manifests p <> [].
  Hypothesis Ho : plans_no_own p.
  Hypothesis Sp : splits_into s o p it out bags.
  Hypothesis St : Forall (storable (so_reader s)) (map fst bags).

  Lemma layout_member h : layout_ok s h.
  Proof.
    destruct h; [exact Lo|]. destruct Lo. constructor; auto.
    intros x Ox. apply lo_own. inversion Ox; subst; constructor; auto.
  Qed.

  Lemma left_wf n l : plan_left s o p it n out = out ++ l -> Forall (fun bt : pystr * tree => wf_tree (snd bt)) l.
  Proof.
    intros Hl. assert (Sp' := Sp). destruct Sp' as (a & H & E). unfold plan_left in Hl. unfold apply_plan in H. destruct (initial_lists s) as [[ms lu]|e] eqn:Ei; [|discriminate H]. cbn [bind] in H.
    assert (W : Forall (fun bt : pystr * tree => wf_tree (snd bt)) bags).
    { pose proof (made_split _ _ _ _ _ _ Sp) as (ms0 & lu0 & ms' & lu' & _ & M & _). apply made_each in M. clear - M Lo.
      induction M as [|[m h] bt xs ys (ms & lu & O) M IH]; constructor; [|exact IH]. exact (bag_wf _ _ _ _ _ _ _ _ (layout_member h) O). }
    destruct (left_shape s o _ _ _ n H) as (bts & j & l' & E1 & E2 & Sh). cbn [a_out] in *. rewrite E1 in E. apply app_inv_head in E. subst bts.
    rewrite E2 in Hl. apply app_inv_head in Hl. subst l'.
    assert (Wj : Forall (fun bt : pystr * tree => wf_tree (snd bt)) (firstn j bags)).
    { rewrite Forall_forall in *. intros x I. apply W. apply (firstn_in _ _ _ I). }
    destruct Sh as [[L ->]|(b0 & t & m & h & ms1 & lu1 & c & k & N1 & N2 & R1 & R2 & R3 & ->)]; [exact Wj|].
    apply Forall_app. split; [exact Wj|]. constructor; [|constructor]. cbn [snd].
    destruct (run_prefix _ k _ _ R3) as (u & Ru & _). rewrite (run_until_ok _ _ _ Ru). eapply run_ops_wf; [|apply wf_nil|exact Ru].
    pose proof (bag_ops_good s o b0 m h ms1 lu1 c (layout_member h)) as G. rewrite Forall_forall in *. intros x I. apply G. exact (firstn_in _ _ _ I).
  Qed.

  Lemma std_dir tags : std_tags tags (U "multibag") -> tag_dir tags = U "multibag".
  Proof. intros [H _]. unfold tag_dir_raw in H. unfold tag_dir. destruct (od_get T_TagDir tags) as [[x|x]|]; congruence. Qed.

  (** The head bag of the whole split *)
  Lemma whole_head : exists others b t tags members, bags = others ++ [(b, t)] /\ tags_of (so_reader s) t = Ok tags /\ std_tags tags (U "multibag") /\
    (forall ro, head_lists ro (open_hb b t tags (so_reader s)) = Ok ([], members)) /\
    map Tsv.m_name members = map fst others ++ [b] /\
    Forall2 (fun mh bt => wf_tree (snd bt) /\ exact_copies (so_tree s) (snd bt) (fst mh) (snd mh)) (manifests p) bags.
  Proof.
    pose (v := {| e_algos := []; e_version := fun _ => Ok (true, true); e_danger := fun _ _ => false; e_hash := fun _ _ => []; e_dest := []; e_find := fun n => match od_get n bags with Some t => Some {| rb_loc := U "x"; rb_tree := t |} | None => None end |}).
    destruct (C26_head_and_members_partial s o p it out bags [] [] Op Hp (not_a_head s Hh) (NoDup_nil _) Np Sp St)
      as (others & head & t & tags & members & Eb & _ & Tg & _ & Im & Nms & Ndm). cbn [filter app] in Nms.
    destruct (made_split _ _ _ _ _ _ Sp) as (ms0 & lu0 & ms' & lu' & Ei & M & Nd & _).
    assert (Fo : found v (fun _ => U "x") bags).
    { intros n tt I. split; [|discriminate]. cbn [e_find v]. rewrite (od_in_get n tt bags Nd I). reflexivity. }
    assert (Agg : forall ro, head_lists ro (open_hb head t tags (so_reader s)) = Ok ([], members) /\
       Forall2 (fun mh bt => wf_tree (snd bt) /\ exact_copies (so_tree s) (snd bt) (fst mh) (snd mh)) (manifests p) bags).
    { intros ro. destruct (split_aggregation s o p it out bags v ro (open_hb head t tags (so_reader s)) (fun _ => U "x") Op Hp Hh Lo Nm Np Sp St Fo) as (others' & head' & t' & tags' & members' & Eb' & Tg' & Eh & Hl & Ag & Fw).
      { exists others, head, t, tags. split; [exact Eb|]. split; [exact Tg|reflexivity]. }
      split; [|exact Fw]. rewrite Hl. unfold head_lists in Hl. destruct (snd (deleted_paths false (open_hb head t tags (so_reader s)))) as [sk|e]; [|discriminate Hl]. cbn [bind] in Hl.
      destruct ro; unfold HeadBag.member_bags, member_bags_ro in Hl; cbn [hb_mem open_hb] in Hl; change (HeadBag.iter_member_bags _) with (iter_member_bags (open_hb head t tags (so_reader s))) in Hl; rewrite Im in Hl; cbn [snd bind] in Hl; injection Hl as -> ->; reflexivity. }
    exists others, head, t, tags, members. split; [exact Eb|]. split; [exact Tg|]. split; [|split; [intros ro; apply Agg|split; [|exact (proj2 (Agg true))]]].
    - pose proof (split_last _ _ _ _ _ _ Sp Np) as (l & m & bags1 & b & t1 & ms0' & lu0' & ms1 & lu1 & ms2 & lu2 & Em & Eb2 & Hi & M2 & M1 & O & Nd2).
      rewrite Eb in Eb2. apply app_inj_tail in Eb2. destruct Eb2 as [_ Eb2]. injection Eb2 as <- <-.
      destruct (bag_tags s o m true ms2 lu2 head t Op Hp) as (d & Td & Sh & V); [|exact O|].
      { rewrite Forall_forall in St. assert (J : In head (map fst bags)) by (rewrite Eb, map_app; apply in_app_iff; right; left; reflexivity). apply St in J. destruct J as (_ & J & _). exact J. }
      rewrite Tg in Td. injection Td as <-. eapply split_std; [apply (opened_info_ok s Op)|exact V|exact Sh].
    - rewrite Nms, Eb, map_app. reflexivity.
  Qed.

  (** What the lists of the head bag are read as *)
  Lemma deleted_left b u t tags r : std_tags tags (U "multibag") -> but_lists u t ->
    snd (deleted_paths false (open_hb b u tags r)) = snd (deleted_paths false (open_hb b t tags r)).
  Proof.
    intros Sd [Bd Bf]. unfold deleted_paths. cbn [hb_del open_hb]. unfold iter_deleted. cbn [hb_tree hb_info hb_reader open_hb]. rewrite (std_dir _ Sd).
    change (sjoin (U "multibag") F_deleted) with (U "multibag/deleted.txt").
    assert (R : read (U "multibag/deleted.txt") u = read (U "multibag/deleted.txt") t) by (apply Bf; discriminate).
    assert (D : is_dir (U "multibag/deleted.txt") u = is_dir (U "multibag/deleted.txt") t) by (apply Bd; discriminate).
    assert (X : exists_ (U "multibag/deleted.txt") u = exists_ (U "multibag/deleted.txt") t) by (unfold exists_, is_file; unfold read in R; rewrite D; destruct (od_get (U "multibag/deleted.txt") u) as [[|x]|], (od_get (U "multibag/deleted.txt") t) as [[|y]|]; (reflexivity || discriminate R)).
    rewrite R, X. destruct (read (U "multibag/deleted.txt") t) as [c|]; [reflexivity|]. destruct (exists_ (U "multibag/deleted.txt") t); reflexivity.
  Qed.

  Lemma members_left b u tags r : std_tags tags (U "multibag") ->
    iter_member_bags (open_hb b u tags r) = match read LIST u with None => Err EMissingFile | Some text => parse_file r parse_member_03 (decode r text) end.
  Proof. intros [Sd So]. unfold iter_member_bags. cbn [hb_tree hb_info hb_reader open_hb]. rewrite Sd, So. reflexivity. Qed.

  Lemma lists_left ro b u t tags r : std_tags tags (U "multibag") -> but_lists u t -> read LIST u = read LIST t ->
    head_lists ro (open_hb b u tags r) = head_lists ro (open_hb b t tags r).
  Proof.
    intros Sd Bu Rl. unfold head_lists. rewrite (deleted_left b u t tags r Sd Bu).
    destruct (snd (deleted_paths false (open_hb b t tags r))) as [sk|e]; [|reflexivity]. cbn [bind].
    assert (E : iter_member_bags (open_hb b u tags r) = iter_member_bags (open_hb b t tags r)) by (rewrite !members_left by exact Sd; rewrite Rl; reflexivity).
    destruct ro; unfold HeadBag.member_bags, member_bags_ro; cbn [hb_mem open_hb]; rewrite E; destruct (iter_member_bags (open_hb b t tags r)) as [ms|[]]; reflexivity.
  Qed.

  Lemma special_multibag q : ~ special_path q -> ~ multibag_path q.
  Proof. intros Sq M. apply Sq. do 5 right. exact M. Qed.

  Lemma node_left u t q : wf_tree u -> wf_tree t -> but_lists u t -> ~ special_path q -> od_get q u = od_get q t.
  Proof.
    intros Wu Wt [Bd Bf] Sq. pose proof (special_multibag q Sq) as Mq.
    assert (R : read q u = read q t) by (apply Bf; intros ->; apply Mq; right; [exists (U "member-bags.tsv")|exists (U "file-lookup.tsv")|exists (U "aggregation-info.txt")]; reflexivity).
    assert (D : is_dir q u = is_dir q t) by (apply Bd; intros ->; apply Mq; left; reflexivity).
    destruct q as [|c q]; [rewrite (wf_root u Wu), (wf_root t Wt); reflexivity|].
    unfold read in R. unfold is_dir in D. destruct (od_get (c :: q) u) as [[|x]|], (od_get (c :: q) t) as [[|y]|]; try discriminate R; try discriminate D; try reflexivity. injection R as ->. reflexivity.
  Qed.

  (** The latest of the bags of the whole split is what the source has. *)
  Lemma latest_whole q : is_dir (U "data") (so_tree s) = true -> plans_all p (so_tree s) -> ~ special_path q ->
    Forall2 (fun mh bt => wf_tree (snd bt) /\ exact_copies (so_tree s) (snd bt) (fst mh) (snd mh)) (manifests p) bags ->
    latest (map snd bags) q = od_get q (so_tree s).
  Proof.
    intros Dd Pa Sq Fw. pose proof (lo_wf _ _ Lo) as Ws.
    assert (Mq := special_multibag q Sq).
    assert (Ag1 : forall t0 n', In t0 (map snd bags) -> od_get q t0 = Some n' -> od_get q (so_tree s) = Some n').
    { intros t0 n' I G. apply in_map_iff in I. destruct I as (bt & <- & I).
      assert (X : exists m hh, wf_tree (snd bt) /\ exact_copies (so_tree s) (snd bt) m hh).
      { clear - Fw I. induction Fw as [|mh b l bs H F IH]; [destruct I|]. destruct I as [->|I]; eauto. }
      destruct X as (m & hh & W & E). eapply bag_node; eauto. }
    destruct (od_get q (so_tree s)) as [n|] eqn:G.
    - apply latest_all.
      + intros t0 n' I G'. pose proof (Ag1 t0 n' I G'). congruence.
      + destruct (some_bag s p bags q n Ws Pa Fw Sq G) as (bt & n' & I & G'). exists (snd bt), n'. split; [apply in_map; auto|auto].
    - destruct (latest (map snd bags) q) as [n|] eqn:La; auto. exfalso.
      assert (X : exists n0, latest (map snd bags) q = Some n0) by eauto. apply latest_some in X. destruct X as (t0 & I & n' & G').
      pose proof (Ag1 t0 n' I G'). congruence.
  Qed.

  (** A new bag that says that it is a head bag *)
  Lemma left_head n l b u tags : plan_left s o p it n out = out ++ l -> In (b, u) l -> tags_of (so_reader s) u = Ok tags ->
    od_has (U "Multibag-Head-Version") tags = true ->
    exists others t members, bags = others ++ [(b, t)] /\ l = others ++ [(b, u)] /\ unfinished u t /\ but_lists u t /\ std_tags tags (U "multibag") /\
      (forall ro, head_lists ro (open_hb b t tags (so_reader s)) = Ok ([], members)) /\
      map Tsv.m_name members = map fst others ++ [b] /\ wf_tree u /\ wf_tree t /\
      Forall2 (fun mh bt => wf_tree (snd bt) /\ exact_copies (so_tree s) (snd bt) (fst mh) (snd mh)) (manifests p) bags.
  Proof.
    intros Hl I Tu Hu.
    assert (Nb : Forall (no_brk (so_reader s)) (map fst bags)) by (eapply Forall_impl; [|exact St]; intros x (_ & J & _); exact J).
    destruct (C132_head s o p it out bags n l b u Op Hp Nb Sp Ho Hl I) as (t & Eb & El & Un & Bu); [exists tags; split; assumption|].
    destruct whole_head as (others & b' & t' & tags' & members & Eb' & Tg & Sd & Hls & Nms & Fw).
    assert (X : removelast bags = others /\ (b, t) = (b', t')) by (apply app_inj_tail; rewrite <- Eb; exact Eb'). destruct X as [E1 E2]. injection E2 as <- <-.
    assert (tags' = tags).
    { unfold tags_of in Tu, Tg. rewrite (proj2 Bu (U "bag-info.txt")) in Tu by discriminate. rewrite Tg in Tu. injection Tu as ->. reflexivity. }
    subst tags'. rewrite E1 in El. exists others, t, members. split; [exact Eb'|]. split; [exact El|]. split; [exact Un|]. split; [exact Bu|]. split; [exact Sd|]. split; [exact Hls|]. split; [exact Nms|].
    split; [|split; [|exact Fw]].
    - pose proof (left_wf n l Hl) as W. rewrite Forall_forall in W. exact (W _ I).
    - assert (Wb : Forall (fun bt : pystr * tree => wf_tree (snd bt)) bags) by (clear - Fw; induction Fw as [|? ? ? ? [? _]]; constructor; auto).
      rewrite Forall_forall in Wb. apply (Wb (b, t)). rewrite Eb'. apply in_app_iff. right; left; reflexivity.
  Qed.
End Left.

(** ** The member list is there *)

Lemma latest_alike q : forall ts us, Forall2 (fun t u => od_get q t = od_get q u) ts us -> latest ts q = latest us q.
Proof.
  intros ts us F. unfold latest. generalize (@None node). induction F as [|t u ts us E F IH]; intros acc; cbn [fold_left]; [reflexivity|]. rewrite E. apply IH.
Qed.

Lemma placed_found v place (others : dict tree) : (forall n t, In (n, t) others -> e_find v n = Some {| rb_loc := place n; rb_tree := t |}) ->
  Forall2 (fun n b => e_find v n = Some b) (map fst others) (map (placed place) others).
Proof.
  induction others as [|[n t] others IH]; intros F; cbn [map]; constructor; [apply F; left; reflexivity|]. apply IH. intros n' t' I. apply F. right. exact I.
Qed.

(** Wherever the split stopped: if a new bag says that it is a head bag and has
    its list of member bags, then restoring it gives what was split, but for the
    files that describe the bag. *)
Theorem C134_listed : forall s o p it out bags n l b u tags v us bsize ro place dest',
  opened s -> plain_opts (so_reader s) o -> od_has (U "Multibag-Head-Version") (so_info s) = false ->
  layout_ok s true -> is_dir (U "data") (so_tree s) = true ->
  (forall q, multibag_path q -> od_get q (so_tree s) = None) ->
  p_manifests p <> [] -> plans_all p (so_tree s) -> plans_no_own p ->
  splits_into s o p it out bags -> Forall (storable (so_reader s)) (map fst bags) ->
  plan_left s o p it n out = out ++ l -> In (b, u) l ->
  tags_of (so_reader s) u = Ok tags -> od_has (U "Multibag-Head-Version") tags = true ->
  is_file (U "multibag/member-bags.tsv") u = true ->
  plain_algos v -> found v place l ->
  restore v us true bsize ro (open_hb b u tags (so_reader s)) (place b) [] = Ok dest' ->
  forall q, ~ special_path q -> od_get q dest' = od_get q (so_tree s).
Proof.
  intros s o p it out bags n l b u tags v us bsize ro place dest' Op Hp Hh Lo Dd Nm Np Pa Ho Sp St Hl I Tu Hu Hm Pv Fo Re q Sq.
  destruct (left_head s o p it out bags Op Hp Hh Lo Nm Np Ho Sp St n l b u tags Hl I Tu Hu) as (others & t & members & Eb & El & Un & Bu & Sd & Hls & Nms & Wu & Wt & Fw).
  assert (Rl : read LIST u = read LIST t).
  { apply is_file_read in Hm. destruct Hm as [c Rc]. destruct (proj2 Un _ _ Rc) as (more & Rt & M). rewrite M, app_nil_r in Rt by (intros a; split; discriminate). unfold LIST. rewrite Rc, Rt. reflexivity. }
  assert (Hd : head_lists ro (open_hb b u tags (so_reader s)) = Ok ([], members)) by (rewrite (lists_left ro b u t tags (so_reader s) Sd Bu Rl); apply Hls).
  assert (Wl := left_wf s o p it out bags Lo Sp n l Hl).
  assert (Ag : aggregation v (open_hb b u tags (so_reader s)) (place b) members (map (placed place) l)).
  { exists (map fst others), (map (placed place) others). split; [left; exact Nms|]. split; [|rewrite El, map_app; reflexivity].
    apply placed_found. intros n' t' J. apply Fo. rewrite El. apply in_app_iff. left. exact J. }
  assert (Wr : Forall (fun x => wf_tree (rb_tree x) /\ rb_loc x <> e_dest v) (map (placed place) l)).
  { apply Forall_forall. intros x J. apply in_map_iff in J. destruct J as ([n' t'] & <- & J). cbn [placed rb_tree rb_loc fst snd]. rewrite Forall_forall in Wl. split; [exact (Wl _ J)|apply (Fo n' t' J)]. }
  assert (Bq : ~ bag_file v q) by (intros B; apply Sq; eapply special_bag_file; eauto).
  destruct (C33_combination v us true bsize ro (open_hb b u tags (so_reader s)) (place b) [] members _ dest' Pv eq_refl Hd Ag Wr Re q Bq (fun _ => special_multibag q Sq)) as [_ Q].
  rewrite Q by (intros (x & [] & _)). rewrite <- (latest_whole s p bags Lo q Dd Pa Sq Fw). rewrite map_map. cbn [placed rb_tree]. apply latest_alike. rewrite El, Eb, !map_app.
  apply Forall2_app; [|constructor; [|constructor]].
  - clear. induction others as [|x others IH]; constructor; [reflexivity|exact IH].
  - cbn [snd]. exact (node_left u t q Wu Wt Bu Sq).
Qed.
Print Assumptions C134_listed.

(** ** It is not there *)

(** Without its list of member bags, a head bag that was opened read-only cannot
    be restored; one that was opened for writing, as a restorer opens it when it
    is given a path, is taken for the whole aggregation. *)
Theorem C134_unlisted : forall s o p it out bags n l b u tags v us bsize place,
  opened s -> plain_opts (so_reader s) o -> od_has (U "Multibag-Head-Version") (so_info s) = false ->
  layout_ok s true ->
  (forall q, multibag_path q -> od_get q (so_tree s) = None) ->
  p_manifests p <> [] -> plans_no_own p ->
  splits_into s o p it out bags -> Forall (storable (so_reader s)) (map fst bags) ->
  plan_left s o p it n out = out ++ l -> In (b, u) l ->
  tags_of (so_reader s) u = Ok tags -> od_has (U "Multibag-Head-Version") tags = true ->
  is_file (U "multibag/member-bags.tsv") u = false ->
  plain_algos v -> found v place l ->
  restore v us true bsize true (open_hb b u tags (so_reader s)) (place b) [] = Err EMissingFile /\
  forall dest', restore v us true bsize false (open_hb b u tags (so_reader s)) (place b) [] = Ok dest' ->
    forall q, ~ special_path q -> od_get q dest' = od_get q u.
Proof.
  intros s o p it out bags n l b u tags v us bsize place Op Hp Hh Lo Nm Np Ho Sp St Hl I Tu Hu Hm Pv Fo.
  destruct (left_head s o p it out bags Op Hp Hh Lo Nm Np Ho Sp St n l b u tags Hl I Tu Hu) as (others & t & members & Eb & El & Un & Bu & Sd & Hls & Nms & Wu & Wt & Fw).
  assert (Rl : read LIST u = None).
  { unfold is_file in Hm. unfold LIST, read. destruct (od_get (U "multibag/member-bags.tsv") u) as [[|c]|]; [reflexivity|discriminate Hm|reflexivity]. }
  assert (Dl : snd (deleted_paths false (open_hb b u tags (so_reader s))) = Ok []).
  { rewrite (deleted_left b u t tags _ Sd Bu). specialize (Hls true). unfold head_lists in Hls. destruct (snd (deleted_paths false (open_hb b t tags (so_reader s)))) as [sk|e]; [|discriminate Hls]. cbn [bind] in Hls.
    destruct (snd (member_bags_ro false (open_hb b t tags (so_reader s)))) as [ms|e]; [|discriminate Hls]. cbn [bind] in Hls. injection Hls as -> _. reflexivity. }
  assert (Im : iter_member_bags (open_hb b u tags (so_reader s)) = Err EMissingFile) by (rewrite members_left by exact Sd; rewrite Rl; reflexivity).
  split.
  - unfold restore, head_lists. rewrite Dl. cbn [bind]. unfold member_bags_ro. cbn [hb_mem open_hb]. rewrite Im. reflexivity.
  - intros dest' Re q Sq.
    assert (Hd : head_lists false (open_hb b u tags (so_reader s)) = Ok ([], [])).
    { unfold head_lists. rewrite Dl. cbn [bind]. unfold HeadBag.member_bags, member_bags_ro. cbn [hb_mem open_hb]. rewrite Im. reflexivity. }
    assert (Ag : aggregation v (open_hb b u tags (so_reader s)) (place b) [] [{| rb_loc := place b; rb_tree := u |}]).
    { exists [], []. split; [|split; [constructor|reflexivity]]. right. split; [reflexivity|]. intros l' E. destruct l'; discriminate E. }
    assert (Wr : Forall (fun x => wf_tree (rb_tree x) /\ rb_loc x <> e_dest v) [{| rb_loc := place b; rb_tree := u |}]).
    { constructor; [|constructor]. split; [exact Wu|]. apply (Fo b u I). }
    assert (Bq : ~ bag_file v q) by (intros B; apply Sq; eapply special_bag_file; eauto).
    destruct (C33_combination v us true bsize false (open_hb b u tags (so_reader s)) (place b) [] [] _ dest' Pv eq_refl Hd Ag Wr Re q Bq (fun _ => special_multibag q Sq)) as [_ Q].
    rewrite Q by (intros (x & [] & _)). cbn [latest map rb_tree fold_left]. destruct (od_get q u); reflexivity.
Qed.
Print Assumptions C134_unlisted.

(** ** Cases *)

Definition su_left (n : nat) : dict tree := plan_left ex_source ex_opts ex_plan None n [].
Definition su_env (n : nat) : env :=
  {| e_algos := ex_algos; e_version := fun _ => Ok (true, true); e_danger := fun _ _ => false;
     e_hash := fun a c => a ++ dec (N.of_nat (length c)); e_dest := U "/out";
     e_find := fun x => match od_get x (su_left n) with
                        | Some t => Some {| rb_loc := ex_place x; rb_tree := t |}
                        | None => None
                        end |}.
Definition su_tree (n : nat) : tree := match od_get (U "two") (su_left n) with Some t => t | None => [] end.
Definition su_head (n : nat) : hb := open_hb (U "two") (su_tree n) (got [] (tags_of Codecs (su_tree n))) Codecs.
Definition su_restore (ro : bool) (n : nat) : res tree := restore (su_env n) true true (fun _ => U "1 kB") ro (su_head n) (ex_place (U "two")) [].
Definition su_is (n : nat) : bool * bool := (od_has (U "Multibag-Head-Version") (got [] (tags_of Codecs (su_tree n))), is_file (U "multibag/member-bags.tsv") (su_tree n)).

Lemma su_splits : splits_into ex_source ex_opts ex_plan None [] ex_bags /\ Forall (storable (so_reader ex_source)) (map fst ex_bags).
Proof.
  split; [exact (proj1 ex_splits)|]. rewrite (proj2 ex_splits). apply Forall_forall. intros x [<-|[<-|[]]]; apply storableb_ok; reflexivity.
Qed.

Lemma su_found n : NoDup (map fst (su_left n)) -> found (su_env n) ex_place (su_left n).
Proof.
  intros Nd x t I. split; [|discriminate]. cbn [e_find su_env]. rewrite (od_in_get x t (su_left n) Nd I). reflexivity.
Qed.

(** The split stops after the directory of the lists was made: restoring the head
    bag by its path succeeds, and a file of the payload is missing. *)
Theorem C134_refuted : exists s o p bags n l b u tags v bsize place dest' f,
  splits_into s o p None [] bags /\ plan_left s o p None n [] = l /\ In (b, u) l /\
  tags_of (so_reader s) u = Ok tags /\ od_has (U "Multibag-Head-Version") tags = true /\ found v place l /\
  restore v true true bsize false (open_hb b u tags (so_reader s)) (place b) [] = Ok dest' /\
  is_file (U "data/" ++ f) (so_tree s) = true /\ exists_ (U "data/" ++ f) dest' = false.
Proof.
  exists ex_source, ex_opts, ex_plan, ex_bags, 21, (su_left 21), (U "two"), (su_tree 21), (got [] (tags_of Codecs (su_tree 21))), (su_env 21), (fun _ => U "1 kB"), ex_place, (got [] (su_restore false 21)), (U "a").
  split. { exact (proj1 su_splits). }
  split; [reflexivity|]. split; [apply od_get_in; vm_compute; reflexivity|]. split; [vm_compute; reflexivity|]. split; [vm_compute; reflexivity|].
  split; [apply su_found; apply nodupb_ok; vm_compute; reflexivity|]. split; [vm_compute; reflexivity|]. split; vm_compute; reflexivity.
Qed.
Print Assumptions C134_refuted.

Example C134_case :
  layout_ok ex_source true /\ is_dir (U "data") ex_tree = true /\
  (forall q, multibag_path q -> od_get q ex_tree = None) /\ plans_all ex_plan ex_tree /\ plans_no_own ex_plan /\
  splits_into ex_source ex_opts ex_plan None [] ex_bags /\ Forall (storable (so_reader ex_source)) (map fst ex_bags) /\
  plan_left ex_source ex_opts ex_plan None 22 [] = [] ++ su_left 22 /\ found (su_env 22) ex_place (su_left 22) /\
  (** a head bag that is not one yet, one without its list, one with it *)
  map su_is [19; 20; 21; 22] = [(false, false); (true, false); (true, false); (true, true)] /\
  is_file (U "multibag/file-lookup.tsv") (su_tree 22) = false /\
  map (fun n => is_ok (su_restore true n)) [20; 21; 22] = [false; false; true] /\
  match su_restore false 22 with Ok t => files t | Err _ => [] end =
    [U "manifest-md5.txt"; U "bagit.txt"; U "tagmanifest-md5.txt"; U "bag-info.txt"; U "meta/m"; U "data/d/b"; U "data/a"].
Proof.
  destruct C32_case as (C1 & C2 & C3 & C4 & _). destruct C31_case as [No _].
  split; [exact C1|]. split; [exact C2|]. split; [exact C3|]. split; [exact C4|]. split; [exact No|]. split; [exact (proj1 su_splits)|]. split; [exact (proj2 su_splits)|].
  split; [reflexivity|]. split; [apply su_found; apply nodupb_ok; vm_compute; reflexivity|]. split; [vm_compute; reflexivity|]. split; [vm_compute; reflexivity|]. split; vm_compute; reflexivity.
Qed.

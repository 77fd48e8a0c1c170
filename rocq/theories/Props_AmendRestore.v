(** Restoring what an amendment has made (C101) *)
Require Import String NArith PeanoNat Bool List Lia.
From Verif Require Import PyBase PyFacts Version Tsv TsvProofs Fs FsFacts HeadBag HeadBagProofs HeadBagProofs2 HeadBagProofs3 BagIt BagItProofs Split SplitApply SplitApplyProofs SplitApplyProofs5 SplitApplyProofs7 SplitApplyProofs8 Restore RestoreProofs RestoreProofs2 RestoreProofs3 RestoreProofs6 Props_SplitApply Props_Restore Props_Restore3 Amend AmendProofs AmendProofs2 AmendProofs3 AmendProofs4 Props_Amend SingleProofs Props_Single Validate ValidateProofs Props_Validate Props_Validate2 Props_Validate3 ValidateProofs2 Props_Validate5 Props_Validate6.
Import ListNotations.
Open Scope N_scope.

(** ** Specification *)

(** The files that a bag uses to describe itself. *)
Definition describing (p : pystr) : Prop :=
  p = U "bag-info.txt" \/ p = U "fetch.txt" \/
  exists alg, p = U "manifest-" ++ alg ++ U ".txt" \/ p = U "tagmanifest-" ++ alg ++ U ".txt".

(** The tag directory, its member list and its file lookup list. *)
Definition listing (td p : pystr) : Prop :=
  p = td \/ p = td ++ U "/member-bags.tsv" \/ p = td ++ U "/file-lookup.tsv".

(** What is at a path if the bags [over] are laid over [below]. *)
Definition laid_over (below : option node) (over : list tree) (p : pystr) : option node :=
  match latest over p with Some n => Some n | None => below end.

(** The bags that are amended with can be found, with the files that they
    had. *)
Definition found_as (w : env) (b : abag) (r : rbag) : Prop :=
  e_find w (s_name (ab_src b)) = Some r /\ rb_tree r = s_tree (ab_src b).

(** A bag that can be copied: its tree is one, and it is not the
    destination. *)
Definition elsewhere (w : env) (r : rbag) : Prop := wf_tree (rb_tree r) /\ rb_loc r <> e_dest w.

(** ** What amending leaves of the new head bag *)

Lemma info_leaves_any v algs bsize version profver i q : ~ saved_file q ->
  Forall (leaves_at q) (info_steps v algs bsize version profver i).
Proof.
  intros Q.
  assert (S : forall f, Forall (leaves_at q) (save_steps v algs f)).
  { intros f. unfold save_steps. constructor.
    - intros t t' H. eapply write_leaves; [|exact H]. intros ->. apply Q. left. reflexivity.
    - apply Forall_forall. intros s I. apply in_map_iff in I. destruct I as (a & <- & _). intros t t' H.
      eapply write_leaves; [|exact H]. intros ->. apply Q. right. eauto. }
  unfold info_steps. apply Forall_app. split; apply S.
Qed.

Lemma describing_saved p : saved_file p -> describing p.
Proof. intros [->|[a ->]]; [left; reflexivity|]. right; right. exists a. right. reflexivity. Qed.
Lemma describing_bag v p : bag_file v p -> describing p.
Proof. intros [->|[->|(a & _ & H)]]; [left; reflexivity|right; left; reflexivity|]. right; right. exists a. exact H. Qed.

Lemma amended_nodes v algs bsize repr ro old bags own inc exc version new new' old' name t td q :
  plain_algos v -> (forall a, In a algs -> In a (e_algos v)) ->
  amendment bsize repr old new name t td version -> ~ listing td q -> ~ saved_file q \/ In SLASH q ->
  amend v algs bsize repr false ro old bags own inc exc version new = (new', Ok old') ->
  od_get q (hb_tree new') = od_get q t.
Proof.
  intros Pa Al (B & (i & Ti & En & Td) & D & Tv & Nv & Vv & Fd) Q Q3 H.
  destruct (amend_disk v algs bsize repr ro old bags own inc exc version new new' old' name t td B) as
    (ms & t2 & h & d & _ & _ & R1 & _ & _ & _ & _ & _ & _ & _ & _ & _ & _ & R2 & _); auto.
  { exists i. auto. }
  { subst new. exact Td. }
  assert (R : run_steps (([reset_step td; clear_step td] ++ members_steps td (last_ones (ms ++ map ab_member bags ++ [own name])) ++ lookup_steps td (hb_lu h)) ++
               info_steps v algs bsize (Some version) CURRENT_VERSION (hb_info h)) t = Ok (hb_tree new')).
  { rewrite <- !app_assoc. rewrite run_app, R1. exact R2. }
  revert R. apply run_leaves. apply Forall_app. split.
  - apply list_leaves; intros X; apply Q; unfold listing; auto.
  - destruct Q3; [apply info_leaves_any; auto|apply info_leaves; auto].
Qed.

Lemma amended_bag v algs bsize repr ro old bags own inc exc version new new' old' name t td :
  plain_algos v -> (forall a, In a algs -> In a (e_algos v)) ->
  amendment bsize repr old new name t td version -> good_path td -> outside_payload td -> bag_files t ->
  amend v algs bsize repr false ro old bags own inc exc version new = (new', Ok old') ->
  bag_files (hb_tree new').
Proof.
  intros Pa Al' (B & (i & Ti & En & Td) & D & Tv & Nv & Vv & Fd) Gt Ot Wn H.
  destruct (amend_disk v algs bsize repr ro old bags own inc exc version new new' old' name t td B) as
    (ms & t2 & h & d & _ & _ & R1 & _ & _ & _ & _ & _ & _ & _ & _ & _ & _ & R & _); auto.
  { exists i. auto. }
  { subst new. exact Td. }
  set (lst := last_ones (ms ++ map ab_member bags ++ [own name])) in *.
  rewrite run_app in R. destruct (run_steps (members_steps td lst) t2) as [t3|] eqn:R3; [|discriminate]. cbn [bind] in R.
  rewrite run_app in R. destruct (run_steps (lookup_steps td (hb_lu h)) t3) as [t4|] eqn:R4; [|discriminate]. cbn [bind] in R.
  rewrite run_cons in R1. apply bind_ok in R1. destruct R1 as (t1 & R1 & R5). rewrite run_cons in R5. apply bind_ok in R5. destruct R5 as (t5 & R5 & R6).
  cbn in R6. inversion R6; subst t5.
  assert (K : keeps t (hb_tree new')).
  { eapply keeps_trans; [eapply reset_keeps; eauto|]. eapply keeps_trans; [eapply clear_keeps; eauto|].
    eapply keeps_trans; [eapply members_keeps; eauto|]. eapply keeps_trans; [eapply lookup_keeps; eauto|].
    apply (info_steps_keep _ _ _ _ _ _ _ _ Pa Al' R). }
  apply (K Wn).
Qed.

Lemma amended_wf v algs bsize repr ro old bags own inc exc version new new' old' name t td :
  plain_algos v -> (forall a, In a algs -> In a (e_algos v)) ->
  amendment bsize repr old new name t td version -> good_path td -> outside_payload td -> bag_files t ->
  amend v algs bsize repr false ro old bags own inc exc version new = (new', Ok old') ->
  wf_tree (hb_tree new').
Proof. intros Pa Al Am Gt Ot Wn H. exact (proj1 (amended_bag _ _ _ _ _ _ _ _ _ _ _ _ _ _ _ _ _ Pa Al Am Gt Ot Wn H)). Qed.

(** ** Laying over *)

Lemma latest_app a b p : latest (a ++ b) p = laid_over (latest a p) b p.
Proof.
  unfold laid_over. induction b as [|t b IH] using rev_ind; [rewrite app_nil_r; reflexivity|].
  rewrite app_assoc. unfold latest in *. rewrite (fold_left_app _ (a ++ b)), (fold_left_app _ b). cbn [fold_left].
  destruct (od_get p t); [reflexivity|exact IH].
Qed.

Lemma latest_ext a b p : map (od_get p) a = map (od_get p) b -> latest a p = latest b p.
Proof.
  unfold latest. generalize (@None node). revert b. induction a as [|t a IH]; intros [|t' b] s H; try discriminate; [reflexivity|].
  cbn [map] in H. injection H as H1 H2. cbn [fold_left]. rewrite H1. apply IH. exact H2.
Qed.

Lemma found_names w bags rs : Forall2 (found_as w) bags rs ->
  Forall2 (fun n b => e_find w n = Some b) (map Tsv.m_name (map entry_of bags)) rs.
Proof. induction 1 as [|b r bags rs [H _] _ IH]; cbn [map]; constructor; auto. Qed.
Lemma found_trees w bags rs : Forall2 (found_as w) bags rs -> map rb_tree rs = map (fun b => s_tree (ab_src b)) bags.
Proof. induction 1 as [|b r bags rs [_ H] _ IH]; cbn [map]; [reflexivity|]. rewrite H, IH. reflexivity. Qed.

Lemma deleted_set l p : deleted (set_of l) p <-> deleted l p.
Proof. unfold deleted. split; intros (s & I & H); exists s; (split; [|exact H]); apply in_set_of; exact I. Qed.

(** ** C101 *)

(** The bag [old] with the members [ms] was amended with [bags] and the new
    head bag [name] with files [t], tag directory [td] and deleted paths [dl];
    no two of all these bags have the same name. Then the new head bag was
    opened and restored into a new directory, with the result [dest]. The
    members of the amendee were found as [olds], and the bags amended with as
    they were. *)
Definition amended_restored (w : env) (rt : bool) (old : hb) (bags : list abag) (name : pystr) (t : tree) (td : pystr)
    (ms : list minfo) (olds : list rbag) (dl : list pystr) (dest : tree) : Prop :=
  exists v algs bsize repr ro pid comment info inc exc version new new' old' us bs ro' loc r i adds,
  (* the amendment *)
  plain_algos v /\ (forall a, In a algs -> In a (e_algos v)) /\
  amendment bsize repr old new name t td version /\ good_path td /\ outside_payload td /\ bag_files t /\
  members_of old ms /\ NoDup (map Tsv.m_name ms ++ map (fun b => s_name (ab_src b)) bags ++ [name]) /\
  amend v algs bsize repr false ro old bags (own_member pid comment info) inc exc version new = (new', Ok old') /\
  Forall (storable_member r) (ms ++ map entry_of bags ++ [own_member pid comment info name]) /\
  iter_deleted (open_hb name t (hb_info new) r) = Ok dl /\
  (* the restoration *)
  plain_algos w /\ Forall2 (fun m b => e_find w (Tsv.m_name m) = Some b) ms olds /\ Forall2 (found_as w) bags adds /\
  Forall (elsewhere w) (olds ++ adds) /\ loc <> e_dest w /\
  tags_of r (hb_tree new') = Ok i /\
  restore w us rt bs ro' (open_hb name (hb_tree new') i r) loc [] = Ok dest.

(** Restoring the head bag of an amendment: at every path that does not
    describe a bag there is what is left after copying the members of the
    amendee, the bags amended with and the new head bag in this order, unless
    the new head bag had deleted it. *)
Theorem C101_order : forall w rt old bags name t td ms olds dl dest,
  amended_restored w rt old bags name t td ms olds dl dest ->
  forall p, ~ describing p -> ~ listing td p -> (rt = true -> ~ multibag_path p) ->
    (deleted dl p -> od_get p dest = None) /\
    (~ deleted dl p -> od_get p dest = latest (map rb_tree olds ++ map (fun b => s_tree (ab_src b)) bags ++ [t]) p).
Proof.
  intros w rt old bags name t td ms olds dl dest' (v & algs & bsize & repr & ro & pid & comment & info & inc & exc & version & new & new' & old' & us & bs & ro' & loc & r & i & adds &
    Pa & Al & Am & Gt & Ot & Wn & Ms & Nd & H & Sm & Dl & Pw & Fo & Fa & El & Lo & Ti & R) p P1 P2 P3.
  set (own := own_member pid comment info) in *.
  destruct (C41_members v algs bsize repr ro old bags own inc exc version new new' old' name t td ms Am Ms H r Sm) as (j & Tj & _ & Im).
  assert (j = i) by congruence. subst j.
  assert (Nm : map Tsv.m_name (ms ++ map entry_of bags ++ [own name]) = map Tsv.m_name ms ++ map (fun b => s_name (ab_src b)) bags ++ [name]).
  { rewrite !map_app, map_map. reflexivity. }
  assert (L : last_ones (ms ++ map entry_of bags ++ [own name]) = ms ++ map entry_of bags ++ [own name]).
  { apply C41_distinct. rewrite Nm. exact Nd. }
  rewrite L in Im. set (l := ms ++ map entry_of bags ++ [own name]) in *.
  set (h := open_hb name (hb_tree new') i r) in *.
  assert (Std : tag_dir i = td /\ tag_dir (hb_info new) = td).
  { pose proof Am as (B & (i0 & Ti0 & En & Td) & D & Tv & Nv & Vv & Fd).
    destruct (amend_disk v algs bsize repr ro old bags own inc exc version new new' old' name t td B) as
      (? & ? & ? & ? & _ & _ & _ & _ & _ & _ & _ & _ & _ & _ & _ & _ & _ & _ & T); auto.
    { exists i0. auto. }
    { subst new. exact Td. }
    destruct (T r) as (j & J1 & J2 & _). assert (j = i) by congruence. subst j. split; [apply std_tag_dir; exact J2|].
    subst new. cbn [open_hb hb_info]. unfold tag_dir_raw in Td. unfold tag_dir.
    destruct (od_get T_TagDir i0) as [[s|k]|]; congruence. }
  destruct Std as [Std Std0].
  assert (Ed : od_get (sjoin td F_deleted) (hb_tree new') = od_get (sjoin td F_deleted) t).
  { refine (amended_nodes _ _ _ _ _ _ _ _ _ _ _ _ _ _ _ _ _ _ Pa Al Am _ _ H).
    - intros [X|[X|X]]; revert X; [apply not_own_dir; discriminate| |].
      + change (td ++ U "/member-bags.tsv") with (sjoin td F_members). apply other_name. discriminate.
      + change (td ++ U "/file-lookup.tsv") with (sjoin td F_lookup). apply other_name. discriminate.
    - right. unfold sjoin. apply in_or_app. right. left. reflexivity. }
  assert (Hd : iter_deleted h = Ok dl).
  { rewrite <- Dl. unfold iter_deleted, h. cbn [open_hb hb_info hb_tree hb_reader]. rewrite Std, Std0. unfold read, exists_, is_file, is_dir. rewrite Ed. reflexivity. }
  assert (Hl : head_lists ro' h = Ok (set_of dl, l)).
  { unfold head_lists, deleted_paths. cbn [h open_hb hb_del]. fold h. rewrite Hd. cbn [snd bind].
    assert (Em : snd (member_bags_ro false h) = Ok l) by (unfold member_bags_ro; cbn [h open_hb hb_mem]; fold h; rewrite Im; reflexivity).
    destruct ro'; [rewrite Em; reflexivity|]. unfold HeadBag.member_bags. destruct (member_bags_ro false h) as [h' [x|e]]; cbn [snd] in Em; [|discriminate].
    injection Em as ->. reflexivity. }
  assert (Ha : aggregation w h loc l (olds ++ adds ++ [{| rb_loc := loc; rb_tree := hb_tree h |}])).
  { exists (map Tsv.m_name ms ++ map Tsv.m_name (map entry_of bags)), (olds ++ adds). split; [|split].
    - left. rewrite Nm, map_map, <- app_assoc. reflexivity.
    - apply Forall2_app; [|apply found_names; exact Fa]. clear - Fo. induction Fo; cbn [map]; constructor; auto.
    - rewrite <- app_assoc. reflexivity. }
  assert (Wb : Forall (fun b => wf_tree (rb_tree b) /\ rb_loc b <> e_dest w) (olds ++ adds ++ [{| rb_loc := loc; rb_tree := hb_tree h |}])).
  { rewrite app_assoc. apply Forall_app. split; [exact El|]. constructor; [|constructor]. split; [|exact Lo].
    cbn [rb_tree h open_hb hb_tree]. exact (amended_wf _ _ _ _ _ _ _ _ _ _ _ _ _ _ _ _ _ Pa Al Am Gt Ot Wn H). }
  destruct (C33_combination w us rt bs ro' h loc (set_of dl) l _ dest' Pw eq_refl Hl Ha Wb R p) as [Q1 Q2].
  { intros X. apply P1. eapply describing_bag; exact X. }
  { exact P3. }
  rewrite deleted_set in Q1, Q2. split; [exact Q1|]. intros X. rewrite (Q2 X). apply latest_ext.
  rewrite !map_app, (found_trees _ _ _ Fa). cbn [map rb_tree h open_hb hb_tree].
  rewrite (amended_nodes _ _ _ _ _ _ _ _ _ _ _ _ _ _ _ _ _ p Pa Al Am P2 (or_introl (fun Y => P1 (describing_saved p Y))) H). reflexivity.
Qed.
Print Assumptions C101_order.

(** A single bag that was not divided, and then amended: its files, with those
    of the other bags laid over. *)
Theorem C101_single_bag : forall w rt old bags name t td ms b dl dest,
  amended_restored w rt old bags name t td ms [b] dl dest ->
  is_head old = false -> rb_tree b = hb_tree old ->
  forall p, ~ describing p -> ~ listing td p -> (rt = true -> ~ multibag_path p) -> ~ deleted dl p ->
    od_get p dest = laid_over (od_get p (hb_tree old)) (map (fun b => s_tree (ab_src b)) bags ++ [t]) p.
Proof.
  intros w rt old bags name t td ms b dl dest H Eh Et p P1 P2 P3 P4.
  rewrite (proj2 (C101_order _ _ _ _ _ _ _ _ _ _ _ H p P1 P2 P3) P4), latest_app. cbn [map]. rewrite Et.
  unfold latest at 1. cbn [fold_left]. destruct (od_get p (hb_tree old)); reflexivity.
Qed.
Print Assumptions C101_single_bag.

(** An aggregation: the restored new version is the restored old version with
    the files of the bags laid over. This is not so for the paths that the old
    version deleted. *)
Theorem C101_versions_partial : forall w rt old bags name t td ms olds dl dest w' us rt' bs ro loc names before skip dest0,
  amended_restored w rt old bags name t td ms olds dl dest ->
  (* the old version, restored on its own *)
  hb_del old = None -> head_lists ro old = Ok (skip, ms) -> map Tsv.m_name ms = names ++ [hb_name old] ->
  olds = before ++ [{| rb_loc := loc; rb_tree := hb_tree old |}] ->
  Forall2 (fun n b => e_find w' n = Some b) names before -> plain_algos w' -> Forall (elsewhere w') olds ->
  restore w' us rt' bs ro old loc [] = Ok dest0 ->
  forall p, ~ describing p -> ~ listing td p -> (rt = true \/ rt' = true -> ~ multibag_path p) -> ~ deleted dl p ->
    ~ deleted skip p ->
    od_get p dest = laid_over (od_get p dest0) (map (fun b => s_tree (ab_src b)) bags ++ [t]) p.
Proof.
  intros w rt old bags name t td ms olds dl dest w' us rt' bs ro loc names before skip dest0 H Hd Hl Nm -> Fo Pw El R p P1 P2 P3 P4 P5.
  rewrite (proj2 (C101_order _ _ _ _ _ _ _ _ _ _ _ H p P1 P2 (fun E => P3 (or_introl E))) P4), latest_app. f_equal. symmetry.
  refine (proj2 (C33_combination w' us rt' bs ro old loc skip ms _ dest0 Pw Hd Hl _ El R p _ (fun E => P3 (or_intror E))) P5).
  - exists names, before. split; [left; exact Nm|]. split; [exact Fo|reflexivity].
  - intros X. apply P1. eapply describing_bag; exact X.
Qed.
Print Assumptions C101_versions_partial.

(** An example: "two" is the head bag of "one" and "two" and deletes
    data/oldx; it is amended with "four" and the new head bag "three". *)
Definition ex_old_tree : tree :=
  od_set (U "multibag/deleted.txt") (NFile (txt [U "data/oldx"])) ex_amendee_tree.
Definition ex_old : hb := open_hb (U "two") ex_old_tree (got [] (load_tags Codecs ex_info2)) Codecs.
Definition ex_next : hb := fst (ex_amend ex_old [ex_four] ex_new).
Definition ex_place (n : pystr) (t : tree) : rbag := {| rb_loc := U "/bags/" ++ n; rb_tree := t |}.
Definition ex_world : env :=
  {| e_algos := e_algos ex_env; e_version := e_version ex_env; e_danger := e_danger ex_env; e_hash := e_hash ex_env; e_dest := U "/out";
     e_find := fun n => if streq n (U "one") then Some (ex_place n ex_one)
                        else if streq n (U "two") then Some (ex_place n ex_old_tree)
                        else if streq n (U "four") then Some (ex_place n (s_tree ex_four)) else None |}.
Definition ex_before : tree := got [] (restore ex_world true true (fun _ => U "1 kB") false ex_old (U "/bags/two") []).
Definition ex_after : tree :=
  got [] (restore ex_world true true (fun _ => U "1 kB") false
    (open_hb (U "three") (hb_tree ex_next) (got [] (tags_of Codecs (hb_tree ex_next))) Codecs) (U "/bags/three") []).
Definition ex_olds : list rbag := [ex_place (U "one") ex_one; ex_place (U "two") ex_old_tree].

Lemma ex_done : amended_restored ex_world true ex_old [default_bag ex_four] (U "three") ex_three (U "multibag")
  (map plain_member [U "one"; U "two"]) ex_olds [] ex_after.
Proof.
  assert (Pa : plain_algos ex_env) by (intros a [<-|[<-|[]]]; cbn; intuition discriminate).
  exists ex_env, [U "md5"], (fun _ => U "1 kB"), ex_repr, false, None, None, [], SNone, SNone, (U "2"), ex_new, ex_next, ex_old, true,
    (fun _ => U "1 kB"), false, (U "/bags/three"), Codecs, (got [] (tags_of Codecs (hb_tree ex_next))), [ex_place (U "four") (s_tree ex_four)].
  split; [exact Pa|]. split; [intros a [<-|[]]; left; reflexivity|]. split; [exact ex_amendment|].
  split; [apply good_pathb_ok; reflexivity|]. split; [reflexivity|]. split; [split; [apply wf_treeb_ok; vm_compute; reflexivity|reflexivity]|].
  split; [left; split; vm_compute; reflexivity|]. split; [apply nodupb_ok; vm_compute; reflexivity|].
  split; [vm_compute; reflexivity|].
  split.
  { repeat (apply Forall_cons; [apply storable_name, storableb_ok; reflexivity|]). constructor. }
  split; [vm_compute; reflexivity|]. split; [exact Pa|].
  split; [repeat constructor|]. split; [repeat constructor|].
  split.
  { repeat (apply Forall_cons; [split; [apply wf_treeb_ok; vm_compute; reflexivity|discriminate]|]). constructor. }
  split; [discriminate|]. split; [vm_compute; reflexivity|]. vm_compute. reflexivity.
Qed.

Example C101_case :
  amended_restored ex_world true ex_old [default_bag ex_four] (U "three") ex_three (U "multibag")
    (map plain_member [U "one"; U "two"]) ex_olds [] ex_after /\
  hb_del ex_old = None /\ head_lists false ex_old = Ok ([U "data/oldx"], map plain_member [U "one"; U "two"]) /\
  map Tsv.m_name (map plain_member [U "one"; U "two"]) = [U "one"] ++ [hb_name ex_old] /\
  Forall2 (fun n b => e_find ex_world n = Some b) [U "one"] [ex_place (U "one") ex_one] /\
  Forall (elsewhere ex_world) ex_olds /\
  restore ex_world true true (fun _ => U "1 kB") false ex_old (U "/bags/two") [] = Ok ex_before /\
  map (fun p => read p ex_before) [U "data/a"; U "data/b"; U "data/bb"; U "data/oldx"] = [Some (U "new"); Some (U "b"); Some (U "bb"); None] /\
  map (fun p => read p ex_after) [U "data/a"; U "data/b"; U "data/bb"; U "data/oldx"] = [Some (U "newest"); Some (U "4"); Some (U "bb"); Some (U "ox")].
Proof.
  split; [exact ex_done|]. split; [reflexivity|]. split; [vm_compute; reflexivity|]. split; [reflexivity|].
  split; [constructor; [reflexivity|constructor]|].
  split; [repeat (apply Forall_cons; [split; [apply wf_treeb_ok; vm_compute; reflexivity|discriminate]|]); constructor|].
  split; [vm_compute; reflexivity|]. split; vm_compute; reflexivity.
Qed.

(** A file that the old version deleted, and that none of the bags has, is
    back in the new version. *)
Theorem C101_refuted : exists w old bags name t ms olds dest ro loc skip dest0 p,
  amended_restored w true old bags name t (U "multibag") ms olds [] dest /\
  head_lists ro old = Ok (skip, ms) /\ restore w true true (fun _ => U "1 kB") ro old loc [] = Ok dest0 /\
  deleted skip p /\ od_get p dest0 = None /\
  Forall (fun x => od_get p x = None) (map (fun b => s_tree (ab_src b)) bags ++ [t]) /\
  exists n, od_get p dest = Some n.
Proof.
  exists ex_world, ex_old, [default_bag ex_four], (U "three"), ex_three, (map plain_member [U "one"; U "two"]), ex_olds, ex_after,
    false, (U "/bags/two"), [U "data/oldx"], ex_before, (U "data/oldx").
  split; [exact ex_done|]. split; [vm_compute; reflexivity|]. split; [vm_compute; reflexivity|].
  split; [exists (U "data/oldx"); split; [left; reflexivity|left; reflexivity]|]. split; [vm_compute; reflexivity|].
  split; [repeat (apply Forall_cons; [vm_compute; reflexivity|]); constructor|].
  exists (NFile (U "ox")). vm_compute. reflexivity.
Qed.
Print Assumptions C101_refuted.

(** A bag that was not divided: "one", amended with "four" and "three". *)
Definition ex_plain : hb := open_hb (U "one") ex_one (got [] (tags_of Codecs ex_one)) Codecs.
Definition ex_plain_next : hb := fst (ex_amend ex_plain [ex_four] ex_new).
Definition ex_plain_after : tree :=
  got [] (restore ex_world true true (fun _ => U "1 kB") false
    (open_hb (U "three") (hb_tree ex_plain_next) (got [] (tags_of Codecs (hb_tree ex_plain_next))) Codecs) (U "/bags/three") []).

Example C101_single_case :
  amended_restored ex_world true ex_plain [default_bag ex_four] (U "three") ex_three (U "multibag")
    [plain_member (U "one")] [ex_place (U "one") ex_one] [] ex_plain_after /\
  is_head ex_plain = false /\
  map (fun p => read p ex_plain_after) [U "data/a"; U "data/b"; U "data/bb"; U "data/oldx"] = [Some (U "newest"); Some (U "4"); Some (U "bb"); Some (U "ox")].
Proof.
  assert (Pa : plain_algos ex_env) by (intros a [<-|[<-|[]]]; cbn; intuition discriminate).
  split; [|split; vm_compute; reflexivity].
  exists ex_env, [U "md5"], (fun _ => U "1 kB"), ex_repr, false, None, None, [], SNone, SNone, (U "2"), ex_new, ex_plain_next, ex_plain, true,
    (fun _ => U "1 kB"), false, (U "/bags/three"), Codecs, (got [] (tags_of Codecs (hb_tree ex_plain_next))), [ex_place (U "four") (s_tree ex_four)].
  split; [exact Pa|]. split; [intros a [<-|[]]; left; reflexivity|]. split.
  { destruct ex_amendment as (A1 & A2 & A3 & A4 & A5 & A6 & A7).
    split; [exact A1|]. split; [exact A2|]. split; [exact A3|]. split; [exact A4|]. split; [exact A5|]. split; [exact A6|].
    assert (E : deprecates ex_repr (hb_info ex_plain) = [U "1"]) by (vm_compute; reflexivity). rewrite E.
    constructor; [|constructor]. apply plain_valueb_ok; reflexivity. }
  split; [apply good_pathb_ok; reflexivity|]. split; [reflexivity|]. split; [split; [apply wf_treeb_ok; vm_compute; reflexivity|reflexivity]|].
  split; [right; split; vm_compute; reflexivity|]. split; [apply nodupb_ok; vm_compute; reflexivity|].
  split; [vm_compute; reflexivity|].
  split.
  { repeat (apply Forall_cons; [apply storable_name, storableb_ok; reflexivity|]). constructor. }
  split; [vm_compute; reflexivity|]. split; [exact Pa|].
  split; [repeat constructor|]. split; [repeat constructor|].
  split.
  { repeat (apply Forall_cons; [split; [apply wf_treeb_ok; vm_compute; reflexivity|discriminate]|]). constructor. }
  split; [discriminate|]. split; [vm_compute; reflexivity|]. vm_compute. reflexivity.
Qed.

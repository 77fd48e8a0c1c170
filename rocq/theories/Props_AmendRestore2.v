(** An amended aggregation of valid bags can be restored, and gives a valid
    bag (C110) *)
Require Import String NArith ZArith PeanoNat Bool List Lia.
From Verif Require Import PyBase PyFacts Version Tsv TsvProofs Fs FsFacts HeadBag HeadBagProofs HeadBagProofs2 HeadBagProofs3 BagIt BagItProofs BagItProofs2 Split SplitApply SplitApplyProofs SplitApplyProofs5 SplitApplyProofs7 SplitApplyProofs8 Restore RestoreProofs RestoreProofs2 RestoreProofs3 RestoreProofs4 RestoreProofs6 RestoreProofs7 RestoreProofs8 RestoreProofs9 RestoreProofs10 RestoreProofs11 Props_SplitApply Props_Restore Props_Restore3 Props_Restore4 BagValid BagValidProofs Props_BagValid Props_BagValid2 Props_BagValid4 Amend AmendProofs AmendProofs2 AmendProofs3 AmendProofs4 SingleProofs SaveValidProofs Props_RoundTrip2 Props_Amend Props_Validate5 Props_AmendRestore Props_AmendValid.
Import ListNotations.
Open Scope N_scope.

(** ** No step makes a directory but the tag directory *)

Definition no_dir (td : pystr) (s : step) : Prop :=
  forall t t' q, NoDup (od_keys t) -> s t = Ok t' -> q <> td -> od_get q t' = Some NDir -> od_get q t = Some NDir.

Lemma run_no_dir td algs l : Forall (tag_step td algs) l -> Forall (no_dir td) l ->
  forall t t' q, NoDup (od_keys t) -> run_steps l t = Ok t' -> q <> td -> od_get q t' = Some NDir -> od_get q t = Some NDir.
Proof.
  induction 1 as [|s l Hs _ IH]; intros F t t' q D H Q E; [cbn in H; injection H as <-; exact E|].
  inversion F as [|? ? F1 F2]; subst. rewrite run_cons in H. apply bind_ok in H. destruct H as (t1 & H1 & H2).
  apply (F1 t t1 q D H1 Q). exact (IH F2 t1 t' q (proj1 (Hs t t1 D H1)) H2 Q E).
Qed.

Lemma write_no_dir td p f : no_dir td (fun t => write_file p (f t) t).
Proof.
  intros t t' q _ H _ E. apply write_file_ok in H. subst t'. destruct (str_eq_dec q p) as [->|N0].
  - rewrite od_get_set_same in E. discriminate E.
  - rewrite od_get_set_other in E by exact N0. exact E.
Qed.
Lemma ensure_no_dir td : no_dir td (ensure_step td).
Proof. intros t t' q _ H Q E. rewrite <- (proj1 (ensure_step_other td t t' H) q Q). exact E. Qed.
Lemma remove_no_dir td p : no_dir td (remove_file p).
Proof.
  intros t t' q D H _ E. unfold remove_file in H. destruct (is_file p t); [|discriminate H]. injection H as <-.
  destruct (str_eq_dec q p) as [->|N0]; [rewrite od_get_del_same in E by exact D; discriminate E|]. rewrite od_get_del_other in E by exact N0. exact E.
Qed.
Lemma save_no_dir td v algs f : Forall (no_dir td) (save_steps v algs f).
Proof.
  unfold save_steps. constructor; [apply (write_no_dir td F_baginfo (fun t => info_text (f t)))|].
  apply Forall_forall. intros s I. apply in_map_iff in I. destruct I as (a & <- & _). apply write_no_dir.
Qed.
Lemma lists_no_dir td l d : Forall (no_dir td) ([reset_step td; clear_step td] ++ members_steps td l ++ lookup_steps td d).
Proof.
  apply Forall_app. split; [|apply Forall_app; split].
  - constructor; [|constructor; [|constructor]]; intros t t' q D H.
    + unfold reset_step in H. destruct (is_file _ _); [exact (remove_no_dir td _ t t' q D H)|exact (ensure_no_dir td t t' q D H)].
    + unfold clear_step in H. destruct (exists_ _ _); [exact (remove_no_dir td _ t t' q D H)|injection H as <-; auto].
  - constructor; [apply ensure_no_dir|]. constructor; [|constructor]. apply (write_no_dir td _ (fun _ => _)).
  - destruct d as [d|]; [|constructor]. constructor; [apply ensure_no_dir|]. constructor; [|constructor]. apply (write_no_dir td _ (fun _ => _)).
Qed.

(** ** The aggregation with the changed bag *)

Definition at_loc (loc : pystr) (t : tree) : rbag := {| rb_loc := loc; rb_tree := t |}.

Definition L_members : pystr := U "multibag/member-bags.tsv".
Definition L_lookup : pystr := U "multibag/file-lookup.tsv".

(** No file is where the tag directory has to be, and no directory where its
    two lists have to be. *)
Definition leaves_room (t : tree) : Prop :=
  is_file (U "multibag") t = false /\ is_dir (U "multibag/member-bags.tsv") t = false /\ is_dir (U "multibag/file-lookup.tsv") t = false.

Lemma is_file_same q t t' : read q t' = read q t -> is_file q t' = is_file q t.
Proof.
  intros E. destruct (is_file q t) eqn:F.
  - apply is_file_read in F. destruct F as [c F]. apply is_file_read. exists c. congruence.
  - destruct (is_file q t') eqn:F'; [|reflexivity]. apply is_file_read in F'. destruct F' as [c F']. rewrite E in F'.
    assert (X : is_file q t = true) by (apply is_file_read; eauto). congruence.
Qed.

Lemma changed_agg v A skip h h' others loc : 
  agg_ok v A skip true false h (rev (others ++ [at_loc loc (hb_tree h)])) ->
  Forall leaves_room (map rb_tree others ++ [hb_tree h]) -> Forall (good_name v) [L_members; L_lookup] ->
  member_ok v A (at_loc loc (hb_tree h')) ->
  read F_bagit (hb_tree h') = read F_bagit (hb_tree h) -> (exists text, first_info h' text /\ good_tags text) ->
  (forall q, q <> MULTIBAG -> od_get q (hb_tree h') = Some NDir -> od_get q (hb_tree h) = Some NDir) ->
  (forall q, od_get q (hb_tree h) = Some NDir -> q <> [] -> od_get q (hb_tree h') = Some NDir) ->
  od_get MULTIBAG (hb_tree h') = Some NDir ->
  (forall q, is_file q (hb_tree h') = true -> is_file q (hb_tree h) = true \/ touched v q \/ q = L_members \/ q = L_lookup) ->
  agg_ok v A skip true true h' (rev (others ++ [at_loc loc (hb_tree h')])).
Proof.
  intros [Om Os Ov Oi Oc Od _ On Oo] Rm Gn Mo Rb Fi Dn Dk Mb Fs.
  assert (In0 : forall x b, In b (rev (others ++ [at_loc loc x])) <-> In b others \/ b = at_loc loc x).
  { intros x b. rewrite <- in_rev, in_app_iff. cbn [In]. intuition. }
  assert (Fm : forall b, In b others -> member_ok v A b).
  { intros b I. rewrite Forall_forall in Om. apply Om. apply In0. auto. }
  assert (Rm' : forall b, In b others -> leaves_room (rb_tree b)).
  { intros b I. rewrite Forall_forall in Rm. apply Rm. apply in_or_app. left. apply in_map. exact I. }
  assert (Rh : leaves_room (hb_tree h)).
  { rewrite Forall_forall in Rm. apply Rm. apply in_or_app. right. left. reflexivity. }
  constructor.
  - apply Forall_forall. intros b I. apply In0 in I. destruct I as [I| ->]; auto.
  - exact Os.
  - rewrite Rb. exact Ov.
  - exact Fi.
  - intros b b' p I I' D G. apply In0 in I, I'. destruct I as [I|E]; destruct I' as [I'|E']; try subst b; try subst b'; cbn [at_loc rb_tree] in *.
    + apply (Oc b b' p); auto; apply In0; auto.
    + destruct (is_file p (hb_tree h')) eqn:F; [|reflexivity]. exfalso. destruct (Fs p F) as [F'|[T|E]].
      * assert (X : is_file p (hb_tree h) = false) by (apply (Oc b (at_loc loc (hb_tree h)) p); auto; apply In0; auto). congruence.
      * apply (mo_dirs _ _ _ (Fm b I) p T D).
      * destruct (Rm' b I) as (_ & R1 & R2). destruct E as [->| ->]; [apply (is_dir_get L_members _ ltac:(discriminate)) in D; unfold L_members in D|apply (is_dir_get L_lookup _ ltac:(discriminate)) in D; unfold L_lookup in D]; congruence.
    + destruct (str_eq_dec p MULTIBAG) as [->|Np].
      * apply (Rm' b' I').
      * apply (Oc (at_loc loc (hb_tree h)) b' p); auto; apply In0; auto.
    + unfold is_file. rewrite D. reflexivity.
  - intros E. destruct (Od E) as (b & I & D). apply In0 in I. destruct I as [I| ->].
    + exists b. split; [apply In0; auto|exact D].
    + exists (at_loc loc (hb_tree h')). split; [apply In0; auto|]. cbn [at_loc rb_tree] in *. apply Dk; [exact D|discriminate].
  - intros _. exact Mb.
  - intros b p I F G T1 T2. apply In0 in I. destruct I as [I| ->].
    + apply (On b p); auto. apply In0. auto.
    + cbn [at_loc rb_tree] in F. destruct (Fs p F) as [F'|[T|E]].
      * apply (On (at_loc loc (hb_tree h)) p); auto. apply In0. auto.
      * apply Oo; assumption.
      * rewrite Forall_forall in Gn. apply Gn. destruct E as [->| ->]; [left; reflexivity|right; left; reflexivity].
  - exact Oo.
Qed.

(** ** The new head bag *)

Lemma amended_facts v w algs bsize repr ro old bags own inc exc version new new' old' name t td :
  NoDup (e_algos v) -> good_hash v -> same_world v w ->
  amendment bsize repr old new name t td version -> outside_payload td ->
  ready v w td t -> algorithms v t = Ok algs ->
  amend v algs bsize repr false ro old bags own inc exc version new = (new', Ok old') ->
  passes_plain (at_place v w (e_dest v)) (hb_tree new') /\ NoDup (od_keys (hb_tree new')) /\
  (forall a, In a algs -> read (man_name K_tag a) (hb_tree new') = Some (tagmanifest v a (hb_tree new'))) /\
  (forall a c, In a (e_algos v) -> read (man_name K_tag a) (hb_tree new') = Some c -> c = tagmanifest v a (hb_tree new')) /\
  only_tags td algs t (hb_tree new') /\ good_mans v (e_dest v) (hb_tree new') /\
  (forall q, q <> td -> od_get q (hb_tree new') = Some NDir -> od_get q t = Some NDir) /\
  (exists c, read (sjoin td F_members) (hb_tree new') = Some c) /\
  (exists c, read F_baginfo (hb_tree new') = Some c) /\
  forall r, exists i, tags_of r (hb_tree new') = Ok i /\
    forall k, ~ In k info_keys -> k <> T_HeadDeprecates -> tag_values (hb_info new) k = [] -> tag_values i k = [].
Proof.
  intros Na Gh Sw (B & (i & Ti & En & Td) & D & Tv & Nv & Vv & Fd) Ot [Va (c & v1 & Rc & Ev) G Nm Gn Ox] Al H.
  destruct (amend_disk v algs bsize repr ro old bags own inc exc version new new' old' name t td B) as
    (ms & t2 & h & d & _ & _ & R1 & _ & _ & _ & _ & _ & _ & _ & _ & Rm & _ & R2 & T); auto.
  { exists i. auto. }
  { subst new. exact Td. }
  destruct (T IoText) as (j & Tj & _ & _ & _ & _ & _ & _ & _ & J). specialize (J T_OXUM).
  assert (Ei : hb_info new = i) by (subst new; reflexivity). rewrite Ei in J.
  assert (T1 : exists i1, tags_of IoText t = Ok i1) by (destruct Va as (b & Op & _); eexists; exact (plain_tags v w t b c v1 Sw Op Rc Ev)).
  destruct T1 as [i1 T1].
  unfold info_steps in R2. cbv zeta in R2.
  set (u := update_info_tags (Some version) CURRENT_VERSION (hb_info h)) in *. set (lst := last_ones _) in *.
  set (pre := [reset_step td; clear_step td] ++ members_steps td lst ++ lookup_steps td (hb_lu h) ++ save_steps v algs (fun _ => u)).
  assert (Fp : Forall (tag_step td algs) pre).
  { apply Forall_app. split; [constructor; [apply reset_only|constructor; [apply clear_only|constructor]]|].
    apply Forall_app. split; [apply members_only|]. apply Forall_app. split; [apply lookup_only|apply save_only]. }
  assert (Run : run_steps (pre ++ save_steps v algs (fun t => od_set T_BagSize (IStr (bsize t)) u)) t = Ok (hb_tree new')).
  { unfold pre. rewrite <- !app_assoc, run_app, R1. cbn [bind]. exact R2. }
  destruct (tagged_valid v w td algs t (hb_tree new') pre
              (fun t => od_set T_BagSize (IStr (bsize t)) u) i i1 j c v1 Na Gh Sw D Va G Ot Rc Ev Al Fp Run Nm Gn Ti T1 (Ox i i1 Ti T1) Tj) as (P & _ & D2 & Tm & Tm' & O & G2).
  { apply J; [cbn; intuition discriminate|discriminate]. }
  split; [exact P|]. split; [exact D2|]. split; [exact Tm|]. split; [exact Tm'|]. split; [exact O|]. split; [exact G2|].
  split; [|split; [|split]].
  - intros q Q E. refine (run_no_dir td algs _ _ _ t (hb_tree new') q D Run Q E).
    + apply Forall_app. split; [exact Fp|apply save_only].
    + apply Forall_app. split; [|apply save_no_dir]. unfold pre. rewrite !app_assoc. apply Forall_app. split; [|apply save_no_dir].
      rewrite <- !app_assoc. apply lists_no_dir.
  - eexists. exact Rm.
  - rewrite run_app in Run. apply bind_ok in Run. destruct Run as (t1 & H1 & H2).
    destruct (last_save v algs _ t1 (hb_tree new') (proj1 (run_only td algs pre Fp t t1 D H1)) H2) as (x & Ri & _). eauto.
  - intros r. destruct (T r) as (k & Tk & _ & _ & _ & _ & _ & _ & _ & K). exists k. split; [exact Tk|].
    intros q Q1 Q2 E. rewrite (K q Q1 Q2), E. reflexivity.
Qed.

(** The same, seen from the place of a bag. *)
Definition there (v : env) (loc : pystr) : env :=
  {| e_algos := e_algos v; e_version := e_version v; e_danger := e_danger v; e_hash := e_hash v; e_dest := loc; e_find := e_find v |}.

Lemma not_touched_dir v : ~ touched v MULTIBAG.
Proof.
  intros [(k & a & Ik & _ & E)|[E|E]]; [|discriminate E|discriminate E].
  apply (f_equal (fun l => last l 0)) in E. rewrite man_last in E. discriminate E.
Qed.

Section NewHead.
  Variables (v : env) (w : benv) (loc : pystr) (A algs : list pystr) (t t' : tree).
  Hypothesis Na : NoDup (e_algos v).
  Hypothesis Inc : incl A (e_algos v).
  Hypothesis Gh : good_hash v.
  Hypothesis M : member_ok v A (at_loc loc t).
  Hypothesis W' : wf_tree t'.
  Hypothesis Tm : forall a, In a algs -> read (man_name K_tag a) t' = Some (tagmanifest v a t').
  Hypothesis Tm' : forall a c, In a (e_algos v) -> read (man_name K_tag a) t' = Some c -> c = tagmanifest v a t'.
  Hypothesis O : only_tags MULTIBAG algs t t'.
  Hypothesis Dn : forall q, q <> MULTIBAG -> od_get q t' = Some NDir -> od_get q t = Some NDir.
  Hypothesis G' : good_mans v loc t'.
  Hypothesis Nm' : names_ok v t'.
  Hypothesis Tg : exists i, tags_of IoText t' = Ok i.
  Variables (c : pystr) (v1 : bool).
  Hypothesis Rc : read F_bagit t = Some c.
  Hypothesis Ev : e_version v c = Ok (true, v1).
  Hypothesis Al : algorithms v t = Ok algs.

  Lemma same_man a : read (man_name K_man a) t' = read (man_name K_man a) t.
  Proof.
    apply (proj1 (proj2 O)). apply not_rewritten; [|discriminate|apply man_last].
    intros b _ E. apply (f_equal (fun l => hd 0 l)) in E. discriminate E.
  Qed.
  Lemma same_bagit : read F_bagit t' = read F_bagit t.
  Proof.
    apply (proj1 (proj2 O)). apply not_rewritten; [|discriminate|reflexivity].
    intros b _ E. apply (f_equal (fun l => hd 0 l)) in E. discriminate E.
  Qed.

  Lemma algs_iff a : In a algs <-> In a (e_algos v) /\ exists pay, is_file (man_name (kind_of pay) a) t = true.
  Proof.
    unfold algorithms in Al. rewrite Rc, Ev in Al. cbn [bind] in Al. injection Al as <-. rewrite in_set_of, in_map_iff. split.
    - intros ([a' x] & <- & I). apply in_bag_manifests in I. destruct I as [I J]. split; [exact I|].
      destruct J as [J|[_ J]]; [exists true|exists false]; apply is_file_read; eauto.
    - intros [I ([|] & F)]; apply is_file_read in F; destruct F as [x F]; exists (a, x); (split; [reflexivity|]); apply in_bag_manifests; auto.
  Qed.
  Lemma algs_all : all_or_none A algs.
  Proof.
    pose proof (us_all _ _ _ (mo_uses _ _ _ M)) as Ua. cbn [at_loc rb_tree] in Ua. split.
    - intros a I. apply algs_iff in I. destruct I as [I [pay F]]. apply (Ua pay a I F).
    - intros a b I Ia. apply algs_iff in I. destruct I as [I [pay F]]. apply algs_iff. split; [apply Inc; exact Ia|].
      exists pay. apply (Ua pay b I F). exact Ia.
  Qed.
  Lemma tagman_iff a : In a (e_algos v) -> (is_file (man_name K_tag a) t' = true <-> In a algs).
  Proof.
    intros Ia. split.
    - intros F. destruct (in_dec str_eq_dec a algs) as [I|I]; [exact I|]. apply algs_iff. split; [exact Ia|]. exists false.
      rewrite <- F. symmetry. apply is_file_same. apply (proj1 (proj2 O)). apply not_rewritten; [|discriminate|apply man_last].
      intros b Ib E. apply man_name_inj in E. congruence.
    - intros I. apply is_file_read. eauto.
  Qed.
  Lemma new_names p : In p (tag_files t') -> good_name v p.
  Proof. intros I. apply tag_files_in in I; [|apply wf_nodup; exact W']. destruct I as (I1 & I2 & I3). apply Nm'; assumption. Qed.
  Lemma new_lines a : manifest_lines IoText (skip_bom (tagmanifest v a t')) = tag_list v a t'.
  Proof. apply tagmanifest_lines; [exact Gh|]. intros p I. apply new_names in I. apply I. Qed.

  Lemma new_member : member_ok v A (at_loc loc t').
  Proof.
    constructor; cbn [at_loc rb_tree rb_loc].
    - exact W'.
    - exact (mo_loc _ _ _ M).
    - destruct Tg as [i Ti]. destruct (load_good v loc t' IoText true v1 Na G') as (es & Le & _).
      exists i, es. unfold open_bag. rewrite same_bagit, Rc, Ev. cbn [bind].
      unfold tags_of in Ti. change (U "bag-info.txt") with F_baginfo in Ti.
      assert (X : match read F_baginfo t' with Some c => load_tags IoText c | None => Ok [] end = Ok i) by (destruct (read F_baginfo t'); exact Ti).
      rewrite X. cbn [bind]. rewrite Le. reflexivity.
    - intros pay a x Ia R. destruct pay; cbn [kind_of] in R.
      + rewrite same_man in R. exact (mo_mans _ _ _ M true a x Ia R).
      + split; [exact (proj1 (G' false a x Ia R))|]. rewrite (Tm' a x Ia R), new_lines. intros h p I. unfold tag_list in I.
        apply in_map_iff in I. destruct I as (q & E & I). injection E as _ <-. apply new_names in I. apply I.
    - destruct algs_all as [Al1 Al2]. destruct (mo_uses _ _ _ M) as [Ua Us]. cbn [at_loc rb_tree] in *. constructor.
      + intros pay a Ia F. destruct pay; cbn [kind_of] in *.
        * rewrite (is_file_same _ _ _ (same_man a)) in F. destruct (Ua true a Ia F) as [X Y]. split; [exact X|].
          intros a' I'. rewrite (is_file_same _ _ _ (same_man a')). apply Y. exact I'.
        * apply (tagman_iff a Ia) in F. split; [apply Al1; exact F|]. intros a' I'. apply (tagman_iff a' (Inc a' I')). apply (Al2 a' a F I').
      + intros pay a a' p h IA IA' E. destruct pay; cbn [kind_of] in *.
        * assert (E1 : entry_in IoText K_man t a p h) by (unfold entry_in in *; rewrite same_man in E; exact E).
          destruct (Us true a a' p h IA IA' E1) as [h' E']. exists h'. unfold entry_in in *. rewrite same_man. exact E'.
        * destruct E as (x & R & I). assert (F : is_file (man_name K_tag a) t' = true) by (apply is_file_read; eauto).
          apply (tagman_iff a (Inc a IA)) in F. rewrite (Tm a F) in R. injection R as <-. rewrite new_lines in I.
          unfold tag_list in I. apply in_map_iff in I. destruct I as (q & E & I). injection E as _ <-.
          exists (e_hash v a' (match read q t' with Some c => c | None => [] end)). exists (tagmanifest v a' t').
          split; [apply Tm; apply (Al2 a' a F IA')|]. rewrite new_lines. unfold tag_list. apply in_map_iff. exists q. split; [reflexivity|exact I].
    - intros q T E. apply (mo_dirs _ _ _ M q T). cbn [at_loc rb_tree]. apply Dn; [|exact E]. intros ->. exact (not_touched_dir v T).
  Qed.

  Lemma new_files q : is_file q t' = true -> is_file q t = true \/ touched v q \/ q = L_members \/ q = L_lookup.
  Proof.
    intros F.
    assert (X : rewritten MULTIBAG algs q \/ ~ rewritten MULTIBAG algs q).
    { destruct (str_eq_dec q (sjoin MULTIBAG F_members)); [left; left; assumption|]. destruct (str_eq_dec q (sjoin MULTIBAG F_lookup)); [left; right; left; assumption|].
      destruct (str_eq_dec q F_baginfo); [left; right; right; left; assumption|].
      destruct (in_dec str_eq_dec q (map (man_name K_tag) algs)) as [I|I].
      - apply in_map_iff in I. destruct I as (a & <- & I). left; right; right; right. eauto.
      - right. intros [?|[?|[?|(a & Ia & E)]]]; auto. apply I. apply in_map_iff. eauto. }
    destruct X as [[->|[->|[->|(a & Ia & ->)]]]|X].
    - auto.
    - auto.
    - right; left. right; left. reflexivity.
    - right; left. left. exists K_tag, a. split; [right; left; reflexivity|]. split; [|reflexivity]. apply (algorithms_in _ _ _ Al). exact Ia.
    - left. rewrite <- F. symmetry. apply is_file_same. apply (proj1 (proj2 O)). exact X.
  Qed.
End NewHead.

(** ** C110 *)

(** The bag [old] with the members [ms] was amended with [bags] and the new
    head bag [name], which is at [loc], had the files [t] and the deleted
    paths [dl], and has its multibag files in multibag/. No two of all these
    bags have the same name. The result is [new']. *)
Definition amended (v : env) (loc : pystr) (r : reader) (old : hb) (bags : list abag) (new : hb) (name : pystr) (t : tree)
    (ms : list minfo) (dl : list pystr) (new' : hb) : Prop :=
  exists algs bsize repr ro pid comment info inc exc version old',
  amendment bsize repr old new name t (U "multibag") version /\ members_of old ms /\
  NoDup (map Tsv.m_name ms ++ map (fun b => s_name (ab_src b)) bags ++ [name]) /\
  Forall (storable_member r) (ms ++ map entry_of bags ++ [own_member pid comment info name]) /\
  iter_deleted (open_hb name t (hb_info new) r) = Ok dl /\
  algorithms (there v loc) t = Ok algs /\
  amend (there v loc) algs bsize repr false ro old bags (own_member pid comment info) inc exc version new = (new', Ok old').

(** The other bags, and the new head bag [h] before the amendment, are valid,
    none lists files to be fetched, and they could be restored together
    ([agg_ok], see C94) if [h] listed them as its members. There is room for
    the lists of multibag/, and the new head bag does not delete its own
    payload. *)
Record valid_parts (v : env) (w : benv) (A : list pystr) (loc : pystr) (h : hb) (others : list rbag) (dl : list pystr) : Prop := {
  vp_ready : ready (there v loc) w (U "multibag") (hb_tree h);
  vp_names : names_ok v (hb_tree h);
  vp_lists : Forall (good_name v) [U "multibag/member-bags.tsv"; U "multibag/file-lookup.tsv"];
  vp_agg : agg_ok v A (set_of dl) true false h (rev (others ++ [{| rb_loc := loc; rb_tree := hb_tree h |}]));
  vp_room : Forall leaves_room (map rb_tree others ++ [hb_tree h]);
  vp_valid : Forall (fun b => passes_plain (at_place v w (rb_loc b)) (rb_tree b)) others;
  vp_fetch : Forall (fun t => is_file (U "fetch.txt") t = false) (map rb_tree others ++ [hb_tree h]);
  vp_kept : forall p, startswith p (U "data/") = true -> is_file p (hb_tree h) = true -> ~ deleted dl p
}.

(** The amended aggregation can be restored, and the result is a valid bag
    whose contents C101 describes. *)
Theorem C110_amended_restores_valid : forall v w A loc r old bags new name t ms dl new' olds adds bs ro,
  plain_algos v -> NoDup (e_algos v) -> incl A (e_algos v) -> good_hash v -> same_world v w -> plain_text bs ->
  amended v loc r old bags new name t ms dl new' ->
  valid_parts v w A loc (open_hb name t (hb_info new) r) (olds ++ adds) dl ->
  Forall2 (fun m b => e_find v (Tsv.m_name m) = Some b) ms olds -> Forall2 (found_as v) bags adds ->
  exists i dest, tags_of r (hb_tree new') = Ok i /\
    restore v true true bs ro (open_hb name (hb_tree new') i r) loc [] = Ok dest /\
    passes_plain (at_place v w (e_dest v)) dest /\
    amended_restored v true old bags name t (U "multibag") ms olds dl dest.
Proof.
  intros v w A loc r old bags new name t ms dl new' olds adds bs ro' Pa Na Inc Gh Sw Pt
    (algs & bsize & repr & ro & pid & comment & info & inc & exc & version & old' & Am & Ms & Nd & Sm & Dl & Al & H)
    [Rd Nm Gl Ag Rm Va Nf Kp] Fo Fa. cbn [open_hb hb_tree] in Rd, Nm, Ag, Rm, Nf, Kp.
  set (own := own_member pid comment info) in *.
  assert (Sw' : same_world (there v loc) w) by (destruct Sw; constructor; assumption).
  destruct (amended_facts (there v loc) w algs bsize repr ro old bags own inc exc version new new' old' name t (U "multibag")
    Na Gh Sw' Am eq_refl Rd Al H) as (P & D2 & Tm & Tm' & O & G2 & Dn & Rmb & Rbi & T).
  assert (Mt : member_ok v A (at_loc loc t)).
  { pose proof (ao_members _ _ _ _ _ _ _ Ag) as X. rewrite Forall_forall in X. apply X. rewrite <- in_rev. apply in_or_app. right. left. reflexivity. }
  pose proof (mo_wf _ _ _ Mt) as Wt. cbn [at_loc rb_tree] in Wt.
  assert (Bt : bag_files t).
  { split; [exact Wt|]. destruct Rd as [(b & Op & Vb) _ _ _ _ _]. apply (C88_validates _ _ _ Wt Op) in Vb. destruct Vb as [Hd _ _ _ _ _ _].
    unfold is_file. apply (is_dir_get DATA) in Hd; [|discriminate]. rewrite Hd. reflexivity. }
  assert (Gt : good_path (U "multibag")) by (apply good_pathb_ok; reflexivity).
  pose proof (amended_wf (there v loc) _ _ _ _ _ _ _ _ _ _ _ _ _ _ _ _ Pa (algorithms_in _ _ _ Al) Am Gt eq_refl Bt H) as W2.
  destruct Rd as [Vt (c & v1 & Rc & Ev) Gt' Nt Lt Ox].
  change (e_version v c = Ok (true, v1)) in Ev. change (algorithms v t = Ok algs) in Al.
  assert (Nm2 : names_ok v (hb_tree new')).
  { intros p F T1 T2. destruct (new_files v algs t (hb_tree new') O Al p F) as [F'|[F'|F']].
    - apply Nm; assumption.
    - apply (ao_own _ _ _ _ _ _ _ Ag); assumption.
    - rewrite Forall_forall in Gl. apply Gl. destruct F' as [->| ->]; [left|right; left]; reflexivity. }
  destruct (T IoText) as (iu & Tu & _).
  pose proof (new_member v loc A algs t (hb_tree new') Na Inc Gh Mt W2 Tm Tm' O Dn G2 Nm2 (ex_intro _ iu Tu) c v1 Rc Ev Al) as Mn.
  destruct (C41_members (there v loc) algs bsize repr ro old bags own inc exc version new new' old' name t (U "multibag") ms Am Ms H r Sm) as (i & Ti & _ & Im).
  exists i. set (h := open_hb name (hb_tree new') i r) in *.
  assert (Nmm : map Tsv.m_name (ms ++ map entry_of bags ++ [own name]) = map Tsv.m_name ms ++ map (fun b => s_name (ab_src b)) bags ++ [name]).
  { rewrite !map_app, map_map. reflexivity. }
  assert (L : last_ones (ms ++ map entry_of bags ++ [own name]) = ms ++ map entry_of bags ++ [own name]).
  { apply C41_distinct. rewrite Nmm. exact Nd. }
  rewrite L in Im. set (l := ms ++ map entry_of bags ++ [own name]) in *.
  assert (Std : tag_dir i = U "multibag" /\ tag_dir (hb_info new) = U "multibag").
  { pose proof Am as (B & (i0 & Ti0 & En & Td) & D & Tv & Nv & Vv & Fd).
    destruct (amend_disk (there v loc) algs bsize repr ro old bags own inc exc version new new' old' name t (U "multibag") B) as
      (? & ? & ? & ? & _ & _ & _ & _ & _ & _ & _ & _ & _ & _ & _ & _ & _ & _ & T0); auto.
    { exists i0. auto. }
    { subst new. exact Td. }
    destruct (T0 r) as (j & J1 & J2 & _). assert (j = i) by congruence. subst j. split; [apply std_tag_dir; exact J2|].
    subst new. cbn [open_hb hb_info]. unfold tag_dir_raw in Td. unfold tag_dir.
    destruct (od_get T_TagDir i0) as [[s|k]|]; congruence. }
  destruct Std as [Std Std0].
  assert (Same : forall q, In SLASH q -> ~ listing (U "multibag") q -> od_get q (hb_tree new') = od_get q t).
  { intros q Q1 Q2. exact (amended_nodes (there v loc) _ _ _ _ _ _ _ _ _ _ _ _ _ _ _ _ q Pa (algorithms_in _ _ _ Al) Am Q2 (or_intror Q1) H). }
  assert (Hd : iter_deleted h = Ok dl).
  { rewrite <- Dl. unfold iter_deleted, h. cbn [open_hb hb_info hb_tree hb_reader]. rewrite Std, Std0. unfold read, exists_, is_file, is_dir.
    rewrite Same; [reflexivity|cbn; auto 10|]. intros [X|[X|X]]; discriminate X. }
  assert (Hl : head_lists ro' h = Ok (set_of dl, l)).
  { unfold head_lists, deleted_paths. cbn [h open_hb hb_del]. fold h. rewrite Hd. cbn [snd bind].
    assert (Em : snd (member_bags_ro false h) = Ok l) by (unfold member_bags_ro; cbn [h open_hb hb_mem]; fold h; rewrite Im; reflexivity).
    destruct ro'; [rewrite Em; reflexivity|]. unfold HeadBag.member_bags. destruct (member_bags_ro false h) as [h' [x|e]]; cbn [snd] in Em; [|discriminate].
    injection Em as ->. reflexivity. }
  assert (Ha : aggregation v h loc l ((olds ++ adds) ++ [at_loc loc (hb_tree h)])).
  { exists (map Tsv.m_name ms ++ map Tsv.m_name (map entry_of bags)), (olds ++ adds). split; [|split].
    - left. rewrite Nmm, map_map, <- app_assoc. reflexivity.
    - apply Forall2_app; [|apply found_names; exact Fa]. clear - Fo. induction Fo; cbn [map]; constructor; auto.
    - reflexivity. }
  assert (Fi : exists text, first_info h text /\ good_tags text).
  { destruct (ao_info _ _ _ _ _ _ _ Ag) as (text & F & Gx). unfold first_info in *. cbn [h open_hb hb_tree hb_reader] in *.
    assert (E : read (sjoin MULTIBAG F_agginfo) (hb_tree new') = read (sjoin MULTIBAG F_agginfo) t).
    { unfold read. rewrite Same; [reflexivity|cbn; auto 10|]. intros [X|[X|X]]; discriminate X. }
    rewrite E. destruct (read (sjoin MULTIBAG F_agginfo) t); [exists text; auto|]. destruct Rbi as [x Rbi]. exists x. split; [exact Rbi|].
    destruct (T Codecs) as (k & Tk & Kk). unfold tags_of in Tu, Tk. change (U "bag-info.txt") with F_baginfo in Tu, Tk. rewrite Rbi in Tu, Tk.
    split; [exists iu; exact Tu|]. exists k. split; [exact Tk|]. intros q Iq Eq.
    destruct Gx as (_ & d & Ld & Nb). destruct Am as (_ & (i0 & Ti0 & En & _) & _). unfold tags_of in Ti0. change (U "bag-info.txt") with F_baginfo in Ti0.
    rewrite F in Ti0. assert (i0 = d) by congruence. subst i0.
    apply (no_values k q (Props_Restore3.load_shape _ _ _ Tk)); [|exact Iq]. apply Kk.
    - intros I. cbn in I. repeat (destruct I as [<-|I]; [discriminate Eq|]). destruct I.
    - intros ->. discriminate Eq.
    - subst new. cbn [open_hb hb_info]. unfold tag_values.
      destruct (od_get q d) as [x0|] eqn:Gq; [|reflexivity]. exfalso. apply (Nb q); [eapply od_get_some_key; exact Gq|exact Eq]. }
  assert (Sb : read F_bagit (hb_tree new') = read F_bagit t) by (exact (same_bagit algs t (hb_tree new') O)).
  assert (Ag' : agg_ok v A (set_of dl) true true h (rev ((olds ++ adds) ++ [at_loc loc (hb_tree h)]))).
  { apply (changed_agg v A (set_of dl) (open_hb name t (hb_info new) r) h (olds ++ adds) loc Ag); auto.
    - cbn [h open_hb hb_tree]. intros q E Nq. apply (is_dir_get q) in E; [|exact Nq]. apply (proj2 (proj2 O)) in E. apply (is_dir_get q) in E; [exact E|exact Nq].
    - destruct Rmb as [x Rmb]. apply read_get in Rmb. apply od_get_some_key in Rmb. pose proof (wf_parents _ W2 _ Rmb) as X.
      change (dirname (sjoin (U "multibag") F_members)) with MULTIBAG in X. apply is_dir_get in X; [exact X|discriminate].
    - cbn [h open_hb hb_tree]. exact (new_files v algs t (hb_tree new') O Al). }
  destruct (C95_restored_valid v w A bs ro' h loc (set_of dl) l _ Pa Na Inc Gh Pt Sw eq_refl Hl Ha Ag') as (dest & R & V).
  - apply Forall_app. split; [exact Va|]. constructor; [|constructor]. exact P.
  - apply Forall_app in Nf. destruct Nf as [N1 N2]. apply Forall_app. split.
    + rewrite Forall_forall in *. intros b I. apply N1. apply in_map. exact I.
    + constructor; [|constructor]. inversion N2; subst. cbn [at_loc rb_tree h open_hb hb_tree]. rewrite (is_file_same _ t); [assumption|].
      apply (proj1 (proj2 O)). apply not_rewritten; [|discriminate|reflexivity]. intros a _ E. apply (f_equal (fun l => hd 0 l)) in E. discriminate E.
  - cbn [h open_hb hb_tree]. intros p Pp F X. apply (proj1 (deleted_set dl p)) in X.
    destruct (new_files v algs t (hb_tree new') O Al p F) as [F'|[F'|[->| ->]]].
    + exact (Kp p Pp F' X).
    + destruct F' as [(k & a & Ik & _ & ->)|[->| ->]]; [|discriminate Pp|discriminate Pp]. destruct Ik as [<-|[<-|[]]]; discriminate Pp.
    + discriminate Pp.
    + discriminate Pp.
  - exists dest. split; [exact Ti|]. split; [exact R|]. split; [exact V|].
    exists (there v loc), algs, bsize, repr, ro, pid, comment, info, inc, exc, version, new, new', old', true, bs, ro', loc, r, i, adds.
    split; [exact Pa|]. split; [exact (algorithms_in _ _ _ Al)|]. split; [exact Am|]. split; [exact Gt|]. split; [reflexivity|]. split; [exact Bt|].
    split; [exact Ms|]. split; [exact Nd|]. split; [exact H|]. split; [exact Sm|]. split; [exact Dl|]. split; [exact Pa|]. split; [exact Fo|]. split; [exact Fa|].
    split; [|split; [exact (mo_loc _ _ _ Mt)|split; [exact Ti|exact R]]].
    apply Forall_forall. intros b I. pose proof (ao_members _ _ _ _ _ _ _ Ag) as X. rewrite Forall_forall in X.
    assert (Mb : member_ok v A b) by (apply X; rewrite <- in_rev; apply in_or_app; left; exact I).
    split; [exact (mo_wf _ _ _ Mb)|exact (mo_loc _ _ _ Mb)].
Qed.
Print Assumptions C110_amended_restores_valid.

(** ** An example *)

(** The bag "src" of C95, amended with "more", which has a newer data/a, and
    with "next", which adds data/c and deletes data/d. *)
Definition ar_bag (payload : dict pystr) (more : tree) : tree :=
  let man := flat_map (fun pc => U "h" ++ dec (N.of_nat (length (snd pc))) ++ U "  " ++ fst pc ++ [LF]) payload in
  [(U "bagit.txt", NFile va_bagit); (U "bag-info.txt", NFile (ln "Contact-Name: C"));
   (U "manifest-md5.txt", NFile man); (U "manifest-sha256.txt", NFile man); (U "data", NDir)] ++
  map (fun pc => (fst pc, NFile (snd pc))) payload ++ more.
Definition ar_more : tree := ar_bag [(U "data/a", U "ABCDE")] [].
Definition ar_next : tree := ar_bag [(U "data/c", U "c")] [(U "multibag", NDir); (U "multibag/deleted.txt", NFile (ln "data/d"))].
Definition ar_old : hb := open_hb (U "src") va_tree (got [] (tags_of Codecs va_tree)) Codecs.
Definition ar_src : src := {| s_name := U "more"; s_ro := true; s_tree := ar_more |}.
Definition ar_new : hb := open_hb (U "next") ar_next (got [] (tags_of Codecs ar_next)) Codecs.
Definition ar_place (n : pystr) : pystr := U "/bags/" ++ n.
Definition ar_olds : list rbag := [at_loc (ar_place (U "src")) va_tree].
Definition ar_adds : list rbag := [at_loc (ar_place (U "more")) ar_more].
Definition ar_env : env :=
  {| e_algos := e_algos va_env; e_version := e_version va_env; e_danger := e_danger va_env; e_hash := e_hash va_env; e_dest := U "/out";
     e_find := fun n => if streq n (U "src") then Some (at_loc (ar_place n) va_tree)
                        else if streq n (U "more") then Some (at_loc (ar_place n) ar_more) else None |}.
Definition ar_amend : hb * res hb :=
  amend (there ar_env (ar_place (U "next"))) (got [] (algorithms ar_env ar_next)) (fun _ => U "1 kB") ex_repr false false ar_old
    [default_bag ar_src] (own_member None None []) SNone SNone (U "2") ar_new.
Definition ar_back : tree :=
  got [] (restore ar_env true true (fun _ => U "1 kB") false
    (open_hb (U "next") (hb_tree (fst ar_amend)) (got [] (tags_of Codecs (hb_tree (fst ar_amend)))) Codecs) (ar_place (U "next")) []).

(** The conditions of [agg_ok], computed *)
Definition own_names (v : env) : list pystr :=
  map (man_name K_man) (e_algos v) ++ map (man_name K_tag) (e_algos v) ++ [F_baginfo; Restore.F_fetch].
Lemma own_names_in v q : touched v q -> In q (own_names v).
Proof.
  intros T. unfold own_names. rewrite !in_app_iff. destruct T as [(k & a & [<-|[<-|[]]] & Ia & ->)|[->| ->]].
  - left. apply in_map. exact Ia.
  - right; left. apply in_map. exact Ia.
  - right; right. left. reflexivity.
  - right; right. right; left. reflexivity.
Qed.

Definition member_okb (v : env) (A : list pystr) (b : rbag) : bool :=
  wf_treeb (rb_tree b) && negb (streq (rb_loc b) (e_dest v)) &&
  match open_bag v IoText (rb_loc b) (rb_tree b) with Ok _ => true | Err _ => false end &&
  good_mansb (e_algos v) (rb_tree b) && usesb (e_algos v) A (rb_tree b) &&
  forallb (fun q => negb (is_dir q (rb_tree b))) (own_names v).
Lemma member_okb_ok v A b : (forall l p, e_danger v l p = false) -> member_okb v A b = true -> member_ok v A b.
Proof.
  intros D H. unfold member_okb in H. rewrite !andb_true_iff in H. destruct H as (((((H1 & H2) & H3) & H4) & H5) & H6). constructor.
  - apply wf_treeb_ok. exact H1.
  - intros E. rewrite E, streq_refl in H2. discriminate H2.
  - destruct (open_bag v IoText (rb_loc b) (rb_tree b)) as [[i es]|]; [eauto|discriminate H3].
  - apply good_mansb_ok; assumption.
  - apply usesb_ok. exact H5.
  - intros q T E. rewrite forallb_forall in H6. apply own_names_in in T. assert (Nq : q <> []).
    { intros ->. unfold own_names in T. rewrite !in_app_iff in T. destruct T as [T|[T|T]]; [apply in_map_iff in T; destruct T as (a & X & _); discriminate X|apply in_map_iff in T; destruct T as (a & X & _); discriminate X|].
      cbn in T. intuition discriminate. }
    apply H6 in T. apply (is_dir_get q) in E; [|exact Nq]. rewrite E in T. discriminate T.
Qed.

Definition agg_okb (v : env) (A skip : list pystr) (h : hb) (bs : list rbag) : bool :=
  forallb (member_okb v A) bs && forallb (fun q => negb (gone skip q)) (own_names v ++ [F_bagit; DATA; MULTIBAG]) &&
  match read F_bagit (hb_tree h) with Some c => match e_version v c with Ok (true, _) => true | _ => false end | None => false end &&
  match read (sjoin MULTIBAG F_agginfo) (hb_tree h) with
  | Some c => good_tagsb (decode (hb_reader h) c)
  | None => match read F_baginfo (hb_tree h) with Some c => good_tagsb c | None => false end
  end &&
  forallb (fun b => forallb (fun b' => forallb (fun pn => match snd pn with NDir => gone skip (fst pn) || negb (is_file (fst pn) (rb_tree b')) | NFile _ => true end) (rb_tree b)) bs) bs &&
  existsb (fun b => is_dir DATA (rb_tree b)) bs &&
  forallb (fun b => forallb good_nameb (od_keys (rb_tree b))) bs && forallb good_nameb (own_names v).

Lemma agg_okb_ok v A skip h bs : (forall l p, e_danger v l p = false) -> agg_okb v A skip h bs = true -> agg_ok v A skip true false h bs.
Proof.
  intros D H. unfold agg_okb in H. rewrite !andb_true_iff in H. destruct H as (((((((H1 & H2) & H3) & H4) & H5) & H6) & H7) & H8).
  assert (Gn : forall p, good_nameb p = true -> good_name v p).
  { intros p G. unfold good_nameb in G. apply andb_true_iff in G. destruct G as [G1 G2]. apply manifest_pathb_ok in G1, G2.
    split; [exact G1|]. split; [exact G2|]. apply D. }
  constructor.
  - rewrite forallb_forall in H1. apply Forall_forall. intros b I. apply member_okb_ok; auto.
  - intros q T. rewrite forallb_forall in H2. apply negb_true_iff. apply H2. apply in_app_iff. destruct T as [T|T]; [left; apply own_names_in; exact T|right; exact T].
  - destruct (read F_bagit (hb_tree h)) as [c|]; [|discriminate H3]. destruct (e_version v c) as [[[|] v1]|] eqn:E; try discriminate H3. exists c, v1. auto.
  - unfold first_info. destruct (read (sjoin MULTIBAG F_agginfo) (hb_tree h)) as [c|].
    + eexists. split; [reflexivity|]. apply good_tagsb_ok. exact H4.
    + destruct (read F_baginfo (hb_tree h)) as [c|]; [|discriminate H4]. exists c. split; [reflexivity|]. apply good_tagsb_ok. exact H4.
  - intros b b' p I I' E G. rewrite forallb_forall in H5. apply H5 in I. rewrite forallb_forall in I. apply I in I'. rewrite forallb_forall in I'.
    apply od_get_in in E. apply I' in E. cbn [fst snd] in E. rewrite G in E. cbn [orb] in E. apply negb_true_iff in E. exact E.
  - intros _. apply existsb_exists in H6. destruct H6 as (b & I & E). exists b. split; [exact I|]. apply is_dir_get in E; [exact E|discriminate].
  - discriminate.
  - intros b p I F _ _ _. apply Gn. rewrite forallb_forall in H7. apply H7 in I. rewrite forallb_forall in I. apply I.
    apply is_file_read in F. destruct F as [c F]. apply read_get in F. eapply od_get_some_key. exact F.
  - intros p T _. apply Gn. rewrite forallb_forall in H8. apply H8. apply own_names_in. exact T.
Qed.

Lemma verdict_pass v t : verdict_of v t = Ok VPass -> passes_plain v t.
Proof.
  unfold verdict_of. destruct (open_plain v t) as [b|e] eqn:E; cbn [bind]; [|discriminate]. intros H. injection H as H. exists b. auto.
Qed.

Example C110_case :
  plain_algos ar_env /\ NoDup (e_algos ar_env) /\ good_hash ar_env /\ same_world ar_env va_world /\ plain_text (fun _ => U "1 kB") /\
  amended ar_env (ar_place (U "next")) Codecs ar_old [default_bag ar_src] ar_new (U "next") ar_next [plain_member (U "src")] [U "data/d"] (fst ar_amend) /\
  valid_parts ar_env va_world ex_algos (ar_place (U "next")) (open_hb (U "next") ar_next (hb_info ar_new) Codecs) (ar_olds ++ ar_adds) [U "data/d"] /\
  Forall2 (fun m b => e_find ar_env (Tsv.m_name m) = Some b) [plain_member (U "src")] ar_olds /\
  Forall2 (found_as ar_env) [default_bag ar_src] ar_adds /\
  map (fun p => read p ar_back) [U "data/a"; U "data/c"; U "data/d/b"; U "meta/m"] = [Some (U "ABCDE"); Some (U "c"); None; Some (U "M")] /\
  verdict_of (at_place ar_env va_world (U "/out")) ar_back = Ok VPass.
Proof.
  split. { intros a I. cbn in I. destruct I as [<-|[<-|[]]]; intros X; cbn in X; intuition discriminate. }
  split; [apply nodupb_ok; reflexivity|]. split; [intros a c; apply h_dec_hash|].
  split. { constructor; [reflexivity|intros a c; apply h_dec_lower|]. intros c vi f E. cbn [e_version ar_env va_env]. rewrite E. reflexivity. }
  split. { intros t. split; [apply no_brk_b; reflexivity|right; apply trimmedb_ok; reflexivity]. }
  split.
  { exists (got [] (algorithms ar_env ar_next)), (fun _ => U "1 kB"), ex_repr, false, None, None, [], SNone, SNone, (U "2"), ar_old.
    split.
    { destruct ex_amendment as (A1 & _ & _ & A4 & A5 & A6 & _). split; [exact A1|]. split.
      { exists (got [] (tags_of Codecs ar_next)). split; [vm_compute; reflexivity|]. split; [reflexivity|]. vm_compute. reflexivity. }
      split; [apply nodupb_ok; vm_compute; reflexivity|]. split; [exact A4|]. split; [exact A5|]. split; [exact A6|].
      assert (E : deprecates ex_repr (hb_info ar_old) = [U "1"]) by (vm_compute; reflexivity). rewrite E.
      constructor; [|constructor]. apply plain_valueb_ok; reflexivity. }
    split; [right; split; vm_compute; reflexivity|]. split; [apply nodupb_ok; vm_compute; reflexivity|].
    split. { repeat (apply Forall_cons; [apply storable_name, storableb_ok; reflexivity|]). constructor. }
    split; [vm_compute; reflexivity|]. split; [vm_compute; reflexivity|]. vm_compute. reflexivity. }
  split.
  { assert (Gn : forall l p, good_nameb p = true -> good_name (there ar_env l) p).
    { intros l p G. unfold good_nameb in G. apply andb_true_iff in G. destruct G as [G1 G2]. apply manifest_pathb_ok in G1, G2.
      split; [exact G1|]. split; [exact G2|]. reflexivity. }
    assert (Nk : forall l, names_ok (there ar_env l) ar_next).
    { intros l p F _ _. apply Gn. assert (X : forallb good_nameb (od_keys ar_next) = true) by (vm_compute; reflexivity).
      rewrite forallb_forall in X. apply X. apply is_file_read in F. destruct F as [c F]. apply read_get in F. eapply od_get_some_key. exact F. }
    constructor; cbn [open_hb hb_tree].
    - constructor.
      + apply verdict_pass. vm_compute. reflexivity.
      + exists va_bagit, true. split; vm_compute; reflexivity.
      + apply good_mansb_ok; [reflexivity|]. vm_compute. reflexivity.
      + apply Nk.
      + apply Forall_cons; [apply Gn; vm_compute; reflexivity|]. apply Forall_cons; [apply Gn; vm_compute; reflexivity|].
        apply Forall_cons; [apply Gn; vm_compute; reflexivity|constructor].
      + intros i i' T T'. assert (X : tags_of Codecs ar_next = tags_of IoText ar_next) by (vm_compute; reflexivity). congruence.
    - exact (Nk (U "/out")).
    - apply Forall_cons; [apply (Gn (U "/out")); vm_compute; reflexivity|]. apply Forall_cons; [apply (Gn (U "/out")); vm_compute; reflexivity|constructor].
    - apply agg_okb_ok; [reflexivity|]. vm_compute. reflexivity.
    - repeat (apply Forall_cons; [split; [vm_compute; reflexivity|split; vm_compute; reflexivity]|]). constructor.
    - apply Forall_cons; [|apply Forall_cons; [|constructor]]; (apply verdict_pass; vm_compute; reflexivity).
    - repeat (apply Forall_cons; [vm_compute; reflexivity|]). constructor.
    - intros p P F (s & I & X). cbn in I. destruct I as [<-|[]].
      assert (Y : forallb (fun p => negb (is_file p ar_next) || negb (startswith p (U "data/")) || negb (gone [U "data/d"] p)) (od_keys ar_next) = true) by (vm_compute; reflexivity).
      rewrite forallb_forall in Y. assert (K : In p (od_keys ar_next)) by (apply is_file_read in F; destruct F as [c F]; apply read_get in F; eapply od_get_some_key; exact F).
      apply Y in K. rewrite F, P in K. cbn [negb orb] in K. apply negb_true_iff in K.
      assert (Z : gone [U "data/d"] p = true) by (apply deleted_iff; exists (U "data/d"); split; [left; reflexivity|exact X]). congruence. }
  split; [constructor; [reflexivity|constructor]|]. split; [constructor; [split; reflexivity|constructor]|].
  split; vm_compute; reflexivity.
Qed.

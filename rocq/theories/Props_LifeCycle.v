(** The life of a bag, from an ordinary bag through its versions to the bag that
    is restored from the last one (C118) *)
Require Import String NArith ZArith PeanoNat Bool List Lia.
From Verif Require Import PyBase PyFacts Version Tsv TsvProofs Fs FsFacts HeadBag HeadBagProofs HeadBagProofs2 HeadBagProofs3 BagIt BagItProofs BagItProofs2 Split SplitApply SplitApplyProofs SplitApplyProofs5 SplitApplyProofs7 SplitApplyProofs8 Restore RestoreProofs RestoreProofs2 RestoreProofs3 RestoreProofs4 RestoreProofs6 RestoreProofs7 RestoreProofs8 RestoreProofs9 RestoreProofs10 RestoreProofs11 Props_SplitApply Props_Restore Props_Restore3 Props_Restore4 BagValid BagValidProofs Props_BagValid Props_BagValid2 Props_BagValid4 Amend AmendProofs AmendProofs2 AmendProofs3 AmendProofs4 SingleProofs SaveValidProofs Props_RoundTrip2 Props_Amend Props_Single Props_Validate5 Props_AmendRestore Props_AmendValid Props_AmendRestore2 Props_AmendHistory Props_AmendHistory2 AmendTotalProofs Props_AmendTotal Props_AmendTotal2 SingleTotalProofs Props_SingleTotal.
Import ListNotations.
Open Scope N_scope.

(** ** The bag that was made a multibag, as a part of later versions *)

Lemma single_grown v w A loc bsize bagdir name t version pid t' :
  plain_algos v -> NoDup (e_algos v) -> incl A (e_algos v) -> good_hash v -> same_world v w -> plain_size bsize ->
  convertible t (U "multibag") -> ready (there v loc) w (U "multibag") t -> names_ok v t -> Forall (good_name v) [L_members; L_lookup] ->
  (forall p, touched v p -> is_tagman p = false -> good_name v p) ->
  member_ok v A (at_loc loc t) -> is_file (U "fetch.txt") t = false ->
  name <> [] -> ~ In SLASH name -> bagdir = name \/ (exists d, bagdir = d ++ SLASH :: name) ->
  version <> [] -> tag_value_ok Codecs version ->
  make_single_multibag (there v loc) bsize bagdir t version pid = Ok t' ->
  grown v w A (at_loc loc t) (at_loc loc t') /\
  forall q, ~ describing q -> ~ multibag_path q -> od_get q t' = od_get q t.
Proof.
  intros Pa Na Inc Gh Sw B (W & i & Ti & Td & Ov & Tv & Gt & Ot) [Va (c & v1 & Rc & Ev) G Nm0 Gn Ox] Nm Gl Oo Mt Nf N0 Ns Hb Nv Vv H.
  assert (Sw' : same_world (there v loc) w) by (destruct Sw; constructor; assumption).
  destruct (name_at_path bagdir name N0 Ns Hb) as [Eb En].
  unfold make_single_multibag in H. apply bind_ok in H. destruct H as ([i' es] & Ho & H). apply bind_ok in H. destruct H as (algs & Ha & H).
  assert (i' = i).
  { unfold open_bag in Ho. destruct (read F_bagit t) as [x|]; [|discriminate]. apply bind_ok in Ho. destruct Ho as ([v97 v1'] & _ & Ho).
    apply bind_ok in Ho. destruct Ho as (i0 & Hi & Ho). apply bind_ok in Ho. destruct Ho as (e0 & _ & Ho). injection Ho as -> _.
    unfold tags_of in Ti. change (U "bag-info.txt") with F_baginfo in Ti. destruct (read F_baginfo t); congruence. }
  subst i'. rewrite En in H. destruct (convert (there v loc) algs bsize bagdir version pid (open_hb name t i Codecs)) as [h' [[]|e]] eqn:C; [|discriminate].
  injection H as <-. set (td := U "multibag") in *.
  destruct (convert_run (there v loc) algs bsize bagdir version pid name t i h' td Pa (algorithms_in _ _ _ Ha) B Ti Td Ov Tv Gt Ot Nv Vv W N0 C)
    as (i2 & lu & d & [Et _] & R & K & _ & _ & _ & _ & _ & T).
  destruct (T IoText) as (j & Tj & _ & _ & _ & _ & _ & _ & J). specialize (J T_OXUM).
  assert (T1 : exists i1, tags_of IoText t = Ok i1) by (destruct Va as (b & Op & _); eexists; exact (plain_tags (there v loc) w t b c v1 Sw' Op Rc Ev)).
  destruct T1 as [i1 T1]. pose proof (wf_nodup _ (proj1 W)) as D.
  unfold single_steps in R. rewrite Et in R. set (ml := members_steps td _) in *.
  set (p1 := if info_truthy T_Version i then [] else info_steps (there v loc) algs bsize (Some (U "1")) CURRENT_VERSION i) in *.
  unfold info_steps in R. cbv zeta in R. set (u := update_info_tags (Some version) CURRENT_VERSION i2) in *.
  set (pre := p1 ++ ml ++ [clear_step td] ++ lookup_steps td lu ++ save_steps (there v loc) algs (fun _ => u)).
  assert (Fp : Forall (tag_step td algs) pre).
  { apply Forall_app. split; [subst p1; destruct (info_truthy T_Version i); [constructor|apply info_only]|].
    apply Forall_app. split; [apply members_only|]. apply Forall_app. split; [constructor; [apply clear_only|constructor]|].
    apply Forall_app. split; [apply lookup_only|apply save_only]. }
  assert (Fn : Forall (no_dir td) pre).
  { assert (X : forall l dd, Forall (no_dir td) (members_steps td l) /\ no_dir td (clear_step td) /\ Forall (no_dir td) (lookup_steps td dd)).
    { intros l dd. pose proof (lists_no_dir td l dd) as Y. apply Forall_app in Y. destruct Y as [Y1 Y2]. apply Forall_app in Y2.
      inversion Y1 as [|? ? _ Y3]; subst. inversion Y3; subst. tauto. }
    apply Forall_app. split.
    { subst p1. destruct (info_truthy T_Version i); [constructor|]. unfold info_steps. apply Forall_app. split; apply save_no_dir. }
    apply Forall_app. split; [apply (X _ lu)|]. apply Forall_app. split; [constructor; [apply (X [] lu)|constructor]|].
    apply Forall_app. split; [apply (X [] lu)|apply save_no_dir]. }
  assert (Run : run_steps (pre ++ save_steps (there v loc) algs (fun t => od_set T_BagSize (IStr (bsize t)) u)) t = Ok (hb_tree h')).
  { unfold pre. rewrite <- !app_assoc. exact R. }
  destruct (tagged_valid (there v loc) w td algs t (hb_tree h') pre
              (fun t => od_set T_BagSize (IStr (bsize t)) u) i i1 j c v1 Na Gh Sw' D Va G Ot Rc Ev Ha Fp Run Nm0 Gn Ti T1 (Ox i i1 Ti T1) Tj)
    as (P & _ & D2 & Tm & Tm' & O & G2).
  { apply J. cbn. intuition discriminate. }
  assert (Dn : forall q, q <> td -> od_get q (hb_tree h') = Some NDir -> od_get q t = Some NDir).
  { intros q Q E. refine (run_no_dir td algs _ _ _ t (hb_tree h') q D Run Q E).
    - apply Forall_app. split; [exact Fp|apply save_only].
    - apply Forall_app. split; [exact Fn|apply save_no_dir]. }
  assert (W2 : wf_tree (hb_tree h')) by exact (proj1 (proj1 (K W))).
  change (e_version v c = Ok (true, v1)) in Ev. change (algorithms v t = Ok algs) in Ha.
  pose proof (new_files v algs t (hb_tree h') O Ha) as Nw.
  assert (Nm2 : names_ok v (hb_tree h')).
  { intros p F T2 T3. destruct (Nw p F) as [F'|[F'|F']].
    - apply Nm; assumption.
    - apply Oo; assumption.
    - rewrite Forall_forall in Gl. apply Gl. destruct F' as [->| ->]; [left|right; left]; reflexivity. }
  pose proof (new_member v loc A algs t (hb_tree h') Na Inc Gh Mt W2 Tm Tm' O Dn G2 Nm2 (ex_intro _ j Tj) c v1 Rc Ev Ha) as Mn.
  split.
  - constructor; cbn [at_loc rb_loc rb_tree].
    + reflexivity.
    + exact Mn.
    + exact Dn.
    + intros q Nq E. apply (is_dir_get q) in E; [|exact Nq]. apply (proj2 (proj2 O)) in E. apply (is_dir_get q) in E; [exact E|exact Nq].
    + exact Nw.
    + exact P.
    + rewrite (is_file_same _ t); [exact Nf|].
      apply (proj1 (proj2 O)). apply not_rewritten; [|discriminate|reflexivity]. intros a _ E. apply (f_equal (fun l => hd 0 l)) in E. discriminate E.
  - intros q Q1 Q2.
    assert (Rq : read q (hb_tree h') = read q t).
    { apply (proj1 (proj2 O)). intros [E|[E|[E|(a & _ & E)]]].
      - apply Q2. right. exists (U "member-bags.tsv"). exact E.
      - apply Q2. right. exists (U "file-lookup.tsv"). exact E.
      - apply Q1. left. exact E.
      - apply Q1. right; right. exists a. right. exact E. }
    assert (Nq : q <> td) by (intros ->; apply Q2; left; reflexivity).
    destruct (str_eq_dec q []) as [->|N1].
    + destruct (od_get [] (hb_tree h')) as [[|x]|] eqn:E1.
      * rewrite (Dn [] Nq E1). reflexivity.
      * unfold read in Rq. rewrite E1 in Rq. destruct (od_get [] t) as [[|y]|]; congruence.
      * destruct (od_get [] t) as [[|y]|] eqn:E2; [|unfold read in Rq; rewrite E1, E2 in Rq; discriminate Rq|reflexivity].
        exfalso. apply od_get_some_key in E2. pose proof (wf_paths _ (proj1 W)) as X. rewrite Forall_forall in X. apply X in E2. cbn in E2. inversion E2 as [|? ? [E3 _] _]. apply E3. reflexivity.
    + destruct (od_get q (hb_tree h')) as [[|x]|] eqn:E1.
      * rewrite (Dn q Nq E1). reflexivity.
      * unfold read in Rq. rewrite E1 in Rq. destruct (od_get q t) as [[|y]|]; congruence.
      * destruct (od_get q t) as [[|y]|] eqn:E2; [|unfold read in Rq; rewrite E1, E2 in Rq; discriminate Rq|reflexivity].
        exfalso. apply (is_dir_get q _ N1) in E2. apply (proj2 (proj2 O)) in E2. apply (is_dir_get q _ N1) in E2. congruence.
Qed.

(** ** The whole life *)

(** The bag [t] is an ordinary bag. It is made a multibag; then any number of
    versions [rs ++ [x]] are made, each by amending the one before; then the last
    one is restored. All of this works, and the restored bag is valid. It has the
    files that are left after laying the bags of all versions, in order, over
    the files of [t], without the files the last version deletes. *)
Theorem C118_whole_life : forall v w A r place bsize repr ro bagdir name t version pid rs x j dl bs ro',
  plain_algos v -> NoDup (e_algos v) -> incl A (e_algos v) -> good_hash v -> same_world v w -> plain_size bsize -> plain_text bs ->
  convertible t (U "multibag") -> unobstructed (there v (place name)) (U "multibag") t -> ready (there v (place name)) w (U "multibag") t -> names_ok v t ->
  name <> [] -> ~ In SLASH name -> bagdir = name \/ (exists d, bagdir = d ++ SLASH :: name) ->
  version <> [] -> tag_value_ok Codecs version ->
  storable_member r {| Tsv.m_name := name; m_uri := pid; m_comment := None; m_info := [] |} ->
  (forall p, is_payload p && is_file p t = true -> storable_entry r (p, name)) ->
  (forall i, tags_of Codecs t = Ok i -> tag_values i (U "Multibag-Head-Deprecates") = []) ->
  (exists p, is_payload p && is_file p t = true) ->
  Forall (good_release r) (rs ++ [x]) -> NoDup (name :: map fst (flat_map bags_in (rs ++ [x]))) ->
  Forall (roomy_release v place) (rs ++ [x]) -> Forall (fit v w place) (rs ++ [x]) ->
  tags_of Codecs (rl_tree x) = Ok j -> iter_deleted (open_hb (rl_name x) (rl_tree x) j r) = Ok dl ->
  valid_parts v w A (place (rl_name x)) (open_hb (rl_name x) (rl_tree x) j r)
    (map (put place) ((name, t) :: flat_map bags_in rs ++ map (fun s => (s_name s, s_tree s)) (rl_bags x))) dl ->
  exists t1 t2 before,
    make_single_multibag (there v (place name)) bsize bagdir t version pid = Ok t1 /\
    amended_by (performed v place r bsize repr ro) name t1 (rs ++ [x]) (rl_name x) t2 (before ++ [(rl_name x, t2)]) /\
    forall f, Forall (fun b => f (fst b) = Some (put place b)) ((name, t1) :: before) ->
    exists i dest, tags_of r t2 = Ok i /\
      restore (searching v f) true true bs ro' (open_hb (rl_name x) t2 i r) (place (rl_name x)) [] = Ok dest /\
      passes_plain (at_place v w (e_dest v)) dest /\
      forall p, ~ describing p -> ~ multibag_path p ->
        (deleted dl p -> od_get p dest = None) /\
        (~ deleted dl p -> od_get p dest = latest (t :: map snd (flat_map bags_in (rs ++ [x]))) p).
Proof.
  intros v w A r place bsize repr ro bagdir name t version pid rs x j dl bs ro' Pa Na Ia Gh Sw B Pt Cv Uo Rd Nm N0 Ns Hb Nv Vv Sm Se Dp Ex G D Rr Ft Tj Dl Vp.
  destruct (C116_single_succeeds (there v (place name)) bsize bagdir name t (U "multibag") version pid Pa Na Gh B Cv Uo N0 Ns Hb Vv) as [t1 H].
  destruct (C116_first_version (there v (place name)) bsize bagdir name t (U "multibag") version pid t1 r Pa B Cv N0 Ns Hb Nv Vv H Sm Se Dp Ex) as (i0 & F & Ao & Sf & An).
  cbn [map] in Vp. set (os := map (put place) (flat_map bags_in rs ++ map (fun s => (s_name s, s_tree s)) (rl_bags x))) in *.
  assert (Mo : forall b, In b (put place (name, t) :: os) ->
    member_ok v A b /\ passes_plain (at_place v w (rb_loc b)) (rb_tree b) /\ is_file (U "fetch.txt") (rb_tree b) = false).
  { intros b Ib. destruct Vp as [_ _ _ Ag _ V6 V7 _]. split.
    - pose proof (ao_members _ _ _ _ _ _ _ Ag) as X. rewrite Forall_forall in X. apply X. rewrite <- in_rev. apply in_or_app. left. exact Ib.
    - rewrite Forall_forall in V6, V7. split; [apply V6; exact Ib|]. apply V7. apply in_or_app. left. apply in_map. exact Ib. }
  destruct (Mo (put place (name, t)) (or_introl eq_refl)) as (M1 & _ & M3).
  destruct (single_grown v w A (place name) bsize bagdir name t version pid t1 Pa Na Ia Gh Sw B Cv Rd Nm (vp_lists _ _ _ _ _ _ _ Vp)
              (ao_own _ _ _ _ _ _ _ (vp_agg _ _ _ _ _ _ _ Vp)) M1 M3 N0 Ns Hb Nv Vv H) as [Gr Sa].
  assert (Vp' : valid_parts v w A (place (rl_name x)) (open_hb (rl_name x) (rl_tree x) j r) ([put place (name, t1)] ++ os) dl).
  { apply (parts_grown v w A _ _ _ _ _ Vp). constructor; [exact Gr|].
    assert (X : forall b, In b os -> grown v w A b b).
    { intros b Ib. destruct (Mo b (or_intror Ib)) as (X1 & X2 & X3). apply grown_refl; assumption. }
    clear - X. induction os as [|b l IH]; constructor; [apply X; left; reflexivity|]. apply IH. intros c Ic. apply X. right. exact Ic. }
  destruct (C115_life_cycle v w A r place bsize repr ro name t1 i0 _ version rs x [put place (name, t1)] j dl bs ro'
              Pa Na Ia Gh Sw B Pt F Ao (Sf (rs ++ [x])) G) with (2 := Rr) (3 := Ft) (4 := Tj) (5 := Dl) (6 := Vp') as (t2 & before & Hb2 & Rs).
  { split; [exact D|]. intros p y A0. rewrite (An p y A0). inversion D. assumption. }
  exists t1, t2, before. split; [exact H|]. split; [exact Hb2|]. intros f Ff. inversion Ff as [|? ? Ff1 Ff2]; subst.
  destruct (Rs f) as (i & dest & Ti & R & V & Q); [constructor; [exact Ff1|constructor]|exact Ff2|].
  exists i, dest. split; [exact Ti|]. split; [exact R|]. split; [exact V|]. intros p P1 P2. destruct (Q p P1 P2) as [Q1 Q2].
  split; [exact Q1|]. intros P3. rewrite (Q2 P3). apply latest_ext. cbn [map app put at_loc rb_tree fst snd]. rewrite (Sa p P1 P2). reflexivity.
Qed.
Print Assumptions C118_whole_life.

(** Non-vacuity: the bag src of C116 is made a multibag, amended twice and
    restored. The last version deletes data/a. *)
Definition lc_one : tree := got [] (make_single_multibag (there hg_env (ar_place (U "src"))) (fun _ => U "1 kB") (U "src") va_tree (U "1") None).
Definition lc_t1 : tree := hb_tree (hg_step (U "src") lc_one hg_r1).
Definition lc_t2 : tree := hb_tree (hg_step (U "next") lc_t1 hg_r2).
Definition lc_find (n : pystr) : option rbag :=
  if streq n (U "src") then Some (at_loc (ar_place n) lc_one) else if streq n (U "more") then Some (at_loc (ar_place n) ar_more)
  else if streq n (U "next") then Some (at_loc (ar_place n) lc_t1) else None.
Definition lc_back : tree :=
  got [] (restore (searching hg_env lc_find) true true (fun _ => U "1 kB") false (hg_open (U "last") lc_t2) (ar_place (U "last")) []).
Example C118_case :
  plain_algos hg_env /\ NoDup (e_algos hg_env) /\ incl Props_SplitApply.ex_algos (e_algos hg_env) /\ good_hash hg_env /\ same_world hg_env va_world /\
  plain_size (fun _ => U "1 kB") /\ plain_text (fun _ => U "1 kB") /\
  convertible va_tree (U "multibag") /\ unobstructed (there hg_env (ar_place (U "src"))) (U "multibag") va_tree /\
  ready (there hg_env (ar_place (U "src"))) va_world (U "multibag") va_tree /\ names_ok hg_env va_tree /\
  storable_member Codecs (plain_member (U "src")) /\
  (forall p, is_payload p && is_file p va_tree = true -> storable_entry Codecs (p, U "src")) /\
  (forall i, tags_of Codecs va_tree = Ok i -> tag_values i (U "Multibag-Head-Deprecates") = []) /\
  is_payload (U "data/a") && is_file (U "data/a") va_tree = true /\
  Forall (good_release Codecs) ([hg_r1] ++ [hg_r2]) /\ NoDup (U "src" :: map fst (flat_map bags_in ([hg_r1] ++ [hg_r2]))) /\
  Forall (roomy_release hg_env ar_place) ([hg_r1] ++ [hg_r2]) /\ Forall (fit hg_env va_world ar_place) ([hg_r1] ++ [hg_r2]) /\
  iter_deleted (hg_open (U "last") hg_last) = Ok [U "data/a"] /\
  valid_parts hg_env va_world Props_SplitApply.ex_algos (ar_place (U "last")) (hg_open (U "last") hg_last)
    (map (put ar_place) ((U "src", va_tree) :: flat_map bags_in [hg_r1] ++ map (fun s => (s_name s, s_tree s)) (rl_bags hg_r2))) [U "data/a"] /\
  is_head (hg_open (U "src") lc_one) = true /\
  map (fun p => read p lc_back) [U "data/a"; U "data/c"; U "data/d/b"; U "data/f"; U "meta/m"] =
    [None; Some (U "c"); Some (U "xyz"); Some (U "ff"); Some (U "M")] /\
  verdict_of (at_place hg_env va_world (U "/out")) lc_back = Ok VPass.
Proof.
  destruct C113_case as (C1 & C2 & C3 & C4 & C5 & C6 & _ & C8 & _ & _ & C11 & C12 & C13 & _).
  destruct C116_case as (_ & _ & _ & D4 & D5 & D6 & D7 & D8 & D9 & D10 & _ & D12 & D13).
  split; [exact C1|]. split; [exact C2|]. split; [exact C3|]. split; [exact C4|]. split; [exact C5|]. split; [exact D4|]. split; [exact C6|].
  split; [exact D5|]. split; [exact D6|]. split.
  { destruct va_ready as [R1 R2 R3 R4 R5 R6]. constructor.
    - apply verdict_pass. vm_compute. reflexivity.
    - exact R2.
    - apply good_mansb_ok; [reflexivity|]. vm_compute. reflexivity.
    - apply hg_names. vm_compute. reflexivity.
    - repeat (apply Forall_cons; [apply hg_good; vm_compute; reflexivity|]). constructor.
    - exact R6. }
  split; [apply (hg_names (U "/out")); vm_compute; reflexivity|].
  split; [exact D7|]. split; [exact D8|]. split; [exact D9|]. split; [exact D10|]. split; [exact C8|]. split; [exact D12|]. split; [exact D13|].
  split; [exact C11|]. split; [exact C12|]. split; [exact C13|]. split; [vm_compute; reflexivity|]. split; vm_compute; reflexivity.
Qed.

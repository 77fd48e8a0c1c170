(** Proofs for restorations that run at the same time (C136) *)
Require Import String NArith PeanoNat Bool List Lia.
From Verif Require Import PyBase PyFacts Tsv Fs FsFacts HeadBag HeadBagProofs3 BagIt BagItProofs Split SplitApply SplitApplyProofs SplitApplyProofs2 SplitApplyProofs8 Restore RestoreProofs RestoreProofs2 RestoreProofs3 RestoreRace.
Import ListNotations.
Open Scope N_scope.

(** ** What copying adds *)

Lemma gone_below skip q p : q <> [] -> gone skip p = false -> q = p \/ below q p = true -> gone skip q = false.
Proof.
  intros Nq G [->|B]; [exact G|]. destruct (gone skip q) eqn:E; [|reflexivity]. exfalso.
  assert (X : gone skip p = true); [|congruence]. apply gone_iff in E. destruct E as (s & I0 & H). apply gone_iff. exists s. split; [exact I0|]. right.
  apply below_iff in B; [|exact Nq]. destruct B as [r ->]. apply startswith_iff. destruct H as [<-|H].
  - exists r. rewrite <- app_assoc. reflexivity.
  - apply startswith_iff in H. destruct H as [z ->]. exists (z ++ SLASH :: r). rewrite <- app_assoc. reflexivity.
Qed.

(** Only nodes of [src] are new in [d']. *)
Definition from_src (skip : list pystr) (src d d' : tree) : Prop :=
  forall q, od_get q d' = od_get q d \/
    (od_get q d = None /\ od_get q d' = od_get q src /\ od_get q src <> None /\ gone skip q = false).

Lemma mk_spec skip src d p d' : wf_tree src -> wf_tree d -> od_get p src = Some NDir -> gone skip p = false ->
  makedirs p d = Ok d' -> wf_tree d' /\ od_get p d' <> None /\ from_src skip src d d'.
Proof.
  intros Ws Wd Gp Ng H. pose proof (get_good _ _ _ Ws Gp) as G. pose proof (good_path_nonempty _ G) as Np.
  assert (Gd : forall q, od_get q d' = match od_get q d with Some x => Some x | None => if str_in q (prefixes p) then Some NDir else None end).
  { unfold makedirs in H. apply (makedirs_get _ _ _ H). intros x I0. apply in_prefixes in I0; tauto. }
  split; [eapply (run_op_wf d (OMakedirs p)); [right; exact G|exact Wd|exact H]|]. split.
  - rewrite Gd. assert (I0 : str_in p (prefixes p) = true) by (apply str_in_iff; apply in_prefixes; auto). rewrite I0. destruct (od_get p d); discriminate.
  - intros q. rewrite Gd. destruct (od_get q d) as [n|] eqn:Eq; [left; reflexivity|]. destruct (str_in q (prefixes p)) eqn:I0; [|left; reflexivity].
    right. apply str_in_iff in I0. apply in_prefixes in I0; [|exact G]. destruct I0 as [Nq B].
    assert (Sq : od_get q src = Some NDir).
    { destruct B as [->|B]; [exact Gp|]. apply in_dirs; [apply wf_nodup; exact Ws|]. apply (below_trans_dir src q p Ws Nq (od_get_some_key _ _ _ Gp) B). }
    split; [reflexivity|]. rewrite Sq. split; [reflexivity|]. split; [discriminate|]. apply (gone_below skip q p Nq Ng B).
Qed.

Lemma rep_spec skip src d p d' u : wf_tree src -> wf_tree d -> is_file p src = true -> gone skip p = false ->
  replicate_ro CopyDone src d p = (d', Ok u) ->
  wf_tree d' /\ od_get p d' = od_get p src /\ forall q, q <> p ->
    od_get q d' = od_get q d \/ (od_get q d = None /\ od_get q d' = od_get q src /\ od_get q src <> None /\ gone skip q = false).
Proof.
  intros Ws Wd Fp Ng H. assert (Gp : exists c, od_get p src = Some (NFile c)) by (unfold is_file in Fp; destruct (od_get p src) as [[|c]|]; try discriminate Fp; eauto).
  destruct Gp as [c Gp]. pose proof (get_good _ _ _ Ws Gp) as G. pose proof (good_path_nonempty _ G) as Np. unfold replicate_ro in H.
  assert (X : exists_ p src = true) by (apply exists_get; [exact Np|rewrite Gp; discriminate]). rewrite X in H. cbn [negb] in H.
  assert (Y : is_dir p src = false). { unfold is_dir. destruct p; [congruence|]. rewrite Gp. reflexivity. }
  rewrite Y in H. cbv zeta in H. assert (R : read p src = Some c) by (unfold read; rewrite Gp; reflexivity). rewrite R in H.
  set (mk := if exists_ (dirname p) d then Ok d else makedirs (dirname p) d) in *. destruct mk as [d1|e] eqn:Mk; [|discriminate H]. subst mk.
  assert (M : wf_tree d1 /\ from_src skip src d d1).
  { destruct (exists_ (dirname p) d) eqn:Ed; [injection Mk as <-; split; [exact Wd|intros q; left; reflexivity]|].
    assert (Nd : dirname p <> []) by (intros E; rewrite E in Ed; unfold exists_ in Ed; cbn [is_dir] in Ed; rewrite orb_true_r in Ed; discriminate Ed).
    pose proof (get_parent _ _ _ Ws Gp) as Dp. apply is_dir_cases in Dp. destruct Dp as [Dp|Dp]; [congruence|]. unfold dirp in Dp.
    assert (Gg : gone skip (dirname p) = false).
    { apply (gone_below skip (dirname p) p Nd Ng). right. apply below_dirname; auto. }
    destruct (mk_spec skip src d (dirname p) d1 Ws Wd Dp Gg Mk) as (W1 & _ & F1). split; assumption. }
  destruct M as [W1 F1]. destruct (write_file p c d1) as [t|e] eqn:Ew; [|discriminate H]. injection H as <- _.
  apply write_file_ok2 in Ew. destruct Ew as (-> & Z1 & Z2). split; [apply wf_set; auto|]. split.
  - rewrite od_get_set, streq_refl. symmetry. exact Gp.
  - intros q Nq. rewrite od_get_set. destruct (streq_reflect q p) as [E|_]; [congruence|]. apply F1.
Qed.

(** ** Programs that only do what is right *)

Section Right.
  Variables (v : env) (skip : list pystr) (ts : list tree) (d0 : tree).
  Hypothesis Sv : sane v.
  Hypothesis N0 : ~ In [] skip.
  Hypothesis Wts : Forall wf_tree ts.

  (** What restoring the bags [ts] into [d0] gives. *)
  Definition comb (q : pystr) : option node :=
    match od_get q d0 with Some n => Some n | None => if gone skip q then None else first_of ts q end.

  Definition inv (d : tree) : Prop :=
    wf_tree d /\ forall q, in_multibag q = false ->
      (od_get q d0 <> None -> od_get q d <> None) /\ (~ touched v q -> od_get q d = None \/ od_get q d = comb q).

  Definition has (X : pystr -> Prop) (d : tree) : Prop := forall q, X q -> in_multibag q = false -> od_get q d <> None.
  Definition later (d d' : tree) : Prop := forall q, in_multibag q = false -> od_get q d <> None -> od_get q d' <> None.
  Definition all_of (l : list tree) (q : pystr) : Prop := gone skip q = false /\ exists t, In t l /\ od_get q t <> None.

  Inductive safe : (pystr -> Prop) -> prog -> Prop :=
  | safe_ret (X : pystr -> Prop) r : (r = Ok tt -> forall q, all_of ts q -> X q) -> safe X (Ret r)
  | safe_act (X : pystr -> Prop) f : (forall d d' p, inv d -> has X d -> f d = Ok (d', p) -> inv d' /\ later d d' /\ exists X', has X' d' /\ safe X' p) ->
      safe X (Act f).

  Lemma later_refl d : later d d.
  Proof. intros q _ H. exact H. Qed.
  Lemma has_later X d d' : has X d -> later d d' -> has X d'.
  Proof. intros H L q Xq M. apply L; auto. Qed.

  Lemma safe_reading {A} X (f : tree -> res A) k :
    (forall d a, inv d -> has X d -> f d = Ok a -> exists X', has X' d /\ safe X' (k a)) -> safe X (reading f k).
  Proof.
    intros H. apply safe_act. intros d d' p I0 Hx E. apply bind_ok in E. destruct E as (a & Ea & E). injection E as <- <-.
    split; [exact I0|]. split; [apply later_refl|]. exact (H d a I0 Hx Ea).
  Qed.
  Lemma safe_looking {A} X (f : tree -> res A) k : (forall d a, f d = Ok a -> safe X (k a)) -> safe X (reading f k).
  Proof. intros H. apply safe_reading. intros d a _ Hx E. exists X. eauto. Qed.
  Lemma safe_writing X f k : (forall d d', inv d -> has X d -> f d = Ok d' -> inv d' /\ later d d') -> safe X k -> safe X (writing f k).
  Proof.
    intros H K. apply safe_act. intros d d' p I0 Hx E. apply bind_ok in E. destruct E as (a & Ea & E). injection E as <- <-.
    destruct (H d a I0 Hx Ea) as [I1 L]. split; [exact I1|]. split; [exact L|]. exists X. split; [exact (has_later _ _ _ Hx L)|exact K].
  Qed.

  (** Writing one of the files that describe the bag. *)
  Lemma write_right p c d d' : touched v p -> good_path p -> inv d -> write_file p c d = Ok d' -> inv d' /\ later d d'.
  Proof.
    intros T G [W Q] H. apply write_file_ok2 in H. destruct H as (-> & H1 & H2). split; [split|].
    - apply wf_set; auto.
    - intros q M. rewrite od_get_set. destruct (streq_reflect q p) as [->|D].
      + split; [discriminate|]. intros Nt. contradiction.
      + apply Q. exact M.
    - intros q _ Hq. rewrite od_get_set. destruct (streq q p); [discriminate|exact Hq].
  Qed.

  Lemma special_good p : special v p -> good_path p.
  Proof. intros (k & a & Ik & Ia & ->). apply man_good; [exact Ik|apply Sv; exact Ia]. Qed.

  Lemma manifest_right k a l d d' : In k [K_man; K_tag] -> In a (e_algos v) -> inv d -> write_manifest k a l d = Ok d' -> inv d' /\ later d d'.
  Proof.
    intros Ik Ia I0 H. unfold write_manifest in H. destruct l as [|x l]; [injection H as <-; split; [exact I0|apply later_refl]|].
    assert (S0 : special v (man_name k a)) by (exists k, a; auto). apply (write_right _ _ _ _ (or_introl S0) (special_good _ S0) I0 H).
  Qed.

  Lemma rmtree_right d d' : inv d -> rmtree MULTIBAG d = Ok d' -> inv d' /\ later d d'.
  Proof.
    intros [W Q] H. destruct (rmtree_nodes _ _ _ W H) as (_ & W' & Q'). split; [split; [exact W'|]|].
    - intros q M. rewrite Q'. unfold in_multibag in M. rewrite M. apply Q. exact M.
    - intros q M Hq. rewrite Q'. unfold in_multibag in M. rewrite M. exact Hq.
  Qed.

  (** ** Copying *)

  Lemma fresh (X : pystr -> Prop) before src after d q n : ts = before ++ src :: after -> (forall x, all_of before x -> X x) ->
    inv d -> has X d -> in_multibag q = false -> od_get q d = None -> od_get q src = Some n -> gone skip q = false -> comb q = Some n.
  Proof.
    intros Et Px [_ Q] Hx M Dq Sq Ng. unfold comb. destruct (od_get q d0) as [m|] eqn:E0; [exfalso; destruct (Q q M) as [A _]; apply A; [rewrite E0; discriminate|exact Dq]|].
    rewrite Ng, Et. assert (B : forall t, In t before -> od_get q t = None).
    { intros t It. destruct (od_get q t) eqn:Eq; [|reflexivity]. exfalso. apply (Hx q); [|exact M|exact Dq]. apply Px. split; [exact Ng|]. exists t. split; [exact It|rewrite Eq; discriminate]. }
    clear Et Px. induction before as [|t before IH]; cbn [app first_of fold_right]; [rewrite Sq; reflexivity|].
    rewrite (B t (or_introl eq_refl)). apply IH. intros t' I0. apply B. right. exact I0.
  Qed.

  Lemma from_src_right (X : pystr -> Prop) before src after d d' : ts = before ++ src :: after -> (forall x, all_of before x -> X x) ->
    inv d -> has X d -> wf_tree d' -> from_src skip src d d' -> inv d' /\ later d d'.
  Proof.
    intros Et Px I0 Hx W' F. split; [split; [exact W'|]|].
    - intros q M. destruct I0 as [W Q]. destruct (F q) as [->|(Dq & -> & Sq & Ng)]; [apply Q; exact M|]. split; [intros _; exact Sq|]. intros _. right.
      destruct (od_get q src) as [n|] eqn:Es; [|congruence]. symmetry. exact (fresh X before src after d q n Et Px (conj W Q) Hx M Dq Es Ng).
    - intros q M Hq. destruct (F q) as [->|(Dq & _)]; [exact Hq|congruence].
  Qed.

  Definition wanted (src : tree) (i : item) : Prop :=
    match i with IRoot _ => True | _ => fits src i /\ gone skip (path_of i) = false end.
  Definition got_item (i : item) (q : pystr) : Prop := match i with IRoot _ => False | _ => q = path_of i end.

  Lemma item_safe (X : pystr -> Prop) before src after i u k : ts = before ++ src :: after -> wf_tree src -> (forall x, all_of before x -> X x) -> wanted src i ->
    (forall u, safe (fun q => X q \/ got_item i q) (k u)) -> safe X (item_prog src i u k).
  Proof.
    intros Et Ws Px Wi K.
    assert (Hadd : forall d, has X d -> (forall q, got_item i q -> od_get q d <> None) -> has (fun q => X q \/ got_item i q) d).
    { intros d Hx Hi q [Xq|Gi] M; [apply Hx; auto|apply Hi; exact Gi]. }
    destruct i as [dr|dr f|dr f]; cbn [item_prog wanted] in *.
    - apply safe_reading. intros d a _ Hx _. exists (fun q => X q \/ got_item (IRoot dr) q). split; [|apply K]. apply Hadd; [exact Hx|]. intros q [].
    - destruct Wi as [(G & Dn & Hs & Hf) Ng]. cbn [path_of] in *. pose proof (good_path_nonempty _ G) as Np.
      apply safe_reading. intros d there I0 Hx E. injection E as <-. destruct (exists_ (pjoin dr f) d) eqn:Ex.
      + exists (fun q => X q \/ got_item (IFile dr f) q). split; [|apply K]. apply Hadd; [exact Hx|]. intros q ->. apply exists_get in Ex; auto.
      + apply exists_get_false in Ex; [|exact Np]. exists X. split; [exact Hx|].
        assert (Cp : in_multibag (pjoin dr f) = false -> comb (pjoin dr f) = od_get (pjoin dr f) src).
        { intros M. rewrite Hs. apply (fresh X before src after d _ _ Et Px I0 Hx M Ex Hs Ng). }
        apply safe_act. intros e e' p I1 Hx1 E. apply bind_ok in E. destruct E as (e1 & E1 & E). injection E as <- <-.
        destruct (replicate_ro CopyDone src e (pjoin dr f)) as [e2 [u2|er]] eqn:Er; [|discriminate E1]. injection E1 as <-.
        destruct I1 as [W1 Q1]. destruct (rep_spec skip src e (pjoin dr f) e2 u2 Ws W1 Hf Ng Er) as (W2 & P2 & F2).
        assert (L2 : later e e2).
        { intros q M Hq. destruct (streq_reflect q (pjoin dr f)) as [Eq|Nq]; [rewrite Eq, P2, Hs; discriminate|]. destruct (F2 q Nq) as [->|(Dq & _)]; [exact Hq|congruence]. }
        split; [split; [exact W2|]|].
        * intros q M. destruct (streq_reflect q (pjoin dr f)) as [Eq|Nq].
          -- rewrite Eq in *. split; [intros _; rewrite P2, Hs; discriminate|]. intros _. right. rewrite P2. symmetry. apply Cp. exact M.
          -- destruct (F2 q Nq) as [->|(Dq & -> & Sq & Ngq)]; [apply Q1; exact M|]. split; [intros _; exact Sq|]. intros _. right.
             destruct (od_get q src) as [n|] eqn:Es; [|congruence]. symmetry. exact (fresh X before src after e q n Et Px (conj W1 Q1) Hx1 M Dq Es Ngq).
        * split; [exact L2|]. exists (fun q => X q \/ got_item (IFile dr f) q). split; [|apply K]. apply Hadd; [exact (has_later _ _ _ Hx1 L2)|].
          intros q ->. cbn [path_of]. rewrite P2, Hs. discriminate.
    - destruct Wi as [(G & Dn & Hs & Hf) Ng]. cbn [path_of node_of] in *. pose proof (good_path_nonempty _ G) as Np.
      apply safe_reading. intros d there I0 Hx E. injection E as <-. destruct (exists_ (pjoin dr f) d) eqn:Ex.
      + exists (fun q => X q \/ got_item (IDir dr f) q). split; [|apply K]. apply Hadd; [exact Hx|]. intros q ->. apply exists_get in Ex; auto.
      + exists X. split; [exact Hx|]. apply safe_act. intros e e' p I1 Hx1 E. apply bind_ok in E. destruct E as (e1 & E1 & E). injection E as <- <-.
        destruct (exists_ (pjoin dr f) e); [discriminate E1|]. destruct (mk_spec skip src e (pjoin dr f) e1 Ws (proj1 I1) Hs Ng E1) as (W2 & P2 & F2).
        destruct (from_src_right X before src after e e1 Et Px I1 Hx1 W2 F2) as [I2 L2]. split; [exact I2|]. split; [exact L2|].
        exists (fun q => X q \/ got_item (IDir dr f) q). split; [|apply K]. apply Hadd; [exact (has_later _ _ _ Hx1 L2)|]. intros q ->. exact P2.
  Qed.

  Lemma safe_more (X Y : pystr -> Prop) p : (forall q, X q -> Y q) -> safe X p -> safe Y p.
  Proof.
    intros XY H. destruct H as [X r H|X f H]; [apply safe_ret; auto|]. apply safe_act. intros d d' p I0 Hy E. apply (H d d' p I0); [|exact E].
    intros q Xq. apply Hy. apply XY. exact Xq.
  Qed.

  Lemma items_safe before src after l : ts = before ++ src :: after -> wf_tree src -> forall (X : pystr -> Prop) u k, (forall x, all_of before x -> X x) -> Forall (wanted src) l ->
    (forall u, safe (fun q => X q \/ exists i, In i l /\ got_item i q) (k u)) -> safe X (items_prog src l u k).
  Proof.
    intros Et Ws. induction l as [|i l IH]; intros X u k Px F K; cbn [items_prog].
    - eapply safe_more; [|apply K]. intros q [Xq|(i & [] & _)]. exact Xq.
    - inversion F as [|? ? Wi Wl]; subst. apply (item_safe X before src after); auto. intros u1. apply IH; [intros x A; left; apply Px; exact A|exact Wl|].
      intros u2. eapply safe_more; [|apply K]. intros q [Xq|(j & [<-|Ij] & Gj)]; [left; left; exact Xq|left; right; exact Gj|right; eauto].
  Qed.

  Lemma items_wanted src : wf_tree src -> Forall (wanted src) (items_of skip src).
  Proof.
    intros W. rewrite items_blocks. apply Forall_forall. intros i I0. apply in_flat_map in I0. destruct I0 as (dr & _ & I0). unfold block in I0.
    destruct (skipped_root skip dr) eqn:Sk; [destruct I0|]. destruct I0 as [<-|I0]; [exact Logic.I|].
    pose proof (dir_items_fits skip src dr W) as F. rewrite Forall_forall in F. destruct (F i I0) as [Fi Di].
    assert (P : In (path_of i) (map path_of (dir_items skip src dr))) by (apply in_map; exact I0). apply dir_items_paths in P; [|exact W]. destruct P as (_ & Dn & S2).
    assert (Ng : gone skip (path_of i) = false) by (rewrite (gone_dirname skip _ N0 (proj1 Fi)), Dn, Sk, S2; reflexivity).
    destruct i; [destruct Di| |]; split; assumption.
  Qed.

  Lemma items_all src q : wf_tree src -> od_get q src <> None -> gone skip q = false -> exists i, In i (items_of skip src) /\ got_item i q.
  Proof.
    intros W Sq Ng. destruct (od_get q src) as [n|] eqn:Es; [|congruence]. pose proof (get_good _ _ _ W Es) as G. rewrite (gone_dirname skip q N0 G) in Ng. apply orb_false_iff in Ng. destruct Ng as [S1 S2].
    assert (P : In q (map path_of (dir_items skip src (dirname q)))) by (apply dir_items_paths; [exact W|]; rewrite Es; repeat split; [discriminate|exact S2]).
    apply in_map_iff in P. destruct P as (i & Ei & Ii). exists i. split.
    - rewrite items_blocks. apply in_flat_map. exists (dirname q). split; [|unfold block; rewrite S1; right; exact Ii].
      pose proof (wf_parent_dir _ W _ (od_get_some_key _ _ _ Es)) as [X|X]; [left; symmetry; exact X|right; apply bf_dirs_in; exact X].
    - pose proof (dir_items_fits skip src (dirname q) W) as F. rewrite Forall_forall in F. destruct (F i Ii) as [_ Di]. destruct i; [destruct Di| |]; cbn [got_item]; congruence.
  Qed.

  (** ** Manifests *)

  Lemma manifests_safe X m k : (forall a, In a (od_keys m) -> In a (e_algos v)) -> safe X k -> safe X (manifests_prog m k).
  Proof.
    induction m as [|[a l] m IH]; intros Ka K; cbn [manifests_prog]; [exact K|]. cbn [fst snd].
    assert (Ia : In a (e_algos v)) by (apply Ka; left; reflexivity).
    apply safe_writing; [intros d d' I0 _ H; refine (manifest_right K_man a _ d d' _ Ia I0 H); left; reflexivity|].
    apply safe_writing; [intros d d' I0 _ H; refine (manifest_right K_tag a _ d d' _ Ia I0 H); right; left; reflexivity|].
    apply IH; [|exact K]. intros b I0. apply Ka. right. exact I0.
  Qed.

  Lemma update_safe X loc t oe updated k : open_bag v IoText loc t = Ok oe -> safe X k -> safe X (update_prog v (snd oe) updated k).
  Proof.
    intros Ho K. apply safe_looking. intros d m E. apply bind_ok in E. destruct E as ([i des] & _ & Hk). apply manifests_safe; [|exact K].
    destruct oe as [io es]. cbn [snd] in Hk. assert (I0 : inner_nodup es). { pose proof Ho as Ho'. apply open_bag_ok in Ho'. destruct Ho' as (? & ? & ? & _ & _ & _ & Ho'). eapply load_inner; eauto. }
    destruct (recorded_lk es updated [] I0) as (_ & A2 & _). destruct (kept_lk _ _ _ Hk) as (_ & _ & B3 & _). cbv zeta in *.
    intros a Ia. apply B3, A2 in Ia. destruct Ia as [(p & _ & C)|[]]. exact (open_algs v IoText loc t io es a p Ho C).
  Qed.

  Lemma from_safe (X : pystr -> Prop) before src after loc k : ts = before ++ src :: after -> (forall x, all_of before x -> X x) -> loc <> e_dest v ->
    safe (fun q => X q \/ (gone skip q = false /\ od_get q src <> None)) k -> safe X (from_prog v skip {| rb_loc := loc; rb_tree := src |} k).
  Proof.
    intros Et Px Nl K. unfold from_prog. cbn [rb_loc rb_tree]. destruct (streq_reflect loc (e_dest v)) as [E|_]; [congruence|].
    assert (Ws : wf_tree src) by (rewrite Forall_forall in Wts; apply Wts; rewrite Et; apply in_app_iff; right; left; reflexivity).
    destruct (open_bag v IoText loc src) as [oe|e] eqn:Ho; cbn [at_once]; [|apply safe_ret; discriminate].
    apply (items_safe before src after); auto; [apply items_wanted; exact Ws|]. intros u.
    assert (K' : safe (fun q => X q \/ exists i, In i (items_of skip src) /\ got_item i q) k).
    { eapply safe_more; [|exact K]. intros q [Xq|[Ng Sq]]; [left; exact Xq|right; exact (items_all src q Ws Sq Ng)]. }
    destruct u as [|x u]; [exact K'|]. apply (update_safe _ loc src oe (x :: u) k Ho K').
  Qed.

  (** ** The end *)

  Lemma tagmanifests_safe X algs k : (forall a, In a algs -> In a (e_algos v)) -> safe X k -> safe X (tagmanifests_prog v algs k).
  Proof.
    induction algs as [|a algs IH]; intros Ka K; cbn [tagmanifests_prog]; [exact K|].
    assert (S0 : special v (man_name K_tag a)) by (exists K_tag, a; split; [right; left; reflexivity|]; split; [apply Ka; left|]; reflexivity).
    apply safe_writing; [intros d d' I0 _ H; apply (write_right _ _ _ _ (or_introl S0) (special_good _ S0) I0 H)|].
    apply IH; [intros b I0; apply Ka; right; exact I0|exact K].
  Qed.

  Lemma save_safe X algs i k : (forall a, In a algs -> In a (e_algos v)) -> safe X k -> safe X (save_prog v algs i k).
  Proof.
    intros Ka K. apply safe_writing; [intros d d' I0 _ H; apply (write_right _ _ _ _ (or_intror (or_introl eq_refl)) baginfo_good I0 H)|].
    apply tagmanifests_safe; [exact Ka|]. apply safe_looking. intros _ _ _. exact K.
  Qed.

  Lemma sizes_safe us bsize algs info : (forall a, In a algs -> In a (e_algos v)) -> safe (all_of ts) (sizes_prog v us bsize algs info).
  Proof.
    intros Ka. unfold sizes_prog. destruct us; [|apply safe_ret; auto]. apply safe_looking. intros _ sn _. apply save_safe; [exact Ka|].
    apply safe_looking. intros _ s _. apply save_safe; [exact Ka|]. apply safe_ret. auto.
  Qed.

  Lemma finish_safe us rt bsize : safe (all_of ts) (finish_prog v us rt bsize).
  Proof.
    apply safe_looking. intros d [info algs] E. apply bind_ok in E. destruct E as ([i es] & _ & E). apply bind_ok in E. destruct E as (al & Ea & E). injection E as <- <-.
    pose proof (algorithms_in _ _ _ Ea) as Ka. cbn [fst snd]. destruct rt; [|apply sizes_safe; exact Ka].
    apply safe_writing; [intros e e' I0 _ H; apply (rmtree_right e e' I0 H)|]. apply save_safe; [exact Ka|]. apply sizes_safe. exact Ka.
  Qed.

  Lemma fetch_safe X names k : safe X k -> safe X (fetch_prog v names k).
  Proof.
    intros K. unfold fetch_prog. destruct names as [|n names]; [exact K|]. apply safe_looking. intros _ d _. destruct d as [|x d]; [exact K|].
    apply safe_writing; [|exact K]. intros e e' I0 _ H. apply (write_right _ _ _ _ (or_intror (or_intror eq_refl)) fetch_good I0 H).
  Qed.

  Lemma members_safe names : forall before bs, ts = before ++ map rb_tree bs -> Forall2 (fun n b => e_find v n = Some b) names bs ->
    Forall (fun b => rb_loc b <> e_dest v) bs ->
    forall k, safe (all_of ts) k -> safe (all_of before) (members_prog v skip names k).
  Proof.
    induction names as [|n names IH]; intros before bs Et F2 Fl k K; inversion F2 as [|? b ? bs' Hb F2']; subst; cbn [members_prog].
    - cbn [map] in Et. rewrite app_nil_r in Et. rewrite <- Et. exact K.
    - rewrite Hb. inversion Fl as [|? ? Lb Fl']; subst. destruct b as [loc t]. cbn [rb_loc rb_tree map] in *.
      apply (from_safe (all_of before) before t (map rb_tree bs') loc); auto.
      eapply safe_more; [|apply (IH (before ++ [t]) bs'); [rewrite Et, <- app_assoc; reflexivity|exact F2'|exact Fl'|exact K]].
      intros q (Ng & x & Ix & Gx). apply in_app_iff in Ix. destruct Ix as [Ix|[->|[]]]; [left; split; [exact Ng|]; exists x; auto|right; auto].
  Qed.
End Right.

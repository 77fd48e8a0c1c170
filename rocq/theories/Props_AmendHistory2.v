(** However often valid bags are amended, the last version can be restored, and
    gives a valid bag (C113) *)
Require Import String NArith ZArith PeanoNat Bool List Lia.
From Verif Require Import PyBase PyFacts Version Tsv TsvProofs Fs FsFacts HeadBag HeadBagProofs HeadBagProofs2 HeadBagProofs3 BagIt BagItProofs BagItProofs2 Split SplitApply SplitApplyProofs SplitApplyProofs5 SplitApplyProofs7 SplitApplyProofs8 Restore RestoreProofs RestoreProofs2 RestoreProofs3 RestoreProofs4 RestoreProofs6 RestoreProofs7 RestoreProofs8 RestoreProofs9 RestoreProofs10 RestoreProofs11 Props_SplitApply Props_Restore Props_Restore3 Props_Restore4 BagValid BagValidProofs Props_BagValid Props_BagValid2 Props_BagValid4 Amend AmendProofs AmendProofs2 AmendProofs3 AmendProofs4 SingleProofs SaveValidProofs Props_RoundTrip2 Props_Amend Props_Validate5 Props_AmendRestore Props_AmendValid Props_AmendRestore2 Props_AmendHistory.
Import ListNotations.
Open Scope N_scope.

(** ** Bags that became head bags *)

(** The bag [b'] is [b] after it became a head bag. *)
Record grown (v : env) (w : benv) (A : list pystr) (b b' : rbag) : Prop := {
  gr_loc : rb_loc b' = rb_loc b;
  gr_member : member_ok v A b';
  gr_dirs : forall q, q <> MULTIBAG -> od_get q (rb_tree b') = Some NDir -> od_get q (rb_tree b) = Some NDir;
  gr_kept : forall q, q <> [] -> od_get q (rb_tree b) = Some NDir -> od_get q (rb_tree b') = Some NDir;
  gr_files : forall q, is_file q (rb_tree b') = true -> is_file q (rb_tree b) = true \/ touched v q \/ q = L_members \/ q = L_lookup;
  gr_valid : passes_plain (at_place v w (rb_loc b')) (rb_tree b');
  gr_fetch : is_file (U "fetch.txt") (rb_tree b') = false
}.

Lemma grown_room v w A b b' : grown v w A b b' -> leaves_room (rb_tree b) -> leaves_room (rb_tree b').
Proof.
  intros G (R1 & R2 & R3).
  assert (D : forall q, q <> MULTIBAG -> q <> [] -> is_dir q (rb_tree b) = false -> is_dir q (rb_tree b') = false).
  { intros q Q1 Q2 X. destruct (is_dir q (rb_tree b')) eqn:E; [|reflexivity]. apply (is_dir_get q _ Q2) in E. apply (gr_dirs _ _ _ _ _ G q Q1) in E.
    apply (is_dir_get q _ Q2) in E. congruence. }
  split; [|split; apply D; (discriminate || assumption)].
  destruct (is_file (U "multibag") (rb_tree b')) eqn:E; [|reflexivity]. exfalso. destruct (gr_files _ _ _ _ _ G _ E) as [X|[X|[X|X]]].
  - congruence.
  - exact (not_touched_dir v X).
  - discriminate X.
  - discriminate X.
Qed.

Lemma grown_agg v w A skip h others others' loc :
  agg_ok v A skip true false h (rev (others ++ [at_loc loc (hb_tree h)])) ->
  Forall leaves_room (map rb_tree others ++ [hb_tree h]) -> Forall (good_name v) [L_members; L_lookup] ->
  Forall2 (grown v w A) others others' ->
  agg_ok v A skip true false h (rev (others' ++ [at_loc loc (hb_tree h)])).
Proof.
  intros [Om Os Ov Oi Oc Od _ On Oo] Rm Gn G.
  assert (In0 : forall l b, In b (rev (l ++ [at_loc loc (hb_tree h)])) <-> In b (l ++ [at_loc loc (hb_tree h)])) by (intros l b; symmetry; apply in_rev).
  set (own := at_loc loc (hb_tree h)) in *.
  (* what each bag was before *)
  set (like := fun b b' => member_ok v A b' /\ (forall q, q <> MULTIBAG -> od_get q (rb_tree b') = Some NDir -> od_get q (rb_tree b) = Some NDir) /\
     (forall q, q <> [] -> od_get q (rb_tree b) = Some NDir -> od_get q (rb_tree b') = Some NDir) /\
     (forall q, is_file q (rb_tree b') = true -> is_file q (rb_tree b) = true \/ touched v q \/ q = L_members \/ q = L_lookup)).
  assert (Mo : forall b, In b (others ++ [own]) -> member_ok v A b).
  { intros b I. rewrite Forall_forall in Om. apply Om, In0. exact I. }
  assert (L : Forall2 like (others ++ [own]) (others' ++ [own])).
  { apply Forall2_app.
    - clear - G. induction G as [|b b' l l' [G1 G2 G3 G4 G5 _ _] _ IH]; constructor; [|exact IH]. split; [exact G2|]. split; [exact G3|]. split; [exact G4|exact G5].
    - constructor; [|constructor]. split; [apply Mo, in_or_app; right; left; reflexivity|]. split; [auto|]. split; [auto|]. auto. }
  assert (Was : forall b', In b' (others' ++ [own]) -> exists b, In b (others ++ [own]) /\ like b b').
  { clear - L. induction L as [|b b' l l' H _ IH]; intros c [].
    - subst c. exists b. split; [left; reflexivity|exact H].
    - destruct (IH c H0) as (d & I & K). exists d. split; [right; exact I|exact K]. }
  assert (Is : forall b, In b (others ++ [own]) -> exists b', In b' (others' ++ [own]) /\ like b b').
  { clear - L. induction L as [|b b' l l' H _ IH]; intros c [].
    - subst c. exists b'. split; [left; reflexivity|exact H].
    - destruct (IH c H0) as (d & I & K). exists d. split; [right; exact I|exact K]. }
  assert (Rm' : forall b, In b (others ++ [own]) -> leaves_room (rb_tree b)).
  { intros b I. rewrite Forall_forall in Rm. apply Rm. change [hb_tree h] with (map rb_tree [own]). rewrite <- map_app. apply in_map. exact I. }
  constructor.
  - apply Forall_forall. intros b I. apply In0 in I. destruct (Was b I) as (b0 & _ & (X & _)). exact X.
  - exact Os.
  - exact Ov.
  - exact Oi.
  - intros b' c' p Ib Ic D Gs. apply In0 in Ib, Ic. destruct (Was b' Ib) as (b & Jb & _ & B2 & _). destruct (Was c' Ic) as (c & Jc & _ & _ & _ & C4).
    destruct (is_file p (rb_tree c')) eqn:F; [|reflexivity]. exfalso. destruct (str_eq_dec p MULTIBAG) as [->|Np].
    + destruct (C4 _ F) as [X|[X|[X|X]]]; [|exact (not_touched_dir v X)|discriminate X|discriminate X].
      pose proof (proj1 (Rm' c Jc)) as Y. change (U "multibag") with MULTIBAG in Y. congruence.
    + specialize (B2 p Np D). destruct (C4 _ F) as [X|[X|X]].
      * rewrite (Oc b c p) in X; [discriminate X| | |exact B2|exact Gs]; apply In0; assumption.
      * exact (mo_dirs _ _ _ (Mo b Jb) p X B2).
      * destruct (Rm' b Jb) as (_ & R1 & R2).
        destruct X as [->| ->]; [apply (is_dir_get L_members _ ltac:(discriminate)) in B2; unfold L_members in B2|apply (is_dir_get L_lookup _ ltac:(discriminate)) in B2; unfold L_lookup in B2]; congruence.
  - intros E. destruct (Od E) as (b & I & D). apply In0 in I. destruct (Is b I) as (b' & I' & _ & _ & K & _). exists b'. split; [apply In0; exact I'|].
    apply K; [discriminate|exact D].
  - intros X. discriminate X.
  - intros b' p I F Gs T1 T2. apply In0 in I. destruct (Was b' I) as (b & Jb & _ & _ & _ & B4). destruct (B4 p F) as [X|[X|X]].
    + apply (On b p); [apply In0; exact Jb|exact X|exact Gs|exact T1|exact T2].
    + apply Oo; assumption.
    + rewrite Forall_forall in Gn. apply Gn. destruct X as [->| ->]; [left|right; left]; reflexivity.
  - exact Oo.
Qed.

Lemma parts_grown v w A loc h others others' dl :
  valid_parts v w A loc h others dl -> Forall2 (grown v w A) others others' -> valid_parts v w A loc h others' dl.
Proof.
  intros [V1 V2 V3 V4 V5 V6 V7 V8] G. constructor.
  - exact V1.
  - exact V2.
  - exact V3.
  - exact (grown_agg v w A _ h others others' loc V4 V5 V3 G).
  - apply Forall_app in V5. destruct V5 as [R1 R2]. apply Forall_app. split; [|exact R2]. rewrite Forall_map in R1. rewrite Forall_map.
    clear - G R1. induction G as [|b b' l l' H _ IH]; [constructor|]. inversion R1; subst. constructor; [|auto]. eapply grown_room; eauto.
  - clear - G. induction G as [|b b' l l' H _ IH]; constructor; [|exact IH]. exact (gr_valid _ _ _ _ _ H).
  - apply Forall_app in V7. destruct V7 as [_ R2]. apply Forall_app. split; [|exact R2]. rewrite Forall_map.
    clear - G. induction G as [|b b' l l' H _ IH]; constructor; [|exact IH]. exact (gr_fetch _ _ _ _ _ H).
  - exact V8.
Qed.

Lemma grown_refl v w A b : member_ok v A b -> passes_plain (at_place v w (rb_loc b)) (rb_tree b) -> is_file (U "fetch.txt") (rb_tree b) = false ->
  grown v w A b b.
Proof. intros M P F. constructor; auto. Qed.

Lemma amended_grown v w A loc algs bsize repr ro old bags own inc exc version new new' old' name t :
  plain_algos v -> NoDup (e_algos v) -> incl A (e_algos v) -> good_hash v -> same_world v w ->
  amendment bsize repr old new name t (U "multibag") version -> bag_files t ->
  ready (there v loc) w (U "multibag") t -> names_ok v t -> Forall (good_name v) [L_members; L_lookup] ->
  (forall p, touched v p -> is_tagman p = false -> good_name v p) ->
  member_ok v A (at_loc loc t) -> is_file (U "fetch.txt") t = false -> algorithms (there v loc) t = Ok algs ->
  amend (there v loc) algs bsize repr false ro old bags own inc exc version new = (new', Ok old') ->
  grown v w A (at_loc loc t) (at_loc loc (hb_tree new')).
Proof.
  intros Pa Na Inc Gh Sw Am Bt Rd Nm Gl Oo Mt Nf Al H.
  assert (Sw' : same_world (there v loc) w) by (destruct Sw; constructor; assumption).
  destruct (amended_facts (there v loc) w algs bsize repr ro old bags own inc exc version new new' old' name t (U "multibag")
    Na Gh Sw' Am eq_refl Rd Al H) as (P & D2 & Tm & Tm' & O & G2 & Dn & Rmb & Rbi & T).
  assert (Gt : good_path (U "multibag")) by (apply good_pathb_ok; reflexivity).
  pose proof (amended_wf (there v loc) _ _ _ _ _ _ _ _ _ _ _ _ _ _ _ _ Pa (algorithms_in _ _ _ Al) Am Gt eq_refl Bt H) as W2.
  destruct Rd as [Vt (c & v1 & Rc & Ev) Gt' Nt Lt Ox].
  change (e_version v c = Ok (true, v1)) in Ev. change (algorithms v t = Ok algs) in Al.
  pose proof (new_files v algs t (hb_tree new') O Al) as Nw.
  assert (Nm2 : names_ok v (hb_tree new')).
  { intros p F T1 T2. destruct (Nw p F) as [F'|[F'|F']].
    - apply Nm; assumption.
    - apply Oo; assumption.
    - rewrite Forall_forall in Gl. apply Gl. destruct F' as [->| ->]; [left|right; left]; reflexivity. }
  destruct (T IoText) as (iu & Tu & _).
  pose proof (new_member v loc A algs t (hb_tree new') Na Inc Gh Mt W2 Tm Tm' O Dn G2 Nm2 (ex_intro _ iu Tu) c v1 Rc Ev Al) as Mn.
  constructor; cbn [at_loc rb_loc rb_tree].
  - reflexivity.
  - exact Mn.
  - exact Dn.
  - intros q Nq E. apply (is_dir_get q) in E; [|exact Nq]. apply (proj2 (proj2 O)) in E. apply (is_dir_get q) in E; [exact E|exact Nq].
  - exact Nw.
  - exact P.
  - rewrite (is_file_same _ t); [exact Nf|].
    apply (proj1 (proj2 O)). apply not_rewritten; [|discriminate|reflexivity]. intros a _ E. apply (f_equal (fun l => hd 0 l)) in E. discriminate E.
Qed.

(** ** C113 *)

(** The amendments of C112 by a program that runs with [v]: the bag with a name
    [n] is at [place n], and the tag manifests are those of the algorithms that
    the new head bag has. *)
Definition sound_amendment (v : env) (place : pystr -> pystr) (r : reader) (n : pystr) (t : tree) (x : release) (t' : tree) : Prop :=
  exists algs bsize repr ro i j new' old',
    plain_size bsize /\ tags_of r t = Ok i /\ tags_of Codecs (rl_tree x) = Ok j /\
    algorithms (there v (place (rl_name x))) (rl_tree x) = Ok algs /\
    amend_bag_with (there v (place (rl_name x))) algs bsize repr ro (open_hb n t i r) (rl_bags x) (rl_version x)
      (open_hb (rl_name x) (rl_tree x) j Codecs) = (new', Ok old') /\
    t' = hb_tree new'.

Definition put (place : pystr -> pystr) (b : pystr * tree) : rbag := at_loc (place (fst b)) (snd b).

(** A bag that is to become a head bag and, later, a member of the next
    version. *)
Definition fit (v : env) (w : benv) (place : pystr -> pystr) (x : release) : Prop :=
  rl_td x = U "multibag" /\ ready (there v (place (rl_name x))) w (U "multibag") (rl_tree x) /\ names_ok v (rl_tree x).

Lemma sound_one v place r n t x t' : plain_algos v -> sound_amendment v place r n t x t' -> one_amendment r n t x t'.
Proof.
  intros Pa (algs & bsize & repr & ro & i & j & new' & old' & B & Ti & Tj & Al & H & E).
  exists (there v (place (rl_name x))), algs, bsize, repr, ro, i, j, new', old'. split; [exact Pa|]. split; [exact (algorithms_in _ _ _ Al)|].
  split; [exact B|]. split; [exact Ti|]. split; [exact Tj|]. split; [exact H|exact E].
Qed.

Lemma sound_by v place r n0 t0 rs n t added : plain_algos v ->
  amended_by (sound_amendment v place r) n0 t0 rs n t added -> amended_by (one_amendment r) n0 t0 rs n t added.
Proof. intros Pa H. induction H as [|rs n t added x t' H IH O]; [constructor|]. apply Next with (n := n) (t := t); [exact IH|]. eapply sound_one; eauto. Qed.

Lemma distinct_front r n0 t0 i0 ms0 rs x : all_distinct r n0 t0 i0 ms0 (rs ++ [x]) -> all_distinct r n0 t0 i0 ms0 rs.
Proof.
  intros [D1 D2]. rewrite flat_map_app, map_app in D1, D2. split.
  - rewrite app_assoc in D1. apply NoDup_front in D1. exact (proj1 D1).
  - intros p y A X. apply (D2 p y A). apply in_or_app. left. exact X.
Qed.

(** Every bag of the versions is on disk as it was, or as the head bag it
    became. *)
Lemma shelf_grown v w A place r n0 t0 i0 ms0 ov0 rs n t added :
  plain_algos v -> NoDup (e_algos v) -> incl A (e_algos v) -> good_hash v -> same_world v w ->
  amended_by (sound_amendment v place r) n0 t0 rs n t added -> Forall (good_release r) rs -> first_version r n0 t0 i0 ms0 ov0 ->
  all_distinct r n0 t0 i0 ms0 rs ->
  Forall (good_name v) [L_members; L_lookup] -> (forall p, touched v p -> is_tagman p = false -> good_name v p) ->
  Forall (fit v w place) rs ->
  Forall (fun b => member_ok v A b /\ passes_plain (at_place v w (rb_loc b)) (rb_tree b) /\ is_file (U "fetch.txt") (rb_tree b) = false)
    (map (put place) (flat_map bags_in rs)) ->
  Forall2 (grown v w A) (map (put place) (flat_map bags_in rs)) (map (put place) added).
Proof.
  intros Pa Na Inc Gh Sw H. induction H as [|rs n t added x t' H IH O]; intros G F D Gl Oo Ft Va; [constructor|].
  pose proof (distinct_front _ _ _ _ _ _ _ D) as D'.
  apply Forall_app in G. destruct G as [G Gx]. inversion Gx as [|? ? Gx' _]; subst. clear Gx.
  apply Forall_app in Ft. destruct Ft as [Ft Fx]. inversion Fx as [|? ? (Fd & Fr & Fn) _]; subst. clear Fx.
  rewrite flat_map_app in Va |- *. cbn [flat_map] in Va |- *. rewrite app_nil_r, !map_app in *. apply Forall_app in Va. destruct Va as [Va Vx].
  apply Forall2_app; [exact (IH G F D' Gl Oo Ft Va)|].
  destruct (history_at _ _ _ _ _ _ _ _ _ _ (sound_by _ _ _ _ _ _ _ _ _ Pa H) G F D') as (i & V & _).
  unfold bags_in in Vx |- *. rewrite map_app in Vx |- *. apply Forall_app in Vx. destruct Vx as [V1 V2]. apply Forall2_app.
  - clear - V1. induction V1 as [|b l (M & P & Nf) _ IHl]; constructor; [|exact IHl]. apply grown_refl; assumption.
  - cbn [map] in V2 |- *. inversion V2 as [|? ? (M & P & Nf) _]; subst. constructor; [|constructor]. unfold put in *. cbn [fst snd at_loc rb_tree rb_loc] in *.
    destruct O as (algs & bsize & repr & ro & i' & j & new' & old' & B & Ti & Tj & Al & Ha & ->).
    assert (i' = i) by (pose proof (va_tags _ _ _ _ _ _ _ V); congruence). subst i'.
    pose proof (amendment_of bsize repr _ _ _ _ _ _ _ _ _ B V Gx' Tj) as Am. rewrite Fd in Am.
    assert (Bt : bag_files (rl_tree x)).
    { destruct Gx' as (Ls & _). apply Forall_app in Ls. destruct Ls as [_ Ls]. inversion Ls as [|? ? (_ & X & _) _]. exact X. }
    exact (amended_grown v w A (place (rl_name x)) algs bsize repr ro _ _ _ _ _ _ _ new' old' (rl_name x) (rl_tree x)
      Pa Na Inc Gh Sw Am Bt Fr Fn Gl Oo M Nf Al Ha).
Qed.

(** The head bag [n] with files [t] is what any number of amendments made. All
    bags were valid before, and could be restored together with the last one as
    head bag ([valid_parts], as in C110); they are found as they are on disk
    now. Then restoring the last version works, the result is a valid bag, and
    it has what is left after copying all bags in order. *)
Theorem C113_history_restores_valid : forall v w A r place n0 t0 i0 ms0 ov0 rs x n t before olds j dl bs ro,
  plain_algos v -> NoDup (e_algos v) -> incl A (e_algos v) -> good_hash v -> same_world v w -> plain_text bs ->
  amended_by (sound_amendment v place r) n0 t0 (rs ++ [x]) n t (before ++ [(n, t)]) ->
  Forall (good_release r) (rs ++ [x]) -> first_version r n0 t0 i0 ms0 ov0 -> all_distinct r n0 t0 i0 ms0 (rs ++ [x]) ->
  Forall (fit v w place) (rs ++ [x]) ->
  tags_of Codecs (rl_tree x) = Ok j -> iter_deleted (open_hb (rl_name x) (rl_tree x) j r) = Ok dl ->
  valid_parts v w A (place (rl_name x)) (open_hb (rl_name x) (rl_tree x) j r)
    (olds ++ map (put place) (flat_map bags_in rs ++ map (fun s => (s_name s, s_tree s)) (rl_bags x))) dl ->
  Forall2 (fun m b => e_find v (Tsv.m_name m) = Some b) ms0 olds ->
  Forall (fun b => e_find v (fst b) = Some (put place b)) before ->
  exists i dest, tags_of r t = Ok i /\
    restore v true true bs ro (open_hb n t i r) (place n) [] = Ok dest /\
    passes_plain (at_place v w (e_dest v)) dest /\
    forall p, ~ describing p -> ~ multibag_path p ->
      (deleted dl p -> od_get p dest = None) /\
      (~ deleted dl p -> od_get p dest = latest (map rb_tree olds ++ map snd (flat_map bags_in (rs ++ [x]))) p).
Proof.
  intros v w A r place n0 t0 i0 ms0 ov0 rs x n t before olds j dl bs ro Pa Na Inc Gh Sw Pt H G F D Ft Tj Dl Vp Fo Fb.
  pose proof (sound_by _ _ _ _ _ _ _ _ _ Pa H) as H1.
  remember (rs ++ [x]) as rs1 eqn:E1. remember (before ++ [(n, t)]) as ad1 eqn:E2.
  destruct H as [|rs' n' t' added' x' t'' H O]; [destruct rs; discriminate E1|].
  apply app_inj_tail in E1. destruct E1 as [-> ->]. rewrite app_assoc in E2. apply app_inj_tail in E2. destruct E2 as [E2 _]. subst before.
  pose proof (distinct_front _ _ _ _ _ _ _ D) as D'.
  pose proof G as G0. apply Forall_app in G0. destruct G0 as [G' Gx]. inversion Gx as [|? ? Gx' _]; subst. clear Gx.
  pose proof Ft as Ft0. apply Forall_app in Ft0. destruct Ft0 as [Ft' Fx]. inversion Fx as [|? ? (Fd & Fr & Fn) _]; subst. clear Fx.
  destruct (history_at _ _ _ _ _ _ _ _ _ _ (sound_by _ _ _ _ _ _ _ _ _ Pa H) G' F D') as (i & V & _).
  pose proof O as O1. destruct O as (algs & bsize & repr & ro0 & i' & j' & new' & old' & B & Ti & Tj' & Al & Ha & ->).
  assert (i' = i) by (pose proof (va_tags _ _ _ _ _ _ _ V); congruence). subst i'. assert (j' = j) by congruence. subst j'.
  pose proof (amendment_of bsize repr _ _ _ _ _ _ _ _ _ B V Gx' Tj) as Am. rewrite Fd in Am.
  rewrite map_app in Vp.
  set (os := olds ++ map (put place) added') in *. set (adds := map (put place) (map (fun s => (s_name s, s_tree s)) (rl_bags x))) in *.
  assert (Mo : forall b, In b (olds ++ map (put place) (flat_map bags_in rs) ++ adds) ->
    member_ok v A b /\ passes_plain (at_place v w (rb_loc b)) (rb_tree b) /\ is_file (U "fetch.txt") (rb_tree b) = false).
  { intros b I. destruct Vp as [_ _ _ Ag _ V6 V7 _]. split.
    - pose proof (ao_members _ _ _ _ _ _ _ Ag) as X. rewrite Forall_forall in X. apply X. rewrite <- in_rev. apply in_or_app. left. exact I.
    - rewrite Forall_forall in V6, V7. split; [apply V6; exact I|]. apply V7. apply in_or_app. left. apply in_map. exact I. }
  assert (Gs : Forall2 (grown v w A) (map (put place) (flat_map bags_in rs)) (map (put place) added')).
  { apply (shelf_grown v w A place r n0 t0 i0 ms0 ov0 rs n' t' added' Pa Na Inc Gh Sw H G' F D'); [exact (vp_lists _ _ _ _ _ _ _ Vp)| |exact Ft'|].
    - exact (ao_own _ _ _ _ _ _ _ (vp_agg _ _ _ _ _ _ _ Vp)).
    - apply Forall_forall. intros b I. apply Mo. apply in_or_app. right. apply in_or_app. left. exact I. }
  assert (Gr : Forall2 (grown v w A) (olds ++ map (put place) (flat_map bags_in rs) ++ adds) (os ++ adds)).
  { unfold os. rewrite <- app_assoc. apply Forall2_app; [|apply Forall2_app; [exact Gs|]].
    - assert (X : forall b, In b olds -> grown v w A b b).
      { intros b I. destruct (Mo b) as (M1 & M2 & M3); [apply in_or_app; left; exact I|]. apply grown_refl; assumption. }
      clear - X. induction olds as [|b l IH]; constructor; [apply X; left; reflexivity|]. apply IH. intros c I. apply X. right. exact I.
    - assert (X : forall b, In b adds -> grown v w A b b).
      { intros b I. destruct (Mo b) as (M1 & M2 & M3); [apply in_or_app; right; apply in_or_app; right; exact I|]. apply grown_refl; assumption. }
      clear - X. induction adds as [|b l IH]; constructor; [apply X; left; reflexivity|]. apply IH. intros c I. apply X. right. exact I. }
  pose proof (parts_grown _ _ _ _ _ _ _ _ Vp Gr) as Vp'.
  apply Forall_app in Fb. destruct Fb as [Fb1 Fb2].
  set (ms := ms0 ++ map (fun b => plain_member (fst b)) (flat_map bags_in rs)) in *.
  assert (Nx : map Tsv.m_name ms ++ map (fun b => s_name (ab_src b)) (map default_bag (rl_bags x)) ++ [rl_name x] =
               map Tsv.m_name ms0 ++ map fst (flat_map bags_in (rs ++ [x]))).
  { unfold ms. rewrite flat_map_app. cbn [flat_map]. rewrite app_nil_r, !map_app, !map_map, <- app_assoc. unfold bags_in at 3. rewrite map_app, map_map. reflexivity. }
  assert (Amd : amended v (place (rl_name x)) r (open_hb n' t' i r) (map default_bag (rl_bags x)) (open_hb (rl_name x) (rl_tree x) j Codecs)
    (rl_name x) (rl_tree x) ms dl new').
  { exists algs, bsize, repr, ro0, None, None, [], SNone, SNone, (rl_version x), old'.
    split; [exact Am|]. split; [exact (va_members _ _ _ _ _ _ _ V)|]. split; [rewrite Nx; exact (proj1 D)|]. split.
    - apply Forall_app. split; [exact (va_st_members _ _ _ _ _ _ _ V)|]. destruct Gx' as (Ls & _).
      assert (Me : map entry_of (map default_bag (rl_bags x)) ++ [own_member None None [] (rl_name x)] = members_in x).
      { unfold members_in, bags_in. rewrite map_app, !map_map. reflexivity. }
      rewrite Me. apply Forall_map. revert Ls. apply Forall_impl. intros b (S1 & _). apply storable_name. exact S1.
    - split; [exact Dl|]. split; [exact Al|exact Ha]. }
  assert (Fo' : Forall2 (fun m b => e_find v (Tsv.m_name m) = Some b) ms os).
  { unfold ms, os. apply Forall2_app; [exact Fo|].
    destruct (history_at _ _ _ _ _ _ _ _ _ _ (sound_by _ _ _ _ _ _ _ _ _ Pa H) G' F D') as (_ & _ & K & _).
    clear - K Fb1. induction K as [|a b la lb (K1 & _) _ IH]; cbn [map]; [constructor|]. inversion Fb1; subst. constructor; [|auto].
    cbn [Tsv.m_name plain_member]. rewrite <- K1. assumption. }
  assert (Fa' : Forall2 (found_as v) (map default_bag (rl_bags x)) adds).
  { unfold adds. clear - Fb2. induction (rl_bags x) as [|s l IH]; cbn [map] in *; [constructor|]. inversion Fb2; subst. constructor; [|auto].
    split; [cbn [default_bag ab_src]; assumption|reflexivity]. }
  destruct (C110_amended_restores_valid v w A (place (rl_name x)) r _ _ _ _ _ ms dl new' os adds bs ro Pa Na Inc Gh Sw Pt Amd Vp' Fo' Fa')
    as (k & dest & Tk & R & P & _).
  exists k, dest. split; [exact Tk|]. split; [exact R|]. split; [exact P|].
  assert (Lo : forall b, In b (os ++ adds) -> elsewhere v b).
  { intros b I. pose proof (ao_members _ _ _ _ _ _ _ (vp_agg _ _ _ _ _ _ _ Vp')) as X. rewrite Forall_forall in X.
    assert (M : member_ok v A b) by (apply X; rewrite <- in_rev; apply in_or_app; left; exact I).
    split; [exact (mo_wf _ _ _ M)|exact (mo_loc _ _ _ M)]. }
  assert (Lh : place (rl_name x) <> e_dest v).
  { pose proof (ao_members _ _ _ _ _ _ _ (vp_agg _ _ _ _ _ _ _ Vp')) as X. rewrite Forall_forall in X.
    assert (M : member_ok v A (at_loc (place (rl_name x)) (rl_tree x))) by (apply X; rewrite <- in_rev; apply in_or_app; right; left; reflexivity).
    exact (mo_loc _ _ _ M). }
  assert (Hd : iter_deleted (open_hb (rl_name x) (hb_tree new') k r) = Ok dl).
  { rewrite <- Dl. unfold iter_deleted. cbn [open_hb hb_info hb_tree hb_reader].
    pose proof Am as (B0 & (j0 & Tj0 & En & Td) & Dk & Tv & Nv & Vv & Fdp).
    destruct (amend_disk (there v (place (rl_name x))) algs bsize repr ro0 (open_hb n' t' i r) (map default_bag (rl_bags x)) (own_member None None []) SNone SNone
      (rl_version x) (open_hb (rl_name x) (rl_tree x) j Codecs) new' old' (rl_name x) (rl_tree x) (U "multibag") B0) as
      (? & ? & ? & ? & _ & _ & _ & _ & _ & _ & _ & _ & _ & _ & _ & _ & _ & _ & T0); auto.
    { exists j. auto. }
    { assert (j0 = j) by congruence. subst j0. exact Td. }
    destruct (T0 r) as (k' & J1 & J2 & _). assert (k' = k) by congruence. subst k'. rewrite (std_tag_dir _ _ J2).
    assert (j0 = j) by congruence. subst j0. assert (Ej : tag_dir j = U "multibag").
    { unfold tag_dir_raw in Td. unfold tag_dir. destruct (od_get T_TagDir j) as [[s|q]|]; congruence. }
    rewrite Ej. unfold read, exists_, is_file, is_dir.
    assert (Eq : od_get (sjoin (U "multibag") F_deleted) (hb_tree new') = od_get (sjoin (U "multibag") F_deleted) (rl_tree x)).
    { refine (amended_nodes (there v (place (rl_name x))) _ _ _ _ _ _ _ _ _ _ _ _ _ _ _ _ _ Pa (algorithms_in _ _ _ Al) Am _ (or_intror _) Ha); [|cbn; auto 10].
      intros [X|[X|X]]; discriminate X. }
    rewrite Eq. reflexivity. }
  intros p P1 P2.
  refine (C112_restored r n0 t0 i0 ms0 ov0 (rs ++ [x]) (rl_name x) (hb_tree new') (added' ++ map (fun s => (s_name s, s_tree s)) (rl_bags x))
    v olds (map (put place) (added' ++ map (fun s => (s_name s, s_tree s)) (rl_bags x))) true true bs ro (place (rl_name x)) k dl dest
    _ _ G F D Pa Fo _ _ Lh Tk Hd R p P1 _ (fun _ => P2)).
  - rewrite <- app_assoc. exact H1.
  - destruct rs; discriminate.
  - apply Forall_forall. intros b I. apply Lo. unfold os. apply in_or_app. left. apply in_or_app. left. exact I.
  - assert (Fb : Forall (fun b => e_find v (fst b) = Some (put place b)) (added' ++ map (fun s => (s_name s, s_tree s)) (rl_bags x))) by (apply Forall_app; auto).
    assert (Lb : forall b, In b (added' ++ map (fun s => (s_name s, s_tree s)) (rl_bags x)) -> elsewhere v (put place b)).
    { intros b I. apply Lo. unfold os, adds. apply in_app_or in I. destruct I as [I|I].
      - apply in_or_app. left. apply in_or_app. right. apply in_map. exact I.
      - apply in_or_app. right. apply in_map. exact I. }
    clear - Fb Lb. induction (added' ++ map (fun s => (s_name s, s_tree s)) (rl_bags x)) as [|b l IH]; cbn [map]; [constructor|].
    inversion Fb; subst. constructor; [|apply IH; [assumption|intros c I; apply Lb; right; exact I]].
    split; [assumption|]. split; [reflexivity|]. apply (Lb b). left. reflexivity.
  - intros y Y L. rewrite Forall_forall in Ft. destruct (Ft y Y) as (E & _). rewrite E in L. apply P2. unfold listing in L. destruct L as [->|[->| ->]].
    + left. reflexivity.
    + right. exists (U "member-bags.tsv"). reflexivity.
    + right. exists (U "file-lookup.tsv"). reflexivity.
Qed.
Print Assumptions C113_history_restores_valid.

(** Non-vacuity: the valid bag src of C94 is amended twice. The first time the
    bags more and next are added; next deletes data/d. The second time the bag
    last is added, which deletes data/a. *)
Definition hg_last : tree := ar_bag [(U "data/f", U "ff")] [(U "multibag", NDir); (U "multibag/deleted.txt", NFile (ln "data/a"))].
Definition hg_r1 : release := {| rl_bags := [ar_src]; rl_name := U "next"; rl_tree := ar_next; rl_td := U "multibag"; rl_version := U "2" |}.
Definition hg_r2 : release := {| rl_bags := []; rl_name := U "last"; rl_tree := hg_last; rl_td := U "multibag"; rl_version := U "3" |}.
Definition hg_open (n : pystr) (t : tree) : hb := open_hb n t (got [] (tags_of Codecs t)) Codecs.
Definition hg_step (n : pystr) (t : tree) (x : release) : hb :=
  fst (amend_bag_with (there ar_env (ar_place (rl_name x))) (got [] (algorithms ar_env (rl_tree x))) (fun _ => U "1 kB") ex_repr false
    (hg_open n t) (rl_bags x) (rl_version x) (hg_open (rl_name x) (rl_tree x))).
Definition hg_t1 : tree := hb_tree (hg_step (U "src") va_tree hg_r1).
Definition hg_t2 : tree := hb_tree (hg_step (U "next") hg_t1 hg_r2).
Definition hg_env : env :=
  {| e_algos := e_algos va_env; e_version := e_version va_env; e_danger := e_danger va_env; e_hash := e_hash va_env; e_dest := U "/out";
     e_find := fun n => if streq n (U "src") then Some (at_loc (ar_place n) va_tree)
                        else if streq n (U "more") then Some (at_loc (ar_place n) ar_more)
                        else if streq n (U "next") then Some (at_loc (ar_place n) hg_t1) else None |}.
Definition hg_back : tree :=
  got [] (restore hg_env true true (fun _ => U "1 kB") false (hg_open (U "last") hg_t2) (ar_place (U "last")) []).

Lemma hg_by : amended_by (sound_amendment hg_env ar_place Codecs) (U "src") va_tree ([hg_r1] ++ [hg_r2]) (U "last") hg_t2
  ([(U "more", ar_more); (U "next", hg_t1)] ++ [(U "last", hg_t2)]).
Proof.
  apply (Next _ _ _ [hg_r1] (rl_name hg_r1) hg_t1 [(U "more", ar_more); (U "next", hg_t1)] hg_r2 hg_t2).
  - apply (Next _ _ _ [] (U "src") va_tree [] hg_r1 hg_t1); [apply First|].
    exists (got [] (algorithms ar_env (rl_tree hg_r1))), (fun _ => U "1 kB"), ex_repr, false, (got [] (tags_of Codecs va_tree)),
      (got [] (tags_of Codecs ar_next)), (hg_step (U "src") va_tree hg_r1), (hg_open (U "src") va_tree).
    split; [exact ex_size|]. split; [vm_compute; reflexivity|]. split; [vm_compute; reflexivity|]. split; [vm_compute; reflexivity|].
    split; [vm_compute; reflexivity|reflexivity].
  - exists (got [] (algorithms ar_env (rl_tree hg_r2))), (fun _ => U "1 kB"), ex_repr, false, (got [] (tags_of Codecs hg_t1)),
      (got [] (tags_of Codecs hg_last)), (hg_step (U "next") hg_t1 hg_r2), (hg_open (U "next") hg_t1).
    split; [exact ex_size|]. split; [vm_compute; reflexivity|]. split; [vm_compute; reflexivity|]. split; [vm_compute; reflexivity|].
    split; [vm_compute; reflexivity|reflexivity].
Qed.

Lemma hg_releases : Forall (good_release Codecs) ([hg_r1] ++ [hg_r2]).
Proof.
  constructor; [|constructor; [|constructor]].
  - split; [repeat (apply Forall_cons; [apply listable_ok; vm_compute; reflexivity|]); constructor|].
    split; [exists (got [] (tags_of Codecs ar_next)); split; vm_compute; reflexivity|].
    split; [apply good_pathb_ok; reflexivity|]. split; [reflexivity|]. split; [apply plain_valueb_ok; reflexivity|]. split; [discriminate|]. apply plain_valueb_ok; reflexivity.
  - split; [repeat (apply Forall_cons; [apply listable_ok; vm_compute; reflexivity|]); constructor|].
    split; [exists (got [] (tags_of Codecs hg_last)); split; vm_compute; reflexivity|].
    split; [apply good_pathb_ok; reflexivity|]. split; [reflexivity|]. split; [apply plain_valueb_ok; reflexivity|]. split; [discriminate|]. apply plain_valueb_ok; reflexivity.
Qed.

Lemma hg_answers p x : answers (hg_open (U "src") va_tree) p x -> x = if is_payload p && is_file p va_tree then Some (U "src") else None.
Proof. assert (E : is_head (hg_open (U "src") va_tree) = false) by (vm_compute; reflexivity). intros [[X _]|[_ X]]; [congruence|exact X]. Qed.

Lemma hg_first : first_version Codecs (U "src") va_tree (got [] (tags_of Codecs va_tree)) [plain_member (U "src")] (U "1").
Proof.
  constructor.
  - apply ex_bag_files; vm_compute; reflexivity.
  - discriminate.
  - vm_compute. reflexivity.
  - right. split; vm_compute; reflexivity.
  - intros p. eexists. right. split; [vm_compute; reflexivity|reflexivity].
  - right. split; vm_compute; reflexivity.
  - apply Forall_cons; [apply plain_valueb_ok; reflexivity|constructor].
  - apply Forall_cons; [apply storable_name, storableb_ok; reflexivity|constructor].
  - intros p x H. apply hg_answers in H. destruct (is_payload p && is_file p va_tree) eqn:E; [|discriminate H]. injection H as ->.
    assert (L : listable Codecs (U "src", va_tree)) by (apply listable_ok; vm_compute; reflexivity). destruct L as (L1 & _ & L2).
    split; [apply L2; exact E|exact L1].
Qed.

Lemma hg_distinct : all_distinct Codecs (U "src") va_tree (got [] (tags_of Codecs va_tree)) [plain_member (U "src")] ([hg_r1] ++ [hg_r2]).
Proof.
  split; [apply nodupb_ok; vm_compute; reflexivity|]. intros p y H. apply hg_answers in H.
  destruct (is_payload p && is_file p va_tree); [|discriminate H]. injection H as ->. apply str_in_false. reflexivity.
Qed.

Lemma hg_good l p : good_nameb p = true -> good_name (there hg_env l) p.
Proof.
  intros G. unfold good_nameb in G. apply andb_true_iff in G. destruct G as [G1 G2]. apply manifest_pathb_ok in G1, G2.
  split; [exact G1|]. split; [exact G2|]. reflexivity.
Qed.

Lemma hg_names l t : forallb good_nameb (od_keys t) = true -> names_ok (there hg_env l) t.
Proof.
  intros X p F _ _. apply hg_good. rewrite forallb_forall in X. apply X. apply is_file_read in F. destruct F as [c F]. apply read_get in F.
  eapply od_get_some_key. exact F.
Qed.

Lemma hg_fit : Forall (fit hg_env va_world ar_place) ([hg_r1] ++ [hg_r2]).
Proof.
  apply Forall_cons; [|apply Forall_cons; [|constructor]].
  - split; [reflexivity|]. split; [|apply (hg_names (U "/out")); vm_compute; reflexivity]. constructor.
    + apply verdict_pass. vm_compute. reflexivity.
    + exists va_bagit, true. split; vm_compute; reflexivity.
    + apply good_mansb_ok; [reflexivity|]. vm_compute. reflexivity.
    + apply hg_names. vm_compute. reflexivity.
    + repeat (apply Forall_cons; [apply hg_good; vm_compute; reflexivity|]). constructor.
    + intros i i' T T'. assert (X : tags_of Codecs ar_next = tags_of IoText ar_next) by (vm_compute; reflexivity). cbn [hg_r1 rl_tree] in *. congruence.
  - split; [reflexivity|]. split; [|apply (hg_names (U "/out")); vm_compute; reflexivity]. constructor.
    + apply verdict_pass. vm_compute. reflexivity.
    + exists va_bagit, true. split; vm_compute; reflexivity.
    + apply good_mansb_ok; [reflexivity|]. vm_compute. reflexivity.
    + apply hg_names. vm_compute. reflexivity.
    + repeat (apply Forall_cons; [apply hg_good; vm_compute; reflexivity|]). constructor.
    + intros i i' T T'. assert (X : tags_of Codecs hg_last = tags_of IoText hg_last) by (vm_compute; reflexivity). cbn [hg_r2 rl_tree] in *. congruence.
Qed.

Lemma hg_parts : valid_parts hg_env va_world Props_SplitApply.ex_algos (ar_place (U "last")) (hg_open (U "last") hg_last)
  (ar_olds ++ map (put ar_place) (flat_map bags_in [hg_r1] ++ map (fun s => (s_name s, s_tree s)) (rl_bags hg_r2))) [U "data/a"].
Proof.
  pose proof hg_fit as Fi. apply Forall_app in Fi. destruct Fi as [_ Fi]. inversion Fi as [|? ? (_ & Fr & Fn) _]; subst.
  constructor; cbn [hg_open open_hb hb_tree].
  - exact Fr.
  - exact Fn.
  - apply Forall_cons; [apply (hg_good (U "/out")); vm_compute; reflexivity|]. apply Forall_cons; [apply (hg_good (U "/out")); vm_compute; reflexivity|constructor].
  - apply agg_okb_ok; [reflexivity|]. vm_compute. reflexivity.
  - repeat (apply Forall_cons; [split; [vm_compute; reflexivity|split; vm_compute; reflexivity]|]). constructor.
  - apply Forall_cons; [|apply Forall_cons; [|apply Forall_cons; [|constructor]]]; (apply verdict_pass; vm_compute; reflexivity).
  - repeat (apply Forall_cons; [vm_compute; reflexivity|]). constructor.
  - intros p P F (s & I & X). cbn in I. destruct I as [<-|[]].
    assert (Y : forallb (fun p => negb (is_file p hg_last) || negb (startswith p (U "data/")) || negb (gone [U "data/a"] p)) (od_keys hg_last) = true) by (vm_compute; reflexivity).
    rewrite forallb_forall in Y. assert (K : In p (od_keys hg_last)) by (apply is_file_read in F; destruct F as [c F]; apply read_get in F; eapply od_get_some_key; exact F).
    apply Y in K. rewrite F, P in K. cbn [negb orb] in K. apply negb_true_iff in K.
    assert (Z : gone [U "data/a"] p = true) by (apply deleted_iff; exists (U "data/a"); split; [left; reflexivity|exact X]). congruence.
Qed.

Example C113_case :
  plain_algos hg_env /\ NoDup (e_algos hg_env) /\ incl Props_SplitApply.ex_algos (e_algos hg_env) /\ good_hash hg_env /\ same_world hg_env va_world /\ plain_text (fun _ => U "1 kB") /\
  amended_by (sound_amendment hg_env ar_place Codecs) (U "src") va_tree ([hg_r1] ++ [hg_r2]) (U "last") hg_t2
    ([(U "more", ar_more); (U "next", hg_t1)] ++ [(U "last", hg_t2)]) /\
  Forall (good_release Codecs) ([hg_r1] ++ [hg_r2]) /\
  first_version Codecs (U "src") va_tree (got [] (tags_of Codecs va_tree)) [plain_member (U "src")] (U "1") /\
  all_distinct Codecs (U "src") va_tree (got [] (tags_of Codecs va_tree)) [plain_member (U "src")] ([hg_r1] ++ [hg_r2]) /\
  Forall (fit hg_env va_world ar_place) ([hg_r1] ++ [hg_r2]) /\
  iter_deleted (hg_open (U "last") hg_last) = Ok [U "data/a"] /\
  valid_parts hg_env va_world Props_SplitApply.ex_algos (ar_place (U "last")) (hg_open (U "last") hg_last)
    (ar_olds ++ map (put ar_place) (flat_map bags_in [hg_r1] ++ map (fun s => (s_name s, s_tree s)) (rl_bags hg_r2))) [U "data/a"] /\
  Forall2 (fun m b => e_find hg_env (Tsv.m_name m) = Some b) [plain_member (U "src")] ar_olds /\
  Forall (fun b => e_find hg_env (fst b) = Some (put ar_place b)) [(U "more", ar_more); (U "next", hg_t1)] /\
  map (fun p => read p hg_back) [U "data/a"; U "data/c"; U "data/d/b"; U "data/f"; U "meta/m"] =
    [None; Some (U "c"); Some (U "xyz"); Some (U "ff"); Some (U "M")] /\
  verdict_of (at_place hg_env va_world (U "/out")) hg_back = Ok VPass.
Proof.
  split. { intros a I. cbn in I. destruct I as [<-|[<-|[]]]; intros X; cbn in X; intuition discriminate. }
  split; [apply nodupb_ok; reflexivity|]. split; [intros a I; exact I|]. split; [intros a c; apply h_dec_hash|].
  split. { constructor; [reflexivity|intros a c; apply h_dec_lower|]. intros c vi f E. cbn [e_version hg_env va_env]. rewrite E. reflexivity. }
  split. { intros t. split; [apply no_brk_b; reflexivity|right; apply trimmedb_ok; reflexivity]. }
  split; [exact hg_by|]. split; [exact hg_releases|]. split; [exact hg_first|]. split; [exact hg_distinct|]. split; [exact hg_fit|].
  split; [vm_compute; reflexivity|]. split; [exact hg_parts|].
  split; [constructor; [reflexivity|constructor]|]. split; [repeat (apply Forall_cons; [vm_compute; reflexivity|]); constructor|].
  split; vm_compute; reflexivity.
Qed.

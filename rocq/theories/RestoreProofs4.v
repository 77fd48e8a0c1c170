(** * Lemmas on restoring: the payload manifests *)

Require Import String NArith PeanoNat Bool List Lia Permutation.
From Verif Require Import PyBase PyFacts Tsv TsvProofs Fs FsFacts HeadBag BagIt BagItProofs Split SplitProofs2 SplitApply SplitApplyProofs SplitApplyProofs2 SplitApplyProofs8 Restore RestoreProofs RestoreProofs2 RestoreProofs3.
Import ListNotations.
Open Scope N_scope.

(** ** The paths recorded as updated *)

Lemma pjoin_inj d f g : pjoin d f = pjoin d g -> f = g.
Proof. unfold pjoin. destruct d; auto. intros H. apply app_inv_head in H. inversion H. auto. Qed.

Lemma steps_rec src d l : forall dest u dest' u', wf_tree src -> wf_tree dest ->
  Forall (fun i => fits src i /\ in_dir d i) l ->
  exists_ d dest = true ->
  foldM (restore_item false src) l (dest, u) = Ok (dest', u') ->
  forall x, In x u' <-> In x u \/ exists i, In i l /\ In x (recorded i dest).
Proof.
  induction l as [|i l IH]; intros dest u dest' u' Ws Wd F Ed H x; cbn [foldM] in H.
  - inversion H; subst. split; auto. intros [|(i & [] & _)]; auto.
  - apply bind_ok in H. destruct H as ([t1 u1] & H1 & H2). inversion F as [|? ? [Fi Di] Fl]; subst.
    assert (Dn : dirname (path_of i) = d).
    { destruct Fi as (_ & Dn & _). destruct i; cbn [in_dir] in Di; [destruct Di| |]; congruence. }
    destruct (step_ok _ _ _ _ _ _ Ws Wd Fi (eq_ind_r (fun x => exists_ x dest = true) Ed Dn) H1) as (A & W1 & U1).
    assert (E1 : exists_ d t1 = true) by (eapply more_exists; [eapply adds_more; eauto|auto]).
    rewrite (IH _ _ _ _ Ws W1 Fl E1 H2 x), U1, in_app_iff.
    assert (R : forall j, In j l -> In x (recorded j dest) -> In x (recorded i dest) \/ In x (recorded j t1)).
    { intros j Ij Hx. rewrite Forall_forall in Fl. destruct (Fl j Ij) as [Fj Dj].
      destruct j as [e|e f|e f]; cbn [recorded in_dir] in *; try contradiction. subst e.
      rewrite (A (pjoin d f)). destruct (od_get (pjoin d f) dest) eqn:G; [destruct Hx|].
      destruct (streq_reflect (pjoin d f) (path_of i)) as [E|Dp]; [|auto]. left.
      destruct i as [e|e g|e g]; cbn [in_dir path_of recorded] in *; try contradiction; subst e.
      - apply pjoin_inj in E. subst g. rewrite G. exact Hx.
      - exfalso. destruct Fi as (_ & _ & X & _). destruct Fj as (_ & _ & _ & Y). cbn [path_of node_of] in *.
        unfold is_file in Y. rewrite <- E in X. rewrite X in Y. discriminate. }
    assert (R' : forall j, In x (recorded j t1) -> In x (recorded j dest)).
    { intros j. destruct j as [e|e f|e f]; cbn [recorded]; auto. rewrite (A (pjoin e f)).
      destruct (od_get (pjoin e f) dest); auto. destruct (streq _ _); auto. intros []. }
    split.
    + intros [[Hx|Hx]|(j & Ij & Hx)]; [auto|right; exists i; split; [left|]; auto|].
      right. exists j. split; [right; auto|]. auto.
    + intros [Hx|(j & [<-|Ij] & Hx)]; auto. destruct (R j Ij Hx); eauto.
Qed.

Lemma dir_items_files skip src d f : wf_tree src -> In (IFile d f) (dir_items skip src d) <->
  exists p, is_file p src = true /\ dirname p = d /\ basename p = f /\ str_in p skip = false.
Proof.
  intros W. unfold dir_items. rewrite in_app_iff, !in_map_iff. split.
  - intros [(g & E & I)|(g & E & _)]; [|discriminate]. inversion E; subst g. apply filter_In in I. destruct I as [I S].
    apply negb_true_iff in S. apply in_files_in in I. destruct I as (p & I & D & B). subst. exists p.
    rewrite (pjoin_dirname_basename p (wf_good _ W _ (files_key _ _ I))) in S. repeat split; auto.
    apply in_files; auto. apply wf_nodup; auto.
  - intros (p & F & <- & <- & S). left. exists (basename p). split; auto. apply in_files in F; [|apply wf_nodup; auto].
    apply filter_In. rewrite (pjoin_dirname_basename p (wf_good _ W _ (files_key _ _ F))), S. split; auto.
    apply in_files_in. eauto.
Qed.

(** Paths recorded from the directories [ds]. *)
Definition noted (skip : list pystr) (src dest : tree) (ds : list pystr) (x : pystr) : Prop :=
  exists p, is_file p src = true /\ In (dirname p) ds /\ skipped_root skip (dirname p) = false /\
            str_in p skip = false /\ od_get p dest = None /\ x = sjoin (dirname p) (basename p).

Lemma blocks_rec skip src ds : forall dest u dest' u', wf_tree src -> wf_tree dest -> NoDup ds ->
  foldM (restore_item false src) (flat_map (block skip src) ds) (dest, u) = Ok (dest', u') ->
  forall x, In x u' <-> In x u \/ noted skip src dest ds x.
Proof.
  induction ds as [|d ds IH]; intros dest u dest' u' Ws Wd ND H x; cbn [flat_map] in H.
  - cbn [foldM] in H. inversion H; subst. split; auto. intros [|(p & _ & [] & _)]; auto.
  - rewrite foldM_app in H. apply bind_ok in H. destruct H as ([t1 u1] & H1 & H2).
    inversion ND as [|? ? NI ND']; subst.
    assert (B : (filled (chosen skip src [d]) src dest t1 /\ wf_tree t1) /\ forall x, In x u1 <-> In x u \/ noted skip src dest [d] x).
    { split.
      { apply (blocks_ok skip src [d] dest u t1 u1); auto. cbn [flat_map]. rewrite app_nil_r. exact H1. }
      clear x. intros x. unfold block in H1. destruct (skipped_root skip d) eqn:S.
      - cbn [foldM] in H1. inversion H1; subst. split; auto. intros [|(p & _ & [<-|[]] & X & _)]; auto. congruence.
      - cbn [foldM] in H1. apply bind_ok in H1. destruct H1 as ([t0 u0] & H0 & H1). cbn [restore_item] in H0.
        destruct (exists_ d dest) eqn:Ed; [|discriminate]. inversion H0; subst t0 u0.
        rewrite (steps_rec src d _ _ _ _ _ Ws Wd (dir_items_fits skip src d Ws) Ed H1 x).
        assert (X : (exists i, In i (dir_items skip src d) /\ In x (recorded i dest)) <-> noted skip src dest [d] x); [|rewrite X; tauto].
        split.
        + intros (i & Ii & Hx). pose proof (dir_items_fits skip src d Ws) as F. rewrite Forall_forall in F.
          destruct (F i Ii) as [_ Di]. destruct i as [e|e f|e f]; cbn [in_dir recorded] in *; try contradiction.
          subst e. destruct (od_get (pjoin d f) dest) eqn:G; [destruct Hx|]. destruct Hx as [<-|[]].
          apply dir_items_files in Ii; auto. destruct Ii as (p & Fp & Dp & Bp & Sp). exists p. subst.
          assert (Gp : good_path p) by (eapply (file_good _ src); eauto). rewrite (pjoin_dirname_basename p Gp) in G.
          repeat split; auto. left; auto.
        + intros (p & Fp & [Edp|[]] & S' & Sp & Np & ->). subst d. exists (IFile (dirname p) (basename p)). split.
          * apply dir_items_files; eauto.
          * cbn [recorded]. assert (Gp : good_path p) by (eapply (file_good _ src); eauto).
            rewrite (pjoin_dirname_basename p Gp), Np. left; auto. }
    destruct B as [[F1 W1] B]. rewrite (IH _ _ _ _ Ws W1 ND' H2 x), B.
    assert (X : noted skip src t1 ds x <-> noted skip src dest ds x).
    { unfold noted. assert (Y : forall p, In (dirname p) ds -> od_get p t1 = None <-> od_get p dest = None).
      { intros p Ip. destruct (F1 p) as (G1 & G2 & G3). destruct (od_get p dest) eqn:E.
        - rewrite G1 by discriminate. split; congruence.
        - rewrite G3; [tauto|auto|]. intros (_ & [Ex|[]] & _). apply NI. rewrite Ex. exact Ip. }
      split; intros (p & P1 & P2 & P3 & P4 & P5 & P6); exists p; (repeat split; auto); apply (Y p P2); auto. }
    rewrite X. unfold noted. split.
    + intros [[Hx|(p & P1 & [P2|[]] & P3)]|(p & P1 & P2 & P3)]; [auto| |]; right; exists p; (split; [exact P1|]); (split; [|exact P3]); [left|right]; exact P2.
    + intros [Hx|(p & P1 & [P2|P2] & P3)]; [auto| |]; [left; right|right]; exists p; (split; [exact P1|]); (split; [|exact P3]); [left|]; exact P2.
Qed.

Lemma copy_updated skip src dest dest' u : ~ In [] skip -> wf_tree src -> wf_tree dest ->
  copy_items false skip src dest = Ok (dest', u) ->
  forall x, In x u <-> exists p, is_file p src = true /\ gone skip p = false /\ od_get p dest = None /\
                                 x = sjoin (dirname p) (basename p).
Proof.
  intros N0 Ws Wd H x. unfold copy_items in H. rewrite items_blocks in H.
  assert (ND : NoDup ([] :: bf_dirs src)).
  { constructor.
    - rewrite bf_dirs_in. intros I. apply dirs_key in I. apply (wf_good _ Ws) in I. apply good_path_nonempty in I. congruence.
    - eapply Permutation_NoDup; [apply Permutation_sym, isort_perm|]. apply NoDup_dirs. apply wf_nodup; auto. }
  rewrite (blocks_rec _ _ _ _ _ _ _ Ws Wd ND H x). unfold noted. split.
  - intros [[]|(p & P1 & P2 & P3 & P4 & P5 & P6)]. exists p. rewrite gone_dirname, P3, P4; auto. eapply (file_good _ src); eauto.
  - intros (p & P1 & P2 & P3 & P4). right. exists p. assert (Gp : good_path p) by (eapply (file_good _ src); eauto).
    rewrite gone_dirname in P2 by auto. apply orb_false_iff in P2. destruct P2. repeat split; auto.
    assert (Ip : In p (od_keys src)). { apply files_key. apply in_files; auto. apply wf_nodup; auto. }
    destruct (wf_parent_dir _ Ws _ Ip) as [X|X]; [left; auto|right; apply bf_dirs_in; auto].
Qed.

(** ** Manifests as relations *)

(** The manifest of kind [k] for [a] in [t] has the entry [h] for [p]. *)
Definition entry_in (r : reader) (k : pystr) (t : tree) (a p h : pystr) : Prop :=
  exists c, read (man_name k a) t = Some c /\ In (h, p) (manifest_lines r (skip_bom c)).

Definition kind_of (pay : bool) : pystr := if pay then K_man else K_tag.

(** Entries that can be written again, and are where they belong. *)
Definition plain_entry (pay : bool) (h p : pystr) : Prop :=
  manifest_hash h /\ hd 0 h <> BOM /\ manifest_path IoText p /\ is_payload p = pay.
Definition plain_lists (v : env) (t : tree) : Prop :=
  forall pay a p h, In a (e_algos v) -> entry_in IoText (kind_of pay) t a p h -> plain_entry pay h p.

Lemma checksum_entry v loc t info es a p h : plain_lists v t ->
  open_bag v IoText loc t = Ok (info, es) -> is_payload p = true ->
  checksum es a p = Some h <-> In a (e_algos v) /\ entry_in IoText K_man t a p h.
Proof.
  intros P Ho Py. pose proof Ho as Ho'. apply open_bag_ok in Ho. destruct Ho as (c & v97 & v1 & _ & _ & _ & Hl).
  unfold load_manifests in Hl. rewrite load_flat in Hl. apply load_ok in Hl. destruct Hl as (L1 & L2 & _). split.
  - intros C. assert (X : checksum es a p <> None) by congruence.
    assert (Ia : In a (e_algos v)) by (eapply open_algs; eauto). split; auto.
    apply L1 in X. destruct X as [X|[h' I]]; [cbn in X; congruence|].
    assert (h' = h) by (apply L2 in I; destruct I; congruence). subst h'. clear X || idtac.
    apply listing_iff in I. destruct I as (text & line & Im & Il & El).
    assert (J : In (h, p) (manifest_lines IoText (skip_bom text))).
    { unfold manifest_lines. apply in_filter_some. rewrite <- El. apply in_map. auto. }
    apply in_bag_manifests in Im. destruct Im as (_ & [R|[_ R]]); [exists text; auto|]. exfalso.
    assert (Q : entry_in IoText (kind_of false) t a p h) by (exists text; auto).
    apply P in Q; auto. destruct Q as (_ & _ & _ & Q). congruence.
  - intros (Ia & text & R & I). unfold manifest_lines in I. apply (proj1 (in_filter_some _ _)) in I. apply in_map_iff in I.
    destruct I as (line & El & Il).
    assert (J : In (a, (h, p)) (listing IoText (bag_manifests (e_algos v) v97 t))).
    { apply listing_iff. exists text, line. split; auto. apply in_bag_manifests. auto. }
    apply L2 in J. tauto.
Qed.

Lemma checksum_plain v loc t info es a p h : plain_lists v t ->
  open_bag v IoText loc t = Ok (info, es) -> checksum es a p = Some h -> plain_entry (is_payload p) h p.
Proof.
  intros P Ho C. assert (X : checksum es a p <> None) by congruence.
  assert (Ia : In a (e_algos v)) by (eapply open_algs; eauto).
  apply open_bag_ok in Ho. destruct Ho as (c & v97 & v1 & _ & _ & _ & Hl).
  unfold load_manifests in Hl. rewrite load_flat in Hl. apply load_ok in Hl. destruct Hl as (L1 & L2 & _).
  apply L1 in X. destruct X as [X|[h' I]]; [cbn in X; congruence|].
  assert (h' = h) by (apply L2 in I; destruct I; congruence). subst h'.
  apply listing_iff in I. destruct I as (text & line & Im & Il & El).
  assert (J : In (h, p) (manifest_lines IoText (skip_bom text))).
  { unfold manifest_lines. apply in_filter_some. rewrite <- El. apply in_map. auto. }
  apply in_bag_manifests in Im. destruct Im as (_ & [R|[_ R]]).
  - assert (Q : entry_in IoText (kind_of true) t a p h) by (exists text; auto). apply P in Q; auto.
    destruct Q as (A & B & D & E). rewrite E. split; auto.
  - assert (Q : entry_in IoText (kind_of false) t a p h) by (exists text; auto). apply P in Q; auto.
    destruct Q as (A & B & D & E). rewrite E. split; auto.
Qed.

Lemma man_text_lines pay (d : dict pystr) :
  (forall p h, In (p, h) d -> plain_entry (is_payload p) h p) ->
  forall h p, In (h, p) (manifest_lines IoText (skip_bom (man_text pay d))) <-> In (p, h) d /\ is_payload p = pay.
Proof.
  intros P h p. unfold man_text. set (l := filter (fun ph => Bool.eqb (is_payload (fst ph)) pay) d).
  assert (Hl : forall p h, In (p, h) l -> plain_entry (is_payload p) h p).
  { intros p0 h0 I. apply filter_In in I. destruct I. auto. }
  assert (B : skip_bom (flat_map (fun ph => hash_line (snd ph) (fst ph)) l) = flat_map (fun ph => hash_line (snd ph) (fst ph)) l).
  { destruct l as [|[p0 h0] l']; [reflexivity|]. destruct (Hl p0 h0 (or_introl eq_refl)) as ([H1 _ _] & H2 & _).
    cbn [flat_map snd fst]. unfold hash_line. destruct h0 as [|c h0]; [congruence|]. cbn [hd] in H2. cbn [app skip_bom].
    apply N.eqb_neq in H2. rewrite H2. reflexivity. }
  rewrite B.
  assert (E : flat_map (fun ph => hash_line (snd ph) (fst ph)) l
            = flat_map (fun hp => hash_line (fst hp) (snd hp)) (map (fun ph => (snd ph, fst ph)) l)).
  { clear. induction l as [|x l IH]; [reflexivity|]. cbn [flat_map map]. rewrite IH. reflexivity. }
  rewrite E, hash_lines.
  - rewrite in_map_iff. split.
    + intros ([p' h'] & X & I). inversion X; subst. apply filter_In in I. destruct I as [I J]. cbn [fst snd] in *. split; auto.
      apply eqb_prop in J. auto.
    + intros [I J]. exists (p, h). split; auto. apply filter_In. split; auto. cbn [fst]. rewrite J. apply eqb_reflx.
  - apply Forall_forall. intros [h0 p0] I. apply in_map_iff in I. destruct I as ([p' h'] & X & I). inversion X; subst.
    apply Hl in I. destruct I as (A & _ & C & _). auto.
Qed.

(** ** One bag *)

(** The destination's payload manifests have exactly the entries [G]. *)
Record describes (v : env) (D : tree) (G : pystr -> pystr -> option pystr) : Prop := {
  ds_plain : plain_lists v D;
  ds_entry : forall a p h, In a (e_algos v) -> is_payload p = true ->
    (entry_in IoText K_man D a p h <-> G a p = Some h)
}.

Lemma describes_ext v D D' G : (forall q, special v q -> od_get q D' = od_get q D) -> describes v D G -> describes v D' G.
Proof.
  intros E [P Q].
  assert (X : forall k a p h, In k [K_man; K_tag] -> In a (e_algos v) -> entry_in IoText k D' a p h <-> entry_in IoText k D a p h).
  { intros k a p h Ik Ia. unfold entry_in, read. rewrite (E (man_name k a)); [tauto|]. exists k, a. auto. }
  constructor.
  - intros pay a p h Ia H. apply (P pay a p h Ia). apply X; auto. destruct pay; [left|right; left]; reflexivity.
  - intros a p h Ia Py. rewrite <- Q; auto. apply X; auto. left; auto.
Qed.

(** Manifest entries after a bag was copied. *)
Definition fresh (skip : list pystr) (src dest : tree) (p : pystr) : bool :=
  is_file p src && negb (gone skip p) && match od_get p dest with None => true | Some _ => false end.
Definition G_next (skip : list pystr) (src dest : tree) (es : entries) (G : pystr -> pystr -> option pystr) (a p : pystr) : option pystr :=
  if fresh skip src dest p then match checksum es a p with Some h => Some h | None => G a p end else G a p.

Lemma payload_dirname p : is_payload p = true -> dirname p <> [].
Proof.
  unfold is_payload. intros H E. apply startswith_iff in H. destruct H as [t ->].
  unfold dirname in E. destruct (rsplit_slash (U "data/" ++ t)) as [[x y]|] eqn:R.
  - apply rsplit_slash_some in R. subst x. destruct R as [R _]. discriminate.
  - apply rsplit_slash_none in R. apply R. apply in_or_app. left. cbn. tauto.
Qed.

Lemma update_describes v skip src dest t u es dest' info loc G : sane v -> ~ In [] skip -> wf_tree src -> wf_tree dest ->
  plain_lists v src -> open_bag v IoText loc src = Ok (info, es) ->
  copy_items false skip src dest = Ok (t, u) ->
  describes v t G ->
  update_manifests v es u t = Ok dest' ->
  describes v dest' (G_next skip src dest es G).
Proof.
  intros S N0 Ws Wd Ps Ho Hc Dt Hu.
  destruct (copy_nodes _ _ _ _ _ N0 Ws Wd Hc) as [Wt _].
  pose proof (copy_updated _ _ _ _ _ N0 Ws Wd Hc) as Up.
  assert (In1 : inner_nodup es). { apply open_bag_ok in Ho. destruct Ho as (? & ? & ? & _ & _ & _ & Ho). eapply load_inner; eauto. }
  assert (Al : forall a p, checksum es a p <> None -> In a (e_algos v)) by (intros; eapply open_algs; eauto).
  destruct (update_manifests_ok v es u t dest' S Wt In1 Al Hu) as (W' & F & info' & des & m & Hd & T & Km & Lk & Ks & Fk & Fm).
  destruct Dt as [Pt Qt].
  assert (Upd : forall p, is_payload p = true -> str_in p u = fresh skip src dest p).
  { intros p Py. unfold fresh. apply eq_true_iff_eq. rewrite str_in_iff, Up, !andb_true_iff, negb_true_iff. split.
    - intros (q & Q1 & Q2 & Q3 & Q4). assert (Gq : good_path q) by (eapply (file_good _ src); eauto).
      assert (q = p).
      { destruct (dirname q) as [|c dq] eqn:Dq.
        - exfalso. rewrite Q4 in Py. unfold sjoin in Py. cbn in Py. discriminate.
        - rewrite Q4, sjoin_pjoin by discriminate. rewrite <- Dq. symmetry. apply pjoin_dirname_basename. auto. }
      subst q. rewrite Q3. auto.
    - intros ((Q1 & Q2) & Q3). exists p. assert (Gp : good_path p) by (eapply (file_good _ src); eauto).
      repeat split; auto; [destruct (od_get p dest); [discriminate|auto]|].
      rewrite sjoin_pjoin by (apply payload_dirname; auto). symmetry. apply pjoin_dirname_basename. auto. }
  assert (Ent : forall a d p h, od_get a m = Some d -> In (p, h) d -> lk m a p = Some h).
  { intros a d p h Ed I. unfold lk, by_alg in *. rewrite Ed. apply od_in_get; auto. apply (proj2 T a d Ed). }
  assert (Pm : forall a d p h, od_get a m = Some d -> In (p, h) d -> plain_entry (is_payload p) h p).
  { intros a d p h Ed I. pose proof (Ent a d p h Ed I) as E. rewrite Lk in E.
    destruct (str_in a (od_keys m)); [|discriminate].
    assert (Y : checksum des a p = Some h \/ checksum es a p = Some h).
    { destruct (str_in p u); auto. destruct (checksum es a p); auto. }
    destruct Y as [Y|Y]; [eapply (checksum_plain v (e_dest v) t); eauto|eapply (checksum_plain v loc src); eauto]. }
  assert (Ka : forall a, In a (od_keys m) -> In a (e_algos v)).
  { intros a Ia. apply Km in Ia. destruct Ia as (p & _ & C). eauto. }
  (* the manifests of one algorithm *)
  assert (New : forall pay a d p h, od_get a m = Some d -> is_payload p = pay ->
     entry_in IoText (kind_of pay) dest' a p h -> In (p, h) d \/ entry_in IoText (kind_of pay) t a p h).
  { intros pay a d p h Ed Py (c & R & I). pose proof (Fm a d Ed pay) as X. cbv zeta in X.
    destruct (filter (fun ph => Bool.eqb (is_payload (fst ph)) pay) d) eqn:Fl.
    - right. exists c. split; auto. unfold read in *. unfold kind_of in *. rewrite X in R. exact R.
    - left. apply read_get in R. unfold kind_of in R. rewrite X in R. inversion R; subst c.
      apply man_text_lines in I; [tauto|]. intros; eapply Pm; eauto. }
  constructor.
  - intros pay a p h Ia E. destruct (str_in a (od_keys m)) eqn:K.
    + apply str_in_iff in K. apply od_key_some in K. destruct K as [d Ed].
      destruct E as (c & R & I). pose proof (Fm a d Ed pay) as X. cbv zeta in X.
      destruct (filter (fun ph => Bool.eqb (is_payload (fst ph)) pay) d) eqn:Fl.
      * apply (Pt pay a p h Ia). exists c. split; auto. unfold read in *. unfold kind_of in *. rewrite X in R. exact R.
      * apply read_get in R. unfold kind_of in R. rewrite X in R. inversion R; subst c.
        apply man_text_lines in I; [|intros; eapply Pm; eauto]. destruct I as [I Py]. rewrite <- Py. eapply Pm; eauto.
    + apply str_in_false in K. apply (Pt pay a p h Ia). destruct E as (c & R & I). exists c. split; auto.
      unfold read in *. rewrite (Fk (kind_of pay) a) in R; auto. destruct pay; [left|right; left]; reflexivity.
  - intros a p h Ia Py. unfold G_next. rewrite <- (Upd p Py).
    assert (Cd : forall h, checksum des a p = Some h <-> G a p = Some h).
    { intros h0. rewrite (checksum_entry v (e_dest v) t info' des a p h0 Pt Hd Py). rewrite Qt by auto. tauto. }
    assert (Cd' : checksum des a p = G a p).
    { destruct (G a p) as [y|]; [apply Cd; auto|]. destruct (checksum des a p) as [x|]; auto.
      symmetry. apply Cd. auto. }
    destruct (str_in a (od_keys m)) eqn:K.
    + assert (Lp : lk m a p = if str_in p u then match checksum es a p with Some h => Some h | None => G a p end else G a p).
      { rewrite Lk, K, Cd'. reflexivity. }
      rewrite <- Lp. pose proof K as K'. apply str_in_iff in K'. apply od_key_some in K'. destruct K' as [d Ed].
      pose proof (Fm a d Ed true) as X. cbv zeta in X.
      destruct (filter (fun ph => Bool.eqb (is_payload (fst ph)) true) d) eqn:Fl.
      * assert (Z : lk m a p = None).
        { destruct (lk m a p) as [x|] eqn:E; auto. exfalso. unfold lk, by_alg in *. rewrite Ed in E.
          assert (I : In (p, x) d).
          { clear - E. induction d as [|[k y] d IH]; [discriminate|]. cbn [od_get] in E.
            destruct (streq_reflect p k) as [->|]; [inversion E; left; auto|right; auto]. }
          assert (I2 : In (p, x) []) by (rewrite <- Fl; apply filter_In; split; auto; cbn [fst]; rewrite Py; reflexivity).
          destruct I2. }
        rewrite Z. assert (Gn : G a p = None).
        { rewrite Z in Lp. destruct (str_in p u); [destruct (checksum es a p); [discriminate|]|]; auto. }
        split; [|discriminate]. intros (c & R & I). exfalso.
        assert (Q : entry_in IoText K_man t a p h) by (exists c; split; auto; unfold read in *; rewrite X in R; exact R).
        apply Qt in Q; auto. congruence.
      * split.
        -- intros (c & R & I). apply read_get in R. rewrite X in R. inversion R; subst c.
           apply man_text_lines in I; [|intros; eapply Pm; eauto]. eapply Ent; eauto. tauto.
        -- intros E. exists (man_text true d). split; [apply read_get; exact X|].
           apply man_text_lines; [intros; eapply Pm; eauto|]. split; auto.
           unfold lk, by_alg in E. rewrite Ed in E. clear - E. induction d as [|[k y] d IH]; [discriminate|]. cbn [od_get] in E.
           destruct (streq_reflect p k) as [->|]; [inversion E; left; auto|right; auto].
    + apply str_in_false in K.
      assert (En : entry_in IoText K_man dest' a p h <-> entry_in IoText K_man t a p h).
      { unfold entry_in, read. rewrite (Fk K_man a); auto; [tauto|left; auto]. }
      rewrite En, Qt by auto. destruct (str_in p u) eqn:Pu; [|tauto].
      assert (C : checksum es a p = None).
      { destruct (checksum es a p) eqn:E; auto. exfalso. apply K. apply Km. exists p. split; [apply str_in_iff; auto|congruence]. }
      rewrite C. tauto.
Qed.

(** ** Copying manifests *)

Definition G_copy (skip : list pystr) (src dest : tree) (es : entries) (G : pystr -> pystr -> option pystr) (a p : pystr) : option pystr :=
  if fresh skip src dest (man_name K_man a) then checksum es a p else G a p.

Lemma copy_describes v skip src dest t u es info loc G : ~ In [] skip -> wf_tree src -> wf_tree dest ->
  plain_lists v src -> open_bag v IoText loc src = Ok (info, es) ->
  copy_items false skip src dest = Ok (t, u) ->
  describes v dest G -> describes v t (G_copy skip src dest es G).
Proof.
  intros N0 Ws Wd Ps Ho Hc [Pd Qd]. destruct (copy_nodes _ _ _ _ _ N0 Ws Wd Hc) as [_ Q].
  assert (R : forall k a p h, entry_in IoText k t a p h <->
     if fresh skip src dest (man_name k a) then entry_in IoText k src a p h else entry_in IoText k dest a p h).
  { intros k a p h. unfold entry_in, fresh, is_file, read. rewrite (Q (man_name k a)).
    destruct (od_get (man_name k a) dest) as [n|]; [rewrite andb_false_r; tauto|]. rewrite andb_true_r.
    destruct (gone skip (man_name k a)); cbn [negb]; [rewrite andb_false_r; tauto|]. rewrite andb_true_r.
    destruct (od_get (man_name k a) src) as [[|c]|]; tauto. }
  constructor.
  - intros pay a p h Ia E. apply R in E. destruct (fresh skip src dest (man_name (kind_of pay) a)); [exact (Ps pay a p h Ia E)|exact (Pd pay a p h Ia E)].
  - intros a p h Ia Py. rewrite R. unfold G_copy. destruct (fresh skip src dest (man_name K_man a)); [|apply Qd; auto].
    rewrite (checksum_entry v loc src info es a p h Ps Ho Py). tauto.
Qed.

(** ** All bags *)

(** The manifest entries of the destination after copying [src]. *)
Definition G_step (skip : list pystr) (src dest : tree) (es : entries) (G : pystr -> pystr -> option pystr) (a p : pystr) : option pystr :=
  if fresh skip src dest (man_name K_man a) then checksum es a p
  else if fresh skip src dest p then match checksum es a p with Some h => Some h | None => G a p end else G a p.

Lemma describes_eq v D G G' : (forall a p, In a (e_algos v) -> is_payload p = true -> G a p = G' a p) -> describes v D G -> describes v D G'.
Proof. intros E [P Q]. constructor; auto. intros a p h Ia Py. rewrite <- E by auto. auto. Qed.

Lemma restore_from_describes v skip b dest dest' G : sane v -> ~ In [] skip -> wf_tree (rb_tree b) -> wf_tree dest ->
  rb_loc b <> e_dest v -> plain_lists v (rb_tree b) ->
  restore_from v false skip b dest = Ok dest' ->
  describes v dest G ->
  exists info es, open_bag v IoText (rb_loc b) (rb_tree b) = Ok (info, es) /\
    describes v dest' (G_step skip (rb_tree b) dest es G).
Proof.
  intros S N0 Wb Wd Lo Pb H Dd. unfold restore_from in H. destruct (streq_reflect (rb_loc b) (e_dest v)); [congruence|].
  apply bind_ok in H. destruct H as ([info es] & Ho & H). apply bind_ok in H. destruct H as ([t u] & Hc & H).
  exists info, es. split; auto.
  pose proof (copy_describes v skip _ _ _ _ _ _ _ _ N0 Wb Wd Pb Ho Hc Dd) as Dt.
  destruct u as [|x u].
  - inversion H; subst. eapply describes_eq; [|exact Dt]. intros a p Ia Py. unfold G_copy, G_step.
    pose proof (copy_updated _ _ _ _ _ N0 Wb Wd Hc) as Up.
    assert (N1 : forall q, fresh skip (rb_tree b) dest q = false).
    { intros q. destruct (fresh skip (rb_tree b) dest q) eqn:E; auto. exfalso. unfold fresh in E.
      apply andb_true_iff in E. destruct E as [E E3]. apply andb_true_iff in E. destruct E as [E1 E2]. apply negb_true_iff in E2.
      apply (proj2 (Up (sjoin (dirname q) (basename q)))). exists q. repeat split; auto. destruct (od_get q dest); [discriminate|auto]. }
    rewrite !N1. reflexivity.
  - eapply describes_eq; [|eapply (update_describes v skip (rb_tree b) dest t (x :: u)); eauto].
    intros a p Ia Py. unfold G_next, G_copy, G_step. destruct (fresh skip (rb_tree b) dest (man_name K_man a)); auto.
    destruct (fresh skip (rb_tree b) dest p); auto. destruct (checksum es a p); auto.
Qed.

Lemma man_special v k a : In k [K_man; K_tag] -> In a (e_algos v) -> special v (man_name k a).
Proof. intros. exists k, a. auto. Qed.

Lemma payload_not_special v p : is_payload p = true -> ~ special v p.
Proof.
  intros H (k & a & Ik & _ & ->). unfold is_payload in H. destruct Ik as [<-|[<-|[]]]; discriminate.
Qed.

(** Manifests are not removed. *)
Lemma restore_from_manifests v skip b dest dest' a : sane v -> ~ In [] skip -> wf_tree (rb_tree b) -> wf_tree dest ->
  rb_loc b <> e_dest v -> In a (e_algos v) ->
  restore_from v false skip b dest = Ok dest' ->
  (od_get (man_name K_man a) dest <> None \/ (gone skip (man_name K_man a) = false /\ od_get (man_name K_man a) (rb_tree b) <> None)) ->
  od_get (man_name K_man a) dest' <> None.
Proof.
  intros S N0 Wb Wd Lo Ia H Hex. unfold restore_from in H. destruct (streq_reflect (rb_loc b) (e_dest v)); [congruence|].
  apply bind_ok in H. destruct H as ([info es] & Ho & H). apply bind_ok in H. destruct H as ([t u] & Hc & H).
  destruct (copy_nodes _ _ _ _ _ N0 Wb Wd Hc) as [Wt Q].
  assert (X : od_get (man_name K_man a) t <> None).
  { rewrite Q. destruct (od_get (man_name K_man a) dest); [discriminate|]. destruct Hex as [?|[-> ?]]; [congruence|auto]. }
  destruct u as [|x u]; [inversion H; subst; auto|].
  assert (Al : forall a p, checksum es a p <> None -> In a (e_algos v)) by (intros; eapply open_algs; eauto).
  assert (I : inner_nodup es). { apply open_bag_ok in Ho. destruct Ho as (? & ? & ? & _ & _ & _ & Ho). eapply load_inner; eauto. }
  destruct (update_manifests_ok v es _ _ _ S Wt I Al H) as (_ & _ & info' & des & m & _ & _ & _ & _ & _ & Fk & Fm).
  destruct (str_in a (od_keys m)) eqn:K.
  - apply str_in_iff in K. apply od_key_some in K. destruct K as [d Ed]. pose proof (Fm a d Ed true) as Y. cbv zeta in Y.
    rewrite Y. destruct (filter _ d); [auto|discriminate].
  - apply str_in_false in K. rewrite (Fk K_man a); auto. left; auto.
Qed.

(** The bags after the head bag, when the destination already has all their
    payload manifests. *)
Lemma members_describe v skip bs : forall dest dest' G, sane v -> ~ In [] skip ->
  Forall (fun b => wf_tree (rb_tree b) /\ rb_loc b <> e_dest v /\ plain_lists v (rb_tree b)) bs -> wf_tree dest ->
  (forall b a, In b bs -> In a (e_algos v) -> is_file (man_name K_man a) (rb_tree b) = true -> od_get (man_name K_man a) dest <> None) ->
  foldM (fun d b => restore_from v false skip b d) bs dest = Ok dest' ->
  describes v dest G ->
  exists G', describes v dest' G' /\
  forall p, is_payload p = true ->
    ((od_get p dest <> None \/ gone skip p = true \/ Forall (fun b => is_file p (rb_tree b) = false) bs) ->
     forall a, In a (e_algos v) -> G' a p = G a p) /\
    (forall before b after, bs = before ++ b :: after -> Forall (fun b => od_get p (rb_tree b) = None) before ->
     is_file p (rb_tree b) = true -> od_get p dest = None -> gone skip p = false ->
     forall a, In a (e_algos v) ->
     (forall h, entry_in IoText K_man (rb_tree b) a p h -> G' a p = Some h) /\
     ((forall h, ~ entry_in IoText K_man (rb_tree b) a p h) -> G' a p = G a p)).
Proof.
  induction bs as [|b bs IH]; intros dest dest' G S N0 Fb Wd Cv H Dd; cbn [foldM] in H.
  - inversion H; subst. exists G. split; auto. intros p Py. split; auto. intros [|x before] b after E; discriminate.
  - apply bind_ok in H. destruct H as (t & H1 & H2). inversion Fb as [|? ? (Wb & Lb & Pb) Fbs]; subst.
    destruct (restore_from_describes v skip b dest t G S N0 Wb Wd Lb Pb H1 Dd) as (info & es & Ho & Dt).
    destruct (restore_from_nodes v skip b dest t S N0 Wb Wd H1) as [Wt Q].
    assert (Cf : contrib v b = rb_tree b) by (unfold contrib; destruct (streq_reflect (rb_loc b) (e_dest v)); [congruence|auto]).
    rewrite Cf in Q.
    destruct (IH t dest' (G_step skip (rb_tree b) dest es G) S N0 Fbs Wt) as (G' & D' & R); auto.
    { intros b' a Ib Ia Fm. eapply (restore_from_manifests v skip b dest t a); eauto. left. eapply Cv; eauto. right; auto. }
    exists G'. split; auto. intros p Py. specialize (R p Py). destruct R as [R1 R2].
    assert (Fr : forall a, In a (e_algos v) -> fresh skip (rb_tree b) dest (man_name K_man a) = false).
    { intros a Ia. unfold fresh. destruct (is_file (man_name K_man a) (rb_tree b)) eqn:E; auto.
      destruct (od_get (man_name K_man a) dest) eqn:X; [apply andb_false_r|]. exfalso. eapply Cv; eauto. left; auto. }
    assert (Sp : ~ special v p) by (apply payload_not_special; auto).
    split.
    + intros Hp a Ia. rewrite R1; auto.
      * unfold G_step. rewrite (Fr a Ia). assert (X : fresh skip (rb_tree b) dest p = false); [|rewrite X; auto].
        unfold fresh. destruct Hp as [Hp|[Hp|Hp]].
        -- destruct (od_get p dest); [apply andb_false_r|congruence].
        -- rewrite Hp. cbn [negb]. rewrite andb_false_r. reflexivity.
        -- inversion Hp as [|? ? X Y]; subst. rewrite X. reflexivity.
      * destruct Hp as [Hp|[Hp|Hp]]; auto.
        -- left. rewrite (Q p Sp). destruct (od_get p dest); [discriminate|congruence].
        -- right; right. inversion Hp; auto.
    + intros before b0 after E Fbf Fp Np Gp a Ia. destruct before as [|b1 before]; cbn [app] in E; inversion E; subst.
      * assert (X : fresh skip (rb_tree b0) dest p = true) by (unfold fresh; rewrite Fp, Gp, Np; reflexivity).
        assert (Y : G' a p = match checksum es a p with Some h => Some h | None => G a p end).
        { rewrite R1; auto; [unfold G_step; rewrite (Fr a Ia), X; auto|]. left. rewrite (Q p Sp), Np, Gp.
          unfold is_file in Fp. destruct (od_get p (rb_tree b0)); [discriminate|discriminate Fp]. }
        rewrite Y. split.
        -- intros h L. assert (C : checksum es a p = Some h) by (apply (checksum_entry v (rb_loc b0) (rb_tree b0) info es); auto).
           rewrite C. reflexivity.
        -- intros L. destruct (checksum es a p) eqn:C; auto. exfalso.
           apply (checksum_entry v (rb_loc b0) (rb_tree b0) info es) in C; auto. destruct C as [_ C]. eapply L; eauto.
      * inversion Fbf as [|? ? X Y]; subst.
        assert (Nt : od_get p t = None) by (rewrite (Q p Sp), Np, Gp; auto).
        destruct (R2 before b0 after eq_refl Y Fp Nt Gp a Ia) as [R3 R4]. split; auto.
        intros L. rewrite R4; auto. unfold G_step. rewrite (Fr a Ia). unfold fresh, is_file. rewrite X. reflexivity.
Qed.

(** The head bag, copied into a directory without manifests. *)
Lemma head_describes v skip b dest dest' : sane v -> ~ In [] skip -> wf_tree (rb_tree b) -> wf_tree dest ->
  rb_loc b <> e_dest v -> plain_lists v (rb_tree b) ->
  (forall q, special v q -> od_get q dest = None) ->
  (forall a, In a (e_algos v) -> gone skip (man_name K_man a) = false) ->
  restore_from v false skip b dest = Ok dest' ->
  exists G, describes v dest' G /\
  forall a p h, In a (e_algos v) -> is_payload p = true -> (G a p = Some h <-> entry_in IoText K_man (rb_tree b) a p h).
Proof.
  intros S N0 Wb Wd Lb Pb Nd Ng H.
  assert (D0 : describes v dest (fun _ _ => None)).
  { assert (X : forall k a p h, In k [K_man; K_tag] -> In a (e_algos v) -> ~ entry_in IoText k dest a p h).
    { intros k a p h Ik Ia (c & R & _). unfold read in R. rewrite (Nd (man_name k a)) in R; [discriminate|]. apply man_special; auto. }
    constructor.
    - intros pay a p h Ia E. exfalso. eapply X; [|exact Ia|exact E]. destruct pay; [left|right; left]; auto.
    - intros a p h Ia Py. split; [|discriminate]. intros E. exfalso. eapply X; [|exact Ia|exact E]. left; auto. }
  destruct (restore_from_describes v skip b dest dest' _ S N0 Wb Wd Lb Pb H D0) as (info & es & Ho & D').
  eexists. split; [exact D'|]. intros a p h Ia Py.
  assert (C : checksum es a p = Some h <-> entry_in IoText K_man (rb_tree b) a p h).
  { rewrite (checksum_entry v (rb_loc b) (rb_tree b) info es a p h Pb Ho Py). tauto. }
  unfold G_step. unfold fresh at 1. rewrite (Ng a Ia), (Nd (man_name K_man a)) by (apply man_special; auto; left; auto).
  cbn [negb]. rewrite !andb_true_r. destruct (is_file (man_name K_man a) (rb_tree b)) eqn:E; auto.
  assert (L : ~ entry_in IoText K_man (rb_tree b) a p h).
  { intros (c & R & _). apply read_get in R. unfold is_file in E. rewrite R in E. discriminate. }
  rewrite <- C in L. destruct (fresh skip (rb_tree b) dest p); [|split; [discriminate|rewrite <- C; tauto]].
  rewrite <- C. destruct (checksum es a p) eqn:Q; split; auto; discriminate.
Qed.

(** ** The restored bag *)

Lemma man_not_multibag a : in_multibag (man_name K_man a) = false.
Proof. reflexivity. Qed.

Lemma entry_ext r k t t' a p h : od_get (man_name k a) t = od_get (man_name k a) t' ->
  entry_in r k t a p h <-> entry_in r k t' a p h.
Proof. intros E. unfold entry_in, read. rewrite E. tauto. Qed.

Lemma restore_entries v us rt bsize ro h loc skip ms bs dest' : sane v -> ~ In [] skip ->
  head_lists ro h = Ok (skip, ms) -> Forall2 (fun n b => e_find v n = Some b) (others h ms) bs ->
  Forall (fun b => wf_tree (rb_tree b) /\ rb_loc b <> e_dest v /\ plain_lists v (rb_tree b)) (head_bag h loc :: bs) ->
  (forall a, In a (e_algos v) -> gone skip (man_name K_man a) = false) ->
  (forall b a, In b bs -> In a (e_algos v) -> is_file (man_name K_man a) (rb_tree b) = true ->
     is_file (man_name K_man a) (hb_tree h) = true) ->
  restore v us rt bsize ro h loc [] = Ok dest' ->
  exists G G', (forall a p h0, In a (e_algos v) -> is_payload p = true -> (G a p = Some h0 <-> entry_in IoText K_man (hb_tree h) a p h0)) /\
    (forall a p h0, In a (e_algos v) -> is_payload p = true -> (entry_in IoText K_man dest' a p h0 <-> G' a p = Some h0)) /\
  forall p, is_payload p = true ->
    ((od_get p (hb_tree h) <> None \/ gone skip p = true \/ Forall (fun b => is_file p (rb_tree b) = false) bs) ->
     forall a, In a (e_algos v) -> G' a p = G a p) /\
    (forall before b after, bs = before ++ b :: after -> Forall (fun b => od_get p (rb_tree b) = None) before ->
     is_file p (rb_tree b) = true -> od_get p (hb_tree h) = None -> gone skip p = false ->
     forall a, In a (e_algos v) ->
     (forall h, entry_in IoText K_man (rb_tree b) a p h -> G' a p = Some h) /\
     ((forall h, ~ entry_in IoText K_man (rb_tree b) a p h) -> G' a p = G a p)).
Proof.
  intros S N0 Hl F2 Fb Ng Cv H. apply restore_parts in H. destruct H as (skip' & ms' & t & t1 & Hl' & Hg & Hf & Hn).
  rewrite Hl in Hl'. inversion Hl'; subst skip' ms'. clear Hl'.
  unfold gather in Hg. rewrite Hl in Hg. cbn [bind] in Hg. apply bind_ok in Hg. destruct Hg as (d0 & H0 & Hg).
  apply bind_ok in Hg. destruct Hg as (d1 & H1 & Hg). rewrite (members_bags v skip _ _ _ F2) in Hg.
  inversion Fb as [|? ? (Wh & Lh & Ph) Fbs]; subst.
  destruct (start_info_nodes _ _ _ wf_nil H0) as [W0 Q0].
  assert (Nd : forall q, special v q -> od_get q d0 = None).
  { intros q (k & a & Ik & Ia & ->). rewrite Q0; [reflexivity|]. destruct Ik as [<-|[<-|[]]]; discriminate. }
  destruct (head_describes v skip (head_bag h loc) d0 d1 S N0 Wh W0 Lh Ph Nd Ng H1) as (G & D1 & EG).
  destruct (restore_from_nodes v skip (head_bag h loc) d0 d1 S N0 Wh W0 H1) as [W1 Q1].
  destruct (members_describe v skip bs d1 t G S N0 Fbs W1) as (G' & Dt & R); auto.
  { intros b a Ib Ia Fm. eapply (restore_from_manifests v skip (head_bag h loc) d0 d1 a); eauto. right. split; [auto|].
    pose proof (Cv b a Ib Ia Fm) as X. cbn [head_bag rb_tree]. unfold is_file in X. destruct (od_get (man_name K_man a) (hb_tree h)); [discriminate|discriminate X]. }
  assert (Wt : wf_tree t).
  { destruct (restore_bags_nodes v skip bs d1 t S N0) as [Wt _]; auto.
    eapply Forall_impl; [|exact Fbs]. intros b (? & _); auto. }
  destruct (fetch_step_nodes _ _ _ _ Wt Hf) as [W2 Q2].
  destruct (finish_nodes v us rt bsize t1 dest' S W2 Hn) as (W' & _ & Qf).
  exists G, G'. split; [exact EG|]. split.
  - intros a p h0 Ia Py. destruct Dt as [_ Dt]. rewrite <- (Dt a p h0 Ia Py). apply entry_ext.
    rewrite Qf by (right; left; eauto). rewrite man_not_multibag, andb_false_r. apply Q2. discriminate.
  - intros p Py. destruct (R p Py) as [R1 R2].
    assert (Sp : ~ special v p) by (apply payload_not_special; auto).
    assert (Bp : p <> F_baginfo) by (intros ->; discriminate).
    assert (Cf : contrib v (head_bag h loc) = hb_tree h).
    { unfold contrib. destruct (streq_reflect (rb_loc (head_bag h loc)) (e_dest v)); [congruence|auto]. }
    rewrite Cf in Q1.
    assert (E1 : od_get p d1 = if gone skip p then None else od_get p (hb_tree h)).
    { rewrite (Q1 p Sp), (Q0 p Bp). reflexivity. }
    split.
    + intros Hp a Ia. apply R1; auto. rewrite E1. destruct (gone skip p); [auto|]. destruct Hp as [Hp|[Hp|Hp]]; auto.
    + intros before b after E Fbf Fp Np Gp. apply (R2 before b after E Fbf Fp); auto. rewrite E1, Gp. auto.
Qed.

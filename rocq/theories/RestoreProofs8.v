(** * Lemmas on restoring: when updating the manifests succeeds *)

Require Import String NArith PeanoNat Bool List Lia Permutation.
From Verif Require Import PyBase PyFacts Tsv TsvProofs Fs FsFacts HeadBag BagIt BagItProofs Split SplitProofs2 SplitApply SplitApplyProofs SplitApplyProofs2 SplitApplyProofs8 Restore RestoreProofs RestoreProofs2 RestoreProofs3 RestoreProofs4 RestoreProofs7.
Import ListNotations.
Open Scope N_scope.

Lemma nodup_app {A} (l1 l2 : list A) : NoDup l1 -> NoDup l2 -> (forall x, In x l1 -> ~ In x l2) -> NoDup (l1 ++ l2).
Proof.
  induction 1 as [|x l NI ND IH]; intros N2 D; [exact N2|]. cbn [app]. constructor.
  - rewrite in_app_iff. intros [I|I]; [auto|]. apply (D x); [left; auto|auto].
  - apply IH; auto. intros y I. apply D. right; auto.
Qed.

(** ** Manifests that can be loaded *)

(** The text of a manifest: both readers see the same entries, each path
    once, and every entry can be written again. *)
Record good_man (pay : bool) (c : pystr) : Prop := {
  gm_same : manifest_lines Codecs (skip_bom c) = manifest_lines IoText (skip_bom c);
  gm_plain : forall h p, In (h, p) (manifest_lines IoText (skip_bom c)) -> plain_entry pay h p /\ manifest_path Codecs p;
  gm_once : NoDup (map snd (manifest_lines IoText (skip_bom c)))
}.

Lemma gm_lines pay c r : good_man pay c -> manifest_lines r (skip_bom c) = manifest_lines IoText (skip_bom c).
Proof. intros G. destruct r; [reflexivity|]. apply (gm_same _ _ G). Qed.

Definition good_mans (v : env) (loc : pystr) (t : tree) : Prop :=
  forall pay a c, In a (e_algos v) -> read (man_name (kind_of pay) a) t = Some c ->
    good_man pay c /\ forall h p, In (h, p) (manifest_lines IoText (skip_bom c)) -> e_danger v loc p = false.

(** The bag has checksums for exactly the algorithms [A]. *)
Record uses (v : env) (A : list pystr) (t : tree) : Prop := {
  us_all : forall pay a, In a (e_algos v) -> is_file (man_name (kind_of pay) a) t = true ->
    In a A /\ forall a', In a' A -> is_file (man_name (kind_of pay) a') t = true;
  us_sums : forall pay a a' p h, In a A -> In a' A -> entry_in IoText (kind_of pay) t a p h ->
    exists h', entry_in IoText (kind_of pay) t a' p h'
}.

Lemma kind_in pay : In (kind_of pay) [K_man; K_tag].
Proof. destruct pay; [left|right; left]; reflexivity. Qed.

Lemma kind_not pay : kind_of (negb pay) <> kind_of pay.
Proof. destruct pay; discriminate. Qed.

Lemma good_plain v loc t : good_mans v loc t -> plain_lists v t.
Proof. intros G pay a p h Ia (c & R & I). destruct (G pay a c Ia R) as [M _]. apply (gm_plain _ _ M). exact I. Qed.

Definition of_kind (k : pystr) (algos : list pystr) (t : tree) : list (pystr * pystr) :=
  filter_some (map (fun a => match read (man_name k a) t with Some c => Some (a, c) | None => None end) algos).

Definition lkey (x : pystr * (pystr * pystr)) : pystr * pystr := (fst x, snd (snd x)).

Lemma of_kind_in k algos t a c : In (a, c) (of_kind k algos t) <-> In a algos /\ read (man_name k a) t = Some c.
Proof.
  unfold of_kind. rewrite in_filter_some, in_map_iff. split.
  - intros (x & E & I). destruct (read (man_name k x) t) eqn:R; inversion E; subst. auto.
  - intros (I & R). exists a. rewrite R. auto.
Qed.

Lemma in_listing r ms a h p : In (a, (h, p)) (listing r ms) <->
  exists c, In (a, c) ms /\ In (h, p) (manifest_lines r (skip_bom c)).
Proof.
  unfold listing. rewrite in_flat_map. split.
  - intros ([a' c] & I & J). cbn [fst snd] in J. apply in_map_iff in J. destruct J as (x & E & J). inversion E; subst. eauto.
  - intros (c & I & J). exists (a, c). split; auto. cbn [fst snd]. apply in_map_iff. eauto.
Qed.

Lemma kind_nodup r k algos t : NoDup algos ->
  (forall a c, In a algos -> read (man_name k a) t = Some c -> NoDup (map snd (manifest_lines r (skip_bom c)))) ->
  NoDup (map lkey (listing r (of_kind k algos t))).
Proof.
  induction 1 as [|a algos NI ND IH]; intros H; [constructor|].
  unfold of_kind. cbn [map]. destruct (read (man_name k a) t) as [c|] eqn:R; cbn [filter_some].
  - unfold listing. cbn [flat_map]. rewrite map_app. change (flat_map _ (filter_some _)) with (listing r (of_kind k algos t)).
    apply nodup_app.
    + rewrite map_map. cbn [fst snd]. pose proof (H a c (or_introl eq_refl) R) as Hn.
      assert (E : map (fun x : pystr * pystr => lkey (a, x)) (manifest_lines r (skip_bom c)) = map (pair a) (map snd (manifest_lines r (skip_bom c)))).
      { rewrite map_map. reflexivity. }
      rewrite E. apply NoDup_map_inj; [|exact Hn]. intros x y _ _ X. congruence.
    + apply IH. intros a' c' Ia. apply H. right; auto.
    + intros x I J. apply in_map_iff in I. destruct I as ([a1 [h1 p1]] & E1 & I1). apply in_map_iff in I1. destruct I1 as (y & E2 & _).
      inversion E2; subst a1. apply in_map_iff in J. destruct J as ([a2 [h2 p2]] & E3 & J). apply in_listing in J.
      destruct J as (c2 & J & _). apply of_kind_in in J. destruct J as [J _]. unfold lkey in *. cbn [fst snd] in *. subst x.
      inversion E3; subst. contradiction.
  - apply IH. intros a' c' Ia. apply H. right; auto.
Qed.

Lemma nodup_key l a q h h' : NoDup (map lkey l) -> In (a, (h, q)) l -> In (a, (h', q)) l -> h = h'.
Proof.
  induction l as [|x l IH]; intros ND I J; [destruct I|]. cbn [map] in ND. inversion ND as [|? ? NI ND']; subst.
  destruct I as [->|I]; destruct J as [J|J]; auto.
  - congruence.
  - exfalso. apply NI. apply in_map_iff. exists (a, (h', q)). auto.
  - subst x. exfalso. apply NI. apply in_map_iff. exists (a, (h, q)). auto.
Qed.

(** Loading the manifests of a bag. *)
Lemma load_good v loc t r v97 v1 : NoDup (e_algos v) -> good_mans v loc t ->
  exists es, load_manifests (e_danger v loc) v1 r (bag_manifests (e_algos v) v97 t) = Ok es /\
    (forall a p h, checksum es a p = Some h <->
       In a (e_algos v) /\ (entry_in IoText K_man t a p h \/ (v97 = true /\ entry_in IoText K_tag t a p h))) /\
    (forall p hs, In (p, hs) es -> exists a, checksum es a p <> None).
Proof.
  intros ND G. unfold load_manifests. rewrite load_flat.
  set (ms := bag_manifests (e_algos v) v97 t).
  assert (Li : forall a h p, In (a, (h, p)) (listing r ms) <->
            In a (e_algos v) /\ (entry_in IoText K_man t a p h \/ (v97 = true /\ entry_in IoText K_tag t a p h))).
  { intros a h p. rewrite in_listing. split.
    - intros (c & I & J). apply in_bag_manifests in I. destruct I as (Ia & [R|[E R]]); split; auto.
      + left. exists c. split; auto. rewrite <- (gm_lines true c r); auto. apply (G true a c Ia R).
      + right. split; auto. exists c. split; auto. rewrite <- (gm_lines false c r); auto. apply (G false a c Ia R).
    - intros (Ia & [(c & R & J)|(E & c & R & J)]); exists c.
      + split; [apply in_bag_manifests; auto|]. rewrite (gm_lines true c r); auto. apply (G true a c Ia R).
      + split; [apply in_bag_manifests; auto|]. rewrite (gm_lines false c r); auto. apply (G false a c Ia R). }
  assert (Nk : NoDup (map lkey (listing r ms))).
  { unfold ms, bag_manifests. fold (of_kind K_man (e_algos v) t). fold (of_kind K_tag (e_algos v) t).
    unfold listing. rewrite flat_map_app, map_app. fold (listing r (of_kind K_man (e_algos v) t)).
    assert (K : forall pay, NoDup (map lkey (listing r (of_kind (kind_of pay) (e_algos v) t)))).
    { intros pay. apply kind_nodup; auto. intros a c Ia R. destruct (G pay a c Ia R) as [M _]. rewrite (gm_lines _ _ r M). apply (gm_once _ _ M). }
    apply nodup_app; [apply (K true)| |].
    - destruct v97; [apply (K false)|constructor].
    - intros [a p] I J. destruct v97; [|destruct J]. fold (listing r (of_kind K_tag (e_algos v) t)) in J.
      apply in_map_iff in I. destruct I as ([a1 [h1 p1]] & E1 & I). apply in_map_iff in J. destruct J as ([a2 [h2 p2]] & E2 & J).
      unfold lkey in *. cbn [fst snd] in *. inversion E1; subst a1 p1. inversion E2; subst a2 p2.
      apply in_listing in I. destruct I as (c1 & I & I'). apply of_kind_in in I. destruct I as [Ia R1].
      apply in_listing in J. destruct J as (c2 & J & J'). apply of_kind_in in J. destruct J as [_ R2].
      destruct (G true a c1 Ia R1) as [M1 _]. destruct (G false a c2 Ia R2) as [M2 _].
      rewrite (gm_lines _ _ r M1) in I'. rewrite (gm_lines _ _ r M2) in J'.
      apply (gm_plain _ _ M1) in I'. apply (gm_plain _ _ M2) in J'.
      destruct I' as [(_ & _ & _ & X) _]. destruct J' as [(_ & _ & _ & Y) _]. congruence. }
  destruct (load_accept (e_danger v loc) v1 (listing r ms) []) as [es E].
  - intros a h q I. apply Li in I. destruct I as (Ia & [(c & R & J)|(_ & c & R & J)]).
    + apply (proj2 (G true a c Ia R) h q J).
    + apply (proj2 (G false a c Ia R) h q J).
  - intros a q h h' I J. eapply nodup_key; eauto.
  - intros _. exact Nk.
  - intros a h q _. left. reflexivity.
  - exists es. split; [exact E|]. pose proof (load_ok _ _ _ _ _ E) as (L1 & L2 & _). split.
    + intros a p h. rewrite <- Li. split.
      * intros C. assert (X : checksum es a p <> None) by congruence. apply L1 in X. destruct X as [X|[h' I]]; [cbn in X; congruence|].
        pose proof (L2 _ _ _ I) as [C' _]. congruence.
      * intros I. apply L2 in I. tauto.
    + clear L1 L2 Li Nk. clearbody ms. intros p hs I.
      assert (Gn : forall l e e', foldM (add1 (e_danger v loc) v1) l e = Ok e' ->
                (forall p hs, In (p, hs) e -> hs <> []) -> forall p hs, In (p, hs) e' -> hs <> []).
      { induction l as [|[a [h q]] l IH]; intros e e' H He; cbn [foldM] in H; [inversion H; subst; auto|].
        apply bind_ok in H. destruct H as (e1 & H1 & H2). apply (IH _ _ H2). intros p0 hs0 I0.
        unfold add1, add_entry in H1. cbn [fst snd] in H1. destruct (e_danger v loc q); [discriminate|].
        assert (S : e1 = od_set q (od_set a h (match od_get q e with Some d => d | None => [] end)) e).
        { unfold entries in *. destruct (od_get a _) as [h'|].
          - destruct (streq h' h); [|discriminate]. destruct v1; inversion H1; reflexivity.
          - inversion H1; reflexivity. }
        subst e1. clear - I0 He. set (d := od_set a h _) in *. assert (Nd : d <> []) by apply od_set_not_nil. clearbody d.
        revert I0 He. induction e as [|[k y] e IH]; cbn [od_set]; intros I0 He.
        - destruct I0 as [X|[]]. inversion X; subst. auto.
        - destruct (streq q k).
          + destruct I0 as [X|X]; [inversion X; subst; auto|]. eapply He. right; eauto.
          + destruct I0 as [X|X]; [eapply He; left; eauto|]. apply IH; auto. intros. eapply He. right; eauto. }
      assert (Nh : hs <> []) by (eapply Gn; [exact E| |exact I]; intros ? ? []).
      assert (NDe : NoDup (od_keys es)).
      { apply (load_inner (e_danger v loc) v1 r ms es). unfold load_manifests. rewrite load_flat. exact E. }
      destruct hs as [|[a h] hs]; [congruence|]. exists a. unfold checksum. rewrite (od_in_get _ _ _ NDe I). cbn [od_get].
      rewrite streq_refl. discriminate.
Qed.

Lemma entry_payload v loc t pay a p h : good_mans v loc t -> In a (e_algos v) -> entry_in IoText (kind_of pay) t a p h -> is_payload p = pay.
Proof. intros G Ia E. apply (good_plain v loc t G) in E; auto. apply E. Qed.

(** What was loaded. *)
Lemma load_chars v loc t d r v97 v1 es : good_mans v loc t ->
  load_manifests d v1 r (bag_manifests (e_algos v) v97 t) = Ok es ->
  forall a p h, checksum es a p = Some h <->
    In a (e_algos v) /\ (entry_in IoText K_man t a p h \/ (v97 = true /\ entry_in IoText K_tag t a p h)).
Proof.
  intros G E a p h. unfold load_manifests in E. rewrite load_flat in E. set (ms := bag_manifests (e_algos v) v97 t) in *.
  assert (Li : forall a h p, In (a, (h, p)) (listing r ms) <->
            In a (e_algos v) /\ (entry_in IoText K_man t a p h \/ (v97 = true /\ entry_in IoText K_tag t a p h))).
  { clear a p h. intros a h p. rewrite in_listing. split.
    - intros (c & I & J). apply in_bag_manifests in I. destruct I as (Ia & [R|[V R]]); split; auto.
      + left. exists c. split; auto. rewrite <- (gm_lines true c r); auto. apply (G true a c Ia R).
      + right. split; auto. exists c. split; auto. rewrite <- (gm_lines false c r); auto. apply (G false a c Ia R).
    - intros (Ia & [(c & R & J)|(V & c & R & J)]); exists c.
      + split; [apply in_bag_manifests; auto|]. rewrite (gm_lines true c r); auto. apply (G true a c Ia R).
      + split; [apply in_bag_manifests; auto|]. rewrite (gm_lines false c r); auto. apply (G false a c Ia R). }
  pose proof (load_ok _ _ _ _ _ E) as (L1 & L2 & _). rewrite <- Li. split.
  - intros C. assert (X : checksum es a p <> None) by congruence. apply L1 in X. destruct X as [X|[h' I]]; [cbn in X; congruence|].
    pose proof (L2 _ _ _ I) as [C' _]. congruence.
  - intros I. apply L2 in I. tauto.
Qed.

(** Checksums for one algorithm: checksums for all. *)
Lemma sums_uniform v loc t A d r v97 v1 es : incl A (e_algos v) -> good_mans v loc t -> uses v A t ->
  load_manifests d v1 r (bag_manifests (e_algos v) v97 t) = Ok es ->
  forall a p, checksum es a p <> None -> In a A /\ forall a', In a' A -> checksum es a' p <> None.
Proof.
  intros Inc G U H a p C. pose proof (load_chars v loc t d r v97 v1 es G H) as Ch.
  destruct (checksum es a p) as [h|] eqn:Ca; [|congruence]. apply Ch in Ca. destruct Ca as [Ia X].
  assert (K : exists pay, entry_in IoText (kind_of pay) t a p h /\ (pay = true \/ v97 = true)).
  { destruct X as [X|[V X]]; [exists true|exists false]; auto. }
  destruct K as (pay & Ep & Vp). pose proof Ep as (c & R & _).
  assert (Fa : is_file (man_name (kind_of pay) a) t = true) by (apply is_file_read; eauto).
  destruct (us_all _ _ _ U pay a Ia Fa) as [IA _]. split; auto. intros a' Ia'.
  destruct (us_sums _ _ _ U pay a a' p h IA Ia' Ep) as [h' E']. intros Z.
  assert (Y : checksum es a' p = Some h').
  { apply Ch. split; [apply Inc; auto|]. destruct pay; [left; exact E'|right]. destruct Vp as [Vp|Vp]; [discriminate|]. split; auto. }
  congruence.
Qed.

(** ** Copies of manifests *)

Lemma copy_good v A skip src dest t u : ~ In [] skip -> wf_tree src -> wf_tree dest ->
  (forall q, special v q -> gone skip q = false) ->
  (forall q, special v q -> od_get q src <> Some NDir) -> (forall q, special v q -> od_get q dest <> Some NDir) ->
  incl A (e_algos v) ->
  good_mans v (e_dest v) src -> uses v A src -> good_mans v (e_dest v) dest -> uses v A dest ->
  copy_items false skip src dest = Ok (t, u) ->
  good_mans v (e_dest v) t /\ uses v A t.
Proof.
  intros N0 Ws Wd Ng Ds Dd Inc Gs Us Gd Ud Hc. destruct (copy_nodes _ _ _ _ _ N0 Ws Wd Hc) as [_ Q].
  assert (Sp : forall pay a, In a (e_algos v) -> special v (man_name (kind_of pay) a)) by (intros; apply man_special; auto using kind_in).
  assert (R : forall pay a, In a (e_algos v) -> read (man_name (kind_of pay) a) t =
             match read (man_name (kind_of pay) a) dest with Some c => Some c | None => read (man_name (kind_of pay) a) src end).
  { intros pay a Ia. unfold read. rewrite Q. rewrite Ng by auto. destruct (od_get (man_name (kind_of pay) a) dest) as [[|c]|] eqn:E; auto.
    exfalso. apply (Dd _ (Sp pay a Ia)). exact E. }
  assert (K : forall pay, (forall a, In a (e_algos v) -> read (man_name (kind_of pay) a) t = read (man_name (kind_of pay) a) dest) \/
                          (forall a, In a (e_algos v) -> read (man_name (kind_of pay) a) t = read (man_name (kind_of pay) a) src)).
  { intros pay. destruct (existsb (fun a => is_file (man_name (kind_of pay) a) dest) (e_algos v)) eqn:E.
    - left. apply existsb_exists in E. destruct E as (a0 & Ia0 & F0). destruct (us_all _ _ _ Ud pay a0 Ia0 F0) as [_ Fa].
      intros a Ia. rewrite (R pay a Ia). destruct (read (man_name (kind_of pay) a) dest) as [c|] eqn:Ec; auto.
      destruct (read (man_name (kind_of pay) a) src) as [c|] eqn:Es; auto. exfalso.
      assert (Fs : is_file (man_name (kind_of pay) a) src = true) by (apply is_file_read; eauto).
      destruct (us_all _ _ _ Us pay a Ia Fs) as [IA _]. apply Fa in IA. apply is_file_read in IA. destruct IA as [c' IA]. congruence.
    - right. intros a Ia. rewrite (R pay a Ia). destruct (read (man_name (kind_of pay) a) dest) as [c|] eqn:Ec; auto. exfalso.
      assert (X : existsb (fun a => is_file (man_name (kind_of pay) a) dest) (e_algos v) = true); [|congruence].
      apply existsb_exists. exists a. split; auto. apply is_file_read. eauto. }
  assert (Fr : forall pay a c t', In a (e_algos v) -> read (man_name (kind_of pay) a) t = read (man_name (kind_of pay) a) t' ->
            is_file (man_name (kind_of pay) a) t = is_file (man_name (kind_of pay) a) t' /\
            (read (man_name (kind_of pay) a) t = Some c -> read (man_name (kind_of pay) a) t' = Some c) /\
            (forall p h, entry_in IoText (kind_of pay) t a p h <-> entry_in IoText (kind_of pay) t' a p h)).
  { intros pay a c t' Ia E. split; [|split; [congruence|]].
    - apply eq_true_iff_eq. rewrite !is_file_read, E. tauto.
    - intros p h. unfold entry_in. rewrite E. tauto. }
  split.
  - intros pay a c Ia Rc. destruct (K pay) as [E|E]; rewrite E in Rc by auto; [apply (Gd pay a c Ia Rc)|apply (Gs pay a c Ia Rc)].
  - constructor.
    + intros pay a Ia F. destruct (K pay) as [E|E].
      * rewrite (proj1 (Fr pay a [] dest Ia (E a Ia))) in F. destruct (us_all _ _ _ Ud pay a Ia F) as [IA FA]. split; auto.
        intros a' Ia'. rewrite (proj1 (Fr pay a' [] dest (Inc _ Ia') (E a' (Inc _ Ia')))). auto.
      * rewrite (proj1 (Fr pay a [] src Ia (E a Ia))) in F. destruct (us_all _ _ _ Us pay a Ia F) as [IA FA]. split; auto.
        intros a' Ia'. rewrite (proj1 (Fr pay a' [] src (Inc _ Ia') (E a' (Inc _ Ia')))). auto.
    + intros pay a a' p h Ia Ia' He. destruct (K pay) as [E|E].
      * apply (proj2 (proj2 (Fr pay a [] dest (Inc _ Ia) (E a (Inc _ Ia))))) in He.
        destruct (us_sums _ _ _ Ud pay a a' p h Ia Ia' He) as [h' He']. exists h'.
        apply (proj2 (proj2 (Fr pay a' [] dest (Inc _ Ia') (E a' (Inc _ Ia'))))). exact He'.
      * apply (proj2 (proj2 (Fr pay a [] src (Inc _ Ia) (E a (Inc _ Ia))))) in He.
        destruct (us_sums _ _ _ Us pay a a' p h Ia Ia' He) as [h' He']. exists h'.
        apply (proj2 (proj2 (Fr pay a' [] src (Inc _ Ia') (E a' (Inc _ Ia'))))). exact He'.
Qed.

(** ** Updating the manifests *)

Lemma keep_one_succeeds ph l : forall m : by_alg, (forall a, In a l -> In a (od_keys m)) ->
  (forall a, In a l -> od_get a (snd ph) <> None) ->
  exists m', foldM (fun m alg =>
           match od_get alg m with
           | None => Ok m
           | Some d =>
               if od_has (fst ph) d then Ok m
               else match od_get alg (snd ph) with
                    | None => Err EKey
                    | Some h => Ok (alg_set alg (fst ph) h m)
                    end
           end) l m = Ok m'.
Proof.
  induction l as [|a l IH]; intros m K H; cbn [foldM]; [eauto|].
  assert (Ka : In a (od_keys m)) by (apply K; left; auto). apply od_key_some in Ka. destruct Ka as [d Ka].
  unfold by_alg in *. rewrite Ka. destruct (od_has (fst ph) d).
  - cbn [bind]. apply IH; intros; [apply K|apply H]; right; auto.
  - assert (X : od_get a (snd ph) <> None) by (apply H; left; auto). destruct (od_get a (snd ph)) as [h|]; [|congruence].
    cbn [bind]. apply IH.
    + intros x I. apply keys_alg_set. right. apply K. right; auto.
    + intros x I. apply H. right; auto.
Qed.

Lemma keep_succeeds (des : entries) : forall m : by_alg,
  (forall a p hs, In a (od_keys m) -> In (p, hs) des -> od_get a hs <> None) ->
  exists m', foldM keep_entry des m = Ok m'.
Proof.
  induction des as [|[p hs] des IH]; intros m H; cbn [foldM]; [eauto|].
  destruct (keep_one_succeeds (p, hs) (od_keys m) m) as [m1 E]; [auto| |].
  - intros a Ia. cbn [snd]. eapply H; [exact Ia|left; reflexivity].
  - assert (E' : keep_entry m (p, hs) = Ok m1) by exact E. rewrite E'. cbn [bind]. apply IH.
    apply keep_entry_lk in E; [|auto]. destruct E as (_ & _ & K & _). intros a q hq Ia Iq. eapply H; [apply K; exact Ia|right; exact Iq].
Qed.

Lemma write_manifest_succeeds k a d t : good_path (man_name k a) -> ~ In SLASH (man_name k a) ->
  od_get (man_name k a) t <> Some NDir -> exists t', write_manifest k a d t = Ok t'.
Proof.
  intros G Ns D. unfold write_manifest. destruct d; [eauto|]. rewrite write_top_succeeds by auto. eauto.
Qed.

Lemma man_no_slash k a : In k [K_man; K_tag] -> ~ In SLASH a -> ~ In SLASH (man_name k a).
Proof.
  intros Ik Na. unfold man_name. destruct Ik as [<-|[<-|[]]]; rewrite !in_app_iff; cbn; intuition discriminate.
Qed.

Lemma write_manifests_succeed v (m : by_alg) : forall t, sane v -> (forall a, In a (od_keys m) -> In a (e_algos v)) ->
  (forall q, special v q -> od_get q t <> Some NDir) ->
  exists t', foldM write_manifests m t = Ok t'.
Proof.
  induction m as [|[a d] m IH]; intros t S K D; cbn [foldM]; [eauto|].
  assert (Ia : In a (e_algos v)) by (apply K; left; auto).
  assert (Gk : forall k, In k [K_man; K_tag] -> good_path (man_name k a) /\ ~ In SLASH (man_name k a) /\ special v (man_name k a)).
  { intros k Ik. split; [apply man_good; auto|]. split; [apply man_no_slash; auto|]. exists k, a. auto. }
  assert (St : forall k d t t', write_manifest k a d t = Ok t' -> (forall q, special v q -> od_get q t <> Some NDir) ->
                 forall q, special v q -> od_get q t' <> Some NDir).
  { intros k d0 t0 t0' H D0 q Sq. apply write_manifest_ok in H. subst t0'. destruct d0; [auto|].
    rewrite od_get_set. destruct (streq q _); [discriminate|auto]. }
  unfold write_manifests at 1. cbn [fst snd].
  destruct (write_manifest_succeeds K_man a (filter (fun ph => is_payload (fst ph)) d) t) as [t1 E1]; try apply Gk; try (left; reflexivity).
  { apply D. apply Gk. left; auto. }
  rewrite E1. cbn [bind]. pose proof (St _ _ _ _ E1 D) as D1.
  destruct (write_manifest_succeeds K_tag a (filter (fun ph => negb (is_payload (fst ph))) d) t1) as [t2 E2]; try apply Gk; try (right; left; reflexivity).
  { apply D1. apply Gk. right; left; auto. }
  rewrite E2. cbn [bind]. apply IH; auto.
  - intros x I. apply K. right; auto.
  - exact (St _ _ _ _ E2 D1).
Qed.

(** [_update_manifests] succeeds when all bags use the same algorithms. *)
Lemma update_succeeds v A es us t info des v1 c : sane v -> NoDup (e_algos v) -> incl A (e_algos v) -> 
  inner_nodup es -> (forall a p, checksum es a p <> None -> In a A /\ forall a', In a' A -> checksum es a' p <> None) ->
  (forall q, special v q -> od_get q t <> Some NDir) ->
  read F_bagit t = Some c -> e_version v c = Ok (true, v1) ->
  good_mans v (e_dest v) t -> uses v A t ->
  open_bag v IoText (e_dest v) t = Ok (info, des) ->
  exists t', update_manifests v es us t = Ok t'.
Proof.
  intros S ND Inc In1 Ue D Rc Vc Gt Ut Ho. unfold update_manifests. rewrite Ho. cbn [bind].
  destruct (recorded_lk es us [] In1) as (A1 & A2 & A3). cbv zeta in *.
  set (m0 := fold_left (record_updated es) us []) in *.
  apply open_bag_ok in Ho. destruct Ho as (c' & v97 & v1' & Rc' & Vc' & _ & Hl). rewrite Rc in Rc'. inversion Rc'; subst c'.
  rewrite Vc in Vc'. inversion Vc'; subst v97 v1'.
  destruct (load_good v (e_dest v) t IoText true v1 ND Gt) as (des' & Hl' & _ & Hn). rewrite Hl in Hl'. inversion Hl'; subst des'.
  destruct (load_inner _ _ _ _ _ Hl) as [_ NDd].
  destruct (keep_succeeds des m0) as [m Hm].
  - intros a p hs Ia Ip. apply A2 in Ia. destruct Ia as [(q & Iq & Cq)|[]]. apply Ue in Cq. destruct Cq as [IA _].
    destruct (Hn p hs Ip) as [a0 C0]. pose proof (sums_uniform v (e_dest v) t A _ IoText true v1 des Inc Gt Ut Hl a0 p C0) as [_ X].
    specialize (X a IA). unfold checksum in X. rewrite (od_in_get _ _ _ NDd Ip) in X. exact X.
  - rewrite Hm. cbn [bind]. apply (write_manifests_succeed v); auto. intros a Ia.
    destruct (kept_lk _ _ _ Hm) as (_ & _ & B3 & _). apply B3 in Ia. apply A2 in Ia. destruct Ia as [(q & _ & Cq)|[]].
    apply Ue in Cq. apply Inc. tauto.
Qed.

(** * Lemmas on restoring: copying all bags succeeds *)

Require Import String NArith PeanoNat Bool List Lia Permutation.
From Verif Require Import PyBase PyFacts Tsv TsvProofs Fs FsFacts HeadBag BagIt BagItProofs Split SplitProofs2 SplitApply SplitApplyProofs SplitApplyProofs2 SplitApplyProofs8 Restore RestoreProofs RestoreProofs2 RestoreProofs3 RestoreProofs4 RestoreProofs7 RestoreProofs8.
Import ListNotations.
Open Scope N_scope.

(** ** Manifests that were written again *)

Lemma hash_text_lines r (l : list (pystr * pystr)) :
  Forall (fun hp => manifest_hash (fst hp) /\ hd 0 (fst hp) <> BOM /\ manifest_path r (snd hp)) l ->
  manifest_lines r (skip_bom (flat_map (fun hp => hash_line (fst hp) (snd hp)) l)) = l.
Proof.
  intros F. assert (B : skip_bom (flat_map (fun hp => hash_line (fst hp) (snd hp)) l) = flat_map (fun hp => hash_line (fst hp) (snd hp)) l).
  { destruct F as [|[h p] l (H1 & H2 & _) _]; [reflexivity|]. cbn [flat_map fst snd] in *. unfold hash_line.
    destruct h as [|c h]; [destruct H1; congruence|]. cbn [hd] in H2. cbn [app skip_bom]. apply N.eqb_neq in H2. rewrite H2. reflexivity. }
  rewrite B. apply hash_lines. eapply Forall_impl; [|exact F]. intros x (H1 & _ & H2). auto.
Qed.

Lemma swap_text (d : list (pystr * pystr)) :
  flat_map (fun ph => hash_line (snd ph) (fst ph)) d
  = flat_map (fun hp => hash_line (fst hp) (snd hp)) (map (fun ph => (snd ph, fst ph)) d).
Proof. induction d as [|x d IH]; [reflexivity|]. cbn [flat_map map]. rewrite IH. reflexivity. Qed.

Lemma man_text_good pay (d : dict pystr) : NoDup (od_keys d) ->
  (forall p h, In (p, h) d -> plain_entry (is_payload p) h p /\ manifest_path Codecs p) -> good_man pay (man_text pay d).
Proof.
  intros ND P. unfold man_text. set (l := filter (fun ph => Bool.eqb (is_payload (fst ph)) pay) d). rewrite swap_text.
  assert (Pl : forall r, Forall (fun hp => manifest_hash (fst hp) /\ hd 0 (fst hp) <> BOM /\ manifest_path r (snd hp))
                  (map (fun ph => (snd ph, fst ph)) l)).
  { intros r. apply Forall_forall. intros [h p] I. apply in_map_iff in I. destruct I as ([p' h'] & E & I). inversion E; subst.
    apply filter_In in I. destruct I as [I _]. cbn [fst snd]. destruct (P p h I) as [(A & B & C & _) Cd].
    split; auto. split; auto. destruct r; auto. }
  constructor.
  - rewrite !hash_text_lines by apply Pl. reflexivity.
  - rewrite hash_text_lines by apply Pl. intros h p I. apply in_map_iff in I. destruct I as ([p' h'] & E & I). inversion E; subst.
    apply filter_In in I. destruct I as [I J]. cbn [fst] in J. apply eqb_prop in J. rewrite <- J. auto.
  - rewrite hash_text_lines by apply Pl. rewrite map_map. cbn [snd]. apply (NoDup_map_filter fst). exact ND.
Qed.

Lemma man_name_kinds p1 p2 a1 a2 : man_name (kind_of p1) a1 = man_name (kind_of p2) a2 -> p1 = p2 /\ a1 = a2.
Proof.
  intros H. destruct p1, p2; try discriminate; split; auto; apply man_name_inj in H; auto.
Qed.

Lemma get_in {V} p (x : V) (d : dict V) : od_get p d = Some x -> In (p, x) d.
Proof.
  intros E. induction d as [|[k y] d IH]; [discriminate|]. cbn [od_get] in E.
  destruct (streq_reflect p k) as [->|]; [inversion E; left; auto|right; auto].
Qed.

Lemma update_good v A es us t info des t' v1 c : sane v -> NoDup (e_algos v) -> incl A (e_algos v) ->
  wf_tree t -> inner_nodup es ->
  (forall a p, checksum es a p <> None -> In a A /\ forall a', In a' A -> checksum es a' p <> None) ->
  (forall a p h, checksum es a p = Some h -> plain_entry (is_payload p) h p /\ manifest_path Codecs p /\ e_danger v (e_dest v) p = false) ->
  read F_bagit t = Some c -> e_version v c = Ok (true, v1) ->
  good_mans v (e_dest v) t -> uses v A t ->
  open_bag v IoText (e_dest v) t = Ok (info, des) ->
  update_manifests v es us t = Ok t' ->
  wf_tree t' /\ (forall q, ~ special v q -> od_get q t' = od_get q t) /\
  (forall q, special v q -> od_get q t <> Some NDir -> od_get q t' <> Some NDir) /\
  good_mans v (e_dest v) t' /\ uses v A t'.
Proof.
  intros S ND Inc W In1 Ue Pe Rc Vc Gt Ut Ho Hu.
  assert (Al : forall a p, checksum es a p <> None -> In a (e_algos v)) by (intros a p C; apply Inc; apply Ue in C; tauto).
  destruct (update_manifests_ok v es us t t' S W In1 Al Hu) as (W' & F & info' & des' & m & Ho' & T & Km & Lk & Ks & Fk & Fm).
  rewrite Ho in Ho'. inversion Ho'; subst info' des'. clear Ho'.
  split; auto. split; auto.
  apply open_bag_ok in Ho. destruct Ho as (c' & v97 & v1' & Rc' & Vc' & _ & Hl). rewrite Rc in Rc'. inversion Rc'; subst c'.
  rewrite Vc in Vc'. inversion Vc'; subst v97 v1'.
  destruct (load_good v (e_dest v) t IoText true v1 ND Gt) as (des' & Hl' & Ch & _). rewrite Hl in Hl'. inversion Hl'; subst des'. clear Hl'.
  pose proof (sums_uniform v (e_dest v) t A _ IoText true v1 des Inc Gt Ut Hl) as Ud.
  (* the algorithms: all or none *)
  assert (KA : forall a, In a (od_keys m) -> In a A /\ forall a', In a' A -> In a' (od_keys m)).
  { intros a Ia. apply Km in Ia. destruct Ia as (p & Ip & C). apply Ue in C. destruct C as [IA C]. split; auto.
    intros a' Ia'. apply Km. exists p. split; auto. }
  assert (Lu : forall a a' p, In a (od_keys m) -> In a' (od_keys m) -> lk m a p <> None -> lk m a' p <> None).
  { intros a a' p Ia Ia' X. rewrite Lk in X |- *. apply str_in_iff in Ia as Sa. apply str_in_iff in Ia' as Sa'. rewrite Sa in X. rewrite Sa'.
    pose proof (proj1 (KA _ Ia')) as IA'.
    assert (Y : (str_in p us = true /\ checksum es a p <> None) \/ checksum des a p <> None).
    { destruct (str_in p us); auto. destruct (checksum es a p); auto. }
    destruct Y as [[Y1 Y2]|Y].
    - rewrite Y1. apply Ue in Y2. destruct Y2 as [_ Y2]. specialize (Y2 a' IA'). destruct (checksum es a' p); [discriminate|congruence].
    - apply Ud in Y. destruct Y as [_ Y]. specialize (Y a' IA'). destruct (str_in p us); auto. destruct (checksum es a' p); [discriminate|auto]. }
  assert (Pm : forall a d p h, od_get a m = Some d -> In (p, h) d ->
             plain_entry (is_payload p) h p /\ manifest_path Codecs p /\ e_danger v (e_dest v) p = false).
  { intros a d p h Ed I. assert (E : lk m a p = Some h).
    { unfold lk, by_alg in *. rewrite Ed. apply od_in_get; auto. apply (proj2 T a d Ed). }
    rewrite Lk in E. destruct (str_in a (od_keys m)); [|discriminate].
    assert (Y : checksum des a p = Some h \/ checksum es a p = Some h).
    { destruct (str_in p us); auto. destruct (checksum es a p); auto. }
    destruct Y as [Y|Y]; [|eapply Pe; eauto]. apply Ch in Y. destruct Y as (Ia & Y).
    assert (Z : exists pay, entry_in IoText (kind_of pay) t a p h) by (destruct Y as [Y|[_ Y]]; [exists true|exists false]; exact Y).
    destruct Z as (pay & x & Rx & Ix). destruct (Gt pay a x Ia Rx) as [M Dn]. pose proof (gm_plain _ _ M h p Ix) as [P1 P2].
    split; [|split; [exact P2|exact (Dn h p Ix)]]. destruct P1 as (B1 & B2 & B3 & B4). rewrite B4. split; auto. }
  (* reading a manifest of the new tree *)
  assert (Rd : forall pay a, In a (e_algos v) ->
     od_get (man_name (kind_of pay) a) t' = od_get (man_name (kind_of pay) a) t \/
     exists d, od_get a m = Some d /\ filter (fun ph => Bool.eqb (is_payload (fst ph)) pay) d <> [] /\
               od_get (man_name (kind_of pay) a) t' = Some (NFile (man_text pay d))).
  { intros pay a Ia. destruct (str_in a (od_keys m)) eqn:K.
    - apply str_in_iff in K. apply od_key_some in K. destruct K as [d Ed]. pose proof (Fm a d Ed pay) as X. cbv zeta in X.
      destruct (filter (fun ph => Bool.eqb (is_payload (fst ph)) pay) d) eqn:Fl; [left; exact X|].
      right. exists d. split; auto. split; [congruence|exact X].
    - apply str_in_false in K. left. apply Fk; auto using kind_in. }
  assert (Lines : forall pay d h p, (forall p h, In (p, h) d -> plain_entry (is_payload p) h p) ->
     In (h, p) (manifest_lines IoText (skip_bom (man_text pay d))) <-> In (p, h) d /\ is_payload p = pay).
  { intros pay d h p Hp. apply man_text_lines. exact Hp. }
  assert (Gm : good_mans v (e_dest v) t').
  { intros pay a x Ia Rx. destruct (Rd pay a Ia) as [E|(d & Ed & Fl & E)].
    - apply (Gt pay a x Ia). unfold read in *. rewrite <- E. exact Rx.
    - apply read_get in Rx. rewrite E in Rx. inversion Rx; subst x. split.
      + apply man_text_good; [apply (proj2 T a d Ed)|]. intros p h I. destruct (Pm a d p h Ed I) as (Q1 & Q2 & _). auto.
      + intros h p I. apply Lines in I; [|intros; eapply Pm; eauto]. apply (Pm a d p h Ed). tauto. }
  assert (Nd : forall q, special v q -> od_get q t <> Some NDir -> od_get q t' <> Some NDir).
  { intros q (k & a & Ik & Ia & ->) D. assert (Kp : exists pay, k = kind_of pay).
    { destruct Ik as [<-|[<-|[]]]; [exists true|exists false]; reflexivity. }
    destruct Kp as [pay ->]. destruct (Rd pay a Ia) as [E|(d & _ & _ & E)]; rewrite E; [auto|discriminate]. }
  split; auto. split; auto.
  assert (Mono : forall pay a, In a (e_algos v) -> is_file (man_name (kind_of pay) a) t = true -> is_file (man_name (kind_of pay) a) t' = true).
  { intros pay a Ia X. unfold is_file in *. destruct (Rd pay a Ia) as [E|(d & _ & _ & E)]; rewrite E; auto. }
  constructor.
  - intros pay a Ia X. destruct (Rd pay a Ia) as [E|(d & Ed & Fl & E)].
    + assert (Y : is_file (man_name (kind_of pay) a) t = true) by (unfold is_file in *; rewrite E in X; exact X).
      destruct (us_all _ _ _ Ut pay a Ia Y) as [IA FA]. split; auto.
    + assert (Ka : In a (od_keys m)) by (eapply od_get_some_key; eauto). destruct (KA a Ka) as [IA KA']. split; auto.
      intros a' Ia'. pose proof (KA' a' Ia') as Ka'. apply od_key_some in Ka' as Kd. destruct Kd as [d' Ed'].
      destruct (filter (fun ph => Bool.eqb (is_payload (fst ph)) pay) d) as [|[p h] l] eqn:Fe; [congruence|].
      assert (I : In (p, h) d /\ Bool.eqb (is_payload p) pay = true).
      { assert (I : In (p, h) ((p, h) :: l)) by (left; auto). rewrite <- Fe in I. apply filter_In in I. exact I. }
      destruct I as [I J]. assert (L : lk m a p <> None).
      { unfold lk, by_alg in *. rewrite Ed. assert (Z : od_get p d = Some h) by (apply od_in_get; auto; apply (proj2 T a d Ed)).
        unfold dict in *. rewrite Z. discriminate. }
      pose proof (Lu a a' p Ka Ka' L) as L'. unfold lk, by_alg in L'. rewrite Ed' in L'.
      destruct (od_get p d') as [h'|] eqn:G'; [|congruence]. apply get_in in G'.
      pose proof (Fm a' d' Ed' pay) as Y. cbv zeta in Y.
      destruct (filter (fun ph => Bool.eqb (is_payload (fst ph)) pay) d') as [|y l'] eqn:Fe'.
      * exfalso. assert (I' : In (p, h') []) by (rewrite <- Fe'; apply filter_In; split; auto). destruct I'.
      * unfold is_file. unfold kind_of. rewrite Y. reflexivity.
  - intros pay a a' p h Ia Ia' He.
    destruct (str_in a (od_keys m)) eqn:K.
    + apply str_in_iff in K. destruct (KA a K) as [_ KA']. pose proof (KA' a' Ia') as K'.
      (* entries of the new manifests are those of [m] *)
      assert (Ent : forall a p h, In a (od_keys m) -> is_payload p = pay ->
                (entry_in IoText (kind_of pay) t' a p h <-> lk m a p = Some h)).
      { clear a a' p h Ia Ia' He K KA' K'. intros a p h Ka Py. assert (Ia : In a (e_algos v)) by (apply Inc; apply KA; auto).
        apply od_key_some in Ka as Kd. destruct Kd as [d Ed]. pose proof (Fm a d Ed pay) as Y. cbv zeta in Y.
        assert (Lg : lk m a p = od_get p d) by (unfold lk, by_alg in *; rewrite Ed; reflexivity). rewrite Lg.
        destruct (filter (fun ph => Bool.eqb (is_payload (fst ph)) pay) d) as [|y l] eqn:Fe.
        - assert (Nn : od_get p d = None).
          { destruct (od_get p d) as [x|] eqn:G; auto. exfalso. apply get_in in G.
            assert (I' : In (p, x) []) by (rewrite <- Fe; apply filter_In; split; auto; cbn [fst]; rewrite Py; apply eqb_reflx). destruct I'. }
          rewrite Nn. split; [|discriminate]. intros (x & Rx & Ix). exfalso.
          assert (Et : entry_in IoText (kind_of pay) t a p h).
          { exists x. split; auto. unfold read in *. unfold kind_of in *. rewrite Y in Rx. exact Rx. }
          assert (C : checksum des a p = Some h).
          { apply Ch. split; auto. destruct pay; [left; exact Et|right; split; [auto|exact Et]]. }
          assert (L : lk m a p <> None).
          { apply Ks; auto. unfold checksum in C. destruct (od_get p des) as [hs|] eqn:G; [|discriminate]. eapply od_get_some_key; eauto. }
          rewrite Lg in L. congruence.
        - split.
          + intros (x & Rx & Ix). apply read_get in Rx. unfold kind_of in Rx. rewrite Y in Rx. inversion Rx; subst x.
            apply Lines in Ix; [|intros; eapply Pm; eauto]. apply od_in_get; [apply (proj2 T a d Ed)|tauto].
          + intros G. apply get_in in G. exists (man_text pay d). split; [apply read_get; exact Y|].
            apply Lines; [intros; eapply Pm; eauto|]. auto. }
      assert (Py : is_payload p = pay).
      { eapply entry_payload; [exact Gm|apply Inc; exact Ia|exact He]. }
      apply (Ent a p h K Py) in He. assert (L : lk m a p <> None) by congruence.
      pose proof (Lu a a' p K K' L) as L'. destruct (lk m a' p) as [h'|] eqn:E; [|congruence]. exists h'. apply (Ent a' p h'); auto.
    + assert (Nm : forall x, In x A -> ~ In x (od_keys m)).
      { intros x Ix Kx. apply str_in_false in K. apply K. apply (proj2 (KA x Kx)). auto. }
      assert (Eq : forall x, In x A -> forall p h, entry_in IoText (kind_of pay) t' x p h <-> entry_in IoText (kind_of pay) t x p h).
      { intros x Ix p0 h0. apply entry_ext. apply Fk; auto using kind_in. }
      apply (Eq a Ia) in He. destruct (us_sums _ _ _ Ut pay a a' p h Ia Ia' He) as [h' E']. exists h'. apply Eq; auto.
Qed.

(** ** One bag *)

(** Both readers can read the tags, and no name begins with a byte-order
    mark. *)
Definition good_tags (text : pystr) : Prop :=
  (exists d, load_tags IoText text = Ok d) /\
  exists d, load_tags Codecs text = Ok d /\ forall k, In k (od_keys d) -> hd 0 k <> BOM.

(** A bag that can be restored. *)
Record member_ok (v : env) (A : list pystr) (b : rbag) : Prop := {
  mo_wf : wf_tree (rb_tree b);
  mo_loc : rb_loc b <> e_dest v;
  mo_open : exists info es, open_bag v IoText (rb_loc b) (rb_tree b) = Ok (info, es);
  mo_mans : good_mans v (e_dest v) (rb_tree b);
  mo_uses : uses v A (rb_tree b);
  mo_dirs : forall q, touched v q -> od_get q (rb_tree b) <> Some NDir
}.

(** What holds of the destination all the time. *)
Record dest_ok (v : env) (A : list pystr) (D : tree) : Prop := {
  do_wf : wf_tree D;
  do_mans : good_mans v (e_dest v) D;
  do_uses : uses v A D;
  do_dirs : forall q, touched v q -> od_get q D <> Some NDir
}.

(** The node at [q] after copying [src]. *)
Definition then_copied (skip : list pystr) (src D : tree) (q : pystr) : option node :=
  match od_get q D with Some n => Some n | None => if gone skip q then None else od_get q src end.

Lemma from_succeeds v A skip b D c0 v1 text : sane v -> NoDup (e_algos v) -> incl A (e_algos v) -> ~ In [] skip ->
  (forall q, special v q -> gone skip q = false) ->
  member_ok v A b -> dest_ok v A D ->
  then_copied skip (rb_tree b) D F_bagit = Some (NFile c0) -> e_version v c0 = Ok (true, v1) ->
  then_copied skip (rb_tree b) D F_baginfo = Some (NFile text) -> good_tags text ->
  (forall p, od_get p (rb_tree b) = Some NDir -> gone skip p = false -> is_file p D = false) ->
  exists D', restore_from v false skip b D = Ok D' /\ dest_ok v A D' /\
    forall q, ~ special v q -> od_get q D' = then_copied skip (rb_tree b) D q.
Proof.
  intros S ND Inc N0 Ng [Wb Lb (info & es & Ho) Gb Ub Db] [Wd Gd Ud Dd] B0 V0 Bi [Ti _] Cl.
  destruct (copy_succeeds skip (rb_tree b) D N0 Wb Wd Cl) as (t & u & Hc).
  destruct (copy_nodes _ _ _ _ _ N0 Wb Wd Hc) as [Wt Q].
  assert (Sd : forall q, special v q -> od_get q (rb_tree b) <> Some NDir) by (intros q Sq; apply Db; left; auto).
  assert (Sd' : forall q, special v q -> od_get q D <> Some NDir) by (intros q Sq; apply Dd; left; auto).
  destruct (copy_good v A skip (rb_tree b) D t u N0 Wb Wd Ng Sd Sd' Inc Gb Ub Gd Ud Hc) as [Gt Ut].
  assert (Dt : forall q, touched v q -> od_get q t <> Some NDir).
  { intros q Tq. rewrite Q. destruct (od_get q D) as [n|] eqn:E; [rewrite <- E; apply Dd; auto|].
    destruct (gone skip q); [discriminate|]. apply Db; auto. }
  assert (Q' : forall q, od_get q t = then_copied skip (rb_tree b) D q) by exact Q.
  unfold restore_from. destruct (streq_reflect (rb_loc b) (e_dest v)) as [E|_]; [congruence|].
  rewrite Ho. cbn [bind]. rewrite Hc. cbn [bind]. destruct u as [|x u].
  - exists t. split; [reflexivity|]. split; [constructor; auto|]. intros q _. apply Q'.
  - assert (Rt : read F_bagit t = Some c0) by (apply read_get; rewrite Q'; exact B0).
    assert (Ri : read F_baginfo t = Some text) by (apply read_get; rewrite Q'; exact Bi).
    destruct Ti as [d Ti].
    destruct (load_good v (e_dest v) t IoText true v1 ND Gt) as (des & Hl & _).
    assert (Hot : open_bag v IoText (e_dest v) t = Ok (d, des)).
    { unfold open_bag. rewrite Rt, V0. cbn [bind]. rewrite Ri, Ti. cbn [bind]. rewrite Hl. reflexivity. }
    pose proof Ho as Ho2. apply open_bag_ok in Ho2. destruct Ho2 as (cb & v97b & v1b & _ & _ & _ & Hlb).
    pose proof (sums_uniform v (e_dest v) (rb_tree b) A _ IoText v97b v1b es Inc Gb Ub Hlb) as Ue.
    pose proof (load_chars v (e_dest v) (rb_tree b) _ IoText v97b v1b es Gb Hlb) as Che.
    destruct (load_inner _ _ _ _ _ Hlb) as [In1 _].
    assert (Pe : forall a p h, checksum es a p = Some h -> plain_entry (is_payload p) h p /\ manifest_path Codecs p /\ e_danger v (e_dest v) p = false).
    { intros a p h C. apply Che in C. destruct C as (Ia & C).
      assert (Z : exists pay, entry_in IoText (kind_of pay) (rb_tree b) a p h) by (destruct C as [C|[_ C]]; [exists true|exists false]; exact C).
      destruct Z as (pay & y & Ry & Iy). destruct (Gb pay a y Ia Ry) as [M Dn]. pose proof (gm_plain _ _ M h p Iy) as [P1 P2].
      split; [|split; [exact P2|exact (Dn h p Iy)]]. destruct P1 as (B1 & B2 & B3 & B4). rewrite B4. split; auto. }
    assert (Dts : forall q, special v q -> od_get q t <> Some NDir) by (intros q Sq; apply Dt; left; auto).
    destruct (update_succeeds v A es (x :: u) t d des v1 c0 S ND Inc In1 Ue Dts Rt V0 Gt Ut Hot) as [D' Hu].
    exists D'. split; [exact Hu|].
    destruct (update_good v A es (x :: u) t d des D' v1 c0 S ND Inc Wt In1 Ue Pe Rt V0 Gt Ut Hot Hu) as (W' & F & Nd & G' & U').
    split.
    + constructor; auto. intros q Tq. destruct (str_in q (map (man_name K_man) (e_algos v) ++ map (man_name K_tag) (e_algos v))) eqn:Sq.
      * apply Nd; [|apply Dt; auto]. apply str_in_iff in Sq. apply in_app_iff in Sq. rewrite !in_map_iff in Sq.
        destruct Sq as [(a & <- & Ia)|(a & <- & Ia)]; [exists K_man, a|exists K_tag, a]; (split; [|split; auto]); [left|right; left]; auto.
      * rewrite F; [apply Dt; auto|]. intros (k & a & Ik & Ia & ->). apply str_in_false in Sq. apply Sq. apply in_app_iff. rewrite !in_map_iff.
        destruct Ik as [<-|[<-|[]]]; [left|right]; exists a; auto.
    + intros q Sq. rewrite (F q Sq). apply Q'.
Qed.

(** ** All bags *)

Lemma special_not_bagit v : ~ special v F_bagit.
Proof. intros (k & a & [<-|[<-|[]]] & _ & E); discriminate. Qed.
Lemma special_not_baginfo v : ~ special v F_baginfo.
Proof. intros (k & a & [<-|[<-|[]]] & _ & E); discriminate. Qed.

Lemma members_succeed v A skip c0 v1 text bs : forall D (known : pystr -> Prop),
  sane v -> NoDup (e_algos v) -> incl A (e_algos v) -> ~ In [] skip ->
  (forall q, special v q -> gone skip q = false) ->
  Forall (member_ok v A) bs -> dest_ok v A D ->
  read F_bagit D = Some c0 -> e_version v c0 = Ok (true, v1) ->
  read F_baginfo D = Some text -> good_tags text ->
  (forall p, is_file p D = true -> touched v p \/ known p) ->
  (forall b p, In b bs -> od_get p (rb_tree b) = Some NDir -> gone skip p = false -> ~ known p) ->
  (forall b b' p, In b bs -> In b' bs -> od_get p (rb_tree b) = Some NDir -> gone skip p = false -> is_file p (rb_tree b') = false) ->
  exists D', foldM (fun d b => restore_from v false skip b d) bs D = Ok D' /\ dest_ok v A D' /\
    read F_bagit D' = Some c0 /\ read F_baginfo D' = Some text.
Proof.
  induction bs as [|b bs IH]; intros D known S ND Inc N0 Ng Fb Dk Rb V0 Ri Gt Kn Ck Cl; cbn [foldM].
  - exists D. auto.
  - inversion Fb as [|? ? Mb Fbs]; subst.
    assert (K1 : forall q c, read q D = Some c -> then_copied skip (rb_tree b) D q = Some (NFile c)).
    { intros q c R. apply read_get in R. unfold then_copied. rewrite R. reflexivity. }
    destruct (from_succeeds v A skip b D c0 v1 text S ND Inc N0 Ng Mb Dk (K1 _ _ Rb) V0 (K1 _ _ Ri) Gt) as (D1 & E1 & Dk1 & Q1).
    { intros p Ep Gp. destruct (is_file p D) eqn:F; auto. exfalso. destruct (Kn p F) as [T|T].
      - apply (mo_dirs _ _ _ Mb p T). exact Ep.
      - apply (Ck b p (or_introl eq_refl) Ep Gp T). }
    rewrite E1. cbn [bind].
    assert (R1 : forall q c, ~ special v q -> read q D = Some c -> read q D1 = Some c).
    { intros q c Sq R. apply read_get. rewrite (Q1 q Sq). apply K1. exact R. }
    apply (IH D1 (fun p => known p \/ is_file p (rb_tree b) = true)); auto.
    + apply R1; auto using special_not_bagit.
    + apply R1; auto using special_not_baginfo.
    + intros p F. destruct (str_in p (map (man_name K_man) (e_algos v) ++ map (man_name K_tag) (e_algos v))) eqn:Sq.
      * left. left. apply str_in_iff in Sq. apply in_app_iff in Sq. rewrite !in_map_iff in Sq.
        destruct Sq as [(a & <- & Ia)|(a & <- & Ia)]; [exists K_man, a|exists K_tag, a]; (split; [|split; auto]); [left|right; left]; auto.
      * assert (Ns : ~ special v p).
        { intros (k & a & Ik & Ia & ->). apply str_in_false in Sq. apply Sq. apply in_app_iff. rewrite !in_map_iff.
          destruct Ik as [<-|[<-|[]]]; [left|right]; exists a; auto. }
        unfold is_file in F. rewrite (Q1 p Ns) in F. unfold then_copied in F.
        destruct (od_get p D) as [n|] eqn:Ep.
        -- assert (Fp : is_file p D = true) by (unfold is_file; rewrite Ep; exact F). destruct (Kn p Fp); auto.
        -- destruct (gone skip p); [discriminate|]. right. right. exact F.
    + intros b' p Ib Ep Gp [Kp|Kp]; [apply (Ck b' p (or_intror Ib) Ep Gp Kp)|].
      rewrite (Cl b' b p (or_intror Ib) (or_introl eq_refl) Ep Gp) in Kp. discriminate.
    + intros b1 b2 p I1 I2. apply Cl; right; auto.
Qed.

(** * Properties of the BagIt layer: C52 - C56, C67, C68

    Every theorem is followed by its assumptions and by an example that meets
    its hypotheses. *)

Require Import String NArith PeanoNat Bool List Lia.
From Verif Require Import PyBase PyFacts Tsv TsvProofs Fs FsFacts HeadBag HeadBagProofs3 BagIt BagItProofs.
Import ListNotations.
Open Scope N_scope.

(** ** C52: loading manifests *)

(** A manifest line that lists the checksum [h] for the path written [q]:
    blanks may surround both, and the checksum may not start with '#'. *)
Definition line_lists (line h q : pystr) : Prop :=
  exists w1 w2 w3,
    line = w1 ++ h ++ w2 ++ q ++ w3 /\
    Forall (fun c => is_ws c = true) (w1 ++ w2 ++ w3) /\ w2 <> [] /\
    h <> [] /\ Forall (fun c => is_ws c = false) h /\ startswith h [HASH] = false /\
    trimmed q.

(** How a written path is understood: leading '*' removed, normalized,
    "%0D" and "%0A" decoded. *)
Definition listed_path (q : pystr) : pystr :=
  decode_filename (normpath (lstrip_if (fun c => c =? STAR) q)).

(** A text without the byte-order mark that it may start with. *)
Definition text_body (text body : pystr) : Prop :=
  text = BOM :: body \/ (text = body /\ forall t, text <> BOM :: t).

Lemma text_body_iff text body : text_body text body <-> body = skip_bom text.
Proof.
  unfold text_body, skip_bom. destruct text as [|c t].
  - split; [intros [?|[? _]]; congruence|]. intros ->. right. split; [reflexivity|discriminate].
  - destruct (N.eqb_spec c BOM) as [->|D].
    + split; [intros [E|[_ E]]; [congruence|exfalso; apply (E t); reflexivity]|]. intros ->. left; reflexivity.
    + split; [intros [E|[E _]]; congruence|]. intros ->. right. split; [reflexivity|]. intros t' E. congruence.
Qed.

(** The manifests [ms] (pairs of algorithm and text) list checksum [h] with
    algorithm [a] for path [p]. *)
Definition lists (r : reader) (ms : list (pystr * pystr)) (a h p : pystr) : Prop :=
  exists text body line q, In (a, text) ms /\ text_body text body /\ In line (pylines r body) /\
                      line_lists line h q /\ p = listed_path q.

Lemma strip_split s : exists w w', s = w ++ strip s ++ w' /\ Forall (fun c => is_ws c = true) (w ++ w').
Proof.
  destruct (lstrip_if_split is_ws s) as (w & E & F).
  destruct (rstrip_if_split is_ws (lstrip_if is_ws s)) as (w' & E' & F').
  exists w, w'. unfold strip. split.
  - rewrite <- E'. exact E.
  - apply Forall_app; auto.
Qed.

Lemma manifest_entry_iff line h p :
  manifest_entry line = Some (h, p) <-> exists q, line_lists line h q /\ p = listed_path q.
Proof.
  split.
  - unfold manifest_entry. intros H.
    destruct (strip_split line) as (w & w' & E & F).
    destruct (strip_is_trimmed line) as [Z|T]; [rewrite Z in H; discriminate|].
    set (s := strip line) in *. clearbody s.
    destruct (streq s [] || startswith s [HASH]) eqn:G; [discriminate|].
    apply orb_false_iff in G. destruct G as [G1 G2].
    unfold split_ws1 in H.
    assert (L : lstrip_if is_ws s = s).
    { destruct T as [(c & t & -> & Wc) _]. apply lstrip_if_head; auto. }
    rewrite L in H. destruct s as [|c0 s0]; [discriminate|]. set (s := c0 :: s0) in *.
    destruct (span_not is_ws s) as [a b] eqn:Sp.
    assert (Spec : s = a ++ b /\ Forall (fun c => is_ws c = false) a /\
                   (b = [] \/ exists d b', b = d :: b' /\ is_ws d = true)).
    { clear -Sp. revert a b Sp. induction s as [|x s IH]; intros a b Sp; cbn in Sp.
      - inversion Sp; subst. auto.
      - destruct (is_ws x) eqn:Wx.
        + inversion Sp; subst. split; [reflexivity|]. split; [constructor|]. right. exists x, s. auto.
        + destruct (span_not is_ws s) as [a' b'] eqn:Es. inversion Sp; subst.
          destruct (IH _ _ eq_refl) as (E1 & E2 & E3). subst. repeat split; auto. }
    destruct Spec as (Es & Fa & Hb).
    destruct (lstrip_if_split is_ws b) as (w2 & Eb & Fw2).
    destruct (lstrip_if is_ws b) as [|c1 b1] eqn:Lb; [discriminate|].
    inversion H; subst h p. exists (c1 :: b1). split; [|reflexivity].
    exists w, w2, w'. split.
    { rewrite E, Es, Eb. rewrite <- !app_assoc. reflexivity. }
    split. { apply Forall_app in F. destruct F. apply Forall_app; split; auto. apply Forall_app; auto. }
    split. { intros ->. cbn in Eb. destruct Hb as [->|(d & b' & -> & Wd)]; [discriminate|].
             cbn in Lb. rewrite Wd in Lb. inversion Eb; subst.
             assert (length (lstrip_if is_ws b1) <= length b1)%nat.
             { clear. induction b1; cbn; auto. destruct (is_ws a); cbn; lia. }
             rewrite Lb in H0. cbn in H0. lia. }
    assert (An : a <> []).
    { intros ->. cbn in Es. destruct Hb as [->|(d & b' & -> & Wd)]; [discriminate|].
      destruct T as [(c & t & Et & Wc) _]. unfold s in *. inversion Et; inversion Es; subst. congruence. }
    split; [exact An|]. split; [exact Fa|]. split.
    { rewrite Es in G2. destruct a as [|a0 a1]; [congruence|]. cbn [app startswith] in *.
      rewrite startswith_nil in *. exact G2. }
    split.
    + exists c1, b1. split; auto.
      assert (Q : forall l x y, lstrip_if is_ws l = x :: y -> is_ws x = false).
      { clear. induction l as [|z l IH]; cbn; intros x y Q; [discriminate|].
        destruct (is_ws z) eqn:Wz; eauto. inversion Q; subst; auto. }
      eapply Q; eauto.
    + destruct T as [_ (t & c & Et & Wc)]. rewrite Es, Eb in Et. rewrite !app_assoc in Et.
      destruct (@exists_last _ (c1 :: b1) ltac:(discriminate)) as (t' & c' & Et').
      rewrite Et' in Et. rewrite app_assoc in Et. apply app_inj_tail in Et. destruct Et as [_ ->].
      exists t', c. auto.
  - intros (q & (w1 & w2 & w3 & -> & F & N2 & Nh & Fh & Hh & Tq) & ->).
    apply Forall_app in F. destruct F as [F1 F]. apply Forall_app in F. destruct F as [F2 F3].
    unfold manifest_entry.
    replace (w1 ++ h ++ w2 ++ q ++ w3) with (w1 ++ (h ++ w2 ++ q) ++ w3) by (rewrite <- !app_assoc; reflexivity).
    rewrite strip_ws_app, strip_app_ws by auto.
    assert (T : trimmed (h ++ w2 ++ q)) by (apply trimmed_app; auto using trimmed_no_ws).
    rewrite strip_trimmed by exact T.
    assert (Hn : streq (h ++ w2 ++ q) [] = false) by (apply streq_neq; apply trimmed_nonempty; exact T).
    rewrite Hn. cbn [orb].
    assert (Hh' : startswith (h ++ w2 ++ q) [HASH] = false).
    { destruct h as [|c h]; [congruence|]. cbn [app startswith] in *. rewrite startswith_nil in *. exact Hh. }
    rewrite Hh'. unfold split_ws1.
    assert (L : lstrip_if is_ws (h ++ w2 ++ q) = h ++ w2 ++ q).
    { destruct h as [|c h]; [congruence|]. inversion Fh; subst. cbn [app]. apply lstrip_if_head; auto. }
    rewrite L. destruct (h ++ w2 ++ q) as [|c0 s0] eqn:E; [destruct h; discriminate|]. rewrite <- E.
    destruct w2 as [|d w2]; [congruence|]. inversion F2; subst. cbn [app]. rewrite span_not_app by auto.
    destruct Tq as [(c & t & -> & Wc) Tq2].
    assert (L2 : lstrip_if is_ws (d :: w2 ++ c :: t) = c :: t).
    { change (d :: w2 ++ c :: t) with ((d :: w2) ++ c :: t). rewrite lstrip_if_app by (constructor; auto).
      apply lstrip_if_head; auto. }
    rewrite L2. reflexivity.
Qed.

Lemma lists_iff r ms a h p : lists r ms a h p <-> In (a, (h, p)) (listing r ms).
Proof.
  rewrite listing_iff. unfold lists. split.
  - intros (text & body & line & q & I & B & J & L & ->). apply text_body_iff in B. subst.
    exists text, line. repeat split; auto. apply manifest_entry_iff. eauto.
  - intros (text & line & I & J & E). apply manifest_entry_iff in E. destruct E as (q & L & ->).
    exists text, (skip_bom text), line, q. repeat split; auto. apply text_body_iff. reflexivity.
Qed.

(** If loading succeeds, then the recorded checksums are exactly the listed
    ones, each path and algorithm has only one, and every path has passed the
    safety check. *)
Theorem C52_loaded : forall dangerous v1 r ms e,
  load_manifests dangerous v1 r ms = Ok e ->
  (forall a p h, checksum e a p = Some h <-> lists r ms a h p) /\
  (forall a p h h', lists r ms a h p -> lists r ms a h' p -> h = h') /\
  (forall a p h, lists r ms a h p -> dangerous p = false).
Proof.
  intros dangerous v1 r ms e H. unfold load_manifests in H. rewrite load_flat in H.
  pose proof (load_ok _ _ _ _ _ H) as (H1 & H2 & _).
  assert (K : forall a p h, checksum e a p = Some h <-> lists r ms a h p).
  { intros a p h. rewrite lists_iff. split.
    - intros E. assert (X : checksum e a p <> None) by congruence. apply H1 in X.
      destruct X as [X|[h' I]]; [cbn in X; congruence|].
      pose proof (H2 _ _ _ I) as [E' _]. congruence.
    - intros I. apply H2; auto. }
  split; [exact K|]. split.
  - intros a p h h' I J. apply K in I. apply K in J. congruence.
  - intros a p h I. apply lists_iff in I. apply H2 in I. tauto.
Qed.

(** Conflicting checksums for one path and algorithm always raise an error. *)
Theorem C52_conflict : forall dangerous v1 r ms a p h h',
  lists r ms a h p -> lists r ms a h' p -> h <> h' ->
  load_manifests dangerous v1 r ms = Err EBag.
Proof.
  intros dangerous v1 r ms a p h h' I J D.
  assert (G : forall x, load_manifests dangerous v1 r ms = Err x -> x = EBag).
  { unfold load_manifests. rewrite load_flat. generalize (@nil (pystr * dict pystr)).
    induction (listing r ms) as [|x l IH]; intros e0 x0; cbn [foldM]; [discriminate|].
    unfold add1 at 1. destruct (add_entry dangerous v1 (fst x) e0 (snd x)) eqn:E; cbn [bind].
    - apply IH.
    - intros E2. inversion E2; subst. unfold add_entry in E. destruct (snd x).
      destruct (dangerous p1); [congruence|].
      destruct (od_get (fst x) _); [destruct (streq _ _); [destruct v1|]|]; congruence. }
  destruct (load_manifests dangerous v1 r ms) as [e|x] eqn:E.
  - apply C52_loaded in E. destruct E as (_ & K & _). exfalso. apply D. eapply K; eauto.
  - rewrite (G x eq_refl). reflexivity.
Qed.

(** From BagIt 1.0 on no path is listed twice for one algorithm. *)
Theorem C52_repeats : forall dangerous r ms e,
  load_manifests dangerous true r ms = Ok e ->
  NoDup (map (fun x => (fst x, snd (snd x))) (listing r ms)).
Proof.
  intros dangerous r ms e H. unfold load_manifests in H. rewrite load_flat in H.
  apply load_nodup in H. tauto.
Qed.

(** Loading fails for no other reason. *)
Theorem C52_accepts : forall dangerous v1 r ms,
  (forall a h p, lists r ms a h p -> dangerous p = false) ->
  (forall a p h h', lists r ms a h p -> lists r ms a h' p -> h = h') ->
  (v1 = true -> NoDup (map (fun x => (fst x, snd (snd x))) (listing r ms))) ->
  exists e, load_manifests dangerous v1 r ms = Ok e.
Proof.
  intros dangerous v1 r ms H1 H2 H3. unfold load_manifests.
  destruct (load_accept dangerous v1 (listing r ms) []) as [e E]; auto.
  - intros a h q I. apply (H1 a h). apply lists_iff; auto.
  - intros a q h h' I J. apply (H2 a q); apply lists_iff; auto.
  - exists e. rewrite load_flat. exact E.
Qed.

(** Blank lines and comments list nothing. *)
Theorem C52_comments : forall w s h q, Forall (fun c => is_ws c = true) w ->
  ~ line_lists w h q /\ ~ line_lists (w ++ HASH :: s) h q.
Proof.
  intros w s h q F. split.
  - intros (w1 & w2 & w3 & -> & _ & _ & Nh & Fh & _). destruct h as [|c h]; [congruence|].
    inversion Fh; subst. apply Forall_app in F. destruct F as [_ F]. inversion F; subst. congruence.
  - intros (w1 & w2 & w3 & E & F1 & _ & Nh & Fh & Hh & _). destruct h as [|c h]; [congruence|].
    inversion Fh; subst. apply Forall_app in F1. destruct F1 as [F1 _].
    assert (c = HASH); [|subst; cbn in Hh; rewrite startswith_nil in Hh; discriminate].
    revert w1 E F1. induction F as [|x w Hx _ IH]; intros w1 E F1.
    + destruct w1 as [|y w1]; [inversion E; reflexivity|]. inversion E; subst. inversion F1; subst. discriminate.
    + destruct w1 as [|y w1]; [inversion E; subst; congruence|]. inversion E; subst.
      inversion F1; subst. eapply IH; eauto.
Qed.

(** Two algorithms, a comment, blanks and a repeated entry under BagIt 0.97. *)
Definition ex_ms : list (pystr * pystr) :=
  [ (U "md5", U "# sums" ++ [LF] ++ U "aa11  *data/a.txt" ++ [LF] ++ [LF] ++
              U "bb22 ./data//b" ++ [LF] ++ U "aa11 data/a.txt" ++ [LF]);
    (U "sha1", U "cc33 data/a.txt" ++ [LF]) ].
Definition no_danger (p : pystr) : bool := false.
Example C52_ex : exists e, load_manifests no_danger false IoText ex_ms = Ok e /\
  checksum e (U "md5") (U "data/a.txt") = Some (U "aa11") /\
  checksum e (U "md5") (U "data/b") = Some (U "bb22") /\
  checksum e (U "sha1") (U "data/a.txt") = Some (U "cc33") /\
  load_manifests no_danger true IoText ex_ms = Err EBag.
Proof. eexists. repeat split; vm_compute; reflexivity. Qed.

Print Assumptions C52_loaded.
Print Assumptions C52_conflict.
Print Assumptions C52_repeats.
Print Assumptions C52_accepts.
Print Assumptions C52_comments.

(** ** C53, C54: path safety *)

(** [dir] is the location of a bag given by an absolute path. *)
Definition at_dir (bag : pystr) (dir : list pystr) : Prop := abs_path bag /\ resolve [] bag = dir.

Definition inside (dir : list pystr) (p : pystr) : Prop := exists rest, resolve dir p = dir ++ rest.

(** The check compares characters, not path components: a directory beside
    the bag whose name extends the name of the bag counts as safe. *)
Theorem C53_safe_paths_refuted : exists bag dir p,
  at_dir bag dir /\ dir <> [] /\
  path_is_dangerous (fun _ => false) bag p = false /\ ~ inside dir p.
Proof.
  exists (U "/tmp/bag"), [U "tmp"; U "bag"], (U "../bag-evil/passwd").
  split; [split; reflexivity|]. split; [discriminate|]. split; [reflexivity|].
  intros [rest H]. vm_compute in H. discriminate.
Qed.

(** What the check does establish: the path stays inside of the bag or of a
    directory beside it whose name extends the bag's name. It refuses no
    relative path that stays inside unless the environment expands it. *)
Theorem C53_safe_paths_partial : forall expands bag D d p,
  at_dir bag (D ++ [d]) ->
  (path_is_dangerous expands bag p = false ->
     startswith p [SLASH] = false /\ expands p = false /\
     exists x rest, resolve (D ++ [d]) p = D ++ (d ++ x) :: rest /\ (x = [] -> inside (D ++ [d]) p)) /\
  (startswith p [SLASH] = false -> expands p = false -> inside (D ++ [d]) p ->
     path_is_dangerous expands bag p = false).
Proof.
  intros expands bag D d p [A R]. split.
  - intros H. apply (dangerous_spec expands bag p D d A R) in H.
    destruct H as (H1 & H2 & x & rest & E). repeat split; auto. exists x, rest. split; auto.
    intros ->. rewrite app_nil_r in E. exists rest. rewrite E, <- app_assoc. reflexivity.
  - intros H1 H2 [rest E]. apply (dangerous_spec expands bag p D d A R). repeat split; auto.
    exists [], rest. rewrite E, <- app_assoc, app_nil_r. reflexivity.
Qed.

(** Paths without "..", "." and empty components are inside, and accepted. *)
Theorem C53_plain_paths_partial : forall expands bag D d p,
  at_dir bag (D ++ [d]) -> good_path p -> expands p = false ->
  inside (D ++ [d]) p /\ path_is_dangerous expands bag p = false.
Proof.
  intros expands bag D d p A G E. assert (I : inside (D ++ [d]) p) by (eexists; apply good_resolve; auto).
  split; auto. apply C53_safe_paths_partial with (D := D) (d := d); auto. apply good_path_rel; auto.
Qed.

Example C53_ex : at_dir (U "/tmp/./x/../bag/") [U "tmp"; U "bag"] /\ good_path (U "data/sub/a.txt") /\
  path_is_dangerous (fun _ => false) (U "/tmp/./x/../bag/") (U "../../etc/passwd") = true.
Proof. split; [split; reflexivity|]. split; [apply good_pathb_ok; reflexivity|reflexivity]. Qed.

Print Assumptions C53_safe_paths_refuted.
Print Assumptions C53_safe_paths_partial.
Print Assumptions C53_plain_paths_partial.

(** The same for exists, isdir and isfile of directory bags. *)
Theorem C54_confined_refuted : exists bag dir p on_disk,
  at_dir bag dir /\ dir <> [] /\ ~ inside dir p /\ bag_query on_disk bag p = true.
Proof.
  exists (U "/tmp/bag"), [U "tmp"; U "bag"], (U "../bag2/x"), (streq (U "/tmp/bag2/x")).
  split; [split; reflexivity|]. split; [discriminate|]. split; [|reflexivity].
  intros [rest H]. vm_compute in H. discriminate.
Qed.

Theorem C54_confined_partial : forall on_disk bag D d p,
  at_dir bag (D ++ [d]) -> startswith p [SLASH] = false ->
  bag_query on_disk bag p = true ->
  exists x rest, resolve (D ++ [d]) p = D ++ (d ++ x) :: rest /\ (x = [] -> inside (D ++ [d]) p).
Proof.
  intros on_disk bag D d p [A R] Hp H. unfold bag_query in H.
  destruct (canon_path bag p) as [q|] eqn:E; [|discriminate].
  assert (K : canon_path bag p <> None) by (rewrite E; discriminate).
  apply (canon_spec bag p D d A R Hp) in K. destruct K as (x & rest & K). exists x, rest. split; auto.
  intros ->. rewrite app_nil_r in K. exists rest. rewrite K, <- app_assoc. reflexivity.
Qed.

(** A query for a path inside of the bag asks the disk about that location. *)
Theorem C54_inside : forall on_disk bag dir p,
  at_dir bag dir -> dir <> [] -> startswith p [SLASH] = false -> inside dir p ->
  bag_query on_disk bag p = on_disk (initial_slashes bag ++ join [SLASH] (resolve dir p)).
Proof.
  intros on_disk bag dir p [A R] Nd Hp [rest E]. destruct (exists_last Nd) as (D & d & ->).
  assert (K : canon_path bag p <> None).
  { apply (canon_spec bag p D d A R Hp). exists [], rest. rewrite E, <- app_assoc, app_nil_r. reflexivity. }
  unfold bag_query. unfold canon_path in *. rewrite normpath_join_abs in * by auto. rewrite R in *.
  destruct (startswith (initial_slashes bag ++ _) (normpath bag)); [reflexivity|exfalso; apply K; reflexivity].
Qed.

Example C54_ex : at_dir (U "/srv/bags/b1") [U "srv"; U "bags"; U "b1"] /\
  inside [U "srv"; U "bags"; U "b1"] (U "data/../bagit.txt") /\
  bag_query (streq (U "/srv/bags/b1/bagit.txt")) (U "/srv/bags/b1") (U "data/../bagit.txt") = true.
Proof. split; [split; reflexivity|]. split; [|reflexivity]. exists [U "bagit.txt"]. reflexivity. Qed.

Print Assumptions C54_confined_refuted.
Print Assumptions C54_confined_partial.
Print Assumptions C54_inside.

(** ** C67: the way a bag directory is named does not matter *)

(** For every location string that does not normalize to ".", a query for a
    plain path asks the disk about that path below the location, and the
    path counts as safe. *)
Theorem C67_location_partial : forall expands on_disk bag p,
  bag <> [] -> normpath bag <> [DOT] -> good_path p ->
  bag_query on_disk bag p = on_disk (under (normpath bag) p) /\
  (expands p = false -> path_is_dangerous expands bag p = false).
Proof.
  intros expands on_disk bag p Hb Hd G. unfold bag_query, canon_path, path_is_dangerous.
  rewrite normpath_join_good by auto. rewrite under_starts. split; [reflexivity|].
  intros ->. rewrite good_path_rel by auto. rewrite commonprefix_startswith, under_starts. reflexivity.
Qed.

(** Opened as "." (or "x/.."), a bag seems to be empty, and every manifest
    entry counts as unsafe. *)
Theorem C67_location_refuted : forall expands on_disk bag p,
  bag <> [] -> normpath bag = [DOT] -> good_path p -> startswith p [DOT] = false ->
  bag_query on_disk bag p = false /\ path_is_dangerous expands bag p = true.
Proof.
  intros expands on_disk bag p Hb Hd G Hp. unfold bag_query, canon_path, path_is_dangerous.
  rewrite normpath_join_dot by auto. rewrite Hd, Hp, commonprefix_startswith, Hp. split; [reflexivity|].
  destruct (startswith p [SLASH]), (expands p); reflexivity.
Qed.

Example C67_ex :
  normpath (U ".") = [DOT] /\ normpath (U "bags/..") = [DOT] /\
  normpath (U "../bag") = U "../bag" /\ normpath (U "bags/./b1/") = U "bags/b1" /\
  bag_query (fun _ => true) (U ".") (U "data/a.txt") = false.
Proof. repeat split. Qed.

Print Assumptions C67_location_partial.
Print Assumptions C67_location_refuted.

(** ** C55: checksum lines *)

(** Lines written for paths that a manifest can hold are read back, in order. *)
Theorem C55_hash_lines_partial : forall r l,
  Forall (fun hp => manifest_hash (fst hp) /\ manifest_path r (snd hp)) l ->
  manifest_lines r (flat_map (fun hp => hash_line (fst hp) (snd hp)) l) = l.
Proof. exact hash_lines. Qed.

(** Paths with a line break, with blanks at an end, with a leading '*' or
    with a literal "%0A" are read back as something else. *)
Theorem C55_hash_lines_refuted :
  let back p := manifest_lines IoText (hash_line (U "aa11") p) in
  back (U "data/x" ++ [LF] ++ U "y") <> [(U "aa11", U "data/x" ++ [LF] ++ U "y")] /\
  back (U "data/x ") <> [(U "aa11", U "data/x ")] /\
  back (U "*x") <> [(U "aa11", U "*x")] /\
  back (U "data/%0A") <> [(U "aa11", U "data/%0A")].
Proof. repeat split; vm_compute; discriminate. Qed.

Example C55_ex : manifest_hash (U "d41d8cd98f") /\ manifest_path IoText (U "data/my file.txt") /\
                 manifest_path Codecs (U "multibag/member-bags.tsv").
Proof.
  split; [|split].
  - split; [discriminate|repeat constructor|reflexivity].
  - split; try reflexivity; [apply trimmedb_ok; reflexivity|repeat constructor|apply good_pathb_ok; reflexivity].
  - split; try reflexivity; [apply trimmedb_ok; reflexivity|repeat constructor|apply good_pathb_ok; reflexivity].
Qed.

Print Assumptions C55_hash_lines_partial.
Print Assumptions C55_hash_lines_refuted.

(** ** C56: tags *)

(** Tags written one per line are read back: the same names and, for each
    name, the same values in the same order; a tag given once is a string,
    a repeated one a list. *)
Theorem C56_tags_partial : forall r kvs,
  Forall (fun kv => tag_name_ok r (fst kv) /\ tag_value_ok r (snd kv)) kvs ->
  Forall (fun kv => hd 0 (fst kv) <> BOM) kvs ->
  exists d, load_tags r (tags_text kvs) = Ok d /\
    (forall k, tag_values d k = values_of k kvs) /\
    (forall k l, od_get k d = Some (IList l) -> (2 <= length l)%nat).
Proof.
  intros r kvs H B. unfold load_tags. rewrite decode_tags.
  2:{ rewrite Forall_forall in *. intros kv I. split; [apply H; auto|apply B; auto]. }
  rewrite parse_tags_plain by auto. cbn [bind]. eexists. split; [reflexivity|]. split.
  - intros k. rewrite fold_add_tag_values. reflexivity.
  - apply fold_add_tag_shape. intros k l E. discriminate.
Qed.

(** Folded values (continuation lines starting with a blank) keep their
    names, but lose blanks and the line break after their first line. *)
Theorem C56_folded_partial : forall r kvs,
  Forall (fun kv => tag_name_ok r (fst kv) /\ folded r (snd kv)) kvs ->
  parse_tags r (tags_text kvs) = Ok (map (fun kv => (fst kv, unfold_value r (snd kv))) kvs).
Proof. exact parse_tags_folded. Qed.

(** Blank lines have no meaning, not even inside of a folded value. *)
Theorem C56_blank_lines : forall ls cur,
  parse_tag_lines cur ls =
  parse_tag_lines cur (filter (fun l => negb (forallb is_ws l)) ls).
Proof.
  induction ls as [|l ls IH]; intros cur; [reflexivity|].
  cbn [filter parse_tag_lines]. unfold blank. destruct (forallb is_ws l) eqn:E; cbn [negb]; [apply IH|].
  cbn [parse_tag_lines]. unfold blank. rewrite E. destruct (if starts_ws l then cur else None) as [[k v]|]; [apply IH|].
  destruct (split1 COLON (strip l)) as [[k v]|]; [|reflexivity]. rewrite IH. reflexivity.
Qed.

(** A value that was itself read from a bag-info file (with two continuation
    lines) changes when it is written and read again. *)
Theorem C56_tags_refuted : exists text k v,
  parse_tags Codecs text = Ok [(k, v)] /\
  parse_tags Codecs (tags_text [(k, v)]) <> Ok [(k, v)].
Proof.
  exists (U "Description: one" ++ [LF] ++ U "  two" ++ [LF] ++ U "  three" ++ [LF]).
  exists (U "Description"), (U "one  two" ++ [LF] ++ U "  three").
  split; [reflexivity|vm_compute; discriminate].
Qed.

Example C56_ex : Forall (fun kv => tag_name_ok Codecs (fst kv) /\ tag_value_ok Codecs (snd kv))
  [(U "Contact-Name", U "Gurn Cranston"); (U "Contact-Email", []); (U "Contact-Name", U "a: b")].
Proof.
  assert (B : forall v, forallb (fun c => negb (is_brk Codecs c)) v = true -> no_brk Codecs v).
  { intros v H. apply Forall_forall. intros c I. rewrite forallb_forall in H. apply H in I.
    apply negb_true_iff in I. exact I. }
  repeat apply Forall_cons; [| | |apply Forall_nil]; cbn [fst snd].
  - split; [split; [apply trimmedb_ok; reflexivity|split; [cbn; intuition discriminate|apply B; reflexivity]]|].
    split; [right; apply trimmedb_ok; reflexivity|apply B; reflexivity].
  - split; [split; [apply trimmedb_ok; reflexivity|split; [cbn; intuition discriminate|apply B; reflexivity]]|].
    split; [left; reflexivity|apply B; reflexivity].
  - split; [split; [apply trimmedb_ok; reflexivity|split; [cbn; intuition discriminate|apply B; reflexivity]]|].
    split; [right; apply trimmedb_ok; reflexivity|apply B; reflexivity].
Qed.

Print Assumptions C56_tags_partial.
Print Assumptions C56_folded_partial.
Print Assumptions C56_blank_lines.
Print Assumptions C56_tags_refuted.

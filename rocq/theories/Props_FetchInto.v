(** * C126: restoring by fetching the bags into the destination *)

Require Import String NArith PeanoNat Bool List Lia.
From Verif Require Import PyBase PyFacts Version Tsv TsvProofs Fs FsFacts HeadBag HeadBagProofs HeadBagProofs3 BagIt BagItProofs BagItProofs2 Split SplitApply SplitApplyProofs SplitApplyProofs2 SplitApplyProofs5 SplitApplyProofs6 SplitApplyProofs8 Props_SplitApply Restore RestoreProofs RestoreProofs2 RestoreProofs3 Props_Restore RestoreProofs4 RestoreProofs6 Props_Restore3 RestoreProofs7 RestoreProofs8 RestoreProofs9 RestoreProofs10 RestoreProofs11 Props_Restore2 Props_RoundTrip SplitRestoreProofs Props_RoundTrip2 Props_Restore4 Validate BagValid BagValidProofs Props_BagValid Props_BagValid2 Props_BagValid4 FindMember FetchInto FetchIntoProofs.
Import ListNotations.
Open Scope N_scope.

(** ** Specification *)

(** The place where a bag is put. *)
Definition put_at (v : env) (n : pystr) : pystr := e_dest v ++ U "/multibag/_membercache/" ++ n.

(** The same surroundings, but with the bags there from the start. *)
Definition with_bags (v : env) (unpacked : pystr -> tree) (remote : pystr -> option delivery) : env :=
  {| e_algos := e_algos v; e_version := e_version v; e_danger := e_danger v; e_hash := e_hash v; e_dest := e_dest v;
     e_find := fun n => match remote n with
                        | Some (AsDir t) => Some {| rb_loc := put_at v n; rb_tree := t |}
                        | Some (AsArchive ext c) => Some {| rb_loc := put_at v (n ++ ext); rb_tree := unpacked c |}
                        | None => None
                        end |}.

(** The file of an archive is not the directory of a bag, and not what is looked
    for as an archive of another bag. *)
Definition own_files (remote : pystr -> option delivery) (names : list pystr) : Prop :=
  forall n ext c, In n names -> remote n = Some (AsArchive ext c) -> ~ In SLASH ext /\
    forall n', In n' names -> n ++ ext <> n' /\
      forall e, In e [U ".zip"; U ".tar"; U ".tar.gz"; U ".tar.bz2"; U ".tgz"] -> n ++ ext = n' ++ e -> n = n'.

(** No file or directory multibag/_membercache. *)
Definition no_cache (t : tree) : Prop :=
  forall p, p = U "multibag/_membercache" \/ (exists r, p = U "multibag/_membercache/" ++ r) -> od_get p t = None.
Definition plain_bag (t : tree) : Prop := wf_tree t /\ no_cache t /\ is_file (U "multibag") t = false.

Definition plain_name (n : pystr) : Prop := n <> [] /\ n <> U "." /\ n <> U ".." /\ ~ In SLASH n.

Lemma no_cache_iff t : no_cache t <-> forall p, in_cache p = true -> od_get p t = None.
Proof.
  unfold no_cache, in_cache. split; intros H p P; apply H.
  - apply orb_true_iff in P. destruct P as [P|P]; [left; apply streq_eq in P; exact P|right].
    apply below_iff in P; [|discriminate]. destruct P as (r & ->). exists r. reflexivity.
  - apply orb_true_iff. destruct P as [-> |(r & ->)]; [left; reflexivity|right]. apply below_iff; [discriminate|]. exists r. reflexivity.
Qed.

Lemma order_plain order : incl order extensions -> forall e, In e order -> ~ In SLASH e.
Proof.
  intros H e I0. apply H in I0. assert (X : forallb (fun e => forallb (fun c => negb (c =? SLASH)) e) extensions = true) by reflexivity.
  rewrite forallb_forall in X. apply X in I0. rewrite forallb_forall in I0. intros J. apply I0 in J. discriminate J.
Qed.

(** Where restoring works with the bags in that place from the start, it works
    the same way if each one is fetched when it is needed and the destination
    has the cache directory all the time: to a destination that does not exist
    or exists, or in place. *)
Theorem C126_same_bag : forall v order unpacked remote update_sizes bsize ro h loc there dest skip ms t',
  no_cache dest -> is_file (U "multibag") dest = false -> (loc = e_dest v \/ plain_bag (hb_tree h)) ->
  (forall n t, remote n = Some (AsDir t) -> plain_bag t) -> (forall n ext c, remote n = Some (AsArchive ext c) -> plain_bag (unpacked c)) ->
  head_lists ro h = Ok (skip, ms) -> Forall plain_name (map Tsv.m_name ms) ->
  incl order extensions -> own_files remote (map Tsv.m_name ms) ->
  restore (with_bags v unpacked remote) update_sizes true bsize ro h loc dest = Ok t' ->
  f_restore v order unpacked remote update_sizes true bsize ro h loc there dest = Ok t'.
Proof.
  intros v order unpacked remote us bsize ro h loc there dest skip ms t' Nc Nm A Ad Aa Hl Fn Io Of H.
  change (f_restore (with_bags v unpacked remote) order unpacked remote us true bsize ro h loc there dest = Ok t').
  assert (Ar : forall n d, remote n = Some d -> plain_bag (bag_of unpacked d)) by (intros n [t|ext c] E; [exact (Ad n t E)|exact (Aa n ext c E)]).
  rewrite Forall_forall in Fn.
  apply (f_restore_sim order unpacked remote (fun n => In n (map Tsv.m_name ms)) Fn (order_plain order Io)) with (skip := skip) (ms := ms); auto.
  - intros n ext c I0 E. destruct (Of n ext c I0 E) as [Ns X]. split; [exact Ns|]. intros n' I1. destruct (X n' I1) as [X1 X2]. split; [exact X1|].
    intros e Ie. apply X2. apply Io. exact Ie.
  - apply no_cache_iff. exact Nc.
  - unfold is_file in Nm. change (U "multibag") with MULTIBAG in Nm. destruct (od_get MULTIBAG dest) as [[|c]|]; [auto|discriminate Nm|auto].
  - destruct A as [A|(W & C & F)]; [left; exact A|right]. split; [exact W|]. split; [apply no_cache_iff; exact C|exact F].
  - assert (G : forall n, In n (others h ms) -> In n (map Tsv.m_name ms)).
    { intros n I0. rewrite in_rev, <- map_rev. unfold others in I0. destruct (map Tsv.m_name (rev ms)) as [|x l]; [destruct I0|].
      destruct (streq x (hb_name h)); [right; exact I0|exact I0]. }
    apply Forall_forall. intros n I0. split; [apply G; exact I0|].
    cbn [with_bags e_find e_dest]. destruct (remote n) as [d|] eqn:R; [|reflexivity]. split.
    + destruct (Ar n d R) as (W & C & F). split; [exact W|]. split; [apply no_cache_iff; exact C|exact F].
    + destruct d; reflexivity.
Qed.

(** Nothing of the fetched bags is left then. *)
Lemma rm_none d t t' : rmtree d t = Ok t' -> forall p, p = d \/ below d p = true -> od_get p t' = None.
Proof.
  unfold rmtree. destruct (od_get d t) as [[|c]|]; try discriminate. intros H p P. inversion H; subst t'. apply od_get_none.
  intros I0. apply in_map_iff in I0. destruct I0 as ([k x] & E & I0). cbn [fst] in E. subst k. apply filter_In in I0. destruct I0 as [_ I0].
  cbn [fst] in I0. apply negb_true_iff, orb_false_iff in I0. destruct I0 as [N1 N2]. destruct P as [-> |P]; [rewrite streq_refl in N1; discriminate N1|congruence].
Qed.

Lemma write_none p c t t' q : write_file p c t = Ok t' -> q <> p -> od_get q t = None -> od_get q t' = None.
Proof.
  unfold write_file. destruct (is_dir p t); [discriminate|]. destruct (is_dir (dirname p) t); [|discriminate]. intros H N0 E. inversion H; subst.
  rewrite od_get_set_other by exact N0. exact E.
Qed.

Lemma save_none v algs i t t' q : save v algs i t = Ok t' -> in_mb q = true -> od_get q t = None -> od_get q t' = None.
Proof.
  intros H Q E. unfold save in H. apply bind_ok in H. destruct H as (t1 & H1 & H). apply bind_ok in H. destruct H as (t2 & H2 & H).
  apply bind_ok in H. destruct H as (o & _ & H). inversion H; subst t2; clear H.
  assert (E1 : od_get q t1 = None) by (eapply write_none; [exact H1| |exact E]; intros ->; discriminate Q).
  clear H1 E. revert t1 H2 E1. induction algs as [|a algs IH]; intros t1 H2 E1; cbn [foldM] in H2; [inversion H2; subst; exact E1|].
  apply bind_ok in H2. destruct H2 as (t3 & H3 & H2). apply (IH t3 H2). eapply write_none; [exact H3| |exact E1]. intros ->. discriminate Q.
Qed.

Theorem C126_nothing_left : forall v order unpacked remote update_sizes bsize ro h loc there dest t',
  f_restore v order unpacked remote update_sizes true bsize ro h loc there dest = Ok t' -> no_cache t'.
Proof.
  intros v order unpacked remote us bsize ro h loc there dest t' H. apply no_cache_iff. intros p P. apply in_cache_mb in P.
  unfold f_restore in H. apply bind_ok in H. destruct H as ([skip ms] & _ & H).
  apply bind_ok in H. destruct H as (x0 & _ & H). apply bind_ok in H. destruct H as (x1 & _ & H). apply bind_ok in H. destruct H as (x2 & _ & H).
  apply bind_ok in H. destruct H as (x3 & _ & H). apply bind_ok in H. destruct H as (x4 & _ & H).
  unfold finish in H. apply bind_ok in H. destruct H as ([i es] & _ & H). apply bind_ok in H. destruct H as (algs & _ & H).
  apply bind_ok in H. destruct H as ([i' t1] & H1 & H).
  apply bind_ok in H1. destruct H1 as (t0 & R & H1). apply bind_ok in H1. destruct H1 as (t2 & S1 & H1). inversion H1; subst i' t2; clear H1.
  assert (E0 : od_get p t0 = None).
  { apply (rm_none _ _ _ R). unfold in_mb in P. apply orb_true_iff in P. destruct P as [P|P]; [left; apply streq_eq; exact P|right; exact P]. }
  pose proof (save_none _ _ _ _ _ p S1 P E0) as E1. destruct us; [|inversion H; subst; exact E1].
  apply bind_ok in H. destruct H as ([sz n] & _ & H). apply bind_ok in H. destruct H as (t3 & S3 & H).
  eapply save_none; [exact H|exact P|]. eapply save_none; [exact S3|exact P|exact E1].
Qed.

(** ** There and back *)

(** The bags of a split do not have the cache directory. *)
Lemma split_bag_plain src t m h : wf_tree t -> (forall q, multibag_path q -> od_get q src = None) -> exact_copies src t m h -> plain_bag t.
Proof.
  intros W Nm E.
  assert (Ns : forall q, in_mb q = true -> od_get q src = None).
  { intros q Q. apply Nm. unfold in_mb in Q. apply orb_true_iff in Q. destruct Q as [Q|Q]; [left; apply streq_eq; exact Q|right].
    apply below_iff in Q; [|discriminate]. destruct Q as (r & ->). exists r. reflexivity. }
  split; [exact W|]. split.
  - apply no_cache_iff. intros p P. pose proof (in_cache_mb p P) as Pm. destruct (od_get p t) as [[|c]|] eqn:G; [| |reflexivity]; exfalso.
    + assert (D : is_dir p t = true) by (unfold is_dir; destruct p; [reflexivity|rewrite G; reflexivity]).
      destruct (ec_parents _ _ _ _ E p D) as [-> |[-> |[[_ ->]|(f & _ & Ef & Bf)]]]; try discriminate P.
      assert (Cf : in_mb f = true).
      { destruct Bf as [Bf|[<- _]]; [|exact Pm]. apply in_cache_mb. destruct p as [|c0 p0]; [discriminate P|].
        apply below_iff in Bf; [|discriminate]. destruct Bf as (r & ->). apply in_cache_prefix. exact P. }
      assert (f <> []) by (intros ->; discriminate Cf). apply exists_get in Ef; [|assumption]. rewrite (Ns f Cf) in Ef. congruence.
    + assert (R : read p t = Some c) by (unfold read; rewrite G; reflexivity).
      destruct (ec_only _ _ _ _ E p c R) as [O|[_ Rs]]; [inversion O; subst p; discriminate P|].
      unfold read in Rs. rewrite (Ns p Pm) in Rs. discriminate Rs.
  - destruct (is_file (U "multibag") t) eqn:F; [|reflexivity]. exfalso. apply is_file_read in F. destruct F as [c R].
    destruct (ec_only _ _ _ _ E _ c R) as [O|[_ Rs]]; [inversion O|]. unfold read in Rs. rewrite (Ns (U "multibag") eq_refl) in Rs. discriminate Rs.
Qed.

(** The bag [t] with the name [n] is delivered at [place]. *)
Definition comes_as (v : env) (unpacked : pystr -> tree) (remote : pystr -> option delivery) (n : pystr) (t : tree) (place : pystr) : Prop :=
  (remote n = Some (AsDir t) /\ place = put_at v n) \/
  (exists ext c, remote n = Some (AsArchive ext c) /\ unpacked c = t /\ place = put_at v (n ++ ext)).

(** A valid bag that was split, with all bags but the head bag on a server, is
    restored by fetching them: the result is valid, and has what the source has.
    [w] are the surroundings of the validation. *)
Theorem C126_there_and_back : forall s o p it out bags v w A bsize ro h loc src b order unpacked remote at_,
  restorable v A s -> is_dir (U "data") (so_tree s) = true ->
  plain_opts IoText o -> p_manifests p <> [] -> plans_all p (so_tree s) ->
  splits_into s o p it out bags -> Forall (storable IoText) (map fst bags) -> Forall plain_name (map fst bags) ->
  plain_algos v -> NoDup (e_algos v) -> incl A (e_algos v) -> good_hash v -> plain_text bsize ->
  head_of IoText bags h -> loc <> e_dest v ->
  (forall f, is_file f (so_tree s) = true -> e_danger v loc f = false /\ forall n, In n (map fst bags) -> e_danger v (at_ n) f = false) ->
  (forall n t, In (n, t) bags -> n <> hb_name h -> comes_as v unpacked remote n t (at_ n)) ->
  incl order extensions -> own_files remote (map fst bags) ->
  same_world v w -> valid_source (at_place v w src) s b -> plain_plan (at_place v w src) s p ->
  (forall a c x, In x (v_hash w a c) -> x < 128) ->
  exists dest', f_restore v order unpacked remote true true bsize ro h loc false [] = Ok dest' /\
    passes_plain (at_place v w (e_dest v)) dest' /\
    forall q, ~ special_path q -> od_get q dest' = od_get q (so_tree s).
Proof.
  intros s o p it out bags v w A bsize ro h loc src b order unpacked remote at_ RS Dd Hp Np Pa Sp St Nn Sv Na Inc Gh Pt Hd Nl Sf Rm Io Of Sw VS PP H128.
  set (place := fun n => if streq n (hb_name h) then loc else at_ n).
  set (v' := {| e_algos := e_algos v; e_version := e_version v; e_danger := e_danger v; e_hash := e_hash v; e_dest := e_dest v;
                e_find := fun n => match od_get n bags with Some t => Some {| rb_loc := place n; rb_tree := t |} | None => None end |}).
  assert (RS' : restorable v' A s) by (destruct RS as [? ? ? ? ? ? ? ? [? ?]]; constructor; try assumption; constructor; assumption).
  assert (Sw' : same_world v' w) by (destruct Sw; constructor; assumption).
  pose proof (made_split _ _ _ _ _ _ Sp) as (ms0 & lu0 & ms' & lu' & _ & _ & ND & _).
  assert (Pl : forall n, n <> hb_name h -> place n = at_ n).
  { intros n X. unfold place. destruct (streq_reflect n (hb_name h)); [contradiction|reflexivity]. }
  assert (Ph : place (hb_name h) = loc) by (unfold place; rewrite streq_refl; reflexivity).
  assert (Pd : forall n, put_at v n <> e_dest v).
  { intros n X. apply (f_equal (@length _)) in X. unfold put_at in X. rewrite !app_length in X. cbn [length U] in X.
    match type of X with context [length (U ?z)] => change (length (U z)) with 23%nat in X | _ => idtac end. simpl in X. lia. }
  assert (Fo : found v' place bags).
  { intros n t I0. cbn [v' e_find e_dest]. rewrite (od_in_get n t bags ND I0). split; [reflexivity|]. unfold place.
    destruct (streq_reflect n (hb_name h)) as [_|Nh]; [exact Nl|]. destruct (Rm n t I0 Nh) as [(_ & ->)|(ext & c & _ & _ & ->)]; apply Pd. }
  assert (Sf' : safe_places v' place bags (so_tree s)).
  { intros n f In_ Ff. cbn [v' e_danger]. destruct (Sf f Ff) as [S1 S2]. unfold place. destruct (streq n (hb_name h)); [exact S1|apply S2; exact In_]. }
  destruct (C95_split_restores_valid s o p it out bags v' w A bsize ro h place src b RS' Dd Hp Np Pa Sp St Sv Na Inc Gh Pt Fo Sf' Hd Sw' VS PP H128)
    as (D & Hr & Pp & Eq).
  rewrite Ph in Hr. exists D. split; [|split; [exact Pp|exact Eq]].
  pose proof (rs_reader _ _ _ RS) as Er.
  destruct (split_aggregation s o p it out bags v' ro h place) as (othr & head & t & tags & members & Eb & Tg & Eh & Hl & Ha & Fw);
    try rewrite Er; auto; try apply RS'.
  assert (En : hb_name h = head) by (rewrite Eh; reflexivity).
  assert (Pb : forall n x, In (n, x) bags -> plain_bag x).
  { intros n x I0.
    assert (Z : forall l bs, Forall2 (fun (mh : manifest * bool) bt => wf_tree (snd bt) /\ exact_copies (so_tree s) (snd bt) (fst mh) (snd mh)) l bs ->
              In (n, x) bs -> exists m hh, wf_tree x /\ exact_copies (so_tree s) x m hh).
    { induction 1 as [|mh bt l bs [W H] F IH]; intros J; [destruct J|]. destruct J as [-> |J]; eauto. }
    destruct (Z _ _ Fw I0) as (m & hh & W & E). eapply split_bag_plain; eauto. apply (rs_nomulti _ _ _ RS). }
  assert (Os : others h members = map fst (rev othr)).
  { assert (Hp' : plain_opts (so_reader s) o) by (rewrite Er; exact Hp).
    assert (St' : Forall (storable (so_reader s)) ([] ++ map fst bags)) by (rewrite Er; exact St).
    destruct (C26_head_and_members_partial s o p it out bags [] [] (rs_opened _ _ _ RS) Hp' (not_a_head s (rs_member _ _ _ RS)) (NoDup_nil _) Np Sp St')
      as (o2 & h2 & t2 & tags2 & m2 & Eb2 & _ & Tg2 & _ & Im & Nms & _).
    rewrite Eb in Eb2. apply app_inj_tail in Eb2. destruct Eb2 as [<- Eb2]. inversion Eb2; subst h2 t2.
    rewrite Tg in Tg2. inversion Tg2; subst tags2.
    assert (members = m2).
    { rewrite Eh in Hl. unfold head_lists in Hl. destruct (snd (deleted_paths false (open_hb head t tags (so_reader s)))) as [dl|]; [|discriminate Hl]. cbn [bind] in Hl.
      destruct ro; unfold HeadBag.member_bags, member_bags_ro in Hl; cbn [hb_mem open_hb] in Hl; rewrite Im in Hl; cbn [snd bind] in Hl; inversion Hl; reflexivity. }
    subst m2. cbn [filter app] in Nms. unfold others. rewrite map_rev, Nms, Eb, map_app, rev_app_distr. cbn [map rev app fst].
    rewrite En, streq_refl, map_rev. reflexivity. }
  assert (Hb : plain_bag (hb_tree h)).
  { rewrite Eh. cbn [open_hb hb_tree]. apply (Pb head t). rewrite Eb. apply in_or_app. right; left; reflexivity. }
  change (f_restore v' order unpacked remote true true bsize ro h loc false [] = Ok D). rewrite Forall_forall in Nn.
  apply (f_restore_sim order unpacked remote (fun n => In n (map fst bags)) Nn (order_plain order Io)) with (skip := []) (ms := members).
  - intros n ext c I0 E. destruct (Of n ext c I0 E) as [Ns X]. split; [exact Ns|]. intros n' I1. destruct (X n' I1) as [X1 X2]. split; [exact X1|].
    intros e Ie. apply X2. apply Io. exact Ie.
  - intros q _. reflexivity.
  - left. reflexivity.
  - right. destruct Hb as (W & C & F). split; [exact W|]. split; [apply no_cache_iff; exact C|exact F].
  - exact Hl.
  - rewrite Os. apply Forall_forall. intros n I0. apply in_map_iff in I0. destruct I0 as ([n0 x] & X & I0). cbn [fst] in X. subst n0. apply in_rev in I0.
    assert (Ib : In (n, x) bags) by (rewrite Eb; apply in_or_app; left; exact I0).
    assert (Nh : n <> hb_name h).
    { rewrite En. intros X. subst n. rewrite Eb, map_app in ND. cbn [map fst] in ND. apply NoDup_remove_2 in ND. apply ND. rewrite app_nil_r.
      apply in_map_iff. exists (head, x). auto. }
    split; [apply in_map_iff; exists (n, x); auto|].
    destruct (Pb n x Ib) as (W & C & F). assert (Ap : apart x) by (split; [exact W|]; split; [apply no_cache_iff; exact C|exact F]).
    destruct (Rm n x Ib Nh) as [(-> & Ea)|(ext & c & -> & <- & Ea)]; cbn [bag_of file_name]; (split; [exact Ap|]);
      cbn [v' e_find e_dest]; rewrite (od_in_get n _ bags ND Ib), (Pl n Nh), Ea; reflexivity.
  - exact Hr.
Qed.

(** ** With the tags kept *)

(** The bag src_1.mbag comes as a directory and the bag src_2.mbag as an archive. *)
Definition va_unpacked (c : pystr) : tree := if streq c (U "PK2") then match od_get (U "src_2.mbag") va_bags with Some t => t | None => [] end else [].
Definition va_remote (n : pystr) : option delivery :=
  if streq n (hb_name va_head) then None
  else if streq n (U "src_2.mbag") then Some (AsArchive (U ".zip") (U "PK2"))
  else option_map AsDir (od_get n va_bags).
Definition va_at (n : pystr) : pystr := put_at va_env (if streq n (U "src_2.mbag") then n ++ U ".zip" else n).
Definition va_fetch (remove_tags : bool) : res tree :=
  f_restore va_env extensions va_unpacked va_remote true remove_tags (fun _ => U "1 kB") false va_head (ex_place (hb_name va_head)) false [].

(** If the multibag tags are kept, so are the fetched bags: the restored bag
    has all of them in multibag/_membercache, and lists them in its tag manifests. *)
Theorem C126_kept_refuted : exists v unpacked remote h loc t t',
  restore (with_bags v unpacked remote) true false (fun _ => U "1 kB") false h loc [] = Ok t /\
  f_restore v extensions unpacked remote true false (fun _ => U "1 kB") false h loc false [] = Ok t' /\
  no_cache t /\ is_file (U "multibag/_membercache/src_1.mbag/bagit.txt") t' = true /\
  (exists c, read (U "tagmanifest-sha256.txt") t' = Some c /\ substr_in (U "multibag/_membercache/src_1.mbag/bagit.txt") c = true).
Proof.
  exists va_env, va_unpacked, va_remote, va_head, (ex_place (hb_name va_head)),
    (got [] (restore (with_bags va_env va_unpacked va_remote) true false (fun _ => U "1 kB") false va_head (ex_place (hb_name va_head)) [])), (got [] (va_fetch false)).
  split; [vm_compute; reflexivity|]. split; [vm_compute; reflexivity|]. split; [|split; [vm_compute; reflexivity|]].
  - apply no_cache_iff.
    assert (E : forallb (fun kv : pystr * node => negb (in_cache (fst kv)))
      (got [] (restore (with_bags va_env va_unpacked va_remote) true false (fun _ => U "1 kB") false va_head (ex_place (hb_name va_head)) [])) = true) by (vm_compute; reflexivity).
    revert E. generalize (got [] (restore (with_bags va_env va_unpacked va_remote) true false (fun _ => U "1 kB") false va_head (ex_place (hb_name va_head)) [])).
    intros t E p P. apply od_get_none. intros I0. apply in_map_iff in I0. destruct I0 as ([k x] & X & I0). cbn [fst] in X. subst k.
    rewrite forallb_forall in E. apply E in I0. cbn [fst] in I0. rewrite P in I0. discriminate I0.
  - exists (match read (U "tagmanifest-sha256.txt") (got [] (va_fetch false)) with Some c => c | None => [] end).
    split; vm_compute; reflexivity.
Qed.

Definition plain_nameb (n : pystr) : bool :=
  negb (streq n []) && negb (streq n (U ".")) && negb (streq n (U "..")) && forallb (fun c => negb (c =? SLASH)) n.
Lemma plain_nameb_ok n : plain_nameb n = true -> plain_name n.
Proof.
  unfold plain_nameb. rewrite !andb_true_iff, !negb_true_iff. intros (((H1 & H2) & H3) & H4).
  split; [intros ->; discriminate H1|]. split; [intros ->; discriminate H2|]. split; [intros ->; discriminate H3|].
  intros I0. rewrite forallb_forall in H4. apply H4 in I0. discriminate I0.
Qed.

(** The example of C95 meets the conditions, and the fetched bags make a
    difference while they are there. *)
Example C126_case :
  Forall plain_name (map fst va_bags) /\ ex_place (hb_name va_head) <> e_dest va_env /\
  (forall f, is_file f va_tree = true -> e_danger va_env (ex_place (hb_name va_head)) f = false /\
     forall n, In n (map fst va_bags) -> e_danger va_env (va_at n) f = false) /\
  (forall n t, In (n, t) va_bags -> n <> hb_name va_head -> comes_as va_env va_unpacked va_remote n t (va_at n)) /\
  own_files va_remote (map fst va_bags) /\
  va_fetch true = restore va_env true true (fun _ => U "1 kB") false va_head (ex_place (hb_name va_head)) [] /\
  length (got [] (va_fetch true)) = 14%nat.
Proof.
  assert (En : map fst va_bags = [U "src_1.mbag"; U "src_2.mbag"; U "src_3.mbag"]) by (vm_compute; reflexivity).
  split. { rewrite En. repeat (apply Forall_cons; [apply plain_nameb_ok; reflexivity|]). constructor. }
  split; [discriminate|]. split; [intros f _; split; [reflexivity|intros n _; reflexivity]|]. split.
  { intros n t I0 N0. assert (Gt : od_get n va_bags = Some t) by (apply od_in_get; [rewrite (En : od_keys va_bags = _); apply nodupb_ok; vm_compute; reflexivity|exact I0]).
    unfold comes_as, va_remote, va_at. destruct (streq_reflect n (hb_name va_head)) as [X|_]; [contradiction|].
    destruct (streq_reflect n (U "src_2.mbag")) as [X|_]; [right|left; rewrite Gt; split; reflexivity]. exists (U ".zip"), (U "PK2"). split; [reflexivity|].
    split; [unfold va_unpacked; rewrite <- X, Gt; reflexivity|reflexivity]. }
  split.
  { intros n ext c I0 E. rewrite En in *. unfold va_remote in E. destruct (streq n (hb_name va_head)); [discriminate E|].
    destruct (streq_reflect n (U "src_2.mbag")) as [X|_]; [|destruct (od_get n va_bags); discriminate E]. rewrite X in *. injection E as <- _.
    split; [cbn; intuition discriminate|]. intros n' I1. split.
    - destruct I1 as [<-|[<-|[<-|[]]]]; discriminate.
    - intros e Ie. destruct I1 as [<-|[<-|[<-|[]]]]; [|reflexivity|]; destruct Ie as [<-|[<-|[<-|[<-|[<-|[]]]]]]; discriminate. }
  split; vm_compute; reflexivity.
Qed.

Print Assumptions C126_same_bag.
Print Assumptions C126_nothing_left.
Print Assumptions C126_there_and_back.
Print Assumptions C126_kept_refuted.

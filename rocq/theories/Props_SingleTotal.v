(** C116: any bag can be made a multibag, and amended from then on *)
Require Import String NArith ZArith PeanoNat Bool List Lia.
From Verif Require Import PyBase PyFacts Version Tsv TsvProofs Fs FsFacts HeadBag HeadBagProofs HeadBagProofs2 HeadBagProofs3 BagIt BagItProofs BagItProofs2 Split SplitApply SplitApplyProofs SplitApplyProofs5 SplitApplyProofs7 SplitApplyProofs8 Restore RestoreProofs RestoreProofs2 RestoreProofs3 RestoreProofs4 RestoreProofs6 RestoreProofs7 RestoreProofs8 RestoreProofs9 RestoreProofs10 RestoreProofs11 Props_SplitApply Props_Restore Props_Restore3 Props_Restore4 BagValid BagValidProofs Props_BagValid Props_BagValid2 Props_BagValid4 Amend AmendProofs AmendProofs2 AmendProofs3 AmendProofs4 SingleProofs SaveValidProofs Props_RoundTrip2 Props_Amend Props_Single Props_Validate5 Props_AmendRestore Props_AmendValid Props_AmendRestore2 Props_AmendHistory Props_AmendHistory2 AmendTotalProofs Props_AmendTotal Props_AmendTotal2 SingleTotalProofs.
Import ListNotations.
Open Scope N_scope.

(** ** What is asked of the bag *)

(** The tag directory [td] is there or can be made in a directory, and
    nothing in it stands in the way of the lists. The files that an update
    writes are no directories. Its manifests list each path once, no name of
    a tag file breaks a line of a manifest, and no tag begins with the mark
    that begins a UTF-8 file. *)
Record unobstructed (v : env) (td : pystr) (t : tree) : Prop := {
  uo_dir : is_dir td t = true \/ (exists_ td t = false /\ is_dir (dirname td) t = true);
  uo_free : Forall (fun f => is_dir (td ++ U "/" ++ f) t = false) [U "member-bags.tsv"; U "file-lookup.tsv"; U "deleted.txt"];
  uo_version : exists c v1, read (U "bagit.txt") t = Some c /\ e_version v c = Ok (true, v1);
  uo_mans : good_mans v (e_dest v) t;
  uo_names : names_ok v t;
  uo_lists : Forall (good_name v) [U "bag-info.txt"; td ++ U "/member-bags.tsv"; td ++ U "/file-lookup.tsv"];
  uo_info : od_get (U "bag-info.txt") t <> Some NDir;
  uo_tags : forall a, In a (e_algos v) -> od_get (U "tagmanifest-" ++ a ++ U ".txt") t <> Some NDir;
  uo_own : td <> U "bag-info.txt" /\ forall a, td <> U "tagmanifest-" ++ a ++ U ".txt";
  uo_bom : forall i, tags_of Codecs t = Ok i -> Forall (fun kv => hd 0 (fst kv) <> BOM) i
}.

(** ** C116 *)

Theorem C116_single_succeeds : forall v bsize bagdir name t td version pid,
  plain_algos v -> NoDup (e_algos v) -> good_hash v -> plain_size bsize ->
  convertible t td -> unobstructed v td t ->
  name <> [] -> ~ In SLASH name -> bagdir = name \/ (exists d, bagdir = d ++ SLASH :: name) ->
  tag_value_ok Codecs version ->
  exists t', make_single_multibag v bsize bagdir t version pid = Ok t'.
Proof.
  intros v bsize bagdir name t td version pid Pa Na Gh B (W & i & Ti & Td & Ov & Tv & Gt & Ot) [D F Vn M Nm Ls Bi Tg [O1 O2] Bm] N0 Ns Hb Vv.
  destruct (name_at_path bagdir name N0 Ns Hb) as [_ En].
  apply (single_total v bsize bagdir version pid name t i td); auto.
  - intros k I. unfold od_keys in I. apply in_map_iff in I. destruct I as (kv & <- & I). specialize (Bm i Ti). rewrite Forall_forall in Bm. apply Bm. exact I.
  - intros [E|[a E]]; [exact (O1 E)|exact (O2 a E)].
  - split; [exact D|]. intros f I. rewrite Forall_forall in F. apply (F f). cbn in I |- *. tauto.
  - constructor; auto. exact (proj1 W).
Qed.
Print Assumptions C116_single_succeeds.

(** What conversion writes, once more. *)
Lemma single_written v bsize bagdir name t td version pid t' :
  plain_algos v -> plain_size bsize -> convertible t td ->
  name <> [] -> ~ In SLASH name -> bagdir = name \/ (exists d, bagdir = d ++ SLASH :: name) ->
  version <> [] -> tag_value_ok Codecs version ->
  make_single_multibag v bsize bagdir t version pid = Ok t' ->
  let ms := [{| Tsv.m_name := name; m_uri := pid; m_comment := None; m_info := [] |}] in
  exists i lu d, tags_of Codecs t = Ok i /\ bag_files t' /\
    (forall p, od_get p d = if is_payload p && is_file p t then Some name else None) /\ NoDup (od_keys d) /\
    (lu = Some d \/ (lu = None /\ d = [])) /\
    read (sjoin td F_members) t' = Some (fst (members_prefix ms)) /\
    read (sjoin td F_lookup) t' = (match lu with Some d => Some (lookup_text d) | None => None end) /\
    forall r, exists j, tags_of r t' = Ok j /\ std_tags j td /\ tag_values j T_HeadVersion = [version] /\
      tag_values j T_HeadDeprecates = map (fun x => unfold_value r (one_line x)) (tag_values i T_HeadDeprecates).
Proof.
  intros Pa B (W & i & Ti & Td & Ov & Tv & Gt & Ot) N0 Ns Hb Nv Vv H ms.
  destruct (name_at_path bagdir name N0 Ns Hb) as [Eb En].
  unfold make_single_multibag in H. apply bind_ok in H. destruct H as ([i' es] & Ho & H). apply bind_ok in H. destruct H as (algs & Ha & H).
  assert (i' = i).
  { unfold open_bag in Ho. destruct (read F_bagit t) as [c|]; [|discriminate]. apply bind_ok in Ho. destruct Ho as ([v97 v1] & _ & Ho).
    apply bind_ok in Ho. destruct Ho as (i0 & Hi & Ho). apply bind_ok in Ho. destruct Ho as (e0 & _ & Ho). injection Ho as -> _.
    unfold tags_of in Ti. change (U "bag-info.txt") with F_baginfo in Ti. destruct (read F_baginfo t); congruence. }
  subst i'. rewrite En in H. destruct (convert v algs bsize bagdir version pid (open_hb name t i Codecs)) as [h' [[]|e]] eqn:C; [|discriminate].
  injection H as <-.
  destruct (convert_run v algs bsize bagdir version pid name t i h' td Pa (algorithms_in _ _ _ Ha) B Ti Td Ov Tv Gt Ot Nv Vv W N0 C)
    as (i2 & lu & d & _ & _ & K & G & D & L & Rm & Rl & T).
  cbv zeta in Rm. rewrite Eb in Rm. exists i, lu, d. split; [exact Ti|]. split; [exact (proj1 (K W))|]. split; [exact G|]. split; [exact D|]. split; [exact L|].
  split; [exact Rm|]. split; [exact Rl|]. intros r. destruct (T r) as (j & J1 & J2 & J3 & _ & _ & _ & _ & J). exists j. split; [exact J1|]. split; [exact J2|].
  split; [exact J3|]. apply J. cbn. intuition discriminate.
Qed.

(** The bag that was made a multibag is the first version of a history of
    amendments, if it has a payload file. *)
Theorem C116_first_version : forall v bsize bagdir name t td version pid t' r,
  plain_algos v -> plain_size bsize -> convertible t td ->
  name <> [] -> ~ In SLASH name -> bagdir = name \/ (exists d, bagdir = d ++ SLASH :: name) ->
  version <> [] -> tag_value_ok Codecs version ->
  make_single_multibag v bsize bagdir t version pid = Ok t' ->
  let m := {| Tsv.m_name := name; m_uri := pid; m_comment := None; m_info := [] |} in
  storable_member r m -> (forall p, is_payload p && is_file p t = true -> storable_entry r (p, name)) ->
  (forall i, tags_of Codecs t = Ok i -> tag_values i (U "Multibag-Head-Deprecates") = []) ->
  (exists p, is_payload p && is_file p t = true) ->
  exists j, first_version r name t' j [m] version /\ amendable (open_hb name t' j r) /\ (forall rs, some_file (open_hb name t' j r) rs) /\
    forall p x, answers (open_hb name t' j r) p (Some x) -> x = name.
Proof.
  intros v bsize bagdir name t td version pid t' r Pa B Cv N0 Ns Hb Nv Vv H m Sm Se Dp [q Q].
  destruct (single_written v bsize bagdir name t td version pid t' Pa B Cv N0 Ns Hb Nv Vv H) as (i & lu & d & Ti & Bf & G & D & L & Rm & Rl & T).
  destruct (T r) as (j & J1 & J2 & J3 & J4). change T_HeadDeprecates with (U "Multibag-Head-Deprecates") in J4. rewrite (Dp i Ti) in J4. cbn [map] in J4.
  assert (Sj : tag_shape j).
  { unfold tags_of in J1. destruct (read (U "bag-info.txt") t') as [c|]; [exact (Props_Restore3.load_shape _ _ _ J1)|]. injection J1 as <-. discriminate J3. }
  assert (lu = Some d). { destruct L as [L|[_ ->]]; [exact L|]. specialize (G q). rewrite Q in G. discriminate G. } subst lu.
  assert (Sd : Forall (storable_entry r) d).
  { apply Forall_forall. intros [p x] I. pose proof (od_in_get p x d D I) as E. rewrite G in E.
    destruct (is_payload p && is_file p t) eqn:P; [|discriminate]. injection E as <-. apply Se; exact P. }
  assert (Fm : Forall (storable_member r) [m]) by (constructor; [exact Sm|constructor]).
  pose proof (members_again r name t' j td [m] J2 Rm Fm) as Em.
  assert (El : iter_file_lookup (open_hb name t' j r) = Ok d).
  { rewrite (iter_lookup_read (open_hb name t' j r) td _ J2 Rl). cbn [hb_reader open_hb].
    rewrite decode_id by (apply lookup_text_no_bom; auto). apply lookup_roundtrip. apply Forall_storable_legal; auto. }
  assert (Ea : forall p, snd (lookup_file p false (open_hb name t' j r)) = Ok (od_get p d)).
  { intros p. rewrite (lookup_again r name t' j td (Some d) p J2 Rl); [reflexivity|]. intros d0 E. injection E as <-. auto. }
  assert (Hd : is_head (open_hb name t' j r) = true).
  { unfold is_head, od_has. cbn [open_hb hb_info]. destruct (od_get T_HeadVersion j) eqn:E; [reflexivity|]. unfold tag_values in J3. rewrite E in J3. discriminate J3. }
  assert (An : forall p x, answers (open_hb name t' j r) p x <-> x = od_get p d).
  { intros p x. unfold answers. rewrite Hd, Ea. split; [intros [[_ E]|[E _]]; [injection E as <-; reflexivity|discriminate E]|intros ->; left; auto]. }
  exists j. split; [|split; [|split]].
  - constructor; auto.
    + left. split; [exact Hd|exact Em].
    + intros p. exists (od_get p d). apply An. reflexivity.
    + unfold version_is. left. exact (one_value _ _ _ Sj J3).
    + rewrite J4. constructor; [exact Vv|constructor].
    + intros p x A0. apply An in A0. symmetry in A0. rewrite G in A0. destruct (is_payload p && is_file p t) eqn:P; [|discriminate A0].
      injection A0 as <-. exact (Se p P).
  - right. split; [exact Hd|]. split.
    + exists [m]. split; [exact Em|]. constructor; [reflexivity|constructor].
    + exists d. split; [exact El|]. rewrite Forall_forall in Sd |- *. intros e I0. destruct (Sd e I0) as [S1 S2]. split; eapply storable_some; eauto.
  - intros rs. left. exists q, name. apply An. rewrite G, Q. reflexivity.
  - intros p x A0. apply An in A0. rewrite G in A0. destruct (is_payload p && is_file p t); [injection A0 as ->; reflexivity|discriminate A0].
Qed.
Print Assumptions C116_first_version.

(** Conversion, followed by any number of releases. *)
Theorem C116_history_succeeds : forall v place r bsize repr ro bagdir name t td version pid,
  plain_algos v -> NoDup (e_algos v) -> good_hash v -> plain_size bsize ->
  convertible t td -> unobstructed (there v (place name)) td t ->
  name <> [] -> ~ In SLASH name -> bagdir = name \/ (exists d, bagdir = d ++ SLASH :: name) ->
  version <> [] -> tag_value_ok Codecs version ->
  storable_member r {| Tsv.m_name := name; m_uri := pid; m_comment := None; m_info := [] |} ->
  (forall p, is_payload p && is_file p t = true -> storable_entry r (p, name)) ->
  (forall i, tags_of Codecs t = Ok i -> tag_values i (U "Multibag-Head-Deprecates") = []) ->
  (exists p, is_payload p && is_file p t = true) ->
  exists t', make_single_multibag (there v (place name)) bsize bagdir t version pid = Ok t' /\
    forall rs, Forall (good_release r) rs -> NoDup (name :: map fst (flat_map bags_in rs)) -> Forall (roomy_release v place) rs ->
      exists n t'' added, amended_by (performed v place r bsize repr ro) name t' rs n t'' added.
Proof.
  intros v place r bsize repr ro bagdir name t td version pid Pa Na Gh B Cv Uo N0 Ns Hb Nv Vv Sm Se Dp Ex.
  destruct (C116_single_succeeds (there v (place name)) bsize bagdir name t td version pid Pa Na Gh B Cv Uo N0 Ns Hb Vv) as [t' H].
  exists t'. split; [exact H|]. intros rs G D R.
  destruct (C116_first_version (there v (place name)) bsize bagdir name t td version pid t' r Pa B Cv N0 Ns Hb Nv Vv H Sm Se Dp Ex) as (j & F & Ao & Sf & An).
  apply (C115_history_succeeds v place r bsize repr ro name t' j _ version rs Pa Na Gh B F Ao (Sf rs) G); [|exact R].
  split; [exact D|]. intros p y A0. rewrite (An p y A0). inversion D. assumption.
Qed.
Print Assumptions C116_history_succeeds.

(** A bag without payload files can be made a multibag, but not be amended
    after that. *)
Theorem C116_no_payload_refuted : forall v bsize bagdir name t td version pid t' r,
  plain_algos v -> plain_size bsize -> convertible t td ->
  name <> [] -> ~ In SLASH name -> bagdir = name \/ (exists d, bagdir = d ++ SLASH :: name) ->
  version <> [] -> tag_value_ok Codecs version ->
  (forall p, is_payload p && is_file p t = false) ->
  make_single_multibag v bsize bagdir t version pid = Ok t' ->
  exists j, tags_of r t' = Ok j /\
    forall v2 algs2 bsize2 repr2 ro2 bags2 version2 new2 new2' old2',
      amend_bag_with v2 algs2 bsize2 repr2 ro2 (open_hb name t' j r) bags2 version2 new2 <> (new2', Ok old2').
Proof.
  intros v bsize bagdir name t td version pid t' r Pa B (W & i & Ti & Td & Ov & Tv & Gt & Ot) N0 Ns Hb Nv Vv Np H.
  destruct (name_at_path bagdir name N0 Ns Hb) as [Eb En].
  unfold make_single_multibag in H. apply bind_ok in H. destruct H as ([i' es] & Ho & H). apply bind_ok in H. destruct H as (algs & Ha & H).
  assert (i' = i).
  { unfold open_bag in Ho. destruct (read F_bagit t) as [c|]; [|discriminate]. apply bind_ok in Ho. destruct Ho as ([v97 v1] & _ & Ho).
    apply bind_ok in Ho. destruct Ho as (i0 & Hi & Ho). apply bind_ok in Ho. destruct Ho as (e0 & _ & Ho). injection Ho as -> _.
    unfold tags_of in Ti. change (U "bag-info.txt") with F_baginfo in Ti. destruct (read F_baginfo t); congruence. }
  subst i'. rewrite En in H. destruct (convert v algs bsize bagdir version pid (open_hb name t i Codecs)) as [h' [[]|e]] eqn:C; [|discriminate].
  injection H as <-.
  pose proof (convert_quiet v algs bsize bagdir version pid name t i h' td Pa (algorithms_in _ _ _ Ha) B Ti Td Ov Gt Ot W N0 Np C) as R.
  destruct (convert_run v algs bsize bagdir version pid name t i h' td Pa (algorithms_in _ _ _ Ha) B Ti Td Ov Tv Gt Ot Nv Vv W N0 C)
    as (i2 & lu & d & _ & _ & K & G & D & L & Rm & Rl & T).
  destruct (T r) as (j & J1 & J2 & J3 & _). exists j. split; [exact J1|].
  assert (Hd : is_head (open_hb name (hb_tree h') j r) = true).
  { unfold is_head, od_has. cbn [open_hb hb_info]. destruct (od_get T_HeadVersion j) eqn:E; [reflexivity|]. unfold tag_values in J3. rewrite E in J3. discriminate J3. }
  intros. apply untabled_fails; [exact Hd|]. exists EMissingFile. apply (missing_lookup (open_hb name (hb_tree h') j r) td J2). exact R.
Qed.
Print Assumptions C116_no_payload_refuted.

(** ** Cases *)

(** The first version of C115 is made a multibag first; the releases follow. *)
Example C116_case :
  plain_algos hg_env /\ NoDup (e_algos hg_env) /\ good_hash hg_env /\ plain_size (fun _ => U "1 kB") /\
  convertible va_tree (U "multibag") /\ unobstructed (there hg_env (ar_place (U "src"))) (U "multibag") va_tree /\
  storable_member Codecs (plain_member (U "src")) /\
  (forall p, is_payload p && is_file p va_tree = true -> storable_entry Codecs (p, U "src")) /\
  (forall i, tags_of Codecs va_tree = Ok i -> tag_values i (U "Multibag-Head-Deprecates") = []) /\
  is_payload (U "data/a") && is_file (U "data/a") va_tree = true /\
  Forall (good_release Codecs) [hg_r1; hg_r2] /\ NoDup (U "src" :: map fst (flat_map bags_in [hg_r1; hg_r2])) /\
  Forall (roomy_release hg_env ar_place) [hg_r1; hg_r2].
Proof.
  destruct C114_case as (C1 & C2 & C3 & _). split; [exact C1|]. split; [exact C2|]. split; [exact C3|]. split; [exact ex_size|].
  assert (W : wf_tree va_tree) by (apply wf_treeb_ok; vm_compute; reflexivity).
  destruct C109_case as (_ & _ & _ & _ & _ & _ & _ & _ & _ & Cv & _).
  split; [exact Cv|]. split.
  { destruct va_ready as [_ R2 R3 R4 R5 _]. constructor.
    - right. split; vm_compute; reflexivity.
    - repeat (apply Forall_cons; [vm_compute; reflexivity|]). constructor.
    - exact R2.
    - apply good_mansb_ok; [reflexivity|]. vm_compute. reflexivity.
    - intros p F T1 T2. exact (R4 p F T1 T2).
    - inversion R5 as [|? ? G1 R6]; subst. inversion R6 as [|? ? G2 R7]; subst. inversion R7 as [|? ? G3 _]; subst.
      apply Forall_cons; [exact G1|]. apply Forall_cons; [exact G2|]. apply Forall_cons; [exact G3|]. constructor.
    - vm_compute. discriminate.
    - intros a I. cbn in I. destruct I as [<-|[<-|[]]]; vm_compute; discriminate.
    - split; [discriminate|]. intros a X. discriminate X.
    - intros i T. assert (X : forallb (fun kv : pystr * ival => negb (hd 0 (fst kv) =? BOM)) (got [] (tags_of Codecs va_tree)) = true) by (vm_compute; reflexivity).
      rewrite T in X. cbn [got] in X. apply Forall_forall. intros kv K. rewrite forallb_forall in X. apply X in K. apply negb_true_iff, N.eqb_neq in K. exact K. }
  split.
  { split; [|apply storableb_ok; reflexivity]. destruct (storableb_ok Codecs (U "src") eq_refl) as (L1 & L2 & _).
    split; [split; auto|]. split; [split; [exact I|discriminate]|split; [exact I|reflexivity]]. }
  split.
  { intros p P. apply files_entry in P; [|apply W].
    assert (E : forallb (storableb Codecs) (filter is_payload (files va_tree)) = true) by (vm_compute; reflexivity).
    rewrite forallb_forall in E. split; apply storableb_ok; [apply E; exact P|reflexivity]. }
  split.
  { intros i T. assert (X : tag_values (got [] (tags_of Codecs va_tree)) (U "Multibag-Head-Deprecates") = []) by (vm_compute; reflexivity). rewrite T in X. exact X. }
  split; [vm_compute; reflexivity|]. split; [exact hg_releases|]. split; [apply nodupb_ok; vm_compute; reflexivity|exact hg_rooms].
Qed.

(** A bag without payload files. *)
Definition nb_single : res tree := make_single_multibag (there hg_env (ar_place (U "one"))) (fun _ => U "1 kB") (U "/bags/one") nb_bag (U "1") None.
Example C116_no_payload_case :
  convertible nb_bag (U "multibag") /\ (forall p, is_payload p && is_file p nb_bag = false) /\
  nb_single = Ok (got [] nb_single) /\
  iter_member_bags (hg_open (U "one") (got [] nb_single)) = Ok [plain_member (U "one")].
Proof.
  destruct C114_no_payload_case as (_ & _ & [B P] & _). split.
  { split; [exact B|]. exists (got [] (tags_of Codecs nb_bag)). split; [vm_compute; reflexivity|]. split; [vm_compute; reflexivity|]. split; [vm_compute; reflexivity|].
    split; [apply plain_valueb_ok; reflexivity|]. split; [apply good_pathb_ok; reflexivity|reflexivity]. }
  split; [exact P|]. split; vm_compute; reflexivity.
Qed.

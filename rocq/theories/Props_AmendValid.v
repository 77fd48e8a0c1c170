(** The new head bag of an amendment, and a bag made a multibag of its own,
    stay valid BagIt bags (C109) *)
Require Import String NArith ZArith PeanoNat Bool List Lia.
From Verif Require Import PyBase PyFacts Version Tsv TsvProofs Fs FsFacts HeadBag HeadBagProofs HeadBagProofs2 HeadBagProofs3 BagIt BagItProofs BagItProofs2 Split SplitApply SplitApplyProofs SplitApplyProofs5 SplitApplyProofs7 SplitApplyProofs8 Restore RestoreProofs RestoreProofs2 RestoreProofs3 RestoreProofs4 RestoreProofs6 RestoreProofs7 RestoreProofs8 RestoreProofs10 Props_SplitApply Props_Restore Props_Restore3 Props_Restore4 BagValid BagValidProofs Props_BagValid Props_BagValid2 Props_BagValid4 Amend AmendProofs AmendProofs2 AmendProofs3 AmendProofs4 SingleProofs SaveValidProofs Props_RoundTrip2 Props_Amend Props_Single.
Import ListNotations.
Open Scope N_scope.

(** ** C109 *)

(** The bag [t], which has the tag directory [td], is at the place [e_dest v],
    is valid there, and has the version 0.97 or later. The names of its tag
    files, and those of the two lists that are to be written, can be written
    in a manifest. Its manifests list each path once, and no line break inside
    one of their names, or of the value of Payload-Oxum, is taken for the end
    of a line by one of the two ways in which the files are read. *)
Record ready (v : env) (w : benv) (td : pystr) (t : tree) : Prop := {
  rd_valid : passes_plain (at_place v w (e_dest v)) t;
  rd_version : exists c v1, read (U "bagit.txt") t = Some c /\ e_version v c = Ok (true, v1);
  rd_mans : good_mans v (e_dest v) t;
  rd_names : names_ok v t;
  rd_lists : Forall (good_name v) [U "bag-info.txt"; td ++ U "/member-bags.tsv"; td ++ U "/file-lookup.tsv"];
  rd_oxum : forall i i', tags_of Codecs t = Ok i -> tags_of IoText t = Ok i' ->
    tag_values i (U "Payload-Oxum") = tag_values i' (U "Payload-Oxum")
}.

(** Amending leaves the new head bag valid, and each of its tag manifests
    lists all its tag files with their checksums, the new lists among them. *)
Theorem C109_amended_valid : forall v w algs bsize repr ro old bags own inc exc version new new' old' name t td,
  NoDup (e_algos v) -> good_hash v -> same_world v w ->
  amendment bsize repr old new name t td version -> outside_payload td ->
  ready v w td t -> algorithms v t = Ok algs ->
  amend v algs bsize repr false ro old bags own inc exc version new = (new', Ok old') ->
  passes_plain (at_place v w (e_dest v)) (hb_tree new') /\
  forall a c, In a (e_algos v) -> read (U "tagmanifest-" ++ a ++ U ".txt") (hb_tree new') = Some c ->
    lists_tag_files (e_hash v a) (hb_tree new') c.
Proof.
  intros v w algs bsize repr ro old bags own inc exc version new new' old' name t td Na Gh Sw (B & (i & Ti & En & Td) & D & Tv & Nv & Vv & Fd) Ot [Va (c & v1 & Rc & Ev) G Nm Gn Ox] Al H.
  destruct (amend_disk v algs bsize repr ro old bags own inc exc version new new' old' name t td B) as
    (ms & t2 & h & d & _ & _ & R1 & _ & _ & _ & _ & _ & _ & _ & _ & _ & _ & R2 & T); auto.
  { exists i. auto. }
  { subst new. exact Td. }
  destruct (T IoText) as (j & Tj & _ & _ & _ & _ & _ & _ & _ & J). specialize (J T_OXUM).
  assert (Ei : hb_info new = i) by (subst new; reflexivity). rewrite Ei in J.
  assert (T1 : exists i1, tags_of IoText t = Ok i1) by (destruct Va as (b & Op & _); eexists; exact (plain_tags v w t b c v1 Sw Op Rc Ev)).
  destruct T1 as [i1 T1].
  unfold info_steps in R2. cbv zeta in R2.
  set (u := update_info_tags (Some version) CURRENT_VERSION (hb_info h)) in *. set (ml := members_steps td _) in *.
  destruct (tagged_valid v w td algs t (hb_tree new')
              ([reset_step td; clear_step td] ++ ml ++ lookup_steps td (hb_lu h) ++ save_steps v algs (fun _ => u))
              (fun t => od_set T_BagSize (IStr (bsize t)) u) i i1 j c v1 Na Gh Sw D Va G Ot Rc Ev Al) as (P & _ & D2 & _ & Tm & _).
  - apply Forall_app. split; [constructor; [apply reset_only|constructor; [apply clear_only|constructor]]|].
    apply Forall_app. split; [apply members_only|]. apply Forall_app. split; [apply lookup_only|apply save_only].
  - rewrite <- !app_assoc, run_app, R1. cbn [bind]. exact R2.
  - exact Nm.
  - exact Gn.
  - exact Ti.
  - exact T1.
  - exact (Ox i i1 Ti T1).
  - exact Tj.
  - apply J; [cbn; intuition discriminate|discriminate].
  - split; [exact P|]. intros a x Ia R. change (U "tagmanifest-" ++ a ++ U ".txt") with (man_name K_tag a) in R.
    rewrite (Tm a x Ia R). apply tagmanifest_ok. exact D2.
Qed.
Print Assumptions C109_amended_valid.

(** Making a bag a multibag of its own leaves it valid. *)
Theorem C109_single_valid : forall v w bsize bagdir name t td version pid t',
  plain_algos v -> NoDup (e_algos v) -> good_hash v -> same_world v w -> plain_size bsize ->
  convertible t td -> ready v w td t ->
  name <> [] -> ~ In SLASH name -> bagdir = name \/ (exists d, bagdir = d ++ SLASH :: name) ->
  version <> [] -> tag_value_ok Codecs version ->
  make_single_multibag v bsize bagdir t version pid = Ok t' ->
  passes_plain (at_place v w (e_dest v)) t' /\
  forall a c, In a (e_algos v) -> read (U "tagmanifest-" ++ a ++ U ".txt") t' = Some c ->
    lists_tag_files (e_hash v a) t' c.
Proof.
  intros v w bsize bagdir name t td version pid t' Pa Na Gh Sw B (W & i & Ti & Td & Ov & Tv & Gt & Ot) [Va (c & v1 & Rc & Ev) G Nm Gn Ox] N0 Ns Hb Nv Vv H.
  destruct (name_at_path bagdir name N0 Ns Hb) as [Eb En].
  unfold make_single_multibag in H. apply bind_ok in H. destruct H as ([i' es] & Ho & H). apply bind_ok in H. destruct H as (algs & Ha & H).
  assert (i' = i).
  { unfold open_bag in Ho. destruct (read F_bagit t) as [x|]; [|discriminate]. apply bind_ok in Ho. destruct Ho as ([v97 v1'] & _ & Ho).
    apply bind_ok in Ho. destruct Ho as (i0 & Hi & Ho). apply bind_ok in Ho. destruct Ho as (e0 & _ & Ho). injection Ho as -> _.
    unfold tags_of in Ti. change (U "bag-info.txt") with F_baginfo in Ti. destruct (read F_baginfo t); congruence. }
  subst i'. rewrite En in H. destruct (convert v algs bsize bagdir version pid (open_hb name t i Codecs)) as [h' [[]|e]] eqn:C; [|discriminate].
  injection H as <-.
  destruct (convert_run v algs bsize bagdir version pid name t i h' td Pa (algorithms_in _ _ _ Ha) B Ti Td Ov Tv Gt Ot Nv Vv W N0 C)
    as (i2 & lu & d & [Et _] & R & _ & _ & _ & _ & _ & _ & T).
  destruct (T IoText) as (j & Tj & _ & _ & _ & _ & _ & _ & J). specialize (J T_OXUM).
  assert (T1 : exists i1, tags_of IoText t = Ok i1) by (destruct Va as (b & Op & _); eexists; exact (plain_tags v w t b c v1 Sw Op Rc Ev)).
  destruct T1 as [i1 T1]. pose proof (wf_nodup _ (proj1 W)) as D.
  unfold single_steps in R. rewrite Et in R. set (ml := members_steps td _) in *.
  set (p1 := if info_truthy T_Version i then [] else info_steps v algs bsize (Some (U "1")) CURRENT_VERSION i) in *.
  unfold info_steps in R. cbv zeta in R. set (u := update_info_tags (Some version) CURRENT_VERSION i2) in *.
  destruct (tagged_valid v w td algs t (hb_tree h')
              (p1 ++ ml ++ [clear_step td] ++ lookup_steps td lu ++ save_steps v algs (fun _ => u))
              (fun t => od_set T_BagSize (IStr (bsize t)) u) i i1 j c v1 Na Gh Sw D Va G Ot Rc Ev Ha) as (P & _ & D2 & _ & Tm & _).
  - apply Forall_app. split; [subst p1; destruct (info_truthy T_Version i); [constructor|apply info_only]|].
    apply Forall_app. split; [apply members_only|]. apply Forall_app. split; [constructor; [apply clear_only|constructor]|].
    apply Forall_app. split; [apply lookup_only|apply save_only].
  - rewrite <- !app_assoc. exact R.
  - exact Nm.
  - exact Gn.
  - exact Ti.
  - exact T1.
  - exact (Ox i i1 Ti T1).
  - exact Tj.
  - apply J. cbn. intuition discriminate.
  - split; [exact P|]. intros a x Ia Rx. change (U "tagmanifest-" ++ a ++ U ".txt") with (man_name K_tag a) in Rx.
    rewrite (Tm a x Ia Rx). apply tagmanifest_ok. exact D2.
Qed.
Print Assumptions C109_single_valid.

(** A bag with checksums of two algorithms. "two" of C41 is amended with
    "four" and this bag, and this bag is made a multibag of its own. *)
Definition nv_new : hb := open_hb (U "src") va_tree (got [] (tags_of Codecs va_tree)) Codecs.
Definition nv_amend : hb * res hb :=
  amend va_env (got [] (algorithms va_env va_tree)) (fun _ => U "1 kB") ex_repr false false ex_amendee
    (map default_bag [ex_four]) (own_member None None []) SNone SNone (U "2") nv_new.
Definition nv_single : res tree := make_single_multibag va_env (fun _ => U "1 kB") (U "/bags/src") va_tree (U "1") None.

Lemma va_ready : ready va_env va_world (U "multibag") va_tree.
Proof.
  assert (Gn : forall p, good_nameb p = true -> good_name va_env p).
  { intros p G. unfold good_nameb in G. apply andb_true_iff in G. destruct G as [G1 G2]. apply manifest_pathb_ok in G1, G2.
    split; [exact G1|]. split; [exact G2|]. reflexivity. }
  constructor.
  - exists va_open. split; vm_compute; reflexivity.
  - exists va_bagit, true. split; vm_compute; reflexivity.
  - apply good_mansb_ok; [reflexivity|]. vm_compute. reflexivity.
  - intros p F _ _. apply Gn. assert (X : forallb good_nameb (od_keys va_tree) = true) by (vm_compute; reflexivity).
    rewrite forallb_forall in X. apply X. apply is_file_read in F. destruct F as [c F]. apply read_get in F. eapply od_get_some_key. exact F.
  - apply Forall_cons; [apply Gn; vm_compute; reflexivity|]. apply Forall_cons; [apply Gn; vm_compute; reflexivity|].
    apply Forall_cons; [apply Gn; vm_compute; reflexivity|constructor].
  - intros i i' T T'.
    assert (X : tags_of Codecs va_tree = tags_of IoText va_tree) by (vm_compute; reflexivity). congruence.
Qed.

Example C109_case :
  NoDup (e_algos va_env) /\ good_hash va_env /\ same_world va_env va_world /\ plain_algos va_env /\
  amendment (fun _ => U "1 kB") ex_repr ex_amendee nv_new (U "src") va_tree (U "multibag") (U "2") /\
  outside_payload (U "multibag") /\ ready va_env va_world (U "multibag") va_tree /\
  algorithms va_env va_tree = Ok (e_algos va_env) /\
  (exists old', snd nv_amend = Ok old') /\ convertible va_tree (U "multibag") /\
  read (U "tagmanifest-md5.txt") (hb_tree (fst nv_amend)) =
    Some (ln "h54 bagit.txt" ++ ln "h461 bag-info.txt" ++ ln "h24 manifest-md5.txt" ++ ln "h24 manifest-sha256.txt" ++
          ln "h2 about.txt" ++ ln "h1 meta/m" ++ ln "h17 multibag/member-bags.tsv" ++ ln "h47 multibag/file-lookup.tsv") /\
  verdict_of (at_place va_env va_world (U "/out")) (got [] nv_single) = Ok VPass.
Proof.
  split; [apply nodupb_ok; reflexivity|]. split; [intros a c; apply h_dec_hash|].
  split. { constructor; [reflexivity|intros a c; apply h_dec_lower|]. intros c vi f E. cbn [e_version va_env]. rewrite E. reflexivity. }
  split. { intros a I. cbn in I. destruct I as [<-|[<-|[]]]; intros X; cbn in X; intuition discriminate. }
  split.
  { destruct ex_amendment as (A1 & _ & _ & A4 & A5 & A6 & A7). split; [exact A1|]. split.
    { exists (got [] (tags_of Codecs va_tree)). split; [vm_compute; reflexivity|]. split; [reflexivity|]. vm_compute. reflexivity. }
    split; [apply nodupb_ok; vm_compute; reflexivity|]. split; [exact A4|]. split; [exact A5|]. split; [exact A6|exact A7]. }
  split; [reflexivity|]. split; [exact va_ready|]. split; [vm_compute; reflexivity|].
  split. { eexists. vm_compute. reflexivity. }
  split.
  { split; [split; [apply wf_treeb_ok; vm_compute; reflexivity|vm_compute; reflexivity]|].
    exists (got [] (tags_of Codecs va_tree)). split; [vm_compute; reflexivity|]. split; [vm_compute; reflexivity|]. split; [vm_compute; reflexivity|].
    split; [apply plain_valueb_ok; reflexivity|]. split; [apply good_pathb_ok; reflexivity|reflexivity]. }
  split; vm_compute; reflexivity.
Qed.

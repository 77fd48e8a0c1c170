(** Properties of making a single multibag *)
Require Import String NArith PeanoNat Bool List Lia.
From Verif Require Import PyBase PyFacts Version Tsv TsvProofs Fs FsFacts HeadBag HeadBagProofs HeadBagProofs2 HeadBagProofs3 BagIt BagItProofs Split SplitApply SplitApplyProofs SplitApplyProofs5 SplitApplyProofs7 SplitApplyProofs8 Restore RestoreProofs RestoreProofs2 RestoreProofs3 RestoreProofs6 Props_SplitApply Props_Restore Props_Restore3 Amend AmendProofs AmendProofs2 AmendProofs3 AmendProofs4 Props_Amend SingleProofs.
Import ListNotations.
Open Scope N_scope.

(** ** C46 *)

Lemma name_at_path bagdir name : name <> [] -> ~ In SLASH name -> bagdir = name \/ (exists d, bagdir = d ++ SLASH :: name) ->
  basename bagdir = name /\ name_at bagdir = name.
Proof.
  intros N0 Ns H.
  assert (E : forall x, rstrip_if (N.eqb SLASH) (x ++ name) = x ++ name).
  { intros x. destruct (exists_last N0) as (n & c & ->). rewrite app_assoc. apply rstrip_if_last. apply N.eqb_neq. intros <-.
    apply Ns. apply in_or_app. right. left. reflexivity. }
  assert (B : basename bagdir = name).
  { destruct H as [->|[d ->]]; [apply basename_none; auto|apply basename_app; auto]. }
  split; [exact B|]. unfold name_at. destruct H as [->|[d ->]].
  - specialize (E []). cbn [app] in E. rewrite E. exact B.
  - specialize (E (d ++ [SLASH])). rewrite <- app_assoc in E. cbn [app] in E. rewrite E. exact B.
Qed.

(** A bag that can be converted: its multibag directory is td, a path outside
    of the payload, and it was not made for an old version of the profile. *)
Definition convertible (t : tree) (td : pystr) : Prop :=
  bag_files t /\
  exists i, tags_of Codecs t = Ok i /\ tag_dir_raw i = Ok td /\ older_than_03 (profile_version i) = false /\
            tag_value_ok Codecs td /\ good_path td /\ outside_payload td.

Theorem C46_head_partial : forall v bsize bagdir name t td version pid t',
  plain_algos v -> plain_size bsize -> convertible t td ->
  name <> [] -> ~ In SLASH name -> bagdir = name \/ (exists d, bagdir = d ++ SLASH :: name) ->
  version <> [] -> tag_value_ok Codecs version ->
  make_single_multibag v bsize bagdir t version pid = Ok t' ->
  (forall p, is_payload p = true -> od_get p t' = od_get p t) /\
  forall r, storable_member r {| Tsv.m_name := name; m_uri := pid; m_comment := None; m_info := [] |} ->
    (forall p, is_payload p && is_file p t = true -> storable_entry r (p, name)) ->
    exists j, tags_of r t' = Ok j /\
      tag_values j (U "Multibag-Head-Version") = [version] /\
      iter_member_bags (open_hb name t' j r) = Ok [{| Tsv.m_name := name; m_uri := pid; m_comment := None; m_info := [] |}] /\
      (forall p, snd (lookup_file p false (open_hb name t' j r)) = Ok (if is_payload p && is_file p t then Some name else None)) /\
      ((exists p, is_payload p && is_file p t = true) ->
       forall p, snd (lookup_file_ro p false (open_hb name t' j r)) = Ok (if is_payload p && is_file p t then Some name else None)).
Proof.
  intros v bsize bagdir name t td version pid t' Pa B (W & i & Ti & Td & Ov & Tv & Gt & Ot) N0 Ns Hb Nv Vv H.
  destruct (name_at_path bagdir name N0 Ns Hb) as [Eb En].
  unfold make_single_multibag in H. apply bind_ok in H. destruct H as ([i' es] & Ho & H). apply bind_ok in H. destruct H as (algs & Ha & H).
  assert (i' = i).
  { unfold open_bag in Ho. destruct (read F_bagit t) as [c|]; [|discriminate]. apply bind_ok in Ho. destruct Ho as ([v97 v1] & _ & Ho).
    apply bind_ok in Ho. destruct Ho as (i0 & Hi & Ho). apply bind_ok in Ho. destruct Ho as (e0 & _ & Ho). injection Ho as -> _.
    unfold tags_of in Ti. change (U "bag-info.txt") with F_baginfo in Ti. destruct (read F_baginfo t); congruence. }
  subst i'. rewrite En in H. destruct (convert v algs bsize bagdir version pid (open_hb name t i Codecs)) as [h' [[]|e]] eqn:C; [|discriminate].
  injection H as <-.
  destruct (convert_run v algs bsize bagdir version pid name t i h' td Pa (algorithms_in _ _ _ Ha) B Ti Td Ov Tv Gt Ot Nv Vv W N0 C)
    as (i2 & lu & d & _ & _ & K & G & D & L & Rm & Rl & T).
  cbv zeta in Rm. rewrite Eb in Rm. split; [apply (K W)|]. intros r Sm Se. destruct (T r) as (j & Tj & Sj & Vj & _). exists j. split; [exact Tj|]. split; [exact Vj|].
  assert (Sd : Forall (storable_entry r) d).
  { apply Forall_forall. intros [p x] I. pose proof (od_in_get p x d D I) as E. rewrite G in E. unfold holds in E.
    destruct (is_payload p && is_file p t) eqn:P; [|discriminate]. injection E as <-. apply Se; exact P. }
  split; [eapply members_again; eauto|]. split.
  - intros p. rewrite (lookup_again r name (hb_tree h') j td lu p Sj Rl).
    + destruct L as [->|[-> ->]]; [rewrite G; reflexivity|]. specialize (G p). cbn [od_get] in G. unfold holds in G. rewrite <- G. reflexivity.
    + intros d0 ->. destruct L as [L|[L _]]; [injection L as ->; auto|discriminate].
  - intros [q Q] p. assert (lu = Some d).
    { destruct L as [L|[_ ->]]; [exact L|]. specialize (G q). unfold holds in G. rewrite Q in G. discriminate. }
    subst lu. assert (I : iter_file_lookup (open_hb name (hb_tree h') j r) = Ok d).
    { rewrite (iter_lookup_read (open_hb name (hb_tree h') j r) td _ Sj Rl). cbn [hb_reader open_hb].
      rewrite decode_id by (apply lookup_text_no_bom; auto). apply lookup_roundtrip. apply Forall_storable_legal; auto. }
    destruct (lookup_of_iter (open_hb name (hb_tree h') j r) d p false (or_introl eq_refl) I D) as [X _]. rewrite X, G. reflexivity.
Qed.
Print Assumptions C46_head_partial.

Definition ex_single (bagdir : pystr) (t : tree) : res tree :=
  make_single_multibag ex_env (fun _ => U "1 kB") bagdir t (U "7") (Some (U "ark:/1")).
Definition ex_plain : tree :=
  [(U "bagit.txt", NFile ex_bagit); (U "bag-info.txt", NFile (txt [U "Contact-Name: D"]));
   (U "data", NDir); (U "data/a", NFile (U "aa")); (U "data/s", NDir); (U "data/s/b", NFile (U "bb"));
   (U "manifest-md5.txt", NFile (txt [U "1 data/a"; U "2 data/s/b"]))].
Definition ex_plain_head : tree := got [] (ex_single (U "/bags/mine") ex_plain).

Example C46_case :
  plain_algos ex_env /\ plain_size (fun _ => U "1 kB") /\ convertible ex_plain (U "multibag") /\
  (U "/bags/mine" = U "mine" \/ exists d, U "/bags/mine" = d ++ SLASH :: U "mine") /\
  ex_single (U "/bags/mine") ex_plain = Ok ex_plain_head /\
  storable_member IoText {| Tsv.m_name := U "mine"; m_uri := Some (U "ark:/1"); m_comment := None; m_info := [] |} /\
  (forall p, is_payload p && is_file p ex_plain = true -> storable_entry IoText (p, U "mine")) /\
  is_payload (U "data/s/b") && is_file (U "data/s/b") ex_plain = true /\
  read (U "multibag/member-bags.tsv") ex_plain_head = Some (txt [U "mine" ++ [TAB] ++ U "ark:/1"]) /\
  read (U "multibag/file-lookup.tsv") ex_plain_head = Some (txt [U "data/a" ++ [TAB] ++ U "mine"; U "data/s/b" ++ [TAB] ++ U "mine"]).
Proof.
  assert (W : wf_tree ex_plain) by (apply wf_treeb_ok; vm_compute; reflexivity).
  split; [intros a [<-|[<-|[]]]; vm_compute; intuition discriminate|]. split; [exact ex_size|]. split.
  { split; [split; [exact W|vm_compute; reflexivity]|]. exists (got [] (tags_of Codecs ex_plain)).
    split; [vm_compute; reflexivity|]. split; [vm_compute; reflexivity|]. split; [vm_compute; reflexivity|].
    split; [apply plain_valueb_ok; reflexivity|]. split; [apply good_pathb_ok; reflexivity|]. vm_compute. reflexivity. }
  split; [right; exists (U "/bags"); reflexivity|]. split; [vm_compute; reflexivity|].
  split.
  { split; [|apply storableb_ok; reflexivity]. destruct (storableb_ok IoText (U "mine") eq_refl) as (L1 & L2 & _).
    destruct (storableb_ok IoText (U "ark:/1") eq_refl) as (L3 & L4 & _).
    split; [split; auto|]. split; [split; [split; auto|]|split; [exact I|reflexivity]]. intros _ u E. injection E as <-. reflexivity. }
  split.
  { intros p P. apply files_entry in P; [|apply W].
    assert (E : filter is_payload (files ex_plain) = [U "data/a"; U "data/s/b"]) by (vm_compute; reflexivity). rewrite E in P.
    destruct P as [<-|[<-|[]]]; split; apply storableb_ok; reflexivity. }
  split; [vm_compute; reflexivity|]. split; vm_compute; reflexivity.
Qed.

(** A path of the bag that ends with a slash: the bag is not listed at all,
    and its identifier is taken for the name of a member. *)
Definition ex_slash : tree := got [] (ex_single (U "/bags/mine/") ex_plain).
Definition ex_opened (t : tree) : hb := open_hb (U "mine") t (got [] (tags_of Codecs t)) Codecs.
Theorem C46_slash_refuted : exists t t',
  convertible t (U "multibag") /\ name_at (U "/bags/mine/") = U "mine" /\
  make_single_multibag ex_env (fun _ => U "1 kB") (U "/bags/mine/") t (U "7") (Some (U "ark:/1")) = Ok t' /\
  exists l, iter_member_bags (ex_opened t') = Ok l /\ map Tsv.m_name l = [U "ark:/1"].
Proof.
  exists ex_plain, ex_slash. split; [apply C46_case|]. split; [vm_compute; reflexivity|]. split; [vm_compute; reflexivity|].
  exists (got [] (iter_member_bags (ex_opened ex_slash))). split; vm_compute; reflexivity.
Qed.
Print Assumptions C46_slash_refuted.

(** A bag without payload files: there is no file lookup afterwards, and
    reading it is an error. *)
Definition ex_empty : tree :=
  [(U "bagit.txt", NFile ex_bagit); (U "bag-info.txt", NFile (txt [U "Contact-Name: D"])); (U "data", NDir)].
Definition ex_empty_head : tree := got [] (ex_single (U "/bags/mine") ex_empty).
Theorem C46_empty_refuted : exists t t',
  convertible t (U "multibag") /\
  make_single_multibag ex_env (fun _ => U "1 kB") (U "/bags/mine") t (U "7") (Some (U "ark:/1")) = Ok t' /\
  exists_ (U "multibag/file-lookup.tsv") t' = false /\
  forall p, snd (lookup_file_ro p false (ex_opened t')) = Err EMissingFile.
Proof.
  exists ex_empty, ex_empty_head. split.
  { split; [apply ex_bag_files; vm_compute; reflexivity|]. exists (got [] (tags_of Codecs ex_empty)).
    split; [vm_compute; reflexivity|]. split; [vm_compute; reflexivity|]. split; [vm_compute; reflexivity|].
    split; [apply plain_valueb_ok; reflexivity|]. split; [apply good_pathb_ok; reflexivity|]. vm_compute. reflexivity. }
  split; [vm_compute; reflexivity|]. split; [vm_compute; reflexivity|]. intros p.
  assert (E : cache_file_lookup (ex_opened ex_empty_head) = (ex_opened ex_empty_head, Err EMissingFile)) by (vm_compute; reflexivity).
  unfold lookup_file_ro. change (hb_lu (ex_opened ex_empty_head)) with (@None (dict pystr)). cbn match. rewrite E. reflexivity.
Qed.
Print Assumptions C46_empty_refuted.

(** A bag made for version 0.2 of the profile: the lookup gets the entries of
    the old file, for files that the bag does not have. *)
Definition ex_old_profile : tree :=
  [(U "bagit.txt", NFile ex_bagit); (U "bag-info.txt", NFile (txt [U "Multibag-Version: 0.2"]));
   (U "data", NDir); (U "data/a", NFile (U "aa")); (U "multibag", NDir);
   (U "multibag/group-directory.txt", NFile (txt [U "data/gone other"]))].
Definition ex_old_head : tree := got [] (ex_single (U "/bags/mine") ex_old_profile).
Theorem C46_old_profile_refuted : exists t t',
  bag_files t /\
  make_single_multibag ex_env (fun _ => U "1 kB") (U "/bags/mine") t (U "7") (Some (U "ark:/1")) = Ok t' /\
  is_file (U "data/gone") t = false /\
  snd (lookup_file (U "data/gone") false (ex_opened t')) = Ok (Some (U "other")).
Proof.
  exists ex_old_profile, ex_old_head. split; [apply ex_bag_files; vm_compute; reflexivity|].
  split; [vm_compute; reflexivity|]. split; vm_compute; reflexivity.
Qed.
Print Assumptions C46_old_profile_refuted.

(** ** C45, for single multibags *)

(** If the bag already has a Multibag-Version. *)
Theorem C45_single_partial : forall v algs bsize bagdir name t td version pid i h',
  plain_algos v -> (forall a, In a algs -> In a (e_algos v)) -> plain_size bsize -> convertible t td ->
  name <> [] -> version <> [] -> tag_value_ok Codecs version ->
  tags_of Codecs t = Ok i -> info_truthy (U "Multibag-Version") i = true -> ~ designated t ->
  convert v algs bsize bagdir version pid (open_hb name t i Codecs) = (h', Ok tt) ->
  exists i2 l d, let steps := single_steps v algs bsize version i i2 l d in
    run_steps steps t = Ok (hb_tree h') /\
    forall t', stops_at steps t t' ->
      ~ designated t' \/
      (read (sjoin td F_members) t' = read (sjoin td F_members) (hb_tree h') /\
       read (sjoin td F_lookup) t' = read (sjoin td F_lookup) (hb_tree h')).
Proof.
  intros v algs bsize bagdir name t td version pid i h' Pa Al B (W & i' & Ti' & Td & Ov & Tv & Gt & Ot) N0 Nv Vv Ti Hv Nd C.
  assert (i' = i) by congruence. subst i'.
  destruct (convert_run v algs bsize bagdir version pid name t i h' td Pa Al B Ti Td Ov Tv Gt Ot Nv Vv W N0 C)
    as (i2 & lu & d & [E2 _] & R & _). cbv zeta in R.
  eexists i2, _, lu. cbv zeta. split; [exact R|]. intros t' [k Hk]. unfold single_steps in R, Hk. cbv zeta in R, Hk.
  change (U "Multibag-Version") with T_Version in Hv. rewrite Hv in R, Hk. rewrite app_nil_l in R, Hk. rewrite E2 in R, Hk.
  set (ms := [{| Tsv.m_name := basename bagdir; m_uri := pid; m_comment := None; m_info := [] |}]) in *.
  set (Bs := info_steps v algs bsize (@Some pystr version) CURRENT_VERSION i2) in *.
  set (A := members_steps td ms ++ [clear_step td] ++ lookup_steps td lu) in *.
  assert (E : members_steps td ms ++ [clear_step td] ++ lookup_steps td lu ++ Bs = A ++ Bs)
    by (unfold A; rewrite <- !app_assoc; reflexivity).
  rewrite E in R, Hk. rewrite firstn_app in Hk.
  assert (Fi : Forall (fun s : step => forall t t', s t = Ok t' -> read F_baginfo t' = read F_baginfo t) A).
  { assert (X : Forall (fun s : step => forall t t', s t = Ok t' -> read F_baginfo t' = read F_baginfo t)
                  ([reset_step td; clear_step td] ++ members_steps td ms ++ lookup_steps td lu)).
    { apply list_steps_read; intros X; [apply (tagfile_not_saved td F_members)|apply (tagfile_not_saved td F_lookup)]; cbn; auto; left; auto. }
    apply Forall_app in X. destruct X as [X1 X2]. apply Forall_app in X2. destruct X2 as [X2 X3]. unfold A.
    apply Forall_app. split; [exact X2|]. apply Forall_app. split; [|exact X3].
    inversion X1 as [|? ? _ X4]; subst. exact X4. }
  assert (Fm : forall f, In f [F_members; F_lookup] ->
             Forall (fun s : step => forall t t', s t = Ok t' -> read (sjoin td f) t' = read (sjoin td f) t) Bs).
  { intros f If. apply info_steps_read. apply tagfile_not_saved; auto. }
  destruct (Nat.le_gt_cases k (length A)) as [Le|Gt'].
  - left. replace (k - length A)%nat with 0%nat in Hk by lia. cbn [firstn] in Hk. rewrite app_nil_r in Hk.
    apply (run_read _ F_baginfo (Forall_firstn _ k _ Fi)) in Hk. intros (j & Tj & Hj). apply Nd. exists j. split; [|exact Hj].
    unfold tags_of in *. change (U "bag-info.txt") with F_baginfo in *. rewrite Hk in Tj. exact Tj.
  - right. rewrite firstn_all2 in Hk by lia. rewrite run_app in R, Hk. destruct (run_steps A t) as [ta|] eqn:Ra; [|discriminate].
    cbn [bind] in R, Hk.
    assert (X : forall f, In f [F_members; F_lookup] -> read (sjoin td f) t' = read (sjoin td f) (hb_tree h')).
    { intros f If. rewrite (run_read _ _ (Fm f If) _ _ R). apply (run_read _ _ (Forall_firstn _ _ _ (Fm f If)) _ _ Hk). }
    split; apply X; cbn; auto.
Qed.
Print Assumptions C45_single_partial.

Definition ex_versioned : tree :=
  [(U "bagit.txt", NFile ex_bagit); (U "bag-info.txt", NFile (txt [U "Multibag-Version: 0.4"]));
   (U "data", NDir); (U "data/a", NFile (U "aa"))].
Definition ex_convert (t : tree) : hb * res unit :=
  convert ex_env [] (fun _ => U "1 kB") (U "/bags/mine") (U "7") None (ex_opened t).
Definition ex_converted (t : tree) : tree := hb_tree (fst (ex_convert t)).

Lemma ex_not_designated t : match tags_of Codecs t with Ok i => od_get (U "Multibag-Head-Version") i | _ => None end = None -> ~ designated t.
Proof. intros H (i & Ti & Hi). rewrite Ti in H. auto. Qed.

Example C45_single_case :
  convertible ex_versioned (U "multibag") /\ ~ designated ex_versioned /\
  info_truthy (U "Multibag-Version") (got [] (tags_of Codecs ex_versioned)) = true /\
  ex_convert ex_versioned = (fst (ex_convert ex_versioned), Ok tt) /\ designated (ex_converted ex_versioned).
Proof.
  split.
  { split; [apply ex_bag_files; vm_compute; reflexivity|]. exists (got [] (tags_of Codecs ex_versioned)).
    split; [vm_compute; reflexivity|]. split; [vm_compute; reflexivity|]. split; [vm_compute; reflexivity|].
    split; [apply plain_valueb_ok; reflexivity|]. split; [apply good_pathb_ok; reflexivity|]. vm_compute. reflexivity. }
  split; [apply ex_not_designated; vm_compute; reflexivity|]. split; [vm_compute; reflexivity|]. split; [vm_compute; reflexivity|].
  exists (got [] (tags_of Codecs (ex_converted ex_versioned))). split; [vm_compute; reflexivity|]. vm_compute. discriminate.
Qed.

(** Any other bag is designated as a head bag before it has a member list:
    after the first call of update_info in write_member_bags. *)
Definition ex_single_steps : list step :=
  single_steps ex_env [] (fun _ => U "1 kB") (U "7") (got [] (tags_of Codecs ex_empty))
    (od_set T_BagSize (IStr (U "1 kB")) (update_info_tags (Some (U "1")) CURRENT_VERSION (got [] (tags_of Codecs ex_empty))))
    [{| Tsv.m_name := U "mine"; m_uri := None; m_comment := None; m_info := [] |}] None.
Theorem C45_single_refuted : exists t t1 h' steps,
  ~ designated t /\ ex_convert t = (h', Ok tt) /\
  run_steps steps t = Ok (hb_tree h') /\ stops_at steps t t1 /\
  (exists h1, ensure_info ex_env [] (fun _ => U "1 kB") (ex_opened t) = (h1, Ok tt) /\ hb_tree h1 = t1) /\
  designated t1 /\ exists_ (U "multibag") t1 = false /\
  read (U "multibag/member-bags.tsv") (hb_tree h') = Some (txt [U "mine"]).
Proof.
  exists ex_empty, (got [] (run_steps (firstn 2 ex_single_steps) ex_empty)), (fst (ex_convert ex_empty)), ex_single_steps.
  split; [apply ex_not_designated; vm_compute; reflexivity|]. split; [vm_compute; reflexivity|]. split; [vm_compute; reflexivity|].
  split; [exists 2%nat; vm_compute; reflexivity|]. split.
  { exists (fst (ensure_info ex_env [] (fun _ => U "1 kB") (ex_opened ex_empty))). split; vm_compute; reflexivity. }
  split.
  { exists (got [] (tags_of Codecs (got [] (run_steps (firstn 2 ex_single_steps) ex_empty)))). split; [vm_compute; reflexivity|]. vm_compute. discriminate. }
  split; vm_compute; reflexivity.
Qed.
Print Assumptions C45_single_refuted.

(** C114: amendments succeed *)
Require Import String NArith PeanoNat Bool List Lia.
From Verif Require Import PyBase PyFacts Version Tsv TsvProofs Fs FsFacts HeadBag HeadBagProofs HeadBagProofs2 HeadBagProofs3 BagIt BagItProofs Split SplitApply SplitApplyProofs SplitApplyProofs5 SplitApplyProofs8 Restore RestoreProofs RestoreProofs2 RestoreProofs3 RestoreProofs4 RestoreProofs6 RestoreProofs7 RestoreProofs8 RestoreProofs9 RestoreProofs10 Props_Restore Props_Restore3 Amend AmendProofs AmendProofs2 AmendProofs3 AmendProofs4 Props_SplitApply Props_Amend AmendTotalProofs.
Import ListNotations.
Open Scope N_scope.

(** ** What is asked of the bags *)

(** The bag that becomes the new head: the tag directory [td] is there or can
    be made in a directory, outside the payload, and nothing in it stands in
    the way of the lists; a list of files that it has already can be read. The
    files that an update writes are no directories. Its manifests list each
    path once, no name of a tag file breaks a line of a manifest, and no tag
    begins with the mark that begins a UTF-8 file. *)
Record room (v : env) (algs : list pystr) (td : pystr) (t : tree) (i : infod) : Prop := {
  rm_bag : bag_files t;
  rm_path : good_path td;
  rm_out : outside_payload td;
  rm_dir : is_dir td t = true \/ (exists_ td t = false /\ is_dir (dirname td) t = true);
  rm_free : Forall (fun f => is_dir (td ++ U "/" ++ f) t = false) [U "member-bags.tsv"; U "file-lookup.tsv"; U "deleted.txt"];
  rm_lookup : forall c, read (td ++ U "/file-lookup.tsv") t = Some c ->
    exists es, parse_file Codecs parse_lookup_03 (decode Codecs c) = Ok es;
  rm_version : exists c v1, read (U "bagit.txt") t = Some c /\ e_version v c = Ok (true, v1);
  rm_mans : good_mans v (e_dest v) t;
  rm_names : names_ok v t;
  rm_lists : Forall (good_name v) [U "bag-info.txt"; td ++ U "/member-bags.tsv"; td ++ U "/file-lookup.tsv"];
  rm_info : od_get (U "bag-info.txt") t <> Some NDir;
  rm_tags : forall a, In a algs -> od_get (U "tagmanifest-" ++ a ++ U ".txt") t <> Some NDir;
  rm_own : td <> U "bag-info.txt" /\ forall a, td <> U "tagmanifest-" ++ a ++ U ".txt";
  rm_bom : Forall (fun kv => hd 0 (fst kv) <> BOM) i
}.

Lemma room_roomy v algs td t i : room v algs td t i -> roomy v algs td t /\ no_bom i.
Proof.
  intros [B P O D F L Vn M Nm Ls Bi Tg [O1 O2] Bm]. split.
  - constructor; auto.
    + intros [E|[a E]]; [exact (O1 E)|exact (O2 a E)].
    + split; [exact D|]. intros f I. rewrite Forall_forall in F. apply (F f). cbn in I |- *. tauto.
    + constructor; auto. exact (proj1 B).
  - intros k I. unfold od_keys in I. apply in_map_iff in I. destruct I as (kv & <- & I). rewrite Forall_forall in Bm. apply Bm. exact I.
Qed.

(** The bag that is amended: a plain bag with a name, or a head bag with lists
    that can be read, whose members have no fields besides name, address and
    comment. *)
Definition amendable (old : hb) : Prop :=
  (is_head old = false /\ hb_name old <> [] /\ wf_tree (hb_tree old)) \/
  (is_head old = true /\
   (exists ms, iter_member_bags old = Ok ms /\ Forall (fun m => m_info m = []) ms) /\
   (exists es, iter_file_lookup old = Ok es /\ Forall (fun e => fst e <> [] /\ snd e <> []) es)).

Lemma amendable_takes old : amendable old -> takes_over old.
Proof. unfold takes_over. intros [(-> & H)|(-> & H)]; exact H. Qed.

(** ** C114 *)

(** Any amendable bag is amended, with any bags, whenever the new head bag has
    room for its lists. *)
Theorem C114_succeeds_partial : forall v algs bsize repr ro old bags version new name t td,
  plain_algos v -> NoDup (e_algos v) -> good_hash v -> incl algs (e_algos v) ->
  amendment bsize repr old new name t td version -> room v algs td t (hb_info new) -> name <> [] ->
  amendable old -> Forall (fun s => wf_tree (s_tree s) /\ s_name s <> []) bags ->
  exists new' old', amend_bag_with v algs bsize repr ro old bags version new = (new', Ok old').
Proof.
  intros v algs bsize repr ro old bags version new name t td Pa Na Gh Ia (B & (i & Ti & En & Td) & D & Tv & Nv & Vv & Fd) R Nn Ao Fb.
  subst new. destruct (room_roomy _ _ _ _ _ R) as [R1 R2]. cbn [open_hb hb_info] in R2.
  apply (amend_total v algs bsize repr ro old bags version name t i td); auto. apply amendable_takes. exact Ao.
Qed.
Print Assumptions C114_succeeds_partial.

(** ** What is missing *)

(** A head bag without a list of files cannot be amended. *)
Theorem C114_untabled : forall v algs bsize repr ro n t i r bags version new new' old',
  is_head (open_hb n t i r) = true -> iter_file_lookup (open_hb n t i r) = Err EMissingFile ->
  amend_bag_with v algs bsize repr ro (open_hb n t i r) bags version new <> (new', Ok old').
Proof. intros. apply untabled_fails; [assumption|eauto]. Qed.
Print Assumptions C114_untabled.

(** But an amendment writes no list of files if no bag has a payload file: a
    bag without payload can be amended once, by bags without payload, and then
    never again. *)
Theorem C114_no_payload_refuted : forall v algs bsize repr ro old bags version new new' old' name t td,
  amendment bsize repr old new name t td version -> good_path td -> outside_payload td ->
  is_head old = false -> hb_name old <> [] -> name <> [] -> Forall (fun s => s_name s <> []) bags ->
  Forall (fun b => bag_files b /\ forall p, is_payload p && is_file p b = false) (hb_tree old :: map s_tree bags ++ [t]) ->
  amend_bag_with v algs bsize repr ro old bags version new = (new', Ok old') ->
  forall r, exists i, tags_of r (hb_tree new') = Ok i /\
    is_head (open_hb name (hb_tree new') i r) = true /\
    forall v2 algs2 bsize2 repr2 ro2 bags2 version2 new2 new2' old2',
      amend_bag_with v2 algs2 bsize2 repr2 ro2 (open_hb name (hb_tree new') i r) bags2 version2 new2 <> (new2', Ok old2').
Proof.
  intros v algs bsize repr ro old bags version new new' old' name t td (B & (i & Ti & En & Td) & D & Tv & Nv & Vv & Fd) G O Eh No Nn Fn Fp H r.
  assert (Td' : tag_dir_raw (hb_info new) = Ok td) by (subst new; exact Td).
  destruct (amend_disk v algs bsize repr ro old (map default_bag bags) (own_member None None []) SNone SNone version new new' old' name t td B) as
    (ms' & t2 & h & d & Om & Al & _ & Et & Ei & Hm & Tb & Ln & En' & El & _ & _ & Rl & _ & T); auto.
  { exists i. auto. }
  inversion Fp as [|? ? [Bo Po] Fp']; subst x l. apply Forall_app in Fp'. destruct Fp' as [Fb Ft]. inversion Ft as [|? ? [Bt Pt] _]; subst x l. clear Ft Fp.
  assert (Lu : hb_lu h = None).
  { apply (lists_quiet repr ro old bags new h old' td name t i En Td Nn Bt G O); auto.
    - rewrite Eh. split; [exact Bo|]. split; [exact No|exact Po].
    - clear - Fb Fn. rewrite Forall_map in Fb. induction Fb as [|b l [H1 H2] _ IH]; [constructor|]. inversion Fn; subst. constructor; [|apply IH; assumption].
      split; [exact H1|]. split; [assumption|exact H2]. }
  destruct (T r) as (j & J1 & J2 & J3 & _). exists j. split; [exact J1|].
  assert (Hd : is_head (open_hb name (hb_tree new') j r) = true).
  { unfold is_head, od_has. cbn [open_hb hb_info]. destruct (od_get T_HeadVersion j) eqn:E; [reflexivity|]. unfold tag_values in J3. rewrite E in J3. discriminate J3. }
  split; [exact Hd|]. intros. apply untabled_fails; [exact Hd|]. exists EMissingFile. apply (missing_lookup (open_hb name (hb_tree new') j r) td J2). cbn [open_hb hb_tree].
  rewrite Rl, Lu. reflexivity.
Qed.
Print Assumptions C114_no_payload_refuted.

(** A member with further fields stops the amendment of its head bag. *)
Lemma prefix_fields l m : In m l -> m_info m <> [] -> exists e, snd (members_prefix l) = Err e.
Proof.
  induction l as [|a l IH]; intros H F; [destruct H|]. destruct H as [->|H]; cbn [members_prefix].
  - unfold format_member. destruct (m_info m); [congruence|]. eexists. reflexivity.
  - unfold format_member. destruct (m_info a); [|eexists; reflexivity]. destruct (IH H F) as [e E]. destruct (members_prefix l) as [x y]. cbn [snd] in *.
    exists e. exact E.
Qed.

Theorem C114_fields_refuted : forall v algs bsize repr ro old bags version new name t td ms m,
  amendment bsize repr old new name t td version ->
  is_head old = true -> iter_member_bags old = Ok ms -> In m ms -> m_info m <> [] ->
  NoDup (map Tsv.m_name ms ++ map s_name bags ++ [name]) ->
  forall new' old', amend_bag_with v algs bsize repr ro old bags version new <> (new', Ok old').
Proof.
  intros v algs bsize repr ro old bags version new name t td ms m (B & (i & Ti & En & Td) & D & Tv & Nv & Vv & Fd) Eh Im I0 Nf Nd new' old' H.
  assert (Td' : tag_dir_raw (hb_info new) = Ok td) by (subst new; exact Td).
  pose proof H as H0. unfold amend_bag_with, amend in H0. apply bindM_ok in H0. destruct H0 as (o & h1 & Al1 & H0). apply bindM_ok in H0. destruct H0 as ([] & h2 & W & H0).
  destruct (amend_disk v algs bsize repr ro old (map default_bag bags) (own_member None None []) SNone SNone version new new' old' name t td B) as
    (ms' & t2 & h & d & Om & Al & _ & Et & Ei & Hm & _); auto.
  { exists i. auto. }
  assert (h = h1) by congruence. subst h1. unfold old_members in Om. rewrite Eh in Om. assert (ms' = ms) by congruence. subst ms'.
  set (l := ms ++ map ab_member (map default_bag bags) ++ [own_member None None [] name]) in *.
  assert (L : last_ones l = l).
  { apply C41_distinct. unfold l. rewrite !map_app, !map_map. exact Nd. }
  rewrite L in Hm.
  unfold write_all in W. apply bindM_ok in W. destruct W as ([] & h3 & W & _). unfold save_member_bags in W. rewrite Hm in W.
  apply bindM_ok in W. destruct W as ([] & h4 & _ & W). apply bindM_ok in W. destruct W as ([] & h5 & _ & W).
  destruct (prefix_fields l m) as [e E]; [apply in_or_app; left; exact I0|exact Nf|].
  rewrite E in W. discriminate W.
Qed.
Print Assumptions C114_fields_refuted.

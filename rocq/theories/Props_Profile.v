(** * C125: the bags made and the published BagIt profiles *)

Require Import String NArith PeanoNat Bool List Lia Permutation.
From Verif Require Import PyBase PyFacts Version Tsv TsvProofs Fs FsFacts HeadBag HeadBagProofs HeadBagProofs2 HeadBagProofs3 BagIt BagItProofs BagItProofs2 Split SplitProofs3 SplitApply SplitApplyProofs SplitApplyProofs2 SplitApplyProofs3 SplitApplyProofs4 SplitApplyProofs5 SplitApplyProofs6 SplitApplyProofs7 SplitApplyProofs8 SplitApplyProofs9 Restore RestoreProofs RestoreProofs2 RestoreProofs3 RestoreProofs6 Props_SplitApply Props_SplitApply2 Props_SplitApply3 Props_Restore Props_Restore3 Amend AmendProofs AmendProofs2 AmendProofs3 AmendProofs4 Props_Amend SingleProofs Props_Single Profile.
Import ListNotations.
Open Scope N_scope.

(** ** Specification *)

(** The tags [d] follow a rule: a required tag is there, one that is not
    repeatable is there at most once, and only listed values are used. *)
Definition follows (d : infod) (r : tag_rule) : Prop :=
  (tr_required r = true -> tag_values d (tr_name r) <> []) /\
  (tr_repeatable r = false -> (length (tag_values d (tr_name r)) <= 1)%nat) /\
  (forall l v, tr_values r = Some l -> In v (tag_values d (tr_name r)) -> In v l).
Definition follows_tags (pf : profile) (d : infod) : Prop := Forall (follows d) (pf_tags pf).
Definition has_tag_files (pf : profile) (t : tree) : Prop := Forall (fun p => is_file p t = true) (pf_files pf).

(** What the profiles ask of the tags: one profile version, a known one, and for
    head bags one version of the head bag. *)
Theorem C125_profiles : forall d,
  (follows_tags member_profile d -> exists v, tag_values d (U "Multibag-Version") = [v] /\ In v [U "0.2"; U "0.3"; U "0.4"]) /\
  (follows_tags head_profile d -> follows_tags member_profile d /\ exists v, tag_values d (U "Multibag-Head-Version") = [v]).
Proof.
  intros d. unfold follows_tags. split.
  - intros F. rewrite Forall_forall in F. destruct (F _ (or_introl eq_refl)) as (F1 & F2 & F3). cbn [tr_required tr_repeatable tr_values tr_name] in *.
    specialize (F1 eq_refl). specialize (F2 eq_refl). destruct (tag_values d (U "Multibag-Version")) as [|v [|w l]]; [contradiction F1; reflexivity| |cbn [length] in F2; lia].
    exists v. split; [reflexivity|]. apply (F3 _ v eq_refl). left. reflexivity.
  - intros F. assert (G := F). rewrite Forall_forall in G. split.
    + apply Forall_forall. intros r I0. cbn [member_profile pf_tags profile_tags In] in I0.
      destruct I0 as [<-|[<-|[<-|[<-|I0]]]]; [| | | |]; try (apply G; cbn [head_profile pf_tags profile_tags In]; tauto).
      destruct (G (rule (U "Multibag-Head-Version") true false)) as (_ & G2 & G3); [do 3 right; left; reflexivity|]. split; [discriminate|]. split; [exact G2|exact G3].
    + destruct (G (rule (U "Multibag-Head-Version") true false)) as (G1 & G2 & _); [do 3 right; left; reflexivity|]. cbn [rule tr_name tr_required tr_repeatable] in G1, G2.
      specialize (G1 eq_refl). specialize (G2 eq_refl). destruct (tag_values d (U "Multibag-Head-Version")) as [|v [|w l]]; [contradiction G1; reflexivity| |cbn [length] in G2; lia]. exists v. reflexivity.
Qed.
Print Assumptions C125_profiles.

Definition at_most_one (l : list pystr) : Prop := (length l <= 1)%nat.

(** ** Splits *)

(** The group identifiers that a split bag gets: those of the source and its
    external identifiers. *)
Definition group_ids (i : infod) (o : apply_opts) : list pystr :=
  passed_on (ao_nopass o) i (U "Bag-Group-Identifier") ++ passed_on (ao_nopass o) i (U "External-Identifier").

Lemma documented_follows i o b h head d : documented i o b h d ->
  (follows_tags {| pf_tags := profile_tags head; pf_bagit := []; pf_files := [] |} d <->
   at_most_one (group_ids i o) /\ (head = true -> h = true)).
Proof.
  intros [D1 D2 D3 D4 D5 D6 D7 D8 D9 D10 D11 D12].
  assert (Dr : tag_values d (U "Multibag-Reference") = []).
  { apply D12; [reflexivity|]. intros I0. repeat (destruct I0 as [I0|I0]; [discriminate I0|]). destruct I0. }
  assert (Dg : length (tag_values d (U "Bag-Group-Identifier")) = length (group_ids i o)) by (apply Permutation_length; exact D5).
  assert (Ds : (length (tag_values d (U "Internal-Sender-Description")) <= 1)%nat).
  { apply (f_equal (@length _)) in D3. rewrite map_length in D3. rewrite D3.
    destruct (passed_on (ao_nopass o) i (U "Internal-Sender-Description")); cbn [length]; lia. }
  assert (Di : (length (tag_values d (U "Internal-Sender-Identifier")) <= 1)%nat).
  { rewrite D2. destruct (passed_on (ao_nopass o) i (U "Internal-Sender-Identifier")); cbn [length]; lia. }
  unfold follows_tags, profile_tags. cbn [pf_tags]. split.
  - intros F. rewrite Forall_forall in F. split.
    + assert (Fg := F (rule (U "Bag-Group-Identifier") false false)). destruct Fg as (_ & Fg & _).
      { do 5 right. left. reflexivity. }
      unfold at_most_one. rewrite <- Dg. apply Fg. reflexivity.
    + intros ->. destruct (F (rule (U "Multibag-Head-Version") true false)) as (Fh & _).
      { do 3 right. left. reflexivity. }
      specialize (Fh eq_refl). cbn [rule tr_name] in Fh. rewrite D10 in Fh. destruct h; [reflexivity|contradiction Fh; reflexivity].
  - intros [G Hh]. unfold at_most_one in G. rewrite <- Dg in G.
    constructor.
    { unfold follows. cbn [tr_required tr_repeatable tr_values tr_name]. rewrite D8. split; [discriminate|]. split; [cbn [length]; lia|].
      intros l v E [<-|[]]. inversion E; subst l. right; right; left; reflexivity. }
    constructor.
    { unfold follows. cbn [rule tr_required tr_repeatable tr_values tr_name]. rewrite Dr. split; [discriminate|]. split; [cbn [length]; lia|discriminate]. }
    constructor.
    { unfold follows. cbn [rule tr_required tr_repeatable tr_values tr_name]. rewrite D9. split; [discriminate|]. split; [cbn [length]; lia|discriminate]. }
    constructor.
    { unfold follows. cbn [rule tr_required tr_repeatable tr_values tr_name]. rewrite D10.
      split; [intros E; rewrite (Hh E); discriminate|]. split; [destruct h; cbn [length]; lia|discriminate]. }
    constructor.
    { unfold follows. cbn [rule tr_required tr_repeatable tr_values tr_name]. split; [discriminate|]. split; discriminate. }
    constructor.
    { unfold follows. cbn [rule tr_required tr_repeatable tr_values tr_name]. split; [discriminate|]. split; [intros _; exact G|discriminate]. }
    constructor.
    { unfold follows. cbn [rule tr_required tr_repeatable tr_values tr_name]. split; [discriminate|]. split; [intros _; exact Di|discriminate]. }
    constructor; [|constructor].
    unfold follows. cbn [rule tr_required tr_repeatable tr_values tr_name]. split; [discriminate|]. split; [intros _; exact Ds|discriminate].
Qed.

(** The tags of every split bag follow the rules of the profile for member bags
    exactly if the source has, of group identifiers and external identifiers
    together, at most one; the same holds for the head bag and the profile for
    head bags, and no other bag follows that one. Missing: sources with a tag
    value on several lines (as for C30). *)
Theorem C125_split_tags_partial : forall s o p it out bags,
  opened s -> plain_opts (so_reader s) o -> splits_into s o p it out bags ->
  Forall (fun b => tag_value_ok (so_reader s) b) (map fst bags) ->
  (forall k v, In v (tag_values (so_info s) k) -> no_brk (so_reader s) v) ->
  Forall2 (fun mh bt => exists d, tags_of (so_reader s) (snd bt) = Ok d /\
    (follows_tags member_profile d <-> at_most_one (group_ids (so_info s) o)) /\
    (follows_tags head_profile d <-> at_most_one (group_ids (so_info s) o) /\ snd mh = true)) (manifests p) bags.
Proof.
  intros s o p it out bags Ho Hp H Fb Fv. pose proof (C30_bag_info_partial s o p it out bags Ho Hp H Fb Fv) as F.
  clear H Fb. induction F as [|mh bt mhs bts (d & Td & Dd) _ IH]; [constructor|]. constructor; [|exact IH].
  exists d. split; [exact Td|]. split.
  - rewrite (documented_follows (so_info s) o (fst bt) (snd mh) false d Dd). intuition discriminate.
  - rewrite (documented_follows (so_info s) o (fst bt) (snd mh) true d Dd). intuition.
Qed.

(** The bagit.txt of every split bag is that of the source, so the BagIt version
    is accepted by the profile exactly if the source's is. *)
Theorem C125_split_version : forall s o p it out bags b t,
  splits_into s o p it out bags -> In (b, t) bags -> read (U "bagit.txt") t = read (U "bagit.txt") (so_tree s).
Proof.
  intros s o p it out bags b t H I0. apply made_split in H. destruct H as (ms0 & lu0 & ms' & lu' & _ & M & _).
  apply made_each in M.
  assert (G : Forall (fun bt : pystr * tree => read (U "bagit.txt") (snd bt) = read (U "bagit.txt") (so_tree s)) bags).
  { clear I0. induction M as [|mh bt mhs bts (ms & lu & c & Rc & R & _) _ IH]; [constructor|]. constructor; [|exact IH].
    refine (eq_trans _ (eq_sym Rc)). eapply read_bagit_gen; eauto. }
  rewrite Forall_forall in G. exact (G (b, t) I0).
Qed.

(** But no head bag of a split has the tag files that its profile requires,
    which are those of profile version 0.2, unless the source has them. *)
Theorem C125_split_files_refuted : forall s o p it out bags b t,
  wf_tree (so_tree s) -> splits_into s o p it out bags ->
  ~ has_tag_files head_profile (so_tree s) -> In (b, t) bags -> ~ has_tag_files head_profile t.
Proof.
  intros s o p it out bags b t W H Ns I0 F. pose proof (C25_exact_copies s o p it out bags W H) as C. apply Ns.
  apply Forall_forall. intros f If. unfold has_tag_files in F. rewrite Forall_forall in F. pose proof (F f If) as Ff.
  assert (G : forall mhs bts, Forall2 (fun mh bt => exact_copies (so_tree s) (snd bt) (fst mh) (snd mh)) mhs bts ->
              In (b, t) bts -> exists m h, exact_copies (so_tree s) t m h).
  { clear. induction 1 as [|mh bt mhs bts X _ IH]; [intros []|]. intros [->|I0]; [exists (fst mh), (snd mh); exact X|auto]. }
  destruct (G _ _ C I0) as (m & h & E). apply is_file_read in Ff. destruct Ff as [c Rc].
  destruct (ec_only _ _ _ _ E f c Rc) as [O|[_ Rs]].
  - exfalso. cbn [head_profile pf_files] in If. destruct If as [<-|[<-|[]]]; inversion O.
  - apply is_file_read. eauto.
Qed.

(** A source with a group identifier and an external identifier: the split bags
    have two group identifiers, and the profile does not allow that. *)
Definition two_ids_text : pystr := U "External-Identifier: ark:/1" ++ [LF] ++ U "Bag-Group-Identifier: g" ++ [LF].
Definition two_ids_tree : tree :=
  [(U "bagit.txt", NFile (U "BagIt-Version: 0.97" ++ [LF])); (U "bag-info.txt", NFile two_ids_text);
   (U "data", NDir); (U "data/a", NFile (U "a"))].
Definition two_ids : source :=
  {| so_name := U "src"; so_tree := two_ids_tree; so_info := got [] (load_tags Codecs two_ids_text);
     so_algos := ex_algos; so_entries := []; so_reader := Codecs |}.
Definition two_ids_plan : plan :=
  {| p_bag := {| b_name := U "src"; b_tree := two_ids_tree; b_dirsize := fun _ => 0 |};
     p_manifests := [{| m_name := Some (U "one"); m_contents := [U "data/a"]; m_total := 1 |}] |}.
Definition two_ids_bags : dict tree :=
  match apply_plan two_ids ex_opts two_ids_plan None [] with Ok a => a_out a | Err _ => [] end.

Theorem C125_split_tags_refuted : exists s o p bags b t d,
  opened s /\ splits_into s o p None [] bags /\ In (b, t) bags /\ tags_of (so_reader s) t = Ok d /\
  Forall (fun k => at_most_one (tag_values (so_info s) (tr_name k))) (pf_tags member_profile) /\
  ~ follows_tags member_profile d.
Proof.
  assert (Ea : exists t, two_ids_bags = [(U "one", t)] /\
               tag_values (got [] (tags_of Codecs t)) (U "Bag-Group-Identifier") = [U "ark:/1"; U "g"] /\
               tags_of Codecs t = Ok (got [] (tags_of Codecs t))).
  { exists (match two_ids_bags with (_, t) :: _ => t | _ => [] end). split; [vm_compute; reflexivity|]. split; vm_compute; reflexivity. }
  destruct Ea as (t & Eb & Eg & Et).
  exists two_ids, ex_opts, two_ids_plan, two_ids_bags, (U "one"), t, (got [] (tags_of Codecs t)).
  split; [vm_compute; reflexivity|]. split.
  { unfold two_ids_bags in *. destruct (apply_plan two_ids ex_opts two_ids_plan None []) as [a|e] eqn:E; [exists a; auto|discriminate Eb]. }
  split; [rewrite Eb; left; reflexivity|]. split; [exact Et|]. split.
  { unfold member_profile, profile_tags. cbn [pf_tags].
    repeat (apply Forall_cons; [unfold at_most_one; vm_compute; repeat constructor|]). constructor. }
  intros F. unfold follows_tags in F. rewrite Forall_forall in F. destruct (F (rule (U "Bag-Group-Identifier") false false)) as (_ & Fg & _).
  { do 5 right. left. reflexivity. }
  specialize (Fg eq_refl). cbn [rule tr_name] in Fg. rewrite Eg in Fg. cbn [length] in Fg. lia.
Qed.

(** ** Amendments and single multibags *)

(** The descriptions that a bag may have: none, or one that says already that
    the bag is a multibag. *)
Definition about_ready (l : list pystr) : Prop :=
  l = [] \/ exists x, l = [x] /\ substr_in about_morsel x = true.

Lemma with_about_one l : at_most_one (with_about l) <-> about_ready l.
Proof.
  unfold at_most_one, with_about, about_ready. destruct (existsb (substr_in about_morsel) l) eqn:E.
  - destruct l as [|x [|y l]]; cbn [length existsb] in *; [discriminate E| |].
    + rewrite orb_false_r in E. split; [intros _; right; eauto|lia].
    + split; [lia|]. intros [Q|(z & Q & _)]; discriminate Q.
  - rewrite app_length. cbn [length]. destruct l as [|x l]; cbn [length].
    + split; [left; reflexivity|lia].
    + split; [lia|]. intros [Q|(z & Q & M)]; [discriminate Q|]. inversion Q; subst. cbn [existsb] in E. rewrite M in E. discriminate E.
Qed.

(** The condition on the tags [i] that a bag has before it becomes a head bag. *)
Definition tags_ready (i : infod) : Prop :=
  at_most_one (tag_values i (U "Bag-Group-Identifier")) /\ at_most_one (tag_values i (U "Internal-Sender-Identifier")) /\
  about_ready (tag_values i (U "Internal-Sender-Description")).

Lemma head_follows i j td version (f : pystr -> pystr) :
  tag_values j T_HeadVersion = [version] -> tag_values j T_Version = [CURRENT_VERSION] ->
  tag_values j T_Reference = [CURRENT_REFERENCE] -> tag_values j T_TagDir = [td] ->
  tag_values j T_ISD = map f (with_about (tag_values i T_ISD)) ->
  (forall k, ~ In k info_keys -> k <> T_HeadDeprecates -> tag_values j k = map f (tag_values i k)) ->
  (follows_tags head_profile j <-> tags_ready i).
Proof.
  intros Hh Hv Hr Ht Hd Ho.
  assert (Hg : length (tag_values j (U "Bag-Group-Identifier")) = length (tag_values i (U "Bag-Group-Identifier"))).
  { rewrite Ho, map_length; [reflexivity| |discriminate]. intros I0. repeat (destruct I0 as [I0|I0]; [discriminate I0|]). destruct I0. }
  assert (Hi : length (tag_values j (U "Internal-Sender-Identifier")) = length (tag_values i (U "Internal-Sender-Identifier"))).
  { rewrite Ho, map_length; [reflexivity| |discriminate]. intros I0. repeat (destruct I0 as [I0|I0]; [discriminate I0|]). destruct I0. }
  assert (Hs : length (tag_values j (U "Internal-Sender-Description")) = length (with_about (tag_values i (U "Internal-Sender-Description")))).
  { change (U "Internal-Sender-Description") with T_ISD. rewrite Hd, map_length. reflexivity. }
  unfold follows_tags, head_profile, profile_tags, tags_ready. cbn [pf_tags]. rewrite <- with_about_one. unfold at_most_one.
  rewrite <- Hg, <- Hi, <- Hs. split.
  - intros F. rewrite Forall_forall in F. split; [|split].
    + apply (F (rule (U "Bag-Group-Identifier") false false)); [do 5 right; left; reflexivity|reflexivity].
    + apply (F (rule (U "Internal-Sender-Identifier") false false)); [do 6 right; left; reflexivity|reflexivity].
    + apply (F (rule (U "Internal-Sender-Description") false false)); [do 7 right; left; reflexivity|reflexivity].
  - intros (G & Gi & Gs).
    change T_Version with (U "Multibag-Version") in Hv. change T_Reference with (U "Multibag-Reference") in Hr.
    change T_TagDir with (U "Multibag-Tag-Directory") in Ht. change T_HeadVersion with (U "Multibag-Head-Version") in Hh.
    constructor.
    { unfold follows. cbn [tr_required tr_repeatable tr_values tr_name]. rewrite Hv. split; [discriminate|]. split; [cbn [length]; lia|].
      intros l v E [<-|[]]. inversion E; subst l. right; right; left; reflexivity. }
    constructor.
    { unfold follows. cbn [rule tr_required tr_repeatable tr_values tr_name]. rewrite Hr. split; [discriminate|]. split; [cbn [length]; lia|discriminate]. }
    constructor.
    { unfold follows. cbn [rule tr_required tr_repeatable tr_values tr_name]. rewrite Ht. split; [discriminate|]. split; [cbn [length]; lia|discriminate]. }
    constructor.
    { unfold follows. cbn [rule tr_required tr_repeatable tr_values tr_name]. rewrite Hh. split; [discriminate|]. split; [cbn [length]; lia|discriminate]. }
    constructor.
    { unfold follows. cbn [rule tr_required tr_repeatable tr_values tr_name]. split; [discriminate|]. split; discriminate. }
    constructor.
    { unfold follows. cbn [rule tr_required tr_repeatable tr_values tr_name]. split; [discriminate|]. split; [intros _; exact G|discriminate]. }
    constructor.
    { unfold follows. cbn [rule tr_required tr_repeatable tr_values tr_name]. split; [discriminate|]. split; [intros _; exact Gi|discriminate]. }
    constructor; [|constructor].
    unfold follows. cbn [rule tr_required tr_repeatable tr_values tr_name]. split; [discriminate|]. split; [intros _; exact Gs|discriminate].
Qed.

(** The tags of the head bag of an amendment follow the rules of the profile
    for head bags exactly if it had at most one group identifier and sender
    identifier before, and no description other than one about multibags. *)
Theorem C125_amended_tags : forall v algs bsize repr ro old bags own inc exc version new new' old' name t td,
  amendment bsize repr old new name t td version ->
  amend v algs bsize repr false ro old bags own inc exc version new = (new', Ok old') ->
  forall r, exists j, tags_of r (hb_tree new') = Ok j /\ (follows_tags head_profile j <-> tags_ready (hb_info new)).
Proof.
  intros v algs bsize repr ro old bags own inc exc version new new' old' name t td (B & (i & Ti & En & Td) & D & Tv & Nv & Vv & Fd) H r.
  destruct (amend_disk v algs bsize repr ro old bags own inc exc version new new' old' name t td B) as
    (ms & t2 & h & d & _ & _ & _ & _ & _ & _ & _ & _ & _ & _ & _ & _ & _ & _ & T); auto.
  { exists i. auto. }
  { subst new. exact Td. }
  destruct (T r) as (j & Tj & _ & J1 & _ & J2 & J3 & J4 & J5 & J6). exists j. split; [exact Tj|].
  eapply head_follows; eauto.
Qed.

(** The same for a bag that was made a multibag of its own. *)
Theorem C125_single_tags : forall v bsize bagdir name t td version pid t' i,
  plain_algos v -> plain_size bsize -> convertible t td -> tags_of Codecs t = Ok i ->
  name <> [] -> ~ In SLASH name -> bagdir = name \/ (exists d, bagdir = d ++ SLASH :: name) ->
  version <> [] -> tag_value_ok Codecs version ->
  make_single_multibag v bsize bagdir t version pid = Ok t' ->
  forall r, exists j, tags_of r t' = Ok j /\ (follows_tags head_profile j <-> tags_ready i).
Proof.
  intros v bsize bagdir name t td version pid t' i0 Pa B (W & i & Ti & Td & Ov & Tv & Gt & Ot) Ti0 N0 Ns Hb Nv Vv H r.
  rewrite Ti in Ti0. inversion Ti0; subst i0; clear Ti0.
  destruct (name_at_path bagdir name N0 Ns Hb) as [Eb En].
  unfold make_single_multibag in H. apply bind_ok in H. destruct H as ([i' es] & Ho & H). apply bind_ok in H. destruct H as (algs & Ha & H).
  assert (i' = i).
  { unfold open_bag in Ho. destruct (read F_bagit t) as [c|]; [|discriminate]. apply bind_ok in Ho. destruct Ho as ([v97 v1] & _ & Ho).
    apply bind_ok in Ho. destruct Ho as (i0 & Hi & Ho). apply bind_ok in Ho. destruct Ho as (e0 & _ & Ho). injection Ho as -> _.
    unfold tags_of in Ti. change (U "bag-info.txt") with F_baginfo in Ti. destruct (read F_baginfo t); congruence. }
  subst i'. rewrite En in H. destruct (convert v algs bsize bagdir version pid (open_hb name t i Codecs)) as [h' [[]|e]] eqn:C; [|discriminate].
  injection H as <-.
  destruct (convert_run v algs bsize bagdir version pid name t i h' td Pa (algorithms_in _ _ _ Ha) B Ti Td Ov Tv Gt Ot Nv Vv W N0 C)
    as (i2 & lu & d & _ & _ & K & G & D & L & Rm & Rl & T).
  destruct (T r) as (j & Tj & _ & J1 & J2 & J3 & J4 & J5 & J6). exists j. split; [exact Tj|].
  eapply head_follows; eauto.
Qed.

(** Neither has the tag files that the profile for head bags requires. *)
Theorem C125_head_files_refuted :
  (exists old new new' old' name t td, amendment (fun _ => U "1 kB") ex_repr old new name t td (U "2") /\
     ex_amend old [ex_four] new = (new', Ok old') /\ ~ has_tag_files head_profile (hb_tree new')) /\
  (exists t t', convertible t (U "multibag") /\ ex_single (U "/bags/mine") t = Ok t' /\ ~ has_tag_files head_profile t').
Proof.
  assert (N0 : forall t, is_file (U "multibag/group-members.txt") t = false -> ~ has_tag_files head_profile t).
  { intros t E F. inversion F as [|? ? Q _]; subst. rewrite E in Q. discriminate Q. }
  split.
  - exists ex_amendee, ex_new, ex_amended, ex_amendee, (U "three"), ex_three, (U "multibag"). split; [exact ex_amendment|].
    split; [vm_compute; reflexivity|]. apply N0. vm_compute. reflexivity.
  - exists ex_plain, ex_plain_head. split; [apply C46_case|]. split; [apply C46_case|]. apply N0. vm_compute. reflexivity.
Qed.

(** A bag with a description of its own cannot become a head bag that follows
    the profile. *)
Definition described : tree :=
  [(U "bagit.txt", NFile ex_bagit); (U "bag-info.txt", NFile (txt [U "Internal-Sender-Description: mine"]));
   (U "data", NDir); (U "data/a", NFile (U "aa")); (U "manifest-md5.txt", NFile (txt [U "1 data/a"]))].
Definition described_head : tree := got [] (ex_single (U "/bags/mine") described).

Theorem C125_described_refuted : exists t t' i j,
  tags_of Codecs t = Ok i /\ ex_single (U "/bags/mine") t = Ok t' /\ tags_of Codecs t' = Ok j /\
  Forall (fun k => at_most_one (tag_values i (tr_name k))) (pf_tags head_profile) /\ ~ follows_tags head_profile j.
Proof.
  exists described, described_head, (got [] (tags_of Codecs described)), (got [] (tags_of Codecs described_head)).
  split; [vm_compute; reflexivity|]. split; [vm_compute; reflexivity|]. split; [vm_compute; reflexivity|]. split.
  { unfold head_profile, profile_tags. cbn [pf_tags].
    repeat (apply Forall_cons; [unfold at_most_one; vm_compute; repeat constructor|]). constructor. }
  intros F. unfold follows_tags in F. rewrite Forall_forall in F. destruct (F (rule (U "Internal-Sender-Description") false false)) as (_ & Fg & _).
  { do 7 right. left. reflexivity. }
  specialize (Fg eq_refl). cbn [rule tr_name] in Fg.
  assert (E : length (tag_values (got [] (tags_of Codecs described_head)) (U "Internal-Sender-Description")) = 2%nat) by (vm_compute; reflexivity).
  rewrite E in Fg. lia.
Qed.

(** The source, the new head bag and the plain bag of the examples satisfy the
    conditions. *)
Example C125_case :
  at_most_one (group_ids (so_info ex_source) ex_opts) /\ group_ids (so_info ex_source) ex_opts = [U "ark:/1"] /\
  tags_ready (hb_info ex_new) /\ tags_ready (got [] (tags_of Codecs ex_plain)) /\
  ~ has_tag_files head_profile (so_tree ex_source).
Proof.
  assert (E : group_ids (so_info ex_source) ex_opts = [U "ark:/1"]) by (vm_compute; reflexivity).
  split; [rewrite E; unfold at_most_one; cbn [length]; lia|]. split; [exact E|].
  split; [split; [unfold at_most_one; vm_compute; repeat constructor|split; [unfold at_most_one; vm_compute; repeat constructor|left; vm_compute; reflexivity]]|].
  split; [split; [unfold at_most_one; vm_compute; repeat constructor|split; [unfold at_most_one; vm_compute; repeat constructor|left; vm_compute; reflexivity]]|].
  intros F. inversion F as [|? ? Q _]; subst. vm_compute in Q. discriminate Q.
Qed.

Print Assumptions C125_split_tags_partial.
Print Assumptions C125_split_version.
Print Assumptions C125_split_files_refuted.
Print Assumptions C125_split_tags_refuted.
Print Assumptions C125_amended_tags.
Print Assumptions C125_single_tags.
Print Assumptions C125_head_files_refuted.
Print Assumptions C125_described_refuted.

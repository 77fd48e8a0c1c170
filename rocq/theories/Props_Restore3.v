(** * Properties of bag-info.txt and the multibag directory of restored bags
    (C40, C73 to C75) *)

Require Import String NArith PeanoNat Bool List Lia.
From Verif Require Import PyBase PyFacts Tsv TsvProofs Fs FsFacts HeadBag HeadBagProofs3 BagIt BagItProofs Split SplitApply SplitApplyProofs SplitApplyProofs2 SplitApplyProofs5 SplitApplyProofs8 Props_SplitApply Props_SplitApply2 Restore RestoreProofs RestoreProofs2 RestoreProofs3 Props_Restore RestoreProofs6.
Import ListNotations.
Open Scope N_scope.

(** ** C40: no longer a multibag *)

Definition multibag_tags : list pystr :=
  [U "Multibag-Version"; U "Multibag-Reference"; U "Multibag-Tag-Directory";
   U "Multibag-Head-Version"; U "Multibag-Head-Deprecates"].

(** The text for Bag-Size is one line without blanks around it, such as
    "1.2 kB". *)
Definition plain_size (bsize : tree -> pystr) : Prop :=
  forall t, no_brk Codecs (bsize t) /\ trimmed (bsize t).

Lemma load_shape r text d : load_tags r text = Ok d -> tag_shape d.
Proof.
  unfold load_tags. intros H. apply bind_ok in H. destruct H as (kvs & _ & H). inversion H; subst.
  apply fold_add_tag_shape. intros k l E. discriminate.
Qed.

Lemma no_values d k : tag_shape d -> tag_values d k = [] -> ~ In k (od_keys d).
Proof.
  intros S E. apply od_get_none. unfold tag_values in E. destruct (od_get k d) as [[s|l]|] eqn:G; auto; [discriminate|].
  subst l. apply S in G. cbn in G. lia.
Qed.

(** The end of a restoration that succeeds. *)
Lemma restored_end v us rt bsize ro h loc skip ms bags dest dest' :
  plain_algos v -> hb_del h = None -> head_lists ro h = Ok (skip, ms) -> aggregation v h loc ms bags ->
  Forall (fun b => wf_tree (rb_tree b)) bags -> wf_tree dest ->
  restore v us rt bsize ro h loc dest = Ok dest' ->
  exists t, wf_tree t /\ finish v us rt bsize t = Ok dest' /\
    od_get F_baginfo t = match read (U "multibag/aggregation-info.txt") (hb_tree h) with
                         | Some c => Some (NFile (decode (hb_reader h) c))
                         | None => match od_get F_baginfo dest with
                                   | Some n => Some n
                                   | None => if gone skip F_baginfo then None else latest (map (contrib v) bags) F_baginfo
                                   end
                         end.
Proof.
  intros S Hd Hl Ha Wb Wd H. destruct (aggregation_others _ _ _ _ _ Ha) as (bs & F & ->).
  assert (N0 : ~ In [] skip) by (apply head_lists_ok in Hl; eapply skip_nonempty; [exact Hd|apply Hl]).
  apply Forall_rev in Wb. rewrite rev_involutive in Wb. pose proof Wb as Wb'. inversion Wb as [|? ? Wh Wbs]; subst.
  apply restore_parts in H. destruct H as (skip' & ms' & t & t1 & Hl' & Hg & Hf & Hn).
  rewrite Hl in Hl'. inversion Hl'; subst skip' ms'. clear Hl'.
  destruct (gather_nodes v ro h loc skip ms bs dest t S N0 Hl F Wh Wbs Wd Hg) as [Wt _].
  destruct (fetch_step_nodes _ _ _ _ Wt Hf) as [W1 Q1].
  exists t1. split; [exact W1|]. split; [exact Hn|]. rewrite Q1 by discriminate.
  unfold gather in Hg. rewrite Hl in Hg. cbn [bind] in Hg.
  apply bind_ok in Hg. destruct Hg as (t0 & H1 & Hg). apply bind_ok in Hg. destruct Hg as (t2 & H2 & Hg).
  rewrite (members_bags v skip _ _ _ F) in Hg.
  assert (H' : foldM (fun d b => restore_from v false skip b d) (head_bag h loc :: bs) t0 = Ok t).
  { cbn [foldM]. unfold head_bag. rewrite H2. exact Hg. }
  destruct (start_info_nodes _ _ _ Wd H1) as [Wt0 _].
  destruct (restore_bags_nodes v skip (head_bag h loc :: bs) t0 t S N0 Wb' Wt0 H') as [_ Q].
  rewrite Q; [|intros (k & a & Ik & _ & E); destruct Ik as [<-|[<-|[]]]; discriminate].
  unfold start_info in H1. change (sjoin MULTIBAG F_agginfo) with (U "multibag/aggregation-info.txt") in H1.
  destruct (read (U "multibag/aggregation-info.txt") (hb_tree h)) as [c|].
  - apply write_file_ok in H1. subst t0. rewrite od_get_set_same. reflexivity.
  - inversion H1; subst t0. rewrite latest_first, <- map_rev, rev_involutive. reflexivity.
Qed.

(** After a restoration with the default options, the directory "multibag" is
    gone, and none of the tags is in bag-info.txt. Missing for C40: head bags
    whose tag directory is another one, see [C40_refuted]. *)
Theorem C40_removed_partial : forall v bsize ro h loc skip ms bags dest dest',
  plain_algos v -> plain_size bsize -> hb_del h = None ->
  head_lists ro h = Ok (skip, ms) -> aggregation v h loc ms bags ->
  Forall (fun b => wf_tree (rb_tree b)) bags -> wf_tree dest ->
  restore v true true bsize ro h loc dest = Ok dest' ->
  (forall p, multibag_path p -> od_get p dest' = None) /\
  exists text, read (U "bag-info.txt") dest' = Some text /\
    forall r, exists d, load_tags r text = Ok d /\ forall k, In k multibag_tags -> ~ In k (od_keys d).
Proof.
  intros v bsize ro h loc skip ms bags dest dest' S B Hd Hl Ha Wb Wd H.
  destruct (restored_end _ _ _ _ _ _ _ _ _ _ _ _ S Hd Hl Ha Wb Wd H) as (t & Wt & Hn & _). split.
  - intros p Mp. apply multibag_iff in Mp. destruct (finish_nodes v true true bsize t dest' S Wt Hn) as (_ & _ & Q).
    rewrite Q; [cbn [andb]; rewrite Mp; reflexivity|]. left. intros T.
    destruct T as [(k & a & Ik & _ & ->)|[-> | ->]]; [destruct Ik as [<-|[<-|[]]]| |]; discriminate.
  - assert (B' : forall t, no_brk Codecs (bsize t) /\ (bsize t = [] \/ trimmed (bsize t))) by (intros x; destruct (B x); auto).
    destruct (finish_tags v bsize t dest' B' Hn) as (info & es & sn & t' & text & _ & _ & R & G).
    exists text. split; [exact R|]. intros r. destruct (G r) as (d & L & _ & _ & V). exists d. split; [exact L|].
    intros k I. apply (no_values d k (load_shape _ _ _ L)). rewrite V.
    + assert (E : str_in k mb_keys = true) by (apply str_in_iff; exact I). rewrite E. reflexivity.
    + intros ->. cbn in I. intuition discriminate.
    + intros ->. cbn in I. intuition discriminate.
Qed.
Print Assumptions C40_removed_partial.

Lemma ex_size : plain_size (fun _ => U "1 kB").
Proof. intros t. split; [apply no_brk_b; reflexivity|apply trimmedb_ok; reflexivity]. Qed.

Example C40_case :
  plain_size (fun _ => U "1 kB") /\ wf_tree [] /\
  od_get (U "multibag") ex_two = Some NDir /\
  forallb (fun k => match tags_of Codecs ex_two with Ok d => od_has k d | Err _ => false end)
          [U "Multibag-Version"; U "Multibag-Head-Version"] = true /\
  match tags_of Codecs ex_restored with
  | Ok d => d
  | Err _ => []
  end = [(U "Bag-Size", IStr (U "1 kB")); (U "Contact-Name", IStr (U "C")); (U "Payload-Oxum", IStr (U "8.4"))].
Proof.
  split; [exact ex_size|]. split; [apply wf_nil|]. split; [reflexivity|]. split; vm_compute; reflexivity.
Qed.

(** A head bag with another tag directory keeps it: the tag directory "mb" is
    still there with its member list if there also is a directory
    "multibag", ... *)
Definition ex_mb_info : pystr :=
  txt [U "Multibag-Version: 0.4"; U "Multibag-Head-Version: 1"; U "Multibag-Tag-Directory: mb"].
Definition ex_mb (more : tree) : tree :=
  [(U "bagit.txt", NFile ex_bagit);
   (U "bag-info.txt", NFile ex_mb_info);
   (U "manifest-md5.txt", NFile (txt [U "t1  data/a"]));
   (U "data", NDir); (U "data/a", NFile (U "new"));
   (U "mb", NDir);
   (U "mb/member-bags.tsv", NFile (txt [U "one"; U "two"]));
   (U "mb/file-lookup.tsv", NFile [])] ++ more.
Definition ex_mb_head (more : tree) : hb :=
  open_hb (U "two") (ex_mb more) (got [] (load_tags Codecs ex_mb_info)) Codecs.
Definition ex_mb_members (more : tree) : list minfo :=
  match head_lists false (ex_mb_head more) with Ok (_, ms) => ms | Err _ => [] end.
Definition ex_mb_bags (more : tree) : list rbag :=
  [{| rb_loc := U "/bags/one"; rb_tree := ex_one |}; {| rb_loc := U "/bags/two"; rb_tree := ex_mb more |}].
Definition ex_mb_restored : tree :=
  got [] (restore ex_env true true (fun _ => U "1 kB") false (ex_mb_head [(U "multibag", NDir)]) (U "/bags/two") []).

(** The tag directory that bag-info.txt names. *)
Definition names_directory (h : hb) (d : pystr) : Prop :=
  exists text i, read (U "bag-info.txt") (hb_tree h) = Some text /\ load_tags Codecs text = Ok i /\
    od_get (U "Multibag-Tag-Directory") i = Some (IStr d).

Theorem C40_refuted : exists v h loc ms bags dest' d,
  plain_algos v /\ hb_del h = None /\ head_lists false h = Ok ([], ms) /\ aggregation v h loc ms bags /\
  Forall (fun b => wf_tree (rb_tree b)) bags /\ names_directory h d /\
  restore v true true (fun _ => U "1 kB") false h loc [] = Ok dest' /\
  od_get d dest' = Some NDir /\ read (d ++ U "/member-bags.tsv") dest' <> None.
Proof.
  exists ex_env, (ex_mb_head [(U "multibag", NDir)]), (U "/bags/two"), (ex_mb_members [(U "multibag", NDir)]),
    (ex_mb_bags [(U "multibag", NDir)]), ex_mb_restored, (U "mb").
  split; [apply C33_case|]. split; [reflexivity|]. split; [vm_compute; reflexivity|].
  split.
  { exists [U "one"], [{| rb_loc := U "/bags/one"; rb_tree := ex_one |}]. split; [left; vm_compute; reflexivity|].
    split; [constructor; [reflexivity|constructor]|reflexivity]. }
  split; [constructor; [|constructor; [|constructor]]; apply wf_treeb_ok; vm_compute; reflexivity|].
  split.
  { exists ex_mb_info, (got [] (load_tags Codecs ex_mb_info)). split; [reflexivity|]. split; vm_compute; reflexivity. }
  split; [vm_compute; reflexivity|]. split; [vm_compute; reflexivity|vm_compute; discriminate].
Qed.
Print Assumptions C40_refuted.

(** ... and without such a directory the restoration fails after everything
    has been copied. *)
Theorem C40_fails_refuted : exists v h loc ms bags d t,
  plain_algos v /\ hb_del h = None /\ head_lists false h = Ok ([], ms) /\ aggregation v h loc ms bags /\
  Forall (fun b => wf_tree (rb_tree b)) bags /\ names_directory h d /\
  gather v false h loc [] = Ok t /\
  restore v true true (fun _ => U "1 kB") false h loc [] = Err EOS /\
  exists dest', restore v true false (fun _ => U "1 kB") false h loc [] = Ok dest'.
Proof.
  exists ex_env, (ex_mb_head []), (U "/bags/two"), (ex_mb_members []), (ex_mb_bags []), (U "mb"),
    (got [] (gather ex_env false (ex_mb_head []) (U "/bags/two") [])).
  split; [apply C33_case|]. split; [reflexivity|]. split; [vm_compute; reflexivity|].
  split.
  { exists [U "one"], [{| rb_loc := U "/bags/one"; rb_tree := ex_one |}]. split; [left; vm_compute; reflexivity|].
    split; [constructor; [reflexivity|constructor]|reflexivity]. }
  split; [constructor; [|constructor; [|constructor]]; apply wf_treeb_ok; vm_compute; reflexivity|].
  split.
  { exists ex_mb_info, (got [] (load_tags Codecs ex_mb_info)). split; [reflexivity|]. split; vm_compute; reflexivity. }
  split; [vm_compute; reflexivity|]. split; [vm_compute; reflexivity|].
  exists (got [] (restore ex_env true false (fun _ => U "1 kB") false (ex_mb_head []) (U "/bags/two") [])).
  vm_compute. reflexivity.
Qed.
Print Assumptions C40_fails_refuted.

(** ** C73: Payload-Oxum *)

(** After a restoration that updates sizes, Payload-Oxum says what the
    payload amounts to. *)
Theorem C73_oxum : forall v bsize ro h loc skip ms bags dest dest',
  plain_algos v -> plain_size bsize -> hb_del h = None ->
  head_lists ro h = Ok (skip, ms) -> aggregation v h loc ms bags ->
  Forall (fun b => wf_tree (rb_tree b)) bags -> wf_tree dest ->
  restore v true true bsize ro h loc dest = Ok dest' ->
  forall r, exists d, tags_of r dest' = Ok d /\ tag_values d (U "Payload-Oxum") = [oxum dest'].
Proof.
  intros v bsize ro h loc skip ms bags dest dest' S B Hd Hl Ha Wb Wd H r.
  destruct (restored_end _ _ _ _ _ _ _ _ _ _ _ _ S Hd Hl Ha Wb Wd H) as (t & Wt & Hn & _).
  assert (B' : forall t, no_brk Codecs (bsize t) /\ (bsize t = [] \/ trimmed (bsize t))) by (intros x; destruct (B x); auto).
  destruct (finish_tags v bsize t dest' B' Hn) as (info & es & sn & t' & text & _ & C & R & G).
  destruct (G r) as (d & L & O & _). exists d. split.
  - unfold tags_of. change (U "bag-info.txt") with F_baginfo. rewrite R. exact L.
  - change (U "Payload-Oxum") with T_OXUM. rewrite O. unfold calc_oxum in C. destruct (is_dir DATA dest'); [|discriminate]. inversion C; subst. reflexivity.
Qed.
Print Assumptions C73_oxum.

Example C73_case : oxum ex_restored = U "8.4" /\ oxum ex_two = U "4.2" /\
  match tags_of IoText ex_restored with Ok d => tag_values d (U "Payload-Oxum") | Err _ => [] end = [U "8.4"].
Proof. repeat split; vm_compute; reflexivity. Qed.

(** ** C74: other tags *)

(** The text that the tags come from: aggregation-info.txt of the head bag,
    or else bag-info.txt of the last bag that has one, unless deleted. *)
Definition info_source (h : hb) (skip : list pystr) (bags : list rbag) (text : pystr) : Prop :=
  match read (U "multibag/aggregation-info.txt") (hb_tree h) with
  | Some c => text = decode (hb_reader h) c
  | None => ~ deleted skip (U "bag-info.txt") /\
            latest (map rb_tree bags) (U "bag-info.txt") = Some (NFile text)
  end.

(** The characters of a string that are not blanks. *)
Definition solid (s : pystr) : pystr := filter (fun c => negb (is_ws c)) s.

(** All tags but the two sizes and the multibag tags are those of the source,
    with the same values but for blanks at line breaks, and exactly the same
    ones if they have no line breaks. *)
Theorem C74_tags : forall v bsize ro h loc skip ms bags text dest',
  plain_algos v -> plain_size bsize -> hb_del h = None ->
  head_lists ro h = Ok (skip, ms) -> aggregation v h loc ms bags ->
  Forall (fun b => wf_tree (rb_tree b) /\ rb_loc b <> e_dest v) bags ->
  info_source h skip bags text ->
  restore v true true bsize ro h loc [] = Ok dest' ->
  exists i, load_tags Codecs text = Ok i /\
    forall r, exists d, tags_of r dest' = Ok d /\
      forall k, ~ In k multibag_tags -> k <> U "Payload-Oxum" -> k <> U "Bag-Size" ->
        map solid (tag_values d k) = map solid (tag_values i k) /\
        (Forall (no_brk Codecs) (tag_values i k) -> tag_values d k = tag_values i k).
Proof.
  intros v bsize ro h loc skip ms bags text dest' S B Hd Hl Ha Wb Hs H.
  assert (W : Forall (fun b => wf_tree (rb_tree b)) bags) by (eapply Forall_impl; [|exact Wb]; intros b [? ?]; auto).
  assert (Lc : Forall (fun b => rb_loc b <> e_dest v) bags) by (eapply Forall_impl; [|exact Wb]; intros b [? ?]; auto).
  destruct (restored_end _ _ _ _ _ _ _ _ _ _ _ _ S Hd Hl Ha W wf_nil H) as (t & Wt & Hn & Q).
  assert (R0 : read F_baginfo t = Some text).
  { unfold read. rewrite Q. unfold info_source in Hs. destruct (read (U "multibag/aggregation-info.txt") (hb_tree h)) as [c|].
    - subst. reflexivity.
    - destruct Hs as [Nd La]. cbn [od_get]. rewrite deleted_iff in Nd. change (U "bag-info.txt") with F_baginfo in *.
      destruct (gone skip F_baginfo); [congruence|]. rewrite (contrib_away _ _ Lc), La. reflexivity. }
  assert (B' : forall t, no_brk Codecs (bsize t) /\ (bsize t = [] \/ trimmed (bsize t))) by (intros x; destruct (B x); auto).
  destruct (finish_tags v bsize t dest' B' Hn) as (info & es & sn & t' & text' & Ho & C & R & G).
  assert (Li : load_tags Codecs text = Ok info).
  { unfold open_bag in Ho. destruct (read F_bagit t); [|discriminate]. apply bind_ok in Ho. destruct Ho as ([v97 v1] & _ & Ho).
    rewrite R0 in Ho. apply bind_ok in Ho. destruct Ho as (i & E & Ho). apply bind_ok in Ho. destruct Ho as (e & _ & Ho).
    inversion Ho; subst. exact E. }
  exists info. split; [exact Li|]. intros r. destruct (G r) as (d & L & _ & _ & V). exists d. split.
  { unfold tags_of. change (U "bag-info.txt") with F_baginfo. rewrite R. exact L. }
  intros k K1 K2 K3. rewrite (V k K2 K3). assert (E : str_in k mb_keys = false) by (apply str_in_false; exact K1).
  rewrite E. split.
  - rewrite map_map. apply map_ext. intros x. change solid with dense. rewrite dense_unfold. apply dense_one_line.
  - pose proof (load_tags_ok _ _ _ Li) as [_ Oi]. intros F. rewrite <- (map_id (tag_values info k)) at 2. apply map_ext_in. intros x Ix.
    rewrite Forall_forall in F. specialize (F x Ix).
    assert (X : x = [] \/ trimmed x).
    { unfold tag_values in Ix. destruct (od_get k info) as [w|] eqn:Ek; [|destruct Ix]. apply od_get_in in Ek.
      apply Oi in Ek. destruct Ek as (_ & _ & Fv). rewrite Forall_forall in Fv. apply Fv. destruct w; exact Ix. }
    rewrite one_line_plain by (apply no_brk_any; auto). apply plain_folded. split; [exact X|apply no_brk_any; auto].
Qed.
Print Assumptions C74_tags.

(** A head bag with aggregation-info.txt, where a value has a line break. *)
Definition ex_ag_text : pystr :=
  txt [U "Description: one"; U "  two"; U "Contact-Name: C"; U "Bag-Size: 3 MB"; U "Contact-Name: D";
       U "Multibag-Version: 0.4"].
Definition ex_ag : tree :=
  ex_two ++ [(U "multibag/aggregation-info.txt", NFile ex_ag_text)].
Definition ex_ag_head : hb := open_hb (U "two") ex_ag (got [] (load_tags Codecs ex_info2)) Codecs.
Definition ex_ag_bags : list rbag :=
  [{| rb_loc := U "/bags/one"; rb_tree := ex_one |}; {| rb_loc := U "/bags/two"; rb_tree := ex_ag |}].
Definition ex_ag_restored : tree :=
  got [] (restore ex_env true true (fun _ => U "1 kB") false ex_ag_head (U "/bags/two") []).

Example C74_case :
  hb_del ex_ag_head = None /\ head_lists false ex_ag_head = Ok (ex_skip, ex_members) /\
  aggregation ex_env ex_ag_head (U "/bags/two") ex_members ex_ag_bags /\
  Forall (fun b => wf_tree (rb_tree b) /\ rb_loc b <> e_dest ex_env) ex_ag_bags /\
  info_source ex_ag_head ex_skip ex_ag_bags ex_ag_text /\
  restore ex_env true true (fun _ => U "1 kB") false ex_ag_head (U "/bags/two") [] = Ok ex_ag_restored /\
  match tags_of Codecs ex_ag_restored with
  | Ok d => d
  | Err _ => []
  end = [(U "Bag-Size", IStr (U "1 kB")); (U "Contact-Name", IList [U "C"; U "D"]);
         (U "Description", IStr (U "one  two")); (U "Payload-Oxum", IStr (U "8.4"))].
Proof.
  split; [reflexivity|]. split; [vm_compute; reflexivity|].
  split.
  { exists [U "one"], [{| rb_loc := U "/bags/one"; rb_tree := ex_one |}]. split; [left; vm_compute; reflexivity|].
    split; [constructor; [reflexivity|constructor]|reflexivity]. }
  split; [constructor; [|constructor; [|constructor]]; (split; [apply wf_treeb_ok; vm_compute; reflexivity|discriminate])|].
  split; [reflexivity|]. split; vm_compute; reflexivity.
Qed.

(** ** C75: merged tags *)

(** Values of a tag in the last of the bags that has the tag. *)
Definition last_values (ts : list tree) (k : pystr) : list pystr :=
  fold_left (fun found t => match tags_of Codecs t with
                            | Ok d => match tag_values d k with [] => found | vs => vs end
                            | Err _ => found
                            end) ts [].

(** Tags that are not merged. *)
Definition excepted (k : pystr) : Prop :=
  In k [U "Bag-Count"; U "Payload-Oxum"; U "Bag-Size"] \/ exists rest, k = U "Multibag-" ++ rest.

(** Without aggregation-info.txt, tags of other members than the head bag get
    lost, though the specification has them merged. *)
Definition ex_org : tree :=
  od_set (U "bag-info.txt") (NFile (txt [U "Organization: O"; U "Multibag-Version: 0.4"])) ex_one.
Definition ex_count : tree :=
  od_set (U "bag-info.txt") (NFile (ex_info2 ++ txt [U "Bag-Count: 2 of 2"; U "Multibag-Source-Bag-Size: 3 MB"])) ex_two.
Definition ex_org_env : env :=
  {| e_algos := e_algos ex_env; e_version := e_version ex_env; e_danger := e_danger ex_env; e_hash := e_hash ex_env;
     e_dest := e_dest ex_env;
     e_find := fun n => if streq n (U "one") then Some {| rb_loc := U "/bags/one"; rb_tree := ex_org |} else None |}.
Definition ex_org_head : hb := open_hb (U "two") ex_count (got [] (load_tags Codecs ex_info2)) Codecs.
Definition ex_org_bags : list rbag :=
  [{| rb_loc := U "/bags/one"; rb_tree := ex_org |}; {| rb_loc := U "/bags/two"; rb_tree := ex_count |}].
Definition ex_org_restored : tree :=
  got [] (restore ex_org_env true true (fun _ => U "1 kB") false ex_org_head (U "/bags/two") []).

Theorem C75_refuted : exists v h loc skip ms bags dest' d k k1 k2,
  plain_algos v /\ hb_del h = None /\ head_lists false h = Ok (skip, ms) /\ aggregation v h loc ms bags /\
  Forall (fun b => wf_tree (rb_tree b) /\ rb_loc b <> e_dest v) bags /\
  read (U "multibag/aggregation-info.txt") (hb_tree h) = None /\
  restore v true true (fun _ => U "1 kB") false h loc [] = Ok dest' /\ tags_of Codecs dest' = Ok d /\
  ~ excepted k /\ last_values (map rb_tree bags) k = [U "O"] /\ tag_values d k = [] /\
  k1 = U "Bag-Count" /\ tag_values d k1 <> [] /\
  excepted k2 /\ startswith k2 (U "Multibag-") = true /\ tag_values d k2 <> [].
Proof.
  exists ex_org_env, ex_org_head, (U "/bags/two"), ex_skip, ex_members, ex_org_bags, ex_org_restored,
    (got [] (tags_of Codecs ex_org_restored)), (U "Organization"), (U "Bag-Count"), (U "Multibag-Source-Bag-Size").
  split; [exact (proj1 C33_case)|]. split; [reflexivity|]. split; [vm_compute; reflexivity|].
  split.
  { exists [U "one"], [{| rb_loc := U "/bags/one"; rb_tree := ex_org |}]. split; [left; vm_compute; reflexivity|].
    split; [constructor; [reflexivity|constructor]|reflexivity]. }
  split; [constructor; [|constructor; [|constructor]]; (split; [apply wf_treeb_ok; vm_compute; reflexivity|discriminate])|].
  split; [reflexivity|]. split; [vm_compute; reflexivity|]. split; [vm_compute; reflexivity|].
  split; [intros [I|[r E]]; [cbn in I; intuition discriminate|discriminate]|].
  split; [vm_compute; reflexivity|]. split; [vm_compute; reflexivity|]. split; [reflexivity|].
  split; [vm_compute; discriminate|]. split; [right; exists (U "Source-Bag-Size"); reflexivity|].
  split; [reflexivity|vm_compute; discriminate].
Qed.
Print Assumptions C75_refuted.

(** * Properties of restoring a bag from its members (C33 to C36) *)

Require Import String NArith PeanoNat Bool List Lia.
From Verif Require Import PyBase PyFacts Tsv TsvProofs Fs FsFacts HeadBag HeadBagProofs3 BagIt BagItProofs Split SplitApply SplitApplyProofs SplitApplyProofs2 SplitApplyProofs8 Props_SplitApply Restore RestoreProofs RestoreProofs2 RestoreProofs3.
Import ListNotations.
Open Scope N_scope.

(** ** Specification *)

(** The member bags of the aggregation in the order of the member list, the
    head bag last: the head bag normally is the last member; if it is not,
    it counts as one. *)
Definition aggregation (v : env) (h : hb) (loc : pystr) (ms : list minfo) (bags : list rbag) : Prop :=
  exists names before,
    (map Tsv.m_name ms = names ++ [hb_name h] \/
     (map Tsv.m_name ms = names /\ forall l, names <> l ++ [hb_name h])) /\
    Forall2 (fun n b => e_find v n = Some b) names before /\
    bags = before ++ [{| rb_loc := loc; rb_tree := hb_tree h |}].

(** What is at a path after copying all bags in order, where later ones
    overwrite. *)
Definition latest (bags : list tree) (p : pystr) : option node :=
  fold_left (fun found t => match od_get p t with Some n => Some n | None => found end) bags None.

(** A path is deleted if the list has the path or a directory above it. *)
Definition deleted (skip : list pystr) (p : pystr) : Prop :=
  exists s, In s skip /\ (p = s \/ exists rest, p = s ++ [SLASH] ++ rest).

(** Tag files of a bag that describe the bag itself. *)
Definition bag_file (v : env) (p : pystr) : Prop :=
  p = U "bag-info.txt" \/ p = U "fetch.txt" \/
  exists alg, In alg (e_algos v) /\
    (p = U "manifest-" ++ alg ++ U ".txt" \/ p = U "tagmanifest-" ++ alg ++ U ".txt").

(** The multibag directory and what is in it. *)
Definition multibag_path (p : pystr) : Prop :=
  p = U "multibag" \/ exists rest, p = U "multibag/" ++ rest.

(** Algorithm names do not contain slashes. *)
Definition plain_algos (v : env) : Prop := forall a, In a (e_algos v) -> ~ In SLASH a.

(** ** Links to the lemmas *)

Lemma deleted_iff skip p : deleted skip p <-> gone skip p = true.
Proof.
  rewrite gone_iff. unfold deleted. split; intros (s & I & H); exists s; split; auto; destruct H as [H|H]; auto; right.
  - destruct H as [r ->]. apply startswith_iff. exists r. rewrite <- app_assoc. reflexivity.
  - apply startswith_iff in H. destruct H as [r ->]. exists r. rewrite <- app_assoc. reflexivity.
Qed.

Lemma bag_file_iff v p : bag_file v p <-> touched v p.
Proof.
  unfold bag_file, touched, special. split.
  - intros [->|[->|(a & I & [-> | ->])]]; auto; left.
    + exists K_man, a. split; [left; auto|]. split; auto.
    + exists K_tag, a. split; [right; left; auto|]. split; auto.
  - intros [(k & a & Ik & Ia & ->)|[-> | ->]]; auto. right; right. exists a. split; auto.
    destruct Ik as [<-|[<-|[]]]; auto.
Qed.

Lemma multibag_iff p : multibag_path p <-> in_multibag p = true.
Proof.
  unfold multibag_path, in_multibag. rewrite orb_true_iff, streq_eq. split; intros [->|H]; auto; right.
  - destruct H as [r ->]. apply below_iff; [discriminate|]. exists r. reflexivity.
  - apply below_iff in H; [|discriminate]. destruct H as [r ->]. exists r. reflexivity.
Qed.

Lemma latest_first ts p : latest ts p = first_of (rev ts) p.
Proof.
  unfold latest, first_of. rewrite <- fold_left_rev_right. reflexivity.
Qed.

Lemma aggregation_others v h loc ms bags : aggregation v h loc ms bags ->
  exists bs, Forall2 (fun n b => e_find v n = Some b) (others h ms) bs /\ bags = rev (head_bag h loc :: bs).
Proof.
  intros (names & before & Hn & F & ->). exists (rev before). split.
  - assert (O : others h ms = rev names).
    { unfold others. rewrite map_rev. destruct Hn as [->|[-> Hl]].
      - rewrite rev_app_distr. cbn [rev app]. rewrite streq_refl. reflexivity.
      - destruct (rev names) as [|n l] eqn:E; auto. destruct (streq_reflect n (hb_name h)) as [->|]; auto.
        exfalso. apply (Hl (rev l)). rewrite <- (rev_involutive names), E. reflexivity. }
    rewrite O. clear - F. induction F; cbn [rev]; [constructor|]. apply Forall2_app; auto.
  - cbn [rev]. rewrite rev_involutive. reflexivity.
Qed.

(** ** The restored tree *)

(** What is restored into any destination: what was in the destination stays;
    otherwise the latest copy appears, unless deleted. A bag that is itself
    the destination is not copied. *)
Lemma restored_nodes v us rt bsize ro h loc skip ms bags dest dest' :
  plain_algos v -> hb_del h = None -> head_lists ro h = Ok (skip, ms) -> aggregation v h loc ms bags ->
  Forall (fun b => wf_tree (rb_tree b)) bags -> wf_tree dest ->
  restore v us rt bsize ro h loc dest = Ok dest' ->
  forall p, ~ bag_file v p -> (rt = true -> ~ multibag_path p) ->
    od_get p dest' = match od_get p dest with
                     | Some n => Some n
                     | None => if gone skip p then None
                               else latest (map (contrib v) bags) p
                     end.
Proof.
  intros S Hd Hl Ha Wb Wd H p Bp Mp. destruct (aggregation_others _ _ _ _ _ Ha) as (bs & F & ->).
  assert (N0 : ~ In [] skip) by (apply head_lists_ok in Hl; eapply skip_nonempty; [exact Hd|apply Hl]).
  apply Forall_rev in Wb. rewrite rev_involutive in Wb. inversion Wb as [|? ? Wh Wbs]; subst.
  destruct (restore_nodes v us rt bsize ro h loc skip ms bs dest dest' S N0 Hl F Wh Wbs Wd H) as [_ Q].
  rewrite Q by (rewrite <- bag_file_iff; auto).
  assert (M : rt && in_multibag p = false).
  { destruct rt; auto. cbn [andb]. destruct (in_multibag p) eqn:E; auto. apply multibag_iff in E. exfalso. apply Mp; auto. }
  rewrite M, latest_first, <- map_rev, rev_involutive. reflexivity.
Qed.

Lemma contrib_away v bags : Forall (fun b => rb_loc b <> e_dest v) bags -> map (contrib v) bags = map rb_tree bags.
Proof.
  induction 1 as [|b bags Hb _ IH]; [reflexivity|]. cbn [map]. rewrite IH. unfold contrib.
  destruct (streq_reflect (rb_loc b) (e_dest v)); [congruence|reflexivity].
Qed.

(** ** C33 *)

(** Restoring into a new directory gives, at every path but the tag files
    that are merged, what copying the bags in order and deleting afterwards
    gives. *)
Theorem C33_combination : forall v us rt bsize ro h loc skip ms bags dest',
  plain_algos v -> hb_del h = None ->
  head_lists ro h = Ok (skip, ms) -> aggregation v h loc ms bags ->
  Forall (fun b => wf_tree (rb_tree b) /\ rb_loc b <> e_dest v) bags ->
  restore v us rt bsize ro h loc [] = Ok dest' ->
  forall p, ~ bag_file v p -> (rt = true -> ~ multibag_path p) ->
    (deleted skip p -> od_get p dest' = None) /\
    (~ deleted skip p -> od_get p dest' = latest (map rb_tree bags) p).
Proof.
  intros v us rt bsize ro h loc skip ms bags dest' S Hd Hl Ha Wb H p Bp Mp.
  assert (W : Forall (fun b => wf_tree (rb_tree b)) bags) by (eapply Forall_impl; [|exact Wb]; intros b [? ?]; auto).
  assert (L : Forall (fun b => rb_loc b <> e_dest v) bags) by (eapply Forall_impl; [|exact Wb]; intros b [? ?]; auto).
  pose proof (restored_nodes v us rt bsize ro h loc skip ms bags [] dest' S Hd Hl Ha W wf_nil H p Bp Mp) as Q.
  rewrite (contrib_away _ _ L) in Q. cbn [od_get] in Q. rewrite deleted_iff. destruct (gone skip p); split; intros; auto; congruence.
Qed.
Print Assumptions C33_combination.

(** If bag-info.txt is kept out, the multibag directory is restored like all
    other paths when it is not removed ([rt = false]). *)

(** An example: a member and a head bag that replaces a file and deletes a
    file and a directory. *)
Definition txt (ls : list pystr) : pystr := flat_map (fun l => l ++ [LF]) ls.
Definition ex_bagit : pystr := txt [U "BagIt-Version: 1.0"].
Definition ex_one : tree :=
  [(U "bagit.txt", NFile ex_bagit);
   (U "bag-info.txt", NFile (txt [U "Multibag-Version: 0.4"]));
   (U "manifest-md5.txt", NFile (txt [U "o1  data/a"; U "o2  data/b"; U "o3  data/bb"; U "o4  data/old/x"; U "o5  data/oldx"]));
   (U "data", NDir); (U "data/a", NFile (U "old")); (U "data/b", NFile (U "b")); (U "data/bb", NFile (U "bb"));
   (U "data/old", NDir); (U "data/old/x", NFile (U "x")); (U "data/oldx", NFile (U "ox"));
   (U "data/e", NDir)].
Definition ex_info2 : pystr :=
  txt [U "Multibag-Version: 0.4"; U "Multibag-Head-Version: 1"; U "Contact-Name: C"].
Definition ex_two : tree :=
  [(U "bagit.txt", NFile ex_bagit);
   (U "bag-info.txt", NFile ex_info2);
   (U "manifest-md5.txt", NFile (txt [U "t1  data/a"; U "t2  data/c"]));
   (U "data", NDir); (U "data/a", NFile (U "new")); (U "data/c", NFile (U "c"));
   (U "multibag", NDir);
   (U "multibag/member-bags.tsv", NFile (txt [U "one"; U "two"]));
   (U "multibag/deleted.txt", NFile (txt [U "data/b"; U "data/old"]))].
Definition ex_env : env :=
  {| e_algos := [U "md5"; U "sha256"]; e_version := fun _ => Ok (true, true); e_danger := fun _ _ => false;
     e_hash := fun a c => a ++ dec (N.of_nat (length c)); e_dest := U "/out";
     e_find := fun n => if streq n (U "one") then Some {| rb_loc := U "/bags/one"; rb_tree := ex_one |}
                        else None |}.
Definition ex_head : hb := open_hb (U "two") ex_two (got [] (load_tags Codecs ex_info2)) Codecs.
Definition ex_aggregate : list rbag :=
  [{| rb_loc := U "/bags/one"; rb_tree := ex_one |}; {| rb_loc := U "/bags/two"; rb_tree := ex_two |}].
Definition ex_restored : tree :=
  got [] (restore ex_env true true (fun _ => U "1 kB") false ex_head (U "/bags/two") []).

Definition ex_skip := [U "data/b"; U "data/old"].
Definition ex_members : list minfo :=
  match head_lists false ex_head with Ok (_, ms) => ms | Err _ => [] end.

Example C33_case :
  plain_algos ex_env /\ hb_del ex_head = None /\ head_lists false ex_head = Ok (ex_skip, ex_members) /\
  aggregation ex_env ex_head (U "/bags/two") ex_members ex_aggregate /\
  Forall (fun b => wf_tree (rb_tree b) /\ rb_loc b <> e_dest ex_env) ex_aggregate /\
  restore ex_env true true (fun _ => U "1 kB") false ex_head (U "/bags/two") [] = Ok ex_restored /\
  dirs ex_restored = [U "data"; U "data/e"] /\
  files ex_restored = [U "bagit.txt"; U "bag-info.txt"; U "manifest-md5.txt"; U "data/a"; U "data/c"; U "data/bb"; U "data/oldx";
                       U "tagmanifest-md5.txt"] /\
  read (U "data/a") ex_restored = Some (U "new").
Proof.
  split; [|split; [reflexivity|split; [vm_compute; reflexivity|split; [|split; [|split; [|split; [|split]]]]]]].
  - intros a [<-|[<-|[]]]; cbn; intuition discriminate.
  - exists [U "one"], [{| rb_loc := U "/bags/one"; rb_tree := ex_one |}]. split; [left; vm_compute; reflexivity|].
    split; [constructor; [reflexivity|constructor]|reflexivity].
  - constructor; [|constructor; [|constructor]]; (split; [apply wf_treeb_ok; vm_compute; reflexivity|discriminate]).
  - vm_compute; reflexivity.
  - vm_compute; reflexivity.
  - vm_compute; reflexivity.
  - vm_compute; reflexivity.
Qed.

(** ** C34 *)

Lemma latest_some ts p : (exists n, latest ts p = Some n) <-> exists t, In t ts /\ exists n, od_get p t = Some n.
Proof.
  rewrite latest_first. setoid_rewrite (in_rev ts). generalize (rev ts). clear ts. intros ts. induction ts as [|t ts IH]; cbn [first_of fold_right].
  - split; [intros [n H]; discriminate|intros (t & [] & _)].
  - destruct (od_get p t) as [n|] eqn:E.
    + split; [intros _; exists t; split; [left; auto|eauto]|eauto].
    + unfold first_of in IH. rewrite IH. split.
      * intros (t' & I & H). exists t'. split; [right; auto|auto].
      * intros (t' & [->|I] & [n H]); [congruence|]. exists t'. eauto.
Qed.

(** A path of the member bags is restored if and only if it is not deleted. *)
Theorem C34_deleted : forall v us rt bsize ro h loc skip ms bags dest',
  plain_algos v -> hb_del h = None ->
  head_lists ro h = Ok (skip, ms) -> aggregation v h loc ms bags ->
  Forall (fun b => wf_tree (rb_tree b) /\ rb_loc b <> e_dest v) bags ->
  restore v us rt bsize ro h loc [] = Ok dest' ->
  forall p, ~ bag_file v p -> (rt = true -> ~ multibag_path p) ->
    ((exists n, od_get p dest' = Some n) <->
     (exists b n, In b bags /\ od_get p (rb_tree b) = Some n) /\ ~ deleted skip p).
Proof.
  intros v us rt bsize ro h loc skip ms bags dest' S Hd Hl Ha Wb H p Bp Mp.
  destruct (C33_combination v us rt bsize ro h loc skip ms bags dest' S Hd Hl Ha Wb H p Bp Mp) as [Q1 Q2].
  destruct (gone skip p) eqn:G.
  - assert (D : deleted skip p) by (apply deleted_iff; auto). rewrite (Q1 D). split; [intros [n E]; discriminate|tauto].
  - assert (D : ~ deleted skip p) by (rewrite deleted_iff; congruence). rewrite (Q2 D), latest_some. split.
    + intros (t & I & n & E). apply in_map_iff in I. destruct I as (b & <- & I). split; eauto.
    + intros ((b & n & I & E) & _). exists (rb_tree b). split; [apply in_map; auto|eauto].
Qed.
Print Assumptions C34_deleted.

(** A name that merely starts like a deleted path is kept: "data/bb" and
    "data/oldx" in [C33_case]. *)
Example C34_case : deleted ex_skip (U "data/b") /\ deleted ex_skip (U "data/old/x") /\
  ~ deleted ex_skip (U "data/bb") /\ ~ deleted ex_skip (U "data/oldx") /\
  od_get (U "data/bb") ex_restored = Some (NFile (U "bb")).
Proof. rewrite !deleted_iff. repeat split; vm_compute; congruence. Qed.

(** Restoring a head bag in place keeps deleted paths that the head bag has. *)
Definition ex_env_at (loc : pystr) : env :=
  {| e_algos := e_algos ex_env; e_version := e_version ex_env; e_danger := e_danger ex_env;
     e_hash := e_hash ex_env; e_dest := loc; e_find := e_find ex_env |}.
Definition ex_two_b : tree := ex_two ++ [(U "data/b", NFile (U "again"))].
Definition ex_head_b : hb := open_hb (U "two") ex_two_b (got [] (load_tags Codecs ex_info2)) Codecs.
Definition ex_in_place : tree :=
  got [] (restore (ex_env_at (U "/bags/two")) true true (fun _ => U "1 kB") false ex_head_b (U "/bags/two") ex_two_b).

Theorem C34_in_place_refuted : exists v h loc skip ms bags dest' p n,
  plain_algos v /\ hb_del h = None /\ head_lists false h = Ok (skip, ms) /\ aggregation v h loc ms bags /\
  Forall (fun b => wf_tree (rb_tree b)) bags /\ loc = e_dest v /\
  restore v true true (fun _ => U "1 kB") false h loc (hb_tree h) = Ok dest' /\
  ~ bag_file v p /\ ~ multibag_path p /\ deleted skip p /\ od_get p dest' = Some n.
Proof.
  exists (ex_env_at (U "/bags/two")), ex_head_b, (U "/bags/two"), ex_skip,
    (match head_lists false ex_head_b with Ok (_, ms) => ms | Err _ => [] end),
    [{| rb_loc := U "/bags/one"; rb_tree := ex_one |}; {| rb_loc := U "/bags/two"; rb_tree := ex_two_b |}],
    ex_in_place, (U "data/b"), (NFile (U "again")).
  split; [intros a [<-|[<-|[]]]; cbn; intuition discriminate|]. split; [reflexivity|]. split; [vm_compute; reflexivity|].
  split.
  { exists [U "one"], [{| rb_loc := U "/bags/one"; rb_tree := ex_one |}]. split; [left; vm_compute; reflexivity|].
    split; [constructor; [reflexivity|constructor]|reflexivity]. }
  split; [constructor; [|constructor; [|constructor]]; apply wf_treeb_ok; vm_compute; reflexivity|].
  split; [reflexivity|]. split; [vm_compute; reflexivity|].
  split; [intros [E|[E|(a & [<-|[<-|[]]] & [E|E])]]; discriminate|].
  split; [intros [E|[r E]]; discriminate|].
  split; [rewrite deleted_iff; vm_compute; reflexivity|vm_compute; reflexivity].
Qed.
Print Assumptions C34_in_place_refuted.

(** ** C35 *)

(** Whatever is in the destination stays as it is, but for the tag files that
    describe the bag and, if the multibag tags get removed, the multibag
    directory. *)
Theorem C35_kept_partial : forall v us rt bsize ro h loc skip ms bags dest dest',
  plain_algos v -> hb_del h = None ->
  head_lists ro h = Ok (skip, ms) -> aggregation v h loc ms bags ->
  Forall (fun b => wf_tree (rb_tree b)) bags -> wf_tree dest ->
  restore v us rt bsize ro h loc dest = Ok dest' ->
  forall p n, od_get p dest = Some n -> ~ bag_file v p -> (rt = true -> ~ multibag_path p) ->
    od_get p dest' = Some n.
Proof.
  intros v us rt bsize ro h loc skip ms bags dest dest' S Hd Hl Ha Wb Wd H p n E Bp Mp.
  rewrite (restored_nodes v us rt bsize ro h loc skip ms bags dest dest' S Hd Hl Ha Wb Wd H p Bp Mp), E. reflexivity.
Qed.
Print Assumptions C35_kept_partial.

(** ... and new paths get the latest copy, deleted ones stay out. *)
Theorem C35_added : forall v us rt bsize ro h loc skip ms bags dest dest',
  plain_algos v -> hb_del h = None ->
  head_lists ro h = Ok (skip, ms) -> aggregation v h loc ms bags ->
  Forall (fun b => wf_tree (rb_tree b) /\ rb_loc b <> e_dest v) bags -> wf_tree dest ->
  restore v us rt bsize ro h loc dest = Ok dest' ->
  forall p, od_get p dest = None -> ~ bag_file v p -> (rt = true -> ~ multibag_path p) ->
    (deleted skip p -> od_get p dest' = None) /\
    (~ deleted skip p -> od_get p dest' = latest (map rb_tree bags) p).
Proof.
  intros v us rt bsize ro h loc skip ms bags dest dest' S Hd Hl Ha Wb Wd H p E Bp Mp.
  assert (W : Forall (fun b => wf_tree (rb_tree b)) bags) by (eapply Forall_impl; [|exact Wb]; intros b [? ?]; auto).
  assert (L : Forall (fun b => rb_loc b <> e_dest v) bags) by (eapply Forall_impl; [|exact Wb]; intros b [? ?]; auto).
  pose proof (restored_nodes v us rt bsize ro h loc skip ms bags dest dest' S Hd Hl Ha W Wd H p Bp Mp) as Q.
  rewrite (contrib_away _ _ L), E in Q. rewrite deleted_iff. destruct (gone skip p); split; intros; auto; congruence.
Qed.
Print Assumptions C35_added.

Definition ex_dest : tree :=
  [(U "bagit.txt", NFile ex_bagit); (U "manifest-md5.txt", NFile (txt [U "m1  data/a"]));
   (U "data", NDir); (U "data/a", NFile (U "mine")); (U "data/b", NFile (U "my b"));
   (U "multibag", NDir); (U "multibag/notes", NFile (U "my notes"))].
Definition ex_restored_into : tree :=
  got [] (restore ex_env true true (fun _ => U "1 kB") false ex_head (U "/bags/two") ex_dest).

Example C35_case : wf_tree ex_dest /\
  restore ex_env true true (fun _ => U "1 kB") false ex_head (U "/bags/two") ex_dest = Ok ex_restored_into /\
  read (U "data/a") ex_restored_into = Some (U "mine") /\ read (U "data/b") ex_restored_into = Some (U "my b") /\
  read (U "data/c") ex_restored_into = Some (U "c").
Proof.
  split; [apply wf_treeb_ok; vm_compute; reflexivity|]. repeat split; vm_compute; reflexivity.
Qed.

(** Other files in a multibag directory of the destination get lost. *)
Theorem C35_refuted : exists v h loc dest dest' p,
  wf_tree dest /\ restore v true true (fun _ => U "1 kB") false h loc dest = Ok dest' /\
  ~ bag_file v p /\ read p dest <> None /\ read p dest' = None.
Proof.
  exists ex_env, ex_head, (U "/bags/two"), ex_dest, ex_restored_into, (U "multibag/notes").
  split; [apply wf_treeb_ok; vm_compute; reflexivity|]. split; [vm_compute; reflexivity|].
  split; [intros [E|[E|(a & [<-|[<-|[]]] & [E|E])]]; discriminate|].
  split; vm_compute; congruence.
Qed.
Print Assumptions C35_refuted.

(** ** C36 *)

(** [a] and [b] agree but at the paths in [P]. *)
Definition same_but (P : pystr -> Prop) (a b : tree) : Prop := forall q, ~ P q -> od_get q a = od_get q b.

(** States in which the copying of one bag can stop: after any number of the
    steps (see [items_of]), or while or after the manifests get rewritten,
    with anything in the manifests. *)
Inductive stopped_in (v : env) (skip : list pystr) (b : rbag) (dest d : tree) : Prop :=
| while_copying k updated : rb_loc b <> e_dest v ->
    foldM (restore_item false (rb_tree b)) (firstn k (items_of skip (rb_tree b))) (dest, []) = Ok (d, updated) ->
    stopped_in v skip b dest d
| while_updating t updated : rb_loc b <> e_dest v -> copy_items false skip (rb_tree b) dest = Ok (t, updated) ->
    wf_tree d -> same_but (bag_file v) d t -> stopped_in v skip b dest d.

(** States in which a restoration can stop: when bag-info.txt is written, in
    one of the bags after all the ones before, or later, when bag-info.txt,
    fetch.txt and tag manifests are written and the multibag directory is
    removed. The bags are visited last one first. *)
Inductive stopped (v : env) (rt : bool) (skip : list pystr) (h : hb) (bags : list rbag) (dest d : tree) : Prop :=
| at_start : wf_tree d -> same_but (bag_file v) d dest -> stopped v rt skip h bags dest d
| in_bag bs1 b bs2 t0 t : start_info h dest = Ok t0 -> rev bags = bs1 ++ b :: bs2 ->
    foldM (fun d b => restore_from v false skip b d) bs1 t0 = Ok t ->
    stopped_in v skip b t d -> stopped v rt skip h bags dest d
| at_end t0 t : start_info h dest = Ok t0 ->
    foldM (fun d b => restore_from v false skip b d) (rev bags) t0 = Ok t ->
    wf_tree d -> same_but (fun q => bag_file v q \/ (rt = true /\ multibag_path q)) d t ->
    stopped v rt skip h bags dest d.

Lemma first_of_app a b p : first_of (a ++ b) p = match first_of a p with Some n => Some n | None => first_of b p end.
Proof.
  induction a as [|x a IH]; [reflexivity|]. cbn [app first_of fold_right]. unfold first_of in IH. rewrite IH.
  destruct (od_get p x); reflexivity.
Qed.

(** Nodes in a state after a stop: nothing got lost, and what was added is
    what will be there in the end. *)
Lemma stopped_nodes v rt skip h bags dest d : plain_algos v -> ~ In [] skip ->
  Forall (fun b => wf_tree (rb_tree b)) bags -> wf_tree dest ->
  stopped v rt skip h bags dest d ->
  wf_tree d /\
  forall p, ~ bag_file v p -> (rt = true -> ~ multibag_path p) ->
    od_get p d = od_get p dest \/
    (od_get p dest = None /\ gone skip p = false /\ od_get p d = latest (map (contrib v) bags) p).
Proof.
  intros S N0 Wb Wd H. assert (Wr : Forall (fun b => wf_tree (rb_tree b)) (rev bags)) by (apply Forall_rev; auto).
  destruct H as [W Sm|bs1 b bs2 t0 t Hs E Hf Hb|t0 t Hs Hf W Sm].
  - split; auto.
  - destruct (start_info_nodes _ _ _ Wd Hs) as [W0 Q0]. rewrite E in Wr. apply Forall_app in Wr. destruct Wr as [Wr1 Wr2].
    inversion Wr2 as [|? ? Wb0 _]; subst.
    destruct (restore_bags_nodes v skip bs1 t0 t S N0 Wr1 W0 Hf) as [Wt Q].
    assert (P : wf_tree d /\ forall q, ~ bag_file v q -> rb_loc b <> e_dest v /\
      (od_get q d = od_get q t \/ (od_get q t = None /\ gone skip q = false /\ od_get q d = od_get q (rb_tree b)))).
    { destruct Hb as [k u L Hk|t' u L Hc W Sm].
      - destruct (stopped_copy _ _ _ _ _ _ N0 Wb0 Wt Hk) as [W P]. split; auto.
      - destruct (copy_nodes _ _ _ _ _ N0 Wb0 Wt Hc) as [Wt' Qc]. split; auto. intros q B. split; auto.
        rewrite (Sm q B), Qc. destruct (od_get q t); auto. destruct (gone skip q); auto. }
    destruct P as [W P]. split; auto. intros p Bp Mp.
    assert (Sp : ~ special v p) by (intros X; apply Bp; apply bag_file_iff; left; auto).
    assert (Qt : od_get p t = match od_get p dest with Some n => Some n | None => if gone skip p then None else first_of (map (contrib v) bs1) p end).
    { rewrite (Q p Sp), Q0; auto. intros ->. apply Bp. left. auto. }
    assert (Lf : latest (map (contrib v) bags) p = match first_of (map (contrib v) bs1) p with Some n => Some n
                   | None => first_of (map (contrib v) (b :: bs2)) p end).
    { rewrite latest_first, <- map_rev, E, map_app. apply first_of_app. }
    destruct (P p Bp) as [L [R|(R1 & R2 & R3)]].
    + rewrite R, Qt. destruct (od_get p dest) eqn:D; auto. destruct (gone skip p) eqn:G; auto.
      rewrite Lf. destruct (first_of (map (contrib v) bs1) p); auto.
    + rewrite R1 in Qt. destruct (od_get p dest) eqn:D; [discriminate|]. rewrite R2 in Qt.
      destruct (od_get p (rb_tree b)) eqn:X; [right|left; congruence]. repeat split; auto.
      rewrite R3, Lf, <- Qt. cbn [map first_of fold_right]. unfold contrib.
      destruct (streq_reflect (rb_loc b) (e_dest v)); [congruence|]. rewrite X. reflexivity.
  - destruct (start_info_nodes _ _ _ Wd Hs) as [W0 Q0].
    destruct (restore_bags_nodes v skip (rev bags) t0 t S N0 Wr W0 Hf) as [Wt Q]. split; auto. intros p Bp Mp.
    assert (Sp : ~ special v p) by (intros X; apply Bp; apply bag_file_iff; left; auto).
    rewrite Sm by (intros [X|[X1 X2]]; [auto|apply (Mp X1 X2)]).
    rewrite (Q p Sp), Q0 by (intros ->; apply Bp; left; auto). rewrite latest_first, <- map_rev.
    destruct (od_get p dest) eqn:D; auto. destruct (gone skip p) eqn:G; auto.
Qed.

(** Content: a restoration that stopped anywhere between steps and is run
    again ends with the nodes that an uninterrupted one ends with. The
    checksums are another matter, see [C36_refuted]. *)
Theorem C36_content_partial : forall v us rt bsize ro h loc skip ms bags dest d dest1 dest2,
  plain_algos v -> hb_del h = None ->
  head_lists ro h = Ok (skip, ms) -> aggregation v h loc ms bags ->
  Forall (fun b => wf_tree (rb_tree b)) bags -> wf_tree dest ->
  stopped v rt skip h bags dest d ->
  restore v us rt bsize ro h loc d = Ok dest1 ->
  restore v us rt bsize ro h loc dest = Ok dest2 ->
  forall p, ~ bag_file v p -> (rt = true -> ~ multibag_path p) -> od_get p dest1 = od_get p dest2.
Proof.
  intros v us rt bsize ro h loc skip ms bags dest d dest1 dest2 S Hd Hl Ha Wb Wd St H1 H2 p Bp Mp.
  assert (N0 : ~ In [] skip) by (apply head_lists_ok in Hl; eapply skip_nonempty; [exact Hd|apply Hl]).
  destruct (stopped_nodes v rt skip h bags dest d S N0 Wb Wd St) as [W Q].
  rewrite (restored_nodes v us rt bsize ro h loc skip ms bags d dest1 S Hd Hl Ha Wb W H1 p Bp Mp).
  rewrite (restored_nodes v us rt bsize ro h loc skip ms bags dest dest2 S Hd Hl Ha Wb Wd H2 p Bp Mp).
  destruct (Q p Bp Mp) as [E|(E1 & E2 & E3)]; [rewrite E; auto|]. rewrite E1, E2, E3.
  destruct (latest (map (contrib v) bags) p); reflexivity.
Qed.
Print Assumptions C36_content_partial.

(** The example, stopped in the second bag that is visited, before the
    manifests are updated, and run again. *)
Definition ex_stopped (k : nat) : tree :=
  let t := got [] (restore_from ex_env false ex_skip {| rb_loc := U "/bags/two"; rb_tree := ex_two |} []) in
  match foldM (restore_item false ex_one) (firstn k (items_of ex_skip ex_one)) (t, []) with
  | Ok (d, _) => d
  | Err _ => []
  end.
Definition ex_rerun : tree :=
  got [] (restore ex_env true true (fun _ => U "1 kB") false ex_head (U "/bags/two") (ex_stopped 13)).

Lemma ex_stop k : stopped_in ex_env ex_skip {| rb_loc := U "/bags/one"; rb_tree := ex_one |}
    (got [] (restore_from ex_env false ex_skip {| rb_loc := U "/bags/two"; rb_tree := ex_two |} [])) (ex_stopped k) ->
  stopped ex_env true ex_skip ex_head ex_aggregate [] (ex_stopped k).
Proof.
  intros H. apply in_bag with (bs1 := [{| rb_loc := U "/bags/two"; rb_tree := ex_two |}])
    (b := {| rb_loc := U "/bags/one"; rb_tree := ex_one |}) (bs2 := []) (t0 := [])
    (t := got [] (restore_from ex_env false ex_skip {| rb_loc := U "/bags/two"; rb_tree := ex_two |} [])).
  - vm_compute. reflexivity.
  - reflexivity.
  - cbn [foldM]. vm_compute. reflexivity.
  - exact H.
Qed.

Example C36_case : stopped ex_env true ex_skip ex_head ex_aggregate [] (ex_stopped 13) /\
  read (U "data/bb") (ex_stopped 13) = Some (U "bb") /\
  restore ex_env true true (fun _ => U "1 kB") false ex_head (U "/bags/two") (ex_stopped 13) = Ok ex_rerun.
Proof.
  split; [|split; vm_compute; reflexivity]. apply ex_stop. apply while_copying with (k := 13%nat)
    (updated := match foldM (restore_item false ex_one) (firstn 13 (items_of ex_skip ex_one))
      (got [] (restore_from ex_env false ex_skip {| rb_loc := U "/bags/two"; rb_tree := ex_two |} []), []) with Ok (_, u) => u | Err _ => [] end).
  - discriminate.
  - vm_compute. reflexivity.
Qed.

(** Checksums of files copied before the stop are missing after the second
    run: the manifest lists "data/bb" after an uninterrupted restoration, but
    not after an interrupted one. *)
Theorem C36_refuted : exists v h loc skip ms bags d dest1 dest2 a h1 p c1 c2,
  plain_algos v /\ hb_del h = None /\
  head_lists false h = Ok (skip, ms) /\ aggregation v h loc ms bags /\
  Forall (fun b => wf_tree (rb_tree b)) bags /\
  stopped v true skip h bags [] d /\
  restore v true true (fun _ => U "1 kB") false h loc d = Ok dest1 /\
  restore v true true (fun _ => U "1 kB") false h loc [] = Ok dest2 /\
  read p dest1 = read p dest2 /\ read p dest1 <> None /\
  read (man_name K_man a) dest1 = Some c1 /\ read (man_name K_man a) dest2 = Some c2 /\
  In (h1, p) (manifest_lines Codecs c2) /\ ~ (exists h2, In (h2, p) (manifest_lines Codecs c1)).
Proof.
  exists ex_env, ex_head, (U "/bags/two"), ex_skip, ex_members, ex_aggregate, (ex_stopped 13), ex_rerun, ex_restored,
    (U "md5"), (U "o3"), (U "data/bb"),
    (match read (man_name K_man (U "md5")) ex_rerun with Some c => c | None => [] end),
    (match read (man_name K_man (U "md5")) ex_restored with Some c => c | None => [] end).
  destruct C33_case as (A1 & A2 & A3 & A4 & A5 & A6 & _). split; [exact A1|]. split; [exact A2|]. split; [exact A3|].
  split; [exact A4|]. split; [eapply Forall_impl; [|exact A5]; intros b [? ?]; auto|].
  split; [destruct C36_case; auto|]. split; [destruct C36_case as (_ & _ & X); exact X|]. split; [exact A6|].
  split; [vm_compute; reflexivity|]. split; [vm_compute; discriminate|].
  split; [vm_compute; reflexivity|]. split; [vm_compute; reflexivity|].
  split; [vm_compute; tauto|]. intros [h2 I].
  assert (X : str_in (U "data/bb") (map snd (manifest_lines Codecs
    (match read (man_name K_man (U "md5")) ex_rerun with Some c => c | None => [] end))) = false) by (vm_compute; reflexivity).
  apply str_in_false in X. apply X. exact (in_map snd _ _ I).
Qed.
Print Assumptions C36_refuted.

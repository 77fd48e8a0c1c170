(** * Restoring: tag manifests, and aggregations that can be restored (C76, C94) *)

Require Import String NArith PeanoNat Bool List Lia.
From Verif Require Import PyBase PyFacts Tsv TsvProofs Fs FsFacts HeadBag HeadBagProofs HeadBagProofs3 BagIt BagItProofs BagItProofs2 Split SplitApply SplitApplyProofs SplitApplyProofs2 SplitApplyProofs8 Props_SplitApply Restore RestoreProofs RestoreProofs2 RestoreProofs3 Props_Restore RestoreProofs4 Props_Restore2 RestoreProofs6 Props_Restore3 RestoreProofs7 RestoreProofs8 RestoreProofs9 RestoreProofs10 RestoreProofs11 Props_RoundTrip SplitRestoreProofs Props_RoundTrip2.
Import ListNotations.
Open Scope N_scope.

(** ** C76: tag manifests *)

(** The tag files of a bag: its files outside of data/, but for the tag
    manifests themselves. *)
Definition tag_file (t : tree) (p : pystr) : Prop :=
  is_file p t = true /\ p <> U "data" /\ startswith p (U "data/") = false /\ startswith p (U "tagmanifest-") = false.

(** A text that lists the tag files of [t], each once and with the checksum
    of its content. *)
Definition lists_tag_files (hash : pystr -> pystr) (t : tree) (text : pystr) : Prop :=
  exists paths, NoDup paths /\ (forall p, In p paths <-> tag_file t p) /\
    text = flat_map (fun p => hash (match read p t with Some c => c | None => [] end) ++ U " " ++ p ++ [LF]) paths.

Lemma top_data p : top_of p = DATA <-> p = U "data" \/ startswith p (U "data/") = true.
Proof.
  split.
  - unfold top_of. pose proof (join_split SLASH p) as J. destruct (split_on SLASH p) as [|x [|y l]]; intros E.
    + discriminate.
    + left. subst x. rewrite <- J. reflexivity.
    + right. subst x. rewrite <- J. apply (startswith_app (U "data/")).
  - intros [->|E]; [reflexivity|]. apply payload_top. exact E.
Qed.

Lemma tag_file_iff t p : NoDup (od_keys t) -> In p (tag_files t) <-> tag_file t p.
Proof.
  intros Nd. rewrite tag_files_in by exact Nd. unfold tag_file. rewrite top_data. unfold is_tagman. change (K_tag ++ [45]) with (U "tagmanifest-").
  destruct (startswith p (U "data/")); intuition congruence.
Qed.

Lemma tagmanifest_ok v a t : NoDup (od_keys t) -> lists_tag_files (e_hash v a) t (tagmanifest v a t).
Proof.
  intros Nd. exists (tag_files t). split; [|split].
  - unfold tag_files. apply NoDup_filter. apply NoDup_files. exact Nd.
  - intros p. apply tag_file_iff. exact Nd.
  - reflexivity.
Qed.

Lemma save_lists v algs i t t' : sane v -> (forall a, In a algs -> In a (e_algos v)) -> wf_tree t -> save v algs i t = Ok t' ->
  (forall a, In a algs -> exists c, read (man_name K_tag a) t' = Some c /\ lists_tag_files (e_hash v a) t' c) /\
  forall q, (forall a, In a algs -> q <> man_name K_tag a) -> q <> F_baginfo -> od_get q t' = od_get q t.
Proof.
  intros Sv Ia W H. pose proof (save_nodes v algs i t t' Sv Ia W H) as (W' & _). unfold save in H. apply bind_ok in H. destruct H as (t1 & H1 & H).
  apply bind_ok in H. destruct H as (t2 & H2 & H). apply bind_ok in H. destruct H as (_ & _ & H). injection H as <-. apply write_file_ok in H1. subst t1.
  assert (Nd : forall a, In a algs -> od_get (man_name K_tag a) (od_set F_baginfo (NFile (info_text i)) t) <> Some NDir).
  { clear - H2. revert H2. generalize (od_set F_baginfo (NFile (info_text i)) t). induction algs as [|x algs IH]; intros t0 H2 a I; [destruct I|].
    cbn [foldM] in H2. apply bind_ok in H2. destruct H2 as (t1 & H1 & H2). apply write_file_ok2 in H1. destruct H1 as (E1 & D & _).
    destruct (str_eq_dec (man_name K_tag a) (man_name K_tag x)) as [E|E].
    - rewrite E. intros G. unfold is_dir in D. rewrite G in D. cbn in D. discriminate.
    - destruct I as [->|I]; [congruence|]. pose proof (IH _ H2 a I) as X. rewrite E1, od_get_set_other in X by exact E. exact X. }
  destruct (tags_written v algs _ _ Nd H2) as (_ & Tm & Tr & To). split.
  - intros a I. exists (tagmanifest v a t2). split; [rewrite Tm; auto|]. apply tagmanifest_ok. apply wf_nodup. exact W'.
  - intros q Hq Nq. rewrite To by exact Hq. apply od_get_set_other. exact Nq.
Qed.
Print Assumptions save_lists.

(** The last save of a restoration. *)
Lemma finish_saved v us rt bsize t t' : sane v -> wf_tree t -> us = true \/ rt = true -> finish v us rt bsize t = Ok t' ->
  exists algs i t0, algorithms v t = Ok algs /\ save v algs i t0 = Ok t' /\ wf_tree t0 /\
    forall a q, In a (e_algos v) -> ~ In a algs -> q = man_name K_tag a -> od_get q t' = od_get q t.
Proof.
  intros Sv W Hu H. unfold finish in H. apply bind_ok in H. destruct H as ([info es] & _ & H).
  apply bind_ok in H. destruct H as (algs & Ha & H). pose proof (algorithms_in _ _ _ Ha) as A.
  apply bind_ok in H. destruct H as ([i1 t1] & H1 & H).
  assert (Sv1 : forall i t t', wf_tree t -> save v algs i t = Ok t' -> wf_tree t' /\
            forall a q, In a (e_algos v) -> ~ In a algs -> q = man_name K_tag a -> od_get q t' = od_get q t).
  { intros i0 t0 t0' W0 H0. split; [apply (save_nodes v algs i0 t0 t0' Sv A W0 H0)|]. intros a q Ia Na ->.
    apply (save_lists v algs i0 t0 t0' Sv A W0 H0); [|discriminate]. intros b Ib E. apply man_name_inj in E. congruence. }
  assert (X1 : wf_tree t1 /\ (forall a q, In a (e_algos v) -> ~ In a algs -> q = man_name K_tag a -> od_get q t1 = od_get q t) /\
            (rt = true -> exists t0, save v algs i1 t0 = Ok t1 /\ wf_tree t0)).
  { destruct rt.
    - apply bind_ok in H1. destruct H1 as (t2 & Hr & H1). apply bind_ok in H1. destruct H1 as (t3 & Hs & H1). injection H1 as <- <-.
      apply rmtree_nodes in Hr; [|exact W]. destruct Hr as (_ & W2 & Q2). destruct (Sv1 _ _ _ W2 Hs) as [W3 Q3].
      split; [exact W3|]. split; [|intros _; exists t2; auto]. intros a q Ia Na E. rewrite (Q3 a q Ia Na E), Q2. subst q.
      assert (Z : streq (man_name K_tag a) MULTIBAG || below MULTIBAG (man_name K_tag a) = false); [|rewrite Z; reflexivity].
      apply orb_false_iff. split; [apply streq_neq; discriminate|reflexivity].
    - injection H1 as <- <-. split; [exact W|]. split; [auto|discriminate]. }
  destruct X1 as (W1 & Q1 & S1). destruct us.
  - apply bind_ok in H. destruct H as ([sz n] & _ & H). apply bind_ok in H. destruct H as (t2 & H2 & H).
    destruct (Sv1 _ _ _ W1 H2) as [W2 Q2]. destruct (Sv1 _ _ _ W2 H) as [W3 Q3]. eexists algs, _, t2. split; [exact Ha|]. split; [exact H|]. split; [exact W2|].
    intros a q Ia Na E. rewrite (Q3 a q Ia Na E), (Q2 a q Ia Na E). apply (Q1 a q Ia Na E).
  - injection H as <-. destruct Hu as [Hu|Hu]; [discriminate|]. destruct (S1 Hu) as (t0 & Hs & W0). exists algs, i1, t0. auto.
Qed.

(** After a restoration with the default options (or one of the two), the
    tag manifests list exactly the tag files of the restored bag, with the
    checksums of their content: for each algorithm that has a manifest and,
    from version 0.97 of BagIt, for each one that has a tag manifest. *)
Theorem C76_tag_manifests : forall v us rt bsize ro h loc skip ms bags dest dest' a,
  plain_algos v -> hb_del h = None ->
  head_lists ro h = Ok (skip, ms) -> aggregation v h loc ms bags ->
  Forall (fun b => wf_tree (rb_tree b)) bags -> wf_tree dest ->
  us = true \/ rt = true -> restore v us rt bsize ro h loc dest = Ok dest' ->
  In a (e_algos v) ->
  is_file (U "manifest-" ++ a ++ U ".txt") dest' = true \/
  (is_file (U "tagmanifest-" ++ a ++ U ".txt") dest' = true /\
   exists c v1, read (U "bagit.txt") dest' = Some c /\ e_version v c = Ok (true, v1)) ->
  exists c, read (U "tagmanifest-" ++ a ++ U ".txt") dest' = Some c /\ lists_tag_files (e_hash v a) dest' c.
Proof.
  intros v us rt bsize ro h loc skip ms bags dest dest' a Sv Hd Hl Ha Wb Wd Hu H Ia Hm.
  destruct (restored_end _ _ _ _ _ _ _ _ _ _ _ _ Sv Hd Hl Ha Wb Wd H) as (t & Wt & Hn & _).
  destruct (finish_saved v us rt bsize t dest' Sv Wt Hu Hn) as (algs & i & t0 & Al & Hs & W0 & Q).
  destruct (finish_nodes v us rt bsize t dest' Sv Wt Hn) as (_ & _ & F).
  destruct (save_lists v algs i t0 dest' Sv (algorithms_in _ _ _ Al) W0 Hs) as [L _].
  change (U "tagmanifest-" ++ a ++ U ".txt") with (man_name K_tag a). apply L.
  assert (Nm : forall q, ~ In SLASH q -> q <> MULTIBAG -> rt && in_multibag q = false).
  { intros q Ns Nq. unfold in_multibag. apply streq_neq in Nq. rewrite Nq. cbn [orb]. destruct (below MULTIBAG q) eqn:B; [|apply andb_false_r].
    exfalso. apply Ns. apply below_iff in B; [|discriminate]. destruct B as [r ->]. apply in_or_app. right; left; auto. }
  unfold algorithms in Al. destruct (read F_bagit t) as [c0|] eqn:Rb; [|discriminate]. apply bind_ok in Al. destruct Al as ([v97 v1] & Ev & Al). injection Al as <-.
  apply in_set_of, in_map_iff. destruct Hm as [Hm|(Hm & c & v1' & Rc & Ec)].
  - change (U "manifest-" ++ a ++ U ".txt") with (man_name K_man a) in Hm. apply is_file_read in Hm. destruct Hm as [c R]. exists (a, c). split; [reflexivity|].
    apply in_bag_manifests. split; [exact Ia|]. left. apply read_get. apply read_get in R. rewrite F in R by (right; left; eauto).
    rewrite Nm in R; [exact R|apply man_no_slash; [left; auto|apply Sv; exact Ia]|discriminate].
  - assert (Eb : read F_bagit dest' = read F_bagit t).
    { unfold read. rewrite F.
      - rewrite Nm; [reflexivity|intros X; cbn in X; intuition discriminate|discriminate].
      - left. intros [(k & x & [<-|[<-|[]]] & _ & E)|[E|E]]; discriminate. }
    change (U "bagit.txt") with F_bagit in Rc. rewrite Eb, Rb in Rc. injection Rc as <-. rewrite Ec in Ev. injection Ev as <- <-.
    change (U "tagmanifest-" ++ a ++ U ".txt") with (man_name K_tag a) in Hm.
    destruct (in_dec str_eq_dec a (set_of (map fst (bag_manifests (e_algos v) true t)))) as [I|I].
    + apply (proj1 (in_set_of _ _)) in I. apply in_map_iff in I. exact I.
    + apply is_file_read in Hm. destruct Hm as [c R]. exists (a, c). split; [reflexivity|]. apply in_bag_manifests. split; [exact Ia|]. right. split; [reflexivity|].
      apply read_get. apply read_get in R. rewrite (Q a _ Ia I eq_refl) in R. exact R.
Qed.
Print Assumptions C76_tag_manifests.

Definition rt_back : tree := got [] (restore rt_env true true (fun _ => U "1 kB") false rt_head (ex_place (hb_name rt_head)) []).

Example C76_case :
  restore rt_env true true (fun _ => U "1 kB") false rt_head (ex_place (hb_name rt_head)) [] = Ok rt_back /\
  read (U "tagmanifest-sha256.txt") rt_back =
    Some (flat_map (fun x => x ++ [LF])
            [U "h125 bag-info.txt"; U "h22 manifest-md5.txt"; U "h22 manifest-sha256.txt"; U "h19 bagit.txt"; U "h1 meta/m"; U "h1 about.txt"]) /\
  tag_file rt_back (U "meta/m") /\ ~ tag_file rt_back (U "data/a") /\ is_file (U "data/a") rt_back = true.
Proof.
  split; [vm_compute; reflexivity|]. split; [vm_compute; reflexivity|].
  split. { split; [vm_compute; reflexivity|]. split; [discriminate|]. split; reflexivity. }
  split; [|vm_compute; reflexivity]. intros (_ & _ & X & _). discriminate.
Qed.

(** ** C94: aggregations that can be restored *)

(** Restoring into a new directory ends without an error if the aggregation
    is consistent ([agg_ok]): all bags can be opened, and record checksums
    for the same algorithms [A], in the same manner for each file; their
    manifests can be written again as they are; no bag has a directory where
    another one has a file; none of the files of BagIt is deleted, and
    bag-info.txt can be read. *)
Theorem C94_consistent_aggregations_restore : forall v A us rt bsize ro h loc skip ms bags,
  plain_algos v -> NoDup (e_algos v) -> incl A (e_algos v) -> good_hash v -> plain_text bsize ->
  head_lists ro h = Ok (skip, ms) -> ~ In [] skip -> aggregation v h loc ms bags ->
  agg_ok v A skip us rt h (rev bags) ->
  exists dest', restore v us rt bsize ro h loc [] = Ok dest'.
Proof.
  intros v A us rt bsize ro h loc skip ms bags Sv Na Inc Gh Pt Hl Ns Ha Ok1.
  apply aggregation_others in Ha. destruct Ha as (bs & F2 & ->). rewrite rev_involutive in Ok1.
  destruct (restore_succeeds v A us rt bsize ro h loc skip ms bs Sv Na Inc Ns Gh Pt Hl F2 Ok1) as (D & Hr & _). eauto.
Qed.
Print Assumptions C94_consistent_aggregations_restore.

Example C94_case : exists ms bags, head_lists false rt_head = Ok ([], ms) /\
  aggregation rt_env rt_head (ex_place (hb_name rt_head)) ms bags /\ agg_ok rt_env ex_algos [] true true rt_head (rev bags) /\ length bags = 3%nat.
Proof.
  destruct C32_split_restores_case as (H1 & _ & H3 & H4 & _ & H6 & H7 & H8 & _ & H10 & H11 & _ & _ & H14 & H15 & H16 & _).
  destruct (split_agg_ok rt_source ex_opts rt_plan None [] rt_bags rt_env ex_algos true true false rt_head ex_place H10 H11 H1 H6 H3 H4 H7 H8 H14 H16 H15)
    as (ms & bs & Hl & F2 & Ag).
  destruct (split_aggregation rt_source ex_opts rt_plan None [] rt_bags rt_env false rt_head ex_place (rs_opened _ _ _ H1) H3 (rs_member _ _ _ H1)
    (rs_layout _ _ _ H1) (rs_nomulti _ _ _ H1) H4 H7 H8 H14 H16) as (othr & head & t & tags & ms' & Eb & _ & Eh & Hl' & Ha & _).
  assert (Em : ms' = ms) by (rewrite Hl in Hl'; congruence). subst ms'.
  exists ms, (map (placed ex_place) rt_bags). split; [exact Hl|].
  assert (En : ex_place (hb_name rt_head) = ex_place head) by (rewrite Eh; reflexivity). rewrite En. split; [exact Ha|].
  split; [|vm_compute; reflexivity]. apply aggregation_others in Ha. destruct Ha as (bs' & F2' & Er). rewrite Er, rev_involutive. rewrite En in Ag.
  assert (Ebs : bs' = bs).
  { clear - F2 F2'. revert bs bs' F2 F2'. generalize (others rt_head ms). induction l as [|n l IH]; intros bs bs' F2 F2'; inversion F2; inversion F2'; subst; auto.
    f_equal; [congruence|]. apply IH; auto. }
  rewrite Ebs. exact Ag.
Qed.

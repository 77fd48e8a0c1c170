(** * Consistent aggregations can be restored however they are listed (C142) *)

Require Import String NArith ZArith PeanoNat Bool List Lia Permutation.
From Verif Require Import PyBase PyFacts Tsv Fs FsFacts Version BagIt HeadBag HeadBagProofs HeadBagProofs3 SplitApply SplitApplyProofs
  SplitApplyProofs6 Restore RestoreProofs RestoreProofs2 RestoreProofs3 RestoreProofs4 RestoreProofs8 RestoreProofs9 RestoreProofs10 RestoreProofs11
  RestoreProofs6 BagItProofs Props_SplitApply Props_SplitApply2 Props_Restore Props_Restore2 Props_Restore3 Props_Restore4 Props_RoundTrip SplitRestoreProofs Props_RoundTrip2 Props_Reproducible Props_RestoreListing.
Import ListNotations.
Open Scope N_scope.

(** What bagit makes of a declaration, a path and a content does not depend
    on the listing either. *)
Definition same_bagit (v v' : env) : Prop :=
  e_version v = e_version v' /\ e_danger v = e_danger v' /\ e_hash v = e_hash v'.

Section Transport.
  Variables (v v' : env).
  Hypothesis Rv : relisted_env v v'.
  Hypothesis Sv : same_bagit v v'.

  Lemma tr_algos : e_algos v' = e_algos v. Proof. destruct Rv as (E & _). auto. Qed.
  Lemma tr_dest : e_dest v' = e_dest v. Proof. destruct Rv as (_ & E & _). auto. Qed.
  Lemma tr_version : e_version v' = e_version v. Proof. destruct Sv as (E & _). auto. Qed.
  Lemma tr_danger : e_danger v' = e_danger v. Proof. destruct Sv as (_ & E & _). auto. Qed.
  Lemma tr_hash : e_hash v' = e_hash v. Proof. destruct Sv as (_ & _ & E). auto. Qed.

  Section Tree.
    Variables (t t' : tree).
    Hypothesis W : wf_tree t.
    Hypothesis P : Permutation t t'.

    Lemma tr_read p : read p t' = read p t. Proof. symmetry. apply listed_read; assumption. Qed.
    Lemma tr_get p : od_get p t' = od_get p t. Proof. symmetry. apply listed_get; assumption. Qed.
    Lemma tr_file p : is_file p t' = is_file p t. Proof. unfold is_file. rewrite tr_get. reflexivity. Qed.

    Lemma tr_open r loc : open_bag v' r loc t' = open_bag v r loc t.
    Proof.
      unfold open_bag. rewrite tr_read, tr_version, tr_danger, tr_algos, (tr_read F_baginfo).
      destruct (read F_bagit t); [|reflexivity]. destruct (e_version v p) as [[v97 v1]|e]; cbn [bind]; [|reflexivity].
      replace (bag_manifests (e_algos v) v97 t') with (bag_manifests (e_algos v) v97 t); [reflexivity|].
      unfold bag_manifests. f_equal; [f_equal; apply map_ext; intros a; rewrite tr_read; reflexivity|].
      destruct v97; [|reflexivity]. f_equal. apply map_ext. intros a. rewrite tr_read. reflexivity.
    Qed.

    Lemma tr_entry r k a p c : entry_in r k t' a p c <-> entry_in r k t a p c.
    Proof. unfold entry_in. rewrite tr_read. reflexivity. Qed.

    Lemma tr_mans loc : good_mans v loc t -> good_mans v' loc t'.
    Proof. intros G pay a c. rewrite tr_algos, tr_read, tr_danger. apply G. Qed.

    Lemma tr_uses A : uses v A t -> uses v' A t'.
    Proof.
      intros [H1 H2]. split.
      - intros pay a. rewrite tr_algos, tr_file. intros X Y. destruct (H1 pay a X Y) as [Z1 Z2]. split; [exact Z1|].
        intros a'. rewrite tr_file. apply Z2.
      - intros pay a a' p c X Y Z. apply tr_entry in Z. destruct (H2 pay a a' p c X Y Z) as (c' & K). exists c'. apply tr_entry. exact K.
    Qed.
  End Tree.

  Lemma tr_touched q : touched v' q -> touched v q.
  Proof. unfold touched, special. rewrite tr_algos. auto. Qed.
  Lemma tr_name p : good_name v p -> good_name v' p.
  Proof. unfold good_name. rewrite tr_danger, tr_dest. auto. Qed.

  Lemma tr_member A b b' : relisted_bag b b' -> member_ok v A b -> member_ok v' A b'.
  Proof.
    intros [El P] [W L (info & es & O) M Us D]. split.
    - exact (perm_wf _ _ W P).
    - rewrite <- El, tr_dest. exact L.
    - exists info, es. rewrite <- El, (tr_open (rb_tree b)); assumption.
    - rewrite tr_dest. apply (tr_mans (rb_tree b)); assumption.
    - apply (tr_uses (rb_tree b)); assumption.
    - intros q T. rewrite (tr_get (rb_tree b)); [|assumption|assumption]. apply D, tr_touched, T.
  Qed.

  Lemma tr_agg A skip us rt h t' bs bs' : wf_tree (hb_tree h) -> Permutation (hb_tree h) t' -> Forall2 relisted_bag bs bs' ->
    agg_ok v A skip us rt h bs -> agg_ok v' A skip us rt (set_tree h t') bs'.
  Proof.
    intros Wh Ph F [Om Os Ov Oi Oc Od Omb On Oo].
    assert (Back : forall b', In b' bs' -> exists b, In b bs /\ relisted_bag b b' /\ wf_tree (rb_tree b)).
    { clear - F Om. induction F as [|b b' l l' R _ IH]; intros x I0; [destruct I0|]. inversion Om as [|? ? X Wl]; subst.
      destruct I0 as [<-|I0]; [exists b; split; [left; reflexivity|split; [exact R|exact (mo_wf _ _ _ X)]]|].
      destruct (IH Wl x I0) as (b0 & J & K). exists b0. split; [right; exact J|exact K]. }
    split.
    - clear - F Om Rv Sv. induction F as [|b b' l l' R _ IH]; [constructor|]. inversion Om; subst. constructor; [|auto].
      apply (tr_member A b b' R). assumption.
    - intros q [T|T]; apply Os; [left; apply tr_touched; exact T|right; exact T].
    - destruct Ov as (c & v1 & X & Y). exists c, v1. cbn [hb_tree set_tree]. rewrite (tr_read (hb_tree h)), tr_version; auto.
    - destruct Oi as (text & X & Y). exists text. split; [|exact Y]. unfold first_info in *. cbn [hb_tree hb_reader set_tree].
      rewrite !(tr_read (hb_tree h) t' Wh Ph). exact X.
    - intros b1 b2 p I1 I2 X Y. destruct (Back b1 I1) as (c1 & J1 & [_ R1] & W1). destruct (Back b2 I2) as (c2 & J2 & [_ R2] & W2).
      rewrite (tr_get (rb_tree c1)) in X; [|assumption|assumption]. rewrite (tr_file (rb_tree c2)); [|assumption|assumption].
      apply (Oc c1 c2 p J1 J2 X Y).
    - intros E. destruct (Od E) as (b & I0 & X).
      assert (K : exists b', In b' bs' /\ relisted_bag b b').
      { clear - F I0. induction F as [|x x' l l' R _ IH]; [destruct I0|]. destruct I0 as [->|I0]; [exists x'; split; [left; reflexivity|exact R]|].
        destruct (IH I0) as (b' & J & K). exists b'. split; [right; exact J|exact K]. }
      destruct K as (b' & J & _ & P). exists b'. split; [exact J|]. rewrite Forall_forall in Om.
      rewrite (tr_get (rb_tree b)); [exact X|exact (mo_wf _ _ _ (Om b I0))|exact P].
    - intros E. cbn [hb_tree set_tree]. rewrite (tr_get (hb_tree h)); auto.
    - intros b' p I1 X Y Z Q. destruct (Back b' I1) as (b & J & [_ R] & W). rewrite (tr_file (rb_tree b)) in X; [|assumption|assumption].
      apply tr_name. apply (On b p J X Y Z Q).
    - intros p T Q. apply tr_name, Oo; [apply tr_touched; exact T|exact Q].
  Qed.
End Transport.

Lemma Forall2_rev_ {X Y} (R : X -> Y -> Prop) l l' : Forall2 R l l' -> Forall2 R (rev l) (rev l').
Proof. induction 1; cbn [rev]; [constructor|]. apply Forall2_app; [assumption|]. constructor; [assumption|constructor]. Qed.

(** A consistent aggregation (see C94) can be restored to a new directory in
    whatever order its bags are listed, and the two restored bags have the
    same files and directories, but for the tag files that the restoration
    writes itself. *)
Theorem C142_consistent_restored : forall v v' A us rt bsize bsize' ro h t' loc skip ms bags,
  plain_algos v -> NoDup (e_algos v) -> incl A (e_algos v) -> good_hash v -> plain_text bsize -> plain_text bsize' ->
  hb_del h = None -> head_lists ro h = Ok (skip, ms) -> ~ In [] skip -> aggregation v h loc ms bags ->
  agg_ok v A skip us rt h (rev bags) ->
  relisted_env v v' -> same_bagit v v' -> Permutation (hb_tree h) t' ->
  exists r r1, restore v us rt bsize ro h loc [] = Ok r /\
    restore v' us rt bsize' ro (set_tree h t') loc [] = Ok r1 /\
    forall p, ~ bag_file v p -> (rt = true -> ~ multibag_path p) -> od_get p r = od_get p r1.
Proof.
  intros v v' A us rt bsize bsize' ro h t' loc skip ms bags Pa Na Inc Gh Pt Pt' Hd Hl Ns Ha Ok1 Rv Sv Ph.
  assert (Wb : Forall (fun b => wf_tree (rb_tree b)) bags).
  { apply Forall_forall. intros b I0. pose proof (ao_members _ _ _ _ _ _ _ Ok1) as M. rewrite Forall_forall in M.
    apply (mo_wf v A). apply M. apply in_rev. rewrite rev_involutive. exact I0. }
  assert (Wh : wf_tree (hb_tree h)).
  { destruct Ha as (names & before & _ & _ & ->). apply Forall_app in Wb. destruct Wb as [_ Wb]. inversion Wb; subst. assumption. }
  destruct (relisted_aggregation v v' h t' loc ms bags Rv Ph Ha) as (bags' & Ha' & F).
  destruct (C94_consistent_aggregations_restore v A us rt bsize ro h loc skip ms bags Pa Na Inc Gh Pt Hl Ns Ha Ok1) as (r & Hr).
  assert (Ok2 : agg_ok v' A skip us rt (set_tree h t') (rev bags')).
  { apply (tr_agg v v' Rv Sv A skip us rt h t' (rev bags)); auto. apply Forall2_rev_. exact F. }
  assert (Ea := tr_algos v v' Rv).
  destruct (C94_consistent_aggregations_restore v' A us rt bsize' ro (set_tree h t') loc skip ms bags') as (r1 & Hr1); auto.
  { unfold plain_algos. rewrite Ea. exact Pa. }
  { rewrite Ea. exact Na. }
  { rewrite Ea. exact Inc. }
  { unfold good_hash. rewrite (tr_hash v v' Sv). exact Gh. }
  { rewrite relisted_lists; assumption. }
  exists r, r1. split; [exact Hr|]. split; [exact Hr1|].
  apply (C142_restored_partial v v' us rt bsize bsize' ro h t' loc skip ms bags [] [] r r1 Pa Hd Hl Ha Wb); auto.
  apply (do_wf v A); apply empty_ok.
Qed.
Print Assumptions C142_consistent_restored.

(** A case: the bags of C94_case listed from the end. *)
Definition rt_env_rev : env :=
  {| e_algos := e_algos rt_env; e_version := e_version rt_env; e_danger := e_danger rt_env;
     e_hash := e_hash rt_env; e_dest := e_dest rt_env;
     e_find := fun n => match e_find rt_env n with Some b => Some {| rb_loc := rb_loc b; rb_tree := rev (rb_tree b) |} | None => None end |}.

Example C142_consistent_case : exists ms bags, head_lists false rt_head = Ok ([], ms) /\ hb_del rt_head = None /\
  aggregation rt_env rt_head (ex_place (hb_name rt_head)) ms bags /\ agg_ok rt_env ex_algos [] true true rt_head (rev bags) /\
  length bags = 3%nat /\ relisted_env rt_env rt_env_rev /\ same_bagit rt_env rt_env_rev /\
  Permutation (hb_tree rt_head) (rev (hb_tree rt_head)) /\ hb_tree rt_head <> rev (hb_tree rt_head).
Proof.
  destruct C94_case as (ms & bags & H1 & H2 & H3 & H4). exists ms, bags. split; [exact H1|]. split; [reflexivity|].
  split; [exact H2|]. split; [exact H3|]. split; [exact H4|].
  split. { split; [reflexivity|]. split; [reflexivity|]. intros n. cbn [rt_env_rev e_find]. destruct (e_find rt_env n); [|exact Logic.I].
    split; [reflexivity|apply Permutation_rev]. }
  split; [repeat split|]. split; [apply Permutation_rev|].
  intros X. apply (f_equal (fun t => streq (fst (hd ([], NDir) t)) (fst (hd ([], NDir) (rev (hb_tree rt_head)))))) in X. vm_compute in X. discriminate X.
Qed.

(** The Payload-Oxum of the two restored bags is the same. *)
Lemma restored_wf v us rt bsize ro h loc skip ms bags dest r : plain_algos v -> hb_del h = None ->
  head_lists ro h = Ok (skip, ms) -> aggregation v h loc ms bags -> Forall (fun b => wf_tree (rb_tree b)) bags -> wf_tree dest ->
  restore v us rt bsize ro h loc dest = Ok r -> wf_tree r.
Proof.
  intros Pa Hd Hl Ha Wb Wd H. destruct (restored_end _ _ _ _ _ _ _ _ _ _ _ _ Pa Hd Hl Ha Wb Wd H) as (t & Wt & Hn & _).
  destruct (finish_nodes v us rt bsize t r Pa Wt Hn) as (W & _). exact W.
Qed.

Lemma same_oxum t t' : wf_tree t -> wf_tree t' -> (forall p, payload p -> od_get p t = od_get p t') -> oxum t = oxum t'.
Proof.
  intros W W' E.
  assert (M : forall p, In p (payload_files t) <-> In p (payload_files t')).
  { intros p. unfold payload_files. rewrite !filter_In, !in_files by (apply wf_nodup; assumption).
    split; intros [A B]; (split; [|exact B]); apply payload_iff in B; unfold is_file in *; [rewrite <- (E p B)|rewrite (E p B)]; exact A. }
  assert (P : Permutation (payload_files t) (payload_files t')).
  { apply NoDup_Permutation; [| |exact M]; unfold payload_files; apply NoDup_filter, NoDup_files, wf_nodup; assumption. }
  assert (Z : map (fun f => size_of f t) (payload_files t) = map (fun f => size_of f t') (payload_files t)).
  { apply map_ext_in. intros p I0. apply filter_In in I0. destruct I0 as [_ B]. apply payload_iff in B. unfold size_of, read. rewrite (E p B). reflexivity. }
  unfold oxum. rewrite Z, (Permutation_length P). do 2 f_equal.
  generalize (Permutation_map (fun f => size_of f t') P). generalize (map (fun f => size_of f t') (payload_files t)), (map (fun f => size_of f t') (payload_files t')).
  induction 1; cbn [sum_N]; lia.
Qed.

Theorem C142_oxum : forall v v' bsize bsize' ro h t' loc skip ms bags dest dest1 r r1,
  plain_algos v -> plain_size bsize -> plain_size bsize' -> hb_del h = None ->
  head_lists ro h = Ok (skip, ms) -> aggregation v h loc ms bags ->
  Forall (fun b => wf_tree (rb_tree b)) bags -> wf_tree dest ->
  relisted_env v v' -> Permutation (hb_tree h) t' -> Permutation dest dest1 ->
  restore v true true bsize ro h loc dest = Ok r ->
  restore v' true true bsize' ro (set_tree h t') loc dest1 = Ok r1 ->
  forall rd, exists d d1, tags_of rd r = Ok d /\ tags_of rd r1 = Ok d1 /\
    tag_values d (U "Payload-Oxum") = tag_values d1 (U "Payload-Oxum").
Proof.
  intros v v' bsize bsize' ro h t' loc skip ms bags dest dest1 r r1 Pa Bs Bs' Hd Hl Ha Wb Wd Rv Ph Pd H H1 rd.
  pose proof (C142_restored_partial v v' true true bsize bsize' ro h t' loc skip ms bags dest dest1 r r1 Pa Hd Hl Ha Wb Wd Rv Ph Pd H H1) as Q.
  destruct (relisted_aggregation v v' h t' loc ms bags Rv Ph Ha) as (bags' & Ha' & F).
  assert (Wh : wf_tree (hb_tree h)).
  { destruct Ha as (names & before & _ & _ & ->). apply Forall_app in Wb. destruct Wb as [_ Wb]. inversion Wb; subst. assumption. }
  assert (Pa' : plain_algos v') by (unfold plain_algos; destruct Rv as (<- & _); exact Pa).
  assert (Hl' : head_lists ro (set_tree h t') = Ok (skip, ms)) by (rewrite relisted_lists; assumption).
  assert (Wb' : Forall (fun b => wf_tree (rb_tree b)) bags').
  { clear - F Wb. induction F as [|b b' l l' [_ P] _ IH]; [constructor|]. inversion Wb; subst. constructor; [eapply perm_wf; eassumption|auto]. }
  assert (Wd' := perm_wf _ _ Wd Pd).
  destruct (C73_oxum v bsize ro h loc skip ms bags dest r Pa Bs Hd Hl Ha Wb Wd H rd) as (d & D1 & D2).
  destruct (C73_oxum v' bsize' ro (set_tree h t') loc skip ms bags' dest1 r1 Pa' Bs' Hd Hl' Ha' Wb' Wd' H1 rd) as (d1 & E1 & E2).
  exists d, d1. split; [exact D1|]. split; [exact E1|]. rewrite D2, E2. f_equal.
  apply same_oxum.
  - exact (restored_wf v true true bsize ro h loc skip ms bags dest r Pa Hd Hl Ha Wb Wd H).
  - exact (restored_wf v' true true bsize' ro (set_tree h t') loc skip ms bags' dest1 r1 Pa' Hd Hl' Ha' Wb' Wd' H1).
  - intros p (rest & ->). apply Q.
    + intros [X|[X|(a & _ & [X|X])]]; discriminate X.
    + intros _ [X|(x & X)]; discriminate X.
Qed.
Print Assumptions C142_oxum.

(** A restoration that is stopped in the middle of a file (C36, continued) *)
Require Import String NArith PeanoNat Bool List Lia.
From Verif Require Import PyBase PyFacts Tsv TsvProofs Fs FsFacts HeadBag HeadBagProofs HeadBagProofs3 BagIt BagItProofs Split SplitApply SplitApplyProofs SplitApplyProofs2 SplitApplyProofs8 Props_SplitApply Restore RestoreProofs RestoreProofs2 RestoreProofs3 Props_Restore.
Import ListNotations.
Open Scope N_scope.

(** States in which a restoration can stop while a file is being copied: some
    bags have been copied, and some items of the next one, [b], with the result
    [d0]. The next item is the file [p] with content [c]; it is created, and
    [part], the beginning of the content, has been written. *)
Inductive cut (v : env) (skip : list pystr) (h : hb) (bags : list rbag) (dest : tree) (p c part : pystr) (d : tree) : Prop :=
| in_file bs1 b bs2 t0 t k updated dir f d0 rest :
    start_info h dest = Ok t0 -> rev bags = bs1 ++ b :: bs2 ->
    foldM (fun d b => restore_from v false skip b d) bs1 t0 = Ok t ->
    rb_loc b <> e_dest v ->
    foldM (restore_item false (rb_tree b)) (firstn k (items_of skip (rb_tree b))) (t, []) = Ok (d0, updated) ->
    nth_error (items_of skip (rb_tree b)) k = Some (IFile dir f) -> p = pjoin dir f ->
    exists_ p d0 = false -> read p (rb_tree b) = Some c -> c = part ++ rest ->
    write_file p part d0 = Ok d ->
    cut v skip h bags dest p c part d.

Lemma firstn_nth {A} (l : list A) : forall k x, nth_error l k = Some x -> firstn (S k) l = firstn k l ++ [x].
Proof.
  induction l as [|a l IH]; intros [|k] x H; cbn in H; try discriminate; [injection H as ->; reflexivity|].
  change (firstn (S (S k)) (a :: l)) with (a :: firstn (S k) l). rewrite (IH _ _ H). reflexivity.
Qed.

(** The part that had been written stays, whatever the rest of the file is;
    all other paths end up as they should. *)
Theorem C36_cut : forall v us rt bsize ro h loc skip ms bags dest d dest1 dest2 p c part,
  plain_algos v -> hb_del h = None ->
  head_lists ro h = Ok (skip, ms) -> aggregation v h loc ms bags ->
  Forall (fun b => wf_tree (rb_tree b)) bags -> wf_tree dest ->
  cut v skip h bags dest p c part d ->
  restore v us rt bsize ro h loc d = Ok dest1 ->
  restore v us rt bsize ro h loc dest = Ok dest2 ->
  ~ bag_file v p -> (rt = true -> ~ multibag_path p) ->
  read p dest1 = Some part /\ read p dest2 = Some c /\
  forall q, q <> p -> ~ bag_file v q -> (rt = true -> ~ multibag_path q) -> od_get q dest1 = od_get q dest2.
Proof.
  intros v us rt bsize ro h loc skip ms bags dest d dest1 dest2 p c part S Hd Hl Ha Wb Wd Hc H1 H2 Bp Mp.
  assert (N0 : ~ In [] skip) by (apply head_lists_ok in Hl; eapply skip_nonempty; [exact Hd|apply Hl]).
  destruct Hc as [bs1 b bs2 t0 t k u dir f d0 rest Hs E Hf Lo Hk Hn Ep Ex Rp Ec Hw].
  assert (St : stopped v rt skip h bags dest d0).
  { eapply in_bag; eauto. apply while_copying with (k := k) (updated := u); auto. }
  destruct (stopped_nodes v rt skip h bags dest d0 S N0 Wb Wd St) as [W0 Q0].
  pose proof (exists_false _ _ Ex) as [Gn Pn].
  apply write_file_ok2 in Hw. destruct Hw as (-> & Pp & Pd).
  assert (St1 : stopped v rt skip h bags dest (od_set p (NFile c) d0)).
  { eapply in_bag; eauto. apply while_copying with (k := Datatypes.S k) (updated := u ++ [sjoin dir f]); auto.
    rewrite (firstn_nth _ _ _ Hn), foldM_app, Hk. cbn [bind foldM restore_item]. rewrite <- Ep. cbn [andb bind]. rewrite Ex.
    unfold replicate_ro. assert (X : exists_ p (rb_tree b) = true) by (unfold exists_, is_file; unfold read in Rp; destruct (od_get p (rb_tree b)) as [[|]|]; [discriminate|reflexivity|discriminate]).
    rewrite X. cbn [negb]. assert (Y : is_dir p (rb_tree b) = false).
    { unfold is_dir. destruct p; [congruence|]. unfold read in Rp. destruct (od_get _ (rb_tree b)) as [[|]|]; [discriminate|reflexivity|reflexivity]. }
    rewrite Y, Rp. assert (Z : exists_ (dirname p) d0 = true) by (unfold exists_; rewrite Pd; apply orb_true_r). rewrite Z.
    unfold write_file. rewrite Pp, Pd. reflexivity. }
  destruct (stopped_nodes v rt skip h bags dest _ S N0 Wb Wd St1) as [_ Q1].
  assert (Dn : od_get p dest = None) by (destruct (Q0 p Bp Mp) as [X|(X & _)]; congruence).
  assert (L : gone skip p = false /\ latest (map (contrib v) bags) p = Some (NFile c)).
  { destruct (Q1 p Bp Mp) as [X|(_ & X1 & X2)]; rewrite od_get_set_same in *; [congruence|]. split; congruence. }
  destruct L as [Gp L].
  assert (Gd : good_path p).
  { assert (Wbb : wf_tree (rb_tree b)).
    { rewrite Forall_forall in Wb. apply Wb. apply in_rev. rewrite E. apply in_or_app. right. left. reflexivity. }
    apply (wf_good (rb_tree b)); auto. unfold read in Rp. destruct (od_get p (rb_tree b)) eqn:X; [|discriminate]. eapply od_get_some_key; eauto. }
  assert (W1 : wf_tree (od_set p (NFile part) d0)) by (apply wf_set; auto).
  split; [|split].
  - unfold read. rewrite (restored_nodes v us rt bsize ro h loc skip ms bags _ dest1 S Hd Hl Ha Wb W1 H1 p Bp Mp), od_get_set_same. reflexivity.
  - unfold read. rewrite (restored_nodes v us rt bsize ro h loc skip ms bags dest dest2 S Hd Hl Ha Wb Wd H2 p Bp Mp), Dn, Gp, L. reflexivity.
  - intros q Nq Bq Mq. rewrite (restored_nodes v us rt bsize ro h loc skip ms bags _ dest1 S Hd Hl Ha Wb W1 H1 q Bq Mq), od_get_set_other by auto.
    rewrite (restored_nodes v us rt bsize ro h loc skip ms bags dest dest2 S Hd Hl Ha Wb Wd H2 q Bq Mq).
    destruct (Q0 q Bq Mq) as [X|(E1 & E2 & E3)]; [rewrite X; auto|]. rewrite E1, E2, E3.
    destruct (latest (map (contrib v) bags) q); reflexivity.
Qed.
Print Assumptions C36_cut.

(** The example of C36, stopped after the first character of data/bb. *)
Definition ex_cut : tree := od_set (U "data/bb") (NFile (U "b")) (ex_stopped 7).
Definition ex_cut_rerun : tree :=
  got [] (restore ex_env true true (fun _ => U "1 kB") false ex_head (U "/bags/two") ex_cut).

Lemma ex_is_cut : cut ex_env ex_skip ex_head ex_aggregate [] (U "data/bb") (U "bb") (U "b") ex_cut.
Proof.
  apply in_file with (bs1 := [{| rb_loc := U "/bags/two"; rb_tree := ex_two |}])
    (b := {| rb_loc := U "/bags/one"; rb_tree := ex_one |}) (bs2 := []) (t0 := [])
    (t := got [] (restore_from ex_env false ex_skip {| rb_loc := U "/bags/two"; rb_tree := ex_two |} []))
    (k := 7%nat) (dir := U "data") (f := U "bb") (d0 := ex_stopped 7) (rest := U "b")
    (updated := match foldM (restore_item false ex_one) (firstn 7 (items_of ex_skip ex_one))
      (got [] (restore_from ex_env false ex_skip {| rb_loc := U "/bags/two"; rb_tree := ex_two |} []), []) with Ok (_, u) => u | Err _ => [] end).
  - vm_compute; reflexivity.
  - reflexivity.
  - cbn [foldM]. vm_compute; reflexivity.
  - discriminate.
  - vm_compute; reflexivity.
  - vm_compute; reflexivity.
  - reflexivity.
  - vm_compute; reflexivity.
  - vm_compute; reflexivity.
  - reflexivity.
  - vm_compute; reflexivity.
Qed.

Theorem C36_cut_refuted : exists v h loc skip ms bags p c part d dest1 dest2,
  plain_algos v /\ hb_del h = None /\
  head_lists false h = Ok (skip, ms) /\ aggregation v h loc ms bags /\
  Forall (fun b => wf_tree (rb_tree b)) bags /\
  cut v skip h bags [] p c part d /\
  restore v true true (fun _ => U "1 kB") false h loc d = Ok dest1 /\
  restore v true true (fun _ => U "1 kB") false h loc [] = Ok dest2 /\
  ~ bag_file v p /\ ~ multibag_path p /\
  read p dest1 = Some part /\ read p dest2 = Some c /\ part <> c.
Proof.
  exists ex_env, ex_head, (U "/bags/two"), ex_skip, ex_members, ex_aggregate, (U "data/bb"), (U "bb"), (U "b"), ex_cut, ex_cut_rerun, ex_restored.
  destruct C33_case as (A1 & A2 & A3 & A4 & A5 & A6 & _). split; [exact A1|]. split; [exact A2|]. split; [exact A3|].
  split; [exact A4|]. split; [eapply Forall_impl; [|exact A5]; intros b [? ?]; auto|].
  split; [exact ex_is_cut|]. split; [vm_compute; reflexivity|]. split; [exact A6|]. clear.
  split.
  { intros [E|[E|(a & I & H)]]; try discriminate. destruct I as [<-|[<-|[]]]; destruct H as [H|H]; discriminate. }
  split; [intros [E|(r & E)]; discriminate|].
  split; [vm_compute; reflexivity|]. split; [vm_compute; reflexivity|discriminate].
Qed.
Print Assumptions C36_cut_refuted.

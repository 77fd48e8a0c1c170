(** * Lemmas on restoring: the restored tree *)

Require Import String NArith PeanoNat Bool List Lia Permutation.
From Verif Require Import PyBase PyFacts Tsv TsvProofs Fs FsFacts HeadBag BagIt BagItProofs Split SplitProofs2 SplitApply SplitApplyProofs SplitApplyProofs2 SplitApplyProofs8 Restore RestoreProofs RestoreProofs2.
Import ListNotations.
Open Scope N_scope.

Lemma single_good f : forallb (fun c => negb (c =? SLASH)) f = true -> f <> [] -> f <> [DOT] -> f <> [DOT; DOT] -> good_path f.
Proof.
  intros H A B C. apply good_path_single; [|repeat split; auto].
  intros I. rewrite forallb_forall in H. specialize (H _ I). rewrite N.eqb_refl in H. discriminate.
Qed.

Lemma baginfo_good : good_path F_baginfo.
Proof. apply single_good; [reflexivity|discriminate..]. Qed.
Lemma fetch_good : good_path F_fetch.
Proof. apply single_good; [reflexivity|discriminate..]. Qed.
Lemma multibag_good : good_path MULTIBAG.
Proof. apply single_good; [reflexivity|discriminate..]. Qed.

(** ** One bag *)

(** What a bag at [rb_loc] contributes: nothing if it is the destination. *)
Definition contrib (v : env) (b : rbag) : tree := if streq (rb_loc b) (e_dest v) then [] else rb_tree b.

Lemma wf_contrib v b : wf_tree (rb_tree b) -> wf_tree (contrib v b).
Proof. intros W. unfold contrib. destruct (streq _ _); [apply wf_nil|auto]. Qed.

Lemma restore_from_nodes v skip b dest dest' : sane v -> ~ In [] skip -> wf_tree (rb_tree b) -> wf_tree dest ->
  restore_from v false skip b dest = Ok dest' ->
  wf_tree dest' /\
  forall q, ~ special v q -> od_get q dest' = match od_get q dest with
                                              | Some n => Some n
                                              | None => if gone skip q then None else od_get q (contrib v b)
                                              end.
Proof.
  intros S N0 Wb Wd H. unfold restore_from in H. unfold contrib. destruct (streq (rb_loc b) (e_dest v)).
  - inversion H; subst. split; auto. intros q _. destruct (od_get q dest'); auto. destruct (gone skip q); reflexivity.
  - apply bind_ok in H. destruct H as ([info es] & Ho & H). apply bind_ok in H. destruct H as ([t u] & Hc & H).
    destruct (copy_nodes _ _ _ _ _ N0 Wb Wd Hc) as [Wt Q]. destruct u as [|x u].
    + inversion H; subst. split; auto.
    + assert (Al : forall a p, checksum es a p <> None -> In a (e_algos v)) by (intros; eapply open_algs; eauto).
      assert (I : inner_nodup es). { apply open_bag_ok in Ho. destruct Ho as (? & ? & ? & _ & _ & _ & Ho). eapply load_inner; eauto. }
      destruct (update_manifests_ok v es _ _ _ S Wt I Al H) as (W' & F & _). split; auto.
      intros q Sq. rewrite (F q Sq). apply Q.
Qed.

(** ** All bags, in the order in which they are visited *)

Definition first_of (ts : list tree) (q : pystr) : option node :=
  fold_right (fun t acc => match od_get q t with Some n => Some n | None => acc end) None ts.

Lemma restore_bags_nodes v skip bs : forall dest dest', sane v -> ~ In [] skip ->
  Forall (fun b => wf_tree (rb_tree b)) bs -> wf_tree dest ->
  foldM (fun d b => restore_from v false skip b d) bs dest = Ok dest' ->
  wf_tree dest' /\
  forall q, ~ special v q -> od_get q dest' = match od_get q dest with
                                              | Some n => Some n
                                              | None => if gone skip q then None else first_of (map (contrib v) bs) q
                                              end.
Proof.
  induction bs as [|b bs IH]; intros dest dest' S N0 Wb Wd H; cbn [foldM] in H.
  - inversion H; subst. split; auto. intros q _. destruct (od_get q dest'); auto. destruct (gone skip q); reflexivity.
  - apply bind_ok in H. destruct H as (t & H1 & H2). inversion Wb as [|? ? Wb1 Wbs]; subst.
    destruct (restore_from_nodes v skip b dest t S N0 Wb1 Wd H1) as [Wt Q1].
    destruct (IH _ _ S N0 Wbs Wt H2) as [W' Q2]. split; auto. intros q Sq. rewrite (Q2 q Sq), (Q1 q Sq).
    destruct (od_get q dest); auto. cbn [map first_of fold_right]. destruct (gone skip q); auto.
Qed.

Lemma members_bags v skip names : forall bs dest, Forall2 (fun n b => e_find v n = Some b) names bs ->
  foldM (restore_member v false skip) names dest = foldM (fun d b => restore_from v false skip b d) bs dest.
Proof.
  induction names as [|n names IH]; intros bs dest F; inversion F as [|? b ? bs' Hn Hs]; subst; [reflexivity|].
  cbn [foldM]. unfold restore_member at 1. rewrite Hn. destruct (restore_from v false skip b dest); cbn [bind]; auto.
Qed.

Lemma members_found v skip names : forall dest dest', foldM (restore_member v false skip) names dest = Ok dest' ->
  exists bs, Forall2 (fun n b => e_find v n = Some b) names bs.
Proof.
  induction names as [|n names IH]; intros dest dest' H; [exists []; constructor|].
  cbn [foldM] in H. apply bind_ok in H. destruct H as (t & H1 & H2). unfold restore_member in H1.
  destruct (e_find v n) as [b|] eqn:E; [|discriminate]. destruct (IH _ _ H2) as [bs F]. exists (b :: bs). constructor; auto.
Qed.

(** ** The end of the restoration *)

Definition touched (v : env) (q : pystr) : Prop := special v q \/ q = F_baginfo \/ q = F_fetch.

Lemma start_info_nodes h dest dest' : wf_tree dest -> start_info h dest = Ok dest' ->
  wf_tree dest' /\ forall q, q <> F_baginfo -> od_get q dest' = od_get q dest.
Proof.
  intros W H. unfold start_info in H. destruct (read _ (hb_tree h)) as [c|].
  - split; [eapply (run_op_wf dest (OWrite _ _)); [apply baginfo_good|auto|exact H]|].
    apply write_file_ok in H. subst. intros q D. apply od_get_set_other. auto.
  - inversion H; subst. auto.
Qed.

Lemma restore_fetch_nodes v names dest dest' : wf_tree dest -> restore_fetch v names dest = Ok dest' ->
  wf_tree dest' /\ forall q, q <> F_fetch -> od_get q dest' = od_get q dest.
Proof.
  intros W H. unfold restore_fetch in H. apply bind_ok in H. destruct H as (d & _ & H). destruct d as [|x d].
  - inversion H; subst. auto.
  - split; [eapply (run_op_wf dest (OWrite _ _)); [apply fetch_good|auto|exact H]|].
    apply write_file_ok in H. subst. intros q D. apply od_get_set_other. auto.
Qed.

Lemma save_nodes v algs i dest dest' : sane v -> (forall a, In a algs -> In a (e_algos v)) -> wf_tree dest ->
  save v algs i dest = Ok dest' ->
  wf_tree dest' /\ (forall q, ~ touched v q -> od_get q dest' = od_get q dest) /\
  (forall a, od_get (man_name K_man a) dest' = od_get (man_name K_man a) dest) /\
  od_get F_fetch dest' = od_get F_fetch dest.
Proof.
  intros S A W H. unfold save in H. apply bind_ok in H. destruct H as (t & H1 & H). apply bind_ok in H. destruct H as (t' & H2 & H).
  apply bind_ok in H. destruct H as (_ & _ & H). inversion H; subst. clear H.
  assert (Wt : wf_tree t) by (eapply (run_op_wf dest (OWrite _ _)); [apply baginfo_good|auto|exact H1]).
  apply write_file_ok in H1.
  assert (Ft : forall q, q <> F_baginfo -> od_get q t = od_get q dest) by (intros; subst t; apply od_get_set_other; auto).
  clear H1. assert (G : wf_tree dest' /\ forall q, (forall a, In a algs -> q <> man_name K_tag a) -> od_get q dest' = od_get q t).
  { clear Ft W. revert t Wt H2. induction algs as [|a algs IH]; intros t Wt H; cbn [foldM] in H.
    - inversion H; subst. auto.
    - apply bind_ok in H. destruct H as (t1 & H1 & H2).
      assert (W1 : wf_tree t1).
      { eapply (run_op_wf t (OWrite _ _)); [|auto|exact H1]. apply man_good; [right; left; auto|]. apply S, A; left; auto. }
      destruct (IH (fun x I => A x (or_intror I)) t1 W1 H2) as [W2 F]. split; auto.
      intros q D. rewrite F by (intros; apply D; right; auto). apply write_file_ok in H1. subst t1.
      apply od_get_set_other. apply D. left; auto. }
  destruct G as [W' G]. split; auto. split; [|split].
  - intros q T. rewrite G, Ft; auto.
    + intros ->. apply T. right; left; auto.
    + intros a Ia ->. apply T. left. exists K_tag, a. split; [right; left; auto|]. auto.
  - intros a. rewrite G, Ft; auto; [discriminate|]. intros. apply man_tag_differ.
  - rewrite G, Ft; auto; [discriminate|]. intros. discriminate.
Qed.

Lemma rmtree_nodes d t t' : wf_tree t -> rmtree d t = Ok t' ->
  od_get d t = Some NDir /\ wf_tree t' /\
  forall q, od_get q t' = if streq q d || below d q then None else od_get q t.
Proof.
  intros W H. unfold rmtree in H. destruct (od_get d t) as [[|]|] eqn:E; inversion H; subst; clear H. split; auto.
  assert (Q : forall q, od_get q (filter (fun kv => negb (streq (fst kv) d || below d (fst kv))) t) =
                        if streq q d || below d q then None else od_get q t).
  { intros q. clear. induction t as [|[k n] t IH]; cbn [filter od_get fst].
    - destruct (streq q d || below d q); reflexivity.
    - destruct (streq k d || below d k) eqn:K; cbn [negb].
      + rewrite IH. destruct (streq_reflect q k) as [->|]; [rewrite K|]; reflexivity.
      + cbn [od_get]. rewrite IH. destruct (streq_reflect q k) as [->|]; [rewrite K|]; reflexivity. }
  split; auto. destruct W as [A B C].
  assert (Nd : d <> []). { intros ->. rewrite Forall_forall in B. specialize (B _ (od_get_some_key _ _ _ E)). apply good_path_nonempty in B. congruence. }
  constructor.
  - apply NoDup_map_filter. exact A.
  - rewrite Forall_forall in B |- *. intros p I. apply B. unfold od_keys in *. rewrite in_map_iff in *.
    destruct I as (kv & <- & I). apply filter_In in I. destruct I as [I _]. eauto.
  - intros p I. assert (I' : In p (od_keys t) /\ streq p d || below d p = false).
    { unfold od_keys in *. rewrite in_map_iff in *. destruct I as (kv & <- & I). apply filter_In in I. destruct I as [I J].
      apply negb_true_iff in J. split; eauto. }
    destruct I' as [Ip Jp]. specialize (C p Ip). rewrite Forall_forall in B. specialize (B p Ip).
    apply is_dir_cases in C. apply is_dir_cases. destruct C as [C|C]; auto. right. unfold dirp in *. rewrite Q.
    apply orb_false_iff in Jp. destruct Jp as [J1 J2].
    destruct (streq (dirname p) d || below d (dirname p)) eqn:J; auto. exfalso.
    assert (below d p = true); [|congruence]. apply below_dirname; auto. apply orb_true_iff in J.
    destruct J as [J|J]; auto. apply streq_eq in J. auto.
Qed.

Lemma algorithms_in v t algs : algorithms v t = Ok algs -> forall a, In a algs -> In a (e_algos v).
Proof.
  unfold algorithms. destruct (read F_bagit t); [|discriminate]. intros H. apply bind_ok in H.
  destruct H as ([v97 v1] & _ & H). inversion H; subst. intros a I. apply (proj1 (in_set_of _ _)) in I.
  apply in_map_iff in I. destruct I as ([x c] & <- & I). apply in_bag_manifests in I. tauto.
Qed.

(** The part of the tree that goes with the multibag directory. *)
Definition in_multibag (q : pystr) : bool := streq q MULTIBAG || below MULTIBAG q.

Lemma finish_nodes v us rt bsize dest dest' : sane v -> wf_tree dest ->
  finish v us rt bsize dest = Ok dest' ->
  wf_tree dest' /\ (rt = true -> od_get MULTIBAG dest = Some NDir) /\
  (forall q, (~ touched v q \/ (exists a, q = man_name K_man a) \/ q = F_fetch) ->
     od_get q dest' = if rt && in_multibag q then None else od_get q dest).
Proof.
  intros S W H. unfold finish in H. apply bind_ok in H. destruct H as ([info es] & _ & H).
  apply bind_ok in H. destruct H as (algs & Ha & H). pose proof (algorithms_in _ _ _ Ha) as A.
  apply bind_ok in H. destruct H as ([i t] & H1 & H).
  assert (SV : forall i t t', wf_tree t -> save v algs i t = Ok t' -> wf_tree t' /\
    forall q, (~ touched v q \/ (exists a, q = man_name K_man a) \/ q = F_fetch) -> od_get q t' = od_get q t).
  { intros i0 t0 t0' W0 H0. destruct (save_nodes v algs i0 t0 t0' S A W0 H0) as (X1 & X2 & X3 & X4). split; auto.
    intros q [Q|[[a ->]| ->]]; auto. }
  assert (G : wf_tree t /\ (rt = true -> od_get MULTIBAG dest = Some NDir) /\
    (forall q, (~ touched v q \/ (exists a, q = man_name K_man a) \/ q = F_fetch) ->
     od_get q t = if rt && in_multibag q then None else od_get q dest)).
  { destruct rt.
    - apply bind_ok in H1. destruct H1 as (t1 & R & H1). cbv zeta in H1. apply bind_ok in H1. destruct H1 as (t2 & R2 & H1).
      inversion H1; subst. destruct (rmtree_nodes _ _ _ W R) as (D & W1 & Q). destruct (SV _ _ _ W1 R2) as [W2 Q2].
      split; auto. split; auto. intros q T. rewrite (Q2 q T), Q. reflexivity.
    - inversion H1; subst. split; auto. split; [discriminate|]. reflexivity. }
  destruct G as (Wt & D & Q). destruct us.
  - apply bind_ok in H. destruct H as ([sz n] & _ & H). cbv zeta in H. apply bind_ok in H. destruct H as (t1 & R1 & R2).
    destruct (SV _ _ _ Wt R1) as [W1 Q1]. destruct (SV _ _ _ W1 R2) as [W2 Q2]. split; auto. split; auto.
    intros q T. rewrite (Q2 q T), (Q1 q T). auto.
  - inversion H; subst. auto.
Qed.

(** ** Restoring *)

Lemma skip_nonempty h skip : hb_del h = None -> snd (deleted_paths false h) = Ok skip -> ~ In [] skip.
Proof.
  intros D H I. unfold deleted_paths in H. rewrite D in H.
  unfold iter_deleted in H. destruct (read _ (hb_tree h)) as [c|].
  - cbn [snd] in H. inversion H; subst. apply (proj1 (in_set_of _ _)) in I. apply in_map_iff in I. destruct I as (l & E & I).
    apply filter_In in I. destruct I as [_ I]. unfold nonblank in I. unfold parse_deleted_04 in E. rewrite E in I. discriminate.
  - destruct (exists_ _ _); cbn [snd] in H; inversion H; subst. destruct I.
Qed.

Lemma head_lists_ok ro h skip ms : head_lists ro h = Ok (skip, ms) ->
  snd (deleted_paths false h) = Ok skip /\
  snd ((if ro then member_bags_ro else HeadBag.member_bags) false h) = Ok ms.
Proof.
  unfold head_lists. intros H. apply bind_ok in H. destruct H as (s & H1 & H). apply bind_ok in H. destruct H as (m & H2 & H).
  inversion H; subst. auto.
Qed.

Definition head_bag (h : hb) (loc : pystr) : rbag := {| rb_loc := loc; rb_tree := hb_tree h |}.

Lemma gather_nodes v ro h loc skip ms bs dest dest' : sane v -> ~ In [] skip ->
  head_lists ro h = Ok (skip, ms) -> Forall2 (fun n b => e_find v n = Some b) (others h ms) bs ->
  wf_tree (hb_tree h) -> Forall (fun b => wf_tree (rb_tree b)) bs -> wf_tree dest ->
  gather v ro h loc dest = Ok dest' ->
  wf_tree dest' /\
  forall q, ~ special v q -> q <> F_baginfo ->
    od_get q dest' = match od_get q dest with
                     | Some n => Some n
                     | None => if gone skip q then None else first_of (map (contrib v) (head_bag h loc :: bs)) q
                     end.
Proof.
  intros S N0 Hl F2 Wh Wb Wd H. unfold gather in H. rewrite Hl in H. cbn [bind] in H.
  apply bind_ok in H. destruct H as (t & H1 & H). apply bind_ok in H. destruct H as (t1 & H2 & H).
  rewrite (members_bags v skip _ _ _ F2) in H.
  assert (H' : foldM (fun d b => restore_from v false skip b d) (head_bag h loc :: bs) t = Ok dest').
  { cbn [foldM]. unfold head_bag. rewrite H2. exact H. }
  destruct (start_info_nodes _ _ _ Wd H1) as [Wt Q1].
  destruct (restore_bags_nodes v skip (head_bag h loc :: bs) t dest' S N0) as [W' Q]; auto.
  split; auto. intros q Sq Bq. rewrite (Q q Sq), (Q1 q Bq). reflexivity.
Qed.

Lemma restore_parts v us rt bsize ro h loc dest dest' : restore v us rt bsize ro h loc dest = Ok dest' ->
  exists skip ms t t1, head_lists ro h = Ok (skip, ms) /\ gather v ro h loc dest = Ok t /\
    match others h ms with [] => Ok t | ns => restore_fetch v ns t end = Ok t1 /\
    finish v us rt bsize t1 = Ok dest'.
Proof.
  unfold restore. intros H. apply bind_ok in H. destruct H as ([skip ms] & Hl & H).
  apply bind_ok in H. destruct H as (t & Hg & H). apply bind_ok in H. destruct H as (t1 & Hf & H).
  exists skip, ms, t, t1. auto.
Qed.

Lemma restore_found v us rt bsize ro h loc dest dest' skip ms : restore v us rt bsize ro h loc dest = Ok dest' ->
  head_lists ro h = Ok (skip, ms) ->
  exists bs, Forall2 (fun n b => e_find v n = Some b) (others h ms) bs.
Proof.
  intros H Hl. apply restore_parts in H. destruct H as (skip' & ms' & t & t1 & Hl' & Hg & _). rewrite Hl in Hl'. inversion Hl'; subst.
  unfold gather in Hg. rewrite Hl in Hg. cbn [bind] in Hg.
  apply bind_ok in Hg. destruct Hg as (x & _ & Hg). apply bind_ok in Hg. destruct Hg as (y & _ & Hg).
  eapply members_found; eauto.
Qed.

Lemma fetch_step_nodes v ns t t1 : wf_tree t -> match ns with [] => Ok t | x :: l => restore_fetch v (x :: l) t end = Ok t1 ->
  wf_tree t1 /\ forall q, q <> F_fetch -> od_get q t1 = od_get q t.
Proof.
  intros W H. destruct ns; [inversion H; subst; auto|]. eapply restore_fetch_nodes; eauto.
Qed.

Lemma restore_nodes v us rt bsize ro h loc skip ms bs dest dest' : sane v -> ~ In [] skip ->
  head_lists ro h = Ok (skip, ms) -> Forall2 (fun n b => e_find v n = Some b) (others h ms) bs ->
  wf_tree (hb_tree h) -> Forall (fun b => wf_tree (rb_tree b)) bs -> wf_tree dest ->
  restore v us rt bsize ro h loc dest = Ok dest' ->
  wf_tree dest' /\
  forall q, ~ touched v q ->
    od_get q dest' = if rt && in_multibag q then None else
                     match od_get q dest with
                     | Some n => Some n
                     | None => if gone skip q then None else first_of (map (contrib v) (head_bag h loc :: bs)) q
                     end.
Proof.
  intros S N0 Hl F2 Wh Wb Wd H. apply restore_parts in H. destruct H as (skip' & ms' & t & t1 & Hl' & Hg & Hf & Hn).
  rewrite Hl in Hl'. inversion Hl'; subst skip' ms'. clear Hl'.
  destruct (gather_nodes v ro h loc skip ms bs dest t S N0 Hl F2 Wh Wb Wd Hg) as [Wt Q].
  destruct (fetch_step_nodes _ _ _ _ Wt Hf) as [W1 Q1].
  destruct (finish_nodes v us rt bsize t1 dest' S W1 Hn) as (W' & _ & Qf). split; auto.
  intros q T. rewrite (Qf q (or_introl T)). destruct (rt && in_multibag q); auto.
  rewrite Q1 by (intros ->; apply T; right; right; auto). apply Q.
  - intros X. apply T. left; auto.
  - intros ->. apply T. right; left; auto.
Qed.

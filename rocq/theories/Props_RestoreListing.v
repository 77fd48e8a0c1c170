(** * Restoring does not depend on the order in which files are listed (C142) *)

Require Import String NArith ZArith PeanoNat Bool List Lia Permutation.
From Verif Require Import PyBase PyFacts Tsv Fs FsFacts Version HeadBag HeadBagProofs HeadBagProofs3 SplitApply SplitApplyProofs
  SplitApplyProofs6 Restore RestoreProofs RestoreProofs3 Props_SplitApply Props_Restore Props_Restore2 Props_Reproducible.
Import ListNotations.
Open Scope N_scope.

(** ** Specification *)

(** The same bag at the same place, listed in another order. *)
Definition relisted_bag (b b' : rbag) : Prop :=
  rb_loc b = rb_loc b' /\ Permutation (rb_tree b) (rb_tree b').

(** The same surroundings, where the member bags may be listed in another
    order. *)
Definition relisted_env (v v' : env) : Prop :=
  e_algos v = e_algos v' /\ e_dest v = e_dest v' /\
  forall n, match e_find v n, e_find v' n with
            | Some b, Some b' => relisted_bag b b'
            | None, None => True
            | _, _ => False
            end.

(** ** Proofs *)

Section Head.
  Variables (h : hb) (t' : tree).
  Hypothesis W : wf_tree (hb_tree h).
  Hypothesis P : Permutation (hb_tree h) t'.

  Lemma relisted_exists p : exists_ p (hb_tree h) = exists_ p t'.
  Proof. unfold exists_, is_file, is_dir. rewrite (listed_get _ _ W P). reflexivity. Qed.

  Lemma relisted_deleted : iter_deleted (set_tree h t') = iter_deleted h.
  Proof.
    unfold iter_deleted. cbn [hb_tree hb_info hb_reader set_tree]. rewrite (listed_read _ _ W P), relisted_exists. reflexivity.
  Qed.

  Lemma relisted_members : iter_member_bags (set_tree h t') = iter_member_bags h.
  Proof.
    unfold iter_member_bags. cbn [hb_tree hb_info hb_reader set_tree]. destruct (tag_dir_raw (hb_info h)) as [d|e]; cbn [bind]; [|reflexivity].
    rewrite (listed_read _ _ W P). reflexivity.
  Qed.

  Lemma relisted_lists ro : head_lists ro (set_tree h t') = head_lists ro h.
  Proof.
    unfold head_lists, deleted_paths. rewrite relisted_deleted. cbn [hb_del set_tree].
    assert (M : snd (member_bags_ro false (set_tree h t')) = snd (member_bags_ro false h)).
    { unfold member_bags_ro. rewrite relisted_members. cbn [hb_mem set_tree]. destruct (hb_mem h); [reflexivity|]. destruct (iter_member_bags h); reflexivity. }
    assert (M' : snd (HeadBag.member_bags false (set_tree h t')) = snd (HeadBag.member_bags false h)).
    { unfold HeadBag.member_bags. destruct (member_bags_ro false (set_tree h t')) as [h1 r1], (member_bags_ro false h) as [h2 r2].
      cbn [snd] in M. subst r2. destruct r1 as [l|[]]; reflexivity. }
    destruct ro; [rewrite M|rewrite M']; destruct (hb_del h); try reflexivity; destruct (iter_deleted h); reflexivity.
  Qed.
End Head.

Lemma relisted_contrib v v' b b' : relisted_env v v' -> relisted_bag b b' -> wf_tree (rb_tree b) ->
  forall p, od_get p (contrib v b) = od_get p (contrib v' b').
Proof.
  intros (_ & Ed & _) (El & P) W p. unfold contrib. rewrite El, Ed.
  destruct (streq (rb_loc b') (e_dest v')); [reflexivity|]. apply listed_get; assumption.
Qed.

Lemma relisted_aggregation v v' h t' loc ms bags : relisted_env v v' -> Permutation (hb_tree h) t' ->
  aggregation v h loc ms bags ->
  exists bags', aggregation v' (set_tree h t') loc ms bags' /\ Forall2 relisted_bag bags bags'.
Proof.
  intros (_ & _ & F) P (names & before & Hn & B & ->).
  assert (K : exists before', Forall2 (fun n b => e_find v' n = Some b) names before' /\ Forall2 relisted_bag before before').
  { clear Hn. induction B as [|n b names before Hb _ (l & L1 & L2)]; [exists []; split; constructor|].
    specialize (F n). rewrite Hb in F. destruct (e_find v' n) as [b'|] eqn:E; [|destruct F].
    exists (b' :: l). split; constructor; assumption. }
  destruct K as (before' & K1 & K2). exists (before' ++ [{| rb_loc := loc; rb_tree := t' |}]). split.
  - exists names, before'. cbn [hb_name set_tree hb_tree]. split; [exact Hn|split; [exact K1|reflexivity]].
  - apply Forall2_app; [exact K2|]. constructor; [|constructor]. split; [reflexivity|exact P].
Qed.

Lemma latest_same ts ts' p : Forall2 (fun t t' => od_get p t = od_get p t') ts ts' -> latest ts p = latest ts' p.
Proof.
  intros F. unfold latest. generalize (@None node). induction F as [|t t' ts ts' E _ IH]; intros a; [reflexivity|].
  cbn [fold_left]. rewrite E. apply IH.
Qed.

(** ** The theorem *)

(** Two restorations of an aggregation that succeed give the same files and
    directories, if all bags and the destination are the same but for the
    order in which they are listed; except for the tag files that the
    restoration writes itself. *)
Theorem C142_restored_partial : forall v v' us rt bsize bsize' ro h t' loc skip ms bags dest dest1 r r1,
  plain_algos v -> hb_del h = None ->
  head_lists ro h = Ok (skip, ms) -> aggregation v h loc ms bags ->
  Forall (fun b => wf_tree (rb_tree b)) bags -> wf_tree dest ->
  relisted_env v v' -> Permutation (hb_tree h) t' -> Permutation dest dest1 ->
  restore v us rt bsize ro h loc dest = Ok r ->
  restore v' us rt bsize' ro (set_tree h t') loc dest1 = Ok r1 ->
  forall p, ~ bag_file v p -> (rt = true -> ~ multibag_path p) -> od_get p r = od_get p r1.
Proof.
  intros v v' us rt bsize bsize' ro h t' loc skip ms bags dest dest1 r r1 S Hd Hl Ha Wb Wd Rv Ph Pd H H1 p Bp Mp.
  destruct (relisted_aggregation v v' h t' loc ms bags Rv Ph Ha) as (bags' & Ha' & F).
  assert (Wh : wf_tree (hb_tree h)).
  { destruct Ha as (names & before & _ & _ & ->). apply Forall_app in Wb. destruct Wb as [_ Wb]. inversion Wb; subst. assumption. }
  assert (S' : plain_algos v') by (unfold plain_algos; destruct Rv as (<- & _); exact S).
  assert (Hl' : head_lists ro (set_tree h t') = Ok (skip, ms)) by (rewrite relisted_lists; assumption).
  assert (Wb' : Forall (fun b => wf_tree (rb_tree b)) bags').
  { clear - F Wb. induction F as [|b b' l l' [_ P] _ IH]; [constructor|]. inversion Wb; subst. constructor; [eapply perm_wf; eassumption|auto]. }
  assert (Bp' : ~ bag_file v' p) by (unfold bag_file; destruct Rv as (<- & _); exact Bp).
  rewrite (restored_nodes v us rt bsize ro h loc skip ms bags dest r S Hd Hl Ha Wb Wd H p Bp Mp).
  rewrite (restored_nodes v' us rt bsize' ro (set_tree h t') loc skip ms bags' dest1 r1 S' Hd Hl' Ha' Wb' (perm_wf _ _ Wd Pd) H1 p Bp' Mp).
  rewrite (listed_get dest dest1 Wd Pd p).
  destruct (od_get p dest1); [reflexivity|]. destruct (gone skip p); [reflexivity|]. apply latest_same.
  clear - F Wb Rv. induction F as [|b b' l l' R _ IH]; [constructor|]. inversion Wb; subst. cbn [map]. constructor; [|auto].
  apply (relisted_contrib v v' b b' Rv R). assumption.
Qed.

(** The manifests have the same checksums for the restored payload. What
    C37_checksums_partial asks for is asked for here too. *)
Lemma relisted_records t t' a p c : wf_tree t -> Permutation t t' -> records t a p c <-> records t' a p c.
Proof. intros W P. unfold records. rewrite (listed_read _ _ W P). reflexivity. Qed.

Lemma relisted_plain v v' t t' : e_algos v = e_algos v' -> wf_tree t -> Permutation t t' ->
  plain_manifests v t -> plain_manifests v' t'.
Proof.
  intros Ea W P M a p c Ia. rewrite <- Ea in Ia. destruct (M a p c Ia) as [M1 M2]. split.
  - intros R. apply M1. apply (relisted_records t t' a p c W P). exact R.
  - intros R. apply M2. unfold tag_records in *. rewrite (listed_read _ _ W P). exact R.
Qed.

Theorem C142_checksums_partial : forall v v' us rt bsize bsize' ro h t' loc skip ms bags r r1,
  plain_algos v -> hb_del h = None ->
  head_lists ro h = Ok (skip, ms) -> aggregation v h loc ms bags ->
  Forall (fun b => wf_tree (rb_tree b) /\ rb_loc b <> e_dest v /\ plain_manifests v (rb_tree b)) bags ->
  (forall a, In a (e_algos v) -> ~ deleted skip (U "manifest-" ++ a ++ U ".txt")) ->
  (forall b a, In b bags -> In a (e_algos v) -> is_file (U "manifest-" ++ a ++ U ".txt") (rb_tree b) = true ->
     is_file (U "manifest-" ++ a ++ U ".txt") (hb_tree h) = true) ->
  relisted_env v v' -> Permutation (hb_tree h) t' ->
  restore v us rt bsize ro h loc [] = Ok r ->
  restore v' us rt bsize' ro (set_tree h t') loc [] = Ok r1 ->
  forall a p, In a (e_algos v) -> payload p ->
    (exists before b after, bags = before ++ b :: after /\ is_file p (rb_tree b) = true /\
       Forall (fun b => od_get p (rb_tree b) = None) after /\ ~ deleted skip p /\
       ((exists c, records (rb_tree b) a p c) \/ (forall c, ~ records (hb_tree h) a p c))) \/
    deleted skip p \/ Forall (fun b => is_file p (rb_tree b) = false) bags ->
  forall c, records r a p c <-> records r1 a p c.
Proof.
  intros v v' us rt bsize bsize' ro h t' loc skip ms bags r r1 S Hd Hl Ha Wb Nd Hm Rv Ph H H1 a p Ia Pp Hp c.
  destruct (relisted_aggregation v v' h t' loc ms bags Rv Ph Ha) as (bags' & Ha' & F).
  assert (Wh : wf_tree (hb_tree h)).
  { destruct Ha as (names & before & _ & _ & ->). apply Forall_app in Wb. destruct Wb as [_ Wb]. inversion Wb as [|? ? [X _] _]; subst. exact X. }
  destruct Rv as (Ea & Ed & Ef).
  assert (S' : plain_algos v') by (unfold plain_algos; rewrite <- Ea; exact S).
  assert (Hl' : head_lists ro (set_tree h t') = Ok (skip, ms)) by (rewrite relisted_lists; assumption).
  assert (Wb' : Forall (fun b => wf_tree (rb_tree b) /\ rb_loc b <> e_dest v' /\ plain_manifests v' (rb_tree b)) bags').
  { clear - F Wb Ea Ed. induction F as [|b b' l l' [El P] _ IH]; [constructor|]. inversion Wb as [|? ? (X1 & X2 & X3) Wl]; subst.
    constructor; [|auto]. split; [eapply perm_wf; eassumption|]. split; [congruence|]. eapply relisted_plain; eassumption. }
  assert (Nd' : forall a, In a (e_algos v') -> ~ deleted skip (U "manifest-" ++ a ++ U ".txt")) by (rewrite <- Ea; exact Nd).
  assert (Isf : forall b b' q, relisted_bag b b' -> wf_tree (rb_tree b) -> is_file q (rb_tree b) = is_file q (rb_tree b')).
  { intros b b' q [_ P] W. unfold is_file. rewrite (listed_get _ _ W P). reflexivity. }
  assert (Back : forall b', In b' bags' -> exists b, In b bags /\ relisted_bag b b' /\ wf_tree (rb_tree b)).
  { clear - F Wb. induction F as [|b b' l l' R _ IH]; intros x I0; [destruct I0|]. inversion Wb as [|? ? (X1 & _) Wl]; subst.
    destruct I0 as [<-|I0]; [exists b; split; [left; reflexivity|auto]|]. destruct (IH Wl x I0) as (b0 & J & K). exists b0. split; [right; exact J|exact K]. }
  assert (Hm' : forall b a, In b bags' -> In a (e_algos v') -> is_file (U "manifest-" ++ a ++ U ".txt") (rb_tree b) = true ->
     is_file (U "manifest-" ++ a ++ U ".txt") (hb_tree (set_tree h t')) = true).
  { intros b' a0 I0 Ia0 X. destruct (Back b' I0) as (b & Ib & R & W). rewrite <- Ea in Ia0.
    rewrite <- (Isf b b' _ R W) in X. pose proof (Hm b a0 Ib Ia0 X) as Y. cbn [hb_tree set_tree]. unfold is_file in *. rewrite <- (listed_get _ _ Wh Ph). exact Y. }
  assert (Ia' : In a (e_algos v')) by (rewrite <- Ea; exact Ia).
  destruct (C37_checksums_partial v us rt bsize ro h loc skip ms bags r S Hd Hl Ha Wb Nd Hm H a p Ia Pp) as [A1 A2].
  destruct (C37_checksums_partial v' us rt bsize' ro (set_tree h t') loc skip ms bags' r1 S' Hd Hl' Ha' Wb' Nd' Hm' H1 a p Ia' Pp) as [B1 B2].
  cbn [hb_tree set_tree] in B1, B2.
  destruct Hp as [(before & b & after & Eb & Fb & Na & Nx & Rc)|Hp].
  - subst bags. apply Forall2_app_inv_l in F. destruct F as (bef' & l2 & _ & F2 & ->). inversion F2 as [|? b' ? aft' Rb Fa]; subst.
    assert (Wbb : wf_tree (rb_tree b)).
    { apply Forall_app in Wb. destruct Wb as [_ Wb]. inversion Wb as [|? ? (X & _) _]; subst. exact X. }
    assert (Waf : Forall (fun b => wf_tree (rb_tree b)) after).
    { apply Forall_app in Wb. destruct Wb as [_ Wb]. inversion Wb as [|? ? _ Wl]; subst. eapply Forall_impl; [|exact Wl]. intros x (X & _). exact X. }
    rewrite (A1 before b after eq_refl Fb Na Nx Rc c).
    rewrite (B1 bef' b' aft' eq_refl); [apply relisted_records; [exact Wbb|apply Rb]| | |exact Nx|].
    + rewrite <- (Isf b b' p Rb Wbb). exact Fb.
    + clear - Fa Na Waf. induction Fa as [|x x' l l' [_ P] _ IH]; [constructor|]. inversion Na; subst. inversion Waf; subst. constructor; [|auto].
      rewrite <- (listed_get (rb_tree x)); assumption.
    + destruct Rc as [[c0 Rc]|Rc]; [left; exists c0; apply (relisted_records (rb_tree b)); [exact Wbb|apply Rb|exact Rc]|].
      right. intros c0 X. apply (Rc c0). apply (relisted_records (hb_tree h) t'); assumption.
  - rewrite (A2 Hp c). rewrite B2; [apply relisted_records; assumption|]. destruct Hp as [Hp|Hp]; [left; exact Hp|right].
    apply Forall_forall. intros b' I0. destruct (Back b' I0) as (b & Ib & R & W). rewrite <- (Isf b b' p R W).
    rewrite Forall_forall in Hp. apply Hp, Ib.
Qed.

(** A case: the bags of C33_case listed from the end. *)
Definition ex_env_rev : env :=
  {| e_algos := e_algos ex_env; e_version := e_version ex_env; e_danger := e_danger ex_env;
     e_hash := e_hash ex_env; e_dest := e_dest ex_env;
     e_find := fun n => if streq n (U "one") then Some {| rb_loc := U "/bags/one"; rb_tree := rev ex_one |} else None |}.
Definition ex_restored_rev : tree :=
  got [] (restore ex_env_rev true true (fun _ => U "1 kB") false (set_tree ex_head (rev ex_two)) (U "/bags/two") []).

Example C142_case :
  relisted_env ex_env ex_env_rev /\ Permutation (hb_tree ex_head) (rev ex_two) /\
  restore ex_env_rev true true (fun _ => U "1 kB") false (set_tree ex_head (rev ex_two)) (U "/bags/two") [] = Ok ex_restored_rev /\
  read (U "data/a") ex_restored_rev = Some (U "new") /\ read (U "data/bb") ex_restored_rev = Some (U "bb").
Proof.
  split; [|split; [apply Permutation_rev|vm_compute; repeat split; reflexivity]].
  split; [reflexivity|]. split; [reflexivity|]. intros n. cbn [ex_env ex_env_rev e_find].
  destruct (streq n (U "one")); [|exact Logic.I]. split; [reflexivity|apply Permutation_rev].
Qed.

(** Not so for the files that a restoration writes: the lines of the
    manifests are in the order in which the bags were listed. *)
Theorem C142_refuted : exists v v' h t' loc skip ms bags r r1 c c1,
  plain_algos v /\ hb_del h = None /\ head_lists false h = Ok (skip, ms) /\ aggregation v h loc ms bags /\
  Forall (fun b => wf_tree (rb_tree b) /\ rb_loc b <> e_dest v) bags /\
  relisted_env v v' /\ Permutation (hb_tree h) t' /\
  restore v true true (fun _ => U "1 kB") false h loc [] = Ok r /\
  restore v' true true (fun _ => U "1 kB") false (set_tree h t') loc [] = Ok r1 /\
  read (U "manifest-md5.txt") r = Some c /\ read (U "manifest-md5.txt") r1 = Some c1 /\ c <> c1 /\
  Permutation (split_on LF c) (split_on LF c1).
Proof.
  destruct C33_case as (A1 & A2 & A3 & A4 & A5 & A6 & _). destruct C142_case as (B1 & B2 & B3 & _).
  exists ex_env, ex_env_rev, ex_head, (rev ex_two), (U "/bags/two"), ex_skip, ex_members, ex_aggregate, ex_restored, ex_restored_rev,
    (txt [U "o3 data/bb"; U "o5 data/oldx"; U "t1 data/a"; U "t2 data/c"]),
    (txt [U "o5 data/oldx"; U "o3 data/bb"; U "t2 data/c"; U "t1 data/a"]).
  repeat (split; [assumption|]). split; [vm_compute; reflexivity|]. split; [vm_compute; reflexivity|].
  split; [intros X; discriminate X|]. vm_compute. eapply perm_trans; [apply perm_swap|]. apply perm_skip, perm_skip, perm_swap.
Qed.

Print Assumptions C142_restored_partial.
Print Assumptions C142_checksums_partial.
Print Assumptions C142_refuted.

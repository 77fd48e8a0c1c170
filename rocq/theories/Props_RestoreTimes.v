(** C104: modification times in restored bags *)
Require Import String NArith ZArith PeanoNat Bool List Lia.
From Verif Require Import PyBase PyFacts Tsv Fs FsFacts HeadBag HeadBagProofs3 BagIt Split SplitApply SplitApplyProofs8 Props_SplitApply Restore RestoreProofs RestoreProofs2 RestoreProofs3 Props_Restore RestoreTimes RestoreTimesProofs.
Import ListNotations.
Open Scope N_scope.

(** A restored path has the modification time of the copy that is restored,
    that of the last bag which has the path. What was in the destination
    keeps its time. This holds for files, and for directories with a time
    other than zero. *)
Theorem C104_times_partial : forall clock mt v us rt bsize ro h loc skip ms bags w w',
  plain_algos v -> hb_del h = None -> head_lists ro h = Ok (skip, ms) -> aggregation v h loc ms bags ->
  Forall (fun b => wf_tree (rb_tree b) /\ rb_loc b <> e_dest v) bags -> wf_tree (w_tree w) ->
  t_restore clock mt v us rt bsize ro h loc w = Ok w' ->
  forall p, p <> [] -> ~ bag_file v p -> (rt = true -> ~ multibag_path p) ->
    (forall n, od_get p (w_tree w) = Some n -> n <> NDir \/ w_mtime w p <> 0%Z -> w_mtime w' p = w_mtime w p) /\
    (forall n before b after m, od_get p (w_tree w) = None -> od_get p (w_tree w') = Some n ->
       bags = before ++ b :: after -> od_get p (rb_tree b) <> None -> Forall (fun x => od_get p (rb_tree x) = None) after ->
       mt (rb_loc b) p = Some m -> n <> NDir \/ m <> 0%Z -> w_mtime w' p = m).
Proof.
  intros clock mt v us rt bsize ro h loc skip ms bags w w' S Hd Hl Ha Wb Wd H p P Bp Mp.
  destruct (aggregation_others _ _ _ _ _ Ha) as (bs & F2 & Eb).
  assert (N0 : ~ In [] skip) by (apply head_lists_ok in Hl; eapply skip_nonempty; [exact Hd|apply Hl]).
  assert (Wb' : Forall (fun b => wf_tree (rb_tree b) /\ rb_loc b <> e_dest v) (head_bag h loc :: bs)).
  { apply Forall_rev in Wb. rewrite Eb, rev_involutive in Wb. exact Wb. }
  inversion Wb' as [|? ? [Wh _] Wbs]; subst x l.
  assert (M : rt && in_multibag p = false).
  { destruct rt; auto. cbn [andb]. destruct (in_multibag p) eqn:E; auto. apply multibag_iff in E. exfalso. apply Mp; auto. }
  assert (Wbs' : Forall (fun b => wf_tree (rb_tree b)) bs) by (eapply Forall_impl; [|exact Wbs]; cbn beta; tauto).
  destruct (restore_times clock mt v us rt bsize ro h loc skip ms bs w w' S N0 Hl F2 Wh Wbs' Wd H) as [_ Q].
  destruct (Q p P) as [A B]; [rewrite <- bag_file_iff; exact Bp|exact M|]. split; [exact A|].
  intros n before b after m E E' Es Gb Fa Em K.
  assert (Ct : forall x, In x bags -> contrib v x = rb_tree x).
  { intros x Ix. rewrite Forall_forall in Wb. destruct (Wb x Ix) as [_ L]. unfold contrib. destruct (streq_reflect (rb_loc x) (e_dest v)); [congruence|reflexivity]. }
  apply (B n (rev after) b (rev before) m); auto.
  - rewrite <- (rev_involutive (head_bag h loc :: bs)), <- Eb, Es, rev_app_distr. cbn [rev]. rewrite <- app_assoc. reflexivity.
  - apply Forall_forall. intros x Ix. apply in_rev in Ix. rewrite Forall_forall in Fa. rewrite Ct; [apply Fa; exact Ix|]. rewrite Es. apply in_or_app. right; right; exact Ix.
  - rewrite Ct; [exact Gb|]. rewrite Es. apply in_or_app. right; left; reflexivity.
Qed.
Print Assumptions C104_times_partial.

(** Copying the times has no other effect, as long as they are known: content
    and errors are those of C33 to C40. *)
Theorem C104_content : forall clock mt v us rt bsize ro h loc skip ms bags w,
  head_lists ro h = Ok (skip, ms) -> aggregation v h loc ms bags ->
  Forall (fun b => wf_tree (rb_tree b) /\ forall p, od_get p (rb_tree b) <> None -> mt (rb_loc b) p <> None) bags ->
  restore v us rt bsize ro h loc (w_tree w) =
    match t_restore clock mt v us rt bsize ro h loc w with Ok w' => Ok (w_tree w') | Err e => Err e end.
Proof.
  intros clock mt v us rt bsize ro h loc skip ms bags w Hl Ha K. destruct (aggregation_others _ _ _ _ _ Ha) as (bs & F2 & Eb).
  destruct (sim_restore clock mt True v us rt bsize ro h loc skip ms bs w Hl F2) as [_ S].
  { apply Forall_rev in K. rewrite Eb, rev_involutive in K. eapply Forall_impl; [|exact K]. cbn beta. intros b [Wb Kb]. split; [exact Wb|]. intros _. exact Kb. }
  destruct (t_restore clock mt v us rt bsize ro h loc w); cbn [sim] in S; [exact S|]. destruct S as [S|S]; [exact S|tauto].
Qed.
Print Assumptions C104_content.

(** An example: the clock begins at 1000; the files of the first bag are from
    11, those of the second from 12. *)
Definition ex_clock (n : nat) : Z := (1000 + Z.of_nat n)%Z.
Definition ex_times (loc p : pystr) : option Z := Some (if streq loc (U "/bags/one") then 11%Z else 12%Z).
Definition ex_world : world := {| w_tree := []; w_mtime := fun _ => 999%Z; w_ticks := 0 |}.
Definition ex_timed mt : world := got ex_world (t_restore ex_clock mt ex_env true true (fun _ => U "1 kB") false ex_head (U "/bags/two") ex_world).

Example C104_case :
  plain_algos ex_env /\ hb_del ex_head = None /\ head_lists false ex_head = Ok (ex_skip, ex_members) /\
  aggregation ex_env ex_head (U "/bags/two") ex_members ex_aggregate /\
  Forall (fun b => wf_tree (rb_tree b) /\ rb_loc b <> e_dest ex_env) ex_aggregate /\
  (forall b p, In b ex_aggregate -> ex_times (rb_loc b) p <> None) /\
  t_restore ex_clock ex_times ex_env true true (fun _ => U "1 kB") false ex_head (U "/bags/two") ex_world = Ok (ex_timed ex_times) /\
  w_tree (ex_timed ex_times) = ex_restored /\
  map (w_mtime (ex_timed ex_times)) [U "data"; U "data/a"; U "data/c"; U "data/bb"; U "data/e"; U "bagit.txt"] = [12; 12; 12; 11; 11; 12]%Z.
Proof.
  destruct C33_case as (A1 & A2 & A3 & A4 & A5 & _).
  split; [exact A1|]. split; [exact A2|]. split; [exact A3|]. split; [exact A4|]. split; [exact A5|]. clear.
  split; [intros; discriminate|].
  assert (X : match t_restore ex_clock ex_times ex_env true true (fun _ => U "1 kB") false ex_head (U "/bags/two") ex_world with
              | Ok w' => w_tree w' = ex_restored /\ map (w_mtime w') [U "data"; U "data/a"; U "data/c"; U "data/bb"; U "data/e"; U "bagit.txt"] = [12; 12; 12; 11; 11; 12]%Z
              | Err _ => False end) by (vm_compute; auto).
  unfold ex_timed. destruct (t_restore _ _ _ _ _ _ _ _ _ _); [|destruct X]. cbn [got]. tauto.
Qed.

(** A directory with the time zero, the beginning of 1970, gets another time
    when files are copied into it. *)
Definition ex_zero (loc p : pystr) : option Z := Some (if streq p (U "data") then 0%Z else 12%Z).
Theorem C104_refuted : exists clock mt v us rt bsize ro h loc skip ms bags w w' p b m,
  plain_algos v /\ hb_del h = None /\ head_lists ro h = Ok (skip, ms) /\ aggregation v h loc ms bags /\
  Forall (fun b => wf_tree (rb_tree b) /\ rb_loc b <> e_dest v) bags /\ w_tree w = [] /\
  t_restore clock mt v us rt bsize ro h loc w = Ok w' /\
  is_dir p (w_tree w') = true /\ (exists before, bags = before ++ [b]) /\ od_get p (rb_tree b) = Some NDir /\
  (forall b, In b bags -> mt (rb_loc b) p = Some m) /\ w_mtime w' p <> m.
Proof.
  exists ex_clock, ex_zero, ex_env, true, true, (fun _ => U "1 kB"), false, ex_head, (U "/bags/two"), ex_skip, ex_members, ex_aggregate, ex_world,
    (ex_timed ex_zero), (U "data"), {| rb_loc := U "/bags/two"; rb_tree := ex_two |}, 0%Z.
  destruct C33_case as (A1 & A2 & A3 & A4 & A5 & _).
  split; [exact A1|]. split; [exact A2|]. split; [exact A3|]. split; [exact A4|]. split; [exact A5|]. clear. split; [reflexivity|].
  assert (X : match t_restore ex_clock ex_zero ex_env true true (fun _ => U "1 kB") false ex_head (U "/bags/two") ex_world with
              | Ok w' => is_dir (U "data") (w_tree w') = true /\ Z.eqb (w_mtime w' (U "data")) 0 = false
              | Err _ => False end) by (vm_compute; auto).
  unfold ex_timed. destruct (t_restore _ _ _ _ _ _ _ _ _ _) as [w'|]; [|destruct X]. cbn [got]. destruct X as [X1 X2].
  split; [reflexivity|]. split; [exact X1|]. split; [exists [{| rb_loc := U "/bags/one"; rb_tree := ex_one |}]; reflexivity|]. split; [reflexivity|].
  split; [intros b _; reflexivity|]. apply Z.eqb_neq. exact X2.
Qed.
Print Assumptions C104_refuted.

(** If there is no time for a directory, restoring fails although everything
    else is in order. *)
Theorem C104_unknown_refuted : exists clock mt v us rt bsize ro h loc w dest',
  restore v us rt bsize ro h loc (w_tree w) = Ok dest' /\ t_restore clock mt v us rt bsize ro h loc w = Err EType.
Proof.
  exists ex_clock, (fun loc p => if streq p (U "data") then None else Some 12%Z), ex_env, true, true, (fun _ => U "1 kB"), false, ex_head, (U "/bags/two"), ex_world, ex_restored.
  split; vm_compute; reflexivity.
Qed.
Print Assumptions C104_unknown_refuted.

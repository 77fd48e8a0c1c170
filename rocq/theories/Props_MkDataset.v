(** Making test datasets (C96 - C99) *)
Require Import String NArith ZArith PeanoNat Bool List Permutation Lia.
From Verif Require Import PyBase PyFacts Fs FsFacts Split SplitApply HeadBagProofs3 MkData Props_MkData MkDataset
  SpecDataset MkDatasetProofs MkDatasetProofs2 MkDatasetProofs3 MkDatasetProofs4.
Import ListNotations.
Open Scope Z_scope.

(** A dataset is made in a directory with the content [t], with the random
    numbers [draws]. *)
Definition make (ts tc : Z) (plan : option (list fspec * list dspec)) (t : tree) (draws : list N) : run (Z * Z) :=
  mkdataset ts tc plan {| w_tree := t; w_draws := draws |}.
(** The content of the directory after a run, whether or not it has ended. *)
Definition after {A} (r : run A) : tree := match r with Done _ w => w_tree w | Raise _ w => w_tree w | More w => w_tree w end.

(** [t'] has everything that [t] has, and [new]: under other names. *)
Definition only_added (t new t' : tree) : Prop :=
  t' = t ++ new /\ (forall p, In p (od_keys new) -> ~ In p (od_keys t)) /\
  (forall p n, od_get p t = Some n -> od_get p t' = Some n).

Lemma added_ok (t new t' : tree) : t' = t ++ new -> wf_tree t' -> only_added t new t'.
Proof.
  intros -> W. split; [reflexivity|]. split.
  - apply wf_nodup in W. unfold od_keys in W. rewrite map_app in W. intros p I1 I2. clear - W I1 I2.
    fold (od_keys t) in W. fold (od_keys new) in W. induction (od_keys t) as [|q l IH]; [destruct I2|]. cbn [app] in W. inversion W; subst.
    destruct I2 as [->|I2]; [apply H1, in_or_app; auto|auto].
  - intros p n E. rewrite get_app, E. reflexivity.
Qed.

(** ** C97: what is there is not touched *)

Theorem C97_kept : forall ts tc plan t draws, wf_tree t ->
  wf_tree (after (make ts tc plan t draws)) /\
  exists new, only_added t new (after (make ts tc plan t draws)) /\
    (forall n w, make ts tc plan t draws = Done n w -> n = (bytes_in new, files_in new)).
Proof.
  intros ts tc plan t draws W. unfold make, mkdataset. destruct (match plan with Some p => p | None => _ end) as [fs ds].
  destruct (Z.leb_spec tc 0) as [L|L].
  - rewrite fill_dir_eq. destruct (Z.leb_spec tc 0); [|lia]. rewrite orb_true_r. cbn [after w_tree]. split; [exact W|]. exists [].
    split; [apply added_ok; [rewrite app_nil_r; reflexivity|exact W]|]. intros n w E. injection E as <- _. reflexivity.
  - set (w := {| w_tree := t; w_draws := draws |}).
    assert (K : (0 < Z.to_N (tc * 10))%N) by lia.
    destruct (fill_dir_any _ K (DSpec None None 1 fs ds) [] ts tc w) as (add & T & W' & _ & P); [split; auto|exact W|].
    destruct (fill_dir _ _ _ _ _ w) as [n w'|e w'|w']; cbn [world_of after w_tree] in *; (split; [exact W'|]; exists add; split; [apply added_ok; auto|]).
    + intros n0 w0 E. injection E as <- _. exact P.
    + discriminate.
    + discriminate.
Qed.
Print Assumptions C97_kept.

(** ** C96: without a plan *)

(** A run without a plan does not fail; when it ends, there are [tc] new files
    in the directory, with [ts] bytes in all and sizes that differ by at most
    one. *)
Theorem C96_uniform : forall ts tc t draws, 0 < ts < 2 ^ 50 -> 0 < tc < 2 ^ 50 -> wf_tree t ->
  exists new, only_added t new (after (make ts tc None t draws)) /\
  match make ts tc None t draws with
  | Done n _ => n = (ts, tc) /\ exists l, evenly ts tc l /\ files_with [] l new
  | Raise _ _ => False
  | More _ => files_in new <= tc /\ dirs_in new <= 0
  end.
Proof.
  intros ts tc t draws Hs Hc W. unfold make, mkdataset.
  set (f := {| f_size := Some ts; f_count := Some tc; f_reps := 1; f_kind := Uniform |}).
  set (w := {| w_tree := t; w_draws := draws |}). set (d := DSpec None None 1 [f] []).
  assert (Ft : fits d ts tc).
  { constructor; auto.
    - constructor; [|constructor]. split; [reflexivity|]. cbn. split; intros x E; injection E as <-; lia.
    - unfold size_claims, taken, free. cbn -[Z.add Z.le]. lia.
    - unfold count_claims, taken, free. cbn -[Z.add Z.le]. lia.
    - left. unfold size_claims, count_claims, taken, free. cbn -[Z.add Z.lt]. lia.
    - intros ? ? ? []. }
  assert (K : (0 < Z.to_N (tc * 10))%N) by lia.
  destruct (fill_dir_exact _ K d ts tc Ft [] w) as (add & T & W' & _ & P); [split; auto|exact W|].
  exists add. destruct (fill_dir _ d _ _ _ w) as [n w'|e w'|w']; cbn [world_of after w_tree] in *; (split; [apply added_ok; auto|]); auto.
  destruct P as (-> & B & _). split; [reflexivity|]. inversion B as [s0 c0 r0 fs ds dir ts' tc' fsc ll rest rl scs here below H1 H2 H3 H4 S1 S2 H5 H6]. revert S1 S2. subst.
  inversion H4; subst. inversion H6; subst. rewrite app_nil_r. inversion H1 as [|? sc ? l' [G1 G2] H1']; subst. inversion H1'; subst. intros S1 S2.
  destruct sc as [s c]. assert (Ga : s = ts) by exact G1. assert (Gb : c = tc) by exact G2. rewrite Ga, Gb in *. clear Ga Gb G1 G2. cbn [combine] in H2. inversion H2 as [|? l ? ll' E1 E2]; subst. inversion E2; subst.
  cbn [map sum fst snd] in S1, S2. destruct H3 as [[E ->]|(Q1 & Q2 & _)]; [|lia]. exists l. cbn [concat] in H5. rewrite !app_nil_r in H5. split; [exact E1|exact H5].
Qed.
Print Assumptions C96_uniform.

(** ** C98: with a plan that fits *)

Theorem C98_plan : forall ts tc fs ds t draws, fits (DSpec None None 1 fs ds) ts tc -> wf_tree t ->
  exists new, only_added t new (after (make ts tc (Some (fs, ds)) t draws)) /\
  match make ts tc (Some (fs, ds)) t draws with
  | Done n _ => n = (ts, tc) /\ built (DSpec None None 1 fs ds) [] ts tc new /\
                bytes_in new = ts /\ files_in new = tc /\ dirs_in new = ndirs (DSpec None None 1 fs ds)
  | Raise _ _ => False
  | More _ => files_in new <= tc /\ dirs_in new <= ndirs (DSpec None None 1 fs ds)
  end.
Proof.
  intros ts tc fs ds t draws Ft W. unfold make, mkdataset. set (w := {| w_tree := t; w_draws := draws |}). set (d := DSpec None None 1 fs ds) in *.
  assert (K : (0 < Z.to_N (tc * 10))%N) by (inversion Ft; lia).
  destruct (fill_dir_exact _ K d ts tc Ft [] w) as (add & T & W' & _ & P); [split; auto|exact W|].
  exists add. destruct (fill_dir _ d _ _ _ w) as [n w'|e w'|w']; cbn [world_of after w_tree] in *; (split; [apply added_ok; auto|]); auto.
Qed.
Print Assumptions C98_plan.

(** ** C99: it ends *)

(** With random numbers among which, again and again, each number below the
    limit is drawn, and with fewer entries than names, all files are made. *)
Theorem C99_ends_partial : forall ts tc fs ds t draws,
  fits (DSpec None None 1 fs ds) ts tc -> wf_tree t ->
  Z.of_nat (length t) + tc + ndirs (DSpec None None 1 fs ds) < 10 * tc ->
  supply (Z.to_N (10 * tc)) (Z.to_nat (tc + ndirs (DSpec None None 1 fs ds) + 1)) draws ->
  exists w, make ts tc (Some (fs, ds)) t draws = Done (ts, tc) w.
Proof.
  intros ts tc fs ds t draws Ft W L Su. unfold make, mkdataset. set (w := {| w_tree := t; w_draws := draws |}). set (d := DSpec None None 1 fs ds) in *.
  rewrite (Z.mul_comm 10 tc) in *.
  assert (K : (0 < Z.to_N (tc * 10))%N) by (inversion Ft; lia). pose proof (ndirs_nonneg d) as Nd.
  destruct (fill_dir_exact _ K d ts tc Ft [] w) as (add & T & W' & S & P); [split; auto|exact W|].
  assert (Le : forall t', t' = t ++ add -> Z.of_nat (length add) <= tc + ndirs d -> (N.of_nat (length t') < Z.to_N (tc * 10))%N).
  { intros t' -> Ha. rewrite app_length. lia. }
  pose proof (entries_length add) as En.
  destruct (fill_dir _ d _ _ _ w) as [n w'|e w'|w'] eqn:E; cbn [world_of after w_tree] in *.
  - destruct P as (-> & _). eauto.
  - destruct P.
  - destruct P as [P1 P2]. specialize (S (Z.to_nat (tc + ndirs d + 1)) ltac:(apply (Le _ T); lia) Su). lia.
Qed.
Print Assumptions C99_ends_partial.

(** The names do not get longer when they run out: if all of them are taken,
    no random numbers end the search. *)
Definition full_dir : tree := map (fun x => (hex3 (N.of_nat x) ++ U "_5", NFile (U "0 xx" ++ [LF]))) (seq 0 10).

Lemma full_pick x : (x < 10)%N -> exists_ (hex3 x ++ U "_5") full_dir = true.
Proof.
  intros H. assert (J : In (hex3 x ++ U "_5") (map (fun e => fst e) full_dir)).
  { unfold full_dir. rewrite map_map. cbn [fst]. apply in_map_iff. exists (N.to_nat x). rewrite N2Nat.id. split; [reflexivity|]. apply in_seq. lia. }
  assert (A : forallb (fun p => exists_ p full_dir) (map (fun e => fst e) full_dir) = true) by (vm_compute; reflexivity).
  rewrite forallb_forall in A. apply A. exact J.
Qed.

Theorem C99_refuted : wf_tree full_dir /\ forall draws, make 5 1 None full_dir draws = More {| w_tree := full_dir; w_draws := [] |}.
Proof.
  split; [apply wf_treeb_ok; vm_compute; reflexivity|]. intros draws. unfold make, mkdataset. rewrite fill_dir_eq.
  change ((5 <=? 0) || (1 <=? 0)) with false. cbv iota.
  assert (D : distribute 5 1 [{| f_size := Some 5; f_count := Some 1; f_reps := 1; f_kind := Uniform |}] [] =
    Ok ([({| f_size := Some 5; f_count := Some 1; f_reps := 1; f_kind := Uniform |}, (5, 1))], [])) by (vm_compute; reflexivity).
  rewrite D. cbn [on_tree andthen fst snd fill_files]. change ((5 <? 0) || (1 <? 0)) with false. cbv iota. cbn [f_reps]. change (Z.to_nat 1) with 1%nat. cbn [times].
  assert (Sz : sizes_of {| f_size := Some 5; f_count := Some 1; f_reps := 1; f_kind := Uniform |} = Ok [5]) by (vm_compute; reflexivity).
  rewrite Sz. unfold fill_with_files. cbn [on_tree andthen fill_sizes]. change ((5 <? 0 + 5) || (1 <=? 0)) with false. cbv iota.
  unfold create_one, mkfilename. cbn [w_tree w_draws].
  assert (P : pick (Z.to_N (1 * 10)) [] (U "_" ++ dec_z 5) full_dir draws = None).
  { change (Z.to_N (1 * 10)) with 10%N. change (U "_" ++ dec_z 5) with (U "_5"). induction draws as [|x l IH]; [reflexivity|]. cbn [pick pjoin].
    rewrite full_pick by (apply N.mod_lt; discriminate). exact IH. }
  rewrite P. reflexivity.
Qed.
Print Assumptions C99_refuted.

(** ** Plans that do not fit *)

Definition files_set (s c : option Z) (r : Z) : fspec := {| f_size := s; f_count := c; f_reps := r; f_kind := Uniform |}.

(** Sets that are repeated get files for each repetition, but only one of
    them is counted: 13 files instead of 10. With more sets than files there
    is an exception on the way. A size without a number of files is not
    kept: 50 bytes for the set that asks for 20. *)
Theorem C98_refuted :
  (exists draws w, make 100 10 (Some ([files_set None None 2; files_set None None 1], [])) [] draws = Done (100, 13) w) /\
  (exists draws w, make 100 2 (Some ([files_set None None 1; files_set None None 1; files_set None None 1], [])) [] draws =
     Raise EZeroDivision w /\ files_in (w_tree w) = 2) /\
  (exists draws w, make 100 4 (Some ([files_set (Some 20) None 1; files_set (Some 80) None 1], [])) [] draws = Done (100, 4) w /\
     files_with [] [25; 25; 25; 25] (w_tree w)).
Proof.
  split; [|split].
  - exists (map N.of_nat (seq 0 20)). eexists. vm_compute. reflexivity.
  - exists (map N.of_nat (seq 0 20)). eexists. split; [vm_compute; reflexivity|vm_compute; reflexivity].
  - exists (map N.of_nat (seq 0 20)). eexists. split; [vm_compute; reflexivity|]. cbn [w_tree].
    unfold files_with. repeat (constructor; [eexists; split; [reflexivity|]; split; vm_compute; reflexivity|]). constructor.
Qed.
Print Assumptions C98_refuted.

(** ** Cases *)

Definition case_sets : list fspec := [files_set (Some 20) (Some 2) 1; files_set None None 1].
Definition case_dirs : list dspec :=
  [DSpec (Some 30) (Some 4) 1 [{| f_size := None; f_count := None; f_reps := 1; f_kind := Inventory [(10, 1); (5, 2)] |}] [];
   DSpec None None 1 [] []].
Definition case_draws : list N := concat (repeat (map N.of_nat (seq 0 120)) 15).

Lemma case_fits : fits (DSpec None None 1 case_sets case_dirs) 100 12.
Proof.
  constructor; try lia.
  - repeat constructor; cbn; intros x E; try discriminate; injection E as <-; lia.
  - repeat constructor; cbn; intros x E; try discriminate; injection E as <-; lia.
  - vm_compute. discriminate.
  - vm_compute. discriminate.
  - left. vm_compute. auto.
  - intros d s c [<-|[<-|[]]] G1 G2.
    + cbn in G1, G2. subst s c. constructor; try lia.
      * repeat constructor; cbn; lia.
      * constructor.
      * vm_compute. discriminate.
      * vm_compute. discriminate.
      * right. vm_compute. repeat split.
      * intros ? ? ? [].
    + vm_compute in G1, G2. constructor; try lia.
      * constructor.
      * constructor.
      * change (0 <= s). lia.
      * change (0 <= c). lia.
      * right. split; [reflexivity|]. split; [change (0 < s); lia|]. split; [reflexivity|change (0 < c); lia].
      * intros ? ? ? [].
Qed.

Lemma rounds_supply n : supply 120 n (concat (repeat (map N.of_nat (seq 0 120)) n)).
Proof.
  induction n as [|n IH]; [exact I|]. cbn [repeat concat supply].
  exists (map N.of_nat (seq 0 120)), (concat (repeat (map N.of_nat (seq 0 120)) n)). split; [reflexivity|]. split; [|exact IH].
  intros x L. exists x. split; [|apply N.mod_small; exact L]. apply in_map_iff. exists (N.to_nat x). rewrite N2Nat.id. split; [reflexivity|]. apply in_seq. lia.
Qed.
Lemma case_supply : supply 120 15 case_draws.
Proof. exact (rounds_supply 15). Qed.

(** The directory has something in it before, under a name that is drawn. *)
Definition case_tree : tree := [(U "000_10", NFile (U "old"))].

Example C98_case : exists w, make 100 12 (Some (case_sets, case_dirs)) case_tree case_draws = Done (100, 12) w /\
  map (fun e => (fst e, node_bytes (snd e))) (w_tree w) =
  [(U "000_10", 3); (U "001_10", 10); (U "002_10", 10); (U "003_8", 8); (U "004_8", 8); (U "005_9", 9);
   (U "006_d", 0); (U "006_d/007_10", 10); (U "006_d/008_5", 5); (U "006_d/009_5", 5); (U "006_d/00a_10", 10);
   (U "00b_d", 0); (U "00b_d/00c_8", 8); (U "00b_d/00d_8", 8); (U "00b_d/00e_9", 9)].
Proof. eexists. split; [vm_compute; reflexivity|vm_compute; reflexivity]. Qed.

Example C99_case : exists w, make 100 12 (Some (case_sets, case_dirs)) case_tree case_draws = Done (100, 12) w.
Proof.
  apply C99_ends_partial; [exact case_fits|apply wf_treeb_ok; vm_compute; reflexivity|vm_compute; reflexivity|exact case_supply].
Qed.

Example C96_case : exists w, make 10 3 None case_tree [0; 0; 5; 7]%N = Done (10, 3) w /\
  map (fun e => (fst e, node_bytes (snd e))) (w_tree w) = [(U "000_10", 3); (U "000_3", 3); (U "005_3", 3); (U "007_4", 4)].
Proof. eexists. split; [vm_compute; reflexivity|vm_compute; reflexivity]. Qed.

(** The exception of the plan with three sets for two files leaves the files
    made so far, and what was there. *)
Example C97_case : exists w, make 100 2 (Some ([files_set None None 1; files_set None None 1; files_set None None 1], [])) case_tree [0; 0; 1; 2]%N
    = Raise EZeroDivision w /\ length (w_tree w) = 3%nat /\ od_get (U "000_10") (w_tree w) = Some (NFile (U "old")).
Proof. eexists. split; [vm_compute; reflexivity|]. split; vm_compute; reflexivity. Qed.

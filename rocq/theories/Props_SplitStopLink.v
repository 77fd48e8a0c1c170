(** C137: a split with hard links that stops *)
Require Import String NArith PeanoNat Bool List Lia.
From Verif Require Import PyBase PyFacts Tsv TsvProofs Fs FsFacts HeadBag HeadBagProofs HeadBagProofs2 HeadBagProofs3 BagIt BagItProofs BagItProofs2 Split SplitProofs3 SplitApply SplitApplyProofs SplitApplyProofs2 SplitApplyProofs3 SplitApplyProofs4 SplitApplyProofs5 SplitApplyProofs6 SplitApplyProofs7 SplitApplyProofs8 SplitApplyProofs9 Props_SplitApply Props_SplitApply2 Props_SplitApply3 SplitStop SplitStopLink Props_Iter.
Import ListNotations.
Open Scope nat_scope.

(** The plan has the path [q], and a split makes a file of that path anew: the
    description of a bag, a manifest or a list of a head bag. *)
Definition planned_anew (p : plan) (q : pystr) : Prop :=
  q <> U "bagit.txt" /\ own_file true q /\ exists m, In m (p_manifests p) /\ In q (m_contents m).

(** ** What writing one bag does to the source *)

Section OneBag.
  (** [src0]: the source before the bag; [L]: what may be linked. *)
  Variable src0 : tree.
  Variable L : pystr -> Prop.

  Definition anew (q : pystr) : Prop := q <> U "bagit.txt" /\ own_file true q /\ L q.

  Definition op_ok (x : op) : Prop :=
    match x with
    | OWrite p _ | OAppend p _ => own_file true p /\ p <> U "bagit.txt"
    | OCopy p c => L p /\ read p src0 = Some c
    | _ => True
    end.

  Definition like (src : tree) : Prop :=
    (forall q, ~ anew q -> od_get q src = od_get q src0) /\
    (forall q, is_file q src = is_file q src0) /\ od_keys src = od_keys src0.

  Definition lok (l : lstate) : Prop :=
    like (l_src l) /\ forall q, In q (l_links l) -> L q /\ is_file q src0 = true.

  Lemma like_set q c src : like src -> is_file q src0 = true -> (~ anew q -> read q src0 = Some c) ->
    like (od_set q (NFile c) src).
  Proof.
    intros (H1 & H2 & H3) Fq Hc. split; [|split].
    - intros r Nr. destruct (streq_reflect r q) as [Eb|D]; [subst r|].
      + rewrite od_get_set_same. specialize (Hc Nr). unfold read in Hc. destruct (od_get q src0) as [[]|]; try discriminate Hc.
        congruence.
      + rewrite od_get_set_other by exact D. apply H1. exact Nr.
    - intros r. destruct (streq_reflect r q) as [Eb|D]; [subst r|].
      + rewrite Fq. unfold is_file. rewrite od_get_set_same. reflexivity.
      + rewrite <- H2. unfold is_file. rewrite od_get_set_other by exact D. reflexivity.
    - rewrite od_keys_set_in; [exact H3|]. rewrite H3. unfold is_file in Fq.
      destruct (od_get q src0) as [n|] eqn:G; [|discriminate Fq]. destruct (in_dec str_eq_dec q (od_keys src0)) as [I0|I0]; [exact I0|].
      apply od_get_none in I0. congruence.
  Qed.

  Lemma lok_write p c l l' : lok l -> (L p -> ~ anew p -> read p src0 = Some c) -> linked_write p c l = Ok l' -> lok l'.
  Proof.
    intros [H1 H2] Hc H. unfold linked_write in H. apply bind_ok in H. destruct H as (t & _ & H). inversion H; subst l'.
    split; cbn [l_src l_links]; [|exact H2]. destruct (str_in p (l_links l)) eqn:E; [|exact H1].
    apply str_in_iff in E. destruct (H2 p E) as [Lp Fp]. apply like_set; auto.
  Qed.

  Lemma lok_step x l l' : op_ok x -> lok l -> run_linked l x = Ok l' -> lok l'.
  Proof.
    intros Ox K H. destruct x as [p|p|p c|p c|p c]; cbn [run_linked op_ok] in *.
    - apply bind_ok in H. destruct H as (t & _ & H). inversion H; subst. exact K.
    - apply bind_ok in H. destruct H as (t & _ & H). inversion H; subst. exact K.
    - destruct Ox as [O D]. refine (lok_write _ _ _ _ K _ H). intros Lp Na. elim Na. split; auto.
    - destruct Ox as [O D]. refine (lok_write _ _ _ _ K _ H). intros Lp Na. elim Na. split; auto.
    - destruct Ox as [Lp Rp]. destruct (exists_ p (l_out l)).
      + destruct (linked_write p c l) as [l1|e] eqn:W; [|discriminate H]. inversion H; subst l1.
        refine (lok_write _ _ _ _ K _ W). intros _ _. exact Rp.
      + destruct (write_file p c (l_out l)) as [t|e]; [|discriminate H]. inversion H; subst.
        destruct K as [K1 K2]. split; cbn [l_src l_links]; [exact K1|].
        intros q [<-|Iq]; [|auto]. split; [exact Lp|]. unfold read in Rp. unfold is_file.
        destruct (od_get p src0) as [[]|]; congruence.
  Qed.

  Lemma lok_until ops : forall l, Forall op_ok ops -> lok l -> lok (run_linked_until ops l).
  Proof.
    induction ops as [|x ops IH]; intros l F K; cbn [run_linked_until]; [exact K|]. inversion F; subst.
    destruct (run_linked l x) as [l1|e] eqn:R; [|exact K]. apply IH; [assumption|]. apply lok_step in R; auto.
  Qed.

  Lemma lok_start : lok {| l_src := src0; l_out := []; l_links := [] |}.
  Proof. split; [split; [|split]; reflexivity|intros ? []]. Qed.
End OneBag.

Definition may_be_linked (m : manifest) (q : pystr) : Prop := q = U "bagit.txt" \/ In q (m_contents m).

Lemma bag_ops_ok s o b m h ms lu : Forall (op_ok (so_tree s) (may_be_linked m)) (fst (bag_ops s o b m h ms lu)).
Proof.
  assert (Hm : forall a, own_file true (man_name K_man a) /\ man_name K_man a <> U "bagit.txt").
  { intros a. split; [apply man_own|]. intros E. discriminate E. }
  assert (Ht : forall a, own_file true (man_name K_tag a) /\ man_name K_tag a <> U "bagit.txt").
  { intros a. split; [apply tag_own|]. intros E. discriminate E. }
  assert (Hs : Forall (op_ok (so_tree s) (may_be_linked m)) (start_ops s)).
  { apply Forall_forall. intros x I0. apply in_start_ops in I0. destruct I0 as [->|(a & -> & _)]; cbn [op_ok]; auto. }
  unfold bag_ops. destruct (read F_bagit (so_tree s)) as [c|] eqn:Rc; cbn [fst]; [|exact Hs].
  rewrite !Forall_app. split; [exact Hs|]. split; [|split; [|split]].
  - constructor; [|constructor]. cbn [op_ok]. split; [left; reflexivity|exact Rc].
  - apply Forall_forall. intros x I0. apply in_flat_map in I0. destruct I0 as (f & If & I0). apply in_path_ops in I0.
    destruct I0 as [(cc & Rf & [->|[->|I0]])|(_ & D & ->)]; cbn [op_ok]; auto.
    + split; [right; exact If|exact Rf].
    + apply in_hash_ops in I0. destruct I0 as (a & hh & -> & _). cbn [op_ok]. destruct (is_payload f); auto.
  - constructor; [|constructor]. cbn [op_ok]. split; [apply own_info|intros E; discriminate E].
  - destruct h; [|constructor]. unfold multibag_ops.
    repeat apply Forall_cons; try apply Forall_nil; cbn [op_ok]; auto;
      (split; [|intros E; discriminate E]); [apply own_members|apply own_lookup|apply own_agg]; reflexivity.
Qed.

(** Continuing from a source that is alike. *)
Lemma like_trans (L L' : pystr -> Prop) src0 src1 src2 : (forall q, anew L' q -> anew L q) ->
  like src0 L src1 -> like src1 L' src2 -> like src0 L src2.
Proof.
  intros Sub (A1 & A2 & A3) (B1 & B2 & B3). split; [|split].
  - intros q Nq. rewrite B1; [apply A1; exact Nq|]. intros H. exact (Nq (Sub q H)).
  - intros q. rewrite B2. apply A2.
  - congruence.
Qed.

Lemma firstn_Forall {A} (P : A -> Prop) n l : Forall P l -> Forall P (firstn n l).
Proof. revert l. induction n as [|n IH]; intros l F; [constructor|]. destruct F; cbn [firstn]; constructor; auto. Qed.

Lemma left_like s o (L : pystr -> Prop) mhs : forall n a src0 src,
  (forall m h q, In (m, h) mhs -> In q (m_contents m) -> L q) ->
  like src0 L src -> like src0 L (snd (left_linked s o n mhs a src)).
Proof.
  induction mhs as [|[m h] mhs IH]; intros n a src0 src HL K; cbn [left_linked snd]; [exact K|].
  destruct n as [|n]; [exact K|]. destruct (next_name m (a_naming a)) as [[[b|] it]|e]; try exact K.
  destruct (od_has b (a_out a)); [exact K|].
  set (ms := push_member b (a_members a)). set (lu := fold_left (add_lookup b) (plan_files (with_tree s src) m) (a_lookup a)).
  pose proof (bag_ops_ok (with_tree s src) o b m h ms lu) as F.
  destruct (bag_ops (with_tree s src) o b m h ms lu) as [ops fin]. cbn [fst so_tree with_tree] in F.
  set (l := run_linked_until (firstn n ops) {| l_src := src; l_out := []; l_links := [] |}).
  assert (K1 : like src0 L (l_src l)).
  { apply (like_trans L (may_be_linked m) src0 src).
    - intros q (D & O & [E|I0]); [contradiction|]. split; [exact D|]. split; [exact O|]. apply (HL m h q); [left; reflexivity|exact I0].
    - exact K.
    - exact (proj1 (lok_until src (may_be_linked m) (firstn n ops) _ (firstn_Forall _ _ _ F) (lok_start src (may_be_linked m)))). }
  destruct (n <? length ops); [exact K1|]. destruct (run_linked_ops ops src) as [l1|e]; [|exact K1].
  destruct fin as [u|e]; [|exact K1]. apply IH; [|exact K1]. intros m0 h0 q I0. apply (HL m0 h0 q). right; exact I0.
Qed.

Lemma like_planned p src0 src : like src0 (fun q => exists m, In m (p_manifests p) /\ In q (m_contents m)) src ->
  (forall q, ~ planned_anew p q -> read q src = read q src0) /\
  (forall q, is_file q src = is_file q src0) /\ (forall q, is_dir q src = is_dir q src0).
Proof.
  intros (A1 & A2 & A3). split; [|split; [exact A2|]].
  - intros q Nq. unfold read. rewrite A1; [reflexivity|]. intros (D & O & M). apply Nq. split; auto.
  - intros q. specialize (A2 q). assert (K : In q (od_keys src) <-> In q (od_keys src0)) by (rewrite A3; reflexivity).
    unfold is_file, is_dir in *. pose proof (od_get_none q src) as G. pose proof (od_get_none q src0) as G0.
    destruct (od_get q src) as [[]|], (od_get q src0) as [[]|]; try congruence; try reflexivity.
    + exfalso. apply (proj1 G0 eq_refl). apply K. destruct (in_dec str_eq_dec q (od_keys src)) as [I0|I0]; [exact I0|].
      apply G in I0. discriminate I0.
    + exfalso. apply (proj1 G eq_refl). apply K. destruct (in_dec str_eq_dec q (od_keys src0)) as [I0|I0]; [exact I0|].
      apply G0 in I0. discriminate I0.
Qed.

(** ** C137 *)

(** Wherever the split stops, and whatever the plan: the source has the same
    files and directories, and only files that are planned although the split
    makes them anew can have changed. *)
Theorem C137_source : forall s o p it n out,
  let src := snd (plan_left_linked s o p it n out) in
  (forall q, ~ planned_anew p q -> read q src = read q (so_tree s)) /\
  (forall q, is_file q src = is_file q (so_tree s)) /\ (forall q, is_dir q src = is_dir q (so_tree s)).
Proof.
  intros s o p it n out. cbv zeta. apply like_planned. unfold plan_left_linked.
  destruct (initial_lists s) as [[ms lu]|e]; [|cbn [snd]; split; [|split]; reflexivity].
  apply left_like; [|split; [|split]; reflexivity]. intros m h q I0 Iq. exists m. split; [|exact Iq].
  rewrite <- manifests_fst. apply (in_map fst) in I0. exact I0.
Qed.

Print Assumptions C137_source.

Lemma until_ops ops : forall l l', foldM run_linked ops l = Ok l' -> run_linked_until ops l = l'.
Proof.
  induction ops as [|x ops IH]; intros l l' H; cbn [foldM run_linked_until] in *; [congruence|].
  apply bind_ok in H. destruct H as (l1 & R & H). rewrite R. apply IH. exact H.
Qed.

Lemma whole_left s o mhs : forall a src a' src', foldM (apply_one_linked s o) mhs (a, src) = Ok (a', src') ->
  exists n, left_linked s o n mhs a src = (a_out a', src').
Proof.
  induction mhs as [|[m h] mhs IH]; intros a src a' src' H; cbn [foldM] in H.
  - exists 0. inversion H; subst. reflexivity.
  - apply bind_ok in H. destruct H as ([a1 src1] & H1 & H). unfold apply_one_linked in H1.
    apply bind_ok in H1. destruct H1 as ([name it] & En & H1). destruct name as [b|]; [|discriminate H1].
    destruct (od_has b (a_out a)) eqn:Hb; [discriminate H1|]. cbn [left_linked].
    set (ms := push_member b (a_members a)) in *. set (lu := fold_left (add_lookup b) (plan_files (with_tree s src) m) (a_lookup a)) in *.
    destruct (bag_ops (with_tree s src) o b m h ms lu) as [ops fin] eqn:Eo.
    apply bind_ok in H1. destruct H1 as (l & R & H1). apply bind_ok in H1. destruct H1 as (u & Ef & H1).
    inversion H1; subst a1 src1. destruct (IH _ _ _ _ H) as [k Ek]. exists (S (length ops + k)). rewrite En, Hb. fold ms. fold lu. rewrite Eo.
    replace (length ops + k <? length ops) with false by (symmetry; apply Nat.ltb_ge; lia).
    rewrite R, Ef, firstn_all2 by lia. replace (length ops + k - length ops) with k by lia.
    rewrite (until_ops ops _ l) by exact R. exact Ek.
Qed.

(** The same when the split has ended. *)
Theorem C137_ended : forall s o p it out a src,
  apply_plan_linked s o p it out = Ok (a, src) ->
  (exists n, plan_left_linked s o p it n out = (a_out a, src)) /\
  (forall q, ~ planned_anew p q -> read q src = read q (so_tree s)) /\
  (forall q, is_file q src = is_file q (so_tree s)) /\ (forall q, is_dir q src = is_dir q (so_tree s)).
Proof.
  intros s o p it out a src H.
  assert (E : exists n, plan_left_linked s o p it n out = (a_out a, src)).
  { unfold apply_plan_linked in H. apply bind_ok in H. destruct H as ([ms lu] & E & H). unfold plan_left_linked. rewrite E.
    exact (whole_left s o _ _ _ _ _ H). }
  split; [exact E|]. destruct E as [n E]. pose proof (C137_source s o p it n out) as K. rewrite E in K. exact K.
Qed.

Print Assumptions C137_ended.

Lemma until_copied src (L : pystr -> Prop) ops : forall t lk, Forall (link_ok src L) ops -> (forall p, In p lk -> L p) ->
  l_src (run_linked_until ops {| l_src := src; l_out := t; l_links := lk |}) = src /\
  l_out (run_linked_until ops {| l_src := src; l_out := t; l_links := lk |}) = run_until ops t.
Proof.
  induction ops as [|x ops IH]; intros t lk F Hl; cbn [run_linked_until run_until]; [auto|].
  inversion F; subst. pose proof (run_linked_one src L x t lk ltac:(assumption) Hl) as R.
  destruct (run_op t x) as [t1|e].
  - destruct R as (lk' & -> & Hl'). apply IH; auto.
  - rewrite R. auto.
Qed.

Lemma left_copied s o mhs : Forall (fun mh => no_own (fst mh) true) mhs -> forall n a,
  left_linked s o n mhs a (so_tree s) = (left_after s o n mhs a, so_tree s).
Proof.
  induction 1 as [|[m h] mhs Hm F IH]; intros n a; cbn [left_linked left_after fst] in *; [reflexivity|].
  destruct n as [|n]; [reflexivity|]. destruct (next_name m (a_naming a)) as [[[b|] it]|e]; try reflexivity.
  destruct (od_has b (a_out a)); [reflexivity|]. rewrite with_tree_id.
  set (ms := push_member b (a_members a)). set (lu := fold_left (add_lookup b) (plan_files s m) (a_lookup a)).
  pose proof (bag_links_in s o b m h ms lu Hm) as Fl.
  destruct (bag_ops s o b m h ms lu) as [ops fin]. cbn [fst] in Fl.
  destruct (until_copied (so_tree s) _ (firstn n ops) [] [] (firstn_Forall _ n _ Fl) ltac:(intros ? [])) as [E1 E2].
  rewrite E1, E2. destruct (n <? length ops); [reflexivity|].
  pose proof (run_linked_in (so_tree s) _ ops [] [] Fl ltac:(intros ? [])) as R. unfold run_linked_ops.
  destruct (run_ops ops []) as [t|e].
  - destruct R as (lk & -> & _). destruct fin as [u|e]; [|reflexivity]. apply IH.
  - rewrite R. reflexivity.
Qed.

(** If no such file is planned, the source stays as it was, and the output
    directory is what copying would leave there. *)
Theorem C137_as_copied : forall s o p it n out,
  nothing_own p -> plan_left_linked s o p it n out = (plan_left s o p it n out, so_tree s).
Proof.
  intros s o p it n out H. unfold plan_left_linked, plan_left. destruct (initial_lists s) as [[ms lu]|e]; [|reflexivity].
  apply left_copied. apply Forall_forall. intros [m h] I0. cbn [fst]. intros f If. apply (H m f); auto.
  rewrite <- manifests_fst. apply (in_map fst) in I0. exact I0.
Qed.

Print Assumptions C137_as_copied.

Example C137_case :
  nothing_own ex_plan /\ (forall q, ~ planned_anew ex_plan q) /\
  map fst (fst (plan_left_linked ex_source ex_opts ex_plan None 5 [])) = [U "one"].
Proof.
  assert (H : nothing_own ex_plan).
  { intros m f Im If O. destruct Im as [<-|[<-|[]]]; cbn [m_contents] in If;
      destruct If as [<-|[<-|If]]; try destruct If as [<-|[]]; try contradiction; inversion O. }
  split; [exact H|]. split; [|vm_compute; reflexivity].
  intros q (_ & O & m & Im & Iq). exact (H m q Im Iq O).
Qed.

(** A head bag that is split by a completed plan with hard links (as in
    [C31_refuted]): the split stops before its bag has an account of the
    aggregation, and the member list of the source already names that bag. *)
Theorem C137_refuted : exists s p o n b u,
  opened s /\ wf_tree (so_tree s) /\
  p = complete_plan {| p_bag := {| b_name := so_name s; b_tree := so_tree s; b_dirsize := fun _ => 4096%N |};
                       p_manifests := [] |} /\
  fst (plan_left_linked s o p None n []) = [(b, u)] /\
  is_file (U "multibag/aggregation-info.txt") u = false /\
  read (U "multibag/member-bags.tsv") (so_tree s) = Some (U "old" ++ [LF]) /\
  read (U "multibag/member-bags.tsv") (snd (plan_left_linked s o p None n [])) = Some (U "old" ++ [LF] ++ b ++ [LF]).
Proof.
  set (s := exh_source [U "old"]).
  set (p := complete_plan {| p_bag := {| b_name := so_name s; b_tree := so_tree s; b_dirsize := fun _ => 4096%N |};
                             p_manifests := [] |}).
  assert (Q : match plan_left_linked s ex_opts p None 16 [] with
              | ([(b, u)], src) => streq b (U "src_0.mbag") && negb (is_file (U "multibag/aggregation-info.txt") u) &&
                   match read (U "multibag/member-bags.tsv") src with
                   | Some c => streq c (U "old" ++ [LF] ++ U "src_0.mbag" ++ [LF])
                   | None => false
                   end
              | _ => false
              end = true) by (vm_compute; reflexivity).
  exists s, p, ex_opts, 16.
  destruct (plan_left_linked s ex_opts p None 16 []) as [[|[b u] [|? ?]] src]; try discriminate Q.
  exists b, u. apply andb_prop in Q. destruct Q as [Q Q2]. apply andb_prop in Q. destruct Q as [Q Q1].
  apply streq_eq in Q. subst b. apply negb_true_iff in Q1. cbn [fst snd].
  destruct (read (U "multibag/member-bags.tsv") src) as [c|] eqn:R; [|discriminate Q2]. apply streq_eq in Q2. subst c.
  split; [vm_compute; reflexivity|]. split; [apply wf_treeb_ok; vm_compute; reflexivity|].
  split; [reflexivity|]. split; [reflexivity|]. split; [exact Q1|]. split; [vm_compute; reflexivity|]. reflexivity.
Qed.

Print Assumptions C137_refuted.

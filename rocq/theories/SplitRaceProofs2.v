(** * Lemmas on splits that run at the same time: the names, the end of a
    process, and all the processes together *)
Require Import String NArith PeanoNat Bool List Lia.
From Verif Require Import PyBase PyFacts Fs FsFacts HeadBag BagIt Split SplitApply SplitApplyProofs SplitApplyProofs6 SplitStop SplitRace SplitRaceProofs.
Import ListNotations.
Open Scope nat_scope.

(** The names that a process wants to give its bags. *)
Definition names0 (k : task) : list (option pystr) := names_for (names_of (k_naming k)) (p_manifests (k_plan k)).
Definition names_left (q : proc) : list (option pystr) := names_for (names_of (q_naming q)) (map fst (q_rest q)).

(** What a process alone has made is new, has wanted names, and the bag that is
    written is among it. *)
Definition based (k : task) (out d : dict tree) (q : proc) : Prop :=
  exists l, d = out ++ l /\
    (forall b, od_get b l <> None -> od_get b out = None /\ In (Some b) (names0 k)) /\
    (match q_where q with Writing b _ _ => od_get b l <> None | _ => True end) /\
    exists pre, names0 k = pre ++ names_left q.

Lemma based_writes k out d q : based k out d q -> writes d q.
Proof.
  intros (l & -> & N1 & W & _). unfold writes. destruct (q_where q) as [|b ops fin| |e]; auto.
  rewrite od_get_app. destruct (N1 b W) as [-> _]. exact W.
Qed.

Lemma names_next m h rest b it q : q_rest q = (m, h) :: rest -> next_name m (q_naming q) = Ok (Some b, it) ->
  names_left q = Some b :: names_for (names_of it) (map fst rest).
Proof. intros Er En. unfold names_left. rewrite Er. cbn [map fst]. apply next_name_ok in En. apply En. Qed.

Lemma step_based k out d q d' q' : based k out d q -> step k d q = (d', q') -> based k out d' q'.
Proof.
  intros (l & -> & N1 & W & pre & P) H. unfold step, next_bag in H.
  assert (Same : forall w, match w with Writing _ _ _ => False | _ => True end -> based k out (out ++ l) (at_ q w)).
  { intros w Hw. exists l. split; [reflexivity|]. split; [exact N1|]. split; [cbn [at_ q_where]; destruct w; [exact Logic.I|destruct Hw|exact Logic.I|exact Logic.I]|]. exists pre. exact P. }
  destruct (q_where q) as [|b ops fin| |e] eqn:Ew.
  - destruct (q_rest q) as [|[m h] rest] eqn:Er; [injection H as <- <-; apply Same; exact Logic.I|].
    destruct (next_name m (q_naming q)) as [[[b|] it]|e] eqn:En; try (injection H as <- <-; apply Same; exact Logic.I).
    destruct (od_has b (out ++ l)) eqn:Hb; [injection H as <- <-; apply Same; exact Logic.I|].
    destruct (bag_ops (k_source k) (k_opts k) b m h (push_member b (q_members q)) (fold_left (add_lookup b) (plan_files (k_source k) m) (q_lookup q))) as [ops fin] eqn:Eo.
    injection H as <- <-. apply od_has_false in Hb. rewrite od_get_app in Hb. destruct (od_get b out) eqn:Ho; [discriminate Hb|].
    pose proof (names_next m h rest b it q Er En) as Q. rewrite Q in P.
    exists (od_set b [] l). split; [apply od_set_app; exact Ho|]. split; [|split].
    + intros b0 G. rewrite od_get_set in G. destruct (streq_reflect b0 b) as [Eb|D]; [rewrite Eb; split; [exact Ho|]|exact (N1 b0 G)].
      rewrite P. apply in_app_iff. right. left. reflexivity.
    + cbn [q_where]. rewrite od_get_set, streq_refl. discriminate.
    + exists (pre ++ [Some b]). rewrite P, <- app_assoc. reflexivity.
  - destruct ops as [|x ops]; [destruct fin as [u|e]; injection H as <- <-; apply Same; exact Logic.I|].
    destruct (run_op _ x) as [t|e]; injection H as <- <-; [|apply Same; exact Logic.I].
    destruct (N1 b W) as [Ho Hn]. exists (od_set b t l). split; [apply od_set_app; exact Ho|]. split; [|split].
    + intros b0 G. rewrite od_get_set in G. destruct (streq_reflect b0 b) as [Eb|D]; [rewrite Eb; split; [exact Ho|exact Hn]|exact (N1 b0 G)].
    + cbn [at_ q_where]. rewrite od_get_set, streq_refl. discriminate.
    + exists pre. exact P.
  - injection H as <- <-. exists l. split; [reflexivity|]. split; [exact N1|]. rewrite Ew. split; [exact Logic.I|]. exists pre. exact P.
  - injection H as <- <-. exists l. split; [reflexivity|]. split; [exact N1|]. rewrite Ew. split; [exact Logic.I|]. exists pre. exact P.
Qed.

Lemma manifests_first p : map fst (manifests p) = p_manifests p.
Proof.
  unfold manifests. induction (p_manifests p) as [|m [|m' l] IH]; [reflexivity|reflexivity|].
  change (mark_head (m :: m' :: l)) with ((m, false) :: mark_head (m' :: l)). cbn [map fst]. rewrite IH. reflexivity.
Qed.

Lemma start_based k out : based k out out (start k).
Proof.
  exists []. rewrite app_nil_r. split; [reflexivity|]. split; [intros b G; exfalso; apply G; reflexivity|]. unfold start, names0, names_left.
  destruct (initial_lists (k_source k)) as [[ms lu]|e]; cbn [q_where q_rest q_naming].
  - split; [exact Logic.I|]. exists []. rewrite manifests_first. reflexivity.
  - split; [exact Logic.I|]. exists (names_for (names_of (k_naming k)) (p_manifests (k_plan k))). cbn [map names_for]. rewrite app_nil_r. reflexivity.
Qed.

(** A process alone does what [plan_left] and [apply_plan] say. *)
Lemma alone_facts k out : forall n d q, alone k n out (start k) = (d, q) ->
  based k out d q /\ (exists n', plan_left (k_source k) (k_opts k) (k_plan k) (k_naming k) n' out = d) /\
  ends_with k d q = apply_plan (k_source k) (k_opts k) (k_plan k) (k_naming k) out.
Proof.
  assert (Start : forall n', left_of k n' out (start k) = plan_left (k_source k) (k_opts k) (k_plan k) (k_naming k) n' out).
  { intros n'. unfold left_of, start, plan_left. destruct (initial_lists (k_source k)) as [[ms lu]|e]; reflexivity. }
  assert (G : forall n d q, alone k n out (start k) = (d, q) ->
    based k out d q /\ (forall m, exists n', plan_left (k_source k) (k_opts k) (k_plan k) (k_naming k) n' out = left_of k m d q) /\
    ends_with k d q = apply_plan (k_source k) (k_opts k) (k_plan k) (k_naming k) out).
  { induction n as [|n IH]; intros d q H; cbn [alone] in H.
    - injection H as <- <-. split; [apply start_based|]. split; [intros m; exists m; symmetry; apply Start|].
      unfold ends_with, start, apply_plan. destruct (initial_lists (k_source k)) as [[ms lu]|e]; reflexivity.
    - destruct (alone k n out (start k)) as [d0 q0]. destruct (IH d0 q0 eq_refl) as (B & L & E). pose proof (based_writes _ _ _ _ B) as Hw.
      split; [exact (step_based _ _ _ _ _ _ B H)|]. split; [|rewrite (step_ends _ _ _ _ _ Hw H); exact E].
      intros m. destruct (step_left k d0 q0 d q m Hw H) as [m' Em]. destruct (L m') as [n' En]. exists n'. rewrite En. exact Em. }
  intros n d q H. destruct (G n d q H) as (B & L & E). split; [exact B|]. split; [|exact E].
  destruct (L 0) as [n' En]. exists n'. rewrite En. apply left_of_zero. exact (based_writes _ _ _ _ B).
Qed.

(** ** A process ends *)

Definition over (q : proc) : Prop := match q_where q with Ended | Raised _ => True | _ => False end.

Lemma alone_front k n : forall d q, alone k (S n) d q = (let (d1, q1) := step k d q in alone k n d1 q1).
Proof.
  induction n as [|n IH]; intros d q; [cbn [alone]; destruct (step k d q); reflexivity|].
  cbn [alone] in *. rewrite IH. destruct (step k d q) as [d1 q1]. cbn [alone]. reflexivity.
Qed.

Lemma over_stays k n : forall d q, over q -> alone k n d q = (d, q).
Proof.
  induction n as [|n IH]; intros d q H; [reflexivity|]. cbn [alone]. rewrite IH by exact H.
  unfold step. unfold over in H. destruct (q_where q); try contradiction; reflexivity.
Qed.

Definition gets_over (k : task) (d : dict tree) (q : proc) : Prop := exists n, forall m, n <= m -> over (snd (alone k m d q)).

Lemma over_now k d q : over q -> gets_over k d q.
Proof. intros H. exists 0. intros m _. rewrite over_stays by exact H. exact H. Qed.

Lemma over_next k d q : gets_over k (fst (step k d q)) (snd (step k d q)) -> gets_over k d q.
Proof.
  intros [n H]. exists (S n). intros m L. destruct m as [|m]; [lia|]. rewrite alone_front. destruct (step k d q) as [d1 q1]. cbn [fst snd] in H. apply H. lia.
Qed.

Lemma writing_over k rest : (forall d q, q_rest q = rest -> q_where q = Between -> gets_over k d q) ->
  forall ops d q b fin, q_rest q = rest -> q_where q = Writing b ops fin -> gets_over k d q.
Proof.
  intros HB. induction ops as [|x ops IH]; intros d q b fin Er W; apply over_next; unfold step; rewrite W.
  - destruct fin as [u|e]; cbn [fst snd]; [apply HB; [exact Er|reflexivity]|apply over_now; exact Logic.I].
  - destruct (run_op _ x) as [t|e]; cbn [fst snd]; [apply (IH _ _ b fin); [exact Er|reflexivity]|apply over_now; exact Logic.I].
Qed.

Lemma between_over k rest : forall d q, q_rest q = rest -> q_where q = Between -> gets_over k d q.
Proof.
  induction rest as [|[m h] rest IH]; intros d q Er W; apply over_next; unfold step, next_bag; rewrite W, Er.
  - apply over_now. exact Logic.I.
  - destruct (next_name m (q_naming q)) as [[[b|] it]|e]; try (apply over_now; exact Logic.I).
    destruct (od_has b d); [apply over_now; exact Logic.I|].
    destruct (bag_ops (k_source k) (k_opts k) b m h (push_member b (q_members q)) (fold_left (add_lookup b) (plan_files (k_source k) m) (q_lookup q))) as [ops fin].
    cbn [fst snd]. apply (writing_over k rest IH ops _ _ b fin); reflexivity.
Qed.

Lemma start_over k out : gets_over k out (start k).
Proof.
  unfold start. destruct (initial_lists (k_source k)) as [[ms lu]|e]; [|apply over_now; exact Logic.I]. eapply between_over; reflexivity.
Qed.

(** ** All the processes *)

Definition turns (i : nat) (sched : list nat) : nat := count_occ Nat.eq_dec sched i.

(** The process [i] met a bag that another one had made. *)
Definition collided (ks : nat -> task) (out : dict tree) (ws : nat -> dict tree) (i : nat) (q : proc) : Prop :=
  q_where q = Raised EOS /\
  exists b j, j <> i /\ od_get b out = None /\ od_get b (ws j) <> None /\ od_get b (ws i) = None /\ In (Some b) (names0 (ks i)).

Record together (ks : nat -> task) (out : dict tree) (past : list nat) (g : dict tree) (qs : nat -> proc) (ws : nat -> dict tree) : Prop := {
  tg_alone : forall i, exists n q, alone (ks i) n out (start (ks i)) = (ws i, q) /\
    ((qs i = q /\ n = turns i past) \/ collided ks out ws i (qs i));
  tg_there : forall i b t, od_get b (ws i) = Some t -> od_get b g = Some t;
  tg_from : forall b t, od_get b g = Some t -> exists i, od_get b (ws i) = Some t;
  tg_one : forall i j b, i <> j -> od_get b (ws i) <> None -> od_get b (ws j) <> None -> od_get b out <> None
}.

Definition upd (i : nat) (w : dict tree) (ws : nat -> dict tree) : nat -> dict tree := fun j => if Nat.eqb j i then w else ws j.

Lemma upd_same i w ws : upd i w ws i = w.
Proof. unfold upd. rewrite Nat.eqb_refl. reflexivity. Qed.
Lemma upd_other i w ws j : j <> i -> upd i w ws j = ws j.
Proof. intros N. unfold upd. apply Nat.eqb_neq in N. rewrite N. reflexivity. Qed.
Lemma proc_same i q qs : set_proc i q qs i = q.
Proof. unfold set_proc. rewrite Nat.eqb_refl. reflexivity. Qed.
Lemma proc_other i q qs j : j <> i -> set_proc i q qs j = qs j.
Proof. intros N. unfold set_proc. apply Nat.eqb_neq in N. rewrite N. reflexivity. Qed.

Lemma turns_same i l : turns i (l ++ [i]) = S (turns i l).
Proof. unfold turns. rewrite count_occ_app. cbn [count_occ]. destruct (Nat.eq_dec i i); [lia|congruence]. Qed.
Lemma turns_other i j l : j <> i -> turns j (l ++ [i]) = turns j l.
Proof. intros N. unfold turns. rewrite count_occ_app. cbn [count_occ]. destruct (Nat.eq_dec i j); [congruence|lia]. Qed.

(** The step of a process among others is the one that it would take alone, or
    it meets a bag of another. *)
Lemma step_among k out w g q : based k out w q -> (forall b t, od_get b w = Some t -> od_get b g = Some t) ->
  (exists q', step k g q = (g, q') /\ step k w q = (w, q')) \/
  (exists b t q', step k g q = (od_set b t g, q') /\ step k w q = (od_set b t w, q') /\ od_get b out = None /\ (od_get b w <> None \/ od_get b g = None)) \/
  (exists b, q_where (snd (step k g q)) = Raised EOS /\ fst (step k g q) = g /\ od_get b w = None /\ od_get b g <> None /\ In (Some b) (names0 k)).
Proof.
  intros B Sub. pose proof B as (l & Ew & N1 & W & pre & P). unfold step, next_bag.
  destruct (q_where q) as [|b ops fin| |e] eqn:Eq; [| |left; eexists; split; reflexivity|left; eexists; split; reflexivity].
  - destruct (q_rest q) as [|[m h] rest] eqn:Er; [left; eexists; split; reflexivity|].
    destruct (next_name m (q_naming q)) as [[[b|] it]|e] eqn:En; try (left; eexists; split; reflexivity).
    destruct (od_has b w) eqn:Hw.
    + unfold od_has in Hw. destruct (od_get b w) as [t|] eqn:Gw; [|discriminate Hw]. assert (Hg : od_has b g = true) by (unfold od_has; rewrite (Sub b t Gw); reflexivity).
      rewrite Hg. left. eexists. split; reflexivity.
    + apply od_has_false in Hw. destruct (od_has b g) eqn:Hg.
      * right. right. exists b. split; [reflexivity|]. split; [reflexivity|]. split; [exact Hw|]. split; [unfold od_has in Hg; destruct (od_get b g); [discriminate|discriminate Hg]|].
        rewrite P, (names_next m h rest b it q Er En). apply in_app_iff. right. left. reflexivity.
      * right. left. destruct (bag_ops (k_source k) (k_opts k) b m h (push_member b (q_members q)) (fold_left (add_lookup b) (plan_files (k_source k) m) (q_lookup q))) as [ops fin].
        exists b, [], {| q_where := Writing b ops fin; q_rest := rest; q_members := push_member b (q_members q); q_lookup := fold_left (add_lookup b) (plan_files (k_source k) m) (q_lookup q); q_naming := it |}.
        split; [reflexivity|]. split; [reflexivity|]. apply od_has_false in Hg. split; [|right; exact Hg].
        rewrite Ew, od_get_app in Hw. destruct (od_get b out); [discriminate Hw|reflexivity].
  - destruct (N1 b W) as [Ho _]. assert (Gw : exists t, od_get b w = Some t).
    { rewrite Ew, od_get_app, Ho. destruct (od_get b l) as [t|]; [exists t; reflexivity|congruence]. }
    destruct Gw as [t Gw]. destruct ops as [|x ops]; [destruct fin as [u|e]; left; eexists; split; reflexivity|].
    rewrite Gw, (Sub b t Gw). destruct (run_op t x) as [t'|e]; [|left; eexists; split; reflexivity].
    right. left. exists b, t', (at_ q (Writing b ops fin)). split; [reflexivity|]. split; [reflexivity|]. split; [exact Ho|]. left. rewrite Gw. discriminate.
Qed.

Lemma together_step ks out past g qs ws i : together ks out past g qs ws ->
  exists ws', together ks out (past ++ [i]) (fst (step (ks i) g (qs i))) (set_proc i (snd (step (ks i) g (qs i))) qs) ws'.
Proof.
  intros [TA TT TF TO]. destruct (TA i) as (n & q & Al & Hi).
  assert (Stay : forall q', fst (step (ks i) g (qs i)) = g -> snd (step (ks i) g (qs i)) = q' ->
     ((exists n1 q1, alone (ks i) n1 out (start (ks i)) = (ws i, q1) /\ ((q' = q1 /\ n1 = turns i (past ++ [i])) \/ collided ks out ws i q'))) ->
     exists ws', together ks out (past ++ [i]) (fst (step (ks i) g (qs i))) (set_proc i (snd (step (ks i) g (qs i))) qs) ws').
  { intros q' Eg Eq Hq. rewrite Eg, Eq. exists ws. constructor; [|exact TT|exact TF|exact TO]. intros j. destruct (Nat.eq_dec j i) as [->|N].
    - rewrite proc_same. exact Hq.
    - rewrite proc_other, turns_other by exact N. apply TA. }
  destruct Hi as [[Eq En]|C].
  - rewrite Eq in *. destruct (alone_facts _ _ _ _ _ Al) as (B & _ & _).
    assert (AS : forall x, step (ks i) (ws i) q = x -> alone (ks i) (S n) out (start (ks i)) = x) by (intros x <-; cbn [alone]; rewrite Al; reflexivity).
    destruct (step_among (ks i) out (ws i) g q B (TT i)) as [(q' & Sg & Sw)|[(b & t & q' & Sg & Sw & Ho & Hb)|(b & Hr & Eg & Gw & Gg & Hn)]].
    + apply (Stay q'); [rewrite Sg; reflexivity|rewrite Sg; reflexivity|]. exists (S n), q'. split; [exact (AS _ Sw)|]. left. split; [reflexivity|]. rewrite turns_same, <- En. reflexivity.
    + rewrite Sg. cbn [fst snd]. exists (upd i (od_set b t (ws i)) ws).
      assert (Nj : forall j, j <> i -> od_get b (ws j) = None).
      { intros j N. destruct (od_get b (ws j)) as [t0|] eqn:Gj; [|reflexivity]. exfalso. destruct Hb as [Hb|Hb].
        - apply (TO i j b); [congruence|exact Hb|rewrite Gj; discriminate|exact Ho].
        - rewrite (TT j b t0 Gj) in Hb. discriminate Hb. }
      constructor.
      * intros j. destruct (Nat.eq_dec j i) as [->|N].
        -- rewrite proc_same, upd_same. exists (S n), q'. split; [exact (AS _ Sw)|]. left. split; [reflexivity|]. rewrite turns_same, <- En. reflexivity.
        -- rewrite proc_other, turns_other by exact N. rewrite upd_other by exact N. destruct (TA j) as (nj & qj & Aj & Hj). exists nj, qj. split; [exact Aj|].
           destruct Hj as [Hj|(Hr & b0 & j0 & N0 & O0 & W0 & W1 & Hn)]; [left; exact Hj|right]. split; [exact Hr|]. exists b0, j0. split; [exact N0|]. split; [exact O0|].
           split; [|rewrite upd_other by exact N; split; [exact W1|exact Hn]].
           destruct (Nat.eq_dec j0 i) as [->|N3]; [|rewrite upd_other by exact N3; exact W0]. rewrite upd_same, od_get_set. destruct (streq b0 b); [discriminate|exact W0].
      * intros j b0 t0. destruct (Nat.eq_dec j i) as [->|N].
        -- rewrite upd_same, !od_get_set. destruct (streq b0 b); [auto|apply TT].
        -- rewrite upd_other by exact N. intros G. rewrite od_get_set. destruct (streq_reflect b0 b) as [->|D]; [rewrite (Nj j N) in G; discriminate G|]. exact (TT j b0 t0 G).
      * intros b0 t0. rewrite od_get_set. destruct (streq_reflect b0 b) as [->|D].
        -- intros G. exists i. rewrite upd_same, od_get_set, streq_refl. exact G.
        -- intros G. destruct (TF b0 t0 G) as [j Gj]. exists j. destruct (Nat.eq_dec j i) as [->|N]; [|rewrite upd_other by exact N; exact Gj].
           rewrite upd_same, od_get_set. apply streq_neq in D. rewrite D. exact Gj.
      * intros j1 j2 b0 N. destruct (streq_reflect b0 b) as [->|D].
        -- intros G1 G2. exfalso. destruct (Nat.eq_dec j1 i) as [->|N1].
           ++ rewrite upd_other in G2 by congruence. apply G2. apply Nj. congruence.
           ++ rewrite upd_other in G1 by exact N1. apply G1. apply Nj. exact N1.
        -- assert (E : forall j, od_get b0 (upd i (od_set b t (ws i)) ws j) = od_get b0 (ws j)).
           { intros j. destruct (Nat.eq_dec j i) as [->|Nj']; [|rewrite upd_other by exact Nj'; reflexivity]. rewrite upd_same, od_get_set. apply streq_neq in D. rewrite D. reflexivity. }
           rewrite !E. apply TO. exact N.
    + apply (Stay (snd (step (ks i) g q))); [exact Eg|reflexivity|]. exists n, q. split; [exact Al|]. right. split; [exact Hr|].
      destruct (od_get b g) as [t|] eqn:Gb; [|congruence]. destruct (TF b t Gb) as [j Gj]. exists b, j.
      split; [intros ->; rewrite Gw in Gj; discriminate Gj|]. split.
      * destruct B as (l & Ew & _). rewrite Ew, od_get_app in Gw. destruct (od_get b out); [discriminate Gw|reflexivity].
      * split; [rewrite Gj; discriminate|]. split; [exact Gw|exact Hn].
  - assert (Es : step (ks i) g (qs i) = (g, qs i)) by (destruct C as [Hr _]; unfold step; rewrite Hr; reflexivity).
    apply (Stay (qs i)); [rewrite Es; reflexivity|rewrite Es; reflexivity|]. exists n, q. split; [exact Al|]. right. exact C.
Qed.

Lemma together_race ks out sched : forall past g qs ws, together ks out past g qs ws ->
  exists ws', together ks out (past ++ sched) (fst (race ks sched g qs)) (snd (race ks sched g qs)) ws'.
Proof.
  induction sched as [|i sched IH]; intros past g qs ws T; cbn [race]; [rewrite app_nil_r; exists ws; exact T|].
  destruct (together_step ks out past g qs ws i T) as [ws1 T1]. destruct (step (ks i) g (qs i)) as [g1 q1]. cbn [fst snd] in T1.
  destruct (IH _ _ _ _ T1) as [ws2 T2]. exists ws2. rewrite <- app_assoc in T2. exact T2.
Qed.

Lemma together_all ks out sched : exists ws, together ks out sched (fst (run_all ks sched out)) (snd (run_all ks sched out)) ws.
Proof.
  apply (together_race ks out sched [] out (fun i => start (ks i)) (fun _ => out)). constructor.
  - intros i. exists 0, (start (ks i)). split; [reflexivity|]. left. split; reflexivity.
  - intros i b t H. exact H.
  - intros b t H. exists 0. exact H.
  - intros i j b _ H _. exact H.
Qed.

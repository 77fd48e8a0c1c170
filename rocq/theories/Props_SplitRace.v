(** C133: splits that run at the same time *)
Require Import String NArith PeanoNat Bool List Lia.
From Verif Require Import PyBase PyFacts Fs FsFacts HeadBag BagIt BagItProofs Split SplitApply SplitApplyProofs SplitApplyProofs6 Props_SplitApply Props_SplitApply3 SplitStop SpecSplitStop Props_SplitStop SplitRace SplitRaceProofs SplitRaceProofs2.
Import ListNotations.
Open Scope nat_scope.

(** The task [k], run alone: [n] steps of it, and all of it. *)
Definition left_alone (k : task) (n : nat) (out : dict tree) : dict tree := plan_left (k_source k) (k_opts k) (k_plan k) (k_naming k) n out.
Definition result_alone (k : task) (out : dict tree) : res astate := apply_plan (k_source k) (k_opts k) (k_plan k) (k_naming k) out.
Definition makes_alone (k : task) (out bags : dict tree) : Prop := splits_into (k_source k) (k_opts k) (k_plan k) (k_naming k) out bags.

(** [b] is one of the names that it gives: those of the iterator, then those of
    the plan. *)
Definition wants (k : task) (b : pystr) : Prop := In (Some b) (names_for (names_of (k_naming k)) (p_manifests (k_plan k))).

(** A number of processes, and the order of their steps: [made i] is what the
    process [i] has made. *)
Record outcome (ks : nat -> task) (out g : dict tree) (qs : nat -> proc) (made : nat -> dict tree) : Prop := {
  (** each has made what it makes alone in some number of steps, *)
  oc_alone : forall i, exists n, left_alone (ks i) n out = out ++ made i;
  (** all that is there, *)
  oc_all : forall b t, od_get b g = Some t <-> od_get b out = Some t \/ exists i, od_get b (made i) = Some t;
  (** no bag is made by two of them, and none was there, *)
  oc_one : forall i j b, od_get b (made i) <> None -> od_get b (made j) <> None -> i = j;
  oc_new : forall i b, od_get b (made i) <> None -> od_get b out = None /\ wants (ks i) b;
  (** one that ended has made what it makes alone, *)
  oc_ended : forall i, q_where (qs i) = Ended -> makes_alone (ks i) out (made i);
  (** and one that raised an exception does so alone, or another one has made a
      bag with a name that it gives. *)
  oc_raised : forall i e, q_where (qs i) = Raised e -> result_alone (ks i) out = Err e \/
    (e = EOS /\ exists b j, j <> i /\ wants (ks i) b /\ od_get b (made j) <> None)
}.

Lemma based_made k out d q : based k out d q -> d = out ++ skipn (length out) d /\
  forall b, od_get b (skipn (length out) d) <> None -> od_get b out = None /\ wants k b.
Proof.
  intros (l & -> & N1 & _). rewrite skipn_app, Nat.sub_diag, skipn_all. split; [reflexivity|exact N1].
Qed.

Lemma together_outcome ks out sched g qs ws : together ks out sched g qs ws ->
  outcome ks out g qs (fun i => skipn (length out) (ws i)).
Proof.
  intros [TA TT TF TO].
  assert (Bs : forall i, (exists n, left_alone (ks i) n out = ws i) /\ ws i = out ++ skipn (length out) (ws i) /\
     forall b, od_get b (skipn (length out) (ws i)) <> None -> od_get b out = None /\ wants (ks i) b).
  { intros i. destruct (TA i) as (n & q & Al & _). destruct (alone_facts _ _ _ _ _ Al) as (B & L & _). split; [exact L|exact (based_made _ _ _ _ B)]. }
  assert (Gw : forall i b, od_get b (ws i) = match od_get b out with Some t => Some t | None => od_get b (skipn (length out) (ws i)) end).
  { intros i b. destruct (Bs i) as (_ & E & _). rewrite E at 1. rewrite od_get_app. destruct (od_get b out); reflexivity. }
  assert (In_ws : forall i b, od_get b (skipn (length out) (ws i)) <> None -> od_get b (ws i) = od_get b (skipn (length out) (ws i)) /\ od_get b out = None).
  { intros i b N. destruct (Bs i) as (_ & _ & X). destruct (X b N) as [Ho _]. rewrite Gw, Ho. split; reflexivity. }
  constructor.
  - intros i. destruct (Bs i) as ((n & E) & E2 & _). exists n. rewrite E. exact E2.
  - intros b t. split.
    + intros G. destruct (TF b t G) as [i Gi]. rewrite Gw in Gi. destruct (od_get b out) as [t0|]; [left; exact Gi|right; exists i; exact Gi].
    + intros [Ho|[i Gi]]; [apply (TT 0); rewrite Gw, Ho; reflexivity|]. apply (TT i). destruct (In_ws i b) as [-> _]; [rewrite Gi; discriminate|exact Gi].
  - intros i j b Ni Nj. destruct (Nat.eq_dec i j) as [E|N]; [exact E|]. exfalso. destruct (In_ws i b Ni) as [Ei Ho]. destruct (In_ws j b Nj) as [Ej _].
    apply (TO i j b N); [rewrite Ei; exact Ni|rewrite Ej; exact Nj|exact Ho].
  - intros i b N. destruct (Bs i) as (_ & _ & X). exact (X b N).
  - intros i H. destruct (TA i) as (n & q & Al & [[Eq _]|[C _]]); [|rewrite H in C; discriminate C].
    destruct (alone_facts _ _ _ _ _ Al) as (_ & _ & E). rewrite Eq in H. unfold ends_with in E. rewrite H in E.
    exists (state (ws i) q). split; [symmetry; exact E|]. cbn [state a_out]. apply Bs.
  - intros i e H. destruct (TA i) as (n & q & Al & [[Eq _]|(C & b & j & Nj & Ho & Wj & _ & Hn)]).
    + destruct (alone_facts _ _ _ _ _ Al) as (_ & _ & E). rewrite Eq in H. unfold ends_with in E. rewrite H in E. left. symmetry. exact E.
    + rewrite H in C. injection C as ->. right. split; [reflexivity|]. exists b, j. split; [exact Nj|]. split; [exact Hn|]. rewrite Gw, Ho in Wj. exact Wj.
Qed.

(** ** Any processes, in any order of their steps *)
Theorem C133_race : forall ks sched out,
  exists made, outcome ks out (fst (run_all ks sched out)) (snd (run_all ks sched out)) made.
Proof.
  intros ks sched out. destruct (together_all ks out sched) as [ws T]. exists (fun i => skipn (length out) (ws i)). exact (together_outcome _ _ _ _ _ _ T).
Qed.
Print Assumptions C133_race.

(** ** Different names *)

Lemma alone_ends k out bags : makes_alone k out bags -> exists steps, forall n, steps <= n ->
  exists d q, alone k n out (start k) = (d, q) /\ q_where q = Ended /\ d = out ++ bags.
Proof.
  intros (a & Ha & Eb). destruct (start_over k out) as [N HN]. exists N. intros n L. specialize (HN n L). destruct (alone k n out (start k)) as [d q] eqn:Al. exists d, q.
  split; [reflexivity|]. cbn [snd] in HN. destruct (alone_facts _ _ _ _ _ Al) as (_ & _ & E). unfold over in HN. unfold ends_with in E.
  destruct (q_where q); try contradiction; [|rewrite Ha in E; discriminate E]. rewrite Ha in E. injection E as <-. split; [reflexivity|exact Eb].
Qed.

(** If the names that they give are all different and each of the splits
    succeeds alone, then none raises, and each ends after a number of turns, in
    whatever order, with the bags that it makes alone. *)
Theorem C133_different : forall ks out bags,
  (forall i, makes_alone (ks i) out (bags i)) ->
  (forall i j b, wants (ks i) b -> wants (ks j) b -> i = j) ->
  forall i, exists steps, forall sched,
    (forall e, q_where (snd (run_all ks sched out) i) <> Raised e) /\
    (steps <= count_occ Nat.eq_dec sched i ->
       q_where (snd (run_all ks sched out) i) = Ended /\
       forall b t, od_get b (bags i) = Some t -> od_get b (fst (run_all ks sched out)) = Some t).
Proof.
  intros ks out bags Hs Hd i. destruct (alone_ends (ks i) out (bags i) (Hs i)) as [steps St]. exists steps. intros sched.
  destruct (together_all ks out sched) as [ws T]. pose proof (together_outcome _ _ _ _ _ _ T) as O.
  assert (Nr : forall e, q_where (snd (run_all ks sched out) i) <> Raised e).
  { intros e H. destruct (oc_raised _ _ _ _ _ O i e H) as [E|(_ & b & j & Nj & Wi & Mj)].
    - destruct (Hs i) as (a & Ha & _). unfold result_alone in E. rewrite Ha in E. discriminate E.
    - apply Nj. apply (Hd j i b); [|exact Wi]. apply (oc_new _ _ _ _ _ O j b Mj). }
  split; [exact Nr|]. intros L. destruct (tg_alone _ _ _ _ _ _ T i) as (n & q & Al & [[Eq En]|[C _]]); [|exfalso; exact (Nr _ C)].
  destruct (St n) as (d & q' & Al' & We & Ed); [rewrite En; exact L|]. rewrite Al in Al'. injection Al' as <- <-. rewrite Eq. split; [exact We|].
  intros b t G. apply (tg_there _ _ _ _ _ _ T i). rewrite Ed, od_get_app.
  destruct (od_get b out) as [t0|] eqn:Ho; [|exact G]. exfalso.
  assert (Sk : skipn (length out) (ws i) = bags i) by (rewrite Ed, skipn_app, Nat.sub_diag, skipn_all; reflexivity).
  assert (X : od_get b out = None) by (apply (oc_new _ _ _ _ _ O i b); rewrite Sk, G; discriminate). rewrite X in Ho. discriminate Ho.
Qed.
Print Assumptions C133_different.

(** ** The same split, several times *)

Lemma first_made k n out l : left_alone k n out = out ++ l -> l <> [] ->
  exists m rest h b it, manifests (k_plan k) = (m, h) :: rest /\ next_name m (k_naming k) = Ok (Some b, it) /\ od_get b l <> None.
Proof.
  unfold left_alone, plan_left. intros H Nl. destruct (initial_lists (k_source k)) as [[ms lu]|e].
  - destruct (left_first_bag (k_source k) (k_opts k) (manifests (k_plan k)) n {| a_out := out; a_members := ms; a_lookup := lu; a_naming := k_naming k |}) as (m & h & rest & b & it & u & more & Em & En & Hb & El).
    + cbn [a_out]. rewrite H. intros E. apply Nl. apply (app_inv_head out). rewrite app_nil_r. exact E.
    + cbn [a_naming a_out] in *. rewrite H in El. apply app_inv_head in El. exists m, rest, h, b, it. split; [exact Em|]. split; [exact En|]. rewrite El. cbn [od_get]. rewrite streq_refl. discriminate.
  - exfalso. apply Nl. apply (app_inv_head out). rewrite app_nil_r. symmetry. exact H.
Qed.

(** Of processes that all do the same split, which succeeds alone, one never
    raises and no other ends without an exception; and the output directory is
    as if that one had run alone. *)
Theorem C133_same : forall k out bags sched,
  makes_alone k out bags -> bags <> [] ->
  exists w n,
    (forall e, q_where (snd (run_all (fun _ => k) sched out) w) <> Raised e) /\
    (forall i, i <> w -> q_where (snd (run_all (fun _ => k) sched out) i) <> Ended) /\
    forall b, od_get b (fst (run_all (fun _ => k) sched out)) = od_get b (left_alone k n out).
Proof.
  intros k out bags sched Hs Nb. destruct (C133_race (fun _ => k) sched out) as [made O].
  set (g := fst (run_all (fun _ => k) sched out)) in *. set (qs := snd (run_all (fun _ => k) sched out)) in *.
  destruct Hs as (a & Ha & Ea).
  assert (Ends : forall i, q_where (qs i) = Ended -> made i <> []).
  { intros i H. destruct (oc_ended _ _ _ _ _ O i H) as (a' & Ha' & Ea'). rewrite Ha in Ha'. injection Ha' as <-. rewrite Ea in Ea'. apply app_inv_head in Ea'. rewrite <- Ea'. exact Nb. }
  assert (Two : forall i j, made i <> [] -> made j <> [] -> i = j).
  { intros i j Ni Nj. destruct (oc_alone _ _ _ _ _ O i) as [ni Ei]. destruct (oc_alone _ _ _ _ _ O j) as [nj Ej].
    destruct (first_made _ _ _ _ Ei Ni) as (m & rest & h & b & it & Em & En & Gi). destruct (first_made _ _ _ _ Ej Nj) as (m' & rest' & h' & b' & it' & Em' & En' & Gj).
    rewrite Em in Em'. injection Em' as <- <- <-. rewrite En in En'. injection En' as <- <-. exact (oc_one _ _ _ _ _ O i j b Gi Gj). }
  assert (Raises : forall i e, q_where (qs i) = Raised e -> exists j, j <> i /\ made j <> []).
  { intros i e H. destruct (oc_raised _ _ _ _ _ O i e H) as [E|(_ & b & j & Nj & _ & Mj)].
    - unfold result_alone in E. rewrite Ha in E. discriminate E.
    - exists j. split; [exact Nj|]. intros X. rewrite X in Mj. apply Mj. reflexivity. }
  assert (Win : forall w, (forall i, made i <> [] -> i = w) ->
     exists w n, (forall e, q_where (qs w) <> Raised e) /\ (forall i, i <> w -> q_where (qs i) <> Ended) /\ forall b, od_get b g = od_get b (left_alone k n out)).
  { intros w Hw. destruct (oc_alone _ _ _ _ _ O w) as [n En]. exists w, n. split; [|split].
    - intros e H. destruct (Raises w e H) as (j & Nj & Mj). apply Nj. exact (Hw j Mj).
    - intros i Ni H. apply Ni. apply Hw. exact (Ends i H).
    - intros b. rewrite En, od_get_app. destruct (od_get b g) as [t|] eqn:G.
      + apply (oc_all _ _ _ _ _ O) in G. destruct G as [Ho|[i Gi]]; [rewrite Ho; reflexivity|].
        assert (i = w) by (apply Hw; intros X; rewrite X in Gi; discriminate Gi). subst i.
        destruct (oc_new _ _ _ _ _ O w b) as [-> _]; [rewrite Gi; discriminate|]. symmetry. exact Gi.
      + assert (X : forall t, ~ (od_get b out = Some t \/ exists i, od_get b (made i) = Some t)) by (intros t Y; apply (oc_all _ _ _ _ _ O) in Y; rewrite G in Y; discriminate Y).
        destruct (od_get b out) as [t|] eqn:Ho; [exfalso; apply (X t); left; reflexivity|].
        destruct (od_get b (made w)) as [t|] eqn:Gw; [exfalso; apply (X t); right; exists w; exact Gw|reflexivity]. }
  (** whether the first bag is there *)
  assert (Fst : exists m rest h, manifests (k_plan k) = (m, h) :: rest).
  { destruct (manifests (k_plan k)) as [|[m h] rest] eqn:Em; [|exists m, rest, h; reflexivity]. exfalso. apply Nb.
    unfold apply_plan in Ha. destruct (initial_lists (k_source k)) as [[ms lu]|e]; [|discriminate Ha]. cbn [bind] in Ha. rewrite Em in Ha. injection Ha as <-.
    cbn [a_out] in Ea. symmetry. apply (app_inv_head out). rewrite app_nil_r. exact Ea. }
  destruct Fst as (m & rest & h & Em).
  destruct (next_name m (k_naming k)) as [[[b|] it]|e] eqn:En.
  2, 3: apply (Win 0); intros i Ni; exfalso; destruct (oc_alone _ _ _ _ _ O i) as [ni Ei]; destruct (first_made _ _ _ _ Ei Ni) as (m' & rest' & h' & b' & it' & Em' & En' & _); rewrite Em in Em'; injection Em' as <- <- <-; rewrite En in En'; discriminate En'.
  assert (Has : forall i, made i <> [] -> od_get b (made i) <> None).
  { intros i Ni. destruct (oc_alone _ _ _ _ _ O i) as [ni Ei]. destruct (first_made _ _ _ _ Ei Ni) as (m' & rest' & h' & b' & it' & Em' & En' & G).
    rewrite Em in Em'. injection Em' as <- <- <-. rewrite En in En'. injection En' as <- <-. exact G. }
  destruct (od_get b out) as [t|] eqn:Ho.
  - apply (Win 0). intros i Ni. exfalso. destruct (oc_new _ _ _ _ _ O i b (Has i Ni)) as [X _]. rewrite X in Ho. discriminate Ho.
  - destruct (od_get b g) as [t|] eqn:Gb.
    + assert (Gb' := Gb). apply (oc_all _ _ _ _ _ O) in Gb'. destruct Gb' as [X|[w Gw]]; [rewrite X in Ho; discriminate Ho|].
      apply (Win w). intros i Ni. apply Two; [exact Ni|]. intros X. rewrite X in Gw. discriminate Gw.
    + apply (Win 0). intros i Ni. exfalso. apply Has in Ni. destruct (od_get b (made i)) as [t|] eqn:Gi; [|congruence].
      assert (X : od_get b g = Some t) by (apply (oc_all _ _ _ _ _ O); right; exists i; exact Gi). rewrite X in Gb. discriminate Gb.
Qed.
Print Assumptions C133_same.

(** ** Cases *)

Definition rc_named (a b : pystr) : plan :=
  {| p_bag := p_bag ex_plan;
     p_manifests := match p_manifests ex_plan with
                    | [m; m'] => [{| m_name := Some a; m_contents := m_contents m; m_total := m_total m |};
                                  {| m_name := Some b; m_contents := m_contents m'; m_total := m_total m' |}]
                    | l => l
                    end |}.
Definition rc_task (a b : pystr) : task :=
  {| k_source := ex_source; k_opts := ex_opts; k_plan := rc_named a b; k_naming := None |}.

Fixpoint alternately (n : nat) (l : list nat) : list nat := match n with O => [] | S n => l ++ alternately n l end.
Definition rc_where (q : proc) : option (option exn) := match q_where q with Ended => Some None | Raised e => Some (Some e) | _ => None end.
Definition rc_ends (ks : nat -> task) (sched : list nat) : list (option (option exn)) * list pystr :=
  (map (fun i => rc_where (snd (run_all ks sched []) i)) [0; 1], od_keys (fst (run_all ks sched []))).

(** the first two processes; the others have nothing to do *)
Definition rc_idle : task := {| k_source := ex_source; k_opts := ex_opts; k_plan := {| p_bag := p_bag ex_plan; p_manifests := [] |}; k_naming := None |}.
Definition rc_two (i : nat) : task := match i with 0 => rc_task (U "one") (U "two") | 1 => rc_task (U "un") (U "deux") | _ => rc_idle end.
Definition rc_alone (k : task) : dict tree := match result_alone k [] with Ok a => a_out a | Err _ => [] end.

Lemma rc_makes k : is_ok (result_alone k []) = true -> makes_alone k [] (rc_alone k).
Proof.
  unfold makes_alone, splits_into, rc_alone, result_alone. destruct (apply_plan _ _ _ _ _) as [a|e]; [|discriminate]. intros _. exists a. split; reflexivity.
Qed.

(** Each of two splits succeeds alone, and both of them raise. *)
Theorem C133_both_refuted : exists k1 k2 bags1 bags2 sched,
  makes_alone k1 [] bags1 /\ makes_alone k2 [] bags2 /\
  let r := run_all (fun i => if Nat.eqb i 0 then k1 else k2) sched [] in
  q_where (snd r 0) = Raised EOS /\ q_where (snd r 1) = Raised EOS /\ od_keys (fst r) = [U "one"; U "two"].
Proof.
  exists (rc_task (U "one") (U "two")), (rc_task (U "two") (U "one")), (rc_alone (rc_task (U "one") (U "two"))), (rc_alone (rc_task (U "two") (U "one"))), (alternately 40 [0; 1]).
  split; [apply rc_makes; vm_compute; reflexivity|]. split; [apply rc_makes; vm_compute; reflexivity|]. cbn [fst snd].
  split; [vm_compute; reflexivity|]. split; vm_compute; reflexivity.
Qed.
Print Assumptions C133_both_refuted.

Lemma rc_wants a b x : wants (rc_task a b) x -> x = a \/ x = b.
Proof.
  unfold wants. cbn. intros H. destruct H as [H|[H|[]]]; injection H as <-; [left|right]; reflexivity.
Qed.

Example C133_case :
  (** different names: both end; *)
  (forall i, makes_alone (rc_two i) [] (rc_alone (rc_two i))) /\
  (forall i j b, wants (rc_two i) b -> wants (rc_two j) b -> i = j) /\
  rc_ends rc_two (alternately 40 [0; 1]) = ([Some None; Some None], [U "one"; U "un"; U "two"; U "deux"]) /\
  (** the same split: one of them does *)
  rc_ends (fun _ => rc_task (U "one") (U "two")) (alternately 40 [1; 0]) = ([Some (Some EOS); Some None], [U "one"; U "two"]) /\
  rc_alone (rc_task (U "one") (U "two")) <> [].
Proof.
  split. { intros i. apply rc_makes. destruct i as [|[|i]]; vm_compute; reflexivity. }
  split.
  { intros [|[|i]] [|[|j]] b Hi Hj; try reflexivity; exfalso; cbn [rc_two] in Hi, Hj; try (exact Hi); try (exact Hj);
      destruct (rc_wants _ _ _ Hi) as [E|E]; rewrite E in Hj; destruct (rc_wants _ _ _ Hj) as [E'|E']; discriminate E'. }
  split; [vm_compute; reflexivity|]. split; [vm_compute; reflexivity|]. vm_compute. discriminate.
Qed.

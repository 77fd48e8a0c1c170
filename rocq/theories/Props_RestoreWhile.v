(** C135: restoring while others work on the directory of the bags *)
Require Import String NArith PeanoNat Bool List Lia.
From Verif Require Import PyBase PyFacts Tsv Fs FsFacts HeadBag BagIt BagItProofs Split SplitApply SplitApplyProofs SplitApplyProofs6 Props_SplitApply Props_SplitApply3 Restore Props_Restore Props_RoundTrip Props_AmendTotal2 Props_Cycle SplitStop SpecSplitStop Props_SplitStop Props_SplitUse SplitRace SplitRaceProofs SplitRaceProofs2 Props_SplitRace RestoreWhile.
Import ListNotations.
Open Scope nat_scope.

(** ** Specification *)

(** The place [l] has the bag [t] at all moments. *)
Definition keeps_at (w : scene) (l : pystr) (t : tree) : Prop := forall k, w_bag w k l = t.

(** The bag [n] is always found, or not found, as [e_find v] tells. *)
Definition always (w : scene) (v : env) (n : pystr) : Prop :=
  match e_find v n with
  | None => forall k, w_find w k n = None
  | Some b => (forall k, w_find w k n = Some (rb_loc b)) /\ keeps_at w (rb_loc b) (rb_tree b)
  end.

(** The bags are looked for in a directory: [dir k] are those that it has at the
    moment [k], and [place n] is the path of the one with the name [n]. *)
Definition watches (w : scene) (place : pystr -> pystr) (dir : nat -> dict tree) : Prop :=
  forall k n,
    match od_get n (dir k) with
    | Some t => w_find w k n = Some (place n) /\ w_bag w k (place n) = t
    | None => w_find w k n = None
    end.

(** ** Others leave the bags alone that are restored *)

Lemma copy_same ow w loc t l : keeps_at w loc t -> forall k st,
  match foldM (restore_item ow t) l st, ow with
  | r, false => bind (copy_while (fun k => w_bag w k loc) k l st) (fun r => Ok (fst r)) = r
  | _, true => True
  end.
Proof.
  intros K. destruct ow; [intros; exact Logic.I|]. induction l as [|i l IH]; intros k st; cbn [foldM copy_while]; [reflexivity|].
  rewrite K. destruct (restore_item false t st i) as [st'|e]; [|reflexivity]. cbn [bind]. apply IH.
Qed.

Lemma from_same v w skip loc t k dest : keeps_at w loc t ->
  bind (from_while v w skip loc k dest) (fun r => Ok (fst r)) = restore_from v false skip {| rb_loc := loc; rb_tree := t |} dest.
Proof.
  intros K. unfold from_while, restore_from. cbn [rb_loc rb_tree]. destruct (streq loc (e_dest v)); [reflexivity|]. rewrite !K.
  destruct (open_bag v IoText loc t) as [[i es]|e]; [|reflexivity]. cbn [bind snd]. unfold copy_items.
  pose proof (copy_same false w loc t (items_of skip t) K (S (S k)) (dest, [])) as C. cbn beta iota zeta in C. rewrite <- C.
  destruct (copy_while (fun k0 => w_bag w k0 loc) (S (S k)) (items_of skip t) (dest, [])) as [[[d up] k']|e]; [|reflexivity]. cbn [bind fst].
  destruct up as [|x up]; [reflexivity|]. destruct (update_manifests v es (x :: up) d); reflexivity.
Qed.

Lemma members_same v w skip names : (forall n, In n names -> always w v n) -> forall k dest,
  bind (members_while v w skip names k dest) (fun r => Ok (fst r)) = foldM (restore_member v false skip) names dest.
Proof.
  induction names as [|n names IH]; intros A k dest; cbn [members_while foldM]; [reflexivity|].
  pose proof (A n (or_introl eq_refl)) as An. unfold always in An. unfold restore_member at 1. destruct (e_find v n) as [[loc t]|].
  - destruct An as [F K]. rewrite F. cbn [rb_loc rb_tree] in K. cbn [rb_loc]. rewrite <- (from_same v w skip loc t (S k) dest K).
    destruct (from_while v w skip loc (S k) dest) as [[d k']|e]; [|reflexivity]. cbn [bind fst snd]. apply IH. intros m I0. apply A. right. exact I0.
  - rewrite An. reflexivity.
Qed.

Lemma lines_same v w dest names : (forall n, In n names -> always w v n) -> forall k d,
  lines_while v w dest names k d = foldM (fetch_of v dest) names d.
Proof.
  induction names as [|n names IH]; intros A k d; cbn [lines_while foldM]; [reflexivity|].
  pose proof (A n (or_introl eq_refl)) as An. unfold always in An. unfold fetch_of at 1. destruct (e_find v n) as [[loc t]|].
  - destruct An as [F K]. rewrite F. cbn [rb_loc rb_tree] in *. rewrite !K. destruct (open_bag v IoText loc (if streq loc (e_dest v) then dest else t)) as [oe|e]; [|reflexivity]. cbn [bind].
    rewrite IH by (intros m I0; apply A; right; exact I0). destruct (read F_fetch (if streq loc (e_dest v) then dest else t)); reflexivity.
  - rewrite An. reflexivity.
Qed.

(** Whatever else happens there, if the head bag and the member bags stay as they
    are then the restoration ends as if nothing had happened. *)
Theorem C135_undisturbed : forall v w us rt bsize ro h loc dest,
  keeps_at w loc (hb_tree h) ->
  (forall skip ms n, head_lists ro h = Ok (skip, ms) -> In n (others h ms) -> always w v n) ->
  restore_while v w us rt bsize ro h loc dest = restore v us rt bsize ro h loc dest.
Proof.
  intros v w us rt bsize ro h loc dest K A. unfold restore_while, restore, gather. destruct (head_lists ro h) as [[skip ms]|e]; [|reflexivity]. cbn [bind].
  assert (A' := fun n => A skip ms n eq_refl). clear A.
  destruct (start_info h dest) as [d0|e]; [|reflexivity]. cbn [bind]. rewrite <- (from_same v w skip loc (hb_tree h) 0 d0 K).
  destruct (from_while v w skip loc 0 d0) as [[d1 k1]|e]; [|reflexivity]. cbn [bind fst snd].
  rewrite <- (members_same v w skip (others h ms) A' k1 d1).
  destruct (members_while v w skip (others h ms) k1 d1) as [[d2 k2]|e]; [|reflexivity]. cbn [bind fst].
  destruct (others h ms) as [|n ns]; [reflexivity|]. unfold restore_fetch. rewrite <- (lines_same v w d2 (n :: ns) A' k2 []).
  destruct (lines_while v w d2 (n :: ns) k2 []) as [d|e]; reflexivity.
Qed.
Print Assumptions C135_undisturbed.

(** ** Others split into the directory *)

Lemma members_searching v f w skip names : forall k dest, members_while (searching v f) w skip names k dest = members_while v w skip names k dest.
Proof.
  induction names as [|n names IH]; intros k dest; cbn [members_while]; [reflexivity|]. destruct (w_find w k n) as [loc|]; [|reflexivity].
  change (from_while (searching v f) w skip loc (S k) dest) with (from_while v w skip loc (S k) dest).
  destruct (from_while v w skip loc (S k) dest) as [r|e]; [|reflexivity]. cbn [bind]. apply IH.
Qed.
Lemma lines_searching v f w dest names : forall k d, lines_while (searching v f) w dest names k d = lines_while v w dest names k d.
Proof.
  induction names as [|n names IH]; intros k d; cbn [lines_while]; [reflexivity|]. destruct (w_find w k n) as [loc|]; [|reflexivity].
  change (open_bag (searching v f)) with (open_bag v). change (e_dest (searching v f)) with (e_dest v).
  destruct (open_bag v IoText loc (if streq loc (e_dest v) then dest else w_bag w (S k) loc)) as [r|e]; [|reflexivity]. cbn [bind]. apply IH.
Qed.
Lemma while_searching v f w us rt bsize ro h loc dest :
  restore_while (searching v f) w us rt bsize ro h loc dest = restore_while v w us rt bsize ro h loc dest.
Proof.
  unfold restore_while. destruct (head_lists ro h) as [[skip ms]|e]; [|reflexivity]. cbn [bind]. destruct (start_info h dest) as [d0|e]; [|reflexivity]. cbn [bind].
  change (from_while (searching v f) w skip loc 0 d0) with (from_while v w skip loc 0 d0). destruct (from_while v w skip loc 0 d0) as [r|e]; [|reflexivity]. cbn [bind].
  rewrite members_searching. destruct (members_while v w skip (others h ms) (snd r) (fst r)) as [[d2 k2]|e]; [|reflexivity]. cbn [bind].
  destruct (others h ms) as [|n ns]; [reflexivity|]. rewrite lines_searching. reflexivity.
Qed.

(** The bags that are there stay as they are while any number of processes split
    into the directory: restoring does not notice them. [times k]: how many steps
    they have made at the moment [k]. *)
Theorem C135_splits : forall ks sched times out w place v us rt bsize ro h dest,
  watches w place (fun k => fst (run_all ks (firstn (times k) sched) out)) ->
  od_get (hb_name h) out = Some (hb_tree h) ->
  (forall skip ms n, head_lists ro h = Ok (skip, ms) -> In n (others h ms) -> od_get n out <> None) ->
  restore_while v w us rt bsize ro h (place (hb_name h)) dest =
  restore (searching v (bags_at place out)) us rt bsize ro h (place (hb_name h)) dest.
Proof.
  intros ks sched times out w place v us rt bsize ro h dest W Hh Hm.
  assert (St : forall n t, od_get n out = Some t -> forall k, w_find w k n = Some (place n) /\ w_bag w k (place n) = t).
  { intros n t G k. specialize (W k n). cbn beta in W. destruct (C133_race ks (firstn (times k) sched) out) as [made O].
    rewrite (proj2 (oc_all _ _ _ _ _ O n t) (or_introl G)) in W. exact W. }
  rewrite <- (while_searching v (bags_at place out)).
  apply C135_undisturbed.
  - intros k. apply St. exact Hh.
  - intros skip ms n Hl I0. unfold always. cbn [searching e_find]. unfold bags_at. destruct (od_get n out) as [t|] eqn:G; [|destruct (Hm skip ms n Hl I0 G)].
    cbn [option_map rb_loc rb_tree]. split; [intros k|intros k]; apply (St n t G k).
Qed.
Print Assumptions C135_splits.

(** ** The bags of a split, while others go on *)

Lemma race_app ks s1 : forall s2 d qs, race ks (s1 ++ s2) d qs = race ks s2 (fst (race ks s1 d qs)) (snd (race ks s1 d qs)).
Proof.
  induction s1 as [|i s1 IH]; intros s2 d qs; [reflexivity|]. cbn [app race]. destruct (step (ks i) d (qs i)) as [d1 q1]. apply IH.
Qed.

Lemma step_ended k d q : q_where q = Ended -> step k d q = (d, q).
Proof. intros E. unfold step. rewrite E. reflexivity. Qed.

Lemma race_ended ks i : forall s d qs, q_where (qs i) = Ended -> q_where (snd (race ks s d qs) i) = Ended.
Proof.
  induction s as [|j s IH]; intros d qs E; [exact E|]. cbn [race]. destruct (step (ks j) d (qs j)) as [d1 q1] eqn:Es. apply IH.
  unfold set_proc. destruct (Nat.eqb i j) eqn:Ej; [|exact E]. apply Nat.eqb_eq in Ej. subst j. rewrite (step_ended _ _ _ E) in Es. injection Es as _ <-. exact E.
Qed.

Lemma step_has k d q b : od_get b d <> None -> od_get b (fst (step k d q)) <> None.
Proof.
  intros Nb. unfold step, next_bag. destruct (q_where q) as [|b0 [|x ops] fin| |e]; cbn [fst]; auto.
  - destruct (q_rest q) as [|[m h] rest]; cbn [fst]; auto. destruct (next_name m (q_naming q)) as [[[b1|] it]|e]; cbn [fst]; auto.
    destruct (od_has b1 d); cbn [fst]; auto.
    destruct (bag_ops (k_source k) (k_opts k) b1 m h (push_member b1 (q_members q)) (fold_left (add_lookup b1) (plan_files (k_source k) m) (q_lookup q))) as [ops fin].
    cbn [fst]. rewrite od_get_set. destruct (streq b b1); [discriminate|exact Nb].
  - destruct fin; exact Nb.
  - destruct (run_op match od_get b0 d with Some t => t | None => [] end x); cbn [fst]; auto. rewrite od_get_set. destruct (streq b b0); [discriminate|exact Nb].
Qed.

Lemma race_has ks b : forall s d qs, od_get b d <> None -> od_get b (fst (race ks s d qs)) <> None.
Proof.
  induction s as [|j s IH]; intros d qs H; [exact H|]. cbn [race]. pose proof (step_has (ks j) d (qs j) b H) as H1. destruct (step (ks j) d (qs j)) as [d1 q1]. apply IH. exact H1.
Qed.

Lemma firstn_later {A} m0 m (l : list A) : m0 <= m -> firstn m l = firstn m0 l ++ skipn m0 (firstn m l).
Proof. intros L. rewrite <- (firstn_skipn m0 (firstn m l)) at 1. rewrite firstn_firstn, Nat.min_l by exact L. reflexivity. Qed.

Lemma made_bags k out bags n t : makes_alone k out bags -> od_get n bags = Some t -> wants k n /\ od_get n out = None.
Proof.
  intros M G. destruct (alone_ends k out bags M) as [steps St]. destruct (St steps (le_n _)) as (d & q & Al & _ & Ed).
  destruct (alone_facts _ _ _ _ _ Al) as (B & _ & _). destruct (based_made _ _ _ _ B) as [_ H]. specialize (H n). rewrite Ed, skipn_app, Nat.sub_diag, skipn_all in H. cbn [app skipn] in H.
  destruct H as [H1 H2]; [rewrite G; discriminate|]. split; assumption.
Qed.

(** Once the split of the process [i] has ended, its bags can be restored, with
    whatever the other processes are still doing in the same directory. *)
Theorem C135_ended : forall ks i sched m times out bags w place v us rt bsize ro h dest,
  makes_alone (ks i) out bags -> q_where (snd (run_all ks (firstn m sched) out) i) = Ended -> (forall k, m <= times k) ->
  watches w place (fun k => fst (run_all ks (firstn (times k) sched) out)) ->
  od_get (hb_name h) bags = Some (hb_tree h) ->
  (forall skip ms n, head_lists ro h = Ok (skip, ms) -> In n (others h ms) -> od_get n bags <> None) ->
  restore_while v w us rt bsize ro h (place (hb_name h)) dest =
  restore (searching v (bags_at place bags)) us rt bsize ro h (place (hb_name h)) dest.
Proof.
  intros ks i sched m times out bags w place v us rt bsize ro h dest M En L W Hh Hm.
  assert (St : forall n t, od_get n bags = Some t -> forall k, w_find w k n = Some (place n) /\ w_bag w k (place n) = t).
  { intros n t G k. specialize (W k n). cbn beta in W. destruct (C133_race ks (firstn (times k) sched) out) as [made O].
    assert (E : q_where (snd (run_all ks (firstn (times k) sched) out) i) = Ended).
    { unfold run_all. rewrite (firstn_later m (times k) sched (L k)), race_app. apply race_ended. exact En. }
    destruct (oc_ended _ _ _ _ _ O i E) as (a & Ha & Ea). destruct M as (a' & Ha' & Ea'). rewrite Ha in Ha'. injection Ha' as <-. rewrite Ea in Ea'. apply app_inv_head in Ea'.
    rewrite (proj2 (oc_all _ _ _ _ _ O n t)) in W; [exact W|]. right. exists i. rewrite Ea'. exact G. }
  rewrite <- (while_searching v (bags_at place bags)). apply C135_undisturbed.
  - intros k. apply St. exact Hh.
  - intros skip ms n Hl I0. unfold always. cbn [searching e_find]. unfold bags_at. destruct (od_get n bags) as [t|] eqn:G; [|destruct (Hm skip ms n Hl I0 G)].
    cbn [option_map rb_loc rb_tree]. split; [intros k|intros k]; apply (St n t G k).
Qed.
Print Assumptions C135_ended.

(** As soon as the directory of the last bag is there, the head bag, all the
    other bags of that split are complete and stay so; if no other process gives
    the same names. *)
Theorem C135_last : forall ks i sched m m' out bags b t,
  makes_alone (ks i) out (bags ++ [(b, t)]) ->
  (forall j n, wants (ks i) n -> wants (ks j) n -> j = i) ->
  od_get b (fst (run_all ks (firstn m sched) out)) <> None -> m <= m' ->
  forall n x, od_get n bags = Some x -> od_get n (fst (run_all ks (firstn m' sched) out)) = Some x.
Proof.
  intros ks i sched m m' out bags b t M Hd Hb L n x G.
  assert (Hb' : od_get b (fst (run_all ks (firstn m' sched) out)) <> None).
  { unfold run_all in *. rewrite (firstn_later m m' sched L), race_app. apply race_has. exact Hb. }
  destruct (C133_race ks (firstn m' sched) out) as [made O].
  assert (Gn : od_get n (bags ++ [(b, t)]) = Some x) by (rewrite od_get_app, G; reflexivity).
  destruct M as (a & Ha & Ea). pose proof (ex_intro _ a (conj Ha Ea) : makes_alone (ks i) out (bags ++ [(b, t)])) as M.
  assert (Nd : NoDup (map fst (bags ++ [(b, t)]))) by (destruct (made_split _ _ _ _ _ _ M) as (_ & _ & _ & _ & _ & _ & Nd & _); exact Nd).
  assert (Gb : od_get b (bags ++ [(b, t)]) = Some t).
  { apply od_in_get; [exact Nd|]. apply in_app_iff. right. left. reflexivity. }
  destruct (made_bags _ _ _ _ _ M Gb) as [Wb Ob].
  assert (Mb : od_get b (made i) <> None).
  { destruct (od_get b (fst (run_all ks (firstn m' sched) out))) as [u|] eqn:Gu; [|congruence]. apply (oc_all _ _ _ _ _ O) in Gu. destruct Gu as [Gu|[j Gu]]; [congruence|].
    assert (j = i). { apply (Hd j b Wb). apply (oc_new _ _ _ _ _ O j b). rewrite Gu. discriminate. } subst j. rewrite Gu. discriminate. }
  apply (oc_all _ _ _ _ _ O). right. exists i.
  destruct (oc_alone _ _ _ _ _ O i) as [k El]. unfold left_alone, plan_left in El. unfold apply_plan in Ha.
  destruct (initial_lists (k_source (ks i))) as [[ms lu]|e]; [|discriminate Ha]. cbn [bind] in Ha.
  destruct (left_shape (k_source (ks i)) (k_opts (ks i)) _ _ _ k Ha) as (bts & j & l & E1 & E2 & Sh). cbn [a_out] in *.
  rewrite Ea in E1. apply app_inv_head in E1. subst bts. rewrite E2 in El. apply app_inv_head in El. subst l.
  assert (Nlast : forall j', j' <= length bags -> od_get b (firstn j' (bags ++ [(b, t)])) = None).
  { intros j' Lj. rewrite firstn_app, (proj2 (Nat.sub_0_le j' (length bags)) Lj). cbn [firstn]. rewrite app_nil_r.
    apply od_get_none. intros I0. change (In b (map fst (firstn j' bags))) in I0. rewrite map_app in Nd. cbn [map fst] in Nd. apply NoDup_remove_2 in Nd. rewrite app_nil_r in Nd. apply Nd.
    rewrite <- (firstn_skipn j' bags), map_app. apply in_app_iff. left. exact I0. }
  assert (Len : length (bags ++ [(b, t)]) = S (length bags)) by (rewrite app_length; cbn; lia).
  destruct Sh as [[Lj E]|(b' & t' & mm & hh & ms' & lu' & c & kk & N1 & _ & _ & _ & _ & E)]; rewrite E in *.
  - destruct (Nat.le_gt_cases j (length bags)) as [Lb|Lb]; [rewrite (Nlast j Lb) in Mb; congruence|].
    rewrite firstn_all2 by lia. exact Gn.
  - assert (Lj : j < length (bags ++ [(b, t)])) by (apply nth_error_Some; rewrite N1; discriminate).
    destruct (Nat.eq_dec j (length bags)) as [->|Nj].
    + rewrite firstn_app, firstn_all, Nat.sub_diag. cbn [firstn]. rewrite app_nil_r, od_get_app, G. reflexivity.
    + exfalso. apply Mb. rewrite od_get_app, Nlast by lia. cbn [od_get]. destruct (streq_reflect b b') as [Eb|Db]; [|reflexivity].
      exfalso. rewrite nth_error_app1 in N1 by lia. apply nth_error_In in N1. rewrite map_app in Nd. cbn [map fst] in Nd. apply NoDup_remove_2 in Nd. rewrite app_nil_r in Nd. apply Nd.
      rewrite Eb. apply (in_map fst) in N1. exact N1.
Qed.
Print Assumptions C135_last.

(** ** Cases *)

Definition rw_scene (dir : nat -> dict tree) : scene :=
  {| w_find := fun k n => if od_has n (dir k) then Some (ex_place n) else None;
     w_bag := fun k l => match od_get (skipn 6 l) (dir k) with Some t => t | None => [] end |}.

Lemma rw_watches dir : watches (rw_scene dir) ex_place dir.
Proof.
  intros k n. cbn [rw_scene w_find w_bag]. change (skipn 6 (ex_place n)) with n. unfold od_has. destruct (od_get n (dir k)); [split|]; reflexivity.
Qed.

Definition rw_bags : dict tree := rc_alone (rc_two 0).
Definition rw_tree (n : pystr) : tree := match od_get n rw_bags with Some t => t | None => [] end.
Definition rw_head : hb := open_hb (U "two") (rw_tree (U "two")) (got [] (tags_of Codecs (rw_tree (U "two")))) Codecs.
Definition rw_env : env := su_env 0.

(** While a member bag is being unpacked beside its archive, the directory is
    taken as soon as it is there: restoring succeeds, and a file is missing. *)
Definition rw_zip : pystr := U "/bags/one.zip".
Definition rw_zipped (n : pystr) : option rbag :=
  if streq n (U "one") then Some {| rb_loc := rw_zip; rb_tree := rw_tree n |} else bags_at ex_place rw_bags n.
Definition rw_unpacking : scene :=
  {| w_find := fun k n => if streq n (U "one") then Some (if k <? 5 then rw_zip else ex_place n)
                          else if od_has n rw_bags then Some (ex_place n) else None;
     w_bag := fun k l => if streq l rw_zip then rw_tree (U "one")
                         else if streq l (ex_place (U "one")) then firstn (3 + k / 60) (rw_tree (U "one"))
                         else rw_tree (skipn 6 l) |}.

Theorem C135_unpacked_refuted : exists v w h place dest1 dest2 f,
  (** the bags are there at first, and their places keep what they have; only
      the directory of the bag "one" comes and grows *)
  (forall n b, e_find v n = Some b -> w_find w 0 n = Some (rb_loc b) /\ keeps_at w (rb_loc b) (rb_tree b)) /\
  (forall n, n <> U "one" -> always w v n) /\
  (forall k, w_find w k (U "one") = w_find w 0 (U "one") \/
             (w_find w k (U "one") = Some (place (U "one")) /\ exists j, w_bag w k (place (U "one")) = firstn j (rw_tree (U "one")))) /\
  restore v true true (fun _ => U "1 kB") false h (place (U "two")) [] = Ok dest1 /\
  restore_while v w true true (fun _ => U "1 kB") false h (place (U "two")) [] = Ok dest2 /\
  is_file f dest1 = true /\ exists_ f dest2 = false.
Proof.
  exists (searching rw_env rw_zipped), rw_unpacking, rw_head, ex_place,
    (got [] (restore (searching rw_env rw_zipped) true true (fun _ => U "1 kB") false rw_head (ex_place (U "two")) [])),
    (got [] (restore_while (searching rw_env rw_zipped) rw_unpacking true true (fun _ => U "1 kB") false rw_head (ex_place (U "two")) [])), (U "data/a").
  assert (Two : forall n b, n <> U "one" -> bags_at ex_place rw_bags n = Some b ->
    od_has n rw_bags = true /\ rb_loc b = ex_place n /\ rb_tree b = rw_tree n /\ streq (ex_place n) rw_zip = false /\ streq (ex_place n) (ex_place (U "one")) = false).
  { intros n b Nn H. unfold bags_at in H. destruct (od_get n rw_bags) as [t|] eqn:G; [|discriminate H]. injection H as <-. cbn [rb_loc rb_tree].
    assert (n = U "two"). { apply od_get_some_key in G. assert (K : od_keys rw_bags = [U "one"; U "two"]) by (vm_compute; reflexivity). rewrite K in G. destruct G as [G|[G|[]]]; congruence. }
    subst n. unfold od_has, rw_tree. rewrite G. repeat split; vm_compute; reflexivity. }
  split; [|split; [|split; [|split; [|split; [|split]]]]].
  - intros n b H. cbn [searching e_find] in H. unfold rw_zipped in H. cbn [rw_unpacking w_find]. destruct (streq_reflect n (U "one")) as [->|Nn].
    + injection H as <-. split; [reflexivity|]. intros k. reflexivity.
    + destruct (Two n b Nn H) as (H1 & H2 & H3 & H4 & H5). rewrite H1, H2, H3. split; [reflexivity|]. intros k. cbn [rw_unpacking w_bag]. rewrite H4, H5. reflexivity.
  - intros n Nn. unfold always. cbn [searching e_find]. unfold rw_zipped. apply streq_neq in Nn as Nn'. rewrite Nn'. destruct (bags_at ex_place rw_bags n) as [b|] eqn:H.
    + destruct (Two n b Nn H) as (H1 & H2 & H3 & H4 & H5). rewrite H2, H3. split; intros k; cbn [rw_unpacking w_bag w_find]; [rewrite Nn', H1|rewrite H4, H5]; reflexivity.
    + intros k. cbn [rw_unpacking w_find]. rewrite Nn'. unfold bags_at in H. unfold od_has. destruct (od_get n rw_bags); [discriminate H|reflexivity].
  - intros k. cbn [rw_unpacking w_find w_bag]. change (streq (U "one") (U "one")) with true. cbv iota. destruct (k <? 5); [left; reflexivity|right]. split; [reflexivity|]. exists (3 + k / 60). reflexivity.
  - vm_compute; reflexivity.
  - vm_compute; reflexivity.
  - vm_compute; reflexivity.
  - vm_compute; reflexivity.
Qed.
Print Assumptions C135_unpacked_refuted.

Definition rw_sched : list nat := alternately 40 [0; 1].
Definition rw_dir (sched : list nat) (times : nat -> nat) (out : dict tree) (k : nat) : dict tree := fst (run_all rc_two (firstn (times k) sched) out).

Example C135_case :
  (** the bags "one" and "two" are restored while others are split beside them *)
  od_get (hb_name rw_head) rw_bags = Some (hb_tree rw_head) /\
  match head_lists false rw_head with Ok (_, ms) => others rw_head ms | Err _ => [] end = [U "one"] /\
  od_get (U "one") rw_bags <> None /\
  map od_keys [rw_dir (alternately 40 [1]) (fun k => k) rw_bags 0; rw_dir (alternately 40 [1]) (fun k => k) rw_bags 30] =
    [[U "one"; U "two"]; [U "one"; U "two"; U "un"; U "deux"]] /\
  is_ok (restore_while rw_env (rw_scene (rw_dir (alternately 40 [1]) (fun k => k) rw_bags)) true true (fun _ => U "1 kB") false rw_head (ex_place (U "two")) []) = true /\
  (** the split that made them has ended, another has not *)
  makes_alone (rc_two 0) [] rw_bags /\
  (let qs := snd (run_all rc_two (repeat 0 60 ++ repeat 1 5) []) in (rc_where (qs 0), rc_where (qs 1))) = (Some None, None) /\
  (** the last bag is there, and the first one is complete *)
  (exists m, od_keys (rw_dir rw_sched (fun k => k) [] m) = [U "one"; U "un"; U "two"] /\ rc_where (snd (run_all rc_two (firstn m rw_sched) []) 0) = None).
Proof.
  split; [vm_compute; reflexivity|]. split; [vm_compute; reflexivity|]. split; [vm_compute; discriminate|]. split; [vm_compute; reflexivity|]. split; [vm_compute; reflexivity|].
  split; [apply rc_makes; vm_compute; reflexivity|]. split; [vm_compute; reflexivity|]. exists 19. split; vm_compute; reflexivity.
Qed.

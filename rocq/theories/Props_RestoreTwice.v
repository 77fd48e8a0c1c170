(** * Restoring what was restored (C139) *)

Require Import String NArith PeanoNat Bool List Lia.
From Verif Require Import PyBase PyFacts Tsv Fs FsFacts HeadBag HeadBagProofs3 Version BagIt BagItProofs Split SplitApply SplitApplyProofs SplitApplyProofs2 SplitApplyProofs8 Props_SplitApply Restore RestoreProofs RestoreProofs2 RestoreProofs3 Props_Restore Props_Restore3 RestoreRace InPlaceStop.
Import ListNotations.
Open Scope N_scope.

(** ** The lists of the restored bag *)

Lemma latest_last ts t p x : od_get p t = Some x -> latest (ts ++ [t]) p = Some x.
Proof. intros E. rewrite latest_first, rev_app_distr. cbn [rev app first_of fold_right]. rewrite E. reflexivity. Qed.
Lemma latest_absent ts p : latest ts p = None <-> forall t, In t ts -> od_get p t = None.
Proof.
  split.
  - intros E t It. destruct (od_get p t) as [x|] eqn:G; [exfalso|reflexivity].
    assert (exists n, latest ts p = Some n) as [y Ey] by (apply latest_some; eauto). congruence.
  - intros H. destruct (latest ts p) as [x|] eqn:E; [exfalso|reflexivity].
    assert (exists t, In t ts /\ exists n, od_get p t = Some n) as (t & It & n & G) by (apply latest_some; eauto).
    rewrite (H t It) in G. discriminate G.
Qed.

Lemma multibag_no_file v f : ~ bag_file v (sjoin MULTIBAG f).
Proof. intros [E|[E|(a & _ & [E|E])]]; discriminate E. Qed.

(** What the tags of two handles must have in common for the lists to be
    looked for in the same place. *)
Definition same_place (info info' : infod) : Prop :=
  od_get T_TagDir info = None /\ od_get T_TagDir info' = None /\
  older_than_03 (profile_version info') = older_than_03 (profile_version info).

Lemma lists_same ro name name' t x info info' r skip ms :
  same_place info info' ->
  (forall f c, read (sjoin MULTIBAG f) t = Some c -> read (sjoin MULTIBAG f) x = Some c) ->
  read (U "multibag/deleted.txt") t <> None -> ms <> [] ->
  head_lists ro (open_hb name t info r) = Ok (skip, ms) ->
  head_lists ro (open_hb name' x info' r) = Ok (skip, ms).
Proof.
  intros (Ei & Ei' & Eo) K Rd Nm Hl.
  assert (Ed : iter_deleted (open_hb name' x info' r) = iter_deleted (open_hb name t info r)).
  { unfold iter_deleted, tag_dir. cbn [open_hb hb_info hb_tree hb_reader]. rewrite Ei, Ei'. change (sjoin (U "multibag") F_deleted) with (U "multibag/deleted.txt").
    destruct (read (U "multibag/deleted.txt") t) as [c|] eqn:R; [|elim Rd; reflexivity].
    pose proof (K F_deleted _ R) as R'. change (sjoin MULTIBAG F_deleted) with (U "multibag/deleted.txt") in R'. rewrite R'. reflexivity. }
  unfold head_lists in Hl. apply bind_ok in Hl. destruct Hl as (s & Hs & Hl). apply bind_ok in Hl. destruct Hl as (m & Hm & Hl). injection Hl as <- <-.
  assert (Im : iter_member_bags (open_hb name t info r) = Ok m).
  { unfold member_bags, member_bags_ro in Hm. destruct ro; cbn [open_hb hb_mem] in Hm; fold (open_hb name t info r) in Hm;
      destruct (iter_member_bags (open_hb name t info r)) as [l|[]]; cbn [snd] in Hm; try discriminate Hm; injection Hm as <-; try reflexivity. elim Nm. reflexivity. }
  assert (Em : iter_member_bags (open_hb name' x info' r) = Ok m).
  { rewrite <- Im. unfold iter_member_bags, tag_dir_raw in *. cbn [open_hb hb_info hb_tree hb_reader] in *. rewrite Ei in *. rewrite Ei', Eo. cbn [bind] in *. change (U "multibag") with MULTIBAG in *.
    set (f := if older_than_03 _ then _ else _) in *. destruct (read (sjoin MULTIBAG f) t) as [c|] eqn:R; [rewrite (K f _ R); reflexivity|discriminate Im]. }
  unfold head_lists, deleted_paths, member_bags, member_bags_ro in *. cbn [open_hb hb_del] in *. fold (open_hb name t info r) in Hs. fold (open_hb name' x info' r). rewrite Ed.
  destruct (iter_deleted (open_hb name t info r)) as [l|e]; cbn [snd] in *; [|discriminate Hs]. injection Hs as <-. cbn [bind].
  destruct ro; cbn [open_hb hb_mem]; fold (open_hb name' x info' r); rewrite Em; reflexivity.
Qed.

Section Twice.
  Variables (v : env) (us : bool) (bsize : tree -> pystr) (ro : bool) (name : pystr) (t : tree) (info : infod) (r : reader)
            (loc : pystr) (skip : list pystr) (ms : list minfo) (bags : list rbag) (x : tree).
  Let h := open_hb name t info r.
  Hypothesis Sv : plain_algos v.
  Hypothesis Hl : head_lists ro h = Ok (skip, ms).
  Hypothesis Nm : ms <> [].
  Hypothesis Ha : aggregation v h loc ms bags.
  Hypothesis Wb : Forall (fun b => wf_tree (rb_tree b) /\ rb_loc b <> e_dest v) bags.
  Hypothesis Rd : read (U "multibag/deleted.txt") t <> None.
  Hypothesis Dm : forall p, multibag_path p -> ~ deleted skip p.
  Hypothesis H : restore v us false bsize ro h loc [] = Ok x.

  Lemma twice_wf : wf_tree x.
  Proof.
    destruct (aggregation_others _ _ _ _ _ Ha) as (bs & F & E).
    assert (W : Forall (fun b => wf_tree (rb_tree b)) (head_bag h loc :: bs)).
    { rewrite E in Wb. apply Forall_rev in Wb. rewrite rev_involutive in Wb. eapply Forall_impl; [|exact Wb]. intros b [Q _]. exact Q. }
    assert (N0 : ~ In [] skip) by (apply head_lists_ok in Hl; eapply skip_nonempty; [|apply Hl]; reflexivity).
    inversion W as [|? ? Wh Wbs]; subst.
    apply (restore_nodes v us false bsize ro h loc skip ms bs [] x Sv N0 Hl F Wh Wbs wf_nil H).
  Qed.

  Lemma twice_head : exists before, bags = before ++ [head_bag h loc].
  Proof. destruct Ha as (names & before & _ & _ & E). exists before. exact E. Qed.

  Lemma twice_lists f c : read (sjoin MULTIBAG f) t = Some c -> read (sjoin MULTIBAG f) x = Some c.
  Proof.
    intros R. assert (G : od_get (sjoin MULTIBAG f) t = Some (NFile c)).
    { unfold read in R. destruct (od_get (sjoin MULTIBAG f) t) as [[]|]; try discriminate R. injection R as ->. reflexivity. }
    assert (M : multibag_path (sjoin MULTIBAG f)) by (right; exists f; reflexivity).
    destruct (C33_combination v us false bsize ro h loc skip ms bags x Sv eq_refl Hl Ha Wb H (sjoin MULTIBAG f) (multibag_no_file v f) (fun E => False_ind _ (Bool.diff_false_true E))) as [_ Q].
    specialize (Q (Dm _ M)). destruct twice_head as [before ->]. rewrite map_app in Q. cbn [map] in Q. rewrite (latest_last _ _ _ (NFile c)) in Q by exact G.
    unfold read. rewrite Q. reflexivity.
  Qed.

  Lemma twice_absent p : ~ bag_file v p -> od_get p x = None -> ~ deleted skip p -> forall b, In b bags -> od_get p (rb_tree b) = None.
  Proof.
    intros Bp Gx D b Ib.
    destruct (C33_combination v us false bsize ro h loc skip ms bags x Sv eq_refl Hl Ha Wb H p Bp (fun E => False_ind _ (Bool.diff_false_true E))) as [_ Q].
    rewrite (Q D) in Gx. rewrite latest_absent in Gx. apply Gx. apply in_map. exact Ib.
  Qed.
  Lemma twice_deleted p : ~ bag_file v p -> deleted skip p -> od_get p x = None.
  Proof.
    intros Bp D.
    apply (C33_combination v us false bsize ro h loc skip ms bags x Sv eq_refl Hl Ha Wb H p Bp (fun E => False_ind _ (Bool.diff_false_true E))). exact D.
  Qed.
End Twice.

(** ** C139 *)

(** A bag restored with remove_multibag_tags=False has the lists of its head
    bag. If it is restored again in place, with the same or fewer member bags
    to be found, it keeps every file and directory and gets no other, but for
    the files that describe it and, if they are removed now, the multibag tags. *)
Theorem C139_in_place : forall v us bsize ro name t info r loc skip ms bags x name' info' bags' us' rt' bsize' x',
  let h := open_hb name t info r in
  let h' := open_hb name' x info' r in
  plain_algos v -> head_lists ro h = Ok (skip, ms) -> ms <> [] ->
  aggregation v h loc ms bags ->
  Forall (fun b => wf_tree (rb_tree b) /\ rb_loc b <> e_dest v) bags ->
  read (U "multibag/deleted.txt") t <> None -> (forall p, multibag_path p -> ~ deleted skip p) ->
  same_place info info' ->
  restore v us false bsize ro h loc [] = Ok x ->
  aggregation v h' (e_dest v) ms bags' -> (forall b, In b bags' -> In b bags \/ b = head_bag h' (e_dest v)) ->
  restore v us' rt' bsize' ro h' (e_dest v) x = Ok x' ->
  head_lists ro h' = Ok (skip, ms) /\
  forall p, ~ bag_file v p -> (rt' = true -> ~ multibag_path p) -> od_get p x' = od_get p x.
Proof.
  intros v us bsize ro name t info r loc skip ms bags x name' info' bags' us' rt' bsize' x' h h' Sv Hl Nm Ha Wb Rd Dm Sp H Ha' Ib H'.
  pose proof (twice_wf v us bsize ro name t info r loc skip ms bags x Sv Hl Ha Wb H) as Wx.
  assert (Hl' : head_lists ro h' = Ok (skip, ms)).
  { apply (lists_same ro name name' t x info info' r skip ms Sp); try assumption. exact (twice_lists v us bsize ro name t info r loc skip ms bags x Sv Hl Ha Wb Dm H). }
  split; [exact Hl'|]. intros p Bp Mp.
  assert (Wb' : Forall (fun b => wf_tree (rb_tree b)) bags').
  { apply Forall_forall. intros b I0. destruct (Ib b I0) as [I1| ->]; [|exact Wx]. rewrite Forall_forall in Wb. apply Wb. exact I1. }
  pose proof (restored_nodes v us' rt' bsize' ro h' (e_dest v) skip ms bags' x x' Sv eq_refl Hl' Ha' Wb' Wx H' p Bp Mp) as Q.
  destruct (od_get p x) as [y|] eqn:Gx; [exact Q|]. rewrite Q. destruct (gone skip p) eqn:G; [reflexivity|].
  apply latest_absent. intros c Ic. apply in_map_iff in Ic. destruct Ic as (b & <- & Ic). unfold contrib.
  destruct (streq_reflect (rb_loc b) (e_dest v)) as [E|D]; [reflexivity|]. destruct (Ib b Ic) as [I1| ->]; [|elim D; reflexivity].
  apply (twice_absent v us bsize ro name t info r loc skip ms bags x Sv Hl Ha Wb H p Bp Gx); [rewrite deleted_iff; congruence|exact I1].
Qed.
Print Assumptions C139_in_place.

(** Used as head bag for a restoration to another new place, it gives the same
    files and directories there. *)
Theorem C139_elsewhere : forall v v' us bsize ro name t info r loc skip ms bags x name' info' bags' us' rt' bsize' x',
  let h := open_hb name t info r in
  let h' := open_hb name' x info' r in
  plain_algos v -> head_lists ro h = Ok (skip, ms) -> ms <> [] ->
  aggregation v h loc ms bags ->
  Forall (fun b => wf_tree (rb_tree b) /\ rb_loc b <> e_dest v) bags ->
  read (U "multibag/deleted.txt") t <> None -> (forall p, multibag_path p -> ~ deleted skip p) ->
  same_place info info' ->
  restore v us false bsize ro h loc [] = Ok x ->
  e_algos v' = e_algos v ->
  aggregation v' h' (e_dest v) ms bags' -> (forall b, In b bags' -> In b bags \/ b = head_bag h' (e_dest v)) ->
  Forall (fun b => rb_loc b <> e_dest v') bags' ->
  restore v' us' rt' bsize' ro h' (e_dest v) [] = Ok x' ->
  forall p, ~ bag_file v p -> (rt' = true -> ~ multibag_path p) -> od_get p x' = od_get p x.
Proof.
  intros v v' us bsize ro name t info r loc skip ms bags x name' info' bags' us' rt' bsize' x' h h' Sv Hl Nm Ha Wb Rd Dm Sp H Ev Ha' Ib Lb H' p Bp Mp.
  pose proof (twice_wf v us bsize ro name t info r loc skip ms bags x Sv Hl Ha Wb H) as Wx.
  assert (Hl' : head_lists ro h' = Ok (skip, ms)).
  { apply (lists_same ro name name' t x info info' r skip ms Sp); try assumption. exact (twice_lists v us bsize ro name t info r loc skip ms bags x Sv Hl Ha Wb Dm H). }
  assert (Wb' : Forall (fun b => wf_tree (rb_tree b) /\ rb_loc b <> e_dest v') bags').
  { apply Forall_forall. intros b I0. rewrite Forall_forall in Lb. split; [|apply Lb; exact I0]. destruct (Ib b I0) as [I1| ->]; [|exact Wx]. rewrite Forall_forall in Wb. apply Wb. exact I1. }
  assert (Sv' : plain_algos v') by (intros a Ia; rewrite Ev in Ia; exact (Sv a Ia)).
  assert (Bp' : ~ bag_file v' p) by (unfold bag_file; rewrite Ev; exact Bp).
  destruct (C33_combination v' us' rt' bsize' ro h' (e_dest v) skip ms bags' x' Sv' eq_refl Hl' Ha' Wb' H' p Bp' Mp) as [Q1 Q2].
  destruct (gone skip p) eqn:G.
  - assert (D : deleted skip p) by (apply deleted_iff; exact G). rewrite (Q1 D). symmetry. exact (twice_deleted v us bsize ro name t info r loc skip ms bags x Sv Hl Ha Wb H p Bp D).
  - assert (D : ~ deleted skip p) by (rewrite deleted_iff; congruence). rewrite (Q2 D). destruct Ha' as (names & before & Hn & F & Eb).
    destruct (od_get p x) as [y|] eqn:Gx.
    + rewrite Eb, map_app. cbn [map]. apply latest_last. exact Gx.
    + apply latest_absent. intros c Ic. apply in_map_iff in Ic. destruct Ic as (b & <- & Ic). destruct (Ib b Ic) as [I1| ->]; [|exact Gx].
      apply (twice_absent v us bsize ro name t info r loc skip ms bags x Sv Hl Ha Wb H p Bp Gx D). exact I1.
Qed.
Print Assumptions C139_elsewhere.

(** But if the head bag has an aggregation-info.txt without Multibag-Head-Version,
    the restored bag is not taken for a head bag although it has all the lists. *)
Theorem C139_refused : forall v bsize ro h loc skip ms bags dest c tags x,
  plain_algos v -> hb_del h = None -> head_lists ro h = Ok (skip, ms) -> aggregation v h loc ms bags ->
  Forall (fun b => wf_tree (rb_tree b)) bags -> wf_tree dest ->
  read (U "multibag/aggregation-info.txt") (hb_tree h) = Some c ->
  load_tags IoText (decode (hb_reader h) c) = Ok tags -> od_has (U "Multibag-Head-Version") tags = false ->
  restore v false false bsize ro h loc dest = Ok x ->
  is_headbag v (e_dest v) x <> Ok true.
Proof.
  intros v bsize ro h loc skip ms bags dest c tags x Sv Hd Hl Ha Wb Wd Ra Et Hv H Eh.
  destruct (restored_end v false false bsize ro h loc skip ms bags dest x Sv Hd Hl Ha Wb Wd H) as (t & _ & Hf & G). rewrite Ra in G.
  assert (Ex : t = x).
  { unfold finish in Hf. apply bind_ok in Hf. destruct Hf as ([i e] & _ & Hf). apply bind_ok in Hf. destruct Hf as (al & _ & Hf). cbn [bind] in Hf. injection Hf as <-. reflexivity. }
  subst t. unfold is_headbag in Eh. apply bind_ok in Eh. destruct Eh as ([i es] & Eo & Eh). injection Eh as Eh. unfold open_bag in Eo.
  destruct (read F_bagit x) as [cb|]; [|discriminate Eo]. apply bind_ok in Eo. destruct Eo as ([v97 v1] & _ & Eo).
  assert (Rb : read F_baginfo x = Some (decode (hb_reader h) c)) by (unfold read; rewrite G; reflexivity).
  rewrite Rb, Et in Eo. cbn [bind] in Eo. apply bind_ok in Eo. destruct Eo as (es' & _ & Eo). injection Eo as <- _. change T_HeadVersion with (U "Multibag-Head-Version") in Eh. congruence.
Qed.
Print Assumptions C139_refused.

(** ** Examples *)

Definition ex_tree139 (agg : bool) : tree :=
  if agg then ex_two ++ [(U "multibag/aggregation-info.txt", NFile (txt [U "Contact-Name: C"]))] else ex_two.
Definition ex_info139 : infod := got [] (load_tags Codecs ex_info2).
Definition ex_h139 (agg : bool) : hb := open_hb (U "two") (ex_tree139 agg) ex_info139 Codecs.
Definition ex_ms139 : list minfo := match head_lists false (ex_h139 false) with Ok (_, ms) => ms | Err _ => [] end.
Definition ex_bags139 (agg : bool) : list rbag :=
  [{| rb_loc := U "/bags/one"; rb_tree := ex_one |}; {| rb_loc := U "/bags/two"; rb_tree := ex_tree139 agg |}].
Definition ex_env139 (dest : pystr) : env :=
  {| e_algos := e_algos ex_env; e_version := e_version ex_env; e_danger := e_danger ex_env;
     e_hash := e_hash ex_env; e_dest := dest;
     e_find := fun n => if streq n (U "two") then Some {| rb_loc := U "/bags/two"; rb_tree := ex_two |} else e_find ex_env n |}.
Definition ex_x139 (us agg : bool) : tree :=
  got [] (restore (ex_env139 (U "/out")) us false (fun _ => U "1 kB") false (ex_h139 agg) (U "/bags/two") []).

(** With the default for the sizes too. *)
Theorem C139_refuted : exists v bsize h loc skip ms bags x,
  plain_algos v /\ hb_del h = None /\ head_lists false h = Ok (skip, ms) /\ aggregation v h loc ms bags /\
  Forall (fun b => wf_tree (rb_tree b) /\ rb_loc b <> e_dest v) bags /\
  is_headbag v loc (hb_tree h) = Ok true /\
  restore v true false bsize false h loc [] = Ok x /\
  (exists c, read (U "multibag/member-bags.tsv") x = Some c) /\
  is_headbag v (e_dest v) x = Ok false.
Proof.
  exists (ex_env139 (U "/out")), (fun _ => U "1 kB"), (ex_h139 true), (U "/bags/two"), ex_skip, ex_ms139, (ex_bags139 true), (ex_x139 true true).
  split; [intros a [<-|[<-|[]]]; cbn; intuition discriminate|]. split; [reflexivity|]. split; [vm_compute; reflexivity|].
  split; [exists [U "one"], [{| rb_loc := U "/bags/one"; rb_tree := ex_one |}]; split; [left; vm_compute; reflexivity|split; [constructor; [reflexivity|constructor]|reflexivity]]|].
  split; [constructor; [|constructor; [|constructor]]; split; (discriminate || (apply wf_treeb_ok; vm_compute; reflexivity))|].
  split; [vm_compute; reflexivity|]. split; [vm_compute; reflexivity|]. split; [eexists; vm_compute; reflexivity|]. vm_compute. reflexivity.
Qed.
Print Assumptions C139_refuted.

(** The bag restored to /out is called out, so that the former head bag is
    visited as a member; it is restored again in place and to /new. *)
Definition ex_again139 : hb := open_hb (U "out") (ex_x139 true false) ex_info139 Codecs.
Definition ex_bags139' : list rbag := ex_bags139 false ++ [head_bag ex_again139 (U "/out")].
Example C139_case :
  head_lists false (ex_h139 false) = Ok (ex_skip, ex_ms139) /\ ex_ms139 <> [] /\
  aggregation (ex_env139 (U "/out")) (ex_h139 false) (U "/bags/two") ex_ms139 (ex_bags139 false) /\
  Forall (fun b => wf_tree (rb_tree b) /\ rb_loc b <> U "/out") (ex_bags139 false) /\
  read (U "multibag/deleted.txt") ex_two <> None /\ (forall p, multibag_path p -> ~ deleted ex_skip p) /\
  same_place ex_info139 ex_info139 /\
  restore (ex_env139 (U "/out")) true false (fun _ => U "1 kB") false (ex_h139 false) (U "/bags/two") [] = Ok (ex_x139 true false) /\
  aggregation (ex_env139 (U "/out")) ex_again139 (U "/out") ex_ms139 ex_bags139' /\
  aggregation (ex_env139 (U "/new")) ex_again139 (U "/out") ex_ms139 ex_bags139' /\
  is_headbag (ex_env139 (U "/out")) (U "/out") (ex_x139 true false) = Ok true /\
  PyBase.is_ok (restore (ex_env139 (U "/out")) true true (fun _ => U "1 kB") false ex_again139 (U "/out") (ex_x139 true false)) = true /\
  PyBase.is_ok (restore (ex_env139 (U "/new")) true true (fun _ => U "1 kB") false ex_again139 (U "/out") []) = true /\
  Forall (fun b => rb_loc b <> U "/new") ex_bags139'.
Proof.
  split; [vm_compute; reflexivity|]. split; [vm_compute; discriminate|].
  split; [exists [U "one"], [{| rb_loc := U "/bags/one"; rb_tree := ex_one |}]; split; [left; vm_compute; reflexivity|split; [constructor; [reflexivity|constructor]|reflexivity]]|].
  split; [constructor; [|constructor; [|constructor]]; split; (discriminate || (apply wf_treeb_ok; vm_compute; reflexivity))|].
  split; [discriminate|].
  split; [intros p Mp (s & [<-|[<-|[]]] & Hs); destruct Mp as [->|[y ->]]; destruct Hs as [E|[z E]]; discriminate E|].
  split; [split; [|split]; vm_compute; reflexivity|]. split; [vm_compute; reflexivity|].
  assert (N2 : forall l, [U "one"; U "two"] <> l ++ [U "out"]).
  { intros l E. change [U "one"; U "two"] with ([U "one"] ++ [U "two"]) in E. apply app_inj_tail in E. destruct E as [_ E]. discriminate E. }
  split; [exists [U "one"; U "two"], (ex_bags139 false); split; [right; split; [vm_compute; reflexivity|exact N2]|split; [constructor; [reflexivity|constructor; [reflexivity|constructor]]|reflexivity]]|].
  split; [exists [U "one"; U "two"], (ex_bags139 false); split; [right; split; [vm_compute; reflexivity|exact N2]|split; [constructor; [reflexivity|constructor; [reflexivity|constructor]]|reflexivity]]|].
  split; [vm_compute; reflexivity|]. split; [vm_compute; reflexivity|]. split; [vm_compute; reflexivity|].
  constructor; [discriminate|]. constructor; [discriminate|]. constructor; [discriminate|constructor].
Qed.

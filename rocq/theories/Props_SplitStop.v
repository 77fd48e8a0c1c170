(** C132: a split that stops *)
Require Import String NArith PeanoNat Bool List Lia.
From Verif Require Import PyBase PyFacts Tsv TsvProofs Fs FsFacts HeadBag HeadBagProofs HeadBagProofs2 HeadBagProofs3 BagIt BagItProofs BagItProofs2 Split SplitProofs3 SplitApply SplitApplyProofs SplitApplyProofs2 SplitApplyProofs3 SplitApplyProofs4 SplitApplyProofs5 SplitApplyProofs6 SplitApplyProofs7 SplitApplyProofs8 SplitApplyProofs9 Props_SplitApply Props_SplitApply2 Props_SplitApply3 SplitStop SpecSplitStop SplitStopProofs.
Import ListNotations.
Open Scope nat_scope.

Lemma left_keeps s o mhs : forall n a, exists more, left_after s o n mhs a = a_out a ++ more.
Proof.
  induction mhs as [|[m h] mhs IH]; intros n a; cbn [left_after]; [exists []; rewrite app_nil_r; reflexivity|].
  destruct n as [|n]; [exists []; rewrite app_nil_r; reflexivity|].
  destruct (next_name m (a_naming a)) as [[[b|] it]|e]; try (exists []; rewrite app_nil_r; reflexivity).
  destruct (od_has b (a_out a)) eqn:Hb; [exists []; rewrite app_nil_r; reflexivity|].
  apply od_has_false in Hb. apply od_get_none in Hb.
  destruct (bag_ops s o b m h (push_member b (a_members a)) (fold_left (add_lookup b) (plan_files s m) (a_lookup a))) as [ops fin] eqn:Eo.
  rewrite od_set_fresh by exact Hb.
  destruct (n <? length ops); [eexists; reflexivity|]. destruct (run_ops ops []) as [t|]; [|eexists; reflexivity]. destruct fin as [u|]; [|eexists; reflexivity].
  match goal with |- exists more, left_after s o ?k mhs ?a1 = _ => destruct (IH k a1) as [more E] end. cbn [a_out] in E.
  rewrite E, <- app_assoc. eexists. reflexivity.
Qed.

Lemma left_first_bag s o mhs n a : left_after s o n mhs a <> a_out a ->
  exists m h rest b it u more, mhs = (m, h) :: rest /\ next_name m (a_naming a) = Ok (Some b, it) /\ od_has b (a_out a) = false /\
    left_after s o n mhs a = a_out a ++ (b, u) :: more.
Proof.
  destruct mhs as [|[m h] mhs]; cbn [left_after]; intros H; [congruence|]. destruct n as [|n]; [congruence|].
  destruct (next_name m (a_naming a)) as [[[b|] it]|e] eqn:En; try congruence.
  destruct (od_has b (a_out a)) eqn:Hb; [congruence|]. exists m, h, mhs, b, it. clear H.
  assert (Hb' := Hb). apply od_has_false in Hb'. apply od_get_none in Hb'.
  destruct (bag_ops s o b m h (push_member b (a_members a)) (fold_left (add_lookup b) (plan_files s m) (a_lookup a))) as [ops fin] eqn:Eo.
  rewrite od_set_fresh by exact Hb'. exists (run_until (firstn n ops) []).
  assert (G : exists more, (if n <? length ops then a_out a ++ [(b, run_until (firstn n ops) [])]
     else match run_ops ops [], fin with
          | Ok _, Ok _ => left_after s o (n - length ops) mhs
              {| a_out := a_out a ++ [(b, run_until (firstn n ops) [])]; a_members := push_member b (a_members a);
                 a_lookup := fold_left (add_lookup b) (plan_files s m) (a_lookup a); a_naming := it |}
          | _, _ => a_out a ++ [(b, run_until (firstn n ops) [])] end) = a_out a ++ (b, run_until (firstn n ops) []) :: more).
  { destruct (n <? length ops); [exists []; reflexivity|]. destruct (run_ops ops []) as [t|]; [|exists []; reflexivity]. destruct fin as [u|]; [|exists []; reflexivity].
    match goal with |- exists more, left_after s o ?k mhs ?a1 = _ => destruct (left_keeps s o mhs k a1) as [more E] end. cbn [a_out] in E.
    rewrite E, <- app_assoc. exists more. reflexivity. }
  destruct G as [more G]. exists more. split; [reflexivity|]. split; [exact En|]. split; [exact Hb|exact G].
Qed.

(** ** Nothing that was there changes *)

(** Wherever the split stops, and also if it ends with an exception, what was
    in the output directory is there as before. *)
Theorem C132_kept : forall s o p it n out, exists more, plan_left s o p it n out = out ++ more.
Proof.
  intros s o p it n out. unfold plan_left. destruct (initial_lists s) as [[ms lu]|e]; [|exists []; rewrite app_nil_r; reflexivity].
  exact (left_keeps s o (manifests p) n {| a_out := out; a_members := ms; a_lookup := lu; a_naming := it |}).
Qed.
Print Assumptions C132_kept.

(** ** Splitting again *)

(** If anything was made, splitting again in the same way raises OSError and
    changes nothing. *)
Theorem C132_again : forall s o p it n out,
  plan_left s o p it n out <> out ->
  apply_plan s o p it (plan_left s o p it n out) = Err EOS /\
  forall k, plan_left s o p it k (plan_left s o p it n out) = plan_left s o p it n out.
Proof.
  intros s o p it n out. unfold plan_left at 1 2 4 5, apply_plan. destruct (initial_lists s) as [[ms lu]|e] eqn:Ei; [|congruence]. cbn [bind]. intros H.
  apply left_first_bag in H. cbn [a_naming a_out] in H. destruct H as (m & h & rest & b & it' & u & more & Em & En & Hb & El). rewrite El.
  assert (G : od_has b (out ++ (b, u) :: more) = true).
  { unfold od_has. apply od_has_false in Hb. rewrite od_get_app, Hb. cbn [od_get]. rewrite streq_refl. reflexivity. }
  rewrite Em. split.
  - cbn [foldM]. unfold apply_one at 1. cbn [a_naming a_out]. rewrite En. cbn [bind]. rewrite G. reflexivity.
  - intros k. unfold plan_left. rewrite Ei, Em. cbn [left_after]. destruct k as [|k]; [reflexivity|]. cbn [a_naming a_out]. rewrite En, G. reflexivity.
Qed.
Print Assumptions C132_again.

(** ** What is there is right *)

Section Shape.
  Variables (s : source) (o : apply_opts).

  Definition begun_bag (mhs : list (manifest * bool)) (bts : dict tree) (j : nat) (l : dict tree) : Prop :=
    exists b t m h ms lu c k, nth_error bts j = Some (b, t) /\ nth_error mhs j = Some (m, h) /\
      read F_bagit (so_tree s) = Some c /\ (h = true -> read F_baginfo (so_tree s) <> None) /\
      run_ops (bag_list s o b m h ms lu c) [] = Ok t /\
      l = firstn j bts ++ [(b, run_until (firstn k (bag_list s o b m h ms lu c)) [])].

  Lemma left_shape mhs : forall a a' n, foldM (apply_one s o) mhs a = Ok a' ->
    exists bts j l, a_out a' = a_out a ++ bts /\ left_after s o n mhs a = a_out a ++ l /\
      ((j <= length bts /\ l = firstn j bts) \/ begun_bag mhs bts j l).
  Proof.
    induction mhs as [|[m h] mhs IH]; intros a a' n H; cbn [foldM] in H.
    - injection H as <-. exists [], 0, []. rewrite app_nil_r. cbn [left_after]. split; [reflexivity|]. split; [reflexivity|]. left. split; [apply le_n|reflexivity].
    - pose proof H as Hall. apply bind_ok in H. destruct H as (a1 & H1 & H2). unfold apply_one in H1.
      apply bind_ok in H1. destruct H1 as ([name it] & Hn & H1). destruct name as [b|]; [|discriminate H1].
      destruct (od_has b (a_out a)) eqn:Hb; [discriminate H1|].
      destruct (bag_ops s o b m h (push_member b (a_members a)) (fold_left (add_lookup b) (plan_files s m) (a_lookup a))) as [ops fin] eqn:Eo.
      apply bind_ok in H1. destruct H1 as (t & Ht & H1). apply bind_ok in H1. destruct H1 as ([] & Ef & H1). subst fin.
      pose proof (bag_ops_ok _ _ _ _ _ _ _ _ Eo) as (c & Rc & El & Hi). injection H1 as <-.
      assert (Hb' := Hb). apply od_has_false in Hb'. apply od_get_none in Hb'.
      cbn [left_after]. destruct n as [|n].
      { destruct (IH _ _ 0 H2) as (bts & j & l & E1 & E2 & _). cbn [a_out] in E1. rewrite od_set_fresh, <- app_assoc in E1 by exact Hb'.
        exists ((b, t) :: bts), 0, []. split; [exact E1|]. split; [rewrite app_nil_r; reflexivity|]. left. split; [apply Nat.le_0_l|reflexivity]. }
      rewrite Hn, Hb, Eo, Ht. destruct (n <? length ops) eqn:En.
      + destruct (IH _ _ 0 H2) as (bts & j & l & E1 & E2 & _). cbn [a_out] in E1. rewrite od_set_fresh, <- app_assoc in E1 by exact Hb'.
        exists ((b, t) :: bts), 0, [(b, run_until (firstn n ops) [])]. split; [exact E1|]. split; [apply od_set_fresh; exact Hb'|]. right.
        exists b, t, m, h, (push_member b (a_members a)), (fold_left (add_lookup b) (plan_files s m) (a_lookup a)), c, n. subst ops.
        split; [reflexivity|]. split; [reflexivity|]. split; [exact Rc|]. split; [exact Hi|]. split; [exact Ht|reflexivity].
      + apply Nat.ltb_ge in En. rewrite firstn_all2 by exact En. rewrite (run_until_ok _ _ _ Ht).
        destruct (IH _ _ (n - length ops) H2) as (bts & j & l & E1 & E2 & Sh). cbn [a_out] in E1, E2. rewrite od_set_fresh, <- app_assoc in E1 by exact Hb'.
        rewrite (od_set_fresh b t (a_out a)) in E2 by exact Hb'. rewrite <- app_assoc in E2.
        exists ((b, t) :: bts), (S j), ((b, t) :: l). split; [exact E1|]. split; [rewrite <- (od_set_fresh b t (a_out a)) in E2 by exact Hb'; exact E2|].
        destruct Sh as [[L ->]|(b0 & t0 & m0 & h0 & ms & lu & c0 & k & N1 & N2 & R1 & R2 & R3 & ->)]; [left; split; [cbn [length]; lia|reflexivity]|right].
        exists b0, t0, m0, h0, ms, lu, c0, k. split; [exact N1|]. split; [exact N2|]. split; [exact R1|]. split; [exact R2|]. split; [exact R3|reflexivity].
  Qed.

  Lemma left_whole mhs : forall a a', foldM (apply_one s o) mhs a = Ok a' -> exists steps, forall n, steps <= n -> left_after s o n mhs a = a_out a'.
  Proof.
    induction mhs as [|[m h] mhs IH]; intros a a' H; cbn [foldM] in H; [injection H as <-; exists 0; reflexivity|].
    apply bind_ok in H. destruct H as (a1 & H1 & H2). unfold apply_one in H1.
    apply bind_ok in H1. destruct H1 as ([name it] & Hn & H1). destruct name as [b|]; [|discriminate H1].
    destruct (od_has b (a_out a)) eqn:Hb; [discriminate H1|].
    destruct (bag_ops s o b m h (push_member b (a_members a)) (fold_left (add_lookup b) (plan_files s m) (a_lookup a))) as [ops fin] eqn:Eo.
    apply bind_ok in H1. destruct H1 as (t & Ht & H1). apply bind_ok in H1. destruct H1 as ([] & Ef & H1). subst fin. injection H1 as <-.
    destruct (IH _ _ H2) as [k Hk]. exists (S (length ops + k)). intros n Ln. destruct n as [|n]; [lia|]. cbn [left_after]. rewrite Hn, Hb, Eo, Ht.
    rewrite (proj2 (Nat.ltb_ge n (length ops))) by lia. rewrite firstn_all2 by lia. rewrite (run_until_ok _ _ _ Ht). apply Hk. lia.
  Qed.
End Shape.

(** A plan does not name the files that a split writes itself. *)
Definition plans_no_own (p : plan) : Prop := forall m f, In m (p_manifests p) -> In f (m_contents m) -> ~ own_file true f.

Lemma planned p m h j : nth_error (manifests p) j = Some (m, h) -> In m (p_manifests p).
Proof. intros N. apply nth_error_In in N. rewrite <- manifests_fst. apply (in_map fst) in N. exact N. Qed.

Lemma nth_head l : forall j m, nth_error (mark_head l) j = Some (m, true) -> S j = length l.
Proof.
  induction l as [|x [|y l] IH]; intros j m H; [destruct j; discriminate H| |].
  - destruct j as [|[|j]]; [reflexivity|discriminate H|discriminate H].
  - change (mark_head (x :: y :: l)) with ((x, false) :: mark_head (y :: l)) in H. destruct j as [|j]; [discriminate H|]. cbn [nth_error] in H.
    apply IH in H. cbn [length] in *. lia.
Qed.

(** Wherever the split stops, the first bags are complete, and at most one more
    is begun: all that it has is right. After all the steps all the bags are
    there. *)
Theorem C132_stopped : forall s o p it out bags,
  splits_into s o p it out bags -> plans_no_own p ->
  (forall n, exists j l, plan_left s o p it n out = out ++ l /\ first_bags bags j l) /\
  exists steps, forall n, steps <= n -> plan_left s o p it n out = out ++ bags.
Proof.
  intros s o p it out bags (a & H & E) Ho. unfold plan_left. unfold apply_plan in H. destruct (initial_lists s) as [[ms lu]|e]; [|discriminate H]. cbn [bind] in H. split.
  - intros n. destruct (left_shape s o _ _ _ n H) as (bts & j & l & E1 & E2 & Sh). cbn [a_out] in *. rewrite E1 in E. apply app_inv_head in E. subst bts.
    exists j, l. split; [exact E2|]. destruct Sh as [[L ->]|(b & t & m & h & ms' & lu' & c & k & N1 & N2 & R1 & R2 & R3 & ->)]; [constructor; exact L|].
    apply (begun bags j b t _ N1). apply stop_unfinished; [|exact R3]. intros f If. exact (Ho m f (planned _ _ _ _ N2) If).
  - destruct (left_whole s o _ _ _ H) as [k Hk]. exists k. intros n Ln. rewrite (Hk n Ln). exact E.
Qed.
Print Assumptions C132_stopped.

(** ** The head bag comes last *)

Lemma unfinished_head r u t : unfinished u t -> says_head r u -> says_head r t /\ read (U "bag-info.txt") u <> None.
Proof.
  intros [_ Un] (d & Hd & Hh). unfold tags_of in Hd. destruct (read (U "bag-info.txt") u) as [c|] eqn:E.
  - split; [|discriminate]. destruct (Un _ _ E) as (more & Rt & M). rewrite M, app_nil_r in Rt by (intros a; split; discriminate).
    exists d. split; [|exact Hh]. unfold tags_of. rewrite Rt. exact Hd.
  - injection Hd as <-. discriminate Hh.
Qed.

Lemma unfinished_refl u : unfinished u u.
Proof. split; [auto|]. intros p c H. exists []. rewrite app_nil_r. split; [exact H|reflexivity]. Qed.

Lemma member_no_head s o m ms lu b t : opened s -> plain_opts (so_reader s) o -> no_brk (so_reader s) b ->
  one_bag s o m false ms lu b t -> ~ says_head (so_reader s) t.
Proof.
  intros Ho Hp Hb O (d & Hd & Hh). destruct (bag_tags s o m false ms lu b t Ho Hp Hb O) as (d1 & Td & Sh & V).
  rewrite Td in Hd. injection Hd as ->. specialize (V T_HeadVersion). rewrite head_version_values in V. cbn [map] in V.
  unfold od_has in Hh. change (U "Multibag-Head-Version") with T_HeadVersion in Hh. unfold tag_values in V.
  destruct (od_get T_HeadVersion d) as [[v|[|v l]]|] eqn:G; try discriminate V; [|discriminate Hh].
  apply Sh in G. cbn [length] in G. lia.
Qed.

Lemma nth_error_firstn_lt {A} (l : list A) : forall j i, i < j -> nth_error (firstn j l) i = nth_error l i.
Proof.
  induction l as [|x l IH]; intros j i L; [rewrite firstn_nil; reflexivity|]. destruct j as [|j]; [lia|]. destruct i as [|i]; [reflexivity|].
  cbn [firstn nth_error]. apply IH. lia.
Qed.

Lemma forall2_length {A B} (R : A -> B -> Prop) l1 l2 : Forall2 R l1 l2 -> length l1 = length l2.
Proof. induction 1; cbn [length]; congruence. Qed.

(** Wherever the split stops, a new bag that says that it is a head bag is the
    last bag of the plan, all the other bags are complete, and all its files and
    directories are there but perhaps the three lists, which are written last, and
    their directory. *)
Theorem C132_head : forall s o p it out bags n l b u,
  opened s -> plain_opts (so_reader s) o -> Forall (no_brk (so_reader s)) (map fst bags) ->
  splits_into s o p it out bags -> plans_no_own p ->
  plan_left s o p it n out = out ++ l -> In (b, u) l -> says_head (so_reader s) u ->
  exists t, bags = removelast bags ++ [(b, t)] /\ l = removelast bags ++ [(b, u)] /\ unfinished u t /\ but_lists u t.
Proof.
  intros s o p it out bags n l b u Op Hp Fb Sp Ho Hl I Hu. destruct (made_split _ _ _ _ _ _ Sp) as (ms0 & lu0 & ms' & lu' & Ei & M & Nd & _ & En). apply made_each in M.
  destruct Sp as (a & H & E). unfold plan_left in Hl. unfold apply_plan in H. rewrite Ei in *. cbn [bind] in H.
  destruct (left_shape s o _ _ _ n H) as (bts & j & l' & E1 & E2 & Sh). cbn [a_out] in *. rewrite E1 in E. apply app_inv_head in E. subst bts.
  rewrite E2 in Hl. apply app_inv_head in Hl. subst l'.
  assert (Lm : length (manifests p) = length bags) by (exact (forall2_length _ _ _ M)).
  assert (Each : forall i b0 t0, nth_error bags i = Some (b0, t0) -> says_head (so_reader s) t0 -> S i = length bags).
  { intros i b0 t0 Ni S0. destruct (nth_error (manifests p) i) as [[m h]|] eqn:Nm.
    - assert (O : exists ms lu, one_bag s o m h ms lu b0 t0).
      { clear - M Ni Nm. revert i Ni Nm. induction M as [|x y xs ys X M IH]; intros i Ni Nm; [destruct i; discriminate Ni|].
        destruct i as [|i]; [injection Ni as ->; injection Nm as ->; exact X|exact (IH i Ni Nm)]. }
      destruct O as (ms & lu & O). destruct h.
      + apply nth_head in Nm. rewrite Nm, <- Lm. unfold manifests. clear. induction (p_manifests p) as [|x [|y l] IH]; [reflexivity|reflexivity|].
        change (mark_head (x :: y :: l)) with ((x, false) :: mark_head (y :: l)). cbn [length] in *. rewrite IH. reflexivity.
      + exfalso. apply (member_no_head s o m ms lu b0 t0 Op Hp); [|exact O|exact S0]. rewrite Forall_forall in Fb. apply Fb. apply nth_error_In in Ni. apply (in_map fst) in Ni. exact Ni.
    - exfalso. apply nth_error_None in Nm. assert (i < length bags) by (apply nth_error_Some; rewrite Ni; discriminate). lia. }
  assert (Lst : forall i b0 t0, nth_error bags i = Some (b0, t0) -> S i = length bags -> bags = removelast bags ++ [(b0, t0)] /\ firstn i bags = removelast bags).
  { intros i b0 t0 Ni Li. assert (Nb : bags <> []) by (intros X; rewrite X in Ni; destruct i; discriminate Ni).
    destruct (exists_last Nb) as (q & [b1 t1] & Eq). rewrite Eq in *. rewrite app_length in Li. cbn [length] in Li. rewrite removelast_last.
    assert (i = length q) by lia. subst i. rewrite nth_error_app2, Nat.sub_diag in Ni by apply le_n. injection Ni as -> ->. split; [reflexivity|].
    rewrite firstn_app, Nat.sub_diag, firstn_all. cbn [firstn]. apply app_nil_r. }
  assert (Whole : forall i, nth_error bags i = Some (b, u) -> S i = length bags -> exists t, bags = removelast bags ++ [(b, t)] /\ bags = removelast bags ++ [(b, u)] /\ unfinished u t /\ but_lists u t).
  { intros i Ni Li. destruct (Lst i b u Ni Li) as [X _]. exists u. split; [exact X|]. split; [exact X|]. split; [exact (unfinished_refl u)|]. split; intros q; reflexivity. }
  destruct Sh as [[L ->]|(b0 & t & m & h & ms & lu & c & k & N1 & N2 & R1 & R2 & R3 & ->)].
  - apply In_nth_error in I. destruct I as [i Ni]. assert (Li : i < j) by (assert (X : i < length (firstn j bags)) by (apply nth_error_Some; rewrite Ni; discriminate); rewrite firstn_length in X; lia).
    rewrite nth_error_firstn_lt in Ni by exact Li. pose proof (Each i b u Ni Hu) as Q. assert (j = length bags) by lia. subst j. rewrite firstn_all. exact (Whole i Ni Q).
  - apply in_app_iff in I. destruct I as [I|[I|[]]].
    + apply In_nth_error in I. destruct I as [i Ni]. assert (Lj : j < length bags) by (apply nth_error_Some; rewrite N1; discriminate).
      assert (Li : i < j) by (assert (X : i < length (firstn j bags)) by (apply nth_error_Some; rewrite Ni; discriminate); rewrite firstn_length in X; lia).
      rewrite nth_error_firstn_lt in Ni by exact Li. pose proof (Each i b u Ni Hu). lia.
    + injection I as -> Eu. assert (Hm : forall f, In f (m_contents m) -> ~ own_file true f) by (intros f If; exact (Ho m f (planned _ _ _ _ N2) If)).
      pose proof (stop_unfinished s o b m h ms lu c Hm t k R3) as Un. rewrite Eu in Un. destruct (unfinished_head _ _ _ Un Hu) as [St Hi].
      pose proof (Each j b t N1 St) as Lj. destruct (Lst j b t N1 Lj) as [X Y]. exists t. split; [exact X|]. split; [rewrite Y, Eu; reflexivity|].
      split; [exact Un|]. rewrite <- Eu in *. exact (stop_but_lists s o b m h ms lu c Hm t k R3 Hi).
Qed.
Print Assumptions C132_head.

(** ** Cases *)

Definition sp_left (n : nat) (out : dict tree) : dict tree := plan_left ex_source ex_opts ex_plan None n out.
Definition sp_steps : nat := 60.
Definition sp_old : dict tree := [(U "other", [(U "x", NFile (U "1"))])].
Definition sp_shape (n : nat) : list (pystr * bool * nat) :=
  map (fun bt => (fst bt, match read (U "bag-info.txt") (snd bt) with Some _ => true | None => false end, length (snd bt))) (sp_left n sp_old).

Example C132_case :
  splits_into ex_source ex_opts ex_plan None sp_old (skipn 1 (sp_left sp_steps sp_old)) /\ plans_no_own ex_plan /\
  opened ex_source /\ plain_opts (so_reader ex_source) ex_opts /\
  Forall (no_brk (so_reader ex_source)) (map fst (skipn 1 (sp_left sp_steps sp_old))) /\
  (** in the middle of the first bag, in the middle of the second, and in the end *)
  map (fun x => (fst (fst x), snd (fst x))) (sp_shape 5) = [(U "other", false); (U "one", false)] /\
  map (fun x => (fst (fst x), snd (fst x))) (sp_shape 18) = [(U "other", false); (U "one", true); (U "two", false)] /\
  map (fun x => (fst (fst x), snd (fst x))) (sp_shape sp_steps) = [(U "other", false); (U "one", true); (U "two", true)] /\
  apply_plan ex_source ex_opts ex_plan None (sp_left 18 sp_old) = Err EOS.
Proof.
  destruct C31_case as [No _].
  split.
  { unfold splits_into. destruct (apply_plan ex_source ex_opts ex_plan None sp_old) as [a|e] eqn:E.
    - exists a. split; [reflexivity|]. assert (X : match apply_plan ex_source ex_opts ex_plan None sp_old with Ok a => a_out a | Err _ => [] end = sp_old ++ skipn 1 (sp_left sp_steps sp_old)) by (vm_compute; reflexivity).
      rewrite E in X. exact X.
    - assert (X : is_ok (apply_plan ex_source ex_opts ex_plan None sp_old) = true) by (vm_compute; reflexivity). rewrite E in X. discriminate X. }
  split; [exact No|]. split; [vm_compute; reflexivity|]. split; [exact (proj2 ex_opened)|].
  split. { assert (X : map fst (skipn 1 (sp_left sp_steps sp_old)) = [U "one"; U "two"]) by (vm_compute; reflexivity). rewrite X. apply Forall_cons; [apply no_brk_b; reflexivity|]. apply Forall_cons; [apply no_brk_b; reflexivity|constructor]. }
  split; [vm_compute; reflexivity|]. split; [vm_compute; reflexivity|]. split; vm_compute; reflexivity.
Qed.

(** * C124: acting on the split bags while the split goes on *)

Require Import String NArith PeanoNat Bool List Lia.
From Verif Require Import PyBase PyFacts Fs FsFacts HeadBag HeadBagProofs BagIt Split SplitApply SplitApplyProofs SplitApplyProofs2 SplitApplyProofs6 SplitApplyProofs8 Props_SplitApply Props_SplitApply2 Props_SplitApply3 SplitIter.
Import ListNotations.
Open Scope N_scope.

(** ** Specification *)

(** The caller puts nothing under the name of a bag that is still to come: what
    the [k]-th action makes of a directory without such a name has none. *)
Definition keeps_clear (bags : dict tree) (act : nat -> dict tree -> dict tree) : Prop :=
  forall k d b, In b (map fst (skipn k bags)) -> od_has b d = false -> od_has b (act k d) = false.

(** ** Copies *)

Lemma newest_spec b t ms lu it (out : dict tree) :
  newest {| a_out := od_set b t out; a_members := push_member b ms; a_lookup := lu; a_naming := it |} = [(b, t)].
Proof.
  unfold newest. cbn [a_members a_out]. unfold push_member. rewrite rev_app_distr. cbn [rev app].
  rewrite od_get_set_same. reflexivity.
Qed.

Lemma od_has_set b x v (d : dict tree) : b <> x -> od_has b (od_set x v d) = od_has b d.
Proof. intros N0. unfold od_has. rewrite od_get_set_other; auto. Qed.

Lemma drive_same s o act mhs : forall k a a' d bts, foldM (apply_one s o) mhs a = Ok a' ->
  a_out a' = a_out a ++ bts ->
  (forall j x b, In b (map fst (skipn j bts)) -> od_has b x = false -> od_has b (act (k + j)%nat x) = false) ->
  (forall b, In b (map fst bts) -> od_has b d = false) ->
  exists z, drive s o act k mhs (with_out a d) = (bts, Ok z) /\
            a_members z = a_members a' /\ a_lookup z = a_lookup a'.
Proof.
  induction mhs as [|[m h] mhs IH]; intros k a a' d bts H E A D; cbn [foldM] in H; cbn [drive].
  - inversion H; subst a'. rewrite <- (app_nil_r (a_out a)) in E at 1. apply app_inv_head in E. subst bts.
    exists (with_out a d). auto.
  - apply bind_ok in H. destruct H as (a1 & H1 & H2).
    destruct (apply_fold _ _ _ _ _ H2) as (bts2 & E2 & _ & N2 & F2 & _).
    unfold apply_one in H1. apply bind_ok in H1. destruct H1 as ([name it] & Hn & H1).
    destruct name as [b|]; [|discriminate H1]. destruct (od_has b (a_out a)) eqn:Hb; [discriminate H1|].
    destruct (bag_ops s o b m h (push_member b (a_members a))
                (fold_left (add_lookup b) (plan_files s m) (a_lookup a))) as [ops fin] eqn:Eo.
    apply bind_ok in H1. destruct H1 as (t & Ht & H1). apply bind_ok in H1. destruct H1 as ([] & Ef & H1).
    subst fin. assert (Nb : ~ In b (od_keys (a_out a))) by (apply od_get_none, od_has_false; exact Hb).
    inversion H1; subst a1; clear H1. cbn [a_out] in *.
    assert (Eb : bts = (b, t) :: bts2).
    { apply (app_inv_head (a_out a)). rewrite <- E, E2, od_set_fresh by exact Nb. rewrite <- app_assoc. reflexivity. }
    subst bts. unfold apply_one at 1. cbn [with_out a_naming a_out a_members a_lookup]. rewrite Hn. cbn [bind].
    rewrite (D b) by (left; reflexivity). rewrite Eo. cbn [bind]. rewrite Ht. cbn [bind]. rewrite newest_spec. cbn [a_out].
    set (a1 := {| a_out := od_set b t (a_out a); a_members := push_member b (a_members a);
                  a_lookup := fold_left (add_lookup b) (plan_files s m) (a_lookup a); a_naming := it |}) in *.
    specialize (IH (S k) a1 a' (act (S k) (od_set b t d)) bts2 H2 E2).
    destruct IH as (z & Z & Zm & Zl).
    + intros j x c I0 X. replace (S k + j)%nat with (k + S j)%nat by lia. apply A; auto.
    + intros c I0. replace (S k) with (k + 1)%nat by lia. apply A; [exact I0|].
      assert (Dc : c <> b). { intros ->. apply F2 in I0. apply I0. cbn [a1 a_out]. apply od_has_iff. unfold od_has.
        rewrite od_get_set_same. reflexivity. }
      rewrite od_has_set by exact Dc. apply D. right. exact I0.
    + exists z. change (with_out {| a_out := od_set b t d; a_members := push_member b (a_members a);
        a_lookup := fold_left (add_lookup b) (plan_files s m) (a_lookup a); a_naming := it |} (act (S k) (od_set b t d)))
        with (with_out a1 (act (S k) (od_set b t d))). rewrite Z. auto.
Qed.

Lemma foldM_firstn s o n mhs a a' bts : foldM (apply_one s o) mhs a = Ok a' -> a_out a' = a_out a ++ bts ->
  exists a1, foldM (apply_one s o) (firstn n mhs) a = Ok a1 /\ a_out a1 = a_out a ++ firstn n bts.
Proof.
  intros H E. rewrite <- (firstn_skipn n mhs) in H. rewrite foldM_app in H. apply bind_ok in H.
  destruct H as (a1 & H1 & H2). exists a1. split; [exact H1|].
  destruct (apply_fold _ _ _ _ _ H1) as (b1 & E1 & M1 & _). destruct (apply_fold _ _ _ _ _ H2) as (b2 & E2 & M2 & _).
  assert (L : forall mhs bs ms lu ms' lu', made s o mhs bs ms lu ms' lu' -> length bs = length mhs).
  { clear. induction mhs as [|[m h] mhs IH]; intros [|[b t] bs] ms lu ms' lu' M; cbn [made] in M; try contradiction; auto.
    cbn [length]. f_equal. eapply IH. exact (proj2 M). }
  apply L in M1. apply L in M2. rewrite E2, E1, <- app_assoc in E. apply app_inv_head in E. subst bts. rewrite E1. f_equal.
  rewrite firstn_app. rewrite firstn_length in M1. destruct (Nat.le_gt_cases n (length mhs)) as [Q|Q].
  - rewrite M1, (Nat.min_l _ _ Q), Nat.sub_diag. cbn [firstn]. rewrite app_nil_r, firstn_all2; [reflexivity|lia].
  - assert (Q' : (length mhs <= n)%nat) by lia. rewrite (Nat.min_r _ _ Q') in M1. rewrite skipn_length in M2.
    assert (b2 = []) by (destruct b2; [reflexivity|cbn [length] in M2; lia]). subst b2. rewrite firstn_nil, app_nil_r.
    rewrite firstn_all2; [reflexivity|lia].
Qed.

Lemma in_skipn_firstn {A} (x : A) j n l : In x (skipn j (firstn n l)) -> In x (skipn j l).
Proof. rewrite <- (firstn_skipn n l) at 2. rewrite skipn_app, in_app_iff. auto. Qed.

(** A caller that does nothing gets what the plan makes when it is applied at
    once, and the same exception if that fails. *)
Theorem C124_undisturbed : forall s o p it out,
  snd (apply_iter s o p it (fun _ d => d) None out) = apply_plan s o p it out.
Proof.
  intros s o p it out. unfold apply_iter, apply_plan. destruct (initial_lists s) as [[ms lu]|e]; [|reflexivity]. cbn [bind].
  generalize {| a_out := out; a_members := ms; a_lookup := lu; a_naming := it |}. generalize 0%nat.
  induction (manifests p) as [|mh mhs IH]; intros k a; cbn [drive foldM]; [reflexivity|].
  destruct (apply_one s o a mh) as [a1|e]; [|reflexivity]. cbn [bind]. specialize (IH (S k) a1).
  replace (with_out a1 (a_out a1)) with a1 by (destruct a1; reflexivity).
  destruct (drive s o (fun _ d => d) (S k) mhs a1) as [bags r]. exact IH.
Qed.
Print Assumptions C124_undisturbed.

(** Whatever the caller does with the bags that it was given, and with the rest
    of the output directory, as long as it leaves the names of the bags to come
    free: it is given the bags that an undisturbed split makes, the first [n] if
    it asks for [n]. So bags can be moved away, serialized, changed or removed
    as soon as they were given out. *)
Theorem C124_same_bags : forall s o p it out bags act n,
  splits_into s o p it out bags -> keeps_clear bags act ->
  (exists a, apply_iter s o p it act None out = (bags, Ok a)) /\
  (exists a, apply_iter s o p it act (Some n) out = (firstn n bags, Ok a)).
Proof.
  intros s o p it out bags act n (a' & H & E) K. unfold apply_plan in H. apply bind_ok in H.
  destruct H as ([ms lu] & Hi & H). unfold apply_iter. rewrite Hi.
  set (a := {| a_out := out; a_members := ms; a_lookup := lu; a_naming := it |}) in *.
  destruct (apply_fold _ _ _ _ _ H) as (bts & E1 & _ & _ & F & _). change (a_out a) with out in *.
  rewrite E1 in E. apply app_inv_head in E. subst bts. split.
  - destruct (drive_same s o act (manifests p) 0 a a' out bags H E1) as (z & Z & _); eauto.
    + intros b I0. apply F in I0. apply od_has_false, od_get_none. exact I0.
  - destruct (foldM_firstn s o n _ _ _ bags H E1) as (a1 & H1 & E2). change (a_out a) with out in E2.
    destruct (drive_same s o act _ 0 a a1 out (firstn n bags) H1 E2) as (z & Z & _); [| |exists z; exact Z].
    + intros j x b I0. apply K. rewrite in_map_iff in *. destruct I0 as (y & <- & I0). exists y. split; auto.
      eapply in_skipn_firstn. exact I0.
    + intros b I0. apply od_has_false, od_get_none, F. rewrite in_map_iff in *. destruct I0 as (y & <- & I0). exists y.
      split; auto. rewrite <- (firstn_skipn n bags). apply in_or_app. left. exact I0.
Qed.

(** A caller that stops before the last bag has no head bag. Missing: the
    names and lists for which C26 is partial. *)
Theorem C124_stopped_partial : forall s o p it out bags act n ms0 lu0,
  opened s -> plain_opts (so_reader s) o -> lists_before s ms0 lu0 -> NoDup ms0 -> p_manifests p <> [] ->
  splits_into s o p it out bags -> Forall (storable (so_reader s)) (ms0 ++ map fst bags) ->
  keeps_clear bags act -> (n < length bags)%nat ->
  forall b t, In (b, t) (fst (apply_iter s o p it act (Some n) out)) -> ~ designated (so_reader s) t.
Proof.
  intros s o p it out bags act n ms0 lu0 Ho Hp Hl Nm Np Hs Fs K Ln b t I0.
  destruct (C124_same_bags s o p it out bags act n Hs K) as [_ [a Ha]]. rewrite Ha in I0. cbn [fst] in I0.
  destruct (C26_head_and_members_partial s o p it out bags ms0 lu0 Ho Hp Hl Nm Np Hs Fs) as
    (others & head & th & tags & members & Eb & Fo & _).
  rewrite Eb, app_length in Ln. cbn [length] in Ln. rewrite Eb, firstn_app in I0.
  replace (n - length others)%nat with 0%nat in I0 by lia. cbn [firstn] in I0. rewrite app_nil_r in I0.
  rewrite Forall_forall in Fo. destruct (Fo (b, t)) as (d & Td & Hd).
  { rewrite <- (firstn_skipn n others). apply in_or_app. left. exact I0. }
  intros (d' & Td' & Hd'). cbn [snd] in Td. rewrite Td in Td'. inversion Td'; subst d'.
  change T_HeadVersion with (U "Multibag-Head-Version") in Hd'. rewrite Hd in Hd'. discriminate Hd'.
Qed.

Example C124_case :
  keeps_clear ex_bags (fun _ _ => []) /\ length ex_bags = 2%nat /\
  fst (apply_iter ex_source ex_opts ex_plan None (fun _ _ => []) None []) = ex_bags /\
  map fst (fst (apply_iter ex_source ex_opts ex_plan None (fun _ _ => []) (Some 1%nat) [])) = [U "one"].
Proof.
  split; [intros k d b _ _; reflexivity|]. split; [vm_compute; reflexivity|]. split; vm_compute; reflexivity.
Qed.

Print Assumptions C124_same_bags.
Print Assumptions C124_stopped_partial.

(** ** Hard links *)

(** An edit that writes files in place and makes directories, but makes no
    links. *)
Definition plain_edit (x : op) : Prop := match x with OCopy _ _ => False | _ => True end.

(** An edit of files that the split made anew in the bag (its bag-info.txt,
    its manifests, its multibag files), or of files that the source does not
    have. *)
Definition safe_edit (s : source) (x : op) : Prop :=
  plain_edit x /\
  forall q, touches q x -> q <> U "bagit.txt" /\ (own_file true q \/ read q (so_tree s) = None).

(** The plan has none of the files that the split makes anew. *)
Definition nothing_own (p : plan) : Prop :=
  forall m f, In m (p_manifests p) -> In f (m_contents m) -> ~ own_file true f.

Definition may_link (src : tree) (p : pystr) : Prop :=
  p = F_bagit \/ (~ own_file true p /\ read p src <> None).

Lemma own_true h p : own_file h p -> own_file true p.
Proof. destruct 1; constructor; auto. Qed.

Lemma bag_links_in s o b m h ms lu : no_own m true ->
  Forall (link_ok (so_tree s) (may_link (so_tree s))) (fst (bag_ops s o b m h ms lu)).
Proof.
  intros Hno.
  assert (Ho : forall p, own_file h p -> streq p F_bagit = false -> ~ may_link (so_tree s) p).
  { intros p O D [E|[E _]]; [subst; discriminate D|]. apply E. eapply own_true. exact O. }
  assert (Hs : Forall (link_ok (so_tree s) (may_link (so_tree s))) (start_ops s)).
  { apply Forall_forall. intros x I0. apply in_start_ops in I0. destruct I0 as [->|(a & -> & _)]; cbn [link_ok]; auto.
    apply Ho; [apply man_own|reflexivity]. }
  unfold bag_ops. destruct (read F_bagit (so_tree s)) as [c|] eqn:Rc; cbn [fst]; [|exact Hs].
  rewrite !Forall_app. repeat split; auto.
  - constructor; [|constructor]. cbn [link_ok]. split; auto. left; reflexivity.
  - apply Forall_forall. intros x I0. apply in_flat_map in I0. destruct I0 as (f & If & I0). apply in_path_ops in I0.
    destruct I0 as [(cc & Rf & [->|[->|I0]])|(_ & D & ->)]; cbn [link_ok]; auto.
    + split; auto. right. split; [apply Hno; exact If|rewrite Rf; discriminate].
    + apply in_hash_ops in I0. destruct I0 as (a & hh & -> & _). cbn [link_ok]. destruct (is_payload f).
      * apply Ho; [apply man_own|reflexivity].
      * apply Ho; [apply tag_own|reflexivity].
  - constructor; [|constructor]. apply Ho; [apply own_info|reflexivity].
  - destruct h; [|constructor]. unfold multibag_ops.
    repeat apply Forall_cons; try apply Forall_nil; cbn [link_ok]; auto; (apply Ho; [|reflexivity]);
      [apply own_members|apply own_lookup|apply own_agg]; reflexivity.
Qed.

Lemma run_linked_in src (L : pystr -> Prop) ops : forall t lk, Forall (link_ok src L) ops -> (forall p, In p lk -> L p) ->
  match run_ops ops t with
  | Ok t' => exists lk', foldM run_linked ops {| l_src := src; l_out := t; l_links := lk |} =
                         Ok {| l_src := src; l_out := t'; l_links := lk' |} /\ forall p, In p lk' -> L p
  | Err e => foldM run_linked ops {| l_src := src; l_out := t; l_links := lk |} = Err e
  end.
Proof.
  unfold run_ops. induction ops as [|o ops IH]; intros t lk F Hl; cbn [foldM]; [eauto|].
  inversion F; subst. pose proof (run_linked_one src L o t lk ltac:(assumption) Hl) as R.
  destruct (run_op t o) as [t1|e]; cbn [bind].
  - destruct R as (lk' & -> & Hl'). cbn [bind]. apply IH; auto.
  - rewrite R. reflexivity.
Qed.

(** An edit changes the source at most at the paths that it writes, and only
    where they are links; it makes no links. *)
Lemma linked_write_ok p c l l' : linked_write p c l = Ok l' ->
  l_links l' = l_links l /\ (forall q, q <> p -> od_get q (l_src l') = od_get q (l_src l)) /\
  (~ In p (l_links l) -> l_src l' = l_src l).
Proof.
  unfold linked_write. intros H. apply bind_ok in H. destruct H as (t & _ & H). inversion H; subst. cbn [l_links l_src].
  split; [reflexivity|]. destruct (str_in p (l_links l)) eqn:E.
  - split; [intros q D; apply od_get_set_other; exact D|]. apply str_in_iff in E. contradiction.
  - auto.
Qed.

Lemma edit_step_ok l x : plain_edit x ->
  l_links (edit_step l x) = l_links l /\
  (forall q, ~ touches q x -> od_get q (l_src (edit_step l x)) = od_get q (l_src l)) /\
  ((forall q, touches q x -> ~ In q (l_links l)) -> l_src (edit_step l x) = l_src l).
Proof.
  intros P. unfold edit_step. destruct (run_linked l x) as [l'|e] eqn:R; [|auto].
  destruct x as [p|p|p c|p c|p c]; cbn [run_linked touches plain_edit] in *; [| | | |contradiction].
  - apply bind_ok in R. destruct R as (t & _ & R). inversion R; subst. auto.
  - apply bind_ok in R. destruct R as (t & _ & R). inversion R; subst. auto.
  - apply linked_write_ok in R. destruct R as (R1 & R2 & R3). split; [exact R1|]. split; [exact R2|]. intros Q. apply R3, Q. reflexivity.
  - apply linked_write_ok in R. destruct R as (R1 & R2 & R3). split; [exact R1|]. split; [exact R2|]. intros Q. apply R3, Q. reflexivity.
Qed.

Lemma edits_ok xs : forall l, Forall plain_edit xs ->
  (forall q, (forall x, In x xs -> ~ touches q x) -> od_get q (l_src (fold_left edit_step xs l)) = od_get q (l_src l)) /\
  ((forall x q, In x xs -> touches q x -> ~ In q (l_links l)) -> l_src (fold_left edit_step xs l) = l_src l).
Proof.
  induction xs as [|x xs IH]; intros l F; cbn [fold_left]; [auto|]. inversion F; subst.
  destruct (edit_step_ok l x ltac:(assumption)) as (E1 & E2 & E3). destruct (IH (edit_step l x) ltac:(assumption)) as (I1 & I2).
  split.
  - intros q Q. rewrite I1 by (intros y Iy; apply Q; right; exact Iy). apply E2. apply Q. left; reflexivity.
  - intros Q. rewrite I2; [apply E3; intros q T; apply (Q x q); auto; left; reflexivity|].
    intros y q Iy T. rewrite E1. apply (Q y q); auto. right; exact Iy.
Qed.

(** One bag with its edit. *)
Lemma one_edited s o ed a src m h : no_own m true ->
  match apply_one (with_tree s src) o a (m, h) with
  | Err e => apply_one_edited s o ed (a, src) (m, h) = Err e
  | Ok a1 => exists b t l a2,
      apply_one_edited s o ed (a, src) (m, h) = Ok ((b, t), (a2, l_src (fold_left edit_step (e_ops ed) l))) /\
      l_src l = src /\ (forall q, In q (l_links l) -> may_link src q) /\
      a_out a1 = od_set b t (a_out a) /\ ~ In b (od_keys (a_out a)) /\
      (exists d, a2 = with_out a1 d /\ forall c, c <> b -> od_has c d = od_has c (a_out a))
  end.
Proof.
  intros Hm. unfold apply_one, apply_one_edited.
  destruct (next_name m (a_naming a)) as [[name it]|e]; cbn [bind]; [|reflexivity].
  destruct name as [b|]; [|reflexivity]. destruct (od_has b (a_out a)) eqn:Hb; [reflexivity|].
  set (ms := push_member b (a_members a)). set (lu := fold_left (add_lookup b) (plan_files (with_tree s src) m) (a_lookup a)).
  pose proof (bag_links_in (with_tree s src) o b m h ms lu Hm) as Fl.
  destruct (bag_ops (with_tree s src) o b m h ms lu) as [ops fin] eqn:Eo. cbn [fst so_tree with_tree] in Fl.
  pose proof (run_linked_in src _ ops [] [] Fl ltac:(intros ? [])) as R. unfold run_linked_ops.
  destruct (run_ops ops []) as [t|e]; cbn [bind].
  - destruct R as (lk & -> & Lk). cbn [bind]. destruct fin as [[]|e]; cbn [bind]; [|reflexivity]. cbn [l_out].
    exists b, t. eexists {| l_src := src; l_out := t; l_links := lk |}, _. split; [reflexivity|]. split; [reflexivity|].
    split; [exact Lk|]. split; [reflexivity|]. split; [apply od_get_none, od_has_false; exact Hb|].
    eexists. split; [reflexivity|]. intros c D. cbn [a_out]. destruct (e_away ed); [reflexivity|]. apply od_has_set. exact D.
  - rewrite R. reflexivity.
Qed.

(** What apply_one does with a different output directory. *)
Lemma apply_one_with_out s o a mh d b t a1 : apply_one s o a mh = Ok a1 -> a_out a1 = od_set b t (a_out a) ->
  ~ In b (od_keys (a_out a)) -> od_has b d = false ->
  apply_one s o (with_out a d) mh = Ok (with_out a1 (od_set b t d)).
Proof.
  destruct mh as [m h]. unfold apply_one. cbn [with_out a_naming a_out a_members a_lookup]. intros H E Nb D.
  apply bind_ok in H. destruct H as ([name it] & -> & H). cbn [bind]. destruct name as [c|]; [|discriminate H].
  destruct (od_has c (a_out a)) eqn:Hc; [discriminate H|].
  destruct (bag_ops s o c m h _ _) as [ops fin] eqn:Eo. apply bind_ok in H. destruct H as (t1 & Ht & H).
  apply bind_ok in H. destruct H as ([] & -> & H). inversion H; subst a1; clear H. cbn [a_out] in E.
  assert (Nc : ~ In c (od_keys (a_out a))) by (apply od_get_none, od_has_false; exact Hc).
  rewrite !od_set_fresh in E by assumption. apply app_inv_head in E. inversion E; subst c t1.
  rewrite D, Ht. reflexivity.
Qed.

Lemma drive_linked_same s o act mhs : forall k a a' d bts,
  Forall (fun mh => no_own (fst mh) true) mhs -> (forall j, Forall (safe_edit s) (e_ops (act j))) ->
  foldM (apply_one s o) mhs a = Ok a' -> a_out a' = a_out a ++ bts ->
  (forall b, In b (map fst bts) -> od_has b d = false) ->
  exists z, drive_linked s o act k mhs (with_out a d, so_tree s) = (bts, Ok (z, so_tree s)) /\
            a_members z = a_members a' /\ a_lookup z = a_lookup a'.
Proof.
  induction mhs as [|[m h] mhs IH]; intros k a a' d bts Fm S H E D; cbn [foldM] in H; cbn [drive_linked].
  - inversion H; subst a'. rewrite <- (app_nil_r (a_out a)) in E at 1. apply app_inv_head in E. subst bts.
    exists (with_out a d). auto.
  - apply bind_ok in H. destruct H as (a1 & H1 & H2). inversion Fm as [|? ? Hm Fm']; subst. cbn [fst] in Hm.
    destruct (apply_fold _ _ _ _ _ H2) as (bts2 & E2 & _ & N2 & F2 & _).
    pose proof (one_edited s o (act (Datatypes.S k)) a (so_tree s) m h Hm) as R1. rewrite with_tree_id, H1 in R1.
    destruct R1 as (b & t & l1 & a21 & _ & _ & _ & O1 & Nb & _).
    assert (Eb : bts = (b, t) :: bts2).
    { apply (app_inv_head (a_out a)). rewrite <- E, E2, O1, od_set_fresh by exact Nb. rewrite <- app_assoc. reflexivity. }
    subst bts.
    pose proof (one_edited s o (act (Datatypes.S k)) (with_out a d) (so_tree s) m h Hm) as R. rewrite with_tree_id in R.
    assert (Db : od_has b d = false) by (apply D; left; reflexivity).
    rewrite (apply_one_with_out s o a (m, h) d b t a1 H1 O1 Nb Db) in R.
    destruct R as (b' & t' & l & a2 & Q & Ls & Lk & O2 & Nb' & (d2 & -> & Hd2)).
    cbn [with_out a_out] in O2, Nb', Hd2.
    assert (Nd : ~ In b (od_keys d)) by (apply od_get_none, od_has_false; exact Db).
    rewrite !od_set_fresh in O2 by assumption. apply app_inv_head in O2. inversion O2; subst b' t'.
    rewrite Q. cbn [with_out].
    assert (Fe : Forall plain_edit (e_ops (act (Datatypes.S k)))).
    { eapply Forall_impl; [|exact (S (Datatypes.S k))]. intros x X. exact (proj1 X). }
    destruct (edits_ok (e_ops (act (Datatypes.S k))) l Fe) as [_ X].
    assert (Es : l_src (fold_left edit_step (e_ops (act (Datatypes.S k))) l) = so_tree s).
    { rewrite <- Ls. apply X. intros x q Ix T J. apply Lk in J.
      pose proof (S (Datatypes.S k)) as Sk. rewrite Forall_forall in Sk. destruct (Sk x Ix) as [_ Sx]. destruct (Sx q T) as [Nq Oq].
      destruct J as [J|[J1 J2]]; [contradiction|]. destruct Oq; contradiction. }
    rewrite Es.
    destruct (IH (Datatypes.S k) a1 a' d2 bts2 Fm' S H2 E2) as (z & Z & Zm & Zl).
    { intros c I0. assert (Dc : c <> b).
      { intros ->. apply F2 in I0. apply I0. rewrite O1. apply od_has_iff. unfold od_has. rewrite od_get_set_same. reflexivity. }
      rewrite Hd2 by exact Dc. apply D. right. exact I0. }
    exists z. change (with_out (with_out a1 (od_set b t d)) d2) with (with_out a1 d2). cbn [with_out] in Z. rewrite Z. auto.
Qed.

Lemma nothing_own_manifests p : nothing_own p -> Forall (fun mh => no_own (fst mh) true) (manifests p).
Proof.
  intros H. apply Forall_forall. intros [m h] I0 f If. cbn [fst] in *. apply (H m f); auto.
  rewrite <- manifests_fst. apply (in_map fst) in I0. exact I0.
Qed.

(** With hard links: a caller may move each bag away, and may write the files
    that the split made in it anew, and new files. It is given the same bags,
    and the source stays as it was. Missing: other edits, see
    [C124_edit_refuted], and plans with the files that the split makes anew,
    see [C31_refuted]. *)
Theorem C124_linked_partial : forall s o p it out bags act,
  nothing_own p -> splits_into s o p it out bags -> (forall k, Forall (safe_edit s) (e_ops (act k))) ->
  exists a, apply_iter_linked s o p it act out = (bags, Ok (a, so_tree s)).
Proof.
  intros s o p it out bags act No (a' & H & E) S. unfold apply_plan in H. apply bind_ok in H.
  destruct H as ([ms lu] & Hi & H). unfold apply_iter_linked. rewrite Hi.
  set (a := {| a_out := out; a_members := ms; a_lookup := lu; a_naming := it |}) in *.
  destruct (apply_fold _ _ _ _ _ H) as (bts & E1 & _ & _ & F & _). change (a_out a) with out in *.
  rewrite E1 in E. apply app_inv_head in E. subst bts.
  destruct (drive_linked_same s o act (manifests p) 0 a a' out bags (nothing_own_manifests p No) S H E1) as (z & Z & _).
  - intros b I0. apply F in I0. apply od_has_false, od_get_none. exact I0.
  - exists z. exact Z.
Qed.

(** Whatever files the caller writes in the new bags: a file of the source
    changes at most if the caller wrote the file of that path in one of them. *)
Theorem C124_linked_frame : forall s o p it out act bags a src q,
  nothing_own p -> (forall k, Forall plain_edit (e_ops (act k))) ->
  apply_iter_linked s o p it act out = (bags, Ok (a, src)) ->
  (forall k x, In x (e_ops (act k)) -> ~ touches q x) -> read q src = read q (so_tree s).
Proof.
  intros s o p it out act bags a src q No P H T. unfold apply_iter_linked in H.
  destruct (initial_lists s) as [[ms lu]|e]; [|discriminate H].
  apply nothing_own_manifests in No. revert No H. generalize (manifests p). intros mhs.
  generalize 0%nat {| a_out := out; a_members := ms; a_lookup := lu; a_naming := it |}. intros k0 a0.
  assert (G : forall mhs k a0 src0 bags, Forall (fun mh => no_own (fst mh) true) mhs ->
              drive_linked s o act k mhs (a0, src0) = (bags, Ok (a, src)) -> od_get q src = od_get q src0).
  { clear - P T. induction mhs as [|[m h] mhs IH]; intros k a0 src0 bags F H; cbn [drive_linked] in H.
    - inversion H; subst. reflexivity.
    - inversion F as [|? ? Hm F']; subst. cbn [fst] in Hm. pose proof (one_edited s o (act (S k)) a0 src0 m h Hm) as R.
      destruct (apply_one (with_tree s src0) o a0 (m, h)) as [a1|e]; [|rewrite R in H; discriminate H].
      destruct R as (b & t & l & a2 & Q & Ls & _). rewrite Q in H.
      destruct (drive_linked s o act (S k) mhs (a2, l_src (fold_left edit_step (e_ops (act (S k))) l))) as [bs r] eqn:Ed.
      inversion H; subst. apply IH in Ed; [|exact F']. rewrite Ed. apply edits_ok; auto. intros x Ix. eapply T. exact Ix. }
  intros No H. unfold read. rewrite (G mhs k0 a0 (so_tree s) bags No H). reflexivity.
Qed.

Lemma ex_nothing_own : nothing_own ex_plan.
Proof. destruct C31_case as [Q _]. intros m f Im If. exact (Q m f Im If). Qed.

(** Appending to a payload file of the first bag, which a caller is told it may
    do, changes the source, which is then no longer as its manifests say. *)
Theorem C124_edit_refuted : exists s o p out bags act a src,
  opened s /\ nothing_own p /\ splits_into s o p None out bags /\ sums_hold ex_hash (so_entries s) (so_tree s) /\
  (forall k, Forall plain_edit (e_ops (act k))) /\
  apply_iter_linked s o p None act out = (bags, Ok (a, src)) /\
  read (U "data/a") src <> read (U "data/a") (so_tree s) /\ ~ sums_hold ex_hash (so_entries s) src.
Proof.
  set (act := fun k : nat => {| e_ops := if Nat.eqb k 1 then [OAppend (U "data/a") (U "e")] else []; e_away := false |}).
  assert (Q1 : fst (apply_iter_linked ex_source ex_opts ex_plan None act []) = ex_bags) by (vm_compute; reflexivity).
  assert (Q2 : match snd (apply_iter_linked ex_source ex_opts ex_plan None act []) with
               | Ok st => read (U "data/a") (snd st)
               | Err _ => None
               end = Some (U "abcde")) by (vm_compute; reflexivity).
  assert (X : exists bags a src, apply_iter_linked ex_source ex_opts ex_plan None act [] = (bags, Ok (a, src)) /\
              bags = ex_bags /\ read (U "data/a") src = Some (U "abcde")).
  { revert Q1 Q2. generalize (apply_iter_linked ex_source ex_opts ex_plan None act []). generalize ex_bags (U "abcde").
    intros B c [bags [[a src]|e]] Q1 Q2; [|discriminate Q2]. exists bags, a, src. auto. }
  clear Q1 Q2. destruct X as (bags & a & src & E & Qb & Qr).
  exists ex_source, ex_opts, ex_plan, [], bags, act, a, src. split; [exact (proj1 ex_opened)|].
  split; [exact ex_nothing_own|]. split; [rewrite Qb; exact (proj1 ex_splits)|]. split; [exact (proj1 C72_case)|].
  split; [intros k; unfold act; cbn [e_ops]; destruct (Nat.eqb k 1); constructor; [exact I|constructor]|].
  split; [exact E|].
  split; [rewrite Qr; vm_compute; discriminate|].
  assert (C : exists al h, checksum (so_entries ex_source) al (U "data/a") = Some h /\ ex_hash al (U "abcde") <> h).
  { exists (U "md5"). destruct (checksum (so_entries ex_source) (U "md5") (U "data/a")) as [h|] eqn:Eh; [|vm_compute in Eh; discriminate Eh].
    exists h. split; [reflexivity|]. vm_compute in Eh. inversion Eh; subst h. vm_compute. discriminate. }
  destruct C as (al & h & C & Nh). intros S. destruct (S al (U "data/a") h C) as (c & Rc & Hc). rewrite Qr in Rc.
  inversion Rc; subst c. contradiction.
Qed.

Example C124_linked_case :
  nothing_own ex_plan /\
  let act k := {| e_ops := [OAppend (U "bag-info.txt") (U "Note: x"); OWrite (U "data/new") (U "y")]; e_away := true |} in
  (forall k : nat, Forall (safe_edit ex_source) (e_ops (act k))) /\
  fst (apply_iter_linked ex_source ex_opts ex_plan None act []) = ex_bags.
Proof.
  split; [exact ex_nothing_own|]. split; [|vm_compute; reflexivity].
  intros k. cbn [e_ops]. constructor; [|constructor; [|constructor]]; (split; [exact I|]); cbn [touches]; intros q ->;
    (split; [discriminate|]); [left; apply own_info|right; vm_compute; reflexivity].
Qed.

Print Assumptions C124_linked_partial.
Print Assumptions C124_linked_frame.
Print Assumptions C124_edit_refuted.

(** * Facts about directory trees *)

Require Import String NArith Bool List Lia Permutation Wf_nat.
From Verif Require Import PyBase PyFacts Fs.
Import ListNotations.
Open Scope N_scope.

Lemma NoDup_flat_map {A B} (f : A -> list B) l :
  NoDup l -> (forall x, In x l -> NoDup (f x)) ->
  (forall x x' y, In x l -> In x' l -> In y (f x) -> In y (f x') -> x = x') ->
  NoDup (flat_map f l).
Proof.
  induction 1 as [|x l NI ND IH]; simpl; intros H D; [constructor|].
  assert (G : forall l1 l2 : list B, NoDup l1 -> NoDup l2 ->
             (forall y, In y l1 -> ~ In y l2) -> NoDup (l1 ++ l2)).
  { induction l1; simpl; auto. intros l2 N1 N2 Dj. inversion N1; subst. constructor.
    - rewrite in_app_iff. intros [I|I]; [auto|]. apply (Dj a); auto.
    - apply IHl1; auto. }
  apply G; auto.
  - apply IH; auto. intros; eapply D; eauto.
  - intros y Hy Hy'. apply in_flat_map in Hy' as (x' & I & I').
    assert (x = x') by (eapply D; eauto). subst. contradiction.
Qed.

Lemma NoDup_map_inj {A B} (f : A -> B) l :
  (forall x y, In x l -> In y l -> f x = f y -> x = y) -> NoDup l -> NoDup (map f l).
Proof.
  intros H ND. induction ND as [|x l NI ND IH]; simpl; constructor.
  - intros I. apply in_map_iff in I as (y & E & I). apply NI.
    rewrite (H x y); simpl; auto.
  - apply IH. intros; apply H; simpl; auto.
Qed.

(** ** Paths *)

Lemma rsplit_slash_some p a b :
  rsplit_slash p = Some (a, b) <-> p = a ++ SLASH :: b /\ ~ In SLASH b.
Proof.
  split.
  - revert a b; induction p as [|c p IH]; simpl; intros a b H; [discriminate|].
    destruct (rsplit_slash p) as [[a' b']|] eqn:E.
    + injection H as <- <-. destruct (IH _ _ eq_refl) as [-> N]. auto.
    + destruct (N.eqb_spec c SLASH) as [->|]; [|discriminate].
      injection H as <- <-. split; auto.
      clear IH. intros I. revert E. induction p as [|x p IHp]; simpl in *; [tauto|].
      destruct (rsplit_slash p) as [[? ?]|]; [discriminate|].
      destruct (N.eqb_spec x SLASH); [discriminate|].
      intros _. destruct I as [I|I]; [congruence|]. apply IHp; auto.
  - intros [-> N]. revert N. induction a as [|c a IH]; simpl; intros N.
    + assert (E : rsplit_slash b = None).
      { induction b as [|x b IHb]; simpl in *; auto.
        rewrite IHb by tauto. destruct (N.eqb_spec x SLASH); [subst; tauto|auto]. }
      rewrite E. reflexivity.
    + rewrite IH by auto. reflexivity.
Qed.

Lemma rsplit_slash_none p : rsplit_slash p = None <-> ~ In SLASH p.
Proof.
  induction p as [|c p IH]; simpl; [tauto|].
  destruct (rsplit_slash p) as [[a b]|].
  - split; [discriminate|]. intros H. exfalso.
    assert (K : Some (a, b) = None) by (apply IH; tauto). discriminate.
  - destruct (N.eqb_spec c SLASH) as [->|N]; [split; [discriminate|tauto]|].
    split; auto. intros _ [H|H]; [congruence|]. apply IH in H; auto.
Qed.

Lemma dirname_app d b : ~ In SLASH b -> dirname (d ++ SLASH :: b) = d.
Proof.
  intros H. unfold dirname.
  assert (rsplit_slash (d ++ SLASH :: b) = Some (d, b)) as -> by (apply rsplit_slash_some; auto).
  reflexivity.
Qed.

Lemma basename_app d b : ~ In SLASH b -> basename (d ++ SLASH :: b) = b.
Proof.
  intros H. unfold basename.
  assert (rsplit_slash (d ++ SLASH :: b) = Some (d, b)) as -> by (apply rsplit_slash_some; auto).
  reflexivity.
Qed.

Lemma dirname_none p : ~ In SLASH p -> dirname p = [].
Proof. intros H. unfold dirname. apply rsplit_slash_none in H as ->. reflexivity. Qed.

Lemma basename_none p : ~ In SLASH p -> basename p = p.
Proof. intros H. unfold basename. apply rsplit_slash_none in H as ->. reflexivity. Qed.

Lemma basename_no_slash p : ~ In SLASH (basename p).
Proof.
  unfold basename. destruct (rsplit_slash p) as [[a b]|] eqn:E.
  - apply rsplit_slash_some in E. tauto.
  - apply rsplit_slash_none; auto.
Qed.

Lemma split_on_app_gen c a b : split_on c (a ++ c :: b) = split_on c a ++ split_on c b.
Proof.
  induction a as [|x a IH]; simpl.
  - rewrite N.eqb_refl. reflexivity.
  - rewrite IH. destruct (x =? c); [reflexivity|].
    destruct (split_on c a) eqn:E; [now apply split_on_nonempty in E|reflexivity].
Qed.

Lemma good_path_app a b : good_path (a ++ SLASH :: b) <-> good_path a /\ good_path b.
Proof. unfold good_path. rewrite split_on_app_gen. apply Forall_app. Qed.

Lemma good_path_nonempty p : good_path p -> p <> [].
Proof. intros H ->. inversion H; subst. destruct H2. congruence. Qed.

Lemma good_path_single b : ~ In SLASH b -> (good_path b <-> good_component b).
Proof.
  intros H. unfold good_path. rewrite split_on_none by auto. split.
  - intros F; inversion F; auto.
  - constructor; auto.
Qed.

Lemma path_cases p : good_path p ->
  (~ In SLASH p /\ dirname p = [] /\ basename p = p) \/
  (exists d b, p = d ++ SLASH :: b /\ ~ In SLASH b /\ good_path d /\ good_component b /\
               dirname p = d /\ basename p = b).
Proof.
  intros G. destruct (rsplit_slash p) as [[a b]|] eqn:E.
  - right. exists a, b. pose proof E as E'. apply rsplit_slash_some in E as [-> N].
    apply good_path_app in G as [Ga Gb]. repeat split; auto.
    + apply good_path_single in Gb; auto. apply Gb.
    + apply good_path_single in Gb; auto. apply Gb.
    + apply good_path_single in Gb; auto. apply Gb.
    + apply dirname_app; auto.
    + apply basename_app; auto.
  - left. apply rsplit_slash_none in E. split; auto. split.
    + apply dirname_none; auto.
    + apply basename_none; auto.
Qed.

Lemma pjoin_dirname_basename p : good_path p -> pjoin (dirname p) (basename p) = p.
Proof.
  intros G. destruct (path_cases p G) as [(N & -> & ->)|(d & b & -> & N & Gd & Gb & -> & ->)].
  - reflexivity.
  - unfold pjoin. destruct d; [apply good_path_nonempty in Gd; congruence|reflexivity].
Qed.

Lemma dirname_pjoin d b : ~ In SLASH b -> dirname (pjoin d b) = d.
Proof.
  intros H. unfold pjoin. destruct d; [apply dirname_none; auto|]. apply (dirname_app (n :: d)); auto.
Qed.

Lemma basename_pjoin d b : ~ In SLASH b -> basename (pjoin d b) = b.
Proof.
  intros H. unfold pjoin. destruct d; [apply basename_none; auto|]. apply (basename_app (n :: d)); auto.
Qed.

Lemma sjoin_pjoin d b : d <> [] -> sjoin d b = pjoin d b.
Proof. destruct d; [congruence|reflexivity]. Qed.

Lemma dirname_shorter p : p <> [] -> (length (dirname p) < length p)%nat.
Proof.
  intros NE. unfold dirname. destruct (rsplit_slash p) as [[a b]|] eqn:E.
  - apply rsplit_slash_some in E as [-> _]. rewrite app_length; simpl; lia.
  - destruct p; [congruence|simpl; lia].
Qed.

Lemma good_path_dirname p : good_path p -> dirname p = [] \/ good_path (dirname p).
Proof.
  intros G. destruct (path_cases p G) as [(N & -> & _)|(d & b & -> & N & Gd & Gb & E & _)]; auto.
  right. rewrite E; auto.
Qed.

(** ** below *)

Lemma below_iff top d : top <> [] -> (below top d = true <-> exists r, d = top ++ SLASH :: r).
Proof.
  intros NE. unfold below. destruct top; [congruence|].
  rewrite startswith_iff. split; intros (r & ->); exists r; rewrite <- app_assoc; reflexivity.
Qed.

Lemma below_dirname top p : top <> [] -> good_path p ->
  (below top p = true <-> dirname p = top \/ below top (dirname p) = true).
Proof.
  intros NE G. rewrite !below_iff by auto.
  destruct (path_cases p G) as [(N & -> & _)|(d & b & -> & N & Gd & Gb & -> & _)].
  - split.
    + intros (r & ->). exfalso. apply N. rewrite in_app_iff; simpl; auto.
    + intros [H|(r & H)]; [congruence|]. destruct top; discriminate.
  - split.
    + intros (r & H).
      destruct (rsplit_slash r) as [[a b']|] eqn:E.
      * apply rsplit_slash_some in E as [-> N'].
        right. exists a.
        assert (K : rsplit_slash (d ++ SLASH :: b) = Some (top ++ SLASH :: a, b')).
        { apply rsplit_slash_some. rewrite H, <- app_assoc. auto. }
        assert (K' : rsplit_slash (d ++ SLASH :: b) = Some (d, b)) by (apply rsplit_slash_some; auto).
        congruence.
      * apply rsplit_slash_none in E. left.
        assert (K : rsplit_slash (d ++ SLASH :: b) = Some (top, r)) by (apply rsplit_slash_some; auto).
        assert (K' : rsplit_slash (d ++ SLASH :: b) = Some (d, b)) by (apply rsplit_slash_some; auto).
        congruence.
    + intros [->|(r & ->)]; eauto. exists (r ++ SLASH :: b). rewrite <- app_assoc. reflexivity.
Qed.

(** ** Nodes *)

Lemma is_file_read p t : is_file p t = true <-> exists c, read p t = Some c.
Proof.
  unfold is_file, read. destruct (od_get p t) as [[|c]|]; split; try discriminate; eauto;
    intros (c' & H); discriminate.
Qed.

Lemma read_get p c t : read p t = Some c <-> od_get p t = Some (NFile c).
Proof.
  unfold read. destruct (od_get p t) as [[|c']|]; split; intros H; try discriminate; congruence.
Qed.

Lemma in_files p t : NoDup (od_keys t) -> (In p (files t) <-> is_file p t = true).
Proof.
  intros ND. unfold files, is_file. rewrite in_map_iff. split.
  - intros ([k v] & <- & I). apply filter_In in I as [I F]. simpl in *.
    apply od_in_get in I; auto. rewrite I. destruct v; auto.
  - destruct (od_get p t) as [[|c]|] eqn:E; try discriminate. intros _.
    exists (p, NFile c). split; auto. apply filter_In. split; auto. apply od_get_in; auto.
Qed.

Lemma in_dirs p t : NoDup (od_keys t) -> (In p (dirs t) <-> od_get p t = Some NDir).
Proof.
  intros ND. unfold dirs. rewrite in_map_iff. split.
  - intros ([k v] & <- & I). apply filter_In in I as [I F]. simpl in *.
    apply od_in_get in I; auto. rewrite I. destruct v; auto; discriminate.
  - intros E. exists (p, NDir). split; auto. apply filter_In. split; auto. apply od_get_in; auto.
Qed.

Lemma files_key p t : In p (files t) -> In p (od_keys t).
Proof.
  unfold files, od_keys. rewrite !in_map_iff. intros (kv & E & I). apply filter_In in I as [I _]. eauto.
Qed.

Lemma dirs_key p t : In p (dirs t) -> In p (od_keys t).
Proof.
  unfold dirs, od_keys. rewrite !in_map_iff. intros (kv & E & I). apply filter_In in I as [I _]. eauto.
Qed.

Lemma NoDup_map_filter {A B} (f : A -> B) (p : A -> bool) l :
  NoDup (map f l) -> NoDup (map f (filter p l)).
Proof.
  induction l as [|x l IH]; simpl; intros H; auto. inversion H; subst.
  destruct (p x); simpl; auto. constructor; auto.
  intros I. apply H2. apply in_map_iff in I as (y & E & I). apply filter_In in I as [I _].
  apply in_map_iff; eauto.
Qed.

Lemma NoDup_files t : NoDup (od_keys t) -> NoDup (files t).
Proof. apply NoDup_map_filter. Qed.
Lemma NoDup_dirs t : NoDup (od_keys t) -> NoDup (dirs t).
Proof. apply NoDup_map_filter. Qed.

Section Wf.
Variable t : tree.
Hypothesis W : wf_tree t.

Lemma wf_good p : In p (od_keys t) -> good_path p.
Proof. intros H. pose proof (wf_paths t W) as F. rewrite Forall_forall in F. auto. Qed.

Lemma wf_parent_dir p : In p (od_keys t) -> dirname p = [] \/ In (dirname p) (dirs t).
Proof.
  intros H. pose proof (wf_parents t W p H) as D. unfold is_dir in D.
  destruct (dirname p) as [|n l] eqn:E; auto. right.
  apply in_dirs; [apply W|]. destruct (od_get (n :: l) t) as [[|]|]; congruence.
Qed.

Lemma in_files_in d b : In b (files_in d t) <-> exists p, In p (files t) /\ dirname p = d /\ basename p = b.
Proof.
  unfold files_in. rewrite in_map_iff. split.
  - intros (p & E & I). apply filter_In in I as [I F]. apply streq_eq in F. eauto.
  - intros (p & I & E & E2). exists p. split; auto. apply filter_In. split; auto. apply streq_eq; auto.
Qed.

Lemma in_files_in_path d b : ~ In SLASH b -> (In b (files_in d t) <-> In (pjoin d b) (files t)).
Proof.
  intros NS. rewrite in_files_in. split.
  - intros (p & I & E & E2). subst. rewrite pjoin_dirname_basename; auto.
    apply wf_good. apply files_key; auto.
  - intros I. exists (pjoin d b). split; auto. split; [apply dirname_pjoin; auto|apply basename_pjoin; auto].
Qed.

Lemma in_subdirs_in d b : In b (subdirs_in d t) <-> exists p, In p (dirs t) /\ dirname p = d /\ basename p = b.
Proof.
  unfold subdirs_in. rewrite in_map_iff. split.
  - intros (p & E & I). apply filter_In in I as [I F]. apply streq_eq in F. eauto.
  - intros (p & I & E & E2). exists p. split; auto. apply filter_In. split; auto. apply streq_eq; auto.
Qed.

(** The paths of all files seen by a walk. *)
Definition walk_files (start : pystr) : list pystr :=
  flat_map (fun x => let '(d, _, fs) := x in map (pjoin d) fs) (walk start t).

Lemma walk_files_eq start :
  walk_files start =
  flat_map (fun d => map (pjoin d) (files_in d t)) (start :: filter (below start) (dirs t)).
Proof.
  unfold walk_files, walk. generalize (start :: filter (below start) (dirs t)).
  induction l; simpl; auto. rewrite IHl. reflexivity.
Qed.

Lemma map_pjoin_files_in d :
  map (pjoin d) (files_in d t) = filter (fun p => streq (dirname p) d) (files t).
Proof.
  unfold files_in. rewrite map_map. rewrite <- (map_id (filter _ (files t))) at 2.
  apply map_ext_in. intros p H. apply filter_In in H as [I E]. apply streq_eq in E. subst.
  apply pjoin_dirname_basename, wf_good, files_key; auto.
Qed.

Lemma in_walk_files start p :
  In p (walk_files start) <->
  In p (files t) /\ (dirname p = start \/ In (dirname p) (filter (below start) (dirs t))).
Proof.
  rewrite walk_files_eq, in_flat_map. split.
  - intros (d & I & J). rewrite map_pjoin_files_in in J. apply filter_In in J as [J E].
    apply streq_eq in E. simpl in I. split; auto. destruct I as [I|I]; subst; auto.
  - intros [I J]. exists (dirname p). split.
    + simpl. destruct J; auto.
    + rewrite map_pjoin_files_in. apply filter_In. split; auto. apply streq_refl.
Qed.

Lemma in_walk_files_iff start p :
  In p (walk_files start) <-> In p (files t) /\ below start p = true.
Proof.
  rewrite in_walk_files. split; intros [I J]; split; auto.
  - pose proof (wf_good p (files_key _ _ I)) as G.
    destruct start as [|c s]; [reflexivity|]. apply below_dirname; auto; [discriminate|].
    destruct J as [J|J]; auto. apply filter_In in J as [_ J]. auto.
  - pose proof (wf_good p (files_key _ _ I)) as G.
    destruct (wf_parent_dir p (files_key _ _ I)) as [E|E].
    + destruct start as [|c s]; [auto|].
      apply below_dirname in J; auto; [|discriminate]. rewrite E in J.
      destruct J as [J|J]; [left; congruence|]. discriminate.
    + destruct start as [|c s].
      * right. apply filter_In; auto.
      * apply below_dirname in J; auto; [|discriminate].
        destruct J as [J|J]; auto. right. apply filter_In; auto.
Qed.

Lemma below_irrefl start : start <> [] -> below start start = false.
Proof.
  intros NE. destruct (below start start) eqn:E; auto. apply below_iff in E as (r & E); auto.
  exfalso. apply (f_equal (@length N)) in E. rewrite app_length in E. simpl in E. lia.
Qed.

Lemma NoDup_walk_dirs start :
  NoDup (start :: filter (below start) (dirs t)).
Proof.
  constructor.
  - intros I. apply filter_In in I as [I B]. destruct start as [|c s].
    + apply dirs_key, wf_good, good_path_nonempty in I. congruence.
    + rewrite below_irrefl in B; discriminate.
  - apply NoDup_filter, NoDup_dirs, W.
Qed.

Lemma NoDup_walk_files start : NoDup (walk_files start).
Proof.
  rewrite walk_files_eq. apply NoDup_flat_map.
  - apply NoDup_walk_dirs.
  - intros d _. rewrite map_pjoin_files_in. apply NoDup_filter, NoDup_files, W.
  - intros d d' p _ _. rewrite !map_pjoin_files_in, !filter_In, !streq_eq. intuition congruence.
Qed.

Lemma walk_files_perm start : Permutation (walk_files start) (filter (below start) (files t)).
Proof.
  apply NoDup_Permutation.
  - apply NoDup_walk_files.
  - apply NoDup_filter, NoDup_files, W.
  - intros p. rewrite in_walk_files_iff, filter_In. tauto.
Qed.

(** Every ancestor directory of an entry is a directory of the tree. *)
Lemma wf_ancestor p a r : In p (od_keys t) -> p = a ++ SLASH :: r -> In a (dirs t).
Proof.
  intros I E. remember (length r) as n. revert p r E I Heqn.
  induction n as [n IH] using lt_wf_ind. intros p r E I Hn. subst.
  pose proof (wf_good _ I) as G.
  destruct (rsplit_slash r) as [[u v]|] eqn:R.
  - apply rsplit_slash_some in R as [-> NS].
    assert (D : dirname (a ++ SLASH :: u ++ SLASH :: v) = a ++ SLASH :: u).
    { change (a ++ SLASH :: u ++ SLASH :: v) with (a ++ (SLASH :: u) ++ SLASH :: v).
      rewrite app_assoc. apply dirname_app; auto. }
    destruct (wf_parent_dir _ I) as [K|K]; rewrite D in K; [destruct a; discriminate|].
    apply (IH (length u)) with (p := a ++ SLASH :: u) (r := u); auto.
    + rewrite app_length; simpl; lia.
    + apply dirs_key; auto.
  - apply rsplit_slash_none in R.
    destruct (wf_parent_dir _ I) as [K|K]; rewrite dirname_app in K by auto; auto.
    subst a. apply good_path_app in G as [G _]. apply good_path_nonempty in G. congruence.
Qed.

End Wf.

(** ** Writing *)

Lemma write_file_ok p c t t' : write_file p c t = Ok t' -> t' = od_set p (NFile c) t.
Proof.
  unfold write_file. destruct (is_dir p t); [discriminate|].
  destruct (is_dir (dirname p) t); [|discriminate]. congruence.
Qed.

Lemma mkdir_ok p t t' : mkdir p t = Ok t' -> t' = od_set p NDir t.
Proof.
  unfold mkdir. destruct (exists_ p t); [discriminate|].
  destruct (is_dir (dirname p) t); [|discriminate]. congruence.
Qed.

Lemma read_set p q c t : read p (od_set q (NFile c) t) = if streq p q then Some c else read p t.
Proof. unfold read. rewrite od_get_set. destruct (streq p q); reflexivity. Qed.

Lemma is_file_set p q c t :
  is_file p (od_set q (NFile c) t) = streq p q || is_file p t.
Proof. unfold is_file. rewrite od_get_set. destruct (streq p q); reflexivity. Qed.

Lemma is_file_not_nil t : wf_tree t -> is_file [] t = false.
Proof.
  intros W. unfold is_file. destruct (od_get [] t) as [[|]|] eqn:E; auto.
  apply od_get_some_key in E. apply (wf_good t W) in E. apply good_path_nonempty in E. congruence.
Qed.

(** * Properties of opening bags and extending their interface: C61, C87 *)
Require Import String NArith PeanoNat Bool List Permutation Sorted Lia.
From Verif Require Import PyBase PyFacts Fs FsFacts HeadBag HeadBagProofs3 BagIt BagItProofs Access.
Import ListNotations.
Open Scope N_scope.

(** ** C61 *)

(** The calls of a history. *)
Inductive upgrade : Type := AsExtended | AsHeadbag (readonly : bool).
Definition apply1 (u : upgrade) (o : obj) : res obj :=
  match u with AsExtended => as_extended o | AsHeadbag r => as_headbag r o end.
(** A call that raises leaves the object as it was. *)
Definition step (o : obj) (u : upgrade) : obj := match apply1 u o with Ok o' => o' | Err _ => o end.
Definition history (us : list upgrade) (o : obj) : obj := fold_left step us o.

(** Which methods an object has: those of [HeadBagUpdateMixin], and whether the
    bag is one that can only be read. *)
Definition can_update (o : obj) : Prop := fst o = CHead.
Definition read_only (o : obj) : Prop := In (fst o) [CReadOnly; CExtRO; CHeadRO].
(** What is on disk, and the tags in memory. *)
Definition same_bag (h h' : hb) : Prop :=
  hb_name h = hb_name h' /\ hb_tree h = hb_tree h' /\ hb_dinfo h = hb_dinfo h' /\ hb_info h = hb_info h' /\ hb_reader h = hb_reader h'.
Definition same_caches (h h' : hb) : Prop := hb_mem h = hb_mem h' /\ hb_lu h = hb_lu h' /\ hb_del h = hb_del h'.

Ltac cases_obj o := destruct o as [c h]; destruct c; unfold step, apply1, as_headbag, as_extended in *; cbn [fst snd is_bag is_extended is_read_only_bag is_extended_ro is_head_read is_head_update negb andb bind] in *.

Lemma step_read_only o u : read_only o -> read_only (step o u).
Proof. unfold read_only. intros H. destruct u as [|[|]]; cases_obj o; cbn in *; intuition congruence. Qed.
Lemma read_only_no_update o : read_only o -> ~ can_update o.
Proof. unfold read_only, can_update. intros H E. rewrite E in H. cbn in H. intuition discriminate. Qed.
Lemma step_readonly o u : u <> AsHeadbag false -> ~ can_update o -> ~ can_update (step o u).
Proof.
  unfold can_update. intros Nu H. destruct u as [|[|]]; [| |congruence]; cases_obj o; try congruence;
    destruct (exists_ (U "bagit.txt") (hb_tree h)); cbn in *; congruence.
Qed.

(** No history gives a read-only bag the methods for updates, and none in which
    [readonly] is always asked for gives them to any bag. *)
Theorem C61_readonly : forall us o,
  (read_only o -> ~ can_update (history us o)) /\
  ((forall u, In u us -> u <> AsHeadbag false) -> ~ can_update o -> ~ can_update (history us o)).
Proof.
  intros us. induction us as [|u us IH]; intros o; cbn [history fold_left].
  - split; [apply read_only_no_update|auto].
  - destruct (IH (step o u)) as [A B]. split.
    + intros R. apply A, step_read_only, R.
    + intros H N0. apply B; [intros v V; apply H; right; exact V|]. apply step_readonly; [apply H; left; reflexivity|exact N0].
Qed.
Print Assumptions C61_readonly.

(** What the calls promise: they are refused, with ValueError, exactly for what
    is not a bag and for a plain bag without bagit.txt; otherwise the object
    gets the methods, and those for updates if they were asked for and the bag
    is not one that can only be read. *)
Theorem C61_result : forall u o,
  match apply1 u o with
  | Err e => e = EValue /\ (fst o = COther \/ fst o = CBag /\ exists_ (U "bagit.txt") (hb_tree (snd o)) = false)
  | Ok o' =>
      fst o <> COther /\ (fst o = CBag -> exists_ (U "bagit.txt") (hb_tree (snd o)) = true) /\
      is_extended (fst o') = true /\ (read_only o' <-> read_only o) /\
      match u with
      | AsExtended => is_head_read (fst o') = is_head_read (fst o) /\ (can_update o' <-> can_update o)
      | AsHeadbag readonly => is_head_read (fst o') = true /\ (can_update o' <-> can_update o \/ readonly = false /\ ~ read_only o)
      end
  end.
Proof.
  intros u o. unfold can_update, read_only. destruct u as [|[|]]; cases_obj o; try destruct (exists_ (U "bagit.txt") (hb_tree h)); cbn; intuition congruence.
Qed.
Print Assumptions C61_result.

(** [open_headbag]: read-only if asked for, and for serialized bags. *)
Theorem C61_open : forall isfile ro rd loc readonly o,
  open_headbag isfile ro rd loc readonly = Ok o ->
  is_head_read (fst o) = true /\
  (can_update o <-> readonly = false /\ substr_in (U "://") loc = false /\ isfile loc = false).
Proof.
  intros isfile ro rd loc readonly o. unfold open_headbag, can_update. set (c := readonly || _ || _).
  assert (E : c = false <-> readonly = false /\ substr_in (U "://") loc = false /\ isfile loc = false)
    by (unfold c; rewrite !orb_false_iff; tauto).
  destruct c.
  - destruct (ro loc) as [h|e]; [|discriminate]. cbn [bind]. intros [= <-]. cbn. split; [reflexivity|]. rewrite <- E. split; discriminate.
  - destruct (rd loc) as [h|e]; [|discriminate]. cbn [bind]. unfold as_headbag, as_extended. cbn [fst snd is_bag is_extended is_read_only_bag negb].
    destruct (exists_ (U "bagit.txt") (hb_tree h)); [|discriminate]. cbn. intros [= <-]. cbn. split; [reflexivity|]. rewrite <- E. tauto.
Qed.
Print Assumptions C61_open.

(** Files and tags are never changed; the caches are kept by every call on a
    head bag, with the one exception of [C61_refuted]; and a call repeated has
    no effect. *)
Theorem C61_kept_partial : forall us o u,
  same_bag (snd o) (snd (history us o)) /\
  (is_head_read (fst o) = true -> (fst o = CHeadNoUp -> forall v, In v us -> v <> AsHeadbag false) ->
   same_caches (snd o) (snd (history us o))) /\
  step (step o u) u = step o u.
Proof.
  intros us o u. split; [|split].
  - revert o. induction us as [|v us IH]; intros o; [unfold same_bag; cbn; tauto|]. cbn [history fold_left].
    destruct (IH (step o v)) as (A & B & C & D & E).
    assert (S1 : same_bag (snd o) (snd (step o v))).
    { unfold same_bag. destruct v as [|[|]]; cases_obj o; try destruct (exists_ (U "bagit.txt") (hb_tree h)); cbn; tauto. }
    destruct S1 as (A' & B' & C' & D' & E'). unfold same_bag. rewrite A', B', C', D', E'. tauto.
  - revert o. induction us as [|v us IH]; intros o Hr Hu; [unfold same_caches; cbn; tauto|]. cbn [history fold_left].
    assert (S1 : same_caches (snd o) (snd (step o v)) /\ fst (step o v) = fst o).
    { unfold same_caches. pose proof (fun e => Hu e v (or_introl eq_refl)) as Hv. clear Hu.
      destruct v as [|[|]]; cases_obj o; try discriminate; cbn; intuition congruence. }
    destruct S1 as [(A & B & C) Ec]. destruct (IH (step o v)) as (A' & B' & C').
    + rewrite Ec. exact Hr.
    + rewrite Ec. intros e w W. apply Hu; [exact e|right; exact W].
    + unfold same_caches. rewrite A, B, C. auto.
  - destruct u as [|[|]]; cases_obj o; try reflexivity;
    destruct (exists_ (U "bagit.txt") (hb_tree h)) eqn:X; cbn [fst snd is_bag is_extended is_read_only_bag is_extended_ro is_head_read is_head_update negb andb bind];
    rewrite ?X; reflexivity.
Qed.
Print Assumptions C61_kept_partial.

(** Where the caches do get lost, they held what was read: the answers stay the
    same as long as the files do. *)
Definition as_read (h : hb) : Prop :=
  (forall l, hb_mem h = Some l -> iter_member_bags h = Ok l) /\
  (forall d, hb_lu h = Some d -> exists l, iter_file_lookup h = Ok l /\ d = od_of_pairs l) /\
  (forall s, hb_del h = Some s -> exists l, iter_deleted h = Ok l /\ s = set_of l).

Theorem C61_answers : forall us o p, as_read (snd o) ->
  let h := snd o in let h' := snd (history us o) in
  snd (member_bags_ro false h') = snd (member_bags_ro false h) /\
  snd (lookup_file_ro p false h') = snd (lookup_file_ro p false h) /\
  snd (deleted_paths false h') = snd (deleted_paths false h).
Proof.
  intros us o p. cbv zeta.
  assert (Init : forall h, as_read h -> as_read (init_caches h) /\
    snd (member_bags_ro false (init_caches h)) = snd (member_bags_ro false h) /\
    snd (lookup_file_ro p false (init_caches h)) = snd (lookup_file_ro p false h) /\
    snd (deleted_paths false (init_caches h)) = snd (deleted_paths false h)).
  { intros h (A & B & C). split; [split; [|split]; cbn; discriminate|]. destruct h as [n t di i m l d r]. unfold as_read in *. cbn in A, B, C. split; [|split].
    - unfold member_bags_ro. cbn [hb_mem init_caches set_del set_lu set_mem]. change (iter_member_bags (init_caches (mkhb n t di i m l d r))) with (iter_member_bags (mkhb n t di i m l d r)).
      destruct m as [m|]; [rewrite (A m eq_refl); reflexivity|]. destruct (iter_member_bags _); reflexivity.
    - unfold lookup_file_ro, cache_file_lookup. cbn [hb_lu init_caches set_del set_lu set_mem]. change (iter_file_lookup (init_caches (mkhb n t di i m l d r))) with (iter_file_lookup (mkhb n t di i m l d r)).
      destruct l as [l|]; [destruct (B l eq_refl) as (x & E & ->); rewrite E; reflexivity|]. destruct (iter_file_lookup _); reflexivity.
    - unfold deleted_paths. cbn [hb_del init_caches set_del set_lu set_mem]. change (iter_deleted (init_caches (mkhb n t di i m l d r))) with (iter_deleted (mkhb n t di i m l d r)).
      destruct d as [d|]; [destruct (C d eq_refl) as (x & E & ->); rewrite E; reflexivity|]. destruct (iter_deleted _); reflexivity. }
  assert (Step : forall o u, snd (step o u) = snd o \/ snd (step o u) = init_caches (snd o)).
  { intros o' u. destruct u as [|[|]]; cases_obj o'; auto; destruct (exists_ (U "bagit.txt") (hb_tree h)); cbn; auto. }
  revert o. induction us as [|u us IH]; intros o R; [cbn; auto|]. cbn [history fold_left].
  destruct (Init (snd o) R) as (R' & Q). destruct (Step o u) as [E|E].
  - destruct (IH (step o u)) as (A & B & C); [rewrite E; exact R|]. unfold history in A, B, C. rewrite A, B, C, E. auto.
  - destruct (IH (step o u)) as (A & B & C); [rewrite E; exact R'|]. unfold history in A, B, C. rewrite A, B, C, E. exact Q.
Qed.
Print Assumptions C61_answers.

Definition ex_tree : tree :=
  [(U "bagit.txt", NFile (U "BagIt-Version: 0.97" ++ [LF])); (U "multibag", NDir);
   (U "multibag/member-bags.tsv", NFile (U "a" ++ [LF] ++ U "b" ++ [LF]))].
Definition ex_hb : hb := open_hb (U "b") ex_tree [] Codecs.

Example C61_case :
  fst (history [AsExtended; AsHeadbag true; AsHeadbag true] (CBag, ex_hb)) = CHeadNoUp /\
  fst (history [AsHeadbag false; AsHeadbag true; AsExtended] (CBag, ex_hb)) = CHead /\
  fst (history [AsHeadbag false; AsHeadbag false] (CReadOnly, ex_hb)) = CHeadRO /\
  as_read (fst (member_bags_ro false ex_hb)) /\ hb_mem (fst (member_bags_ro false ex_hb)) <> None /\
  open_headbag (fun _ => false) (fun _ => Err EOS) (fun _ => Ok ex_hb) (U "b") false = Ok (CHead, ex_hb).
Proof.
  repeat split; try (vm_compute; reflexivity).
  - intros l [= <-]. vm_compute. reflexivity.
  - intros d H. discriminate H.
  - intros d H. discriminate H.
  - vm_compute. discriminate.
Qed.

(** REFUTED: the upgrade of a head bag for reading to one for updates drops
    what was read, so that the next answer can be another one; [readonly] does
    not take anything away from a bag; and the class for head bags that are
    not updated cannot be instantiated. *)
Theorem C61_refuted :
  (exists h, hb_mem h <> None /\ hb_mem (snd (history [AsHeadbag false] (CHeadNoUp, h))) = None) /\
  (forall h, can_update (history [AsHeadbag true] (CHead, h))) /\
  (forall h, new_no_update h = Err EType).
Proof.
  split; [|split].
  - exists (fst (member_bags_ro false ex_hb)). split; vm_compute; [discriminate|reflexivity].
  - intros h. reflexivity.
  - intros h. reflexivity.
Qed.
Print Assumptions C61_refuted.

(** ** C87 *)

(** Directories in the order of a breadth-first walk, each with a leading slash,
    and whether it has a file bagit.txt. *)
Definition depth (p : pystr) : nat := length (split_on SLASH p).
Definition breadth_first (t : tree) (ds : list (pystr * bool)) : Prop :=
  Permutation (map fst ds) (map (fun d => SLASH :: d) (dirs t)) /\
  (forall d b, In (d, b) ds -> b = is_file (tl d ++ U "/bagit.txt") t) /\
  StronglySorted (fun a b => (depth (fst a) <= depth (fst b))%nat) ds.

(** An archive is opened at the directory with a bagit.txt that is not below
    nor beside any other; its name is the last part. *)
Theorem C87_archive : forall at_ loc t ds B,
  at_ loc = PArchive ds -> loc <> [] -> substr_in (U "://") loc = false ->
  (exists ext, In ext [U ".zip"; U ".tar"; U ".tar.gz"; U ".tar.bz2"; U ".tgz"] /\ exists s, loc = s ++ ext) ->
  wf_tree t -> breadth_first t ds ->
  is_dir B t = true -> B <> [] -> is_file (B ++ U "/bagit.txt") t = true ->
  (forall D, is_dir D t = true -> D <> [] -> is_file (D ++ U "/bagit.txt") t = true -> D <> B -> (depth B < depth D)%nat) ->
  open_bag at_ loc = Ok (mkref (RArchive loc (SLASH :: B)) (basename B) loc).
Proof.
  intros at_ loc t ds B A L U0 (ext & Ie & s & Es) W (P & F & So) Db Bn Fb Un. unfold open_bag. destruct loc as [|c0 loc0]; [congruence|]. set (loc := c0 :: loc0) in *.
  rewrite U0, A. replace (existsb (endswith loc) extensions) with true.
  2:{ symmetry. apply existsb_exists. exists ext. split; [exact Ie|]. rewrite Es. apply endswith_iff. eauto. }
  assert (Dir : forall D, D <> [] -> (is_dir D t = true <-> In D (dirs t))).
  { intros D Dn. rewrite (in_dirs D t (wf_nodup _ W)). unfold is_dir. destruct D; [congruence|]. destruct (od_get _ t) as [[|]|]; split; congruence. }
  assert (Ib : In (SLASH :: B, true) ds).
  { assert (I : In (SLASH :: B) (map fst ds)) by (eapply Permutation_in; [apply Permutation_sym; exact P|]; apply in_map, Dir; auto).
    apply in_map_iff in I. destruct I as ([d b] & E & I). cbn [fst] in E. subst d. pose proof (F _ _ I) as Eb. cbn [tl] in Eb. rewrite Fb in Eb. subst b. exact I. }
  assert (Fd : exists b, find (fun db => snd db) ds = Some (SLASH :: B, b)).
  { assert (Sub : forall d b, In (d, b) ds -> exists D, d = SLASH :: D /\ is_dir D t = true /\ D <> []).
    { intros d b I. assert (I' : In d (map (fun d => SLASH :: d) (dirs t))) by (eapply Permutation_in; [exact P|]; apply in_map_iff; exists (d, b); auto).
      apply in_map_iff in I'. destruct I' as (D & <- & ID). assert (Dn : D <> []).
      { intros ->. apply dirs_key in ID. apply (wf_good t W) in ID. apply good_path_nonempty in ID. congruence. }
      exists D. split; [reflexivity|]. split; [apply Dir; auto|exact Dn]. }
    clear P A. revert So F Sub Ib. induction ds as [|[d b] ds IH]; intros So F Sub Ib; [destruct Ib|]. inversion So as [|? ? S1 S2]; subst. cbn [find snd].
    destruct b.
    - exists true. f_equal. f_equal. destruct (Sub d true (or_introl eq_refl)) as (D & -> & Dd & Dn). f_equal.
      destruct (streq_reflect D B) as [E|E]; [exact E|]. exfalso.
      pose proof (F _ _ (or_introl eq_refl)) as Fd. cbn [tl] in Fd. specialize (Un D Dd Dn (eq_sym Fd) E).
      destruct Ib as [[= Ib]|Ib]; [congruence|]. rewrite Forall_forall in S2. specialize (S2 _ Ib). cbn [fst] in S2.
      unfold depth in *. cbn [split_on] in S2. rewrite N.eqb_refl in S2. cbn [length] in S2. lia.
    - apply IH; auto.
      + intros d' b' I. apply F. right. exact I.
      + intros d' b' I. apply (Sub d' b'). right. exact I.
      + destruct Ib as [[=]|Ib]. exact Ib. }
  destruct Fd as [b Fd]. rewrite Fd. f_equal. unfold named. 
  assert (Lp : last_part (SLASH :: B) = basename B).
  { assert (G : good_path B) by (apply (wf_good t W), dirs_key, Dir; auto). unfold last_part. cbn [split_on]. rewrite N.eqb_refl.
    assert (Ls : forall q, last (split_on SLASH q) [] = basename q).
    { intros q. destruct (rsplit_slash q) as [[a b']|] eqn:R.
      - pose proof (rsplit_slash_some q a b' ) as [X _]. destruct (X R) as [-> N0]. rewrite basename_app by exact N0. rewrite split_on_app_gen, (split_on_none _ _ N0).
        apply last_last.
      - apply rsplit_slash_none in R. rewrite basename_none, split_on_none by exact R. reflexivity. }
    destruct (split_on SLASH B) as [|w ws] eqn:E; [destruct (split_on_nonempty _ _ E)|]. change (last ([] :: w :: ws) []) with (last (w :: ws) ([]:pystr)). rewrite <- E. apply Ls. }
  rewrite Lp. destruct (basename B) eqn:Eb; [|reflexivity]. exfalso.
  assert (G : good_path B) by (apply (wf_good t W), dirs_key, Dir; auto). destruct (path_cases B G) as [(N0 & _ & _)|(d & b' & -> & N0 & _ & G1 & _)].
  - rewrite basename_none in Eb by exact N0. congruence.
  - rewrite basename_app in Eb by exact N0. subst. destruct G1. congruence.
Qed.
Print Assumptions C87_archive.

(** A directory is opened at the place that its name means. *)
Lemma norm_comps_skip abs a b : norm_comps abs (a ++ [] :: b) = norm_comps abs (a ++ b).
Proof. unfold norm_comps. f_equal. rewrite !fold_left_app. reflexivity. Qed.
Lemma norm_slashes abs n r b : norm_comps abs (split_on SLASH (r ++ SLASH :: repeat SLASH n ++ b)) = norm_comps abs (split_on SLASH (r ++ SLASH :: b)).
Proof.
  induction n as [|n IH]; [reflexivity|]. cbn [repeat app]. rewrite !split_on_app_gen in *. cbn [split_on]. rewrite N.eqb_refl.
  rewrite norm_comps_skip. exact IH.
Qed.
Lemma initial_slashes_more r x y : rstrip_if (fun c => c =? SLASH) r <> [] -> initial_slashes (r ++ x) = initial_slashes (r ++ y).
Proof.
  intros H. assert (E : exists a c b, r = a ++ c :: b /\ c <> SLASH /\ Forall (fun c => c = SLASH) a).
  { clear x y. induction r as [|c r IH]; [cbn in H; congruence|]. destruct (N.eq_dec c SLASH) as [->|Nc].
    - destruct IH as (a & c & b & -> & Nc & F).
      + intros E. apply H. cbn. rewrite E. reflexivity.
      + exists (SLASH :: a), c, b. split; [reflexivity|]. split; [exact Nc|constructor; auto].
    - exists [], c, r. auto. }
  destruct E as (a & c & b & -> & Nc & F). rewrite <- !app_assoc. cbn [app]. apply N.eqb_neq in Nc. rewrite N.eqb_sym in Nc.
  unfold initial_slashes. destruct a as [|a1 [|a2 [|a3 a]]]; cbn [app startswith]; rewrite ?Nc; repeat (inversion F as [|? ? -> F']; subst; clear F; rename F' into F); cbn; rewrite ?Nc, ?startswith_nil; reflexivity.
Qed.
Lemma rstrip_slashes a : exists n, a = rstrip_if (fun c => c =? SLASH) a ++ repeat SLASH n.
Proof.
  induction a as [|c a [n E]]; [exists O; reflexivity|]. cbn [rstrip_if]. destruct (rstrip_if _ a) as [|x y] eqn:R.
  - destruct (N.eqb_spec c SLASH) as [->|Nc]; [exists (S n); cbn in *; congruence|exists n; cbn in *; congruence].
  - exists n. cbn in *. congruence.
Qed.

Lemma rstrip_idem a : rstrip_if (fun c => c =? SLASH) (rstrip_if (fun c => c =? SLASH) a) = rstrip_if (fun c => c =? SLASH) a.
Proof.
  induction a as [|c a IH]; [reflexivity|]. cbn [rstrip_if]. destruct (rstrip_if _ a) as [|x y] eqn:R.
  - destruct (c =? SLASH) eqn:E; [reflexivity|]. cbn [rstrip_if]. rewrite E. reflexivity.
  - cbn [rstrip_if] in *. rewrite IH. reflexivity.
Qed.
Lemma rstrip_no_slash a w : rstrip_if (fun c => c =? SLASH) a = w ++ [SLASH] -> False.
Proof.
  intros E. pose proof (rstrip_idem a) as I0. rewrite E in I0. rewrite rstrip_if_app in I0 by (repeat constructor).
  apply (f_equal (@length N)) in I0. rewrite app_length in I0. cbn [length] in I0.
  destruct (rstrip_slashes w) as [n En]. apply (f_equal (@length N)) in En. rewrite app_length in En. lia.
Qed.

(** The directory in which [open_bag] looks for the bag, and the bag in it,
    denote the location; the name is its last part. *)
Theorem C87_directory_partial : forall at_ loc, at_ loc = PDir -> substr_in (U "://") loc = false ->
  loc <> [] -> last loc 0 <> SLASH ->
  exists parent, open_bag at_ loc = Ok (mkref (RDir parent (basename loc)) (basename loc) loc) /\
    normpath (os_join parent (basename loc)) = normpath loc /\
    basename loc <> [] /\ ~ In SLASH (basename loc) /\ exists a, loc = a ++ basename loc /\ (a = [] \/ last a 0 = SLASH).
Proof.
  intros at_ loc A U0 L La. unfold open_bag. destruct loc as [|c0 loc0]; [congruence|]. set (loc := c0 :: loc0) in *. rewrite U0, A.
  set (parent := match os_dirname loc with [] => [DOT] | d => d end).
  assert (B : basename loc <> [] /\ exists a, loc = a ++ basename loc /\ (a = [] \/ last a 0 = SLASH)).
  { destruct (rsplit_slash loc) as [[a b]|] eqn:R.
    - apply rsplit_slash_some in R. destruct R as [E N0]. rewrite E in *. rewrite basename_app by exact N0. split.
      + intros ->. apply La. rewrite last_last. reflexivity.
      + exists (a ++ [SLASH]). rewrite <- app_assoc. split; [reflexivity|right; apply last_last].
    - apply rsplit_slash_none in R. rewrite basename_none by exact R. split; [exact L|exists []; auto]. }
  destruct B as [Bn Ba]. exists parent. split; [unfold named, root_path; destruct (basename loc); [congruence|reflexivity]|]. split; [|split; [exact Bn|split; [apply basename_no_slash|exact Ba]]].
  unfold parent, os_dirname. destruct (rsplit_slash loc) as [[a b]|] eqn:R.
  - apply rsplit_slash_some in R. destruct R as [E N0]. rewrite E in *. rewrite basename_app in * by exact N0.
    assert (Sb : startswith b [SLASH] = false).
    { destruct (startswith b [SLASH]) eqn:Es; [|reflexivity]. exfalso. apply startswith_iff in Es. destruct Es as [w ->]. apply N0. left. reflexivity. }
    destruct (rstrip_slashes a) as [n Ea]. destruct (rstrip_if (fun c => c =? SLASH) a) as [|x y] eqn:Er.
    + cbn [app] in Ea. destruct (a ++ [SLASH]) as [|p q] eqn:Ep; [destruct a; discriminate|]. rewrite <- Ep. unfold os_join. rewrite Sb.
      rewrite Ep. rewrite <- Ep. replace (endswith (a ++ [SLASH]) [SLASH]) with true by (symmetry; apply endswith_iff; eauto). rewrite <- app_assoc. reflexivity.
    + set (r := x :: y) in *. unfold os_join. rewrite Sb. unfold r at 1. fold r. replace (endswith r [SLASH]) with false.
      2:{ symmetry. destruct (endswith r [SLASH]) eqn:Ee; [|reflexivity]. exfalso. apply endswith_iff in Ee. destruct Ee as [w Ew].
          apply (rstrip_no_slash a w). rewrite Er. exact Ew. }
      rewrite Ea. unfold normpath.
      assert (Ei : initial_slashes (r ++ [SLASH] ++ b) = initial_slashes ((r ++ repeat SLASH n) ++ SLASH :: b)).
      { rewrite <- app_assoc. apply initial_slashes_more. rewrite <- Er, rstrip_idem, Er. discriminate. }
      rewrite Ei. rewrite <- app_assoc. cbn [app].
      replace (repeat SLASH n ++ SLASH :: b) with (SLASH :: repeat SLASH n ++ b) by (clear; induction n; cbn in *; congruence). rewrite norm_slashes. reflexivity.
  - apply rsplit_slash_none in R. rewrite basename_none by exact R. unfold os_join.
    destruct loc as [|x l]; [congruence|]. assert (Nx : x <> SLASH) by (intros ->; apply R; left; reflexivity). apply N.eqb_neq in Nx. rewrite N.eqb_sym in Nx.
    cbn [startswith]. rewrite Nx. cbn [andb endswith rev app startswith]. change (DOT =? SLASH) with false. cbn [andb]. unfold normpath, initial_slashes. cbn [startswith app]. rewrite Nx. cbn [andb].
    change (split_on SLASH (DOT :: SLASH :: x :: l)) with ([DOT] :: split_on SLASH (x :: l)). reflexivity.
Qed.
Print Assumptions C87_directory_partial.

(** In the order of the entries, breadth first. *)
Definition ex_archive : tree :=
  [(U "b", NDir); (U "b/bagit.txt", NFile []); (U "b/data", NDir); (U "b/data/in", NDir); (U "b/data/in/bagit.txt", NFile [])].
Definition ex_dirs : list (pystr * bool) := [(U "/b", true); (U "/b/data", false); (U "/b/data/in", true)].

Example C87_case :
  breadth_first ex_archive ex_dirs /\ wf_tree ex_archive /\ is_file (U "b" ++ U "/bagit.txt") ex_archive = true /\
  open_bag (fun _ => PArchive ex_dirs) (U "x/b.tar.gz") = Ok (mkref (RArchive (U "x/b.tar.gz") (U "/b")) (U "b") (U "x/b.tar.gz")) /\
  open_bag (fun _ => PDir) (U "x//b") = Ok (mkref (RDir (U "x") (U "b")) (U "b") (U "x//b")) /\
  open_bag (fun _ => PDir) (U "/b") = Ok (mkref (RDir (U "/") (U "b")) (U "b") (U "/b")) /\
  open_bag (fun _ => PDir) (U "b") = Ok (mkref (RDir (U ".") (U "b")) (U "b") (U "b")).
Proof.
  split; [|split; [apply wf_treeb_ok; vm_compute; reflexivity|repeat split; vm_compute; reflexivity]].
  split; [apply Permutation_refl|]. split.
  - intros d b [[= <- <-]|[[= <- <-]|[[= <- <-]|[]]]]; vm_compute; reflexivity.
  - repeat constructor.
Qed.

(** REFUTED: a directory with a slash at the end is opened without a name; and
    for an archive with the bag at its root, a bag in its payload is opened
    instead. *)
Theorem C87_refuted :
  (forall at_ d, at_ (d ++ [SLASH]) = PDir -> substr_in (U "://") (d ++ [SLASH]) = false ->
     exists r, open_bag at_ (d ++ [SLASH]) = Ok r /\ br_name r = []) /\
  (exists t ds loc, wf_tree t /\ breadth_first t ds /\ is_file (U "bagit.txt") t = true /\
     open_bag (fun _ => PArchive ds) loc = Ok (mkref (RArchive loc (U "/data/old")) (U "old") loc)).
Proof.
  split.
  - intros at_ d A U0. unfold open_bag. rewrite U0, A. assert (E : basename (d ++ [SLASH]) = []) by (apply basename_app; intros []).
    rewrite E. destruct (d ++ [SLASH]) eqn:Ed; [destruct d; discriminate|]. eexists. split; reflexivity.
  - exists [(U "bagit.txt", NFile []); (U "data", NDir); (U "data/old", NDir); (U "data/old/bagit.txt", NFile [])],
      [(U "/data", false); (U "/data/old", true)], (U "b.zip"). split; [apply wf_treeb_ok; vm_compute; reflexivity|]. split; [|split; vm_compute; reflexivity].
    split; [apply Permutation_refl|]. split.
    + intros d b [[= <- <-]|[[= <- <-]|[]]]; vm_compute; reflexivity.
    + repeat constructor.
Qed.
Print Assumptions C87_refuted.

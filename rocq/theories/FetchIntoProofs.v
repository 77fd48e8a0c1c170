(** * Proofs about fetching into the destination *)

Require Import String NArith PeanoNat Bool List Lia.
From Verif Require Import PyBase PyFacts Tsv Fs FsFacts HeadBag BagIt BagItProofs Split SplitApply SplitApplyProofs Restore RestoreProofs FindMember FetchInto.
Import ListNotations.
Open Scope N_scope.

(** ** Paths *)

(** In the cache directory; in the directory multibag. *)
Definition in_cache (p : pystr) : bool := streq p CACHE || below CACHE p.
Definition in_mb (p : pystr) : bool := streq p MULTIBAG || below MULTIBAG p.
Definition outside (t : tree) : tree := filter (fun kv => negb (in_mb (fst kv))) t.

(** A name of a directory in the cache directory. *)
Definition bag_name (n : pystr) : Prop := n <> [] /\ n <> U "." /\ n <> U ".." /\ ~ In SLASH n.

Lemma in_cache_prefix d r : in_cache d = true -> in_cache (d ++ SLASH :: r) = true.
Proof.
  unfold in_cache. intros H. apply orb_true_iff. right. apply below_iff; [discriminate|].
  apply orb_true_iff in H. destruct H as [H|H].
  - apply streq_eq in H. subst d. eauto.
  - apply below_iff in H; [|discriminate]. destruct H as (x & ->). exists (x ++ SLASH :: r). rewrite <- app_assoc. reflexivity.
Qed.

Lemma dirname_split p : dirname p = [] \/ exists b, p = dirname p ++ SLASH :: b.
Proof.
  unfold dirname. assert (G : match rsplit_slash p with Some (a, b) => p = a ++ SLASH :: b | None => True end).
  { induction p as [|c p IH]; cbn [rsplit_slash]; [exact I|]. destruct (rsplit_slash p) as [[a b]|].
    - cbn [app]. congruence.
    - destruct (N.eqb_spec c SLASH); [subst; reflexivity|exact I]. }
  destruct (rsplit_slash p) as [[a b]|]; [right; eauto|left; reflexivity].
Qed.

Lemma dirname_out p : in_cache p = false -> in_cache (dirname p) = false.
Proof.
  intros H. destruct (dirname_split p) as [E|(b & E)]; [rewrite E; reflexivity|].
  destruct (in_cache (dirname p)) eqn:C; [|reflexivity]. rewrite E in H. rewrite (in_cache_prefix _ b C) in H. discriminate H.
Qed.

Lemma slot_in n : in_cache (slot n) = true.
Proof. unfold slot, sjoin. apply in_cache_prefix. reflexivity. Qed.

Lemma below_slot_in n p : below (slot n) p = true -> in_cache p = true.
Proof.
  intros H. apply below_iff in H; [|discriminate]. destruct H as (r & ->). apply in_cache_prefix, slot_in.
Qed.

Lemma in_cache_mb p : in_cache p = true -> in_mb p = true.
Proof.
  unfold in_cache, in_mb. intros H. apply orb_true_iff. right. apply below_iff; [discriminate|].
  apply orb_true_iff in H. destruct H as [H|H].
  - apply streq_eq in H. subst p. exists (U "_membercache"). reflexivity.
  - apply below_iff in H; [|discriminate]. destruct H as (x & ->). exists (U "_membercache" ++ SLASH :: x). reflexivity.
Qed.

Lemma slots_apart n n' r : bag_name n -> bag_name n' -> n <> n' -> slot n <> slot n' ++ r \/ exists c x, r = c :: x /\ c <> SLASH.
Proof.
  intros (_ & _ & _ & N1) (_ & _ & _ & N2) D.
  destruct (str_eq_dec (slot n) (slot n' ++ r)) as [E|E]; [|left; exact E]. right.
  unfold slot, sjoin in E. rewrite <- !app_assoc in E. apply app_inv_head in E. apply app_inv_head in E.
  destruct r as [|c x]; [rewrite app_nil_r in E; contradiction|]. exists c, x. split; [reflexivity|].
  intros ->. apply N1. rewrite E. apply in_or_app. right; left; reflexivity.
Qed.

Lemma slot_inj n n' : slot n = slot n' -> n = n'.
Proof. unfold slot, sjoin. intros E. apply app_inv_head in E. apply app_inv_head in E. exact E. Qed.

Lemma below_slots n n' p : bag_name n -> bag_name n' -> below (slot n) p = true -> below (slot n') p = true -> n = n'.
Proof.
  intros (_ & _ & _ & N1) (_ & _ & _ & N2) H1 H2. apply below_iff in H1; [|discriminate]. apply below_iff in H2; [|discriminate].
  destruct H1 as (r & ->), H2 as (r' & E). unfold slot, sjoin in E. rewrite <- !app_assoc in E.
  apply app_inv_head in E. apply app_inv_head in E.
  revert n' N2 E. induction n as [|c n IH]; intros [|c' n'] N2 E; cbn [app] in E.
  - reflexivity.
  - inversion E; subst. exfalso. apply N2. left; reflexivity.
  - inversion E; subst. exfalso. apply N1. left; reflexivity.
  - inversion E; subst. f_equal. apply IH; [intros X; apply N1; right; exact X|intros X; apply N2; right; exact X|assumption].
Qed.

Lemma below_not_slot n n' : bag_name n' -> below (slot n) (slot n') = false.
Proof.
  intros (_ & _ & _ & N). destruct (below (slot n) (slot n')) eqn:H; [|reflexivity]. apply below_iff in H; [|discriminate].
  destruct H as (r & E). unfold slot, sjoin in E. rewrite <- !app_assoc in E. apply app_inv_head in E. apply app_inv_head in E.
  exfalso. apply N. rewrite E. apply in_or_app. right; left; reflexivity.
Qed.

Lemma prefixes_mb b : exists_ MULTIBAG b = true -> makedirs MULTIBAG b = Ok b.
Proof. intros E. unfold makedirs. change (prefixes MULTIBAG) with [MULTIBAG]. cbn [foldM]. rewrite E. reflexivity. Qed.

Lemma skip_slot d k : skipn (S (length d)) (sjoin d k) = k.
Proof. unfold sjoin. induction d as [|c d IH]; [reflexivity|]. exact IH. Qed.

(** ** Filters of trees *)

Lemma filter_set_in (f : pystr -> bool) k (x : node) t : f k = true ->
  filter (fun kv => f (fst kv)) (od_set k x t) = od_set k x (filter (fun kv => f (fst kv)) t).
Proof.
  intros E. induction t as [|[k' v'] t IH]; cbn [od_set filter fst].
  - rewrite E. reflexivity.
  - destruct (streq k k') eqn:S.
    + apply streq_eq in S. subst k'. cbn [filter fst]. rewrite E. cbn [od_set]. rewrite streq_refl. reflexivity.
    + cbn [filter fst]. rewrite IH. destruct (f k'); [cbn [od_set]; rewrite S|]; reflexivity.
Qed.

Lemma filter_set_out (f : pystr -> bool) k (x : node) t : f k = false ->
  filter (fun kv => f (fst kv)) (od_set k x t) = filter (fun kv => f (fst kv)) t.
Proof.
  intros E. induction t as [|[k' v'] t IH]; cbn [od_set filter fst].
  - rewrite E. reflexivity.
  - destruct (streq k k') eqn:S.
    + apply streq_eq in S. subst k'. cbn [filter fst]. rewrite E. reflexivity.
    + cbn [filter fst]. rewrite IH. reflexivity.
Qed.

Lemma subtree_set d k (x : node) t : below d k = false -> subtree d (od_set k x t) = subtree d t.
Proof. intros E. unfold subtree. rewrite filter_set_out by exact E. reflexivity. Qed.

Lemma od_set_new k (x : node) t : od_get k t = None -> od_set k x t = t ++ [(k, x)].
Proof.
  induction t as [|[k' v'] t IH]; cbn [od_get od_set app]; [reflexivity|].
  destruct (streq k k'); [discriminate|]. intros E. rewrite IH by exact E. reflexivity.
Qed.

Lemma mount_list d (b : tree) : forall t : tree, NoDup (od_keys b) -> (forall k, In k (od_keys b) -> od_get (sjoin d k) t = None) ->
  fold_left (fun t kv => od_set (sjoin d (fst kv)) (snd kv) t) b t = t ++ map (fun kv => (sjoin d (fst kv), snd kv)) b.
Proof.
  induction b as [|[k x] b IH]; intros t ND H; cbn [fold_left map fst snd]; [rewrite app_nil_r; reflexivity|].
  inversion ND as [|? ? Nk ND']; subst. rewrite IH; [|exact ND'|].
  - rewrite od_set_new by (apply H; left; reflexivity). rewrite <- app_assoc. reflexivity.
  - intros k' I'. rewrite od_get_set_other; [apply H; right; exact I'|].
    intros E. unfold sjoin in E. apply app_inv_head in E. apply app_inv_head in E. subst k'. contradiction.
Qed.

Lemma filter_none {A} (f : A -> bool) l : (forall x, In x l -> f x = false) -> filter f l = [].
Proof.
  induction l as [|x l IH]; intros H; [reflexivity|]. cbn [filter]. rewrite (H x) by (left; reflexivity). apply IH. intros y Y. apply H. right; exact Y.
Qed.

(** ** States with and without the cache directory *)

Section Sim.
  Variable order : list pystr.
  Variable unpacked : pystr -> tree.
  Variable remote : pystr -> option delivery.
  (** The bags that are restored: no archive has the name of another one of them. *)
  Variable named : pystr -> Prop.
  Hypothesis Hn : forall n, named n -> bag_name n.
  Hypothesis Ho : forall e, In e order -> ~ In SLASH e.
  Hypothesis Hx : forall n ext c, named n -> remote n = Some (AsArchive ext c) -> ~ In SLASH ext /\
    forall n', named n' -> n ++ ext <> n' /\ forall e, In e order -> n ++ ext = n' ++ e -> n = n'.

  (** [a] is the destination without a cache directory, [b] with it. *)
  Record sim (a b : tree) : Prop := {
    s_out : outside a = outside b;
    s_get : forall p, in_cache p = false -> p <> MULTIBAG -> od_get p b = od_get p a;
    s_mb : od_get MULTIBAG b = od_get MULTIBAG a \/ od_get MULTIBAG b = Some NDir;
    s_dir : od_get MULTIBAG a = None \/ od_get MULTIBAG a = Some NDir;
    s_none : forall p, in_cache p = true -> od_get p a = None;
    s_cache : od_get CACHE b = None \/ od_get CACHE b = Some NDir;
    s_have : forall n, named n -> is_dir (slot n) b = true -> remote n = Some (AsDir (subtree (slot n) b));
    s_arch : forall n e c, named n -> In e order -> od_get (slot (n ++ e)) b = Some (NFile c) -> remote n = Some (AsArchive e c);
    s_free : forall n, named n -> is_dir (slot n) b = false ->
      od_get (slot n) b = None /\ forall p, below (slot n) p = true -> od_get p b = None
  }.

  Lemma sim_start t : (forall p, in_cache p = true -> od_get p t = None) ->
    (od_get MULTIBAG t = None \/ od_get MULTIBAG t = Some NDir) -> sim t t.
  Proof.
    intros H M. constructor; auto.
    - intros n _ D. exfalso. unfold is_dir in D. rewrite (H (slot n) (slot_in n)) in D. discriminate D.
    - intros n e c _ _ E. rewrite (H _ (slot_in _)) in E. discriminate E.
    - intros n _ _. split; [apply H, slot_in|]. intros p B. apply H. eapply below_slot_in; eauto.
  Qed.

  Lemma is_dir_sim a b p : sim a b -> in_cache p = false -> is_dir p a = true -> is_dir p b = true.
  Proof.
    intros S0 C D. destruct p as [|c p]; [reflexivity|]. unfold is_dir in *.
    destruct (str_eq_dec (c :: p) MULTIBAG) as [E|E].
    - rewrite E in *. destruct (s_mb _ _ S0) as [->| ->]; [exact D|reflexivity].
    - rewrite (s_get _ _ S0) by auto. exact D.
  Qed.

  Lemma exists_sim a b p : sim a b -> in_cache p = false -> exists_ p a = true -> exists_ p b = true.
  Proof.
    intros S0 C D. unfold exists_, is_file, is_dir in *. destruct (str_eq_dec p MULTIBAG) as [E|E].
    - subst p. destruct (s_mb _ _ S0) as [->| ->]; [exact D|reflexivity].
    - rewrite (s_get _ _ S0) by auto. exact D.
  Qed.

  Lemma exists_sim_eq a b p : sim a b -> in_cache p = false -> p <> MULTIBAG -> exists_ p b = exists_ p a.
  Proof. intros S0 C E. unfold exists_, is_file, is_dir. rewrite (s_get _ _ S0) by auto. reflexivity. Qed.

  Lemma read_sim a b p : sim a b -> in_cache p = false -> read p b = read p a.
  Proof.
    intros S0 C. unfold read. destruct (str_eq_dec p MULTIBAG) as [E|E].
    - subst p. destruct (s_mb _ _ S0) as [->|E]; [reflexivity|]. rewrite E. destruct (s_dir _ _ S0) as [->| ->]; reflexivity.
    - rewrite (s_get _ _ S0) by auto. reflexivity.
  Qed.

  (** The same node set on both sides. *)
  Lemma sim_set a b p x : sim a b -> in_cache p = false -> (p = MULTIBAG -> x = NDir) -> sim (od_set p x a) (od_set p x b).
  Proof.
    intros S0 C M. assert (Nc : forall q, in_cache q = true -> q <> p) by (intros q Q ->; congruence). constructor.
    - unfold outside. destruct (in_mb p) eqn:E.
      + rewrite !(filter_set_out (fun k => negb (in_mb k))) by (cbn beta; rewrite E; reflexivity). apply (s_out _ _ S0).
      + rewrite !(filter_set_in (fun k => negb (in_mb k))) by (cbn beta; rewrite E; reflexivity). f_equal. apply (s_out _ _ S0).
    - intros q Cq Nq. rewrite !od_get_set. destruct (streq q p); [reflexivity|]. apply (s_get _ _ S0); auto.
    - rewrite !od_get_set. destruct (streq MULTIBAG p) eqn:E; [left; reflexivity|]. apply (s_mb _ _ S0).
    - rewrite !od_get_set. destruct (streq_reflect MULTIBAG p) as [E|E]; [right; rewrite (M (eq_sym E)); reflexivity|]. apply (s_dir _ _ S0).
    - intros q Cq. rewrite od_get_set_other by (apply Nc; exact Cq). apply (s_none _ _ S0); exact Cq.
    - rewrite od_get_set_other by (apply Nc; reflexivity). apply (s_cache _ _ S0).
    - intros n Gn D. rewrite subtree_set.
      + apply (s_have _ _ S0); [exact Gn|]. unfold is_dir in *. rewrite od_get_set_other in D by (apply Nc, slot_in). exact D.
      + destruct (below (slot n) p) eqn:B; [|reflexivity]. apply below_slot_in in B. congruence.
    - intros n e c Gn Ie E. rewrite od_get_set_other in E by (apply Nc, slot_in). exact (s_arch _ _ S0 n e c Gn Ie E).
    - intros n Gn D. destruct (s_free _ _ S0 n Gn) as [F1 F2].
      { unfold is_dir in *. rewrite od_get_set_other in D by (apply Nc, slot_in). exact D. }
      split; [rewrite od_get_set_other by (apply Nc, slot_in); exact F1|].
      intros q B. rewrite od_get_set_other by (apply Nc; eapply below_slot_in; eauto). apply F2; exact B.
  Qed.

  (** The directory multibag is there already. *)
  Lemma sim_have a b : sim a b -> od_get MULTIBAG b = Some NDir -> sim (od_set MULTIBAG NDir a) b.
  Proof.
    intros S0 E. constructor; try (apply S0).
    - unfold outside. rewrite (filter_set_out (fun k => negb (in_mb k))) by reflexivity. apply (s_out _ _ S0).
    - intros q Cq Nq. rewrite od_get_set_other by auto. apply (s_get _ _ S0); auto.
    - right. exact E.
    - right. apply od_get_set_same.
    - intros q Cq. rewrite od_get_set_other; [apply (s_none _ _ S0); exact Cq|]. intros ->. discriminate Cq.
  Qed.

  Lemma sim_write a b p c a' : sim a b -> in_cache p = false -> p <> MULTIBAG -> write_file p c a = Ok a' ->
    exists b', write_file p c b = Ok b' /\ sim a' b'.
  Proof.
    intros S0 C Np H. unfold write_file in *. destruct (is_dir p a) eqn:D; [discriminate H|].
    destruct (is_dir (dirname p) a) eqn:D2; [|discriminate H]. inversion H; subst a'; clear H.
    assert (E : is_dir p b = false).
    { destruct p as [|x p]; [discriminate D|]. unfold is_dir in *. rewrite (s_get _ _ S0) by auto. exact D. }
    rewrite E, (is_dir_sim a b (dirname p) S0 (dirname_out p C) D2). eexists; split; [reflexivity|].
    apply sim_set; auto. intros X. contradiction.
  Qed.

  Lemma sim_mkdirs l : forall a b a', sim a b -> Forall (fun q => in_cache q = false /\ q <> []) l ->
    foldM (fun t q => if exists_ q t then Ok t else mkdir q t) l a = Ok a' ->
    exists b', foldM (fun t q => if exists_ q t then Ok t else mkdir q t) l b = Ok b' /\ sim a' b'.
  Proof.
    induction l as [|q l IH]; intros a b a' S0 F H; cbn [foldM] in *.
    - inversion H; subst. eauto.
    - inversion F as [|? ? [Cq Nq] F']; subst. apply bind_ok in H. destruct H as (a1 & H1 & H2).
      assert (G : exists b1, (if exists_ q b then Ok b else mkdir q b) = Ok b1 /\ sim a1 b1).
      { destruct (exists_ q a) eqn:E.
        - inversion H1; subst a1. rewrite (exists_sim a b q S0 Cq E). eauto.
        - pose proof (proj1 (exists_get_false q a Nq) E) as Eg.
          unfold mkdir in H1. rewrite E in H1. destruct (is_dir (dirname q) a) eqn:D; [|discriminate H1]. inversion H1; subst a1.
          destruct (exists_ q b) eqn:Eb.
          + assert (q = MULTIBAG).
            { destruct (str_eq_dec q MULTIBAG) as [X|X]; [exact X|]. rewrite (exists_sim_eq a b q S0 Cq X) in Eb. congruence. }
            subst q. exists b. split; [reflexivity|]. apply sim_have; [exact S0|].
            destruct (s_mb _ _ S0) as [X|X]; [|exact X]. exfalso. rewrite Eg in X. unfold exists_, is_file, is_dir in Eb.
            cbn [MULTIBAG U] in Eb. rewrite X in Eb. discriminate Eb.
          + unfold mkdir. rewrite Eb, (is_dir_sim a b (dirname q) S0 (dirname_out q Cq) D). eexists; split; [reflexivity|].
            apply sim_set; auto. }
      destruct G as (b1 & G1 & S1). rewrite G1. cbn [bind]. apply (IH a1 b1 a' S1 F' H2).
  Qed.

  Lemma sim_makedirs a b p a' : sim a b -> good_path p -> in_cache p = false -> makedirs p a = Ok a' ->
    exists b', makedirs p b = Ok b' /\ sim a' b'.
  Proof.
    intros S0 G C H. apply (sim_mkdirs (prefixes p) a b a' S0); [|exact H]. apply Forall_forall. intros q I0.
    apply (in_prefixes p q G) in I0. destruct I0 as [Nq [->|B]]; [auto|]. split; [|exact Nq].
    apply below_iff in B; [|exact Nq]. destruct B as (r & ->).
    destruct (in_cache q) eqn:E; [|reflexivity]. rewrite (in_cache_prefix q r E) in C. discriminate C.
  Qed.

  (** ** Copying *)

  (** A bag that leaves the cache directory alone. *)
  Definition apart (t : tree) : Prop :=
    wf_tree t /\ (forall p, in_cache p = true -> od_get p t = None) /\ is_file MULTIBAG t = false.

  Definition item_path (i : item) : pystr := match i with IRoot d => d | IFile d f | IDir d f => pjoin d f end.
  Definition item_ok (src : tree) (i : item) : Prop :=
    (item_path i = [] \/ In (item_path i) (od_keys src)) /\
    match i with IRoot _ => True | IFile _ _ => In (item_path i) (files src) | IDir _ _ => In (item_path i) (dirs src) end.

  Lemma files_keys p t : In p (files t) -> In p (od_keys t).
  Proof. unfold files, od_keys. intros H. apply in_map_iff in H. destruct H as (kv & <- & H). apply filter_In in H. apply in_map. tauto. Qed.
  Lemma dirs_keys p t : In p (dirs t) -> In p (od_keys t).
  Proof. unfold dirs, od_keys. intros H. apply in_map_iff in H. destruct H as (kv & <- & H). apply filter_In in H. apply in_map. tauto. Qed.

  Lemma items_ok skip src : wf_tree src -> Forall (item_ok src) (items_of skip src).
  Proof.
    intros W. pose proof (wf_paths _ W) as P. rewrite Forall_forall in P.
    apply Forall_forall. intros i H. unfold items_of, bf_walk in H. apply in_flat_map in H. destruct H as (x & Ix & H).
    apply in_map_iff in Ix. destruct Ix as (d & <- & Id).
    destruct (skipped_root skip d); [destruct H|]. destruct H as [<-|H].
    - split; [|exact I]. cbn [item_path]. destruct Id as [<-|Id]; [left; reflexivity|right]. apply dirs_keys.
      apply bf_dirs_in in Id. exact Id.
    - apply in_app_iff in H. destruct H as [H|H]; apply in_map_iff in H; destruct H as (f & <- & H); apply filter_In in H; destruct H as [H _].
      + unfold files_in in H. apply in_map_iff in H. destruct H as (q & <- & H). apply filter_In in H. destruct H as [H E]. apply streq_eq in E. subst d.
        unfold item_ok. cbn [item_path]. pose proof (files_keys _ _ H) as K. rewrite pjoin_dirname_basename by (apply P; exact K). auto.
      + unfold subdirs_in in H. apply in_map_iff in H. destruct H as (q & <- & H). apply filter_In in H. destruct H as [H E]. apply streq_eq in E. subst d.
        unfold item_ok. cbn [item_path]. pose proof (dirs_keys _ _ H) as K. rewrite pjoin_dirname_basename by (apply P; exact K). auto.
  Qed.

  Lemma sim_item src a b u i a' u' : sim a b -> apart src -> item_ok src i ->
    restore_item false src (a, u) i = Ok (a', u') ->
    exists b', restore_item false src (b, u) i = Ok (b', u') /\ sim a' b'.
  Proof.
    intros S0 (W & Ac & Am) [Ip It] H.
    assert (C : in_cache (item_path i) = false).
    { destruct Ip as [E|K]; [rewrite E; reflexivity|]. destruct (in_cache (item_path i)) eqn:C; [|reflexivity].
      apply Ac in C. apply od_get_none in C. contradiction. }
    assert (G : In (item_path i) (od_keys src) -> good_path (item_path i)).
    { intros K. pose proof (wf_paths _ W) as P. rewrite Forall_forall in P. apply P; exact K. }
    destruct i as [d|d f|d f]; cbn [restore_item item_path andb] in *.
    - destruct (exists_ d a) eqn:E; [|discriminate H]. inversion H; subst. rewrite (exists_sim a' b d S0 C E). eauto.
    - cbn [bind] in *. pose proof (files_keys _ _ It) as K. specialize (G K).
      assert (Nm : pjoin d f <> MULTIBAG).
      { intros E. rewrite E in It. apply (in_files MULTIBAG src (wf_nodup _ W)) in It. congruence. }
      rewrite (exists_sim_eq a b _ S0 C Nm). destruct (exists_ (pjoin d f) a) eqn:E; [inversion H; subst; eauto|].
      unfold replicate_ro in *. apply (in_files _ src (wf_nodup _ W)) in It.
      assert (Ex : exists_ (pjoin d f) src = true) by (unfold exists_; rewrite It; reflexivity). rewrite Ex in *. cbn [negb] in *.
      assert (Dn : is_dir (pjoin d f) src = false).
      { destruct (pjoin d f) as [|c0 p0] eqn:Ep; [apply good_path_nonempty in G; congruence|]. unfold is_dir, is_file in *.
        destruct (od_get (c0 :: p0) src) as [[|x]|]; [discriminate It|reflexivity|reflexivity]. }
      rewrite Dn in *.
      set (p := pjoin d f) in *.
      destruct (if exists_ (dirname p) a then Ok a else makedirs (dirname p) a) as [a1|e] eqn:M; [|discriminate H].
      assert (Gd : exists b1, (if exists_ (dirname p) b then Ok b else makedirs (dirname p) b) = Ok b1 /\ sim a1 b1).
      { destruct (exists_ (dirname p) a) eqn:Ed.
        - inversion M; subst a1. rewrite (exists_sim a b (dirname p) S0 (dirname_out p C) Ed). eauto.
        - destruct (good_path_dirname p G) as [Ed0|Gd]; [rewrite Ed0 in Ed; unfold exists_ in Ed; cbn [is_dir] in Ed; rewrite orb_true_r in Ed; discriminate Ed|].
          destruct (sim_makedirs a b (dirname p) a1 S0 Gd (dirname_out p C) M) as (b1 & M1 & S1).
          destruct (exists_ (dirname p) b) eqn:Eb; [|eauto].
          assert (Eq : dirname p = MULTIBAG).
          { destruct (str_eq_dec (dirname p) MULTIBAG) as [X|X]; [exact X|].
            rewrite (exists_sim_eq a b (dirname p) S0 (dirname_out p C) X) in Eb. congruence. }
          rewrite Eq in M, M1, Eb. rewrite (prefixes_mb b) in M1 by exact Eb. inversion M1; subst b1. eauto. }
      destruct Gd as (b1 & M1 & S1). rewrite M1.
      destruct (write_file p (match read p src with Some c => c | None => [] end) a1) as [a2|e] eqn:Wr; [|discriminate H].
      destruct (sim_write a1 b1 p _ a2 S1 C Nm Wr) as (b2 & W2 & S2). rewrite W2. inversion H; subst. eauto.
    - destruct (exists_ (pjoin d f) a) eqn:E.
      + inversion H; subst. rewrite (exists_sim a' b _ S0 C E). eauto.
      + pose proof (dirs_keys _ _ It) as K. specialize (G K). apply bind_ok in H. destruct H as (a1 & M & H). inversion H; subst a1 u'; clear H.
        destruct (sim_makedirs a b (pjoin d f) a' S0 G C M) as (b1 & M1 & S1).
        destruct (exists_ (pjoin d f) b) eqn:Eb; [|rewrite M1; cbn [bind]; eauto].
        assert (Eq : pjoin d f = MULTIBAG).
        { destruct (str_eq_dec (pjoin d f) MULTIBAG) as [X|X]; [exact X|]. rewrite (exists_sim_eq a b _ S0 C X) in Eb. congruence. }
        rewrite Eq in *. rewrite (prefixes_mb b) in M1 by exact Eb. inversion M1; subst b1. eauto.
  Qed.

  Lemma sim_items src l : forall a b u a' u', sim a b -> apart src -> Forall (item_ok src) l ->
    foldM (restore_item false src) l (a, u) = Ok (a', u') ->
    exists b', foldM (restore_item false src) l (b, u) = Ok (b', u') /\ sim a' b'.
  Proof.
    induction l as [|i l IH]; intros a b u a' u' S0 A F H; cbn [foldM] in *.
    - inversion H; subst. eauto.
    - inversion F as [|? ? Fi F']; subst. apply bind_ok in H. destruct H as ([a1 u1] & H1 & H2).
      destruct (sim_item src a b u i a1 u1 S0 A Fi H1) as (b1 & G1 & S1). rewrite G1. cbn [bind].
      apply (IH a1 b1 u1 a' u' S1 A F' H2).
  Qed.

  (** ** Manifests *)

  Lemma man_out k a : k = K_man \/ k = K_tag -> in_cache (man_name k a) = false /\ man_name k a <> MULTIBAG.
  Proof. intros [-> | ->]; (split; [reflexivity|discriminate]). Qed.

  Lemma manifests_sim algos v97 a b : sim a b -> bag_manifests algos v97 b = bag_manifests algos v97 a.
  Proof.
    intros S0. unfold bag_manifests. f_equal; [|destruct v97; [|reflexivity]];
      (f_equal; apply map_ext; intros x; rewrite (read_sim a b) by (auto; apply man_out; auto); reflexivity).
  Qed.

  Lemma open_sim v r loc a b : sim a b -> open_bag v r loc b = open_bag v r loc a.
  Proof.
    intros S0. unfold open_bag. rewrite (read_sim a b F_bagit S0) by reflexivity. destruct (read F_bagit a) as [c|]; [|reflexivity].
    destruct (e_version v c) as [[v97 v1]|e]; [|reflexivity]. cbn [bind].
    rewrite (read_sim a b F_baginfo S0) by reflexivity. rewrite (manifests_sim _ _ a b S0). reflexivity.
  Qed.

  Lemma algorithms_sim v a b : sim a b -> algorithms v b = algorithms v a.
  Proof.
    intros S0. unfold algorithms. rewrite (read_sim a b F_bagit S0) by reflexivity. destruct (read F_bagit a) as [c|]; [|reflexivity].
    destruct (e_version v c) as [[v97 v1]|e]; [|reflexivity]. cbn [bind]. rewrite (manifests_sim _ _ a b S0). reflexivity.
  Qed.

  Lemma sim_manifest k alg d a b a' : k = K_man \/ k = K_tag -> sim a b -> write_manifest k alg d a = Ok a' ->
    exists b', write_manifest k alg d b = Ok b' /\ sim a' b'.
  Proof.
    intros K S0 H. unfold write_manifest in *. destruct d; [inversion H; subst; eauto|].
    destruct (man_out k alg K). eapply sim_write; eauto.
  Qed.

  Lemma sim_manifests l : forall a b a', sim a b -> foldM write_manifests l a = Ok a' ->
    exists b', foldM write_manifests l b = Ok b' /\ sim a' b'.
  Proof.
    induction l as [|ad l IH]; intros a b a' S0 H; cbn [foldM] in *; [inversion H; subst; eauto|].
    apply bind_ok in H. destruct H as (a1 & H1 & H2). unfold write_manifests in H1. apply bind_ok in H1. destruct H1 as (a0 & H0 & H1).
    destruct (sim_manifest K_man _ _ a b a0 (or_introl eq_refl) S0 H0) as (b0 & G0 & S1).
    destruct (sim_manifest K_tag _ _ a0 b0 a1 (or_intror eq_refl) S1 H1) as (b1 & G1 & S2).
    unfold write_manifests at 1. rewrite G0. cbn [bind]. rewrite G1. cbn [bind]. apply (IH a1 b1 a' S2 H2).
  Qed.

  Lemma sim_restore_from v skip r a b a' : sim a b -> (rb_loc r = e_dest v \/ apart (rb_tree r)) ->
    restore_from v false skip r a = Ok a' -> exists b', restore_from v false skip r b = Ok b' /\ sim a' b'.
  Proof.
    intros S0 A H. unfold restore_from in *. destruct (streq_reflect (rb_loc r) (e_dest v)) as [E|E]; [inversion H; subst; eauto|].
    destruct A as [A|A]; [contradiction|].
    destruct (open_bag v IoText (rb_loc r) (rb_tree r)) as [[i es]|e]; [|discriminate H]. cbn [bind] in *.
    apply bind_ok in H. destruct H as ([a1 u] & H1 & H2). unfold copy_items in *.
    destruct (sim_items (rb_tree r) _ a b [] a1 u S0 A (items_ok skip (rb_tree r) (proj1 A)) H1) as (b1 & G1 & S1).
    rewrite G1. cbn [bind]. destruct u as [|x u]; [inversion H2; subst; eauto|].
    unfold update_manifests in *. rewrite (open_sim v IoText (e_dest v) a1 b1 S1).
    destruct (open_bag v IoText (e_dest v) a1) as [[i2 des]|e]; [|discriminate H2]. cbn [bind] in *.
    destruct (foldM keep_entry des (fold_left (record_updated es) (x :: u) [])) as [m|e]; [|discriminate H2]. cbn [bind] in *.
    apply (sim_manifests m a1 b1 a' S1 H2).
  Qed.

  (** ** The cache directory *)

  Lemma sim_make a b p : sim a b -> p = MULTIBAG \/ p = CACHE -> od_get p b = None ->
    sim a (od_set p NDir b) /\ (forall n, is_dir (slot n) (od_set p NDir b) = is_dir (slot n) b).
  Proof.
    intros S0 P E.
    assert (Np : forall n, slot n <> p).
    { intros n X. destruct P as [-> | ->]; [discriminate X|]. unfold slot, sjoin in X. apply (f_equal (@length _)) in X.
      rewrite !app_length in X. cbn [length] in X. lia. }
    assert (Nb : forall n, below (slot n) p = false).
    { intros n. destruct (below (slot n) p) eqn:B; [|reflexivity]. apply below_iff in B; [|discriminate]. destruct B as (r & X).
      destruct P as [-> | ->]; [discriminate X|]. unfold slot, sjoin in X. apply (f_equal (@length _)) in X.
      rewrite !app_length in X. cbn [length] in X. lia. }
    assert (Im : in_mb p = true) by (destruct P as [-> | ->]; reflexivity).
    assert (Dn : forall n, is_dir (slot n) (od_set p NDir b) = is_dir (slot n) b).
    { intros n. unfold is_dir. rewrite od_get_set_other by apply Np. reflexivity. }
    split; [|exact Dn]. constructor.
    - unfold outside. rewrite (filter_set_out (fun k => negb (in_mb k))) by (cbn beta; rewrite Im; reflexivity). apply (s_out _ _ S0).
    - intros q Cq Nq. rewrite od_get_set_other; [apply (s_get _ _ S0); auto|]. intros ->. destruct P as [-> | ->]; [apply Nq; reflexivity|discriminate Cq].
    - destruct P as [-> | ->]; [right; apply od_get_set_same|]. rewrite od_get_set_other by discriminate. apply (s_mb _ _ S0).
    - apply (s_dir _ _ S0).
    - apply (s_none _ _ S0).
    - destruct P as [-> | ->]; [rewrite od_get_set_other by discriminate; apply (s_cache _ _ S0)|right; apply od_get_set_same].
    - intros n Gn D. rewrite Dn in D. rewrite subtree_set by apply Nb. apply (s_have _ _ S0); auto.
    - intros n e c Gn Ie E1. rewrite od_get_set_other in E1 by apply Np. exact (s_arch _ _ S0 n e c Gn Ie E1).
    - intros n Gn D. rewrite Dn in D. destruct (s_free _ _ S0 n Gn D) as [F1 F2]. split; [rewrite od_get_set_other by apply Np; exact F1|].
      intros q B. rewrite od_get_set_other; [apply F2; exact B|]. intros ->. rewrite Nb in B. discriminate B.
  Qed.

  Lemma sim_create a b : sim a b -> exists b', create_cache b = Ok b' /\ sim a b' /\ (forall n, is_dir (slot n) b' = is_dir (slot n) b).
  Proof.
    intros S0. unfold create_cache. destruct (exists_ CACHE b) eqn:E; [eauto|].
    apply exists_get_false in E; [|discriminate].
    unfold makedirs. change (prefixes CACHE) with [MULTIBAG; CACHE]. cbn [foldM].
    assert (G : exists b1, (if exists_ MULTIBAG b then Ok b else mkdir MULTIBAG b) = Ok b1 /\ sim a b1 /\
                od_get MULTIBAG b1 = Some NDir /\ od_get CACHE b1 = None /\ (forall n, is_dir (slot n) b1 = is_dir (slot n) b)).
    { destruct (exists_ MULTIBAG b) eqn:M.
      - exists b. split; [reflexivity|]. split; [exact S0|]. split; [|auto].
        destruct (s_mb _ _ S0) as [X|X]; [|exact X]. rewrite X. destruct (s_dir _ _ S0) as [Y|Y]; [|exact Y].
        rewrite Y in X. apply exists_get_false in X; [|discriminate]. congruence.
      - unfold mkdir. rewrite M. change (is_dir (dirname MULTIBAG) b) with true. cbv iota. apply exists_get_false in M; [|discriminate].
        destruct (sim_make a b MULTIBAG S0 (or_introl eq_refl) M) as [S1 D1].
        eexists; split; [reflexivity|]. split; [exact S1|]. split; [apply od_get_set_same|]. split; [|exact D1].
        rewrite od_get_set_other by discriminate. exact E. }
    destruct G as (b1 & G1 & S1 & M1 & C1 & D1). rewrite G1. cbn [bind].
    rewrite (proj2 (exists_get_false CACHE b1 ltac:(discriminate)) C1). unfold mkdir.
    rewrite (proj2 (exists_get_false CACHE b1 ltac:(discriminate)) C1).
    change (is_dir (dirname CACHE) b1) with (match od_get MULTIBAG b1 with Some NDir => true | _ => false end). rewrite M1. cbn [bind].
    destruct (sim_make a b1 CACHE S1 (or_intror eq_refl) C1) as [S2 D2].
    eexists; split; [reflexivity|]. split; [exact S2|]. intros n. rewrite D2. apply D1.
  Qed.

  Lemma sim_mount a b n t : sim a b -> named n -> remote n = Some (AsDir t) -> NoDup (od_keys t) -> is_dir (slot n) b = false ->
    sim a (mount (slot n) t b).
  Proof.
    intros S0 Gn Rn ND Dn. assert (Bn := Hn n Gn). destruct (s_free _ _ S0 n Gn Dn) as [F1 F2]. unfold mount.
    assert (Bs : forall k, below (slot n) (sjoin (slot n) k) = true) by (intros k; apply below_iff; [discriminate|]; exists k; reflexivity).
    rewrite mount_list; [|exact ND|].
    2: { intros k _. rewrite od_get_set_other; [apply F2, Bs|]. intros X. pose proof (Bs k) as Y. rewrite X in Y.
         rewrite below_irrefl in Y by discriminate. discriminate Y. }
    rewrite od_set_new by exact F1. rewrite <- app_assoc. cbn [app].
    set (X := (slot n, NDir) :: map (fun kv => (sjoin (slot n) (fst kv), snd kv)) t).
    assert (KX : forall p x, In (p, x) X -> p = slot n \/ below (slot n) p = true).
    { intros p x [Y|Y]; [inversion Y; left; reflexivity|]. apply in_map_iff in Y. destruct Y as ([k z] & Y & _). inversion Y; subst. right; apply Bs. }
    assert (CX : forall p x, In (p, x) X -> in_cache p = true).
    { intros p x I0. destruct (KX p x I0) as [-> |B]; [apply slot_in|eapply below_slot_in; eauto]. }
    assert (GX : forall p, (p <> slot n /\ below (slot n) p = false) -> od_get p X = None).
    { intros p [N1 N2]. apply od_get_none. intros I0. apply in_map_iff in I0. destruct I0 as ([k z] & E & I0). cbn [fst] in E. subst k.
      destruct (KX p z I0) as [Y|Y]; congruence. }
    assert (GO : forall p, (p <> slot n /\ below (slot n) p = false) -> od_get p (b ++ X) = od_get p b).
    { intros p Np. rewrite od_get_app, (GX p Np). destruct (od_get p b); reflexivity. }
    assert (GC : forall p, in_cache p = false -> p <> slot n /\ below (slot n) p = false).
    { intros p Cp. split; [intros ->; rewrite slot_in in Cp; discriminate Cp|].
      destruct (below (slot n) p) eqn:B; [|reflexivity]. apply below_slot_in in B. congruence. }
    assert (CC : CACHE <> slot n /\ below (slot n) CACHE = false).
    { split; [intros Y; apply (f_equal (@length _)) in Y; unfold slot, sjoin in Y; rewrite !app_length in Y; cbn [length] in Y; lia|].
      destruct (below (slot n) CACHE) eqn:B; [|reflexivity]. apply below_iff in B; [|discriminate]. destruct B as (r & Y).
      apply (f_equal (@length _)) in Y; unfold slot, sjoin in Y; rewrite !app_length in Y; cbn [length] in Y; lia. }
    assert (NN : forall n', named n' -> n' <> n -> slot n' <> slot n /\ below (slot n) (slot n') = false).
    { intros n' Gn' D. split; [intros Y; apply slot_inj in Y; contradiction|apply below_not_slot; apply Hn; exact Gn']. }
    constructor.
    - unfold outside. rewrite filter_app. rewrite (filter_none _ X), app_nil_r; [apply (s_out _ _ S0)|].
      intros [p x] I0. cbn [fst]. rewrite (in_cache_mb p (CX p x I0)). reflexivity.
    - intros q Cq Nq. rewrite GO by (apply GC; exact Cq). apply (s_get _ _ S0); auto.
    - rewrite GO by (apply GC; reflexivity). apply (s_mb _ _ S0).
    - apply (s_dir _ _ S0).
    - apply (s_none _ _ S0).
    - rewrite GO by exact CC. apply (s_cache _ _ S0).
    - intros n' Gn' D. destruct (str_eq_dec n' n) as [->|Nn].
      + rewrite Rn. f_equal. f_equal. unfold subtree. rewrite filter_app.
        rewrite (filter_none _ b).
        2: { intros [p x] I0. cbn [fst]. destruct (below (slot n) p) eqn:B; [|reflexivity]. apply F2, od_get_none in B.
             exfalso. apply B. apply in_map_iff. exists (p, x). auto. }
        cbn [app]. unfold X. cbn [filter fst]. rewrite below_irrefl by discriminate.
        clear -Bs. induction t as [|[k z] t IH]; [reflexivity|]. cbn [map filter fst snd]. rewrite Bs. cbn [map fst snd]. rewrite <- IH. f_equal. f_equal.
        symmetry. apply skip_slot.
      + unfold is_dir in D. rewrite (GO _ (NN n' Gn' Nn)) in D. rewrite (s_have _ _ S0 n' Gn' D). f_equal.
        unfold subtree. rewrite filter_app, (filter_none _ X), app_nil_r; [reflexivity|].
        intros [p x] I0. cbn [fst]. destruct (below (slot n') p) eqn:B; [|reflexivity]. destruct (KX p x I0) as [-> |B2].
        * rewrite below_not_slot in B by exact Bn. discriminate B.
        * exfalso. apply Nn. eapply below_slots; eauto.
    - intros n' e c Gn' Ie E. apply (s_arch _ _ S0 n' e c Gn' Ie).
      assert (Bl : below (slot n) (slot (n' ++ e)) = false).
      { destruct (below (slot n) (slot (n' ++ e))) eqn:B; [|reflexivity]. apply below_iff in B; [|discriminate]. destruct B as (r & B).
        unfold slot, sjoin in B. rewrite <- !app_assoc in B. apply app_inv_head in B. apply app_inv_head in B. exfalso.
        assert (J : In SLASH (n' ++ e)) by (rewrite B; apply in_or_app; right; left; reflexivity).
        apply in_app_or in J. destruct J as [J|J]; [destruct (Hn n' Gn') as (_ & _ & _ & X0); exact (X0 J)|exact (Ho e Ie J)]. }
      destruct (str_eq_dec (slot (n' ++ e)) (slot n)) as [Eq|Nq]; [|rewrite GO in E by auto; exact E].
      exfalso. rewrite Eq, od_get_app, F1 in E. unfold X in E. cbn [od_get] in E. rewrite streq_refl in E. discriminate E.
    - intros n' Gn' D. destruct (str_eq_dec n' n) as [->|Nn].
      + exfalso. unfold is_dir in D. rewrite od_get_app, F1 in D. unfold X in D. cbn [od_get] in D. rewrite streq_refl in D. discriminate D.
      + unfold is_dir in D. rewrite (GO _ (NN n' Gn' Nn)) in D. destruct (s_free _ _ S0 n' Gn' D) as [H1 H2].
        split; [rewrite (GO _ (NN n' Gn' Nn)); exact H1|]. intros p B. rewrite GO; [apply H2; exact B|]. split.
        * intros ->. rewrite below_not_slot in B by exact Bn. discriminate B.
        * destruct (below (slot n) p) eqn:B2; [|reflexivity]. exfalso. apply Nn. eapply below_slots; eauto.
  Qed.

  (** An archive. *)
  Lemma sim_archive a b n ext c : sim a b -> named n -> remote n = Some (AsArchive ext c) -> sim a (od_set (slot (n ++ ext)) (NFile c) b).
  Proof.
    intros S0 Gn Rn. destruct (Hx n ext c Gn Rn) as [Ns Nx]. pose proof (slot_in (n ++ ext)) as Ci.
    assert (Nsl : ~ In SLASH (n ++ ext)) by (intros J; apply in_app_or in J; destruct J as [J|J]; [destruct (Hn n Gn) as (_ & _ & _ & X0); exact (X0 J)|exact (Ns J)]).
    assert (Np : forall n', named n' -> slot n' <> slot (n ++ ext)) by (intros n' G' E; apply slot_inj in E; apply (proj1 (Nx n' G')); auto).
    assert (Nb : forall n', below (slot n') (slot (n ++ ext)) = false).
    { intros n'. destruct (below (slot n') (slot (n ++ ext))) eqn:B; [|reflexivity]. apply below_iff in B; [|discriminate]. destruct B as (r & B).
      unfold slot, sjoin in B. rewrite <- !app_assoc in B. apply app_inv_head in B. apply app_inv_head in B. exfalso.
      apply Nsl. rewrite B. apply in_or_app. right; left; reflexivity. }
    assert (Dn : forall n', named n' -> is_dir (slot n') (od_set (slot (n ++ ext)) (NFile c) b) = is_dir (slot n') b).
    { intros n' G'. unfold is_dir. rewrite od_get_set_other by (apply Np; exact G'). reflexivity. }
    constructor.
    - unfold outside. rewrite (filter_set_out (fun k => negb (in_mb k))) by (cbn beta; rewrite (in_cache_mb _ Ci); reflexivity). apply (s_out _ _ S0).
    - intros q Cq Nq. rewrite od_get_set_other; [apply (s_get _ _ S0); auto|]. intros ->. congruence.
    - rewrite od_get_set_other; [apply (s_mb _ _ S0)|]. intros E. rewrite <- E in Ci. discriminate Ci.
    - apply (s_dir _ _ S0).
    - apply (s_none _ _ S0).
    - rewrite od_get_set_other; [apply (s_cache _ _ S0)|]. intros E. apply (f_equal (@length _)) in E. unfold slot, sjoin in E. rewrite !app_length in E. cbn [length] in E. lia.
    - intros n' G' D. rewrite Dn in D by exact G'. rewrite subtree_set by apply Nb. apply (s_have _ _ S0); auto.
    - intros n' e c' G' Ie E. rewrite od_get_set in E. destruct (streq_reflect (slot (n' ++ e)) (slot (n ++ ext))) as [Eq|_]; [|exact (s_arch _ _ S0 n' e c' G' Ie E)].
      apply slot_inj in Eq. injection E as <-. pose proof (proj2 (Nx n' G') e Ie (eq_sym Eq)) as En. rewrite <- En in *. apply app_inv_head in Eq. rewrite Eq. exact Rn.
    - intros n' G' D. rewrite Dn in D by exact G'. destruct (s_free _ _ S0 n' G' D) as [F1 F2]. split; [rewrite od_get_set_other by (apply Np; exact G'); exact F1|].
      intros q B. rewrite od_get_set_other; [apply F2; exact B|]. intros ->. rewrite Nb in B. discriminate B.
  Qed.

  Lemma sim_get v e n d a b : sim a b -> named n -> remote n = Some d -> NoDup (od_keys (bag_of unpacked d)) ->
    exists b', get_member v order unpacked remote e b n = Ok ({| rb_loc := sjoin (e_dest v) (slot (file_name n d)); rb_tree := bag_of unpacked d |}, b') /\ sim a b'.
  Proof.
    intros S0 Gn Rn ND. unfold get_member. destruct (is_dir (slot n) b) eqn:D.
    - pose proof (s_have _ _ S0 n Gn D) as X. rewrite Rn in X. injection X as ->. eauto.
    - destruct (find (fun x => is_file (slot (n ++ x)) b) order) as [x|] eqn:Fx.
      + apply find_some in Fx. destruct Fx as [Ix Fx]. unfold is_file in Fx. destruct (od_get (slot (n ++ x)) b) as [[|c]|] eqn:Gx; try discriminate Fx.
        pose proof (s_arch _ _ S0 n x c Gn Ix Gx) as X. rewrite Rn in X. injection X as ->. unfold read. rewrite Gx. cbn [file_name bag_of]. eauto.
      + rewrite Rn. destruct (sim_create a b S0) as (b1 & C1 & S1 & D1). rewrite C1. cbn [bind]. eexists; split; [reflexivity|].
        destruct d as [t|ext c]; cbn [put]; [apply sim_mount; auto; rewrite D1; exact D|apply sim_archive; auto].
  Qed.

  (** ** Whole restorations *)

  Variable v : env.
  (** Without the cache directory, a bag is at the place where it is put. *)
  Definition served (n : pystr) : Prop := named n /\
    match remote n with
    | Some d => apart (bag_of unpacked d) /\ e_find v n = Some {| rb_loc := sjoin (e_dest v) (slot (file_name n d)); rb_tree := bag_of unpacked d |}
    | None => e_find v n = None
    end.

  Lemma sim_members skip ns : forall a b a', sim a b -> Forall served ns -> foldM (restore_member v false skip) ns a = Ok a' ->
    exists b', foldM (f_restore_member v order unpacked remote skip) ns b = Ok b' /\ sim a' b'.
  Proof.
    induction ns as [|n ns IH]; intros a b a' S0 F H; cbn [foldM] in *; [inversion H; subst; eauto|].
    inversion F as [|? ? [Gn Sn] F']; subst. apply bind_ok in H. destruct H as (a1 & H1 & H2). unfold restore_member in H1.
    destruct (remote n) as [dl|] eqn:Rn; [|rewrite Sn in H1; discriminate H1]. destruct Sn as [At Ef]. rewrite Ef in H1.
    destruct (sim_get v EOS n dl a b S0 Gn Rn (wf_nodup _ (proj1 At))) as (b0 & G0 & S1).
    destruct (sim_restore_from v skip {| rb_loc := sjoin (e_dest v) (slot (file_name n dl)); rb_tree := bag_of unpacked dl |} a b0 a1 S1 (or_intror At) H1) as (b1 & G1 & S2).
    unfold f_restore_member at 1. rewrite G0. cbn [bind]. rewrite G1. cbn [bind]. apply (IH a1 b1 a' S2 F' H2).
  Qed.

  Lemma sim_fetch_of dest ns : forall a b d d', sim a b -> Forall served ns -> foldM (fetch_of v dest) ns d = Ok d' ->
    exists b', foldM (f_fetch_of v order unpacked remote) ns (b, d) = Ok (b', d') /\ sim a b'.
  Proof.
    induction ns as [|n ns IH]; intros a b d d' S0 F H; cbn [foldM] in *; [inversion H; subst; eauto|].
    inversion F as [|? ? [Gn Sn] F']; subst. apply bind_ok in H. destruct H as (d1 & H1 & H2). unfold fetch_of in H1.
    destruct (remote n) as [dl|] eqn:Rn; [|rewrite Sn in H1; discriminate H1]. destruct Sn as [At Ef]. rewrite Ef in H1.
    destruct (sim_get v EValue n dl a b S0 Gn Rn (wf_nodup _ (proj1 At))) as (b0 & G0 & S1).
    cbn [rb_loc rb_tree] in H1.
    assert (El : streq (sjoin (e_dest v) (slot (file_name n dl))) (e_dest v) = false).
    { destruct (streq_reflect (sjoin (e_dest v) (slot (file_name n dl))) (e_dest v)) as [X|X]; [|reflexivity]. exfalso.
      apply (f_equal (@length _)) in X. unfold sjoin in X. rewrite !app_length in X. cbn [length] in X. lia. }
    rewrite El in H1. unfold f_fetch_of at 1. rewrite G0. cbn [bind rb_loc rb_tree].
    destruct (open_bag v IoText (sjoin (e_dest v) (slot (file_name n dl))) (bag_of unpacked dl)) as [x|e]; [|discriminate H1]. cbn [bind] in *.
    destruct (read Restore.F_fetch (bag_of unpacked dl)) as [c|]; inversion H1; subst d1; cbn [bind]; apply (IH a b0 _ d' S1 F' H2).
  Qed.

  Lemma sim_fetch ns a b a' : sim a b -> Forall served ns -> restore_fetch v ns a = Ok a' ->
    exists b', f_restore_fetch v order unpacked remote ns b = Ok b' /\ sim a' b'.
  Proof.
    intros S0 F H. unfold restore_fetch in H. apply bind_ok in H. destruct H as (d & H1 & H2).
    destruct (sim_fetch_of a ns a b [] d S0 F H1) as (b1 & G1 & S1). unfold f_restore_fetch.
    rewrite G1. cbn [bind].
    destruct d; [inversion H2; subst; eauto|]. apply (sim_write a b1 Restore.F_fetch); auto; discriminate.
  Qed.

  Lemma finish_sim us bsize a b a' : sim a b -> finish v us true bsize a = Ok a' -> finish v us true bsize b = Ok a'.
  Proof.
    intros S0 H. unfold finish in *. rewrite (open_sim v Codecs (e_dest v) a b S0), (algorithms_sim v a b S0).
    destruct (open_bag v Codecs (e_dest v) a) as [[i es]|e]; [|discriminate H]. cbn [bind] in *.
    destruct (algorithms v a) as [algs|e]; [|discriminate H]. cbn [bind] in *.
    assert (E : rmtree MULTIBAG b = rmtree MULTIBAG a).
    { unfold rmtree in *. destruct (od_get MULTIBAG a) as [[|c]|] eqn:M; [|discriminate H|discriminate H].
      assert (Mb : od_get MULTIBAG b = Some NDir) by (destruct (s_mb _ _ S0) as [X|X]; congruence). rewrite Mb. f_equal.
      symmetry. apply (s_out _ _ S0). }
    rewrite E. exact H.
  Qed.

  Lemma f_restore_sim us bsize ro h loc there (dest : tree) skip ms t' :
    (forall p, in_cache p = true -> od_get p dest = None) ->
    (od_get MULTIBAG dest = None \/ od_get MULTIBAG dest = Some NDir) ->
    (loc = e_dest v \/ apart (hb_tree h)) -> head_lists ro h = Ok (skip, ms) -> Forall served (others h ms) ->
    restore v us true bsize ro h loc dest = Ok t' -> f_restore v order unpacked remote us true bsize ro h loc there dest = Ok t'.
  Proof.
    intros Nc Nm A Hl F H. unfold restore in H. rewrite Hl in H. cbn [bind] in H. apply bind_ok in H. destruct H as (a3 & H3 & H).
    unfold gather in H3. rewrite Hl in H3. cbn [bind] in H3. apply bind_ok in H3. destruct H3 as (a1 & H1 & H3).
    apply bind_ok in H3. destruct H3 as (a2 & H2 & H3). apply bind_ok in H. destruct H as (a4 & H4 & H5).
    unfold f_restore. rewrite Hl. cbn [bind].
    assert (S0 : exists b0 : tree, (if there then Ok dest else create_cache dest) = Ok b0 /\ sim dest b0).
    { destruct there; [exists dest; split; [reflexivity|apply sim_start; auto]|].
      destruct (sim_create dest dest (sim_start dest Nc Nm)) as (b0 & C0 & S0 & _). eauto. }
    destruct S0 as (b0 & G0 & S0). rewrite G0. cbn [bind].
    assert (S1 : exists b1, start_info h b0 = Ok b1 /\ sim a1 b1).
    { unfold start_info in *. destruct (read (sjoin MULTIBAG F_agginfo) (hb_tree h)); [|inversion H1; subst; eauto].
      apply (sim_write dest b0 F_baginfo); auto; discriminate. }
    destruct S1 as (b1 & G1 & S1). rewrite G1. cbn [bind].
    destruct (sim_restore_from v skip {| rb_loc := loc; rb_tree := hb_tree h |} a1 b1 a2 S1 A H2) as (b2 & G2 & S2). rewrite G2. cbn [bind].
    destruct (sim_members skip (others h ms) a2 b2 a3 S2 F H3) as (b3 & G3 & S3). rewrite G3. cbn [bind].
    assert (S4 : exists b4 : tree, match others h ms with [] => Ok b3 | ns => f_restore_fetch v order unpacked remote ns b3 end = Ok b4 /\ sim a4 b4).
    { destruct (others h ms) as [|n ns]; [inversion H4; subst; eauto|]. eapply sim_fetch; eauto. }
    destruct S4 as (b4 & G4 & S4).
    rewrite G4. cbn [bind]. eapply finish_sim; eauto.
  Qed.
End Sim.

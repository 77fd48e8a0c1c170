(** * Lemmas on applying a split plan: when it succeeds *)

Require Import String NArith PeanoNat Bool List Lia Permutation.
From Verif Require Import PyBase PyFacts Tsv TsvProofs Fs FsFacts HeadBag BagIt BagItProofs Split SplitApply SplitApplyProofs.
Import ListNotations.
Open Scope N_scope.

Lemma is_dir_dirp p t : p <> [] -> (is_dir p t = true <-> dirp p t).
Proof.
  intros H. unfold is_dir, dirp. destruct p; [congruence|]. destruct (od_get _ t) as [[|]|]; split; congruence.
Qed.

Lemma is_dir_cases p t : is_dir p t = true <-> p = [] \/ dirp p t.
Proof.
  destruct p as [|x q]; [cbn; intuition|].
  rewrite is_dir_dirp by congruence. intuition congruence.
Qed.

Lemma dirp_not_file p t : dirp p t -> is_file p t = false.
Proof. unfold dirp, is_file. intros ->. reflexivity. Qed.

(** A source whose own layout does not get in the way: "data" (and, for a
    head bag, "multibag") is not a file, and none of the files that the
    splitter writes itself is a directory. *)
Record layout_ok (s : source) (ishead : bool) : Prop := {
  lo_wf : wf_tree (so_tree s);
  lo_data : is_file (U "data") (so_tree s) = false;
  lo_multibag : ishead = true -> is_file (U "multibag") (so_tree s) = false;
  lo_own : forall p, own_file ishead p -> is_dir p (so_tree s) = false;
  lo_algos : Forall (fun a => ~ In SLASH a) (so_algos s);
  lo_entries : forall f d a h, od_get f (so_entries s) = Some d -> In (a, h) d -> In a (so_algos s)
}.

Section Success.
  Variables (s : source) (ishead : bool).
  Hypothesis L : layout_ok s ishead.
  Let src := so_tree s.

  Definition special (p : pystr) : Prop := p = DATA \/ (ishead = true /\ p = MULTIBAG).

  Definition inv (t : tree) : Prop :=
    (forall p, is_file p t = true -> own_file ishead p \/ is_file p src = true) /\
    (forall p, dirp p t -> special p \/ dirp p src).

  Lemma own_not_special p : own_file ishead p -> ~ special p.
  Proof.
    intros H. unfold special. destruct H; intros [E|[_ E]]; discriminate.
  Qed.

  Lemma special_not_file p : special p -> is_file p src = false.
  Proof. intros [->|[E ->]]; [apply (lo_data _ _ L)|apply (lo_multibag _ _ L); auto]. Qed.

  Lemma own_nonempty p : own_file ishead p -> p <> [].
  Proof. destruct 1; discriminate. Qed.

  Lemma own_not_dirp p : own_file ishead p -> ~ dirp p src.
  Proof.
    intros H D. pose proof (lo_own _ _ L p H) as E. apply is_dir_dirp in D; [|apply own_nonempty; auto].
    unfold src in D. congruence.
  Qed.

  (** Neither kind of path is ever of the other type. *)
  Lemma inv_dir p t : inv t -> special p \/ dirp p src -> is_file p t = false.
  Proof.
    intros [I _] H. destruct (is_file p t) eqn:E; auto. apply I in E.
    destruct H as [H|H], E as [E|E].
    - exfalso. eapply own_not_special; eauto.
    - rewrite special_not_file in E; auto.
    - exfalso. eapply own_not_dirp; eauto.
    - apply dirp_not_file in H. congruence.
  Qed.

  Lemma inv_file p t : inv t -> p <> [] -> own_file ishead p \/ is_file p src = true -> is_dir p t = false.
  Proof.
    intros I NE H. destruct (is_dir p t) eqn:E; auto. apply is_dir_dirp in E; auto.
    destruct I as [I1 I2]. pose proof (I2 _ E) as K.
    destruct H as [H|H], K as [K|K].
    - exfalso. eapply own_not_special; eauto.
    - exfalso. eapply own_not_dirp; eauto.
    - rewrite special_not_file in H; auto.
    - apply dirp_not_file in K. congruence.
  Qed.

  Lemma inv_write p c t : inv t -> p <> [] -> own_file ishead p \/ is_file p src = true ->
    is_dir (dirname p) t = true ->
    exists t', write_file p c t = Ok t' /\ inv t' /\ (forall d, dirp d t -> dirp d t').
  Proof.
    intros I NE H D. unfold write_file. rewrite (inv_file p t I NE H), D. eexists. split; [reflexivity|].
    pose proof (inv_file p t I NE H) as Nd. destruct I as [I1 I2]. split; [split|].
    - intros q. rewrite is_file_set. intros K. apply orb_true_iff in K. destruct K as [K|K]; [|auto].
      apply streq_eq in K. subst. exact H.
    - intros q K. apply dirp_set_file in K; auto.
    - intros d K. apply dirp_set_file; auto.
  Qed.

  Lemma inv_mkdir p t : inv t -> p <> [] -> special p \/ dirp p src -> is_dir (dirname p) t = true ->
    exists t', (if exists_ p t then Ok t else mkdir p t) = Ok t' /\ inv t' /\ dirp p t' /\
               (forall d, dirp d t -> dirp d t').
  Proof.
    intros I NE H D. pose proof (inv_dir p t I H) as F. destruct (exists_ p t) eqn:E.
    - exists t. split; [reflexivity|]. split; [exact I|]. split; [|auto].
      unfold exists_ in E. rewrite F in E. cbn in E. apply is_dir_dirp in E; auto.
    - unfold mkdir. rewrite E, D. eexists. split; [reflexivity|].
      assert (M : mkdir p t = Ok (od_set p NDir t)) by (unfold mkdir; rewrite E, D; reflexivity).
      destruct I as [I1 I2]. split; [split|split].
      + intros q K. apply I1. apply is_file_read in K. destruct K as [c K]. apply is_file_read. exists c.
        rewrite <- (mkdir_read q _ _ _ M). exact K.
      + intros q K. apply (mkdir_dirp q _ _ _ M) in K. destruct K as [->|K]; auto.
      + apply (mkdir_dirp p _ _ _ M). auto.
      + intros d K. apply (mkdir_dirp d _ _ _ M). auto.
  Qed.

  Lemma src_dir_good p : dirp p src -> good_path p.
  Proof. intros H. apply (wf_good _ (lo_wf _ _ L)). apply od_get_some_key in H. exact H. Qed.

  Lemma inv_makedirs_n n : forall p t, (length p <= n)%nat -> inv t -> dirp p src ->
    exists t', makedirs p t = Ok t' /\ inv t' /\ dirp p t' /\ (forall d, dirp d t -> dirp d t').
  Proof.
    induction n as [|n IH]; intros p t Hl I H.
    - destruct p; [|cbn in Hl; lia]. apply src_dir_good in H. apply good_path_nonempty in H. congruence.
    - pose proof (src_dir_good p H) as G. unfold makedirs.
      destruct (path_cases p G) as [(N1 & E1 & _)|(a & b & -> & Nb & Gd & Gb & E1 & _)].
      + rewrite prefixes_single by auto. cbn [foldM].
        destruct (inv_mkdir p t I (good_path_nonempty _ G) (or_intror H)) as (t' & E & I' & D' & K).
        { rewrite E1. reflexivity. }
        exists t'. rewrite E. cbn [bind]. auto.
      + rewrite prefixes_cons by auto.
        assert (Ha : dirp a src).
        { apply (in_dirs a src (wf_nodup _ (lo_wf _ _ L))). apply od_get_some_key in H.
          exact (wf_ancestor _ (lo_wf _ _ L) _ a b H eq_refl). }
        destruct (IH a t) as (t1 & M1 & I1 & D1 & K1); auto.
        { rewrite app_length in Hl. cbn in Hl. lia. }
        rewrite foldM_app. unfold makedirs in M1. rewrite M1. cbn [bind foldM].
        destruct (inv_mkdir (a ++ SLASH :: b) t1 I1 (good_path_nonempty _ G) (or_intror H)) as (t' & E & I' & D' & K).
        { rewrite E1. apply is_dir_cases. auto. }
        exists t'. rewrite E. cbn [bind]. split; [reflexivity|]. split; [exact I'|]. split; [exact D'|]. auto.
  Qed.

  Lemma inv_makedirs p t : inv t -> p = [] \/ dirp p src ->
    exists t', makedirs p t = Ok t' /\ inv t' /\ is_dir p t' = true /\ (forall d, dirp d t -> dirp d t').
  Proof.
    intros I [->|H].
    - exists t. unfold makedirs. cbn. auto.
    - destruct (inv_makedirs_n (length p) p t (le_n _) I H) as (t' & A & B & C & D).
      exists t'. repeat split; auto; try apply B. apply is_dir_cases. auto.
  Qed.

  (** A sequence of operations that keeps the invariant. *)
  Definition safe (ops : list op) : Prop :=
    forall t, inv t -> exists t', run_ops ops t = Ok t' /\ inv t' /\ (forall d, dirp d t -> dirp d t').

  Lemma safe_nil : safe [].
  Proof. intros t I. exists t. cbn. auto. Qed.

  Lemma safe_app a b : safe a -> safe b -> safe (a ++ b).
  Proof.
    intros Ha Hb t I. destruct (Ha t I) as (t1 & E1 & I1 & K1). destruct (Hb t1 I1) as (t2 & E2 & I2 & K2).
    exists t2. unfold run_ops in *. rewrite foldM_app, E1. cbn [bind]. rewrite E2. auto.
  Qed.

  Lemma safe_cons o l : safe [o] -> safe l -> safe (o :: l).
  Proof. intros. apply (safe_app [o] l); auto. Qed.

  Lemma safe_one o : (forall t, inv t -> exists t', run_op t o = Ok t' /\ inv t' /\ (forall d, dirp d t -> dirp d t')) ->
    safe [o].
  Proof. intros H t I. destruct (H t I) as (t' & E & R). exists t'. unfold run_ops. cbn [foldM]. rewrite E. auto. Qed.

  Lemma safe_flat_map {A} (f : A -> list op) l : (forall x, In x l -> safe (f x)) -> safe (flat_map f l).
  Proof.
    induction l as [|x l IH]; intros H; [apply safe_nil|]. cbn [flat_map]. apply safe_app; [apply H; left; auto|].
    apply IH. intros; apply H; right; auto.
  Qed.

  Lemma safe_write_root p c : own_file ishead p -> dirname p = [] -> safe [OWrite p c].
  Proof.
    intros H D. apply safe_one. intros t I. cbn [run_op].
    apply inv_write; auto; [apply own_nonempty; auto|]. rewrite D. reflexivity.
  Qed.

  Lemma safe_append_root p c : own_file ishead p -> dirname p = [] -> safe [OAppend p c].
  Proof.
    intros H D. apply safe_one. intros t I. cbn [run_op].
    apply inv_write; auto; [apply own_nonempty; auto|]. rewrite D. reflexivity.
  Qed.

  Lemma man_name_root k a : ~ In SLASH k -> ~ In SLASH a -> dirname (man_name k a) = [].
  Proof.
    intros Hk Ha. apply dirname_none. unfold man_name. rewrite !in_app_iff. intros [H|[H|[H|H]]]; auto.
    - cbn in H. intuition discriminate.
    - cbn in H. intuition discriminate.
  Qed.

  Lemma algo_no_slash a : In a (so_algos s) -> ~ In SLASH a.
  Proof. intros I. pose proof (lo_algos _ _ L) as F. rewrite Forall_forall in F. auto. Qed.

  Lemma K_man_slash : ~ In SLASH K_man.
  Proof. cbn. intuition discriminate. Qed.
  Lemma K_tag_slash : ~ In SLASH K_tag.
  Proof. cbn. intuition discriminate. Qed.

  Lemma safe_hash_ops f : safe (hash_ops s f).
  Proof.
    assert (G : forall l, (forall o, In o l -> exists a h, In a (so_algos s) /\
                 o = OAppend (man_name (if is_payload f then K_man else K_tag) a) h) -> safe l).
    { induction l as [|o l IH]; intros H; [apply safe_nil|]. apply safe_cons.
      - destruct (H o (or_introl eq_refl)) as (a & h & I & ->). apply safe_append_root.
        + destruct (is_payload f); [apply man_own|apply tag_own].
        + apply man_name_root; [|apply algo_no_slash; auto]. destruct (is_payload f); [apply K_man_slash|apply K_tag_slash].
      - apply IH. intros; apply H; right; auto. }
    apply G. intros o I. apply in_hash_ops in I. destruct I as (a & h & -> & d & E & I).
    exists a, (hash_line h f). split; [|reflexivity]. eapply (lo_entries _ _ L); eauto.
  Qed.

  Lemma safe_path_ops f : safe (path_ops s f).
  Proof.
    unfold path_ops. destruct (read f (so_tree s)) as [c|] eqn:R.
    - assert (F : is_file f src = true) by (apply is_file_read; eauto).
      assert (Kf : In f (od_keys src)). { apply read_get in R. apply od_get_some_key in R. exact R. }
      assert (Gf : good_path f) by (apply (wf_good _ (lo_wf _ _ L)); auto).
      apply (safe_app [OMakedirs (dirname f); OCopy f c] (hash_ops s f)); [|apply safe_hash_ops].
      intros t I. unfold run_ops. cbn [foldM run_op].
      assert (D : dirname f = [] \/ dirp (dirname f) src).
      { destruct (wf_parent_dir _ (lo_wf _ _ L) f Kf) as [E|E]; auto. right.
        apply (in_dirs _ _ (wf_nodup _ (lo_wf _ _ L))). exact E. }
      destruct (inv_makedirs (dirname f) t I D) as (t1 & E1 & I1 & D1 & K1). rewrite E1. cbn [bind].
      destruct (inv_write f c t1 I1 (good_path_nonempty _ Gf) (or_intror F) D1) as (t2 & E2 & I2 & K2).
      rewrite E2. cbn [bind]. exists t2. auto.
    - destruct (is_dir f (so_tree s)) eqn:D; [|apply safe_nil]. apply safe_one. intros t I. cbn [run_op].
      apply is_dir_cases in D. destruct (inv_makedirs f t I D) as (t1 & E1 & I1 & _ & K1). eauto.
  Qed.

  Lemma inv_nil : inv [].
  Proof. split; intros p H; discriminate. Qed.

  Lemma bag_list_runs o b m members lookup c : exists t,
    run_ops (bag_list s o b m ishead members lookup c) [] = Ok t.
  Proof.
    unfold bag_list, start_ops. cbn [app]. unfold run_ops. cbn [foldM].
    assert (E0 : run_op [] (OMkdir DATA) = Ok [(DATA, NDir)]) by reflexivity. rewrite E0. cbn [bind].
    assert (I0 : inv [(DATA, NDir)]).
    { split.
      - intros p. unfold is_file. cbn [od_get]. destruct (streq p DATA); discriminate.
      - intros p. unfold dirp. cbn [od_get]. destruct (streq_reflect p DATA); [|discriminate]. left. left. auto. }
    match goal with |- exists t, foldM run_op ?l _ = Ok t => assert (S : safe l) end.
    2:{ destruct (S _ I0) as (t & E & _). exists t. exact E. }
    apply safe_app; [|apply (safe_app [OCopy F_bagit c]); [|apply safe_app; [|apply safe_cons]]].
    - assert (G : forall l, (forall o, In o l -> exists a, In a (so_algos s) /\ o = OWrite (man_name K_man a) []) -> safe l).
      { induction l as [|x l IH]; intros H; [apply safe_nil|]. apply safe_cons.
        - destruct (H x (or_introl eq_refl)) as (a & I & ->). apply safe_write_root; [apply man_own|].
          apply man_name_root; [apply K_man_slash|apply algo_no_slash; auto].
        - apply IH. intros; apply H; right; auto. }
      apply G. intros x I. assert (J : In x (start_ops s)) by (right; exact I). apply in_start_ops in J.
      destruct J as [->|(a & -> & J & _)]; [|eauto]. apply in_map_iff in I. destruct I as (f & E & _). discriminate.
    - apply safe_one. intros t I. cbn [run_op].
      destruct (inv_write F_bagit c t I) as (t' & E & R); [discriminate|left; apply own_bagit|reflexivity|].
      rewrite E. eauto.
    - apply safe_flat_map. intros f _. apply safe_path_ops.
    - apply safe_write_root; [apply own_info|reflexivity].
    - assert (Hh : forall h, h = ishead -> safe (if h then multibag_ops s members lookup else [])); [|apply Hh; reflexivity].
      intros h Eh. destruct h; [|apply safe_nil]. symmetry in Eh. unfold multibag_ops.
      intros t I. unfold run_ops. cbn [foldM run_op].
      assert (Ep : prefixes MULTIBAG = [MULTIBAG]) by reflexivity.
      unfold makedirs. rewrite Ep. cbn [foldM].
      assert (Sp : special MULTIBAG \/ dirp MULTIBAG src) by (left; right; auto).
      destruct (inv_mkdir MULTIBAG t I ltac:(discriminate) Sp eq_refl) as (t1 & E1 & I1 & D1 & K1).
      rewrite E1. cbn [bind].
      assert (W : forall p c t, inv t -> dirp MULTIBAG t -> dirname p = MULTIBAG -> own_file ishead p ->
                  exists t', write_file p c t = Ok t' /\ inv t' /\ (forall d, dirp d t -> dirp d t')).
      { intros p c0 t0 It Dt Ed Op. apply inv_write; auto; [apply own_nonempty; auto|]. rewrite Ed.
        apply is_dir_cases. auto. }
      match goal with |- context [write_file ?p ?c t1] =>
        destruct (W p c t1 I1 D1 eq_refl) as (t2 & E2 & I2 & K2); [apply own_members; auto|] end.
      rewrite E2. cbn [bind].
      match goal with |- context [write_file ?p ?c t2] =>
        destruct (W p c t2 I2 (K2 _ D1) eq_refl) as (t3 & E3 & I3 & K3); [apply own_lookup; auto|] end.
      rewrite E3. cbn [bind].
      match goal with |- context [write_file ?p ?c t3] =>
        destruct (W p c t3 I3 (K3 _ (K2 _ D1)) eq_refl) as (t4 & E4 & I4 & K4); [apply own_agg; auto|] end.
      rewrite E4. cbn [bind]. exists t4. split; [reflexivity|]. split; auto.
  Qed.
End Success.

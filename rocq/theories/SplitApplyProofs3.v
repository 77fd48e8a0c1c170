(** * Lemmas on applying a split plan: tag files and manifests *)

Require Import String NArith PeanoNat Bool List Lia Permutation.
From Verif Require Import PyBase PyFacts Tsv TsvProofs Fs FsFacts HeadBag BagIt BagItProofs Split SplitApply SplitApplyProofs SplitApplyProofs2.
Import ListNotations.
Open Scope N_scope.

Lemma read_last p c pre post t : (forall o, In o post -> ~ touches p o) ->
  run_ops (pre ++ OWrite p c :: post) [] = Ok t -> read p t = Some c.
Proof.
  intros H R. rewrite (run_ops_read p _ _ _ R). rewrite fold_left_app. cbn [fold_left eff].
  rewrite streq_refl. apply fold_untouched. exact H.
Qed.

Section Own.
  Variables (s : source) (o : apply_opts) (b : pystr) (m : manifest) (ishead : bool)
            (members : list pystr) (lookup : dict pystr) (c : pystr) (t : tree).
  Hypothesis R : run_ops (bag_list s o b m ishead members lookup c) [] = Ok t.

  Lemma read_baginfo : read (U "bag-info.txt") t = Some (tags_text (info_items s o b m ishead)).
  Proof.
    unfold bag_list in R. rewrite !app_assoc in R. rewrite <- app_assoc in R. cbn [app] in R.
    eapply read_last; [|exact R]. intros x I T. destruct ishead; [|destruct I]. cbn in I.
    destruct I as [<-|[<-|[<-|[<-|[]]]]]; cbn in T; try contradiction; discriminate.
  Qed.

  Lemma read_members : ishead = true -> read (U "multibag/member-bags.tsv") t = Some (members_out members).
  Proof.
    intros Eh. unfold bag_list in R. rewrite Eh in R. rewrite !app_assoc in R.
    change (multibag_ops s members lookup) with
      ([OMakedirs MULTIBAG] ++ OWrite (pjoin MULTIBAG F_members) (members_out members) ::
         skipn 2 (multibag_ops s members lookup)) in R.
    rewrite app_assoc in R. eapply read_last; [|exact R]. intros x I T. cbn in I.
    destruct I as [<-|[<-|[]]]; cbn in T; discriminate.
  Qed.

  Lemma read_lookup : ishead = true -> read (U "multibag/file-lookup.tsv") t = Some (lookup_text lookup).
  Proof.
    intros Eh. unfold bag_list in R. rewrite Eh in R. rewrite !app_assoc in R.
    change (multibag_ops s members lookup) with
      (firstn 2 (multibag_ops s members lookup) ++ OWrite (pjoin MULTIBAG F_lookup) (lookup_text lookup) ::
         skipn 3 (multibag_ops s members lookup)) in R.
    rewrite app_assoc in R. eapply read_last; [|exact R]. intros x I T. cbn in I.
    destruct I as [<-|[]]; cbn in T; discriminate.
  Qed.

  Lemma read_agginfo ci : ishead = true -> read F_baginfo (so_tree s) = Some ci ->
    read (U "multibag/aggregation-info.txt") t = Some (decode (so_reader s) ci).
  Proof.
    intros Eh Ri. unfold bag_list in R. rewrite Eh in R. rewrite !app_assoc in R.
    change (multibag_ops s members lookup) with
      (firstn 3 (multibag_ops s members lookup) ++ OWrite (pjoin MULTIBAG F_agginfo)
         (match read F_baginfo (so_tree s) with Some c => decode (so_reader s) c | None => [] end) :: []) in R.
    rewrite Ri in R. rewrite app_assoc in R. eapply read_last; [|exact R]. intros x [].
  Qed.

  Lemma read_bagit_gen : read F_bagit (so_tree s) = Some c -> read (U "bagit.txt") t = Some c.
  Proof.
    intros Rc. rewrite (run_ops_read _ _ _ _ R).
    destruct (fold_copies (U "bagit.txt") c (bag_list s o b m ishead members lookup c) (read (U "bagit.txt") [])) as [A _].
    - unfold bag_list. intros x I T. rewrite !in_app_iff in I. destruct I as [I|[I|[I|[I|I]]]].
      + apply in_start_ops in I. destruct I as [->|(a & -> & _)]; cbn in T; [contradiction|discriminate].
      + destruct I as [<-|[]]. reflexivity.
      + apply in_flat_map in I. destruct I as (f & _ & I). apply in_path_ops in I.
        destruct I as [(cc & Rf & [->|[->|I]])|(_ & _ & ->)]; cbn in T; try contradiction.
        * subst f. assert (Ecc : Some cc = Some c) by (rewrite <- Rf, <- Rc; reflexivity).
          injection Ecc as ->. reflexivity.
        * apply in_hash_ops in I. destruct I as (a & h & -> & _). cbn in T.
          destruct (is_payload f); discriminate.
      + destruct I as [<-|[]]. discriminate.
      + destruct ishead; [|destruct I]. cbn in I.
        destruct I as [<-|[<-|[<-|[<-|[]]]]]; cbn in T; try contradiction; discriminate.
    - apply A. apply Exists_exists. exists (OCopy F_bagit c). split; [|reflexivity].
      unfold bag_list. rewrite !in_app_iff. right; left; left; reflexivity.
  Qed.

  (** ** Manifests *)

  Definition kind_of (f : pystr) : pystr := if is_payload f then K_man else K_tag.

  (** The checksums recorded with algorithm [a] in the manifests of kind [k]. *)
  Definition sums (k a : pystr) (fs : list pystr) : list (pystr * pystr) :=
    flat_map (fun f => if streq (kind_of f) k then
                         match checksum (so_entries s) a f with Some h => [(h, f)] | None => [] end
                       else []) fs.

  Hypothesis ND : forall f d, od_get f (so_entries s) = Some d -> NoDup (od_keys d).

  Lemma append_dict (k a k' f : pystr) (d : dict pystr) : NoDup (od_keys d) ->
    In k [K_man; K_tag] -> In k' [K_man; K_tag] ->
    appended (man_name k a)
      (map (fun ah => OAppend (man_name k' (fst ah)) (hash_line (snd ah) f)) d) =
    if streq k' k then match od_get a d with Some h => hash_line h f | None => [] end else [].
  Proof.
    intros Nd Ik Ik'. assert (Kd : k <> k' -> forall x y, man_name k x <> man_name k' y).
    { intros D x y E. destruct Ik as [<-|[<-|[]]], Ik' as [<-|[<-|[]]]; try congruence; try discriminate. }
    unfold appended. induction d as [|[a0 h0] d IH].
    - cbn. destruct (streq k' k); reflexivity.
    - cbn [od_keys map fst] in Nd. inversion Nd as [|? ? Na Nd']; subst. specialize (IH Nd').
      cbn [map flat_map fst snd]. rewrite IH. cbn [od_get].
      destruct (streq_reflect k' k) as [->|D].
      + destruct (streq_reflect (man_name k a) (man_name k a0)) as [E|E].
        * apply man_name_inj in E. subst. rewrite streq_refl.
          assert (Z : od_get a0 d = None) by (apply od_get_none; exact Na). rewrite Z, app_nil_r. reflexivity.
        * destruct (streq_reflect a a0) as [->|]; [congruence|reflexivity].
      + destruct (streq_reflect (man_name k a) (man_name k' a0)) as [E|E]; [|reflexivity].
        exfalso. apply (Kd (not_eq_sym D) _ _ E).
  Qed.

  Definition lines (l : list (pystr * pystr)) : pystr := flat_map (fun hp => hash_line (fst hp) (snd hp)) l.

  Lemma append_hash k a f : In k [K_man; K_tag] ->
    appended (man_name k a) (hash_ops s f) = lines (sums k a [f]).
  Proof.
    intros Ik. unfold sums, hash_ops, checksum. cbn [flat_map]. rewrite app_nil_r.
    assert (If : In (kind_of f) [K_man; K_tag]) by (unfold kind_of; destruct (is_payload f); cbn; auto).
    destruct (od_get f (so_entries s)) as [d|] eqn:E.
    - fold (kind_of f). rewrite append_dict by (auto; eapply ND; eauto).
      destruct (streq (kind_of f) k); [|reflexivity]. destruct (od_get a d); [|reflexivity].
      cbn. rewrite app_nil_r. reflexivity.
    - destruct (streq (kind_of f) k); reflexivity.
  Qed.

  Lemma appended_app p x y : appended p (x ++ y) = appended p x ++ appended p y.
  Proof. apply flat_map_app. Qed.

  Lemma lines_app x y : lines (x ++ y) = lines x ++ lines y.
  Proof. apply flat_map_app. Qed.

  Lemma append_paths k a fs : In k [K_man; K_tag] -> ~ In (man_name k a) fs ->
    appended (man_name k a) (flat_map (path_ops s) fs) =
    lines (sums k a (filter (fun f => is_file f (so_tree s)) fs)).
  Proof.
    intros Ik. induction fs as [|f fs IH]; intros Nf; [reflexivity|]. cbn [flat_map filter].
    rewrite appended_app. rewrite IH by (intros J; apply Nf; right; auto).
    unfold path_ops. destruct (read f (so_tree s)) as [cc|] eqn:Rf.
    - assert (F : is_file f (so_tree s) = true) by (apply is_file_read; eauto). rewrite F.
      change (f :: filter (fun f0 => is_file f0 (so_tree s)) fs) with
        ([f] ++ filter (fun f0 => is_file f0 (so_tree s)) fs).
      assert (E : forall x, sums k a ([f] ++ x) = sums k a [f] ++ sums k a x).
      { intros x. unfold sums. rewrite flat_map_app. reflexivity. }
      rewrite E, lines_app. f_equal.
      unfold appended. cbn [flat_map]. apply (append_hash k a f Ik).
    - assert (F : is_file f (so_tree s) = false).
      { destruct (is_file f (so_tree s)) eqn:F; auto. apply is_file_read in F. destruct F; congruence. }
      rewrite F. destruct (is_dir f (so_tree s)); reflexivity.
  Qed.

  (** The text of a manifest: none only if nothing is recorded in it. *)
  Lemma read_manifest k a : In k [K_man; K_tag] -> ~ In (man_name k a) (m_contents m) ->
    read (man_name k a) t = Some (lines (sums k a (plan_files s m))) \/
    (read (man_name k a) t = None /\ lines (sums k a (plan_files s m)) = []).
  Proof.
    intros Ik Nc. rewrite (run_ops_read _ _ _ _ R). unfold bag_list. rewrite !fold_left_app.
    set (p := man_name k a).
    assert (U0 : forall x, fold_left (eff p) (if ishead then multibag_ops s members lookup else []) x = x).
    { intros x. apply fold_untouched. intros y I T. destruct ishead; [|destruct I]. cbn in I.
      destruct I as [<-|[<-|[<-|[<-|[]]]]]; cbn in T; try contradiction; destruct Ik as [<-|[<-|[]]]; discriminate. }
    rewrite U0.
    assert (U1 : forall x, fold_left (eff p) [OWrite F_baginfo (tags_text (info_items s o b m ishead))] x = x).
    { intros x. apply fold_untouched. intros y [<-|[]] T. cbn in T. destruct Ik as [<-|[<-|[]]]; discriminate. }
    rewrite U1.
    assert (U2 : forall x, fold_left (eff p) [OCopy F_bagit c] x = x).
    { intros x. apply fold_untouched. intros y [<-|[]] T. cbn in T. destruct Ik as [<-|[<-|[]]]; discriminate. }
    rewrite U2.
    assert (S0 : fold_left (eff p) (start_ops s) (read p []) = None \/
                 fold_left (eff p) (start_ops s) (read p []) = Some []).
    { cbn [start_ops fold_left eff]. change (read p []) with (@None pystr).
      assert (G : forall l x, x = None \/ x = Some [] ->
        fold_left (eff p) (map (fun f => OWrite f []) l) x = None \/
        fold_left (eff p) (map (fun f => OWrite f []) l) x = Some []).
      { induction l as [|y l IH]; intros x H; [exact H|]. cbn [map fold_left eff]. apply IH.
        destruct (streq p y); auto. }
      apply G. auto. }
    assert (Ap : forall y, In y (flat_map (path_ops s) (m_contents m)) -> touches p y -> exists cc, y = OAppend p cc).
    { intros y I T. apply in_flat_map in I. destruct I as (f & If & I). apply in_path_ops in I.
      destruct I as [(cc & Rf & [->|[->|I]])|(_ & _ & ->)]; cbn in T; try contradiction.
      - subst f. contradiction.
      - apply in_hash_ops in I. destruct I as (a' & h & -> & _). cbn in T. rewrite T. eauto. }
    rewrite (fold_appends p _ _ Ap). 
    assert (EA : appended p (flat_map (path_ops s) (m_contents m)) = lines (sums k a (plan_files s m)))
      by (exact (append_paths k a (m_contents m) Ik Nc)).
    rewrite EA. destruct S0 as [->| ->].
    - destruct (Exists_dec (touches p) (flat_map (path_ops s) (m_contents m)) (touches_dec p)) as [D|D]; [auto|].
      right. split; [reflexivity|].
      rewrite <- EA.
      assert (G : forall l, ~ Exists (touches p) l -> appended p l = []).
      { induction l as [|y l IH]; intros H; [reflexivity|]. unfold appended. cbn [flat_map].
        fold (appended p l). rewrite IH by (intros K; apply H; right; auto).
        destruct y; try reflexivity. destruct (streq_reflect p p0); [|reflexivity].
        exfalso. apply H. left. cbn. auto. }
      apply G; auto.
    - left. reflexivity.
  Qed.
End Own.

(** * Lemmas on restoring: copying of one bag *)

Require Import String NArith PeanoNat Bool List Lia Permutation.
From Verif Require Import PyBase PyFacts Tsv TsvProofs Fs FsFacts HeadBag BagIt BagItProofs Split SplitProofs2 SplitApply SplitApplyProofs SplitApplyProofs2 SplitApplyProofs8 Restore.
Import ListNotations.
Open Scope N_scope.

(** ** Nodes of a tree *)

Lemma exists_get p t : p <> [] -> exists_ p t = true <-> od_get p t <> None.
Proof.
  intros Np. unfold exists_, is_file, is_dir. destruct p; [congruence|].
  destruct (od_get _ t) as [[|]|]; cbn; split; intros; try congruence; discriminate.
Qed.

Lemma exists_get_false p t : p <> [] -> exists_ p t = false <-> od_get p t = None.
Proof.
  intros Np. pose proof (exists_get p t Np) as E. destruct (exists_ p t); destruct (od_get p t); split; intros; try congruence.
  - destruct E as [E _]. specialize (E eq_refl). congruence.
  - destruct E as [_ E]. assert (false = true) by (apply E; discriminate). discriminate.
Qed.

Lemma get_good p n t : wf_tree t -> od_get p t = Some n -> good_path p.
Proof. intros W G. eapply wf_good; eauto. eapply od_get_some_key; eauto. Qed.

Lemma get_parent p n t : wf_tree t -> od_get p t = Some n -> is_dir (dirname p) t = true.
Proof. intros [_ _ C] G. apply C. eapply od_get_some_key; eauto. Qed.

(** ** Deleted paths *)

Definition gone (skip : list pystr) (p : pystr) : bool :=
  existsb (fun s => streq p s || startswith p (s ++ [SLASH])) skip.

Lemma gone_iff skip p : gone skip p = true <->
  exists s, In s skip /\ (p = s \/ startswith p (s ++ [SLASH]) = true).
Proof.
  unfold gone. rewrite existsb_exists. split; intros (s & I & H); exists s; split; auto.
  - apply orb_true_iff in H. destruct H as [H|H]; auto. destruct (streq_reflect p s); [auto|discriminate].
  - apply orb_true_iff. destruct H as [->|H]; auto. left. destruct (streq_reflect s s); congruence.
Qed.

Lemma good_no_lead p : good_path p -> startswith p [SLASH] = false.
Proof.
  intros G. destruct (startswith p [SLASH]) eqn:E; auto. apply startswith_iff in E. destruct E as [t ->].
  apply (good_path_app [] t) in G. destruct G as [G _]. apply good_path_nonempty in G. congruence.
Qed.

Lemma starts_below s p : s <> [] -> startswith p (s ++ [SLASH]) = below s p.
Proof. destruct s; [congruence|reflexivity]. Qed.

Lemma skipped_iff skip d : skipped_root skip d = true <->
  exists s, In s skip /\ (d = s \/ startswith d (s ++ [SLASH]) = true).
Proof.
  unfold skipped_root. rewrite orb_true_iff, str_in_iff, existsb_exists. split.
  - intros [I|(s & I & H)]; eauto.
  - intros (s & I & [->|H]); eauto.
Qed.

Lemma gone_dirname skip p : ~ In [] skip -> good_path p ->
  gone skip p = skipped_root skip (dirname p) || str_in p skip.
Proof.
  intros N0 G. apply eq_true_iff_eq. rewrite orb_true_iff, gone_iff, skipped_iff, str_in_iff. split.
  - intros (s & I & [->|H]); [auto|]. assert (Ns : s <> []) by (intros ->; contradiction). rewrite starts_below in H by auto.
    apply below_dirname in H; auto. left. exists s. split; auto. destruct H as [H|H]; auto. right.
    rewrite starts_below; auto.
  - intros [(s & I & H)|I]; [|eauto]. exists s. split; auto. right. assert (Ns : s <> []) by (intros ->; contradiction).
    rewrite starts_below by auto. apply below_dirname; auto. destruct H as [H|H]; auto. right.
    rewrite starts_below in H; auto.
Qed.

(** ** The steps of copying a bag *)

Lemma bf_dirs_in t d : In d (bf_dirs t) <-> In d (dirs t).
Proof.
  unfold bf_dirs. split; apply Permutation_in; [|apply Permutation_sym]; apply isort_perm.
Qed.

Definition dir_items (skip : list pystr) (src : tree) (d : pystr) : list item :=
  map (IFile d) (filter (fun f => negb (str_in (pjoin d f) skip)) (files_in d src)) ++
  map (IDir d) (filter (fun f => negb (str_in (pjoin d f) skip)) (subdirs_in d src)).

Definition block (skip : list pystr) (src : tree) (d : pystr) : list item :=
  if skipped_root skip d then [] else IRoot d :: dir_items skip src d.

Lemma items_blocks skip src : items_of skip src = flat_map (block skip src) ([] :: bf_dirs src).
Proof.
  unfold items_of, bf_walk. generalize ([] :: bf_dirs src). induction l as [|d l IH]; [reflexivity|].
  cbn [map flat_map]. rewrite IH. reflexivity.
Qed.

(** [dest'] has, beyond [dest], at most the node [n] at [p]. *)
Definition adds (p : pystr) (n : node) (dest dest' : tree) : Prop :=
  forall q, od_get q dest' = match od_get q dest with
                             | Some x => Some x
                             | None => if streq q p then Some n else None
                             end.

Lemma adds_set p n t : od_get p t = None -> adds p n t (od_set p n t).
Proof.
  intros E q. rewrite od_get_set. destruct (streq_reflect q p) as [->|D]; [rewrite E; auto|].
  destruct (od_get q t); auto.
Qed.

Lemma adds_same p n t x : od_get p t = Some x -> adds p n t t.
Proof.
  intros E q. destruct (od_get q t) eqn:E2; auto. destruct (streq_reflect q p) as [->|D]; congruence.
Qed.

Lemma makedirs_get l : forall t t', foldM (fun t q => if exists_ q t then Ok t else mkdir q t) l t = Ok t' ->
  (forall q, In q l -> q <> []) ->
  forall q, od_get q t' = match od_get q t with
                          | Some x => Some x
                          | None => if str_in q l then Some NDir else None
                          end.
Proof.
  induction l as [|x l IH]; intros t t' H Nl q; cbn [foldM] in H.
  - inversion H; subst. destruct (od_get q t'); reflexivity.
  - apply bind_ok in H. destruct H as (t1 & H1 & H2). rewrite (IH _ _ H2) by (intros; apply Nl; right; auto).
    assert (Nx : x <> []) by (apply Nl; left; auto).
    assert (S : str_in q (x :: l) = streq q x || str_in q l) by reflexivity. rewrite S.
    destruct (exists_ x t) eqn:E.
    + inversion H1; subst t1. apply exists_get in E; auto. destruct (od_get q t) eqn:Eq; auto.
      destruct (streq_reflect q x) as [->|D]; [congruence|reflexivity].
    + apply mkdir_ok2 in H1. destruct H1 as (-> & _ & _). apply exists_get_false in E; auto.
      rewrite od_get_set. destruct (streq_reflect q x) as [->|D]; [rewrite E; reflexivity|].
      destruct (od_get q t); reflexivity.
Qed.

Lemma makedirs_adds p t t' : wf_tree t -> good_path p -> is_dir (dirname p) t = true ->
  makedirs p t = Ok t' -> adds p NDir t t' /\ wf_tree t'.
Proof.
  intros W G D H. split.
  - intros q. unfold makedirs in H. rewrite (makedirs_get _ _ _ H).
    + destruct (od_get q t) eqn:E; auto. destruct (streq_reflect q p) as [->|Dq].
      * assert (I : str_in p (prefixes p) = true).
        { apply str_in_iff. apply in_prefixes; auto. split; [apply good_path_nonempty|]; auto. }
        rewrite I. reflexivity.
      * destruct (str_in q (prefixes p)) eqn:I; auto. apply str_in_iff in I. apply in_prefixes in I; auto.
        destruct I as [Nq [->|B]]; [congruence|]. apply below_dirname in B; auto. exfalso.
        assert (In q (od_keys t)).
        { destruct B as [<-|B].
          - apply is_dir_cases in D. destruct D as [D|D]; [congruence|]. eapply od_get_some_key; eauto.
          - apply is_dir_cases in D. destruct D as [D|D].
            + rewrite D in B. destruct q; [congruence|]. cbn in B. discriminate.
            + apply below_iff in B; auto. destruct B as [r B]. apply (dirs_key q t). eapply wf_ancestor; eauto.
              eapply od_get_some_key; eauto. }
        apply od_get_none in E. contradiction.
    + intros x I. apply in_prefixes in I; tauto.
  - eapply (run_op_wf t (OMakedirs p)); [right; auto|auto|exact H].
Qed.

(** One step in a directory that exists in the destination. *)
Definition path_of (i : item) : pystr :=
  match i with IRoot d => d | IFile d f | IDir d f => pjoin d f end.
Definition in_dir (d : pystr) (i : item) : Prop :=
  match i with IRoot _ => False | IFile e _ | IDir e _ => e = d end.
Definition node_of (src : tree) (i : item) : node :=
  match i with
  | IDir _ _ => NDir
  | _ => match od_get (path_of i) src with Some n => n | None => NDir end
  end.
Definition fits (src : tree) (i : item) : Prop :=
  good_path (path_of i) /\ dirname (path_of i) = match i with IRoot d => d | IFile d _ | IDir d _ => d end /\
  match i with IRoot _ => False | _ => od_get (path_of i) src = Some (node_of src i) end /\
  match i with IFile _ _ => is_file (path_of i) src = true | _ => True end.
Definition recorded (i : item) (dest : tree) : list pystr :=
  match i with
  | IFile d f => match od_get (pjoin d f) dest with None => [sjoin d f] | Some _ => [] end
  | _ => []
  end.

Lemma step_ok src i dest u dest' u' : wf_tree src -> wf_tree dest -> fits src i ->
  exists_ (dirname (path_of i)) dest = true ->
  restore_item false src (dest, u) i = Ok (dest', u') ->
  adds (path_of i) (node_of src i) dest dest' /\ wf_tree dest' /\ u' = u ++ recorded i dest.
Proof.
  intros Ws Wd (G & Dn & Hs & Hf) Ed H. destruct i as [d|d f|d f]; [destruct Hs| |]; cbn [path_of] in *.
  - cbn [restore_item andb] in H. cbn [bind] in H. pose proof (good_path_nonempty _ G) as Np.
    destruct (exists_ (pjoin d f) dest) eqn:E.
    + inversion H; subst. apply exists_get in E; auto. cbn [recorded]. destruct (od_get (pjoin d f) dest') eqn:E2; [|congruence].
      rewrite app_nil_r. split; [|auto]. eapply adds_same; eauto.
    + apply exists_get_false in E; auto. cbn [recorded]. rewrite E.
      unfold replicate_ro in H.
      assert (X : exists_ (pjoin d f) src = true) by (apply exists_get; auto; congruence).
      rewrite X in H. cbn [negb] in H.
      assert (Y : is_dir (pjoin d f) src = false).
      { destruct (is_dir (pjoin d f) src) eqn:Y; auto. apply is_dir_cases in Y. destruct Y as [Y|Y]; [congruence|].
        unfold is_file in Hf. unfold dirp in Y. rewrite Y in Hf. discriminate. }
      rewrite Y, Ed in H. cbv zeta in H.
      destruct (write_file (pjoin d f) _ dest) as [t|] eqn:Ew; [|discriminate]. inversion H; subst. clear H.
      apply write_file_ok2 in Ew. destruct Ew as (-> & Z1 & Z2).
      assert (Nn : node_of src (IFile d f) = NFile (match read (pjoin d f) src with Some c => c | None => [] end)).
      { cbn [node_of path_of]. unfold read, is_file in *. destruct (od_get (pjoin d f) src) as [[|]|]; auto; discriminate. }
      rewrite Nn. split; [apply adds_set; auto|]. split; [|reflexivity]. apply wf_set; auto.
  - cbn [restore_item] in H. cbn [recorded node_of]. rewrite app_nil_r. pose proof (good_path_nonempty _ G) as Np.
    destruct (exists_ (pjoin d f) dest) eqn:E.
    + inversion H; subst. apply exists_get in E; auto. destruct (od_get (pjoin d f) dest') eqn:E2; [|congruence].
      split; [eapply adds_same; eauto|]. auto.
    + apply bind_ok in H. destruct H as (t & H1 & H2). inversion H2; subst.
      assert (D : is_dir (dirname (pjoin d f)) dest = true).
      { destruct (is_dir (dirname (pjoin d f)) dest) eqn:D; auto. exfalso.
        unfold exists_ in Ed. rewrite D, orb_false_r in Ed.
        assert (O : od_get (pjoin d f) dest' = od_get (pjoin d f) dest \/ is_dir (dirname (pjoin d f)) dest' = true).
        { right. assert (W' : wf_tree dest') by (eapply (run_op_wf dest (OMakedirs (pjoin d f))); [right; auto|auto|exact H1]).
          assert (Q : od_get (pjoin d f) dest' <> None).
          { unfold makedirs in H1. rewrite (makedirs_get _ _ _ H1) by (intros x I; apply in_prefixes in I; tauto).
            destruct (od_get (pjoin d f) dest); [discriminate|].
            assert (I : str_in (pjoin d f) (prefixes (pjoin d f)) = true).
            { apply str_in_iff. apply in_prefixes; auto. }
            rewrite I. discriminate. }
          destruct (od_get (pjoin d f) dest') eqn:Q2; [|congruence]. eapply get_parent; eauto. }
        assert (F : is_dir (dirname (pjoin d f)) dest' = false).
        { apply is_file_read in Ed. destruct Ed as [c Ed]. unfold is_dir in *.
          destruct (dirname (pjoin d f)) eqn:Q; [discriminate|].
          assert (R : read (dirname (pjoin d f)) dest' = Some c) by (rewrite (makedirs_read _ _ _ _ H1), Q; exact Ed).
          rewrite Q in R. apply read_get in R. rewrite R. reflexivity. }
        destruct O as [O|O]; [|congruence]. apply exists_get_false in E; auto.
        unfold makedirs in H1. rewrite (makedirs_get _ _ _ H1), E in O by (intros x I; apply in_prefixes in I; tauto).
        assert (I : str_in (pjoin d f) (prefixes (pjoin d f)) = true) by (apply str_in_iff; apply in_prefixes; auto).
        rewrite I in O. discriminate. }
      destruct (makedirs_adds _ _ _ Wd G D H1). auto.
Qed.

(** ** All steps *)

Definition more (dest dest' : tree) : Prop := forall q n, od_get q dest = Some n -> od_get q dest' = Some n.

Lemma adds_more p n t t' : adds p n t t' -> more t t'.
Proof. intros A q x E. rewrite A, E. reflexivity. Qed.

Lemma more_exists t t' p : more t t' -> exists_ p t = true -> exists_ p t' = true.
Proof.
  intros M E. destruct p as [|c p].
  - unfold exists_. cbn [is_dir]. apply orb_true_r.
  - apply exists_get in E; [|discriminate]. apply exists_get; [discriminate|].
    destruct (od_get (c :: p) t) eqn:Q; [|congruence]. rewrite (M _ _ Q). discriminate.
Qed.

(** The effect of a list of steps: nodes of [src] at the paths of the list
    that were not there before. *)
Definition filled (ps : pystr -> Prop) (src dest dest' : tree) : Prop :=
  forall q, (od_get q dest <> None -> od_get q dest' = od_get q dest) /\
            (od_get q dest = None -> ps q -> od_get q dest' = od_get q src) /\
            (od_get q dest = None -> ~ ps q -> od_get q dest' = None).

Lemma steps_ok src d l : forall dest u dest' u', wf_tree src -> wf_tree dest ->
  Forall (fun i => fits src i /\ in_dir d i) l ->
  exists_ d dest = true ->
  foldM (restore_item false src) l (dest, u) = Ok (dest', u') ->
  filled (fun q => In q (map path_of l)) src dest dest' /\ wf_tree dest' /\
  (NoDup (map path_of l) -> u' = u ++ flat_map (fun i => recorded i dest) l).
Proof.
  induction l as [|i l IH]; intros dest u dest' u' Ws Wd F Ed H; cbn [foldM] in H.
  - inversion H; subst. split; [|split; auto].
    + intros q. repeat split; auto. intros _ [].
    + intros _. rewrite app_nil_r. auto.
  - apply bind_ok in H. destruct H as ([t1 u1] & H1 & H2). inversion F as [|? ? [Fi Di] Fl]; subst.
    assert (Dn : dirname (path_of i) = d).
    { destruct Fi as (_ & Dn & _). destruct i; cbn [in_dir] in Di; [destruct Di| |]; congruence. }
    destruct (step_ok _ _ _ _ _ _ Ws Wd Fi (eq_ind_r (fun x => exists_ x dest = true) Ed Dn) H1) as (A & W1 & U1).
    assert (E1 : exists_ d t1 = true) by (eapply more_exists; [eapply adds_more; eauto|auto]).
    destruct (IH _ _ _ _ Ws W1 Fl E1 H2) as (FL & W' & U').
    assert (Si : od_get (path_of i) src = Some (node_of src i)).
    { destruct Fi as (_ & _ & S & _). destruct i; [destruct S| |]; auto. }
    split; [|split; auto].
    + intros q. destruct (FL q) as (F1 & F2 & F3). rewrite (A q) in F1, F2, F3. cbn [map In].
      destruct (od_get q dest) as [x|] eqn:Eq.
      * split; [intros _; apply F1; discriminate|]. split; intros; discriminate.
      * split; [congruence|]. destruct (streq_reflect q (path_of i)) as [->|Dq].
        -- split; [|intros _ X; exfalso; apply X; left; reflexivity]. intros _ _. rewrite Si. apply F1. discriminate.
        -- split; intros _ X; [apply F2|apply F3]; auto. destruct X as [X|X]; [congruence|auto].
    + intros ND. cbn [map] in ND. inversion ND as [|? ? NI ND']; subst. rewrite (U' ND'). cbn [flat_map].
      rewrite <- app_assoc. f_equal. f_equal. clear - A NI.
      induction l as [|j l IH]; [reflexivity|]. cbn [flat_map map In] in *.
      rewrite IH by tauto. f_equal. destruct j as [e|e f|e f]; cbn [recorded path_of] in *; auto.
      rewrite (A (pjoin e f)). destruct (od_get (pjoin e f) dest); auto.
      destruct (streq_reflect (pjoin e f) (path_of i)); auto. exfalso. apply NI. left. auto.
Qed.

Lemma dir_items_fits skip src d : wf_tree src -> Forall (fun i => fits src i /\ in_dir d i) (dir_items skip src d).
Proof.
  intros W. apply Forall_app. split; apply Forall_forall; intros i I; apply in_map_iff in I; destruct I as (f & <- & I);
    apply filter_In in I; destruct I as [I _].
  - apply in_files_in in I. destruct I as (p & I & <- & <-). split; [|reflexivity].
    pose proof (wf_good _ W _ (files_key _ _ I)) as G. unfold fits. cbn [path_of node_of].
    rewrite (pjoin_dirname_basename p G). apply in_files in I; [|apply wf_nodup; auto]. repeat split; auto.
    unfold is_file in I. destruct (od_get p src); [auto|discriminate].
  - apply in_subdirs_in in I. destruct I as (p & I & <- & <-). split; [|reflexivity].
    pose proof (wf_good _ W _ (dirs_key _ _ I)) as G. unfold fits. cbn [path_of node_of].
    rewrite (pjoin_dirname_basename p G). apply in_dirs in I; [|apply wf_nodup; auto]. auto.
Qed.

Lemma dir_items_paths skip src d : wf_tree src -> forall p, In p (map path_of (dir_items skip src d)) <->
  od_get p src <> None /\ dirname p = d /\ str_in p skip = false.
Proof.
  intros W p. unfold dir_items. rewrite map_app, in_app_iff, !map_map. cbn [path_of]. rewrite !in_map_iff. split.
  - intros [(f & <- & I)|(f & <- & I)]; apply filter_In in I; destruct I as [I S]; apply negb_true_iff in S.
    + apply in_files_in in I. destruct I as (p & I & <- & <-). pose proof (wf_good _ W _ (files_key _ _ I)) as G.
      rewrite (pjoin_dirname_basename p G) in *. repeat split; auto. apply files_key in I. intros E. apply od_get_none in E. auto.
    + apply in_subdirs_in in I. destruct I as (p & I & <- & <-). pose proof (wf_good _ W _ (dirs_key _ _ I)) as G.
      rewrite (pjoin_dirname_basename p G) in *. repeat split; auto. apply dirs_key in I. intros E. apply od_get_none in E. auto.
  - intros (E & Dn & S). destruct (od_get p src) as [n|] eqn:Eg; [|congruence].
    pose proof (get_good _ _ _ W Eg) as G. destruct n as [|c].
    + right. exists (basename p). rewrite <- Dn, (pjoin_dirname_basename p G). split; auto. apply filter_In.
      rewrite (pjoin_dirname_basename p G), S. split; auto. apply in_subdirs_in. exists p. split; auto.
      apply in_dirs; auto. apply wf_nodup; auto.
    + left. exists (basename p). rewrite <- Dn, (pjoin_dirname_basename p G). split; auto. apply filter_In.
      rewrite (pjoin_dirname_basename p G), S. split; auto. apply in_files_in. exists p. split; auto.
      apply in_files; [apply wf_nodup; auto|]. unfold is_file. rewrite Eg. reflexivity.
Qed.

Lemma filled_more ps src t t' : filled ps src t t' -> more t t'.
Proof. intros F q n E. destruct (F q) as (F1 & _). rewrite F1; congruence. Qed.

Lemma filled_trans ps1 ps2 src a b c : (forall q, ps1 q \/ ~ ps1 q) ->
  (forall q, ps1 q \/ ps2 q -> od_get q src <> None) ->
  filled ps1 src a b -> filled ps2 src b c -> filled (fun q => ps1 q \/ ps2 q) src a c.
Proof.
  intros Dec Hs F1 F2 q. destruct (F1 q) as (A1 & A2 & A3). destruct (F2 q) as (B1 & B2 & B3). split; [|split].
  - intros E. rewrite B1; rewrite A1; auto.
  - intros E X. destruct (Dec q) as [P|P].
    + rewrite B1; rewrite A2; auto.
    + apply B2; tauto.
  - intros E X. apply B3; [apply A3|]; tauto.
Qed.

Lemma filled_iff ps ps' src a b : (forall q, ps q <-> ps' q) -> filled ps src a b -> filled ps' src a b.
Proof. intros E F q. destruct (F q) as (A & B & C). rewrite <- E. auto. Qed.

(** Lists of directories: what copying of some directories adds. *)
Definition chosen (skip : list pystr) (src : tree) (ds : list pystr) (p : pystr) : Prop :=
  od_get p src <> None /\ In (dirname p) ds /\ skipped_root skip (dirname p) = false /\ str_in p skip = false.

Lemma chosen_dec skip src ds p : chosen skip src ds p \/ ~ chosen skip src ds p.
Proof.
  unfold chosen. destruct (od_get p src); [|right; intros (X & _); congruence].
  destruct (str_in (dirname p) ds) eqn:I.
  - apply str_in_iff in I. destruct (skipped_root skip (dirname p)); [right; intros (_ & _ & X & _); discriminate|].
    destruct (str_in p skip); [right; intros (_ & _ & _ & X); discriminate|]. left. repeat split; auto. discriminate.
  - apply str_in_false in I. right. tauto.
Qed.

Lemma blocks_ok skip src ds : forall dest u dest' u', wf_tree src -> wf_tree dest ->
  foldM (restore_item false src) (flat_map (block skip src) ds) (dest, u) = Ok (dest', u') ->
  filled (chosen skip src ds) src dest dest' /\ wf_tree dest'.
Proof.
  induction ds as [|d ds IH]; intros dest u dest' u' Ws Wd H; cbn [flat_map] in H.
  - cbn [foldM] in H. inversion H; subst. split; auto. intros q. repeat split; auto. intros _ (_ & [] & _).
  - rewrite foldM_app in H. apply bind_ok in H. destruct H as ([t1 u1] & H1 & H2).
    assert (B : filled (chosen skip src [d]) src dest t1 /\ wf_tree t1).
    { unfold block in H1. destruct (skipped_root skip d) eqn:S.
      - cbn [foldM] in H1. inversion H1; subst. split; auto. intros q. repeat split; auto.
        intros _ (_ & [<-|[]] & X & _). congruence.
      - cbn [foldM] in H1. apply bind_ok in H1. destruct H1 as ([t0 u0] & H0 & H1). cbn [restore_item] in H0.
        destruct (exists_ d dest) eqn:Ed; [|discriminate]. inversion H0; subst t0 u0.
        destruct (steps_ok _ d _ _ _ _ _ Ws Wd (dir_items_fits skip src d Ws) Ed H1) as (F & W1 & _). split; auto.
        eapply filled_iff; [|exact F]. intros q. cbv beta. rewrite (dir_items_paths skip src d Ws). unfold chosen. cbn [In].
        split; [intros (X & <- & Y); auto|intros (X & [<-|[]] & Y & Z); auto]. }
    destruct B as [F1 W1]. destruct (IH _ _ _ _ Ws W1 H2) as [F2 W2]. split; auto.
    eapply filled_iff; [|eapply filled_trans; [| |exact F1|exact F2]].
    + intros q. unfold chosen. cbn [In]. tauto.
    + intros q. apply chosen_dec.
    + intros q [X|X]; apply X.
Qed.

(** What a complete copy of a bag adds to the destination. *)
Lemma copy_nodes skip src dest dest' u : ~ In [] skip -> wf_tree src -> wf_tree dest ->
  copy_items false skip src dest = Ok (dest', u) ->
  wf_tree dest' /\
  forall q, od_get q dest' = match od_get q dest with
                             | Some n => Some n
                             | None => if gone skip q then None else od_get q src
                             end.
Proof.
  intros N0 Ws Wd H. unfold copy_items in H. rewrite items_blocks in H.
  destruct (blocks_ok _ _ _ _ _ _ _ Ws Wd H) as [F W]. split; auto. intros q. destruct (F q) as (F1 & F2 & F3).
  destruct (od_get q dest) as [n|] eqn:Ed; [apply F1; discriminate|].
  destruct (od_get q src) as [n|] eqn:Es.
  - pose proof (get_good _ _ _ Ws Es) as G. rewrite gone_dirname by auto.
    destruct (skipped_root skip (dirname q)) eqn:S1; cbn [orb].
    + apply F3; auto. intros (_ & _ & X & _). congruence.
    + destruct (str_in q skip) eqn:S2.
      * apply F3; auto. intros (_ & _ & _ & X). congruence.
      * apply F2; auto. repeat split; auto; [congruence|].
        pose proof (wf_parent_dir _ Ws _ (od_get_some_key _ _ _ Es)) as [X|X].
        -- rewrite X. left; reflexivity.
        -- right. apply bf_dirs_in. exact X.
  - rewrite F3; auto; [destruct (gone skip q); reflexivity|]. intros (X & _). congruence.
Qed.

(** ** Copies that stop early *)

(** [d] has, beyond [dest], only nodes of [src] that are not deleted. *)
Definition partly (skip : list pystr) (src dest d : tree) : Prop :=
  forall q, od_get q d = od_get q dest \/
            (od_get q dest = None /\ gone skip q = false /\ od_get q d = od_get q src).

Lemma partly_refl skip src d : partly skip src d d.
Proof. intros q. auto. Qed.

Lemma partly_trans skip src a b c : partly skip src a b -> partly skip src b c -> partly skip src a c.
Proof.
  intros P Q q. destruct (P q) as [E|(E1 & E2 & E3)]; destruct (Q q) as [F|(F1 & F2 & F3)].
  - left. congruence.
  - right. repeat split; congruence.
  - right. repeat split; congruence.
  - right. repeat split; congruence.
Qed.

Lemma filled_partly skip src dest d ps : (forall q, ps q \/ ~ ps q) -> (forall q, ps q -> gone skip q = false) ->
  filled ps src dest d -> partly skip src dest d.
Proof.
  intros Dec G F q. destruct (F q) as (F1 & F2 & F3). destruct (od_get q dest) as [n|] eqn:E.
  - left. apply F1. discriminate.
  - destruct (Dec q) as [P|P]; [right|left]; auto.
Qed.

Lemma firstn_flat_map {A B} (f : A -> list B) l : forall k, exists l1 j x,
  firstn k (flat_map f l) = flat_map f l1 ++ firstn j x /\ (exists l2, l = l1 ++ l2) /\
  (x = [] \/ exists a, In a l /\ x = f a).
Proof.
  induction l as [|a l IH]; intros k.
  - exists [], O, []. cbn. rewrite firstn_nil. repeat split; eauto.
  - cbn [flat_map]. destruct (Nat.le_gt_cases k (length (f a))) as [L|L].
    + exists [], k, (f a). cbn [flat_map app]. split; [|split; [eexists; reflexivity|right; exists a; split; [left|]; auto]].
      rewrite firstn_app. replace (k - length (f a))%nat with O by lia. rewrite firstn_O, app_nil_r. reflexivity.
    + destruct (IH (k - length (f a))%nat) as (l1 & j & x & E & (l2 & ->) & X). exists (a :: l1), j, x.
      split; [|split; [exists l2; reflexivity|]].
      * rewrite firstn_app, firstn_all2 by lia. rewrite E. cbn [flat_map]. rewrite app_assoc. reflexivity.
      * destruct X as [X|(b & I & X)]; [auto|right; exists b; split; [right|]; auto].
Qed.

Lemma chosen_kept skip src ds q : ~ In [] skip -> wf_tree src -> chosen skip src ds q -> gone skip q = false.
Proof.
  intros N0 W (E & _ & S1 & S2). destruct (od_get q src) as [n|] eqn:G; [|congruence].
  rewrite gone_dirname; auto; [rewrite S1, S2; reflexivity|]. eapply get_good; eauto.
Qed.

Lemma stopped_copy skip src dest k d u : ~ In [] skip -> wf_tree src -> wf_tree dest ->
  foldM (restore_item false src) (firstn k (items_of skip src)) (dest, []) = Ok (d, u) ->
  wf_tree d /\ partly skip src dest d.
Proof.
  intros N0 Ws Wd H. rewrite items_blocks in H.
  destruct (firstn_flat_map (block skip src) ([] :: bf_dirs src) k) as (ds & j & x & E & _ & X). rewrite E, foldM_app in H.
  apply bind_ok in H. destruct H as ([t u1] & H1 & H2).
  destruct (blocks_ok _ _ _ _ _ _ _ Ws Wd H1) as [F1 Wt].
  assert (P1 : partly skip src dest t).
  { apply (filled_partly skip src dest t (chosen skip src ds)); auto.
    - intros q. apply chosen_dec.
    - intros q. apply chosen_kept; auto. }
  destruct X as [-> |(e & Ie & ->)].
  - rewrite firstn_nil in H2. inversion H2; subst. auto.
  - unfold block in H2. destruct (skipped_root skip e) eqn:S.
    + rewrite firstn_nil in H2. inversion H2; subst. auto.
    + destruct j as [|j]; [inversion H2; subst; auto|]. cbn [firstn foldM] in H2. apply bind_ok in H2.
      destruct H2 as ([t0 u0] & H0 & H2). cbn [restore_item] in H0. destruct (exists_ e t) eqn:Ee; [|discriminate].
      inversion H0; subst t0 u0.
      assert (Ff : Forall (fun i => fits src i /\ in_dir e i) (firstn j (dir_items skip src e))).
      { apply Forall_forall. intros i I. pose proof (dir_items_fits skip src e Ws) as F. rewrite Forall_forall in F. apply F.
        rewrite <- (firstn_skipn j). apply in_or_app. auto. }
      destruct (steps_ok _ e _ _ _ _ _ Ws Wt Ff Ee H2) as (F & W & _). split; auto.
      eapply partly_trans; [exact P1|]. eapply filled_partly; [| |exact F].
      * intros q. destruct (in_dec (list_eq_dec N.eq_dec) q (map path_of (firstn j (dir_items skip src e)))); auto.
      * intros q I. assert (I' : In q (map path_of (dir_items skip src e))).
        { apply in_map_iff in I. destruct I as (i & <- & I). apply in_map. rewrite <- (firstn_skipn j). apply in_or_app. auto. }
        apply dir_items_paths in I'; auto. destruct I' as (Eq & Dq & Sq). apply (chosen_kept skip src [e]); auto.
        unfold chosen. rewrite Dq. repeat split; auto. left; auto.
Qed.

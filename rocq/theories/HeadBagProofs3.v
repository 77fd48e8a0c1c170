(** update_for_member and a few further facts on head bags *)
Require Import String NArith PeanoNat Bool List Lia.
From Verif Require Import PyBase PyFacts Version Tsv TsvProofs Fs FsFacts HeadBag HeadBagProofs HeadBagProofs2.
Import ListNotations.
Open Scope N_scope.

(** ** Tables read from disk *)

Lemma mapM_in {A B} (f : A -> res B) l r y :
  mapM f l = Ok r -> In y r -> exists x, In x l /\ f x = Ok y.
Proof.
  revert r; induction l as [|x l IH]; simpl; intros r H I.
  - injection H as <-. destruct I.
  - apply bind_ok in H as (y0 & E & H). apply bind_ok in H as (r' & E' & H).
    injection H as <-. destruct I as [<-|I]; [eauto|].
    destruct (IH r' E' I) as (x' & Ix & Ex). eauto.
Qed.

Lemma od_set_Forall {V} (P : pystr * V -> Prop) k v (d : dict V) :
  (forall k', streq k k' = true -> P (k', v)) -> Forall P d -> Forall P (od_set k v d).
Proof.
  intros Pk F. induction F as [|[k' v'] d H F IH]; simpl.
  - constructor; auto. apply Pk, streq_refl.
  - destruct (streq k k') eqn:E; constructor; auto.
Qed.

Lemma od_of_pairs_Forall {V} (P : pystr * V -> Prop) (l : list (pystr * V)) :
  Forall P l -> Forall P (od_of_pairs l).
Proof.
  unfold od_of_pairs. assert (G : forall l d, Forall P l -> Forall P d ->
    Forall P (fold_left (fun d kv => od_set (fst kv) (snd kv) d) l d)).
  { clear l. induction l as [|[k v] l IH]; simpl; intros d F D; auto. inversion F; subst.
    apply IH; auto. apply od_set_Forall; auto. intros k' E. apply streq_eq in E as <-. auto. }
  intros F. apply G; auto.
Qed.

Lemma split_tab_first s p l : trimmed s -> split_on TAB s = p :: l -> p <> [].
Proof.
  intros [(c & t & -> & Hc) _] E ->. simpl in E.
  destruct (N.eqb_spec c TAB) as [->|NE]; [discriminate|].
  destruct (split_on TAB t); discriminate.
Qed.

Lemma disk_lookup_keys h d :
  disk_lookup h = Ok d -> NoDup (od_keys d) /\ nonempty_keys d.
Proof.
  unfold disk_lookup. destruct (iter_file_lookup h) as [l|e] eqn:E.
  - intros H. injection H as <-. split; [apply od_of_pairs_NoDup|].
    apply od_of_pairs_Forall. apply Forall_forall. intros [p b] I.
    unfold iter_file_lookup in E. apply bind_ok in E as (td & _ & E).
    destruct (read _ _) as [text|]; [|discriminate].
    unfold parse_file in E. destruct (mapM_in _ _ _ _ E I) as (line & Il & El).
    apply filter_In in Il as [_ NB]. unfold nonblank in NB. simpl.
    assert (T : trimmed (strip line)).
    { destruct (strip_is_trimmed line) as [X|X]; auto. rewrite X in NB. discriminate. }
    destruct (older_than_03 _).
    + unfold parse_group_directory, re_split_spaces in El.
      destruct (strip line) as [|c s]; [discriminate|].
      set (F := filter _ _) in El.
      assert (IF : forall w, In w F -> w <> []).
      { intros w Iw. apply filter_In in Iw as [_ Iw]. destruct w; discriminate. }
      destruct F as [|p' [|b' F']]; try discriminate. injection El as -> ->. apply IF. simpl; auto.
    + unfold parse_lookup_03 in El. destruct (split_on TAB (strip line)) as [|p' [|b' F']] eqn:S; try discriminate.
      injection El as -> ->. eapply split_tab_first; eauto.
  - destruct e; try discriminate. intros H. injection H as <-. split; constructor.
Qed.

(** The observable lookup is the current table. *)
Lemma lookup_cur_table h d p :
  cur_table h = Ok d -> snd (lookup_file p false h) = Ok (od_get p d).
Proof.
  unfold cur_table, lookup_file, lookup_file_ro. destruct (hb_lu h) as [d'|].
  - intros H. injection H as ->. reflexivity.
  - intros H. destruct (cache_cases h d H) as [-> |[-> ->]]; reflexivity.
Qed.

(** ** Adding many files *)

Lemma fold_set_get (fs : list pystr) (nm : pystr) d p :
  od_get p (fold_left (fun d f => od_set f nm d) fs d) = if str_in p fs then Some nm else od_get p d.
Proof.
  revert d; induction fs as [|f fs IH]; intros d; [reflexivity|].
  cbn [fold_left]. rewrite IH, od_get_set. change (str_in p (f :: fs)) with (streq p f || str_in p fs).
  destruct (str_in p fs); rewrite ?orb_true_r, ?orb_false_r; auto.
Qed.

Lemma forM_add (fs : list pystr) nm h d :
  Forall (fun f : pystr => f <> []) fs -> nm <> [] -> cur_table h = Ok d ->
  exists h', forM fs (fun f : pystr => add_file_lookup f nm) h = (h', Ok tt) /\
    cur_table h' = Ok (fold_left (fun d f => od_set f nm d) fs d) /\
    same_disk h h' /\ hb_mem h' = hb_mem h /\ hb_del h' = hb_del h.
Proof.
  intros F NM. revert h d; induction F as [|f fs NF F IH]; intros h d C.
  - exists h. repeat split; auto.
  - destruct (add_lookup_effect f nm h d NF NM C) as (h1 & R1 & L1 & S1 & M1 & D1).
    destruct (IH h1 (od_set f nm d)) as (h2 & R2 & C2 & S2 & M2 & D2).
    { unfold cur_table. rewrite L1. reflexivity. }
    exists h2. split; [|split; [|split; [|split]]]; try congruence.
    + cbn [forM]. unfold bindM. rewrite R1. exact R2.
    + exact C2.
    + eapply same_disk_trans; eauto.
Qed.

(** ** Paths *)

Lemma norm_good p : good_path p -> norm_slash p = p.
Proof.
  unfold good_path, norm_slash. intros H.
  assert (E : filter (fun w => match w with [] => false | _ => true end) (split_on SLASH p) = split_on SLASH p).
  { induction H as [|w l [NE _] F IH]; [reflexivity|]. simpl. destruct w; [congruence|]. simpl in *. rewrite IH. reflexivity. }
  rewrite E. apply join_split.
Qed.

Lemma good_no_lead p : good_path p -> startswith p [SLASH] = false.
Proof.
  intros G. destruct p as [|c p]; [reflexivity|]. cbn [startswith].
  destruct (N.eqb_spec SLASH c) as [<-|]; [|reflexivity].
  unfold good_path in G. simpl in G. inversion G as [|? ? [X _] _]. congruence.
Qed.

Lemma good_no_trail p : good_path p -> forall q, p <> q ++ [SLASH].
Proof.
  intros G q ->. apply good_path_app in G as [_ G]. apply good_path_nonempty in G. congruence.
Qed.

Lemma last_case {A} (l : list A) : l = [] \/ exists i x, l = i ++ [x].
Proof. destruct (rev l) as [|x r] eqn:E; [left|right].
  - rewrite <- (rev_involutive l), E. reflexivity.
  - exists (rev r), x. rewrite <- (rev_involutive l), E. reflexivity.
Qed.

Lemma strip_slash_good p : good_path p -> strip_slash p = p.
Proof.
  intros G. unfold strip_slash. pose proof (good_no_lead p G) as L.
  assert (E : lstrip_if (N.eqb SLASH) p = p).
  { destruct p as [|c p]; [reflexivity|]. cbn [startswith] in L. rewrite startswith_nil, andb_true_r in L. apply lstrip_if_head.
    exact L. }
  rewrite E. destruct (last_case p) as [->|(q & c & ->)]; [reflexivity|].
  apply rstrip_if_last. destruct (N.eqb_spec SLASH c) as [<-|]; auto.
  exfalso. eapply good_no_trail; eauto.
Qed.

Lemma strip_slash_trail p : good_path p -> strip_slash (p ++ [SLASH]) = p.
Proof.
  intros G. rewrite <- (strip_slash_good p G) at 2. unfold strip_slash.
  pose proof (good_no_lead p G) as L.
  destruct p as [|c p]; [apply good_path_nonempty in G; congruence|].
  cbn [startswith] in L. rewrite startswith_nil, andb_true_r in L. simpl app. rewrite !lstrip_if_head by exact L.
  change (c :: p ++ [SLASH]) with ((c :: p) ++ [SLASH]).
  apply rstrip_if_app. repeat constructor.
Qed.

Lemma ro_walk_name_good start d :
  good_path start -> (d = start \/ (below start d = true /\ good_path d)) -> ro_walk_name start d = d.
Proof.
  intros G H. unfold ro_walk_name. rewrite (norm_good start G).
  destruct H as [-> |[B Gd]].
  - rewrite skipn_all. simpl. apply strip_slash_trail; auto.
  - apply below_iff in B as (r & ->); [|apply good_path_nonempty; auto].
    rewrite skipn_app, skipn_all, Nat.sub_diag. simpl skipn. cbn [app lstrip_if].
    rewrite N.eqb_refl. apply good_path_app in Gd as Gd'. destruct Gd' as [_ Gr].
    pose proof (good_no_lead r Gr) as L.
    assert (E : lstrip_if (N.eqb SLASH) r = r).
    { destruct r as [|c r]; [reflexivity|]. cbn [startswith] in L. rewrite startswith_nil, andb_true_r in L. apply lstrip_if_head.
      exact L. }
    rewrite E. apply strip_slash_good; auto.
Qed.

(** ** Specification of the selection (C11) *)

(** [p] is a file of the bag that is listed in [incl] (and not in [excl]), or
    lies below a directory listed in [incl], and neither it nor a directory
    between is listed in [excl]. *)
Definition selected (t : tree) (incl excl : list pystr) (p : pystr) : Prop :=
  is_file p t = true /\
  exists i, In i incl /\ ~ In i excl /\
    (p = i \/
     (is_dir i t = true /\ below i p = true /\ ~ In p excl /\
      forall a, (a = i \/ below i a = true) -> below a p = true -> ~ In a excl)).

Definition step_files (s : src) (excluded : pystr -> bool) (i : pystr) : res (list pystr) :=
  if excluded i then Ok []
  else if src_isfile s i then Ok [i]
  else if src_isdir s i then walk_selected s i excluded
  else Ok [].

Lemma nonempty_match (d : pystr) : d <> [] -> match d with [] => false | _ => true end = true.
Proof. destruct d; congruence. Qed.

Lemma below_trans_dir t a p : wf_tree t -> a <> [] -> In p (od_keys t) -> below a p = true -> In a (dirs t).
Proof.
  intros W NE I B. apply below_iff in B as (r & E); auto. eapply wf_ancestor; eauto.
Qed.

Lemma Ok_inj {A} (a b : A) : Ok a = Ok b -> a = b.
Proof. congruence. Qed.

Lemma walk_selected_rw s excl i fs :
  s_ro s = false -> wf_tree (s_tree s) -> good_path i ->
  walk_selected s i (fun p => str_in p excl) = Ok fs ->
  forall p, In p fs <->
    In p (files (s_tree s)) /\ below i p = true /\ ~ In p excl /\
    forall a, (a = i \/ below i a = true) -> below a p = true -> ~ In a excl.
Proof.
  intros RO W G H. unfold walk_selected in H. rewrite RO in H. rewrite (norm_good i G) in H.
  apply Ok_inj in H. subst fs. intros p. set (t := s_tree s) in *.
  assert (NEi : i <> []) by (apply good_path_nonempty; auto).
  assert (NEa : forall a, a = i \/ below i a = true -> a <> []).
  { intros a [-> |B] ->; auto. apply below_iff in B as (r & E); auto. destruct i; discriminate. }
  rewrite in_flat_map. split.
  - intros ([[d sd] fl] & I & J). apply filter_In in I as [I R]. cbn [fst] in R.
    unfold walk in I. apply in_map_iff in I as (d0 & E & I). injection E as -> <- <-.
    destruct (match d with [] => false | _ :: _ => true end && str_in d excl) eqn:EM; [destruct J|].
    apply filter_In in J as [J X]. apply in_map_iff in J as (b & <- & J).
    assert (Id : d = i \/ below i d = true).
    { simpl in I. destruct I as [-> |I]; auto. apply filter_In in I as [_ I]; auto. }
    assert (NEd := NEa d Id). rewrite (nonempty_match d NEd) in EM. simpl in EM.
    apply in_files_in in J as (q & Iq & Dq & Bq); auto.
    assert (Eq : sjoin d b = q).
    { rewrite sjoin_pjoin by auto. rewrite <- Dq, <- Bq. apply pjoin_dirname_basename.
      apply (wf_good t W). apply files_key; auto. }
    rewrite Eq in *. apply negb_true_iff, str_in_false in X.
    assert (Gq : good_path q) by (apply (wf_good t W), files_key; auto).
    repeat split; auto.
    + apply below_dirname; auto. rewrite Dq. destruct Id; auto.
    + intros a Ia Ba. apply below_dirname in Ba; auto. rewrite Dq in Ba.
      destruct Ba as [<-|Ba]; [apply str_in_false; auto|].
      apply negb_true_iff in R. rewrite <- not_true_iff_false in R. intros Xa. apply R.
      apply existsb_exists. exists a. split.
      * destruct Ia as [-> |Ia]; [left; auto|right]. apply filter_In. split; auto.
        eapply below_trans_dir with (p := q); eauto; [apply files_key; auto|].
        apply below_dirname; auto. rewrite Dq. auto.
      * rewrite Ba, (nonempty_match a) by auto. simpl. apply str_in_iff; auto.
  - intros (If & B & X & A).
    assert (Gp : good_path p) by (apply (wf_good t W), files_key; auto).
    set (d := dirname p).
    assert (Id : d = i \/ below i d = true) by (apply below_dirname in B; auto).
    assert (NEd := NEa d Id).
    assert (Wd : In d (i :: filter (below i) (dirs t))).
    { destruct Id as [Ed|Bd]; [left; auto|right]. apply filter_In. split; auto.
      destruct (wf_parent_dir t W p (files_key _ _ If)) as [E|E]; [unfold d in NEd; congruence|exact E]. }
    exists (d, subdirs_in d t, files_in d t). split.
    + apply filter_In. split.
      * apply in_map_iff. exists d. auto.
      * cbn [fst]. apply negb_true_iff. apply not_true_iff_false. intros E.
        apply existsb_exists in E as (a & Ia & Ea). apply andb_true_iff in Ea as [Ba Ea].
        apply andb_true_iff in Ea as [_ Ea]. apply str_in_iff in Ea. revert Ea. apply A.
        -- destruct Ia as [<-|Ia]; auto. apply filter_In in Ia as [_ Ia]; auto.
        -- apply below_dirname; auto. apply NEa.
           destruct Ia as [<-|Ia]; auto. apply filter_In in Ia as [_ Ia]; auto.
    + assert (Nd : str_in d excl = false).
      { apply str_in_false. apply A; auto. apply below_dirname; auto. }
      rewrite Nd, andb_false_r. apply filter_In. split.
      * apply in_map_iff. exists (basename p). split.
        -- rewrite sjoin_pjoin by auto. apply pjoin_dirname_basename; auto.
        -- apply in_files_in. exists p. auto.
      * apply negb_true_iff, str_in_false; auto.
Qed.

(** A read-only bag only looks at the directory that holds the file. *)
Lemma walk_selected_ro s excl i fs :
  s_ro s = true -> wf_tree (s_tree s) -> good_path i ->
  walk_selected s i (fun p => str_in p excl) = Ok fs ->
  forall p, In p fs <->
    In p (files (s_tree s)) /\ below i p = true /\ ~ In p excl /\ ~ In (dirname p) excl.
Proof.
  intros RO W G H. unfold walk_selected in H. rewrite RO, (good_no_lead i G) in H.
  rewrite (norm_good i G) in H.
  apply Ok_inj in H. subst fs. intros p. set (t := s_tree s) in *.
  assert (NEi : i <> []) by (apply good_path_nonempty; auto).
  assert (NEa : forall a, a = i \/ below i a = true -> a <> []).
  { intros a [-> |B] ->; auto. apply below_iff in B as (r & E); auto. destruct i; discriminate. }
  rewrite in_flat_map. split.
  - intros ([[d sd] fl] & I & J).
    unfold walk in I. apply in_map_iff in I as (d0 & E & I). injection E as -> <- <-.
    assert (Id : d = i \/ below i d = true).
    { simpl in I. destruct I as [-> |I]; auto. apply filter_In in I as [_ I]; auto. }
    assert (Gd : d = i \/ (below i d = true /\ good_path d)).
    { destruct Id; auto. simpl in I. destruct I as [-> |I]; auto. right. split; auto.
      apply filter_In in I as [I _]. apply (wf_good t W), dirs_key; auto. }
    rewrite (ro_walk_name_good i d G Gd) in J.
    destruct (match d with [] => false | _ :: _ => true end && str_in d excl) eqn:EM; [destruct J|].
    apply filter_In in J as [J X]. apply in_map_iff in J as (b & <- & J).
    assert (NEd := NEa d Id). rewrite (nonempty_match d NEd) in EM. simpl in EM.
    apply in_files_in in J as (q & Iq & Dq & Bq); auto.
    assert (Eq : sjoin d b = q).
    { rewrite sjoin_pjoin by auto. rewrite <- Dq, <- Bq. apply pjoin_dirname_basename.
      apply (wf_good t W). apply files_key; auto. }
    rewrite Eq in *. apply negb_true_iff, str_in_false in X.
    assert (Gq : good_path q) by (apply (wf_good t W), files_key; auto).
    repeat split; auto.
    + apply below_dirname; auto. rewrite Dq. destruct Id; auto.
    + rewrite Dq. apply str_in_false; auto.
  - intros (If & B & X & A).
    assert (Gp : good_path p) by (apply (wf_good t W), files_key; auto).
    set (d := dirname p) in *.
    assert (Id : d = i \/ below i d = true) by (apply below_dirname in B; auto).
    assert (NEd := NEa d Id).
    assert (Wd : In d (i :: filter (below i) (dirs t))).
    { destruct Id as [Ed|Bd]; [left; auto|right]. apply filter_In. split; auto.
      destruct (wf_parent_dir t W p (files_key _ _ If)) as [E|E]; [unfold d in NEd; congruence|exact E]. }
    assert (Gd : d = i \/ (below i d = true /\ good_path d)).
    { destruct Id; auto. right. split; auto. destruct (good_path_dirname p Gp); auto.
      unfold d in NEd; congruence. }
    exists (d, subdirs_in d t, files_in d t). split; [apply in_map_iff; eauto|].
    rewrite (ro_walk_name_good i d G Gd). apply str_in_false in A as A'.
    rewrite A', andb_false_r. apply filter_In. split.
    + apply in_map_iff. exists (basename p). split.
      * rewrite sjoin_pjoin by auto. apply pjoin_dirname_basename; auto.
      * apply in_files_in. exists p. auto.
    + apply negb_true_iff, str_in_false; auto.
Qed.

(** No excluded directory has files deeper than directly inside it. *)
Definition flat_exclusions (t : tree) (excl : list pystr) : Prop :=
  forall a p, In a excl -> is_file p t = true -> below a p = true -> dirname p = a.

Lemma step_files_selected s excl i :
  wf_tree (s_tree s) -> good_path i ->
  (s_ro s = false \/ flat_exclusions (s_tree s) excl) ->
  exists fs, step_files s (fun p => str_in p excl) i = Ok fs /\
    forall p, In p fs <-> selected (s_tree s) [i] excl p.
Proof.
  intros W G M. unfold step_files.
  assert (ISF : src_isfile s i = is_file i (s_tree s)).
  { unfold src_isfile, src_path. rewrite (good_no_lead i G), andb_false_r, (norm_good i G). reflexivity. }
  assert (ISD : src_isdir s i = is_dir i (s_tree s)).
  { unfold src_isdir, src_path. rewrite (good_no_lead i G), andb_false_r, (norm_good i G). reflexivity. }
  assert (ND := wf_nodup _ W).
  destruct (str_in i excl) eqn:E.
  { exists []. split; auto. apply str_in_iff in E. intros p; split; [intros []|].
    intros (_ & j & [<-|[]] & X & _). contradiction. }
  apply str_in_false in E. rewrite ISF. destruct (is_file i (s_tree s)) eqn:EF.
  { exists [i]. split; auto. intros p; split.
    - intros [<-|[]]. split; auto. exists i. simpl; auto.
    - intros (_ & j & [<-|[]] & _ & [-> |(D & _)]); [simpl; auto|].
      apply good_path_nonempty in G.
      unfold is_dir, is_file in *. destruct i; [congruence|]. destruct (od_get _ _) as [[]|]; discriminate. }
  rewrite ISD. destruct (is_dir i (s_tree s)) eqn:ED.
  - destruct (walk_selected s i (fun p => str_in p excl)) as [fs|e] eqn:WS.
    + exists fs. split; auto. intros p. destruct M as [RO|FE].
      * rewrite (walk_selected_rw s excl i fs RO W G WS p). unfold selected. rewrite <- in_files by auto. split.
        -- intros (A & B & C & D). split; auto. exists i. simpl. repeat split; auto.
        -- intros (A & j & [<-|[]] & X & [-> |(_ & B & C & D)]); auto.
           apply in_files in A; auto. congruence.
      * destruct (s_ro s) eqn:RO; [|
          rewrite (walk_selected_rw s excl i fs RO W G WS p); unfold selected; rewrite <- in_files by auto; split;
          [intros (A & B & C & D); split; auto; exists i; simpl; repeat split; auto
          |intros (A & j & [<-|[]] & X & [-> |(_ & B & C & D)]); auto;
           apply in_files in A; auto; congruence]].
        rewrite (walk_selected_ro s excl i fs RO W G WS p). unfold selected. split.
        -- intros (A & B & C & D). apply in_files in A; auto. split; auto. exists i. simpl. repeat split; auto.
           right. repeat split; auto. intros a _ Ba Xa. apply D. rewrite (FE a p Xa A Ba). auto.
        -- intros (A & j & [<-|[]] & X & [-> |(_ & B & C & D)]); [congruence|].
           repeat split; auto; [apply in_files; auto|].
           assert (Gp : good_path p) by (apply (wf_good _ W), files_key, in_files; auto).
           assert (NEi : i <> []) by (apply good_path_nonempty; auto).
           assert (Id : dirname p = i \/ below i (dirname p) = true) by (apply below_dirname in B; auto).
           apply D; auto. apply below_dirname; auto.
           intros Z. destruct Id as [Id|Id]; [congruence|]. rewrite Z in Id.
           apply below_iff in Id as (r & Er); auto. destruct i; discriminate.
    + exfalso. unfold walk_selected in WS. rewrite (good_no_lead i G) in WS. destruct (s_ro s); discriminate.
  - exists []. split; auto. intros p; split; [intros []|].
    intros (A & j & [<-|[]] & _ & [-> |(D & _)]); congruence.
Qed.

Lemma selected_cons t i incl excl p :
  selected t (i :: incl) excl p <-> selected t [i] excl p \/ selected t incl excl p.
Proof.
  unfold selected. split.
  - intros (F & j & [<-|I] & H); [left|right]; split; auto; [exists i|exists j]; simpl; tauto.
  - intros [(F & j & [<-|[]] & H)|(F & j & I & H)]; (split; [auto|]); [exists i|exists j]; simpl; tauto.
Qed.

(** The loop over the include list, as one list of additions. *)
Lemma update_loop s excl nm incl h d :
  wf_tree (s_tree s) -> Forall good_path incl -> nm <> [] ->
  (s_ro s = false \/ flat_exclusions (s_tree s) excl) ->
  cur_table h = Ok d ->
  exists h' fs,
    forM incl (fun i =>
      if str_in i excl then retM tt
      else if src_isfile s i then add_file_lookup i nm
      else if src_isdir s i then
        match walk_selected s i (fun p => str_in p excl) with
        | Err e => fun h => (h, Err e)
        | Ok fs => forM fs (fun f => add_file_lookup f nm)
        end
      else retM tt) h = (h', Ok tt) /\
    cur_table h' = Ok (fold_left (fun d f => od_set f nm d) fs d) /\
    (forall p, In p fs <-> selected (s_tree s) incl excl p) /\
    same_disk h h' /\ hb_mem h' = hb_mem h /\ hb_del h' = hb_del h.
Proof.
  intros W F NM MD. revert h d; induction F as [|i incl G F IH]; intros h d C.
  - exists h, []. split; [reflexivity|]. split; [exact C|]. split; [|auto].
    intros p; split; [intros []|intros (_ & j & [] & _)].
  - destruct (step_files_selected s excl i W G MD) as (fs & SF & SP).
    assert (NF : Forall (fun f : pystr => f <> []) fs).
    { apply Forall_forall. intros f If ->. apply SP in If as [If _].
      rewrite is_file_not_nil in If; auto. discriminate. }
    destruct (forM_add fs nm h d NF NM C) as (h1 & R1 & C1 & S1 & M1 & D1).
    destruct (IH h1 _ C1) as (h2 & fs2 & R2 & C2 & SP2 & S2 & M2 & D2).
    exists h2, (fs ++ fs2). split; [|split; [|split; [|split; [|split]]]]; try congruence.
    + cbn [forM]. unfold bindM. revert SF. unfold step_files.
      destruct (str_in i excl) eqn:E1.
      { intros SF. injection SF as <-. cbn in R1. injection R1 as <-. exact R2. }
      destruct (src_isfile s i).
      { intros SF. injection SF as <-. cbn [forM] in R1. unfold bindM, retM in R1.
        destruct (add_file_lookup i nm h) as [h9 [[]|]]; [|discriminate]. injection R1 as <-. exact R2. }
      destruct (src_isdir s i).
      { intros SF. rewrite SF, R1. exact R2. }
      intros SF. injection SF as <-. cbn in R1. injection R1 as <-. exact R2.
    + rewrite fold_left_app. exact C2.
    + intros p. rewrite in_app_iff, SP, SP2. symmetry. apply selected_cons.
    + eapply same_disk_trans; eauto.
Qed.

(** update_for_member with lists (C11). *)
Definition incl_of (include : sel) : list pystr :=
  match include with SNone => [U "data"] | SStr x => [x] | SList l => l end.

Lemma update_for_member_ok s include excl mk name h d l :
  wf_tree (s_tree s) -> Forall good_path (incl_of include) ->
  s_name s <> [] ->
  (s_ro s = false \/ flat_exclusions (s_tree s) excl) ->
  cur_table h = Ok d -> NoDup (od_keys d) -> nonempty_keys d -> cur_members h = Ok l ->
  let nm := if truthy name then oget name else s_name s in
  exists h', update_for_member s include (SList excl) mk name h = (h', Ok tt) /\
    (forall p, selected (s_tree s) (incl_of include) excl p -> snd (lookup_file p false h') = Ok (Some nm)) /\
    (forall p, ~ selected (s_tree s) (incl_of include) excl p ->
       snd (lookup_file p false h') =
         if mk then (if match od_get p d with Some b => streq b nm | None => false end
                     then Ok None else Ok (od_get p d))
         else Ok (od_get p d)) /\
    (if mk then exists l', cur_members h' = Ok l' /\ names l' = add_names (names l) [nm]
     else cur_members h' = Ok l) /\
    same_disk h h'.
Proof.
  intros W G NN MD C ND NE L nm.
  assert (NM : nm <> []).
  { unfold nm. destruct name as [[|c n]|]; simpl; auto. discriminate. }
  set (m := {| m_name := nm; m_uri := None; m_comment := None; m_info := [] |}).
  assert (S1 : exists h1 d1, (if mk then add_member_bag m true else retM tt) h = (h1, Ok tt) /\
     cur_table h1 = Ok d1 /\ d1 = (if mk then drop_files nm d else d) /\
     (if mk then exists l', hb_mem h1 = Some l' /\ names l' = add_names (names l) [nm] else h1 = h) /\
     same_disk h h1).
  { destruct mk.
    - destruct (add_member_effect m h l d L C ND NE) as (h1 & R1 & M1 & C1 & D1).
      exists h1, (drop_files nm d). repeat split; auto; try apply D1.
      exists (drop_member nm l ++ [m]). split; auto. unfold names. rewrite map_app.
      fold (names (drop_member nm l)). rewrite names_drop. reflexivity.
    - exists h, d. repeat split; auto. }
  destruct S1 as (h1 & d1 & R1 & C1 & Ed & Mm & D1).
  destruct (update_loop s excl nm (incl_of include) h1 d1 W G NM MD C1)
    as (h2 & fs & R2 & C2 & SP & D2 & M2 & _).
  exists h2. split; [|split; [|split; [|split]]].
  - unfold update_for_member. fold nm. fold (incl_of include). unfold bindM at 1. fold m. rewrite R1. exact R2.
  - intros p Sp. rewrite (lookup_cur_table _ _ _ C2), fold_set_get. apply SP, str_in_iff in Sp. rewrite Sp. reflexivity.
  - intros p Sp. rewrite (lookup_cur_table _ _ _ C2), fold_set_get.
    assert (E : str_in p fs = false) by (apply str_in_false; rewrite SP; auto). rewrite E, Ed.
    destruct mk; auto. rewrite drop_files_get by auto.
    destruct (od_get p d) as [b|]; auto. destruct (streq b nm); auto.
  - destruct mk.
    + destruct Mm as (l' & E & N'). exists l'. split; auto. unfold cur_members. rewrite M2, E. reflexivity.
    + subst h1. unfold cur_members in *. rewrite M2. rewrite (same_disk_members h h2 D2). exact L.
  - eapply same_disk_trans; eauto.
Qed.

(** ** Member lists after additions, saved and read back (C07) *)

Lemma add_members_incl ms h l d :
  cur_members h = Ok l -> cur_table h = Ok d -> NoDup (od_keys d) -> nonempty_keys d ->
  exists h' l', forM ms (fun m => add_member_bag m true) h = (h', Ok tt) /\
    cur_members h' = Ok l' /\ incl l' (l ++ ms) /\ (ms <> [] -> hb_mem h' = Some l').
Proof.
  revert h l d; induction ms as [|m ms IH]; intros h l d L C ND NE.
  - exists h, l. repeat split; auto. rewrite app_nil_r. apply incl_refl. congruence.
  - destruct (add_member_effect m h l d L C ND NE) as (h1 & R1 & M1 & C1 & S1).
    destruct (IH h1 (drop_member (m_name m) l ++ [m]) (drop_files (m_name m) d)) as (h2 & l2 & R2 & L2 & I2 & M2).
    + unfold cur_members. rewrite M1. reflexivity.
    + exact C1.
    + apply drop_files_NoDup; auto.
    + apply drop_files_nonempty; auto.
    + exists h2, l2. split; [|split; [|split]].
      * cbn [forM]. unfold bindM. rewrite R1. exact R2.
      * exact L2.
      * intros x Ix. apply I2 in Ix. rewrite !in_app_iff in *. simpl in *.
        destruct Ix as [[Ix|[->|[]]]|Ix]; auto. left. apply filter_In in Ix as [Ix _]; auto.
      * intros _. destruct ms as [|m' ms]; [|apply M2; discriminate].
        cbn in R2. injection R2 as <-. unfold cur_members in L2. rewrite M1 in *. congruence.
Qed.

Lemma add_members_saved r ms h h' td l d :
  ms <> [] ->
  cur_members h = Ok l -> cur_table h = Ok d -> NoDup (od_keys d) -> nonempty_keys d ->
  Forall (storable_member r) (l ++ ms) ->
  std_tags (hb_info h) td -> std_tags (hb_dinfo h) td ->
  (forM ms (fun m => add_member_bag m true) ;; save_member_bags) h = (h', Ok tt) ->
  exists l', iter_member_bags (reopen r h') = Ok l' /\
             names l' = add_names (names l) (map m_name ms).
Proof.
  intros NEm L C ND NE F S S' H. apply bindM_ok in H as ([] & h1 & H1 & H2).
  destruct (add_members_effect ms h l d L C ND NE) as (h2 & l2 & R2 & L2 & N2 & SD).
  destruct (add_members_incl ms h l d L C ND NE) as (h3 & l3 & R3 & L3 & I3 & M3).
  rewrite H1 in R2, R3. injection R2 as <-. injection R3 as <-.
  specialize (M3 NEm). rewrite L2 in L3. injection L3 as <-.
  exists l2. split; auto. destruct SD as (_ & _ & E1 & E2 & _).
  apply (members_saved_read_back r h1 h' td l2); auto.
  - rewrite Forall_forall in *. auto.
  - rewrite E2; auto.
  - rewrite E1; auto.
Qed.

(** ** Re-reading (C65) *)

Lemma member_bags_reread h :
  snd (member_bags true h) =
  match iter_member_bags h with Ok l => Ok l | Err EMissingFile => Ok [] | Err e => Err e end.
Proof.
  unfold member_bags, member_bags_ro.
  destruct (hb_mem h), (iter_member_bags h) as [l0|[]]; reflexivity.
Qed.

Lemma lookup_reread p h :
  snd (lookup_file p true h) =
  match disk_lookup h with Ok d => Ok (od_get p d) | Err e => Err e end.
Proof.
  unfold lookup_file, lookup_file_ro, disk_lookup, cache_file_lookup.
  destruct (hb_lu h), (iter_file_lookup h) as [l0|[]]; reflexivity.
Qed.

Lemma member_bags_discard h l :
  iter_member_bags h = Ok l ->
  snd (member_bags false (fst (member_bags true h))) = Ok l.
Proof.
  intros E. unfold member_bags, member_bags_ro. destruct (hb_mem h); rewrite E; reflexivity.
Qed.

Lemma lookup_discard p q h d :
  iter_file_lookup h = Ok d ->
  snd (lookup_file q false (fst (lookup_file p true h))) = Ok (od_get q (od_of_pairs d)).
Proof.
  intros E. unfold lookup_file, lookup_file_ro, cache_file_lookup.
  destruct (hb_lu h); rewrite E; reflexivity.
Qed.

(** ** Padding of whole lines (C05) *)
Lemma lookup_outer_padding p b w1 w2 :
  legal_name p -> legal_name b ->
  Forall (fun c => is_ws c = true) w1 -> Forall (fun c => is_ws c = true) w2 ->
  parse_lookup_03 (w1 ++ p ++ [TAB] ++ b ++ w2) = Ok (p, b).
Proof.
  intros [Tp Np] [Tb Nb] W1 W2. unfold parse_lookup_03.
  rewrite strip_ws_app by auto.
  replace (p ++ [TAB] ++ b ++ w2) with ((p ++ [TAB] ++ b) ++ w2) by (rewrite <- !app_assoc; reflexivity).
  rewrite strip_app_ws by auto. rewrite strip_trimmed by (apply trimmed_app; auto).
  simpl app. rewrite split_on_app, split_on_none; auto.
Qed.

(** ** Checkers, to show that concrete bags meet the conditions *)

Definition trimmedb (s : pystr) : bool :=
  match s with [] => false | c :: _ => negb (is_ws c) && negb (is_ws (last s 0)) end.
Lemma trimmedb_ok s : trimmedb s = true -> trimmed s.
Proof.
  destruct s as [|c s]; [discriminate|]. intros H. apply andb_true_iff in H as [A B].
  apply negb_true_iff in A, B. split; [eauto|].
  exists (removelast (c :: s)), (last (c :: s) 0). split; auto.
  apply app_removelast_last. discriminate.
Qed.

Definition legal_nameb (s : pystr) : bool := trimmedb s && negb (existsb (N.eqb TAB) s).
Lemma legal_nameb_ok s : legal_nameb s = true -> legal_name s.
Proof.
  intros H. apply andb_true_iff in H as [A B]. split; [apply trimmedb_ok; auto|].
  intros I. apply negb_true_iff in B. rewrite <- not_true_iff_false in B. apply B.
  apply existsb_exists. exists TAB. split; auto.
Qed.

Definition storableb (r : reader) (s : pystr) : bool :=
  legal_nameb s && forallb (fun c => negb (is_brk r c)) s && negb (match s with c :: _ => c =? BOM | [] => false end).
Lemma storableb_ok r s : storableb r s = true -> storable r s.
Proof.
  intros H. apply andb_true_iff in H as [H C]. apply andb_true_iff in H as [A B].
  split; [apply legal_nameb_ok; auto|]. split.
  - apply Forall_forall. intros c Ic. rewrite forallb_forall in B. apply negb_true_iff; auto.
  - destruct r, s as [|c s]; simpl; auto. intros ->. discriminate.
Qed.

Definition wf_tableb (r : reader) (d : dict pystr) : bool :=
  forallb (fun kv => storableb r (fst kv) && storableb r (snd kv)) d.
Lemma wf_tableb_ok r d : wf_tableb r d = true -> Forall (storable_entry r) d.
Proof.
  unfold wf_tableb. rewrite forallb_forall, Forall_forall. intros H x I.
  apply H, andb_true_iff in I as [A B]. split; apply storableb_ok; auto.
Qed.

Fixpoint nodupb (l : list pystr) : bool :=
  match l with [] => true | x :: t => negb (str_in x t) && nodupb t end.
Lemma nodupb_ok l : nodupb l = true -> NoDup l.
Proof.
  induction l as [|x l IH]; simpl; intros H; constructor.
  - apply andb_true_iff in H as [H _]. apply negb_true_iff, str_in_false in H. auto.
  - apply andb_true_iff in H as [_ H]. auto.
Qed.

Definition good_pathb (p : pystr) : bool :=
  forallb (fun w => negb (str_in w [[]; [DOT]; [DOT; DOT]])) (split_on SLASH p).
Lemma good_pathb_ok p : good_pathb p = true -> good_path p.
Proof.
  unfold good_pathb, good_path. rewrite forallb_forall, Forall_forall. intros H w I.
  apply H in I. apply negb_true_iff, str_in_false in I. simpl in I. repeat split; intros ->; apply I; auto.
Qed.

Definition wf_treeb (t : tree) : bool :=
  nodupb (od_keys t) && forallb good_pathb (od_keys t) &&
  forallb (fun p => is_dir (dirname p) t) (od_keys t).
Lemma wf_treeb_ok t : wf_treeb t = true -> wf_tree t.
Proof.
  intros H. apply andb_true_iff in H as [H C]. apply andb_true_iff in H as [A B].
  rewrite forallb_forall in B, C. constructor.
  - apply nodupb_ok; auto.
  - apply Forall_forall. intros p I. apply good_pathb_ok; auto.
  - auto.
Qed.

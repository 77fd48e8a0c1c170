(** Changing the name of the tag directory (C105) *)
Require Import String NArith PeanoNat Wf_nat Bool List Lia.
From Verif Require Import PyBase PyFacts Version Tsv Fs FsFacts HeadBag HeadBagProofs SplitApply SplitApplyProofs SplitApplyProofs8 HeadBagProofs3 RestoreProofs TagDir TagDirProofs.
Import ListNotations.
Open Scope N_scope.

(** Reading the three files of an aggregation anew gives the same. *)
Definition same_aggregation (h h' : hb) : Prop :=
  iter_member_bags h' = iter_member_bags h /\ iter_file_lookup h' = iter_file_lookup h /\ iter_deleted h' = iter_deleted h.

(** Everything but tags and files is as it was. *)
Definition same_caches (h h' : hb) : Prop :=
  hb_name h' = hb_name h /\ hb_dinfo h' = hb_dinfo h /\ hb_reader h' = hb_reader h /\
  hb_mem h' = hb_mem h /\ hb_lu h' = hb_lu h /\ hb_del h' = hb_del h.

Lemma raw_dir i td : tag_dir_raw i = Ok td -> tag_dir i = td.
Proof. unfold tag_dir_raw, tag_dir. destruct (od_get T_TagDir i) as [[s|l]|]; congruence. Qed.

Lemma absent_below t d f : wf_tree t -> d <> [] -> od_get d t = None -> od_get (sjoin d f) t = None.
Proof.
  intros W D E. destruct (od_get (sjoin d f) t) eqn:X; [|reflexivity]. apply od_get_some_key in X.
  pose proof (prefix_exists t (sjoin d f) d W D X) as Y. rewrite E in Y. discriminate Y. apply below_iff; [exact D|]. exists f. reflexivity.
Qed.

Lemma reads_alike h h' td d : tag_dir_raw (hb_info h) = Ok td -> td <> [] -> d <> [] ->
  hb_reader h' = hb_reader h -> hb_info h' = od_set T_TagDir (IStr d) (hb_info h) ->
  (forall f, od_get (sjoin d f) (hb_tree h') = od_get (sjoin td f) (hb_tree h)) -> same_aggregation h h'.
Proof.
  intros R T D Er Ei G. unfold same_aggregation, iter_member_bags, iter_file_lookup, iter_deleted.
  assert (R' : tag_dir_raw (hb_info h') = Ok d) by (rewrite Ei; unfold tag_dir_raw; rewrite od_get_set_same; reflexivity).
  assert (V : profile_version (hb_info h') = profile_version (hb_info h)).
  { rewrite Ei. unfold profile_version, required_info. rewrite od_get_set_other by discriminate. reflexivity. }
  assert (Ex : forall f, exists_ (sjoin d f) (hb_tree h') = exists_ (sjoin td f) (hb_tree h)).
  { intros f. unfold exists_, is_file. rewrite G. f_equal. unfold is_dir, sjoin. specialize (G f). unfold sjoin in G.
    destruct d as [|c1 l1]; [congruence|]. destruct td as [|c2 l2]; [congruence|]. cbn [app] in *. rewrite G. reflexivity. }
  rewrite (raw_dir _ _ R), (raw_dir _ _ R'), R, R', V, Er, Ex. cbn [bind]. unfold read. rewrite !G. split; [|split]; reflexivity.
Qed.

(** With migration the aggregation is the same as before, for the handle and
    for a bag that is opened again after the tags are saved, and no other
    file is changed, made or removed; every file of the old directory is in
    the new one. *)
Theorem C105_kept : forall h h' td d,
  wf_tree (hb_tree h) -> tag_dir_raw (hb_info h) = Ok td -> good_path td -> good_path d ->
  set_multibag_tag_dir d true h = (h', Ok tt) ->
  same_aggregation h h' /\ same_aggregation h (reopen (hb_reader h) (save_tags h')) /\ same_caches h h' /\
  tag_dir (hb_info h') = d /\ (forall k, k <> T_TagDir -> od_get k (hb_info h') = od_get k (hb_info h)) /\
  (forall f, read (sjoin d f) (hb_tree h') = read (sjoin td f) (hb_tree h)) /\
  (d <> td -> forall f, read (sjoin td f) (hb_tree h') = None) /\
  (forall p, p <> [] -> ~ under td p -> ~ under d p -> read p (hb_tree h') = read p (hb_tree h)).
Proof.
  intros h h' td d W R Gt Gd H. unfold set_multibag_tag_dir in H. rewrite (plain_good d Gd), (raw_dir _ _ R) in H.
  assert (T0 : td <> []) by (apply good_path_nonempty, Gt). assert (D0 : d <> []) by (apply good_path_nonempty, Gd).
  destruct (streq_reflect d td) as [->|Ne].
  { injection H as <-. split; [split; auto|]. split; [split; auto|]. split; [repeat split; reflexivity|]. split; [apply (raw_dir _ _ R)|]. split; [auto|]. split; [auto|]. split; [congruence|auto]. }
  destruct (exists_ d (hb_tree h)) eqn:Ed; [discriminate|]. apply exists_get_false in Ed; [|exact D0].
  assert (K : exists t', h' = set_info (set_tree h t') (od_set T_TagDir (IStr d) (hb_info h)) /\
    (forall f, od_get (sjoin d f) t' = od_get (sjoin td f) (hb_tree h)) /\
    (forall f, od_get (sjoin td f) t' = None) /\
    (forall p, p <> [] -> ~ under td p -> ~ under d p -> read p t' = read p (hb_tree h))).
  { destruct (exists_ td (hb_tree h)) eqn:Et.
    - apply exists_get in Et; [|exact T0]. destruct (renames td d (hb_tree h)) as [t' [[]|e]] eqn:Er; [|discriminate]. injection H as <-. exists t'. split; [reflexivity|].
      destruct (renames_ok td d _ _ W Gt Gd Ed Et Er) as (A1 & A2 & A3). split.
      + intros f. unfold sjoin. apply A1. right. exists f. reflexivity.
      + split; [intros f; apply A2; exists (SLASH :: f); split; [right; eauto|reflexivity]|].
         intros p P0 Up Ud. unfold read. destruct (A3 p P0 Up Ud) as [-> | [(_ & -> & ->) | (_ & -> & ->)]]; reflexivity.
    - injection H as <-. exists (hb_tree h). split; [destruct h; reflexivity|]. apply exists_get_false in Et; [|exact T0].
      split; [intros f; rewrite !absent_below; auto|]. split; [|auto]. intros f. apply absent_below; auto. }
  destruct K as (t' & -> & K1 & K3 & K2).
  split; [apply (reads_alike _ _ td d R T0 D0); auto; reflexivity|].
  split; [apply (reads_alike _ _ td d R T0 D0); auto; reflexivity|].
  split; [repeat split; reflexivity|]. cbn [hb_info set_info set_tree].
  split; [unfold tag_dir; rewrite od_get_set_same; reflexivity|]. split; [intros k Nk; apply od_get_set_other; exact Nk|].
  cbn [hb_tree]. unfold read at 1 2 3. split; [intros f; unfold read; rewrite K1; reflexivity|]. split; [intros _ f; rewrite K3; reflexivity|exact K2].
Qed.
Print Assumptions C105_kept.

(** It works if nothing is at the new path, which is not inside of the old
    one or below a file. *)
Lemma makedirs_runs : forall n p t, length p = n -> good_path p -> wf_tree t ->
  (forall q, q = p \/ below q p = true -> q <> [] -> is_file q t = false) ->
  exists t', makedirs p t = Ok t' /\ is_dir p t' = true.
Proof.
  induction n as [n IH] using lt_wf_ind. intros p t L G W F.
  assert (Step : forall t1, wf_tree t1 -> is_dir (dirname p) t1 = true -> is_file p t1 = false ->
    exists t', (if exists_ p t1 then Ok t1 else mkdir p t1) = Ok t' /\ is_dir p t' = true).
  { intros t1 W1 D1 F1. destruct (exists_ p t1) eqn:E; [exists t1; split; [reflexivity|]; unfold exists_ in E; rewrite F1 in E; exact E|].
    unfold mkdir. rewrite E, D1. eexists. split; [reflexivity|]. unfold is_dir. destruct p; [reflexivity|]. rewrite od_get_set_same. reflexivity. }
  unfold makedirs. destruct (path_cases p G) as [(Ns & Ed & _)|(d & b & Ep & Nb & Gd & Gb & Ed & _)].
  - rewrite prefixes_single by assumption. cbn [foldM]. destruct (Step t W) as (t' & E & D); [rewrite Ed; reflexivity|apply F; [auto|apply good_path_nonempty, G]|].
    exists t'. rewrite E. split; [reflexivity|exact D].
  - subst p. rewrite prefixes_cons by assumption. rewrite foldM_app.
    assert (Bd : below d (d ++ SLASH :: b) = true) by (apply below_iff; [apply good_path_nonempty, Gd|eauto]).
    destruct (IH (length d)) with (p := d) (t := t) as (t1 & M1 & D1); auto; [rewrite <- L, app_length; cbn; lia| |].
    { intros q Hq Q0. apply F; [|exact Q0]. right. destruct Hq as [->|B]; [exact Bd|]. apply (below_trans q d); auto. apply good_path_nonempty, Gd. }
    unfold makedirs in M1. rewrite M1. cbn [bind foldM].
    destruct (Step t1) as (t' & E & D).
    + eapply makedirs_wf; eauto.
    + rewrite Ed. exact D1.
    + unfold is_file. rewrite (makedirs_get _ _ _ M1); [|intros x I; apply in_prefixes in I; [apply I|exact Gd]].
      assert (F1 : is_file (d ++ SLASH :: b) t = false) by (apply F; [auto|destruct d; discriminate]). unfold is_file in F1.
      destruct (od_get (d ++ SLASH :: b) t) as [[|]|]; [reflexivity|discriminate|]. destruct (str_in _ _); reflexivity.
    + exists t'. rewrite E. split; [reflexivity|exact D].
Qed.

Theorem C105_migrates : forall h td d,
  wf_tree (hb_tree h) -> tag_dir (hb_info h) = td -> good_path td -> good_path d ->
  exists_ d (hb_tree h) = false -> ~ under td d ->
  (forall p, p <> [] -> below p d = true -> is_file p (hb_tree h) = false) ->
  exists h', set_multibag_tag_dir d true h = (h', Ok tt).
Proof.
  intros h td d W R Gt Gd Ed Un F. unfold set_multibag_tag_dir. rewrite (plain_good d Gd), R.
  assert (T0 : td <> []) by (apply good_path_nonempty, Gt).
  destruct (streq d td); [eauto|]. rewrite Ed. destruct (exists_ td (hb_tree h)); [|eauto].
  assert (Nb : below td d = false) by (destruct (below td d) eqn:E; [destruct Un; apply under_iff; auto|reflexivity]).
  assert (M1 : exists t1, (if exists_ (dirname d) (hb_tree h) then Ok (hb_tree h) else makedirs (dirname d) (hb_tree h)) = Ok t1 /\ is_dir (dirname d) t1 = true).
  { destruct (good_path_dirname d Gd) as [E|G]; [rewrite E; exists (hb_tree h); unfold exists_; cbn [is_dir]; rewrite orb_true_r; auto|].
    assert (D0 : dirname d <> []) by (apply good_path_nonempty, G).
    assert (Fd : is_file (dirname d) (hb_tree h) = false) by (apply F; [exact D0|apply (below_dirname _ d D0 Gd); auto]).
    destruct (exists_ (dirname d) (hb_tree h)) eqn:E; [exists (hb_tree h); split; [reflexivity|]; unfold exists_ in E; rewrite Fd in E; exact E|].
    apply (makedirs_runs (length (dirname d))); auto. intros q Hq Q0. apply F; [exact Q0|]. apply (below_dirname q d Q0 Gd). destruct Hq; auto. }
  destruct M1 as (t1 & M1 & D1). unfold renames. rewrite M1. unfold rename. rewrite Nb, D1. eauto.
Qed.
Print Assumptions C105_migrates.

(** If it fails, the tags and every file are as they were, and the handle is
    the same unless the new directory was to be inside of the old one. *)
Theorem C105_refused : forall h h' td d migrate e,
  wf_tree (hb_tree h) -> tag_dir (hb_info h) = td -> good_path td -> good_path d ->
  set_multibag_tag_dir d migrate h = (h', Err e) ->
  hb_info h' = hb_info h /\ same_caches h h' /\
  (forall p, p <> [] -> read p (hb_tree h') = read p (hb_tree h)) /\ (~ under td d -> h' = h).
Proof.
  intros h h' td d migrate e W R Gt Gd H. unfold set_multibag_tag_dir in H. rewrite (plain_good d Gd), R in H.
  assert (T0 : td <> []) by (apply good_path_nonempty, Gt).
  assert (Same : h' = h -> hb_info h' = hb_info h /\ same_caches h h' /\
    (forall p, p <> [] -> read p (hb_tree h') = read p (hb_tree h)) /\ (~ under td d -> h' = h)) by (intros ->; unfold same_caches; auto 10).
  destruct (streq d td); [discriminate|]. destruct migrate; [|discriminate].
  destruct (exists_ d (hb_tree h)) eqn:Ed; [injection H as <- _; auto|]. destruct (exists_ td (hb_tree h)); [|discriminate].
  unfold renames in H. destruct (if exists_ (dirname d) (hb_tree h) then Ok (hb_tree h) else makedirs (dirname d) (hb_tree h)) as [t1|e1] eqn:M1.
  - destruct (rename td d t1) as [t2|e2] eqn:Er; [discriminate|]. injection H as <- _. cbn [hb_info set_tree hb_tree]. split; [reflexivity|]. split; [repeat split; reflexivity|]. split.
    + intros p P0. destruct (exists_ (dirname d) (hb_tree h)); [injection M1 as <-; reflexivity|]. eapply makedirs_read; eauto.
    + intros Un. unfold rename in Er. assert (Nb : below td d = false) by (destruct (below td d) eqn:E; [destruct Un; apply under_iff; auto|reflexivity]).
      rewrite Nb in Er. destruct (is_dir (dirname d) t1) eqn:D1; [discriminate|]. destruct (exists_ (dirname d) (hb_tree h)) eqn:Ex; [injection M1 as <-; destruct h; reflexivity|].
      exfalso. assert (D0 : dirname d <> []) by (intros X; rewrite X in D1; discriminate D1). destruct (good_path_dirname d Gd) as [X|G]; [contradiction|].
      unfold makedirs in M1. assert (Gm : od_get (dirname d) t1 = Some NDir).
      { rewrite (makedirs_get _ _ _ M1); [|intros x I; apply in_prefixes in I; [apply I|exact G]]. apply exists_get_false in Ex; [|exact D0]. rewrite Ex.
        assert (I : str_in (dirname d) (prefixes (dirname d)) = true) by (apply str_in_iff, in_prefixes; auto). rewrite I. reflexivity. }
      unfold is_dir in D1. destruct (dirname d); [congruence|]. rewrite Gm in D1. discriminate D1.
  - injection H as <- _. apply Same. destruct h; reflexivity.
Qed.
Print Assumptions C105_refused.

(** The files are moved at once, but the tag only when the bag is saved:
    whoever opens the bag in between does not find the aggregation. *)
Theorem C105_unsaved_refuted : forall h h' td d r,
  wf_tree (hb_tree h) -> hb_dinfo h = hb_info h -> tag_dir_raw (hb_info h) = Ok td -> good_path td -> good_path d -> d <> td ->
  set_multibag_tag_dir d true h = (h', Ok tt) ->
  iter_member_bags (reopen r h') = Err EMissingFile /\ iter_file_lookup (reopen r h') = Err EMissingFile /\ iter_deleted (reopen r h') = Ok [].
Proof.
  intros h h' td d r W Di R Gt Gd Ne H. pose proof (C105_kept h h' td d W R Gt Gd H) as (_ & _ & Sc & _). destruct Sc as (_ & Sd & _).
  assert (T0 : td <> []) by (apply good_path_nonempty, Gt). assert (D0 : d <> []) by (apply good_path_nonempty, Gd).
  assert (N : forall f, od_get (sjoin td f) (hb_tree h') = None).
  { unfold set_multibag_tag_dir in H. rewrite (plain_good d Gd), (raw_dir _ _ R) in H. destruct (streq_reflect d td) as [|_]; [contradiction|].
    destruct (exists_ d (hb_tree h)) eqn:Ed; [discriminate|]. apply exists_get_false in Ed; [|exact D0]. destruct (exists_ td (hb_tree h)) eqn:Et.
    - apply exists_get in Et; [|exact T0]. destruct (renames td d (hb_tree h)) as [t' [[]|e]] eqn:Er; [|discriminate]. injection H as <-.
      destruct (renames_ok td d _ _ W Gt Gd Ed Et Er) as (_ & A2 & _). intros f. apply A2. exists (SLASH :: f). split; [right; eauto|reflexivity].
    - apply exists_get_false in Et; [|exact T0]. injection H as <-. intros f. apply absent_below; auto. }
  unfold iter_member_bags, iter_file_lookup, iter_deleted, reopen, open_hb. cbn [hb_info hb_tree hb_reader]. rewrite Sd, Di, R, (raw_dir _ _ R). cbn [bind]. unfold read.
  rewrite !N. split; [reflexivity|]. split; [reflexivity|].
  assert (X : exists_ (sjoin td F_deleted) (hb_tree h') = false); [|rewrite X; reflexivity]. apply exists_get_false; [unfold sjoin; destruct td; discriminate|apply N].
Qed.
Print Assumptions C105_unsaved_refuted.

(** A directory that is not just below the root cannot be used unless its
    parent exists, though the documentation says how to name it. *)
Theorem C105_nested_refuted : forall h a b l,
  good_path (a ++ U "/" ++ b) -> ~ In SLASH b -> a <> [] -> wf_tree (hb_tree h) -> exists_ a (hb_tree h) = false ->
  tag_dir (hb_info h) <> a ++ U "/" ++ b ->
  exists h', (set_multibag_tag_dir (a ++ U "/" ++ b) false ;; set_member_bags l ;; save_member_bags) h = (h', Err EOS) /\ hb_tree h' = hb_tree h.
Proof.
  intros h a b l G Nb A0 W Ea Ne. unfold bindM, set_multibag_tag_dir. rewrite (plain_good _ G).
  destruct (streq_reflect (a ++ U "/" ++ b) (tag_dir (hb_info h))) as [E|_]; [congruence|].
  unfold set_member_bags, save_member_bags, set_mem. cbn [hb_mem]. unfold bindM, ensure_tagdir. cbn [hb_info hb_tree set_info].
  assert (Td : tag_dir (od_set T_TagDir (IStr (a ++ U "/" ++ b)) (hb_info h)) = a ++ U "/" ++ b) by (unfold tag_dir; rewrite od_get_set_same; reflexivity).
  rewrite Td. assert (X : exists_ (a ++ U "/" ++ b) (hb_tree h) = false).
  { apply exists_get_false; [destruct a; discriminate|]. apply exists_get_false in Ea; [|exact A0]. exact (absent_below _ a b W A0 Ea). }
  rewrite X. unfold mkdir. rewrite X. assert (D : is_dir (dirname (a ++ U "/" ++ b)) (hb_tree h) = false).
  { change (U "/" ++ b) with (SLASH :: b). rewrite dirname_app by exact Nb. unfold exists_ in Ea. apply orb_false_iff in Ea. apply Ea. }
  rewrite D. eexists. split; reflexivity.
Qed.
Print Assumptions C105_nested_refuted.

(** A bag with the three files in the directory "multibag", moved to "x/tags"
    and back: the directory x is gone again. *)
Definition ex_info : infod := [(U "Multibag-Version", IStr (U "0.4")); (U "Multibag-Head-Version", IStr (U "1"))].
Definition ex_bag : hb :=
  open_hb (U "b") [(U "bagit.txt", NFile []); (U "data", NDir); (U "data/a", NFile (U "aa")); (U "multibag", NDir);
    (U "multibag/member-bags.tsv", NFile (U "b" ++ [10])); (U "multibag/file-lookup.tsv", NFile (U "data/a" ++ [TAB] ++ U "b" ++ [10]))] ex_info Codecs.
Definition ex_moved : hb := fst (set_multibag_tag_dir (U "x/tags") true ex_bag).
Example C105_case :
  wf_tree (hb_tree ex_bag) /\ tag_dir_raw (hb_info ex_bag) = Ok (U "multibag") /\ good_path (U "multibag") /\ good_path (U "x/tags") /\
  set_multibag_tag_dir (U "x/tags") true ex_bag = (ex_moved, Ok tt) /\
  read (U "x/tags/member-bags.tsv") (hb_tree ex_moved) = Some (U "b" ++ [10]) /\ exists_ (U "multibag") (hb_tree ex_moved) = false /\
  match iter_member_bags ex_moved with Ok ms => map Tsv.m_name ms | Err _ => [] end = [U "b"] /\
  match set_multibag_tag_dir (U "multibag") true ex_moved with
  | (h, Ok _) => exists_ (U "x") (hb_tree h) = false /\ read (U "multibag/member-bags.tsv") (hb_tree h) = Some (U "b" ++ [10])
  | (_, Err _) => False
  end /\
  set_multibag_tag_dir (U "data") true ex_bag = (ex_bag, Err ERuntime).
Proof.
  split; [apply wf_treeb_ok; vm_compute; reflexivity|]. split; [reflexivity|]. split; [apply good_pathb_ok; reflexivity|]. split; [apply good_pathb_ok; reflexivity|].
  split; [vm_compute; reflexivity|]. split; [vm_compute; reflexivity|]. split; [vm_compute; reflexivity|]. split; [vm_compute; reflexivity|].
  split; [vm_compute; split; reflexivity|]. vm_compute; reflexivity.
Qed.

Example C105_nested_case :
  good_path (U "x" ++ U "/" ++ U "tags") /\ exists_ (U "x") (hb_tree ex_bag) = false /\ tag_dir (hb_info ex_bag) <> U "x" ++ U "/" ++ U "tags".
Proof. split; [apply good_pathb_ok; reflexivity|]. split; [reflexivity|]. vm_compute. intros X. discriminate X. Qed.

(** A move of the directory into itself fails, but new directories stay, and
    one of them may be in the place of a file of the aggregation. *)
Theorem C105_inside_refuted : exists h h' d e,
  wf_tree (hb_tree h) /\ good_path d /\ set_multibag_tag_dir d true h = (h', Err e) /\
  hb_tree h' <> hb_tree h /\ iter_deleted h = Ok [] /\ iter_deleted h' = Err EOS.
Proof.
  exists ex_bag, (fst (set_multibag_tag_dir (U "multibag/deleted.txt/x") true ex_bag)), (U "multibag/deleted.txt/x"), EOS.
  split; [exact (proj1 C105_case)|]. split; [apply good_pathb_ok; reflexivity|]. split; [vm_compute; reflexivity|]. split; [vm_compute; intros X; discriminate X|].
  split; vm_compute; reflexivity.
Qed.
Print Assumptions C105_inside_refuted.

(** ** The name that is recorded *)

(** A name whose parts are separated by one slash or more: the first part, and
    for each further one the number of additional slashes before it. *)
Definition spaced (a : pystr) (l : list (nat * pystr)) : pystr :=
  a ++ flat_map (fun kc => U "/" ++ repeat SLASH (fst kc) ++ snd kc) l.
Definition part (c : pystr) : Prop := c <> [] /\ ~ In SLASH c.

Lemma spaced_split l : forall a, ~ In SLASH a -> Forall (fun kc => part (snd kc)) l ->
  split_on SLASH (spaced a l) = a :: flat_map (fun kc => repeat [] (fst kc) ++ [snd kc]) l.
Proof.
  induction l as [|[k c] l IH]; intros a A F; unfold spaced in *; cbn [flat_map fst snd].
  - rewrite app_nil_r. apply split_on_none. exact A.
  - inversion F as [|? ? [_ C] Fl]; subst. cbn [snd] in C. rewrite <- !app_assoc.
    change (a ++ U "/" ++ ?x) with (a ++ SLASH :: x). rewrite split_on_app by exact A. f_equal.
    assert (R : forall x, split_on SLASH (repeat SLASH k ++ x) = repeat [] k ++ split_on SLASH x).
    { intros x. clear F. induction k as [|k IHk]; [reflexivity|]. cbn [repeat app split_on]. rewrite N.eqb_refl, IHk. reflexivity. }
    rewrite R, (IH c C Fl). cbn [app]. reflexivity.
Qed.

Lemma part_end x c : part c -> ends_slash (x ++ c) = false.
Proof.
  intros [C1 C2]. unfold ends_slash. rewrite rev_app_distr. destruct (rev c) as [|y r] eqn:E.
  - destruct C1. rewrite <- (rev_involutive c), E. reflexivity.
  - cbn [app]. apply N.eqb_neq. intros ->. apply C2. apply in_rev. rewrite E. left. reflexivity.
Qed.

Lemma spaced_join l : forall x, x <> [] -> ends_slash x = false -> Forall (fun kc => part (snd kc)) l ->
  fold_left os_join (flat_map (fun kc => repeat [] (fst kc) ++ [snd kc]) l) x = x ++ flat_map (fun kc => U "/" ++ snd kc) l.
Proof.
  induction l as [|[k c] l IH]; intros x X0 X F; cbn [flat_map fst snd]; [rewrite app_nil_r; reflexivity|].
  inversion F as [|? ? C Fl]; subst. cbn [snd] in C. rewrite !fold_left_app.
  assert (E : fold_left os_join [c] (fold_left os_join (repeat [] k) x) = x ++ U "/" ++ c).
  { cbn [fold_left]. destruct k as [|k]; cbn [repeat fold_left].
    - unfold os_join. destruct x; [congruence|]. rewrite X. reflexivity.
    - assert (J : os_join x [] = x ++ U "/") by (unfold os_join; destruct x; [congruence|]; rewrite X; reflexivity).
      rewrite J. assert (Z : forall b, os_join (x ++ U "/") b = x ++ U "/" ++ b).
      { intros b. unfold os_join. destruct (x ++ U "/") as [|y z] eqn:E; [destruct x; discriminate|]. rewrite <- E.
        assert (En : ends_slash (x ++ U "/") = true) by (unfold ends_slash; rewrite rev_app_distr; reflexivity).
        rewrite En, <- app_assoc. reflexivity. }
      assert (R : forall n, fold_left os_join (repeat [] n) (x ++ U "/") = x ++ U "/").
      { induction n as [|n IHn]; [reflexivity|]. cbn [repeat fold_left]. rewrite Z, app_nil_r. exact IHn. }
      rewrite R. apply Z. }
  transitivity (fold_left os_join (flat_map (fun kc => repeat [] (fst kc) ++ [snd kc]) l) (x ++ U "/" ++ c)); [f_equal; exact E|].
  rewrite IH; [rewrite <- !app_assoc; reflexivity| | |exact Fl].
  - destruct x; discriminate.
  - rewrite app_assoc. apply part_end. exact C.
Qed.

(** The tag has the name with single slashes. *)
Theorem C105_tag : forall h h' a l migrate, part a -> Forall (fun kc => part (snd kc)) l ->
  set_multibag_tag_dir (spaced a l) migrate h = (h', Ok tt) ->
  tag_dir (hb_info h') = a ++ flat_map (fun kc => U "/" ++ snd kc) l.
Proof.
  intros h h' a l migrate A F H. unfold set_multibag_tag_dir in H.
  assert (E : plain_dir (spaced a l) = a ++ flat_map (fun kc => U "/" ++ snd kc) l).
  { unfold plain_dir. rewrite spaced_split; [|apply A|exact F]. apply spaced_join; [apply A|apply (part_end [] a A)|exact F]. }
  rewrite E in H. set (d := a ++ _) in *.
  assert (T : forall t, tag_dir (hb_info (set_info (set_tree h t) (od_set T_TagDir (IStr d) (hb_info h)))) = d).
  { intros t. cbn [set_info set_tree hb_info]. unfold tag_dir. rewrite od_get_set_same. reflexivity. }
  assert (T0 : tag_dir (hb_info (set_info h (od_set T_TagDir (IStr d) (hb_info h)))) = d).
  { cbn [set_info hb_info]. unfold tag_dir. rewrite od_get_set_same. reflexivity. }
  destruct (streq_reflect d (tag_dir (hb_info h))) as [Ed|_]; [injection H as <-; symmetry; exact Ed|].
  destruct migrate; [|injection H as <-; exact T0].
  destruct (exists_ d (hb_tree h)); [discriminate|].
  destruct (exists_ (tag_dir (hb_info h)) (hb_tree h)); [|injection H as <-; exact T0].
  destruct (renames _ _ _) as [t [[]|e]]; [|discriminate]. injection H as <-. apply T.
Qed.
Print Assumptions C105_tag.

Example C105_tag_case :
  spaced (U "a") [(2%nat, U "b"); (0%nat, U "c")] = U "a///b/c" /\ part (U "a") /\ Forall (fun kc => part (snd kc)) [(2%nat, U "b"); (0%nat, U "c")] /\
  exists h', set_multibag_tag_dir (U "a///b/c") true ex_bag = (h', Ok tt) /\ tag_dir (hb_info h') = U "a/b/c".
Proof.
  split; [reflexivity|]. split; [split; [discriminate|intros [X|[]]; discriminate X]|].
  split; [|eexists; split; vm_compute; reflexivity].
  apply Forall_cons; [split; [discriminate|intros [X|[]]; discriminate X]|].
  apply Forall_cons; [split; [discriminate|intros [X|[]]; discriminate X]|constructor].
Qed.

(** * Lemmas on restoring: when copying a bag succeeds *)

Require Import String NArith PeanoNat Bool List Lia Permutation Sorted.
From Verif Require Import PyBase PyFacts Tsv TsvProofs Fs FsFacts HeadBag BagIt BagItProofs Split SplitProofs2 SplitApply SplitApplyProofs SplitApplyProofs2 SplitApplyProofs8 Restore RestoreProofs.
Import ListNotations.
Open Scope N_scope.

Lemma is_dir_get p t : p <> [] -> is_dir p t = true <-> od_get p t = Some NDir.
Proof.
  intros Np. unfold is_dir. destruct p; [congruence|]. destruct (od_get _ t) as [[|]|]; split; intros; try congruence; discriminate.
Qed.

Lemma is_dir_get_false p t : p <> [] -> is_dir p t = false <-> od_get p t <> Some NDir.
Proof.
  intros Np. rewrite <- (is_dir_get p t Np). destruct (is_dir p t); split; intros; try congruence; discriminate.
Qed.

Lemma write_file_succeeds p c t : is_dir p t = false -> is_dir (dirname p) t = true ->
  write_file p c t = Ok (od_set p (NFile c) t).
Proof. intros A B. unfold write_file. rewrite A, B. reflexivity. Qed.

(** A file at the top of a tree can be written if no directory has its name. *)
Lemma write_top_succeeds p c t : good_path p -> ~ In SLASH p -> od_get p t <> Some NDir ->
  write_file p c t = Ok (od_set p (NFile c) t).
Proof.
  intros G Ns D. apply write_file_succeeds.
  - apply is_dir_get_false; auto. apply good_path_nonempty; auto.
  - rewrite dirname_none by auto. reflexivity.
Qed.

Lemma mkall_app l1 l2 t : mkall (l1 ++ l2) t = let? t1 := mkall l1 t in mkall l2 t1.
Proof. unfold mkall. apply foldM_app. Qed.

Lemma mkall_there l : forall t, (forall q, In q l -> exists_ q t = true) -> mkall l t = Ok t.
Proof.
  induction l as [|x l IH]; intros t H; [reflexivity|]. unfold mkall. cbn [foldM].
  rewrite (H x) by (left; auto). cbn [bind]. apply IH. intros q I. apply H. right; auto.
Qed.

Lemma prefixes_of_snoc cs : forall d c, prefixes_of d (cs ++ [c]) = prefixes_of d cs ++ [pjoin (fold_left pjoin cs d) c].
Proof. induction cs as [|x cs IH]; intros d c; cbn [app prefixes_of fold_left]; [reflexivity|]. rewrite IH. reflexivity. Qed.

Lemma fold_pjoin_app cs1 : forall cs2 d, fold_left pjoin (cs1 ++ cs2) d = fold_left pjoin cs2 (fold_left pjoin cs1 d).
Proof. intros. apply fold_left_app. Qed.

Lemma makedirs_child d f t : wf_tree t -> good_path (pjoin d f) -> ~ In SLASH f -> is_dir d t = true ->
  exists_ (pjoin d f) t = false -> makedirs (pjoin d f) t = Ok (od_set (pjoin d f) NDir t).
Proof.
  intros W G Nf D E. set (p := pjoin d f) in *.
  assert (Np : p <> []) by (apply good_path_nonempty; auto).
  assert (Dp : dirname p = d) by (apply dirname_pjoin; auto).
  assert (X : exists l, prefixes p = l ++ [p] /\ forall q, In q l -> q <> p).
  { assert (ND : NoDup (prefixes p) /\ exists l, prefixes p = l ++ [p]).
    { split.
      - destruct p as [|c p']; [congruence|]. unfold prefixes.
        assert (Gl : forall cs d, Forall (fun w => w <> []) cs ->
                  NoDup (prefixes_of d cs) /\ forall q, In q (prefixes_of d cs) -> (length d < length q)%nat).
        { induction cs as [|w cs IH]; intros d0 F; cbn [prefixes_of]; [split; [constructor|intros q []]|].
          inversion F as [|? ? Fw Fc]; subst. destruct (IH (pjoin d0 w) Fc) as [I1 I2].
          assert (Lw : (length d0 < length (pjoin d0 w))%nat).
          { unfold pjoin. destruct d0; [destruct w; [congruence|cbn; lia]|]. rewrite !app_length. cbn. lia. }
          split; [constructor; auto|].
          - intros I. apply I2 in I. lia.
          - intros q [<-|I]; [auto|]. apply I2 in I. lia. }
        apply Gl. unfold good_path in G. rewrite Forall_forall in G |- *. intros w Iw. apply G in Iw. apply Iw.
      - destruct (exists_last (split_on_nonempty SLASH p)) as (cs & c & Ec).
        destruct p as [|x p'] eqn:Ep; [congruence|]. unfold prefixes. rewrite Ec, prefixes_of_snoc.
        assert (J : pjoin (fold_left pjoin cs []) c = x :: p').
        { assert (Js : forall l d0, Forall (fun w => w <> []) l -> l <> [] -> fold_left pjoin l d0 = pjoin d0 (join [SLASH] l)).
          { induction l as [|w l IH]; intros d0 F Nl; [congruence|]. inversion F; subst. cbn [fold_left].
            destruct l as [|w' l]; [reflexivity|]. rewrite IH; auto; [|discriminate].
            change (join [SLASH] (w :: w' :: l)) with (w ++ [SLASH] ++ join [SLASH] (w' :: l)).
            unfold pjoin at 1 2. destruct d0 as [|y d0].
            - destruct w; [congruence|]. reflexivity.
            - cbn [app]. unfold pjoin. cbn [app]. rewrite <- !app_assoc. cbn [app]. reflexivity. }
          assert (Fg : Forall (fun w => w <> []) (split_on SLASH (x :: p'))).
          { unfold good_path in G. rewrite Forall_forall in G |- *. intros w Iw. apply G in Iw. apply Iw. }
          pose proof (Js (split_on SLASH (x :: p')) [] Fg (split_on_nonempty _ _)) as J. rewrite join_split in J. cbn [pjoin] in J.
          rewrite Ec, fold_left_app in J. exact J. }
        rewrite J. eauto. }
    destruct ND as [ND (l & El)]. exists l. split; auto. intros q I ->. rewrite El in ND.
    apply NoDup_remove_2 in ND. rewrite app_nil_r in ND. contradiction. }
  destruct X as (l & El & Hl). unfold makedirs. rewrite El. change (mkall (l ++ [p]) t = Ok (od_set p NDir t)). rewrite mkall_app, mkall_there.
  - cbn [bind]. unfold mkall. cbn [foldM]. rewrite E. unfold mkdir. rewrite E, Dp, D. reflexivity.
  - intros q I. assert (Iq : In q (prefixes p)) by (rewrite El; apply in_or_app; auto). apply in_prefixes in Iq; auto.
    destruct Iq as [Nq [Eq|B]]; [exfalso; apply (Hl q I); auto|]. apply below_dirname in B; auto. rewrite Dp in B.
    unfold exists_. apply orb_true_iff. right. destruct B as [<-|B]; [auto|].
    apply is_dir_cases in D. destruct D as [->|D].
    + destruct q; [congruence|]. cbn in B. discriminate.
    + apply is_dir_get; auto. apply below_iff in B; auto. destruct B as [r B].
      apply in_dirs; [apply wf_nodup; auto|]. eapply wf_ancestor; eauto. eapply od_get_some_key; eauto.
Qed.

(** One step succeeds in a directory that exists in the destination. *)
Lemma step_succeeds src i dest u : wf_tree src -> wf_tree dest -> fits src i ->
  (forall d f, i = IFile d f \/ i = IDir d f -> ~ In SLASH f) ->
  is_dir (dirname (path_of i)) dest = true ->
  exists dest' u', restore_item false src (dest, u) i = Ok (dest', u').
Proof.
  intros Ws Wd (G & Dn & Hs & Hf) Nf Ed. destruct i as [d|d f|d f]; [destruct Hs| |]; cbn [path_of] in *.
  - cbn [restore_item andb bind]. destruct (exists_ (pjoin d f) dest) eqn:E; [eauto|].
    pose proof (good_path_nonempty _ G) as Np.
    unfold replicate_ro. assert (X : exists_ (pjoin d f) src = true) by (apply exists_get; auto; congruence).
    rewrite X. cbn [negb]. assert (Y : is_dir (pjoin d f) src = false).
    { apply is_dir_get_false; auto. unfold is_file in Hf. destruct (od_get _ src) as [[|]|]; congruence. }
    rewrite Y. assert (Z : exists_ (dirname (pjoin d f)) dest = true) by (unfold exists_; rewrite Ed, orb_true_r; auto).
    rewrite Z. cbv zeta. rewrite write_file_succeeds; [eauto| |auto].
    apply is_dir_get_false; auto. apply exists_get_false in E; auto. congruence.
  - cbn [restore_item]. destruct (exists_ (pjoin d f) dest) eqn:E; [eauto|].
    rewrite makedirs_child; auto; [cbn [bind]; eauto|eapply Nf; right; reflexivity|]. rewrite <- Dn. exact Ed.
Qed.

Lemma adds_is_dir p n t t' d : adds p n t t' -> is_dir d t = true -> is_dir d t' = true.
Proof.
  intros A D. destruct d as [|c d]; [reflexivity|]. apply is_dir_get in D; [|discriminate]. apply is_dir_get; [discriminate|].
  rewrite A, D. reflexivity.
Qed.

Lemma dir_items_names skip src d i : In i (dir_items skip src d) ->
  forall e f, i = IFile e f \/ i = IDir e f -> ~ In SLASH f.
Proof.
  intros I e f H. unfold dir_items in I. apply in_app_iff in I. rewrite !in_map_iff in I.
  assert (X : exists p, f = basename p).
  { destruct I as [(g & E & J)|(g & E & J)]; apply filter_In in J; destruct J as [J _].
    - apply in_files_in in J. destruct J as (p & _ & _ & B). exists p. destruct H as [H|H]; congruence.
    - apply in_subdirs_in in J. destruct J as (p & _ & _ & B). exists p. destruct H as [H|H]; congruence. }
  destruct X as [p ->]. apply basename_no_slash.
Qed.

Lemma steps_succeed src d l : forall dest u, wf_tree src -> wf_tree dest ->
  Forall (fun i => fits src i /\ in_dir d i) l ->
  (forall i e f, In i l -> i = IFile e f \/ i = IDir e f -> ~ In SLASH f) ->
  is_dir d dest = true ->
  exists dest' u', foldM (restore_item false src) l (dest, u) = Ok (dest', u').
Proof.
  induction l as [|i l IH]; intros dest u Ws Wd F Nf Ed; cbn [foldM]; [eauto|].
  inversion F as [|? ? [Fi Di] Fl]; subst.
  assert (Dn : dirname (path_of i) = d).
  { destruct Fi as (_ & Dn & _). destruct i; cbn [in_dir] in Di; [destruct Di| |]; congruence. }
  destruct (step_succeeds src i dest u Ws Wd Fi) as (t1 & u1 & E).
  - intros e f. apply Nf. left; auto.
  - rewrite Dn. exact Ed.
  - rewrite E. cbn [bind].
    assert (Ex : exists_ (dirname (path_of i)) dest = true) by (unfold exists_; rewrite Dn, Ed, orb_true_r; auto).
    destruct (step_ok _ _ _ _ _ _ Ws Wd Fi Ex E) as (A & W1 & _). apply IH; auto.
    + intros j e f I. apply Nf. right; auto.
    + eapply adds_is_dir; eauto.
Qed.

Lemma skipped_gone skip d : skipped_root skip d = gone skip d.
Proof. apply eq_true_iff_eq. rewrite skipped_iff, gone_iff. tauto. Qed.

Lemma depth_dirname d : good_path d -> dirname d <> [] -> (depth (dirname d) < depth d)%nat.
Proof.
  intros G N0. destruct (path_cases d G) as [(_ & E & _)|(e & b & -> & _ & _ & _ & E & _)]; [congruence|]. rewrite E.
  unfold depth. rewrite split_on_app_gen, app_length. pose proof (split_on_nonempty SLASH b).
  destruct (split_on SLASH b); [congruence|cbn; lia].
Qed.

(** Parents come before their children in the walk. *)
Lemma parent_first src l1 d l2 : wf_tree src -> [] :: bf_dirs src = l1 ++ d :: l2 -> d <> [] -> In (dirname d) l1.
Proof.
  intros W E Nd. destruct l1 as [|x l1]; cbn [app] in E; [congruence|]. inversion E as [[Ex El]]. subst x.
  assert (Id : In d (dirs src)). { apply bf_dirs_in. rewrite El. apply in_or_app. right; left; auto. }
  destruct (wf_parent_dir _ W _ (dirs_key _ _ Id)) as [X|X]; [left; auto|]. right.
  assert (G : good_path d) by (eapply wf_good; [exact W|eapply dirs_key; eauto]).
  assert (Np : dirname d <> []).
  { intros Z. rewrite Z in X. apply dirs_key in X. apply (wf_good _ W) in X. apply good_path_nonempty in X. congruence. }
  apply bf_dirs_in in X. rewrite El in X. apply in_app_iff in X. destruct X as [X|X]; auto. exfalso.
  assert (So : StronglySorted (fun a b => Nat.leb (depth a) (depth b) = true) (l1 ++ d :: l2)).
  { rewrite <- El. unfold bf_dirs. apply isort_sorted.
    - intros a b. destruct (Nat.leb_spec (depth a) (depth b)); auto. right. apply Nat.leb_le. lia.
    - intros a b c A B. apply Nat.leb_le in A, B. apply Nat.leb_le. lia. }
  assert (S2 : StronglySorted (fun a b => Nat.leb (depth a) (depth b) = true) (d :: l2)).
  { clear - So. induction l1 as [|x l1 IH]; [exact So|]. cbn [app] in So. inversion So; auto. }
  inversion S2 as [|? ? _ F]; subst. rewrite Forall_forall in F. pose proof (depth_dirname d G Np).
  destruct X as [X|X].
  - rewrite <- X in H. lia.
  - apply F in X. apply Nat.leb_le in X. lia.
Qed.

(** Copying a bag succeeds if no directory of the bag is a file in the
    destination. *)
Lemma copy_succeeds skip src dest : ~ In [] skip -> wf_tree src -> wf_tree dest ->
  (forall p, od_get p src = Some NDir -> gone skip p = false -> is_file p dest = false) ->
  exists dest' u, copy_items false skip src dest = Ok (dest', u).
Proof.
  intros N0 Ws Wd Hc. unfold copy_items. rewrite items_blocks.
  enough (K : forall l2 l1, [] :: bf_dirs src = l1 ++ l2 -> forall t u, wf_tree t -> filled (chosen skip src l1) src dest t ->
            exists dest' u', foldM (restore_item false src) (flat_map (block skip src) l2) (t, u) = Ok (dest', u')).
  { apply (K _ []); auto. intros q. repeat split; auto. intros _ (_ & [] & _). }
  induction l2 as [|d l2 IH]; intros l1 El t u Wt F; [cbn; eauto|].
  cbn [flat_map]. rewrite foldM_app.
  assert (St : exists t1 u1, foldM (restore_item false src) (block skip src d) (t, u) = Ok (t1, u1)).
  { unfold block. destruct (skipped_root skip d) eqn:S; [cbn; eauto|].
    assert (Dt : is_dir d t = true).
    { destruct d as [|c d']; [reflexivity|]. set (d := c :: d') in *. assert (Nd : d <> []) by discriminate.
      assert (Id : od_get d src = Some NDir).
      { apply in_dirs; [apply wf_nodup; auto|]. apply bf_dirs_in. assert (I : In d ([] :: bf_dirs src)).
        { rewrite El. apply in_or_app. right; left; auto. }
        destruct I as [I|I]; [congruence|auto]. }
      pose proof (parent_first src l1 d l2 Ws El Nd) as Ip.
      assert (Gd : good_path d) by exact (get_good _ _ _ Ws Id).
      pose proof S as S'. rewrite skipped_gone in S'. rewrite gone_dirname in S' by auto. apply orb_false_iff in S'. destruct S' as [S1 S2].
      apply is_dir_get; auto. destruct (F d) as (F1 & F2 & _). destruct (od_get d dest) as [n|] eqn:Ed.
      - rewrite F1 by discriminate. rewrite <- Ed. rewrite Ed. destruct n as [|cn]; auto. exfalso.
        assert (X : is_file d dest = false) by (apply Hc; auto; rewrite <- skipped_gone; auto).
        unfold is_file in X. rewrite Ed in X. discriminate.
      - rewrite F2; auto. repeat split; auto. congruence. }
    cbn [foldM restore_item]. assert (Ex : exists_ d t = true) by (unfold exists_; rewrite Dt, orb_true_r; auto).
    rewrite Ex. cbn [bind]. apply (steps_succeed src d); auto.
    - apply dir_items_fits. auto.
    - intros i e f I. eapply dir_items_names; eauto. }
  destruct St as (t1 & u1 & E1). rewrite E1. cbn [bind].
  assert (B : filled (chosen skip src [d]) src t t1 /\ wf_tree t1).
  { apply (blocks_ok skip src [d] t u t1 u1); auto. cbn [flat_map]. rewrite app_nil_r. exact E1. }
  destruct B as [F1 W1]. apply (IH (l1 ++ [d])); auto; [rewrite <- app_assoc; exact El|].
  eapply filled_iff; [|eapply filled_trans; [| |exact F|exact F1]].
  - intros q. unfold chosen. rewrite in_app_iff. tauto.
  - intros q. apply chosen_dec.
  - intros q [X|X]; apply X.
Qed.

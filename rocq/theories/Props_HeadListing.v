(** * Head bags do not depend on the order in which files are listed (C144) *)

Require Import String NArith ZArith PeanoNat Bool List Lia Permutation.
From Verif Require Import PyBase PyFacts Version Tsv TsvProofs Fs FsFacts HeadBag HeadBagProofs HeadBagProofs2 HeadBagProofs3
  Props_HeadBag Props_Reproducible.
Import ListNotations.
Open Scope N_scope.

(** ** Reading the lists of a head bag *)

(** The same handle on a bag whose files are listed in another order. *)
Definition same_handle (h h' : hb) : Prop :=
  exists t', Permutation (hb_tree h) t' /\ h' = set_tree h t'.

(** Reading a head bag that is listed in another order gives the same answer,
    and handles that are alike again. *)
Definition same_read {A} (f : M A) : Prop := forall h h', wf_tree (hb_tree h) -> same_handle h h' ->
  snd (f h') = snd (f h) /\ same_handle (fst (f h)) (fst (f h')).

Section Handle.
  Variables (h : hb) (t' : tree).
  Hypothesis W : wf_tree (hb_tree h).
  Hypothesis P : Permutation (hb_tree h) t'.

  Lemma hl_exists p : exists_ p t' = exists_ p (hb_tree h).
  Proof. unfold exists_, is_file, is_dir. rewrite (listed_get _ _ W P). reflexivity. Qed.
  Lemma hl_members : iter_member_bags (set_tree h t') = iter_member_bags h.
  Proof.
    unfold iter_member_bags. cbn [hb_tree hb_info hb_reader set_tree]. destruct (tag_dir_raw (hb_info h)) as [d|e]; cbn [bind]; [|reflexivity].
    rewrite (listed_read _ _ W P). reflexivity.
  Qed.
  Lemma hl_lookup : iter_file_lookup (set_tree h t') = iter_file_lookup h.
  Proof.
    unfold iter_file_lookup. cbn [hb_tree hb_info hb_reader set_tree]. destruct (tag_dir_raw (hb_info h)) as [d|e]; cbn [bind]; [|reflexivity].
    rewrite (listed_read _ _ W P). reflexivity.
  Qed.
  Lemma hl_deleted : iter_deleted (set_tree h t') = iter_deleted h.
  Proof. unfold iter_deleted. cbn [hb_tree hb_info hb_reader set_tree]. rewrite (listed_read _ _ W P), hl_exists. reflexivity. Qed.
  Lemma hl_cache : cache_file_lookup (set_tree h t') = (set_tree (fst (cache_file_lookup h)) t', snd (cache_file_lookup h)) /\
    hb_tree (fst (cache_file_lookup h)) = hb_tree h.
  Proof.
    unfold cache_file_lookup. rewrite hl_lookup. destruct (iter_file_lookup h); split; reflexivity.
  Qed.
End Handle.

Ltac alike t' P := exists t'; split; [exact P|reflexivity].

Theorem C144_members : forall reread, same_read (HeadBag.member_bags reread) /\ same_read (member_bags_ro reread).
Proof.
  intros reread. assert (R : same_read (member_bags_ro reread)).
  { intros h h' W (t' & P & ->). unfold member_bags_ro. rewrite (hl_members h t' W P). cbn [hb_mem set_tree].
    destruct (hb_mem h); [destruct reread|]; [destruct (iter_member_bags h)| |destruct (iter_member_bags h)];
      (split; [reflexivity|alike t' P]). }
  split; [|exact R]. intros h h' W S. destruct (R h h' W S) as [E S']. unfold HeadBag.member_bags.
  destruct (member_bags_ro reread h') as [h1' x1'], (member_bags_ro reread h) as [h1 x1]. cbn [fst snd] in *. subst x1'.
  destruct S' as (t1 & P1 & ->). destruct x1 as [l|[]]; (split; [reflexivity|alike t1 P1]).
Qed.

Theorem C144_lookup : forall p reread, same_read (lookup_file p reread) /\ same_read (lookup_file_ro p reread).
Proof.
  intros p reread. assert (R : same_read (lookup_file_ro p reread)).
  { intros h h' W (t' & P & ->). unfold lookup_file_ro. cbn [hb_lu set_tree]. destruct (hl_cache h t' W P) as [E T].
    assert (X : forall u : unit,
      snd (match cache_file_lookup (set_tree h t') with
           | (h', Ok _) => match hb_lu h' with Some d => (h', Ok (od_get p d)) | None => (h', Err EAttribute) end
           | (h', Err e) => (h', Err e) end) =
      snd (match cache_file_lookup h with
           | (h', Ok _) => match hb_lu h' with Some d => (h', Ok (od_get p d)) | None => (h', Err EAttribute) end
           | (h', Err e) => (h', Err e) end) /\
      same_handle (fst (match cache_file_lookup h with
           | (h', Ok _) => match hb_lu h' with Some d => (h', Ok (od_get p d)) | None => (h', Err EAttribute) end
           | (h', Err e) => (h', Err e) end))
        (fst (match cache_file_lookup (set_tree h t') with
           | (h', Ok _) => match hb_lu h' with Some d => (h', Ok (od_get p d)) | None => (h', Err EAttribute) end
           | (h', Err e) => (h', Err e) end))).
    { intros _. rewrite E. destruct (cache_file_lookup h) as [h1 x1]. cbn [fst snd] in *. destruct x1 as [u|e].
      - cbn [hb_lu set_tree]. destruct (hb_lu h1); (split; [reflexivity|]); exists t'; (split; [cbn [fst]; rewrite T; exact P|reflexivity]).
      - split; [reflexivity|]. exists t'. split; [cbn [fst]; rewrite T; exact P|reflexivity]. }
    destruct (hb_lu h); [destruct reread|]; [apply (X tt)|split; [reflexivity|alike t' P]|apply (X tt)]. }
  split; [|exact R]. intros h h' W S. destruct (R h h' W S) as [E S']. unfold lookup_file.
  destruct (lookup_file_ro p reread h') as [h1' x1'], (lookup_file_ro p reread h) as [h1 x1]. cbn [fst snd] in *. subst x1'.
  destruct S' as (t1 & P1 & ->). destruct x1 as [l|[]]; (split; [reflexivity|alike t1 P1]).
Qed.

Theorem C144_deleted : forall reread, same_read (deleted_paths reread).
Proof.
  intros reread h h' W (t' & P & ->). unfold deleted_paths. rewrite (hl_deleted h t' W P). cbn [hb_del set_tree].
  destruct (hb_del h); [destruct reread|]; [destruct (iter_deleted h)| |destruct (iter_deleted h)]; (split; [reflexivity|alike t' P]).
Qed.

(** ** Registering the files of a member bag *)

Definition relist (s : src) (t' : tree) : src := {| s_name := s_name s; s_tree := t'; s_ro := s_ro s |}.

Lemma selected_relisted t t' incl excl p : wf_tree t -> Permutation t t' -> selected t incl excl p <-> selected t' incl excl p.
Proof.
  intros W P. unfold selected, is_file.
  assert (D : forall i, is_dir i t = is_dir i t') by (intros i; unfold is_dir; destruct i; rewrite ?(listed_get _ _ W P); reflexivity).
  rewrite (listed_get _ _ W P). split; intros (F & i & I0 & N0 & H); (split; [exact F|]); exists i; (split; [exact I0|split; [exact N0|]]);
    (destruct H as [H|(H1 & H2)]; [left; exact H|right; split; [|exact H2]]); [rewrite <- D|rewrite D]; exact H1.
Qed.

Lemma selected_dec s incl excl p : wf_tree (s_tree s) -> Forall good_path incl ->
  (s_ro s = false \/ flat_exclusions (s_tree s) excl) ->
  selected (s_tree s) incl excl p \/ ~ selected (s_tree s) incl excl p.
Proof.
  intros W G M. induction G as [|i l Gi _ IH].
  - right. intros (_ & i & [] & _).
  - destruct (step_files_selected s excl i W Gi M) as (fs & _ & E). destruct (str_in p fs) eqn:B.
    + left. apply str_in_iff in B. apply E in B. destruct B as (F & j & [<-|[]] & H). split; [exact F|]. exists i. split; [left; reflexivity|exact H].
    + destruct IH as [IH|IH].
      * left. destruct IH as (F & j & J & H). split; [exact F|]. exists j. split; [right; exact J|exact H].
      * right. intros (F & j & [->|J] & H).
        -- assert (X : In p fs) by (apply E; split; [exact F|]; exists j; split; [left; reflexivity|exact H]). apply str_in_iff in X. congruence.
        -- apply IH. split; [exact F|]. exists j. split; [exact J|exact H].
Qed.

(** The files of a member bag are registered alike in whatever order the
    member bag is listed: every path has the same bag afterwards. The
    conditions are those of C11. *)
Theorem C144_update_partial : forall s t' include excl mk name h d l,
  wf_tree (s_tree s) -> Permutation (s_tree s) t' -> Forall good_path (incl_of include) -> s_name s <> [] ->
  (s_ro s = false \/ flat_exclusions (s_tree s) excl) ->
  cur_table h = Ok d -> NoDup (od_keys d) -> nonempty_keys d -> cur_members h = Ok l ->
  exists h1 h2, update_for_member s include (SList excl) mk name h = (h1, Ok tt) /\
    update_for_member (relist s t') include (SList excl) mk name h = (h2, Ok tt) /\
    (forall p, snd (lookup_file p false h1) = snd (lookup_file p false h2)) /\
    (exists l1 l2, cur_members h1 = Ok l1 /\ cur_members h2 = Ok l2 /\ names l1 = names l2) /\
    same_disk h h1 /\ same_disk h h2.
Proof.
  intros s t' include excl mk name h d l W P G Nn M Hd Nd Ne Hl.
  assert (W' : wf_tree (s_tree (relist s t'))) by (exact (perm_wf _ _ W P)).
  assert (M' : s_ro (relist s t') = false \/ flat_exclusions (s_tree (relist s t')) excl).
  { destruct M as [M|M]; [left; exact M|right]. intros a p I0 F B. apply (M a p I0); [|exact B]. unfold is_file in *. rewrite (listed_get _ _ W P). exact F. }
  destruct (C11_update_for_member_partial s include excl mk name h d l W G Nn M Hd Nd Ne Hl) as (h1 & U1 & A1 & A2 & A3 & A4).
  destruct (C11_update_for_member_partial (relist s t') include excl mk name h d l W' G Nn M' Hd Nd Ne Hl) as (h2 & U2 & B1 & B2 & B3 & B4).
  exists h1, h2. split; [exact U1|]. split; [exact U2|]. split; [|split; [|auto]].
  - intros p. destruct (selected_dec s (incl_of include) excl p W G M) as [Y|Y].
    + rewrite (A1 p Y). symmetry. apply B1. apply (selected_relisted (s_tree s) t'); assumption.
    + rewrite (A2 p Y). symmetry. apply B2. intros Z. apply Y. apply (selected_relisted (s_tree s) t'); assumption.
  - destruct mk.
    + destruct A3 as (l1 & X1 & Y1), B3 as (l2 & X2 & Y2). exists l1, l2. split; [exact X1|]. split; [exact X2|]. rewrite Y1. symmetry. exact Y2.
    + exists l, l. auto.
Qed.

Print Assumptions C144_members.
Print Assumptions C144_lookup.
Print Assumptions C144_deleted.
Print Assumptions C144_update_partial.

Theorem C144_files_in_member : forall b, same_read (files_in_member b).
Proof.
  intros b h h' W (t' & P & ->). unfold files_in_member. cbn [hb_lu set_tree]. destruct (hb_lu h); [split; [reflexivity|alike t' P]|].
  destruct (hl_cache h t' W P) as [E T]. rewrite E. destruct (cache_file_lookup h) as [h1 x1]. cbn [fst snd] in *.
  assert (S1 : same_handle h1 (set_tree h1 t')) by (exists t'; split; [rewrite T; exact P|reflexivity]).
  destruct x1 as [u|[]]; [cbn [hb_lu set_tree]; destruct (hb_lu h1)|..]; (split; [reflexivity|exact S1]).
Qed.
Print Assumptions C144_files_in_member.

(** A case: the bag of C11_ex listed from the end. *)
Definition ex_handle (t : tree) : hb := open_hb (U "head") t ex_info Codecs.
Definition ex_updated (t : tree) : hb * res unit :=
  (update_for_member {| s_name := U "m"; s_tree := t; s_ro := false |} SNone (SList [U "data/f2"]) true None ;; save_file_lookup) ex_hb.

Example C144_case :
  wf_tree ex_tree /\ same_handle ex_hb (ex_handle (rev ex_tree)) /\
  snd (member_bags false (ex_handle (rev ex_tree))) = Ok [mb "a"; mb "b"; mb "head"] /\
  snd (lookup_file (U "data/y") false (ex_handle (rev ex_tree))) = Ok (Some (U "b")) /\
  snd (deleted_paths false (ex_handle (rev ex_tree))) = Ok [U "data/old"] /\
  snd (files_in_member (U "a") (ex_handle (rev ex_tree))) = Ok [U "data/x"; U "data/z"] /\
  snd (ex_updated (rev ex_tree)) = Ok tt /\
  snd (lookup_file (U "data/p/f1") false (fst (ex_updated (rev ex_tree)))) = Ok (Some (U "m")) /\
  snd (lookup_file (U "data/f2") false (fst (ex_updated (rev ex_tree)))) = Ok None.
Proof.
  split; [apply wf_treeb_ok; vm_compute; reflexivity|]. split; [exists (rev ex_tree); split; [apply Permutation_rev|reflexivity]|].
  vm_compute. repeat split.
Qed.

(** Not so for the text of file-lookup.tsv: its lines are in the order in
    which the member bag was listed. *)
Definition ex_member (a b : string) : tree :=
  [(U "data", NDir); (U "data/p", NDir); (U "data" ++ [SLASH] ++ U a, NFile (U "one")); (U "data" ++ [SLASH] ++ U b, NFile (U "one"))].

Theorem C144_refuted : exists t t' c c', wf_tree t /\ Permutation t t' /\
  snd (ex_updated t) = Ok tt /\ snd (ex_updated t') = Ok tt /\
  read (U "multibag/file-lookup.tsv") (hb_tree (fst (ex_updated t))) = Some c /\
  read (U "multibag/file-lookup.tsv") (hb_tree (fst (ex_updated t'))) = Some c' /\ c <> c'.
Proof.
  exists (ex_member "f3" "f4"), (ex_member "f4" "f3"),
    (tabline "data/x" "a" ++ tabline "data/y" "b" ++ tabline "data/z" "a" ++ tabline "data/f3" "m" ++ tabline "data/f4" "m"),
    (tabline "data/x" "a" ++ tabline "data/y" "b" ++ tabline "data/z" "a" ++ tabline "data/f4" "m" ++ tabline "data/f3" "m").
  split; [apply wf_treeb_ok; vm_compute; reflexivity|]. split; [apply perm_skip, perm_skip, perm_swap|].
  split; [vm_compute; reflexivity|]. split; [vm_compute; reflexivity|]. split; [vm_compute; reflexivity|]. split; [vm_compute; reflexivity|].
  intros X. discriminate X.
Qed.
Print Assumptions C144_refuted.

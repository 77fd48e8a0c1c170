(** * Histories of a head bag do not depend on the order in which files are listed (C144) *)

Require Import String NArith ZArith PeanoNat Bool List Lia Permutation.
From Verif Require Import PyBase PyFacts Version Tsv TsvProofs Fs FsFacts HeadBag HeadBagProofs HeadBagProofs2 HeadBagProofs3
  Props_HeadBag Props_Reproducible Props_HeadListing.
Import ListNotations.
Open Scope N_scope.

(** ** Specification *)

(** What can be done with a head bag that is open for updates. *)
Inductive call : Type :=
| CMembers (reread : bool)
| CLookup (p : pystr) (reread : bool)
| CDeleted (reread : bool)
| CFilesIn (bag : pystr)
| CAddMember (m : minfo) (override : bool)
| CRemoveMember (bag : pystr)
| CSetMembers (l : list minfo)
| CAddLookup (p bag : pystr)
| CRemoveLookup (p : pystr)
| CClearLookup
| CSetDeleted (p : pystr)
| CUnsetDeleted (p : pystr)
| CUpdateFor (s : src) (include exclude : sel) (make_member : bool) (name : option pystr)
| CSaveMembers
| CSaveLookup
| CSaveDeleted
| CUpdateInfo (version : option pystr) (profver bsize : pystr)
| CReopen (r : reader).

(** What a call gives back. *)
Inductive answer : Type :=
| AMembers (x : res (list minfo))
| ALookup (x : res (option pystr))
| APaths (x : res (list pystr))
| ANone (x : res unit).

Definition giving {A} (k : res A -> answer) (f : M A) (h : hb) : hb * answer := (fst (f h), k (snd (f h))).

Definition do_call (c : call) : hb -> hb * answer :=
  match c with
  | CMembers rr => giving AMembers (HeadBag.member_bags rr)
  | CLookup p rr => giving ALookup (lookup_file p rr)
  | CDeleted rr => giving APaths (deleted_paths rr)
  | CFilesIn b => giving APaths (files_in_member b)
  | CAddMember m o => giving ANone (add_member_bag m o)
  | CRemoveMember b => giving ANone (remove_member_bag b)
  | CSetMembers l => giving ANone (set_member_bags l)
  | CAddLookup p b => giving ANone (add_file_lookup p b)
  | CRemoveLookup p => giving ANone (remove_file_lookup p)
  | CClearLookup => giving ANone clear_file_lookup
  | CSetDeleted p => giving ANone (set_deleted p)
  | CUnsetDeleted p => giving ANone (unset_deleted p)
  | CUpdateFor s i e mk n => giving ANone (update_for_member s i e mk n)
  | CSaveMembers => giving ANone save_member_bags
  | CSaveLookup => giving ANone save_file_lookup
  | CSaveDeleted => giving ANone save_deleted
  | CUpdateInfo v pv bs => giving ANone (update_info v pv bs)
  | CReopen r => fun h => (reopen r h, ANone (Ok tt))
  end.

(** A history: calls one after the other, whether they raise or not. *)
Fixpoint do_calls (cs : list call) (h : hb) : hb * list answer :=
  match cs with
  | [] => (h, [])
  | c :: cs => let '(h1, a) := do_call c h in let '(h2, l) := do_calls cs h1 in (h2, a :: l)
  end.

(** ** Proofs *)

(** The same files and directories. *)
Definition sim (t t' : tree) : Prop :=
  NoDup (od_keys t) /\ NoDup (od_keys t') /\ forall p, od_get p t = od_get p t'.

Lemma sim_perm t t' : sim t t' -> Permutation t t'.
Proof.
  intros (A & B & E). apply NoDup_Permutation; [eapply NoDup_map_inv; exact A|eapply NoDup_map_inv; exact B|].
  intros [k n]. split; intros I0; apply od_get_in; [rewrite <- E|rewrite E]; apply od_in_get; assumption.
Qed.
Lemma perm_sim t t' : wf_tree t -> Permutation t t' -> sim t t'.
Proof.
  intros W P. split; [apply wf_nodup; exact W|]. split; [apply wf_nodup; exact (perm_wf _ _ W P)|]. intros p. apply listed_get; assumption.
Qed.

Lemma sim_set p n t t' : sim t t' -> sim (od_set p n t) (od_set p n t').
Proof.
  intros (A & B & E). split; [apply od_set_NoDup; exact A|]. split; [apply od_set_NoDup; exact B|]. intros q. rewrite !od_get_set, E. reflexivity.
Qed.
Lemma sim_del p t t' : sim t t' -> sim (od_del p t) (od_del p t').
Proof.
  intros (A & B & E). split; [apply od_del_NoDup; exact A|]. split; [apply od_del_NoDup; exact B|]. intros q. rewrite !od_get_del, E by assumption. reflexivity.
Qed.

Section Sim.
  Variables t t' : tree.
  Hypothesis S : sim t t'.
  Lemma sim_get p : od_get p t' = od_get p t. Proof. destruct S as (_ & _ & E). symmetry. apply E. Qed.
  Lemma sim_read p : read p t' = read p t. Proof. unfold read. rewrite sim_get. reflexivity. Qed.
  Lemma sim_file p : is_file p t' = is_file p t. Proof. unfold is_file. rewrite sim_get. reflexivity. Qed.
  Lemma sim_dir p : is_dir p t' = is_dir p t. Proof. unfold is_dir. destruct p; rewrite ?sim_get; reflexivity. Qed.
  Lemma sim_exists p : exists_ p t' = exists_ p t. Proof. unfold exists_. rewrite sim_file, sim_dir. reflexivity. Qed.
End Sim.

(** A method that does not depend on the listing. *)
Definition blind {A} (f : M A) : Prop := forall h t', sim (hb_tree h) t' ->
  exists t1, f (set_tree h t') = (set_tree (fst (f h)) t1, snd (f h)) /\ sim (hb_tree (fst (f h))) t1.

Lemma set_set h t t' : set_tree (set_tree h t) t' = set_tree h t'.
Proof. reflexivity. Qed.

Lemma bl_ret {A} (a : A) : blind (retM a).
Proof. intros h t' S. exists t'. split; [reflexivity|exact S]. Qed.
Lemma bl_bind {A B} (x : M A) (f : A -> M B) : blind x -> (forall a, blind (f a)) -> blind (bindM x f).
Proof.
  intros X F h t' S. unfold bindM. destruct (X h t' S) as (t1 & E & S1). rewrite E. destruct (x h) as [h1 [a|e]]; cbn [fst snd] in *.
  - destruct (F a h1 t1 S1) as (t2 & E2 & S2). exists t2. split; assumption.
  - exists t1. split; [reflexivity|exact S1].
Qed.
Lemma bl_for {A} (f : A -> M unit) l : (forall x, blind (f x)) -> blind (forM l f).
Proof. intros F. induction l as [|x l IH]; [apply bl_ret|]. cbn [forM]. apply bl_bind; [apply F|]. intros _. exact IH. Qed.

Lemma bl_members_of h t' : sim (hb_tree h) t' -> iter_member_bags (set_tree h t') = iter_member_bags h.
Proof.
  intros S. unfold iter_member_bags. cbn [hb_tree hb_info hb_reader set_tree]. destruct (tag_dir_raw (hb_info h)); cbn [bind]; [|reflexivity].
  rewrite (sim_read _ _ S). reflexivity.
Qed.
Lemma bl_lookup_of h t' : sim (hb_tree h) t' -> iter_file_lookup (set_tree h t') = iter_file_lookup h.
Proof.
  intros S. unfold iter_file_lookup. cbn [hb_tree hb_info hb_reader set_tree]. destruct (tag_dir_raw (hb_info h)); cbn [bind]; [|reflexivity].
  rewrite (sim_read _ _ S). reflexivity.
Qed.
Lemma bl_deleted_of h t' : sim (hb_tree h) t' -> iter_deleted (set_tree h t') = iter_deleted h.
Proof. intros S. unfold iter_deleted. cbn [hb_tree hb_info hb_reader set_tree]. rewrite (sim_read _ _ S), (sim_exists _ _ S). reflexivity. Qed.

Ltac same_tree t' S := exists t'; split; [reflexivity|exact S].

Lemma bl_members_ro rr : blind (member_bags_ro rr).
Proof.
  intros h t' S. unfold member_bags_ro. rewrite (bl_members_of h t' S). cbn [hb_mem set_tree].
  destruct (hb_mem h); [destruct rr|]; [destruct (iter_member_bags h)| |destruct (iter_member_bags h)]; same_tree t' S.
Qed.
Lemma bl_members rr : blind (HeadBag.member_bags rr).
Proof.
  intros h t' S. unfold HeadBag.member_bags. destruct (bl_members_ro rr h t' S) as (t1 & E & S1). rewrite E.
  destruct (member_bags_ro rr h) as [h1 [l|[]]]; cbn [fst snd] in *; same_tree t1 S1.
Qed.
Lemma bl_cache : blind cache_file_lookup.
Proof. intros h t' S. unfold cache_file_lookup. rewrite (bl_lookup_of h t' S). destruct (iter_file_lookup h); same_tree t' S. Qed.
Lemma bl_lookup p rr : blind (lookup_file p rr).
Proof.
  assert (R : blind (lookup_file_ro p rr)).
  { intros h t' S. unfold lookup_file_ro. cbn [hb_lu set_tree]. destruct (bl_cache h t' S) as (t1 & E & S1). rewrite E.
    destruct (hb_lu h); [destruct rr|]; [|same_tree t' S|]; (destruct (cache_file_lookup h) as [h1 [u|e]]; cbn [fst snd] in *;
      [change (hb_lu (set_tree h1 t1)) with (hb_lu h1); destruct (hb_lu h1)|]; same_tree t1 S1). }
  intros h t' S. unfold lookup_file. destruct (R h t' S) as (t1 & E & S1). rewrite E.
  destruct (lookup_file_ro p rr h) as [h1 [l|[]]]; cbn [fst snd] in *; same_tree t1 S1.
Qed.
Lemma bl_deleted rr : blind (deleted_paths rr).
Proof.
  intros h t' S. unfold deleted_paths. rewrite (bl_deleted_of h t' S). cbn [hb_del set_tree].
  destruct (hb_del h); [destruct rr|]; [destruct (iter_deleted h)| |destruct (iter_deleted h)]; same_tree t' S.
Qed.
Lemma bl_files_in b : blind (files_in_member b).
Proof.
  intros h t' S. unfold files_in_member. cbn [hb_lu set_tree]. destruct (hb_lu h); [same_tree t' S|].
  destruct (bl_cache h t' S) as (t1 & E & S1). rewrite E. destruct (cache_file_lookup h) as [h1 [u|[]]]; cbn [fst snd] in *;
    [change (hb_lu (set_tree h1 t1)) with (hb_lu h1); destruct (hb_lu h1)|..]; same_tree t1 S1.
Qed.
Lemma bl_set_deleted p : blind (set_deleted p).
Proof. intros h t' S. same_tree t' S. Qed.
Lemma bl_unset_deleted p : blind (unset_deleted p).
Proof. intros h t' S. same_tree t' S. Qed.
Lemma bl_add_lookup p b : blind (add_file_lookup p b).
Proof.
  intros h t' S. unfold add_file_lookup. destruct p as [|p0 p]; [same_tree t' S|]. destruct b as [|b0 b]; [same_tree t' S|].
  cbn [hb_lu set_tree]. destruct (hb_lu h) eqn:L.
  - same_tree t' S.
  - destruct (bl_cache h t' S) as (t1 & E & S1). rewrite E. destruct (cache_file_lookup h) as [h1 [u|[]]]; cbn [fst snd] in *;
      [change (hb_lu (set_tree h1 t1)) with (hb_lu h1); destruct (hb_lu h1)|..]; same_tree t1 S1.
Qed.
Lemma bl_remove_lookup p : blind (remove_file_lookup p).
Proof.
  intros h t' S. unfold remove_file_lookup. destruct p as [|p0 p]; [same_tree t' S|].
  cbn [hb_lu set_tree]. destruct (hb_lu h) eqn:L.
  - same_tree t' S.
  - destruct (bl_cache h t' S) as (t1 & E & S1). rewrite E. destruct (cache_file_lookup h) as [h1 [u|[]]]; cbn [fst snd] in *;
      [change (hb_lu (set_tree h1 t1)) with (hb_lu h1); destruct (hb_lu h1)|..]; same_tree t1 S1.
Qed.
Lemma bl_remove_member b : blind (remove_member_bag b).
Proof.
  assert (X : blind (do fs <- files_in_member b ; forM fs (fun f => unset_deleted f ;; remove_file_lookup f))).
  { apply bl_bind; [apply bl_files_in|]. intros fs. apply bl_for. intros f. apply bl_bind; [apply bl_unset_deleted|]. intros _. apply bl_remove_lookup. }
  intros h t' S. unfold remove_member_bag. cbn [hb_mem set_tree]. destruct (hb_mem h) as [l|].
  - exact (X (set_mem h (Some (filter (fun m => negb (streq (m_name m) b)) l))) t' S).
  - exact (X h t' S).
Qed.
Lemma bl_add_member m o : blind (add_member_bag m o).
Proof.
  unfold add_member_bag.
  change (blind (fun h => (( (fun h => match hb_mem h with Some _ => (h, Ok tt) | None => (do _ <- HeadBag.member_bags false ; retM tt) h end) ;;
    (fun h => (match hb_mem h with None => set_mem h (Some []) | Some _ => h end, Ok tt)) ;;
    (if o then remove_member_bag (m_name m) else retM tt) ;;
    (fun h => match hb_mem h with Some l => (set_mem h (Some (l ++ [m])), Ok tt) | None => (h, Err EAttribute) end)) h))).
  apply bl_bind; [|intros _; apply bl_bind; [|intros _; apply bl_bind; [|intros _]]].
  - intros h t' S. cbn [hb_mem set_tree]. destruct (hb_mem h); [same_tree t' S|].
    apply (bl_bind (HeadBag.member_bags false) (fun _ => retM tt)); [apply bl_members|intros _; apply bl_ret|exact S].
  - intros h t' S. cbn [hb_mem set_tree]. destruct (hb_mem h); same_tree t' S.
  - destruct o; [apply bl_remove_member|apply bl_ret].
  - intros h t' S. cbn [hb_mem set_tree]. destruct (hb_mem h); same_tree t' S.
Qed.
Lemma bl_set_members l : blind (set_member_bags l).
Proof. intros h t' S. same_tree t' S. Qed.
Lemma bl_tagdir : blind ensure_tagdir.
Proof.
  intros h t' S. unfold ensure_tagdir. cbn [hb_tree hb_info set_tree]. rewrite (sim_exists _ _ S). destruct (exists_ _ (hb_tree h)) eqn:X; [same_tree t' S|].
  unfold mkdir. rewrite (sim_exists _ _ S), (sim_dir _ _ S), X. destruct (is_dir _ (hb_tree h)); [|same_tree t' S].
  eexists. split; [reflexivity|]. apply sim_set. exact S.
Qed.
Lemma bl_put p c : blind (put_file p c).
Proof.
  intros h t' S. unfold put_file, write_file. cbn [hb_tree set_tree]. rewrite !(sim_dir _ _ S). destruct (is_dir p (hb_tree h)); [same_tree t' S|].
  destruct (is_dir (dirname p) (hb_tree h)); [|same_tree t' S]. eexists. split; [reflexivity|]. apply sim_set. exact S.
Qed.
Lemma bl_const {A} (x : res A) : blind (fun h => (h, x)).
Proof. intros h t' S. same_tree t' S. Qed.
Lemma bl_save_members : blind save_member_bags.
Proof.
  intros h t' S. unfold save_member_bags. cbn [hb_mem hb_info set_tree]. destruct (hb_mem h) as [l|]; [|same_tree t' S].
  apply (bl_bind ensure_tagdir); [apply bl_tagdir|intros _; apply bl_bind; [apply bl_put|intros _; apply bl_const]|exact S].
Qed.
Lemma bl_save_lookup : blind save_file_lookup.
Proof.
  intros h t' S. unfold save_file_lookup. cbn [hb_lu hb_info set_tree]. destruct (hb_lu h) as [l|]; [|same_tree t' S].
  apply (bl_bind ensure_tagdir); [apply bl_tagdir|intros _; apply bl_put|exact S].
Qed.
Lemma bl_clear : blind clear_file_lookup.
Proof.
  intros h t' S. unfold clear_file_lookup, remove_file. cbn [hb_tree hb_info set_tree]. rewrite (sim_exists _ _ S), (sim_file _ _ S).
  destruct (exists_ _ (hb_tree h)); [|same_tree t' S]. destruct (is_file _ (hb_tree h)); [|same_tree t' S].
  eexists. split; [reflexivity|]. apply sim_del. exact S.
Qed.
Lemma bl_save_deleted : blind save_deleted.
Proof.
  intros h t' S. unfold save_deleted. cbn [hb_del hb_info set_tree]. destruct (hb_del h) as [l|]; [|same_tree t' S].
  set (p := sjoin (tag_dir (hb_info h)) F_deleted).
  match goal with |- exists t1, (?rm ;; _) _ = _ /\ _ => apply (bl_bind rm); [|intros _; apply bl_bind; [apply bl_tagdir|intros _; apply bl_put]|exact S] end.
  intros h1 t1 S1. destruct l; [|same_tree t1 S1]. unfold remove_file. cbn [hb_tree set_tree]. rewrite (sim_exists _ _ S1), (sim_file _ _ S1).
  destruct (exists_ p (hb_tree h1)); [|same_tree t1 S1]. destruct (is_file p (hb_tree h1)); [|same_tree t1 S1].
  eexists. split; [reflexivity|]. apply sim_del. exact S1.
Qed.
Lemma bl_update_info v pv bs : blind (update_info v pv bs).
Proof. intros h t' S. same_tree t' S. Qed.
Lemma bl_update_for s i e mk n : blind (update_for_member s i e mk n).
Proof.
  unfold update_for_member. cbv zeta.
  set (z := match e with SNone => _ | SStr _ => _ | SList _ => _ end). destruct z as [incl excluded]. apply bl_bind; [destruct mk; [apply bl_add_member|apply bl_ret]|intros _].
  apply bl_for. intros y.
  repeat match goal with
  | |- blind (if ?b then _ else _) => destruct b
  | |- blind (match ?x with _ => _ end) => destruct x
  end; try apply bl_ret; try apply bl_const; try apply bl_add_lookup; apply bl_for; intros f; apply bl_add_lookup.
Qed.

Lemma bl_giving {A} (k : res A -> answer) (f : M A) h t' : blind f -> sim (hb_tree h) t' ->
  exists t1, giving k f (set_tree h t') = (set_tree (fst (giving k f h)) t1, snd (giving k f h)) /\ sim (hb_tree (fst (giving k f h))) t1.
Proof. intros F S. destruct (F h t' S) as (t1 & E & S1). exists t1. unfold giving. rewrite E. cbn [fst snd]. split; [reflexivity|exact S1]. Qed.

Lemma bl_call c h t' : sim (hb_tree h) t' ->
  exists t1, do_call c (set_tree h t') = (set_tree (fst (do_call c h)) t1, snd (do_call c h)) /\ sim (hb_tree (fst (do_call c h))) t1.
Proof.
  intros S. destruct c; cbn [do_call]; try (apply bl_giving; [|exact S]);
    auto using bl_members, bl_lookup, bl_deleted, bl_files_in, bl_add_member, bl_remove_member, bl_set_members, bl_add_lookup, bl_remove_lookup,
      bl_clear, bl_set_deleted, bl_unset_deleted, bl_update_for, bl_save_members, bl_save_lookup, bl_save_deleted, bl_update_info.
  exists t'. split; [reflexivity|exact S].
Qed.

(** Whatever is done with a head bag, all answers (and exceptions) are the
    same if its files are listed in another order, and in the end the bag has
    the same files with the same content. *)
Theorem C144_histories : forall cs h t', wf_tree (hb_tree h) -> Permutation (hb_tree h) t' ->
  snd (do_calls cs (set_tree h t')) = snd (do_calls cs h) /\
  exists t1, fst (do_calls cs (set_tree h t')) = set_tree (fst (do_calls cs h)) t1 /\ Permutation (hb_tree (fst (do_calls cs h))) t1 /\
    forall p, od_get p (hb_tree (fst (do_calls cs h))) = od_get p t1.
Proof.
  intros cs h t' W P. assert (S : sim (hb_tree h) t') by (apply perm_sim; assumption). clear W P.
  assert (G : snd (do_calls cs (set_tree h t')) = snd (do_calls cs h) /\
    exists t1, fst (do_calls cs (set_tree h t')) = set_tree (fst (do_calls cs h)) t1 /\ sim (hb_tree (fst (do_calls cs h))) t1).
  { revert h t' S. induction cs as [|c cs IH]; intros h t' S; cbn [do_calls].
    - split; [reflexivity|]. exists t'. split; [reflexivity|exact S].
    - destruct (bl_call c h t' S) as (t1 & E & S1). rewrite E. destruct (do_call c h) as [h1 a]. cbn [fst snd] in *.
      destruct (IH h1 t1 S1) as [A (t2 & B & S2)]. destruct (do_calls cs (set_tree h1 t1)) as [x1 x2], (do_calls cs h1) as [y1 y2]. cbn [fst snd] in *. subst x1 x2.
      split; [reflexivity|]. exists t2. split; [reflexivity|exact S2]. }
  destruct G as [A (t1 & B & S1)]. split; [exact A|]. exists t1. split; [exact B|]. split; [apply sim_perm; exact S1|]. apply S1.
Qed.
Print Assumptions C144_histories.

(** A case: the bag of C11_ex, listed from the end, updated, saved, opened
    again and read. *)
Definition ex_calls : list call :=
  [CLookup (U "data/y") false; CRemoveMember (U "a"); CAddMember (mb "c") true; CAddLookup (U "data/q") (U "c"); CSetDeleted (U "data/gone");
   CSaveMembers; CSaveLookup; CSaveDeleted; CReopen Codecs; CMembers false; CFilesIn (U "c"); CDeleted false; CLookup (U "data/x") true].

Example C144_histories_case :
  wf_tree (hb_tree ex_hb) /\ Permutation (hb_tree ex_hb) (rev ex_tree) /\ rev ex_tree <> hb_tree ex_hb /\
  snd (do_calls ex_calls (set_tree ex_hb (rev ex_tree))) =
    [ALookup (Ok (Some (U "b"))); ANone (Ok tt); ANone (Ok tt); ANone (Ok tt); ANone (Ok tt); ANone (Ok tt); ANone (Ok tt); ANone (Ok tt); ANone (Ok tt);
     AMembers (Ok [mb "a"; mb "b"; mb "head"; mb "c"]); APaths (Ok [U "data/q"]); APaths (Ok [U "data/gone"]); ALookup (Ok None)].
Proof.
  split; [apply wf_treeb_ok; vm_compute; reflexivity|]. split; [apply Permutation_rev|]. split; [intros X; discriminate X|].
  vm_compute. reflexivity.
Qed.

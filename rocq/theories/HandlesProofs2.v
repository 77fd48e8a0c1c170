(** Proofs about several handles: working in turns *)
Require Import String NArith PeanoNat Bool List Lia.
From Verif Require Import PyBase PyFacts Version Tsv TsvProofs Fs FsFacts HeadBag HeadBagProofs HeadBagProofs2 Handles SpecHandles HandlesProofs.
Import ListNotations.
Open Scope nat_scope.

(** ** Conditions *)

(** Names that both kinds of readers can read back. *)
Definition good_member (m : minfo) : Prop := forall r, storable_member r m.
Definition good_name (s : pystr) : Prop := forall r, storable r s.
Definition good_path (s : pystr) : Prop := forall r, storable_path r s.
Definition good_edit (e : edit) : Prop :=
  match e with
  | Add m => good_member m
  | Remove b => True
  | File p b => good_name p /\ good_name b
  | Unfile p => good_name p
  | Delete p => good_path p
  | Undelete p => True
  end.
Definition good_agg (g : agg) : Prop :=
  Forall good_member (g_members g) /\
  (NoDup (od_keys (g_files g)) /\ Forall (fun kv => good_name (fst kv) /\ good_name (snd kv)) (g_files g)) /\
  Forall good_path (g_deleted g).

(** The bag on disk has the aggregation [g], whoever opens it. *)
Definition holds (w : world) (g : agg) : Prop := forall r,
  let h := open_hb (w_name w) (w_tree w) (w_dinfo w) r in
  iter_member_bags h = Ok (g_members g) /\ iter_file_lookup h = Ok (g_files g) /\
  exists x, iter_deleted h = Ok x /\ forall p, In p x <-> In p (g_deleted g).

(** ** Saving succeeds *)

Lemma put_step f c h td : In f [F_members; F_lookup; F_deleted] -> tag_dir (hb_info h) = td ->
  tagdir_ok (hb_tree h) td -> NoDup (od_keys (hb_tree h)) ->
  exists t', (ensure_tagdir ;; put_file (sjoin td f) c) h = (set_tree h t', Ok tt) /\
    read (sjoin td f) t' = Some c /\ (forall q, q <> sjoin td f -> read q t' = read q (hb_tree h)) /\
    tagdir_ok t' td /\ NoDup (od_keys t').
Proof.
  intros If <- TO ND. destruct (ensure_put_succeeds f c h If TO) as (t' & E & TO' & ND').
  exists t'. split; auto. destruct (ensure_put_ok _ _ _ _ E) as (t2 & E2 & R1 & R2).
  assert (t2 = t') as -> by (injection E2; auto). repeat split; auto; apply TO'.
Qed.

Lemma save_members_step h td L : hb_mem h = Some L -> tag_dir (hb_info h) = td ->
  tagdir_ok (hb_tree h) td -> NoDup (od_keys (hb_tree h)) -> Forall good_member L ->
  exists t', save_member_bags h = (set_tree h t', Ok tt) /\
    read (sjoin td F_members) t' = Some (flat_map (fun m => member_body m ++ [LF]) L) /\
    (forall q, q <> sjoin td F_members -> read q t' = read q (hb_tree h)) /\
    tagdir_ok t' td /\ NoDup (od_keys t').
Proof.
  intros M TD TO ND G.
  assert (FL : Forall (legal_member Codecs) L) by (eapply Forall_impl; [|exact G]; intros m K; apply (K Codecs)).
  destruct (put_step F_members (fst (members_prefix L)) h td) as (t' & E & R); auto; [left; reflexivity|].
  exists t'. unfold save_member_bags. rewrite M, TD.
  rewrite (members_prefix_text Codecs L FL) in *. simpl fst in *. simpl snd. split; [|exact R].
  apply bindM_ok in E as ([] & h1 & E1 & E2). unfold bindM. rewrite E1, E2. reflexivity.
Qed.

Lemma save_lookup_step h td D : hb_lu h = Some D -> tag_dir (hb_info h) = td ->
  tagdir_ok (hb_tree h) td -> NoDup (od_keys (hb_tree h)) ->
  exists t', save_file_lookup h = (set_tree h t', Ok tt) /\
    read (sjoin td F_lookup) t' = Some (lookup_text D) /\
    (forall q, q <> sjoin td F_lookup -> read q t' = read q (hb_tree h)) /\
    tagdir_ok t' td /\ NoDup (od_keys t').
Proof.
  intros M TD TO ND. unfold save_file_lookup. rewrite M, TD.
  apply put_step; auto. right; left; reflexivity.
Qed.

Lemma is_dir_del p q t : NoDup (od_keys t) -> is_dir q t = false -> is_dir p (od_del q t) = is_dir p t.
Proof.
  intros ND Q. unfold is_dir in *. destruct p as [|c p]; [reflexivity|].
  destruct (str_eq_dec (c :: p) q) as [<-|NE].
  - rewrite od_get_del_same by auto. symmetry. exact Q.
  - rewrite od_get_del_other; auto.
Qed.

Lemma save_deleted_step h td X : hb_del h = Some X -> tag_dir (hb_info h) = td ->
  tagdir_ok (hb_tree h) td -> NoDup (od_keys (hb_tree h)) ->
  exists t', save_deleted h = (set_tree h t', Ok tt) /\
    read (sjoin td F_deleted) t' = Some (deleted_text X) /\
    (forall q, q <> sjoin td F_deleted -> read q t' = read q (hb_tree h)) /\
    tagdir_ok t' td /\ NoDup (od_keys t').
Proof.
  intros M TD TO ND.
  assert (In3 : In F_deleted [F_members; F_lookup; F_deleted]) by (right; right; left; reflexivity).
  assert (G : exists t0, (match X with
        | [] => if exists_ (sjoin td F_deleted) (hb_tree h)
                then match remove_file (sjoin td F_deleted) (hb_tree h) with
                     | Ok t => (set_tree h t, Ok tt)
                     | Err e => (h, Err e) end
                else (h, Ok tt)
        | _ :: _ => (h, Ok tt) end) = (set_tree h t0, Ok tt) /\
        (forall q, q <> sjoin td F_deleted -> read q t0 = read q (hb_tree h)) /\ tagdir_ok t0 td /\ NoDup (od_keys t0)).
  { assert (Z : exists t0, (h, Ok tt) = (set_tree h t0, @Ok unit tt) /\
        (forall q, q <> sjoin td F_deleted -> read q t0 = read q (hb_tree h)) /\ tagdir_ok t0 td /\ NoDup (od_keys t0))
      by (exists (hb_tree h); rewrite set_tree_id; repeat split; auto; apply TO).
    destruct X as [|x X]; [|exact Z].
    destruct (exists_ (sjoin td F_deleted) (hb_tree h)) eqn:Ex; [|exact Z].
    destruct TO as [T1 T2]. pose proof (T2 _ In3) as ND0.
    unfold exists_ in Ex. rewrite ND0, orb_false_r in Ex. unfold remove_file. rewrite Ex.
    exists (od_del (sjoin td F_deleted) (hb_tree h)). split; [reflexivity|]. split; [|split].
    - intros q NE. unfold read. rewrite od_get_del_other; auto.
    - split.
      + destruct T1 as [T1|[T1 T1']]; [left|right].
        * rewrite is_dir_del; auto.
        * split; [|rewrite is_dir_del; auto].
          unfold exists_ in *. apply orb_false_iff in T1 as [A B]. rewrite is_dir_del by auto. rewrite B, orb_false_r.
          unfold is_file in *. destruct (od_get td (od_del (sjoin td F_deleted) (hb_tree h))) as [[|c]|] eqn:E; auto.
          rewrite od_get_del_other in E by (intros Eq; apply (sjoin_neq td F_deleted); [discriminate|congruence]).
          rewrite E in A. exact A.
      + intros f Hf. rewrite is_dir_del; auto.
    - apply od_del_NoDup; auto. }
  destruct G as (t0 & G & R0 & TO0 & ND0).
  destruct (put_step F_deleted (deleted_text X) (set_tree h t0) td In3 TD TO0 ND0) as (t' & E & R1 & R2 & TO' & ND').
  exists t'. split; [|split; [exact R1|split; [|split; auto]]].
  - unfold save_deleted. rewrite M, TD. unfold bindM at 1. rewrite G. exact E.
  - intros q NE. rewrite R2 by auto. apply R0; auto.
Qed.

(** ** Edits *)

Definition has (h : hb) (g : agg) : Prop :=
  hb_mem h = Some (g_members g) /\ hb_lu h = Some (g_files g) /\
  exists x, hb_del h = Some x /\ forall p, In p x <-> In p (g_deleted g).

Lemma forM_remove_some fs : forall h d x, hb_lu h = Some d -> hb_del h = Some x -> NoDup (od_keys d) ->
  Forall (fun f => f <> []) fs ->
  exists h' x', forM fs (fun f => unset_deleted f ;; remove_file_lookup f) h = (h', Ok tt) /\
    hb_lu h' = Some (fold_left (fun d f => od_del f d) fs d) /\
    hb_del h' = Some x' /\ (forall p, In p x' <-> In p x /\ ~ In p fs) /\
    hb_mem h' = hb_mem h /\ same_disk h h'.
Proof.
  induction fs as [|f fs IH]; intros h d x L X ND F.
  - exists h, x. simpl. repeat split; auto; tauto.
  - inversion F as [|? ? NF F']; subst. cbn [forM].
    set (h0 := set_lu (set_del h (Some (set_remove f x))) (Some (od_del f d))).
    destruct (IH h0 (od_del f d) (set_remove f x)) as (h' & x' & R & L' & X' & I' & M' & S'); auto.
    { apply od_del_NoDup; auto. }
    exists h', x'. split; [|split; [exact L'|split; [exact X'|split; [|split; [exact M'|]]]]].
    + unfold bindM at 1. unfold bindM at 1. unfold unset_deleted at 1. rewrite X.
      assert (E : remove_file_lookup f (set_del h (Some (set_remove f x))) = (h0, Ok tt)).
      { unfold remove_file_lookup. destruct f as [|c f]; [congruence|].
        cbn [hb_lu set_del]. rewrite L. unfold h0. f_equal. f_equal. f_equal.
        destruct (od_has (c :: f) d) eqn:Hs; auto. symmetry. apply od_del_notin.
        apply od_has_false, od_get_none in Hs. auto. }
      rewrite E. exact R.
    + intros p. rewrite I', in_set_remove. simpl. intuition congruence.
    + apply (same_disk_trans h h0); auto. unfold h0. apply (same_disk_trans h (set_del h (Some (set_remove f x)))); auto.
Qed.

Lemma remove_member_some b h g : has h g -> good_agg g ->
  exists h', remove_member_bag b h = (h', Ok tt) /\ has h' (without b g) /\ same_disk h h'.
Proof.
  intros (M & L & x & X & IX) (GM & (ND & GF) & GD). unfold remove_member_bag. rewrite M.
  set (h0 := set_mem h _).
  assert (F : Forall (fun f => f <> []) (files_of_member b (g_files g))).
  { apply Forall_forall. intros f I. apply files_of_member_iff in I; auto.
    apply od_get_in in I. rewrite Forall_forall in GF. apply GF in I as [I _].
    apply (storable_nonempty Codecs). apply I. }
  destruct (forM_remove_some (files_of_member b (g_files g)) h0 (g_files g) x) as (h' & x' & R & L' & X' & I' & M' & S'); auto.
  exists h'. split; [|split].
  - unfold bindM at 1. unfold files_in_member at 1. cbn [hb_lu h0 set_mem]. rewrite L. exact R.
  - unfold has, without. cbn [g_members g_files g_deleted]. split; [|split].
    + rewrite M'. reflexivity.
    + rewrite L'. f_equal. apply del_all_files; auto.
    + exists x'. split; auto. intros p. rewrite I', IX, filter_In, files_of_member_iff by auto.
      destruct (od_get p (g_files g)) as [y|].
      * split; intros [A B]; (split; [exact A|]).
        -- apply negb_true_iff, streq_neq. congruence.
        -- apply negb_true_iff, streq_neq in B. congruence.
      * split; intros [A B]; (split; [exact A|]); congruence.
  - apply (same_disk_trans h h0); auto. unfold h0. auto.
Qed.

Lemma good_without b g : good_agg g -> good_agg (without b g).
Proof.
  intros (GM & (ND & GF) & GD). unfold good_agg, without. cbn [g_members g_files g_deleted].
  split; [|split; [split|]].
  - apply Forall_forall. intros m I. apply filter_In in I as [I _]. rewrite Forall_forall in GM; auto.
  - apply (drop_files_NoDup b); auto.
  - apply Forall_forall. intros m I. apply filter_In in I as [I _]. rewrite Forall_forall in GF; auto.
  - apply Forall_forall. intros m I. apply filter_In in I as [I _]. rewrite Forall_forall in GD; auto.
Qed.

Lemma good_edited e g : good_agg g -> good_edit e -> good_agg (edited e g).
Proof.
  intros G Ge. destruct e as [m|b|p b|p|p|p]; cbn [edited good_edit] in *.
  - destruct (good_without (m_name m) g G) as (A & B & C). split; [|split; auto].
    cbn [g_members]. apply Forall_app; auto.
  - apply good_without; auto.
  - destruct G as (GM & (ND & GF) & GD). split; [exact GM|]. split; [|exact GD]. cbn [g_files]. split; [apply od_set_NoDup; auto|].
    destruct Ge as [P B]. clear ND. induction (g_files g) as [|[k v] d IH]; simpl.
    + constructor; auto.
    + inversion GF as [|? ? [K V] GF']; subst. destruct (streq p k); constructor; auto.
  - destruct G as (GM & (ND & GF) & GD). split; [exact GM|]. split; [|exact GD]. cbn [g_files].
    split; [apply od_del_NoDup; auto|apply od_del_Forall; auto].
  - destruct G as (GM & GF & GD). split; [exact GM|]. split; [exact GF|]. cbn [g_deleted]. constructor; auto.
  - destruct G as (GM & GF & GD). split; [exact GM|]. split; [exact GF|]. cbn [g_deleted].
    apply Forall_forall. intros x I. apply filter_In in I as [I _]. rewrite Forall_forall in GD; auto.
Qed.

Lemma edit_effect e h g : has h g -> good_agg g -> good_edit e ->
  exists h', call_run (edit_call e) h = (h', Ok ADone) /\ has h' (edited e g) /\ same_disk h h'.
Proof.
  intros H G Ge. destruct e as [m|b|p b|p|p|p]; cbn [edited good_edit edit_call call_run] in *; unfold ret_as.
  - destruct (remove_member_some (m_name m) h g H G) as (h1 & R & H1 & S1).
    destruct H as (M & L & x & X & IX). destruct H1 as (M1 & L1 & X1).
    exists (set_mem h1 (Some (g_members (without (m_name m) g) ++ [m]))). split; [|split].
    + unfold add_member_bag. unfold bindM at 1. unfold bindM at 1. rewrite M. unfold bindM at 1.
      unfold bindM at 1. rewrite M. rewrite R. rewrite M1. reflexivity.
    + split; [reflexivity|split; [exact L1|exact X1]].
    + apply (same_disk_trans h h1); auto.
  - destruct (remove_member_some b h g H G) as (h1 & R & H1 & S1). exists h1. unfold bindM. rewrite R. auto.
  - destruct H as (M & L & x & X & IX). destruct Ge as [P B].
    pose proof (storable_nonempty _ _ (P Codecs)) as NP. pose proof (storable_nonempty _ _ (B Codecs)) as NB.
    exists (set_lu h (Some (od_set p b (g_files g)))). split; [|split].
    + unfold bindM, add_file_lookup. destruct p as [|c p]; [congruence|]. destruct b as [|c' b]; [congruence|].
      rewrite L. reflexivity.
    + split; [exact M|split; [reflexivity|exists x; auto]].
    + auto.
  - destruct H as (M & L & x & X & IX).
    pose proof (storable_nonempty _ _ (Ge Codecs)) as NP.
    exists (set_lu h (Some (od_del p (g_files g)))). split; [|split].
    + unfold bindM, remove_file_lookup. destruct p as [|c p]; [congruence|]. rewrite L.
      assert (E : (if od_has (c :: p) (g_files g) then od_del (c :: p) (g_files g) else g_files g) = od_del (c :: p) (g_files g)).
      { destruct (od_has (c :: p) (g_files g)) eqn:Hs; auto. symmetry. apply od_del_notin.
        apply od_has_false, od_get_none in Hs. auto. }
      rewrite E. reflexivity.
    + split; [exact M|split; [reflexivity|exists x; auto]].
    + auto.
  - destruct H as (M & L & x & X & IX). exists (set_del h (Some (set_add p x))). split; [|split].
    + unfold bindM, set_deleted. rewrite X. reflexivity.
    + split; [exact M|split; [exact L|]]. exists (set_add p x). split; auto.
      intros q. rewrite in_set_add, IX. simpl. intuition congruence.
    + auto.
  - destruct H as (M & L & x & X & IX). exists (set_del h (Some (set_remove p x))). split; [|split].
    + unfold bindM, unset_deleted. rewrite X. reflexivity.
    + split; [exact M|split; [exact L|]]. exists (set_remove p x). split; auto.
      intros q. rewrite in_set_remove, IX. cbn [g_deleted]. rewrite filter_In, negb_true_iff, streq_neq. intuition.
    + auto.
Qed.

(** ** What is on disk, seen through a handle *)

Lemma iter_as_opened td h n di r : hb_reader h = r -> std_tags (hb_info h) td -> std_tags di td ->
  iter_member_bags h = iter_member_bags (open_hb n (hb_tree h) di r) /\
  iter_file_lookup h = iter_file_lookup (open_hb n (hb_tree h) di r) /\
  iter_deleted h = iter_deleted (open_hb n (hb_tree h) di r).
Proof.
  intros <- S1 S2. pose proof (std_tag_dir _ _ S1) as T1. pose proof (std_tag_dir _ _ S2) as T2.
  destruct S1 as [A1 B1], S2 as [A2 B2].
  unfold iter_member_bags, iter_file_lookup, iter_deleted, open_hb. cbn [hb_tree hb_info hb_reader].
  rewrite A1, A2, B1, B2, T1, T2. auto.
Qed.

Lemma holds_saved td w L D x : std_tags (w_dinfo w) td ->
  read (sjoin td F_members) (w_tree w) = Some (flat_map (fun m => member_body m ++ [LF]) L) ->
  read (sjoin td F_lookup) (w_tree w) = Some (lookup_text D) ->
  read (sjoin td F_deleted) (w_tree w) = Some (deleted_text x) ->
  Forall good_member L -> Forall (fun kv => good_name (fst kv) /\ good_name (snd kv)) D -> Forall good_path x ->
  forall X, (forall p, In p x <-> In p X) -> holds w (mkagg L D X).
Proof.
  intros Sd RM RL RD GM GF GD X IX r h.
  assert (FM : Forall (storable_member r) L) by (eapply Forall_impl; [|exact GM]; intros m K; apply K).
  assert (FF : Forall (storable_entry r) D) by (eapply Forall_impl; [|exact GF]; intros m [K V]; split; [apply K|apply V]).
  assert (FD : Forall (storable_path r) x) by (eapply Forall_impl; [|exact GD]; intros m K; apply K).
  split; [|split].
  - rewrite (iter_members_read h td _ Sd RM). cbn [hb_reader h open_hb].
    rewrite decode_id by (apply members_text_no_bom; auto). apply members_text_parse.
    eapply Forall_impl; [|exact FM]. intros m [K _]; exact K.
  - rewrite (iter_lookup_read h td _ Sd RL). cbn [hb_reader h open_hb].
    rewrite decode_id by (apply lookup_text_no_bom; auto). apply lookup_roundtrip, Forall_storable_legal; auto.
  - exists x. split; auto. unfold iter_deleted. cbn [h open_hb hb_info hb_tree hb_reader].
    rewrite (std_tag_dir _ _ Sd), RD. rewrite decode_id by (apply deleted_text_no_bom'; auto).
    rewrite deleted_roundtrip; auto. eapply Forall_impl; [|exact FD]. intros p (A & B & _); auto.
Qed.

(** ** One call *)

Lemma on_step {A} i (m : M A) w a h' r : nth_error (w_handles w) i = Some a -> m (view w a) = (h', r) ->
  hb_name h' = w_name w ->
  exists w', on i m w = (w', Some r) /\ w' = mkw (w_name w) (hb_tree h') (hb_dinfo h') (put i (own h') (w_handles w)) /\
    nth_error (w_handles w') i = Some (own h') /\ view w' (own h') = h'.
Proof.
  intros Ni E Nm. unfold on. rewrite Ni, E. eexists. split; [reflexivity|]. split; [reflexivity|]. split.
  - apply nth_put_same. apply nth_error_Some. congruence.
  - unfold view, own. simpl. rewrite <- Nm. destruct h'; reflexivity.
Qed.

Lemma put_put {A} i (x y : A) l : put i y (put i x l) = put i y l.
Proof. revert i; induction l as [|z l IH]; intros [|i]; simpl; auto. f_equal; auto. Qed.

Lemma Forall_put {A} (P : A -> Prop) i x l : P x -> Forall P l -> Forall P (put i x l).
Proof. intros Px F. revert i; induction F as [|y l Py F IH]; intros [|i]; simpl; constructor; auto. Qed.

(** Three calls of one handle in a row. *)
Lemma run_three i k1 k2 k3 w a h1 h2 h3 r1 r2 r3 : nth_error (w_handles w) i = Some a ->
  call_run k1 (view w a) = (h1, r1) -> call_run k2 h1 = (h2, r2) -> call_run k3 h2 = (h3, r3) ->
  hb_name h1 = w_name w -> hb_name h2 = w_name w -> hb_name h3 = w_name w ->
  run [ECall i k1; ECall i k2; ECall i k3] w =
    (mkw (w_name w) (hb_tree h3) (hb_dinfo h3) (put i (own h3) (w_handles w)), [Some r1; Some r2; Some r3]).
Proof.
  intros Ni E1 E2 E3 N1 N2 N3. cbn [run].
  destruct (on_step i (call_run k1) w a h1 r1 Ni E1 N1) as (w1 & O1 & W1 & Ni1 & V1). rewrite O1.
  rewrite <- V1 in E2.
  destruct (on_step i (call_run k2) w1 (own h1) h2 r2 Ni1 E2) as (w2 & O2 & W2 & Ni2 & V2); [rewrite W1; exact N2|]. rewrite O2.
  rewrite <- V2 in E3.
  destruct (on_step i (call_run k3) w2 (own h2) h3 r3 Ni2 E3) as (w3 & O3 & W3 & _ & _); [rewrite W2, W1; exact N3|]. rewrite O3.
  rewrite W3, W2, W1. cbn [w_name w_handles]. rewrite !put_put. reflexivity.
Qed.

(** ** The invariant *)

Record inv (td : pystr) (n : nat) (turn : option nat) (saved pending : agg) (w : world) : Prop := {
  i_n : length (w_handles w) = n;
  i_dinfo : std_tags (w_dinfo w) td;
  i_info : Forall (fun a => std_tags (ha_info a) td) (w_handles w);
  i_dir : tagdir_ok (w_tree w) td;
  i_nd : NoDup (od_keys (w_tree w));
  i_holds : holds w saved;
  i_good : good_agg saved;
  i_turn : forall i, turn = Some i -> exists a, nth_error (w_handles w) i = Some a /\ has (view w a) pending /\ good_agg pending
}.

Definition after (s : step) (n : nat) (turn : option nat) (saved pending : agg) : nat * option nat * agg * agg :=
  match s with
  | Open _ => (S n, turn, saved, pending)
  | Loose _ _ => (n, turn, saved, pending)
  | Begin i _ => (n, Some i, saved, saved)
  | Edit _ e => (n, turn, saved, edited e pending)
  | Commit _ => (n, turn, pending, pending)
  end.

Definition good_step (s : step) : Prop := match s with Edit _ e => good_edit e | _ => True end.

Lemma step_ok td n turn saved pending w s l : inv td n turn saved pending w -> orderly n turn (s :: l) -> good_step s ->
  exists w' rs, run (calls_of s) w = (w', rs) /\
    Forall2 (fun (mine : bool) a => mine = true -> exists x, a = Some (Ok x)) (in_turn s) rs /\
    let '(n', turn', saved', pending') := after s n turn saved pending in
    inv td n' turn' saved' pending' w' /\ orderly n' turn' l.
Proof.
  intros [Ln Di In_ Dr Nd Ho Gd Tu] Or Gs. destruct s as [r|i k|i p|i e|i]; cbn [calls_of in_turn after orderly good_step] in *.
  - (* Open *)
    eexists _, []. split; [reflexivity|]. split; [constructor|]. split; [|exact Or]. constructor; auto.
    + unfold open_another. simpl. rewrite app_length. simpl. lia.
    + unfold open_another. simpl. apply Forall_app. auto.
    + intros i Ti. destruct (Tu i Ti) as (a & Ni & H & G). exists a. split; [|auto].
      unfold open_another. simpl. rewrite nth_error_app1; auto. apply nth_error_Some. congruence.
  - (* Loose *)
    destruct Or as (Qk & Nt & Or).
    assert (Sk : saves k = false) by (destruct k; simpl in *; tauto).
    cbn [run]. destruct (nth_error (w_handles w) i) as [a|] eqn:Ni.
    + pose proof (quiet_call k Sk (view w a)) as (Q1 & Q2 & Q3 & Q4 & Q5).
      destruct (call_run k (view w a)) as [h' r] eqn:E. cbn [fst] in *.
      destruct (on_step i (call_run k) w a h' r Ni E Q1) as (w' & O & W & _ & _). rewrite O.
      eexists _, _. split; [reflexivity|]. split; [constructor; [discriminate|constructor]|]. split; [|exact Or].
      cbn [view hb_tree hb_dinfo hb_info] in Q2, Q3, Q4. rewrite Q2, Q3 in W. subst w'. constructor; auto; cbn [w_handles w_tree w_dinfo].
      * rewrite put_length. exact Ln.
      * apply Forall_put; auto. cbn [own ha_info]. rewrite Q4. rewrite Forall_forall in In_. apply In_. eapply nth_error_In; eauto.
      * intros j Tj. destruct (Tu j Tj) as (b & Nj & H & G). exists b. split; [|auto].
        rewrite nth_put_other; auto. intros ->. congruence.
    + unfold on. rewrite Ni. eexists _, _. split; [reflexivity|]. split; [constructor; [discriminate|constructor]|].
      split; [|exact Or]. constructor; auto.
  - (* Begin *)
    destruct Or as [Li Or].
    destruct (nth_error (w_handles w) i) as [a|] eqn:Ni; [|apply nth_error_None in Ni; lia].
    assert (Sa : std_tags (ha_info a) td) by (rewrite Forall_forall in In_; apply In_; eapply nth_error_In; eauto).
    destruct (Ho (ha_reader a)) as (HM & HL & x & HX & IX).
    destruct Gd as (GM & (NDf & GF) & GD).
    set (h1 := set_mem (view w a) (Some (g_members saved))).
    set (h2 := set_lu h1 (Some (g_files saved))).
    set (h3 := set_del h2 (Some (set_of x))).
    destruct (iter_as_opened td (view w a) (w_name w) (w_dinfo w) (ha_reader a) eq_refl Sa Di) as (I1 & _ & _).
    destruct (iter_as_opened td h1 (w_name w) (w_dinfo w) (ha_reader a) eq_refl Sa Di) as (_ & I2 & _).
    destruct (iter_as_opened td h2 (w_name w) (w_dinfo w) (ha_reader a) eq_refl Sa Di) as (_ & _ & I3).
    assert (E1 : call_run (KMembers true) (view w a) = (h1, Ok (AMembers (g_members saved)))).
    { cbn [call_run]. unfold ret_as, bindM, member_bags, member_bags_ro. rewrite I1.
      change (hb_tree (view w a)) with (w_tree w). rewrite HM.
      destruct (hb_mem (view w a)); reflexivity. }
    assert (E2 : call_run (KLookup p true) h1 = (h2, Ok (ABag (od_get p (g_files saved))))).
    { cbn [call_run]. unfold ret_as, bindM, lookup_file, lookup_file_ro, cache_file_lookup. rewrite I2.
      change (hb_tree h1) with (w_tree w). rewrite HL. rewrite od_of_pairs_id by auto.
      destruct (hb_lu h1); reflexivity. }
    assert (E3 : call_run (KDeleted true) h2 = (h3, Ok (APaths (set_of x)))).
    { cbn [call_run]. unfold ret_as, bindM, deleted_paths. rewrite I3.
      change (hb_tree h2) with (w_tree w). rewrite HX.
      destruct (hb_del h2); reflexivity. }
    rewrite (run_three i _ _ _ w a h1 h2 h3 _ _ _ Ni E1 E2 E3) by reflexivity.
    eexists _, _. split; [reflexivity|]. split; [repeat constructor; intros _; eexists; reflexivity|].
    split; [|exact Or]. constructor; auto; cbn [w_handles w_tree w_dinfo].
    + rewrite put_length. exact Ln.
    + apply Forall_put; auto.
    + split; auto.
    + intros j Tj. injection Tj as <-. exists (own h3). split; [|split; [|split; auto]].
      * apply nth_put_same. rewrite Ln. exact Li.
      * split; [reflexivity|split; [reflexivity|]]. exists (set_of x). split; [reflexivity|].
        intros q. rewrite in_set_of. apply IX.
  - (* Edit *)
    destruct Or as [-> Or]. destruct (Tu i eq_refl) as (a & Ni & H & G).
    destruct (edit_effect e (view w a) pending H G Gs) as (h' & E & H' & (Q1 & Q2 & Q3 & Q4 & Q5)).
    cbn [run]. destruct (on_step i (call_run (edit_call e)) w a h' _ Ni E Q1) as (w' & O & W & Ni' & V'). rewrite O.
    eexists _, _. split; [reflexivity|]. split; [repeat constructor; intros _; eexists; reflexivity|]. split; [|exact Or].
    cbn [view hb_tree hb_dinfo hb_info] in Q2, Q3, Q4. rewrite Q2, Q3 in W.
    assert (Hp : exists a, nth_error (w_handles w') i = Some a /\ has (view w' a) (edited e pending) /\ good_agg (edited e pending)).
    { exists (own h'). split; [exact Ni'|]. rewrite V'. split; [exact H'|apply good_edited; auto]. }
    clear V' Ni'. subst w'. constructor; auto; cbn [w_handles w_tree w_dinfo].
    + rewrite put_length. exact Ln.
    + apply Forall_put; auto. cbn [own ha_info]. rewrite Q4. rewrite Forall_forall in In_. apply In_. eapply nth_error_In; eauto.
    + intros j Tj. injection Tj as <-. exact Hp.
  - (* Commit *)
    destruct Or as [-> Or]. destruct (Tu i eq_refl) as (a & Ni & (HM & HL & x & HX & IX) & G).
    assert (Sa : std_tags (ha_info a) td) by (rewrite Forall_forall in In_; apply In_; eapply nth_error_In; eauto).
    pose proof (std_tag_dir _ _ Sa) as TD. pose proof G as (GM & (NDf & GF) & GD).
    destruct (save_members_step (view w a) td (g_members pending) HM TD Dr Nd GM) as (t1 & E1 & R1 & O1 & Dr1 & Nd1).
    set (h1 := set_tree (view w a) t1) in *.
    destruct (save_lookup_step h1 td (g_files pending) HL TD Dr1 Nd1) as (t2 & E2 & R2 & O2 & Dr2 & Nd2).
    set (h2 := set_tree h1 t2) in *.
    destruct (save_deleted_step h2 td x HX TD Dr2 Nd2) as (t3 & E3 & R3 & O3 & Dr3 & Nd3).
    set (h3 := set_tree h2 t3) in *.
    assert (K1 : call_run KSaveMembers (view w a) = (h1, Ok ADone)) by (cbn [call_run]; unfold ret_as, bindM; rewrite E1; reflexivity).
    assert (K2 : call_run KSaveLookup h1 = (h2, Ok ADone)) by (cbn [call_run]; unfold ret_as, bindM; rewrite E2; reflexivity).
    assert (K3 : call_run KSaveDeleted h2 = (h3, Ok ADone)) by (cbn [call_run]; unfold ret_as, bindM; rewrite E3; reflexivity).
    rewrite (run_three i _ _ _ w a h1 h2 h3 _ _ _ Ni K1 K2 K3) by reflexivity.
    eexists _, _. split; [reflexivity|]. split; [repeat constructor; intros _; eexists; reflexivity|].
    split; [|exact Or]. constructor; auto; cbn [w_handles w_tree w_dinfo].
    + rewrite put_length. exact Ln.
    + apply Forall_put; auto.
    + destruct pending as [L D X]. cbn [g_members g_files g_deleted] in *.
      apply (holds_saved td _ L D x); auto; cbn [w_tree].
      * change (hb_tree h3) with t3. rewrite O3 by (apply F_distinct; discriminate). change (hb_tree h2) with t2.
        rewrite O2 by (apply F_distinct; discriminate). exact R1.
      * change (hb_tree h3) with t3. rewrite O3 by (apply F_distinct; discriminate). exact R2.
      * apply Forall_forall. intros p Ip. apply IX in Ip. rewrite Forall_forall in GD. auto.
    + intros j Tj. injection Tj as <-. exists (own h3). split; [|split; [|exact G]].
      * apply nth_put_same. apply nth_error_Some. congruence.
      * split; [exact HM|split; [exact HL|]]. exists x. split; [exact HX|exact IX].
Qed.

Lemma run_app l1 l2 w : run (l1 ++ l2) w =
  (fst (run l2 (fst (run l1 w))), snd (run l1 w) ++ snd (run l2 (fst (run l1 w)))).
Proof.
  revert w; induction l1 as [|[r|i k] l1 IH]; intros w; cbn [run app].
  - cbn [fst snd app]. destruct (run l2 w); reflexivity.
  - apply IH.
  - destruct (on i (call_run k) w) as [w1 a]. rewrite IH. destruct (run l1 w1) as [w2 rs]. reflexivity.
Qed.

Lemma turns td l : forall n turn saved pending w, inv td n turn saved pending w -> orderly n turn l -> Forall good_step l ->
  holds (fst (run (flat_map calls_of l) w)) (expected saved pending l) /\
  Forall2 (fun (mine : bool) a => mine = true -> exists x, a = Some (Ok x)) (flat_map in_turn l) (snd (run (flat_map calls_of l) w)).
Proof.
  induction l as [|s l IH]; intros n turn saved pending w Iv Or Gs.
  - cbn. split; [apply (i_holds _ _ _ _ _ _ Iv)|constructor].
  - inversion Gs as [|? ? G1 G2]; subst.
    destruct (step_ok td n turn saved pending w s l Iv Or G1) as (w' & rs & R & F & K).
    cbn [flat_map]. rewrite run_app, R. cbn [fst snd].
    assert (E : expected saved pending (s :: l) = let '(_, _, saved', pending') := after s n turn saved pending in expected saved' pending' l)
      by (destruct s; reflexivity). rewrite E.
    destruct (after s n turn saved pending) as [[[n' turn'] saved'] pending']. destruct K as [Iv' Or'].
    destruct (IH n' turn' saved' pending' w' Iv' Or' G2) as [H1 H2]. split; [exact H1|].
    apply Forall2_app; auto.
Qed.

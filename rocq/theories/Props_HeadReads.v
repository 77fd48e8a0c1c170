(** * Reading a head bag over and over (C145) *)

Require Import String NArith ZArith PeanoNat Bool List Lia Permutation.
From Verif Require Import PyBase PyFacts Version Tsv TsvProofs Fs FsFacts HeadBag HeadBagProofs HeadBagProofs2 HeadBagProofs3
  Props_HeadBag Props_HeadHistory.
Import ListNotations.
Open Scope N_scope.

(** ** Specification *)

(** The questions that can be asked. [writable] tells whether the head bag
    was opened for updates. *)
Inductive question : Type :=
| QMembers (reread : bool)
| QLookup (p : pystr) (reread : bool)
| QDeleted (reread : bool)
| QFilesIn (bag : pystr).

Definition ask (writable : bool) (q : question) : hb -> hb * answer :=
  match q with
  | QMembers rr => giving AMembers (if writable then HeadBag.member_bags rr else member_bags_ro rr)
  | QLookup p rr => giving ALookup (if writable then lookup_file p rr else lookup_file_ro p rr)
  | QDeleted rr => giving APaths (deleted_paths rr)
  | QFilesIn b => giving APaths (files_in_member b)
  end.

Fixpoint ask_all (w : bool) (qs : list question) (h : hb) : hb * list answer :=
  match qs with
  | [] => (h, [])
  | q :: qs => let '(h1, a) := ask w q h in let '(h2, l) := ask_all w qs h1 in (h2, a :: l)
  end.

(** A handle through which nothing was asked yet. *)
Definition unread (h : hb) : Prop := hb_mem h = None /\ hb_lu h = None /\ hb_del h = None.

(** The question whatever is remembered. *)
Definition anew (q : question) : question :=
  match q with QMembers _ => QMembers false | QLookup p _ => QLookup p false | QDeleted _ => QDeleted false | QFilesIn b => QFilesIn b end.

(** ** Proofs *)

Definition clean (h0 h : hb) : Prop :=
  hb_name h = hb_name h0 /\ hb_tree h = hb_tree h0 /\ hb_dinfo h = hb_dinfo h0 /\ hb_info h = hb_info h0 /\ hb_reader h = hb_reader h0 /\
  (forall l, hb_mem h = Some l -> iter_member_bags h0 = Ok l) /\
  (forall d, hb_lu h = Some d -> exists l, iter_file_lookup h0 = Ok l /\ d = od_of_pairs l) /\
  (forall d, hb_del h = Some d -> exists l, iter_deleted h0 = Ok l /\ d = set_of l).

Lemma clean_iter h0 h : clean h0 h ->
  iter_member_bags h = iter_member_bags h0 /\ iter_file_lookup h = iter_file_lookup h0 /\ iter_deleted h = iter_deleted h0.
Proof. intros (_ & T & _ & J & R & _). unfold iter_member_bags, iter_file_lookup, iter_deleted. rewrite T, J, R. auto. Qed.

Lemma clean_ask w q h0 h : unread h0 -> clean h0 h -> clean h0 (fst (ask w q h)) /\ snd (ask w q h) = snd (ask w (anew q) h0).
Proof.
  intros (M0 & L0 & D0) C. destruct (clean_iter h0 h C) as (EM & EL & ED). pose proof C as (C1 & C2 & C3 & C4 & C5 & CM & CL & CD).
  destruct q as [rr|p rr|rr|b]; cbn [ask anew].
  - assert (G : clean h0 (fst (member_bags_ro rr h)) /\ snd (member_bags_ro rr h) = snd (member_bags_ro false h0)).
    { unfold member_bags_ro. rewrite M0, EM. destruct (hb_mem h) as [l|] eqn:E.
      - rewrite (CM l eq_refl). destruct rr; cbn [fst snd]; (split; [|reflexivity]); [|exact C].
        repeat split; try assumption; cbn; intros l0 Q; rewrite (CM l eq_refl); congruence.
      - destruct (iter_member_bags h0) as [l|e] eqn:F; cbn [fst snd]; (split; [|reflexivity]); [|exact C].
        repeat split; try assumption; cbn; intros l0 Q; rewrite F; congruence. }
    destruct G as [G1 G2]. destruct w; unfold giving; cbn [fst snd]; [|rewrite G2; auto].
    unfold HeadBag.member_bags. destruct (member_bags_ro rr h) as [h1 [l|[]]], (member_bags_ro false h0) as [h2 [l2|[]]]; cbn [fst snd] in *; split; congruence || exact G1.
  - assert (G : clean h0 (fst (lookup_file_ro p rr h)) /\ snd (lookup_file_ro p rr h) = snd (lookup_file_ro p false h0)).
    { unfold lookup_file_ro, cache_file_lookup. rewrite L0, EL. destruct (hb_lu h) as [d|] eqn:E.
      - destruct (CL d eq_refl) as (l & F & ->). rewrite F. destruct rr; cbn [fst snd hb_lu set_lu hb_del set_del]; (split; [|reflexivity]); [|exact C].
        repeat split; try assumption; cbn; intros d Q; exists l; (split; [exact F|congruence]).
      - destruct (iter_file_lookup h0) as [l|e] eqn:F; cbn [fst snd hb_lu set_lu hb_del set_del]; (split; [|reflexivity]); [|exact C].
        repeat split; try assumption; cbn; intros d Q; exists l; (split; [exact F|congruence]). }
    destruct G as [G1 G2]. destruct w; unfold giving; cbn [fst snd]; [|rewrite G2; auto].
    unfold lookup_file. destruct (lookup_file_ro p rr h) as [h1 [l|[]]], (lookup_file_ro p false h0) as [h2 [l2|[]]]; cbn [fst snd] in *; split; congruence || exact G1.
  - unfold giving, deleted_paths. rewrite D0, ED. destruct (hb_del h) as [d|] eqn:E.
    + destruct (CD d eq_refl) as (l & F & ->). rewrite F. destruct rr; cbn [fst snd hb_lu set_lu hb_del set_del]; (split; [|reflexivity]); [|exact C].
      repeat split; try assumption; cbn; intros d Q; exists l; (split; [exact F|congruence]).
    + destruct (iter_deleted h0) as [l|e] eqn:F; cbn [fst snd hb_lu set_lu hb_del set_del]; (split; [|reflexivity]); [|exact C].
      repeat split; try assumption; cbn; intros d Q; exists l; (split; [exact F|congruence]).
  - unfold giving, files_in_member, cache_file_lookup. rewrite L0, EL. destruct (hb_lu h) as [d|] eqn:E.
    + destruct (CL d eq_refl) as (l & F & ->). rewrite F. cbn. split; [exact C|reflexivity].
    + destruct (iter_file_lookup h0) as [l|[]] eqn:F; cbn [fst snd hb_lu set_lu]; (split; [|reflexivity]); try exact C.
      repeat split; try assumption; cbn; intros d Q; exists l; (split; [exact F|congruence]).
Qed.

(** Any questions in any order, any number of times: each is answered as if
    it had been the only one, reread or not, and the bag is as it was. *)
Theorem C145_answers : forall w qs h, unread h ->
  snd (ask_all w qs h) = map (fun q => snd (ask w (anew q) h)) qs /\
  hb_tree (fst (ask_all w qs h)) = hb_tree h /\ hb_info (fst (ask_all w qs h)) = hb_info h /\ hb_dinfo (fst (ask_all w qs h)) = hb_dinfo h.
Proof.
  intros w qs h0 Y.
  assert (G : forall h, clean h0 h -> snd (ask_all w qs h) = map (fun q => snd (ask w (anew q) h0)) qs /\ clean h0 (fst (ask_all w qs h))).
  { induction qs as [|q qs IH]; intros h C; cbn [ask_all map]; [auto|]. destruct (clean_ask w q h0 h Y C) as [C1 A].
    destruct (ask w q h) as [h1 a]. cbn [fst snd] in *. destruct (IH h1 C1) as [B C2]. destruct (ask_all w qs h1) as [h2 l]. cbn [fst snd] in *. subst. auto. }
  destruct (G h0) as [A (_ & T & D & J & _)]; [|auto].
  destruct Y as (M0 & L0 & D0). repeat split; rewrite ?M0, ?L0, ?D0; discriminate.
Qed.

(** So the answers do not depend on the order of the questions. *)
Theorem C145_order : forall w qs qs' q h, unread h ->
  snd (ask w q (fst (ask_all w qs h))) = snd (ask w q (fst (ask_all w qs' h))).
Proof.
  intros w qs qs' q h Y.
  assert (G : forall l, snd (ask w q (fst (ask_all w l h))) = snd (ask w (anew q) h)); [|rewrite !G; reflexivity].
  intros l. assert (K : snd (ask_all w (l ++ [q]) h) = snd (ask_all w l h) ++ [snd (ask w q (fst (ask_all w l h)))]).
  { clear Y. revert h. induction l as [|x l IH]; intros h; cbn [app ask_all].
    - cbn [fst snd]. destruct (ask w q h). reflexivity.
    - destruct (ask w x h) as [h1 a]. specialize (IH h1). destruct (ask_all w (l ++ [q]) h1) as [u v], (ask_all w l h1) as [u' v']. cbn [fst snd] in *. rewrite IH. reflexivity. }
  destruct (C145_answers w (l ++ [q]) h Y) as [A _]. destruct (C145_answers w l h Y) as [B _]. rewrite K, B, map_app in A.
  apply app_inv_head in A. cbn [map] in A. congruence.
Qed.

(** Not so once a mark was set through the handle: then the answer about the
    deleted paths depends on whether they had been asked for before. *)
Theorem C145_marked_refuted : exists h p, unread h /\
  snd (ask true (QDeleted false) (fst (set_deleted p h))) <>
  snd (ask true (QDeleted false) (fst (set_deleted p (fst (ask true (QDeleted false) h))))).
Proof. exists ex_hb, (U "data/gone"). split; [vm_compute; auto|]. vm_compute. discriminate. Qed.

Print Assumptions C145_answers.
Print Assumptions C145_order.
Print Assumptions C145_marked_refuted.

(** A case: the bag of C11_ex. *)
Example C145_case :
  unread ex_hb /\
  snd (ask_all true [QLookup (U "data/y") false; QFilesIn (U "a"); QMembers true; QDeleted false; QLookup (U "data/y") true; QDeleted true; QMembers false] ex_hb) =
    [ALookup (Ok (Some (U "b"))); APaths (Ok [U "data/x"; U "data/z"]); AMembers (Ok [mb "a"; mb "b"; mb "head"]); APaths (Ok [U "data/old"]);
     ALookup (Ok (Some (U "b"))); APaths (Ok [U "data/old"]); AMembers (Ok [mb "a"; mb "b"; mb "head"])].
Proof. vm_compute. repeat split. Qed.

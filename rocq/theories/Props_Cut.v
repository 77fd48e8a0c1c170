(** Properties of lists that were not saved to the end *)
Require Import String NArith PeanoNat Bool List Lia.
From Verif Require Import PyBase PyFacts Version Tsv TsvProofs Fs FsFacts HeadBag HeadBagProofs HeadBagProofs2 HeadBagProofs3
  HandlesProofs2 Cut SpecCut CutProofs Props_HeadBag.
Import ListNotations.
Open Scope nat_scope.

(** ** C128 *)

(** A head bag whose lists can be saved: its tags are current, in memory and
    on disk, and nothing is in the way of the files. *)
Definition ready (h : hb) (td : pystr) : Prop :=
  std_tags (hb_info h) td /\ std_tags (hb_dinfo h) td /\ tagdir_ok (hb_tree h) td /\ NoDup (od_keys (hb_tree h)).

(** Nothing but the file [f] of the bag is changed. *)
Definition only (f : pystr) (h h' : hb) : Prop :=
  hb_name h' = hb_name h /\ hb_dinfo h' = hb_dinfo h /\ forall q, q <> f -> read q (hb_tree h') = read q (hb_tree h).

(** Wherever saving the member bags stops, the list is read without an error:
    it has the first of the members, and perhaps what is left of the next. *)
Theorem C128_members : forall r td n h L, ready h td -> hb_mem h = Some L -> Forall (storable_member r) L ->
  exists h', cut_members n h = (h', Ok tt) /\ only (sjoin td F_members) h h' /\
    exists L', iter_member_bags (reopen r h') = Ok L' /\ list_rest member_rest L L'.
Proof.
  intros r td n h L (T1 & T2 & TO & ND) M F. pose proof (std_tag_dir _ _ T1) as TD.
  destruct (put_step F_members (firstn n (fst (members_prefix L))) h td) as (t' & E & R1 & R2 & _); auto; [left; reflexivity|].
  exists (set_tree h t'). unfold cut_members. rewrite M, TD. split; [exact E|]. split; [split; [reflexivity|split; [reflexivity|exact R2]]|].
  rewrite (iter_members_read (reopen r (set_tree h t')) td _ T2 R1). apply list_rest_members. exact F.
Qed.
Print Assumptions C128_members.

(** And every number of members may be all that is left. So the stop is not
    noticed; it is never the old list that is left. *)
Theorem C128_members_refuted : forall r td h L k, ready h td -> hb_mem h = Some L -> Forall (storable_member r) L ->
  k <= length L ->
  exists n h', cut_members n h = (h', Ok tt) /\ iter_member_bags (reopen r h') = Ok (firstn k L).
Proof.
  intros r td h L k (T1 & T2 & TO & ND) M F Lk. pose proof (std_tag_dir _ _ T1) as TD.
  assert (FL : Forall (legal_member r) L) by (eapply Forall_impl; [|exact F]; intros m K; apply K).
  destruct (cut_at member_body L k Lk) as (n & En). exists n.
  destruct (put_step F_members (firstn n (fst (members_prefix L))) h td) as (t' & E & R1 & R2 & _); auto; [left; reflexivity|].
  exists (set_tree h t'). unfold cut_members. rewrite M, TD. split; [exact E|].
  rewrite (iter_members_read (reopen r (set_tree h t')) td _ T2 R1).
  rewrite (members_prefix_text r L FL). cbn [fst]. rewrite En.
  assert (Fk : Forall (storable_member r) (firstn k L)).
  { rewrite Forall_forall in *. intros m Im. apply F. rewrite <- (firstn_skipn k L). apply in_or_app; auto. }
  rewrite decode_id by (apply members_text_no_bom; exact Fk).
  assert (FLk : Forall (legal_member r) (firstn k L)) by (eapply Forall_impl; [|exact Fk]; intros m K; apply K).
  destruct (members_roundtrip r (firstn k L) FLk) as (t & Et & Pt). rewrite (members_text_body r _ FLk) in Et.
  injection Et as <-. exact Pt.
Qed.
Print Assumptions C128_members_refuted.

(** The table of files: it is refused, or it has the first of the entries and
    perhaps one more, whose path is right and whose bag has its name cut. *)
Theorem C128_lookup : forall r td n h D, ready h td -> hb_lu h = Some D -> Forall (storable_entry r) D ->
  exists h', cut_lookup n h = (h', Ok tt) /\ only (sjoin td F_lookup) h h' /\
    (iter_file_lookup (reopen r h') = Err EMultibag \/
     exists D', iter_file_lookup (reopen r h') = Ok D' /\ list_rest entry_rest D D').
Proof.
  intros r td n h D (T1 & T2 & TO & ND) M F. pose proof (std_tag_dir _ _ T1) as TD.
  destruct (put_step F_lookup (firstn n (lookup_text D)) h td) as (t' & E & R1 & R2 & _); auto; [right; left; reflexivity|].
  exists (set_tree h t'). unfold cut_lookup. rewrite M, TD. split; [exact E|]. split; [split; [reflexivity|split; [reflexivity|exact R2]]|].
  rewrite (iter_lookup_read (reopen r (set_tree h t')) td _ T2 R1). apply list_rest_lookup. exact F.
Qed.
Print Assumptions C128_lookup.

(** The deleted paths: always read; the last one may be cut, and is then the
    path of something else. *)
Theorem C128_deleted : forall r td n h X, ready h td -> hb_del h = Some X -> Forall (storable_path r) X ->
  exists h', cut_deleted n h = (h', Ok tt) /\ only (sjoin td F_deleted) h h' /\
    exists X', iter_deleted (reopen r h') = Ok X' /\ list_rest path_rest X X'.
Proof.
  intros r td n h X (T1 & T2 & TO & ND) M F. pose proof (std_tag_dir _ _ T1) as TD. pose proof (std_tag_dir _ _ T2) as TD2.
  destruct (put_step F_deleted (firstn n (deleted_text X)) h td) as (t' & E & R1 & R2 & _); auto; [right; right; left; reflexivity|].
  exists (set_tree h t'). unfold cut_deleted. rewrite M, TD. split; [exact E|]. split; [split; [reflexivity|split; [reflexivity|exact R2]]|].
  unfold iter_deleted. change (hb_info (reopen r (set_tree h t'))) with (hb_dinfo h). rewrite TD2.
  change (hb_tree (reopen r (set_tree h t'))) with t'. rewrite R1.
  eexists. split; [reflexivity|]. apply list_rest_deleted. exact F.
Qed.
Print Assumptions C128_deleted.

(** A save that is not cut is the save. *)
Theorem C128_whole : forall r td n h L, ready h td -> hb_mem h = Some L -> Forall (storable_member r) L ->
  length (fst (members_prefix L)) <= n -> cut_members n h = save_member_bags h.
Proof.
  intros r td n h L (T1 & T2 & TO & ND) M F Le.
  assert (FL : Forall (legal_member r) L) by (eapply Forall_impl; [|exact F]; intros m K; apply K).
  unfold cut_members, save_member_bags. rewrite M. rewrite firstn_all2 by exact Le.
  rewrite (members_prefix_text r L FL). cbn [fst snd].
  unfold bindM. destruct (ensure_tagdir h) as [h1 [[]|e]]; [|reflexivity].
  destruct (put_file _ _ h1) as [h2 [[]|e]]; reflexivity.
Qed.
Print Assumptions C128_whole.

(** *** A case *)

(** Three paths are to be marked as deleted in the example bag. *)
Definition cut_hb : hb :=
  set_del (set_lu (set_mem ex_hb (Some [mb "a"; {| m_name := U "b"; m_uri := Some (U "http://x.org/b"); m_comment := Some (U "new"); m_info := [] |}; mb "head"]))
                  (Some [(U "data/x", U "a"); (U "data/y", U "a2")]))
          (Some [U "data/old"; U "data/x2"; U "data/z"]).

Lemma cut_hb_ready : ready cut_hb (U "multibag").
Proof.
  split; [split; reflexivity|]. split; [split; reflexivity|].
  split; [split; [left; reflexivity|intros f [<-|[<-|[<-|[]]]]; reflexivity]|].
  apply nodupb_ok. vm_compute. reflexivity.
Qed.

Example C128_case :
  ready cut_hb (U "multibag") /\
  (exists L, hb_mem cut_hb = Some L /\ length L = 3 /\ Forall (storable_member IoText) L) /\
  (exists D, hb_lu cut_hb = Some D /\ length D = 2 /\ Forall (storable_entry IoText) D) /\
  (exists X, hb_del cut_hb = Some X /\ length X = 3 /\ Forall (storable_path IoText) X).
Proof.
  split; [exact cut_hb_ready|].
  assert (P : forall s, storableb IoText s = true -> legal_name s /\ no_brk IoText s).
  { intros s H. apply storableb_ok in H as (A & B & _). auto. }
  split; [|split].
  - eexists. split; [reflexivity|]. split; [reflexivity|].
    constructor; [|constructor; [|constructor; [|constructor]]]; (split; [|exact I]).
    + split; [apply P; vm_compute; reflexivity|]. split; [split; [exact I|intros _ u E; discriminate E]|]. split; [exact I|reflexivity].
    + split; [apply P; vm_compute; reflexivity|]. split; [split; [apply P; vm_compute; reflexivity|intros E; discriminate E]|].
      split; [apply P; vm_compute; reflexivity|reflexivity].
    + split; [apply P; vm_compute; reflexivity|]. split; [split; [exact I|intros _ u E; discriminate E]|]. split; [exact I|reflexivity].
  - eexists. split; [reflexivity|]. split; [reflexivity|].
    repeat (constructor; [split; apply storableb_ok; vm_compute; reflexivity|]). constructor.
  - eexists. split; [reflexivity|]. split; [reflexivity|].
    assert (Q : forall s, storableb IoText s = true -> storable_path IoText s).
    { intros s H. apply storableb_ok in H as ([A _] & B & C). split; auto. }
    repeat (constructor; [apply Q; vm_compute; reflexivity|]). constructor.
Qed.

(** REFUTED that the stop does no harm to what was not to be changed. Saving
    the deleted paths data/old, data/x2 and data/z is stopped: the file data/x,
    which is not to be deleted, is read as deleted. Saving the table is stopped:
    data/y is looked for in bag "a", although it is in "a2". *)
Theorem C128_harm_refuted :
  (exists n h', cut_deleted n cut_hb = (h', Ok tt) /\ hb_del cut_hb = Some [U "data/old"; U "data/x2"; U "data/z"] /\
     forall r, iter_deleted (reopen r h') = Ok [U "data/old"; U "data/x"]) /\
  (exists n h', cut_lookup n cut_hb = (h', Ok tt) /\
     hb_lu cut_hb = Some [(U "data/x", U "a"); (U "data/y", U "a2")] /\
     forall r, iter_file_lookup (reopen r h') = Ok [(U "data/x", U "a"); (U "data/y", U "a")]) /\
  (exists n h', cut_members n cut_hb = (h', Ok tt) /\
     forall r, iter_member_bags (reopen r h') =
       Ok [mb "a"; {| m_name := U "b"; m_uri := Some (U "http://x"); m_comment := None; m_info := [] |}]).
Proof.
  split; [|split].
  - exists 15. eexists. split; [vm_compute; reflexivity|]. split; [reflexivity|]. intros [|]; vm_compute; reflexivity.
  - exists 17. eexists. split; [vm_compute; reflexivity|]. split; [reflexivity|]. intros [|]; vm_compute; reflexivity.
  - exists 12. eexists. split; [vm_compute; reflexivity|]. intros [|]; vm_compute; reflexivity.
Qed.
Print Assumptions C128_harm_refuted.

(** Properties of several handles on one head bag *)
Require Import String NArith PeanoNat Bool List Lia.
From Verif Require Import PyBase PyFacts Version Tsv TsvProofs Fs FsFacts HeadBag HeadBagProofs HeadBagProofs2 HeadBagProofs3
  Handles SpecHandles HandlesProofs HandlesProofs2 Props_HeadBag.
Import ListNotations.
Open Scope nat_scope.

(** ** C127 *)

(** Whoever does not save disturbs nobody: leave out all the calls of handles
    that never save, whatever they ask and change in memory, and the files,
    the other handles and all results of their calls are the same. *)
Theorem C127_silent : forall (q : nat -> bool) (l : list event) (w : world),
  (forall i k, In (ECall i k) l -> q i = true -> saves k = false) ->
  let w1 := fst (run l w) in
  let w2 := fst (run (others q l) w) in
  w_tree w1 = w_tree w2 /\ w_dinfo w1 = w_dinfo w2 /\
  (forall i, q i = false -> nth_error (w_handles w1) i = nth_error (w_handles w2) i) /\
  results_of_others q l (snd (run l w)) = snd (run (others q l) w).
Proof.
  intros q l w Si w1 w2. destruct (silent_handles q l Si w w (agree_refl q w)) as [(_ & T & D & _ & H) R]. auto.
Qed.
Print Assumptions C127_silent.

(** Asking with reread=True after any history gives what a newly opened bag
    says, however old the handle is; its tags are those on disk. *)
Definition rereads (k : call) : bool :=
  match k with KMembers re => re | KLookup _ re => re | KDeleted re => re | _ => false end.

Theorem C127_reread : forall w i a k, nth_error (w_handles w) i = Some a -> ha_info a = w_dinfo w -> rereads k = true ->
  snd (on i (call_run k) w) =
  Some (snd (call_run k (open_hb (w_name w) (w_tree w) (w_dinfo w) (ha_reader a)))).
Proof.
  intros w i a k Ni Ei Re. unfold on. rewrite Ni.
  assert (E : forall k h h0, rereads k = true -> hb_tree h = hb_tree h0 -> hb_info h = hb_info h0 -> hb_reader h = hb_reader h0 ->
              snd (call_run k h) = snd (call_run k h0)).
  { clear. intros k h h0 Re T Ii Rd.
    assert (I1 : iter_member_bags h = iter_member_bags h0) by (unfold iter_member_bags; rewrite T, Ii, Rd; reflexivity).
    assert (I2 : iter_file_lookup h = iter_file_lookup h0) by (unfold iter_file_lookup; rewrite T, Ii, Rd; reflexivity).
    assert (I3 : iter_deleted h = iter_deleted h0) by (unfold iter_deleted; rewrite T, Ii, Rd; reflexivity).
    destruct k as [[|]|p [|]|b|[|]|m|b|p b|p|p|p| | |]; try discriminate Re; cbn [call_run]; unfold ret_as, bindM.
    - unfold member_bags, member_bags_ro. rewrite I1.
      destruct (hb_mem h), (hb_mem h0), (iter_member_bags h0) as [?|[]]; reflexivity.
    - unfold lookup_file, lookup_file_ro, cache_file_lookup. rewrite I2.
      destruct (hb_lu h), (hb_lu h0), (iter_file_lookup h0) as [?|[]]; reflexivity.
    - unfold deleted_paths. rewrite I3. destruct (hb_del h), (hb_del h0), (iter_deleted h0); reflexivity. }
  specialize (E k (view w a) (open_hb (w_name w) (w_tree w) (w_dinfo w) (ha_reader a)) Re eq_refl Ei eq_refl).
  destruct (call_run k (view w a)) as [h r]. cbn [snd] in *. rewrite E. reflexivity.
Qed.
Print Assumptions C127_reread.

(** Asking without it gives what the handle has in memory, if it has read the
    list before, whatever is on disk; and nothing changes. *)
Theorem C127_memory : forall w i a, nth_error (w_handles w) i = Some a ->
  (forall l, ha_mem a = Some l -> snd (on i (call_run (KMembers false)) w) = Some (Ok (AMembers l))) /\
  (forall d p, ha_lu a = Some d -> snd (on i (call_run (KLookup p false)) w) = Some (Ok (ABag (od_get p d)))) /\
  (forall l, ha_del a = Some l -> snd (on i (call_run (KDeleted false)) w) = Some (Ok (APaths l))).
Proof.
  intros w i [ii mm ll dd rr] Ni. cbn [ha_mem ha_lu ha_del].
  split; [|split]; intros x; [|intros p|]; intros ->; unfold on; rewrite Ni; reflexivity.
Qed.
Print Assumptions C127_memory.

(** Working in turns ([SpecHandles.v]): for every number of handles and every
    orderly history, all calls of those whose turn it is succeed, and in the
    end the bag has on disk what the saved edits make of the aggregation, one
    turn after another. Nothing that was saved gets lost. *)
Theorem C127_turns_partial : forall td (l : list step) (w : world) (g : agg),
  std_tags (w_dinfo w) td -> Forall (fun a => std_tags (ha_info a) td) (w_handles w) ->
  tagdir_ok (w_tree w) td -> NoDup (od_keys (w_tree w)) ->
  holds w g -> good_agg g ->
  orderly (length (w_handles w)) None l -> Forall (fun s => match s with Edit _ e => good_edit e | _ => True end) l ->
  holds (fst (run (flat_map calls_of l) w)) (expected g g l) /\
  Forall2 (fun (mine : bool) a => mine = true -> exists x, a = Some (Ok x))
          (flat_map in_turn l) (snd (run (flat_map calls_of l) w)).
Proof.
  intros td l w g Di In_ Dr Nd Ho Gd Or Gs. apply (turns td l (length (w_handles w)) None g g w); auto.
  constructor; auto. discriminate.
Qed.
Print Assumptions C127_turns_partial.

(** *** A case *)

Definition ag0 : agg :=
  mkagg [mb "a"; mb "b"; mb "head"]
        [(U "data/x", U "a"); (U "data/y", U "b"); (U "data/z", U "a")] [U "data/old"].
Definition w0 : world := open_another IoText (open_another Codecs (open_another Codecs (mkw (U "head") ex_tree ex_info []))).

(** Two handles for updates and a reader. Handle 1 has the old lists in memory
    when its turn comes, and changes some of it in vain before. *)
Definition sched : list step :=
  [Loose 1 (KMembers false); Loose 2 (KLookup (U "data/x") false);
   Begin 0 (U "data/x"); Edit 0 (Add (mb "c")); Loose 1 (KAdd (mb "lost")); Edit 0 (File (U "data/new") (U "c")); Commit 0;
   Open Codecs; Loose 2 (KLookup (U "data/new") true);
   Begin 1 (U "data"); Edit 1 (Remove (U "a")); Edit 1 (Delete (U "data/y")); Commit 1;
   Begin 3 (U "q"); Edit 3 (Undelete (U "data/old")); Edit 3 (Unfile (U "data/y")); Commit 3].

Definition good_nameb (s : pystr) : bool := storableb IoText s && storableb Codecs s.
Lemma good_nameb_ok s : good_nameb s = true -> good_name s.
Proof. intros H r. apply andb_true_iff in H as [A B]. destruct r; apply storableb_ok; auto. Qed.
Lemma good_path_of s : good_name s -> good_path s.
Proof. intros H r. destruct (H r) as ([A _] & B & C). split; auto. Qed.
Lemma good_member_of s : good_nameb (U s) = true -> good_member (mb s).
Proof.
  intros H r. destruct (good_nameb_ok _ H r) as (A & B & C). split; [|exact C].
  split; [split; auto|]. split; [split; [exact I|intros _ u E; discriminate E]|]. split; [exact I|reflexivity].
Qed.

Lemma w0_holds : holds w0 ag0.
Proof.
  intros r. destruct r; (split; [vm_compute; reflexivity|]); (split; [vm_compute; reflexivity|]);
    exists [U "data/old"]; (split; [vm_compute; reflexivity|reflexivity]).
Qed.

Lemma ag0_good : good_agg ag0.
Proof.
  split; [|split; [split|]].
  - repeat (constructor; [apply good_member_of; vm_compute; reflexivity|]). constructor.
  - apply nodupb_ok. vm_compute. reflexivity.
  - repeat (constructor; [split; apply good_nameb_ok; vm_compute; reflexivity|]). constructor.
  - constructor; [apply good_path_of, good_nameb_ok; vm_compute; reflexivity|constructor].
Qed.

Example C127_case :
  std_tags (w_dinfo w0) (U "multibag") /\ Forall (fun a => std_tags (ha_info a) (U "multibag")) (w_handles w0) /\
  tagdir_ok (w_tree w0) (U "multibag") /\ NoDup (od_keys (w_tree w0)) /\ holds w0 ag0 /\ good_agg ag0 /\
  orderly (length (w_handles w0)) None sched /\
  Forall (fun s => match s with Edit _ e => good_edit e | _ => True end) sched /\
  expected ag0 ag0 sched = mkagg [mb "b"; mb "head"; mb "c"] [(U "data/new", U "c")] [U "data/y"].
Proof.
  split; [split; reflexivity|].
  split; [repeat (constructor; [split; reflexivity|]); constructor|].
  split; [split; [left; reflexivity|intros f [<-|[<-|[<-|[]]]]; reflexivity]|].
  split; [apply nodupb_ok; vm_compute; reflexivity|].
  split; [exact w0_holds|]. split; [exact ag0_good|].
  split.
  { cbn [orderly sched]. intuition (try congruence; try lia); vm_compute; lia. }
  split; [|vm_compute; reflexivity].
  unfold sched. repeat (constructor; [first [exact I
    | apply good_member_of; vm_compute; reflexivity
    | split; apply good_nameb_ok; vm_compute; reflexivity
    | apply good_path_of, good_nameb_ok; vm_compute; reflexivity
    | apply good_nameb_ok; vm_compute; reflexivity ]|]). constructor.
Qed.

(** REFUTED without turns: two handles that both had read the list each add a
    bag and save it. Both calls succeed; the bag saved first is not a member
    any more, and its entry of the lookup, which only the first one saved, is
    still there. *)
Theorem C127_lost_refuted :
  let l := [ECall 0 (KMembers false); ECall 1 (KMembers false);
            ECall 0 (KAdd (mb "c")); ECall 0 (KFile (U "data/new") (U "c")); ECall 0 KSaveMembers; ECall 0 KSaveLookup;
            ECall 1 (KAdd (mb "d")); ECall 1 KSaveMembers] in
  let w := fst (run l w0) in
  Forall (fun a => exists x, a = Some (Ok x)) (snd (run l w0)) /\
  forall r, iter_member_bags (open_hb (w_name w) (w_tree w) (w_dinfo w) r) = Ok [mb "a"; mb "b"; mb "head"; mb "d"] /\
    exists d, iter_file_lookup (open_hb (w_name w) (w_tree w) (w_dinfo w) r) = Ok d /\ od_get (U "data/new") d = Some (U "c").
Proof.
  split.
  - assert (E : snd (run [ECall 0 (KMembers false); ECall 1 (KMembers false);
            ECall 0 (KAdd (mb "c")); ECall 0 (KFile (U "data/new") (U "c")); ECall 0 KSaveMembers; ECall 0 KSaveLookup;
            ECall 1 (KAdd (mb "d")); ECall 1 KSaveMembers] w0) =
      [Some (Ok (AMembers [mb "a"; mb "b"; mb "head"])); Some (Ok (AMembers [mb "a"; mb "b"; mb "head"]));
       Some (Ok ADone); Some (Ok ADone); Some (Ok ADone); Some (Ok ADone); Some (Ok ADone); Some (Ok ADone)])
      by (vm_compute; reflexivity).
    rewrite E. repeat (constructor; [eexists; reflexivity|]). constructor.
  - intros r. destruct r; (split; [vm_compute; reflexivity|]); eexists; (split; [vm_compute; reflexivity|vm_compute; reflexivity]).
Qed.
Print Assumptions C127_lost_refuted.

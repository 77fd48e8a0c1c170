(** C129: cases *)
Require Import String NArith ZArith PeanoNat Bool List Lia.
From Verif Require Import PyBase PyFacts Version Tsv TsvProofs Fs FsFacts HeadBag HeadBagProofs HeadBagProofs2 HeadBagProofs3 BagIt BagItProofs Split SplitApply SplitApplyProofs SplitApplyProofs5 SplitApplyProofs7 SplitApplyProofs8 Restore RestoreProofs RestoreProofs2 RestoreProofs6 RestoreProofs8 RestoreProofs10 Props_Restore Props_Restore3 Amend AmendProofs AmendProofs2 AmendProofs3 AmendProofs4 Props_SplitApply Props_Amend Props_AmendRestore Props_AmendRestore2 Props_AmendHistory Props_AmendHistory2 AmendTotalProofs Props_AmendTotal Props_AmendTotal2 Again SpecAgain Props_Again.
Import ListNotations.
Open Scope N_scope.

(** The second amendment of C113. *)
Definition ag_env : env := there hg_env (ar_place (U "last")).
Definition ag_algs : list pystr := got [] (algorithms ar_env hg_last).
Definition ag_old : hb := hg_open (U "next") hg_t1.
Definition ag_lists (t : tree) : hb * res hb :=
  amend_lists ex_repr false false ag_old (map default_bag []) (own_member None None []) SNone SNone (hg_open (U "last") t).
Definition ag_steps (t : tree) : list step :=
  let h := fst (ag_lists t) in amend_steps ag_env ag_algs (fun _ => U "1 kB") (U "3") (hb_info h) (match hb_mem h with Some l => l | None => [] end) (hb_lu h).
Definition ag_stop (k : nat) (t : tree) : tree := got [] (run_steps (firstn k (ag_steps t)) t).
Definition ag_amend (t : tree) : hb * res hb :=
  amend_bag_with ag_env ag_algs (fun _ => U "1 kB") ex_repr false ag_old [] (U "3") (hg_open (U "last") t).

Definition is_ok {A} (x : res A) : bool := match x with Ok _ => true | Err _ => false end.

Lemma ag_attempt k t : is_ok (tags_of Codecs t) = true -> is_ok (snd (ag_lists t)) = true ->
  (match hb_mem (fst (ag_lists t)) with Some _ => true | None => false end) = true ->
  is_ok (run_steps (firstn k (ag_steps t)) t) = true ->
  attempt ag_env ag_algs (fun _ => U "1 kB") ex_repr false ag_old [] (U "3") (U "last") t (ag_stop k t).
Proof.
  intros T L M R. unfold attempt.
  destruct (tags_of Codecs t) as [i|] eqn:Ti; [|discriminate T].
  destruct (snd (ag_lists t)) as [o|] eqn:Lo; [|discriminate L].
  destruct (hb_mem (fst (ag_lists t))) as [l|] eqn:Ml; [|discriminate M].
  exists i, (fst (ag_lists t)), o, l. split; [exact Ti|]. split; [|split; [exact Ml|]].
  - assert (E : open_hb (U "last") t i Codecs = hg_open (U "last") t) by (unfold hg_open; rewrite Ti; reflexivity).
    rewrite E. change (ag_lists t = (fst (ag_lists t), Ok o)). rewrite <- Lo. apply surjective_pairing.
  - exists k. unfold ag_stop. assert (E : ag_steps t = amend_steps ag_env ag_algs (fun _ => U "1 kB") (U "3") (hb_info (fst (ag_lists t))) l (hb_lu (fst (ag_lists t)))).
    { unfold ag_steps. cbv zeta. rewrite Ml. reflexivity. }
    rewrite <- E. destruct (run_steps (firstn k (ag_steps t)) t); [reflexivity|discriminate R].
Qed.

(** The first attempt stops after the tag manifest of the first save, the
    second after removing the lists. *)
Definition ag_left : tree := ag_stop 2 (ag_stop 8 hg_last).

Lemma ag_amends : amends ex_repr (U "last") hg_last ag_old [] (U "3").
Proof.
  destruct C114_case as (_ & _ & _ & Am & _ & Ao & Hd). destruct Am as (_ & _ & _ & _ & Nv & Vv & Fd).
  split; [exact Nv|]. split; [exact Vv|]. split; [exact Fd|]. split; [exact Ao|]. split; [reflexivity|].
  split; [apply ex_bag_files; vm_compute; reflexivity|]. split; [discriminate|]. split; [constructor|]. split.
  - intros p x A.
    assert (Ies : iter_file_lookup ag_old = Ok [(U "data/a", U "more"); (U "data/d/b", U "src"); (U "data/c", U "next")]) by (vm_compute; reflexivity).
    pose proof (answer_entry _ _ _ Hd A _ eq_refl Ies) as I.
    assert (X : od_of_pairs [(U "data/a", U "more"); (U "data/d/b", U "src"); (U "data/c", U "next")] = [(U "data/a", U "more"); (U "data/d/b", U "src"); (U "data/c", U "next")]) by (vm_compute; reflexivity).
    rewrite X in I. assert (F : Forall (storable_entry Codecs) [(U "data/a", U "more"); (U "data/d/b", U "src"); (U "data/c", U "next")]) by (apply wf_tableb_ok; reflexivity).
    rewrite Forall_forall in F. apply F. exact I.
  - intros b p I H. cbn [map app] in I. destruct I as [<-|[]]. cbn [fst snd] in *.
    apply files_entry in H; [|apply nodupb_ok; vm_compute; reflexivity].
    assert (X : filter is_payload (files hg_last) = [U "data/f"]) by (vm_compute; reflexivity). rewrite X in H. destruct H as [<-|[]].
    assert (F : Forall (storable_entry Codecs) [(U "data/f", U "last")]) by (apply wf_tableb_ok; reflexivity). inversion F; assumption.
Qed.

Example C129_case :
  plain_algos ag_env /\ NoDup (e_algos ag_env) /\ good_hash ag_env /\ incl ag_algs (e_algos ag_env) /\
  amendment (fun _ => U "1 kB") ex_repr ag_old (hg_open (U "last") hg_last) (U "last") hg_last (U "multibag") (U "3") /\
  room ag_env ag_algs (U "multibag") hg_last (hb_info (hg_open (U "last") hg_last)) /\
  amends ex_repr (U "last") hg_last ag_old [] (U "3") /\
  members_of ag_old (map plain_member [U "src"; U "more"; U "next"]) /\
  Forall (storable_member Codecs) (map plain_member [U "src"; U "more"; U "next"] ++ map (fun s => plain_member (s_name s)) [] ++ [plain_member (U "last")]) /\
  attempts ag_env ag_algs (fun _ => U "1 kB") ex_repr (U "last") hg_last ag_left /\
  is_file (U "multibag/file-lookup.tsv") (ag_stop 8 hg_last) = true /\ is_file (U "multibag/file-lookup.tsv") ag_left = false.
Proof.
  destruct C114_case as (P1 & P2 & P3 & Am & Rm & Ao & Hd).
  split; [exact P1|]. split; [exact P2|]. split; [exact P3|].
  split. { intros a I. assert (E : ag_algs = [U "md5"; U "sha256"]) by (vm_compute; reflexivity). rewrite E in I. exact I. }
  split; [exact Am|]. split; [exact Rm|]. split; [exact ag_amends|].
  split; [left; split; [exact Hd|vm_compute; reflexivity]|].
  split. { cbn [map app]. repeat (apply Forall_cons; [apply storable_name, storableb_ok; reflexivity|]). constructor. }
  split; [|split; vm_compute; reflexivity].
  eapply one_more; [eapply one_more; [apply no_attempt|exact ag_amends|]|exact ag_amends|].
  - apply (ag_attempt 8); vm_compute; reflexivity.
  - apply (ag_attempt 2); vm_compute; reflexivity.
Qed.

(** The table of the first attempt, cut inside the first path: the second
    attempt fails. *)
Example C129_table_case : exists c,
  attempt ag_env ag_algs (fun _ => U "1 kB") ex_repr false ag_old [] (U "3") (U "last") hg_last (ag_stop 6 hg_last) /\
  read (U "multibag/file-lookup.tsv") (ag_stop 6 hg_last) = Some c /\
  snd (ag_amend (od_set (U "multibag/file-lookup.tsv") (NFile (firstn 4 c)) (ag_stop 5 hg_last))) = Err EMultibag /\
  snd (ag_amend (od_set (U "multibag/file-lookup.tsv") (NFile (firstn 8 c)) (ag_stop 5 hg_last))) = snd (ag_amend hg_last).
Proof.
  exists (match read (U "multibag/file-lookup.tsv") (ag_stop 6 hg_last) with Some c => c | None => [] end).
  split; [apply (ag_attempt 6); vm_compute; reflexivity|]. split; [vm_compute; reflexivity|]. split; vm_compute; reflexivity.
Qed.

(** The first attempt stopped when bag-info.txt had just been emptied: the
    second succeeds, but the tags that the bag had are lost. *)
Theorem C129_tags_refuted : exists v algs bsize repr old name t td version t1 t2 new1 new2 old1 old2 i,
  plain_algos v /\ NoDup (e_algos v) /\ good_hash v /\ incl algs (e_algos v) /\
  amendment bsize repr old (open_hb name t i Codecs) name t td version /\ room v algs td t i /\ amends repr name t old [] version /\
  attempt v algs bsize repr false old [] version name t t1 /\
  t2 = od_set (U "bag-info.txt") (NFile []) t1 /\
  amend_bag_with v algs bsize repr false old [] version (open_hb name t i Codecs) = (new1, Ok old1) /\
  (exists i2, tags_of Codecs t2 = Ok i2 /\ amend_bag_with v algs bsize repr false old [] version (open_hb name t2 i2 Codecs) = (new2, Ok old2)) /\
  (exists j, tags_of Codecs (hb_tree new1) = Ok j /\ tag_values j (U "Contact-Name") = [U "C"]) /\
  (exists j, tags_of Codecs (hb_tree new2) = Ok j /\ tag_values j (U "Contact-Name") = [] /\ tag_values j (U "Multibag-Head-Version") = [version]).
Proof.
  destruct C129_case as (P1 & P2 & P3 & P4 & Am & Rm & As & _).
  set (t2 := od_set (U "bag-info.txt") (NFile []) (ag_stop 6 hg_last)).
  assert (Et : tags_of Codecs hg_last = Ok (hb_info (hg_open (U "last") hg_last))) by (vm_compute; reflexivity).
  exists ag_env, ag_algs, (fun _ => U "1 kB"), ex_repr, ag_old, (U "last"), hg_last, (U "multibag"), (U "3"), (ag_stop 6 hg_last), t2,
    (fst (ag_amend hg_last)), (fst (ag_amend t2)), ag_old, ag_old, (hb_info (hg_open (U "last") hg_last)).
  split; [exact P1|]. split; [exact P2|]. split; [exact P3|]. split; [exact P4|].
  assert (Eo : open_hb (U "last") hg_last (hb_info (hg_open (U "last") hg_last)) Codecs = hg_open (U "last") hg_last) by reflexivity.
  rewrite Eo. split; [exact Am|]. split; [exact Rm|]. split; [exact As|]. split; [apply (ag_attempt 6); vm_compute; reflexivity|]. split; [reflexivity|].
  split; [vm_compute; reflexivity|]. split; [|split].
  - exists []. split; vm_compute; reflexivity.
  - exists (got [] (tags_of Codecs (hb_tree (fst (ag_amend hg_last))))). split; vm_compute; reflexivity.
  - exists (got [] (tags_of Codecs (hb_tree (fst (ag_amend t2))))). split; [|split]; vm_compute; reflexivity.
Qed.
Print Assumptions C129_tags_refuted.

(** While an amendment is made again, the bag is a head bag without its lists:
    what C45 says of the first time does not hold for the second. *)
Theorem C129_gap_refuted : exists v algs bsize repr old name t t1 t2 version new1 old1 i,
  amends repr name t old [] version /\
  tags_of Codecs t = Ok i /\ amend_bag_with v algs bsize repr false old [] version (open_hb name t i Codecs) = (new1, Ok old1) /\
  t1 = hb_tree new1 /\ attempt v algs bsize repr false old [] version name t1 t2 /\
  exists j, tags_of Codecs t2 = Ok j /\ is_head (open_hb name t2 j Codecs) = true /\
    (exists l, iter_member_bags (open_hb name t1 j Codecs) = Ok l /\ l <> []) /\
    iter_member_bags (open_hb name t2 j Codecs) = Err EMissingFile /\ iter_file_lookup (open_hb name t2 j Codecs) = Err EMissingFile.
Proof.
  set (t1 := hb_tree (fst (ag_amend hg_last))).
  exists ag_env, ag_algs, (fun _ => U "1 kB"), ex_repr, ag_old, (U "last"), hg_last, t1, (ag_stop 2 t1), (U "3"),
    (fst (ag_amend hg_last)), ag_old, (hb_info (hg_open (U "last") hg_last)).
  split; [exact ag_amends|]. split; [vm_compute; reflexivity|]. split; [vm_compute; reflexivity|]. split; [reflexivity|].
  split; [apply (ag_attempt 2); vm_compute; reflexivity|].
  exists (got [] (tags_of Codecs t1)). split; [vm_compute; reflexivity|]. split; [vm_compute; reflexivity|]. split.
  - exists (map plain_member [U "src"; U "more"; U "next"; U "last"]). split; [vm_compute; reflexivity|discriminate].
  - split; vm_compute; reflexivity.
Qed.
Print Assumptions C129_gap_refuted.

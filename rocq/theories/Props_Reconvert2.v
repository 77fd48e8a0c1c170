(** C130, the case: a bag whose conversion was stopped twice *)
Require Import String NArith ZArith PeanoNat Bool List Lia.
From Verif Require Import PyBase PyFacts Version Tsv TsvProofs Fs FsFacts HeadBag HeadBagProofs HeadBagProofs2 HeadBagProofs3 BagIt BagItProofs BagItProofs2 Split SplitApply SplitApplyProofs SplitApplyProofs5 SplitApplyProofs7 SplitApplyProofs8 Restore RestoreProofs RestoreProofs2 RestoreProofs3 RestoreProofs4 RestoreProofs6 RestoreProofs7 RestoreProofs8 RestoreProofs9 RestoreProofs10 RestoreProofs11 Props_SplitApply Props_Restore Props_Restore3 Props_Restore4 BagValid BagValidProofs Props_BagValid Props_BagValid2 Props_BagValid4 Amend AmendProofs AmendProofs2 AmendProofs3 AmendProofs4 SingleProofs SaveValidProofs Props_RoundTrip2 Props_Amend Props_Single Props_Validate5 Props_AmendRestore Props_AmendValid Props_AmendRestore2 Props_AmendHistory Props_AmendHistory2 AmendTotalProofs Props_AmendTotal Props_AmendTotal2 SingleTotalProofs Props_SingleTotal SpecAgain Reconvert SpecReconvert ReconvertProofs ReconvertProofs2 Props_Reconvert.
Import ListNotations.
Open Scope N_scope.

Definition rc_env : env := there hg_env (ar_place (U "src")).
Definition rc_size : tree -> pystr := fun _ => U "1 kB".
Definition rc_info (t : tree) : infod := got [] (tags_of Codecs t).
Definition rc_algs (t : tree) : list pystr := got [] (algorithms rc_env t).
Definition rc_mem (pid : option pystr) (t : tree) : hb * res unit :=
  convert_lists rc_env (rc_algs t) rc_size (U "/bags/src") pid (open_hb (U "src") t (rc_info t) Codecs).
Definition rc_steps (version : pystr) (pid : option pystr) (t : tree) : list step :=
  let h := fst (rc_mem pid t) in
  single_steps rc_env (rc_algs t) rc_size version (rc_info t) (hb_info h) (match hb_mem h with Some l => l | None => [] end) (hb_lu h).
Definition rc_stop (k : nat) (version : pystr) (pid : option pystr) (t : tree) : tree :=
  got [] (run_steps (firstn k (rc_steps version pid t)) t).
Definition rc_single (version : pystr) (pid : option pystr) (t : tree) : res tree :=
  make_single_multibag rc_env rc_size (U "/bags/src") t version pid.

Lemma rc_conversion k version pid t es : open_bag rc_env Codecs (e_dest rc_env) t = Ok (rc_info t, es) -> algorithms rc_env t = Ok (rc_algs t) ->
  snd (rc_mem pid t) = Ok tt -> hb_mem (fst (rc_mem pid t)) <> None ->
  run_steps (firstn k (rc_steps version pid t)) t = Ok (rc_stop k version pid t) ->
  conversion rc_env rc_size (U "/bags/src") version pid t (rc_stop k version pid t) /\
  forall f c t', In f [F_members; F_lookup] -> write_file (sjoin (tag_dir (hb_info (fst (rc_mem pid t)))) f) c (rc_stop k version pid t) = Ok t' ->
    conversion rc_env rc_size (U "/bags/src") version pid t t'.
Proof.
  intros Ho Ha Hm Hl R. assert (E : rc_mem pid t = (fst (rc_mem pid t), Ok tt)) by (rewrite <- Hm; destruct (rc_mem pid t); reflexivity).
  set (h := fst (rc_mem pid t)) in *. destruct (hb_mem h) as [l|] eqn:El; [|contradiction].
  assert (X : stops_at (single_steps rc_env (rc_algs t) rc_size version (rc_info t) (hb_info h) l (hb_lu h)) t (rc_stop k version pid t)).
  { exists k. unfold rc_steps in R at 1. fold h in R. cbv zeta in R. rewrite El in R. exact R. }
  split.
  - exists (rc_info t), es, (rc_algs t), h, l, (rc_stop k version pid t). split; [exact Ho|]. split; [exact Ha|]. split; [exact E|]. split; [exact El|]. split; [exact X|]. left. reflexivity.
  - intros f c t' If W. exists (rc_info t), es, (rc_algs t), h, l, (rc_stop k version pid t). split; [exact Ho|]. split; [exact Ha|]. split; [exact E|]. split; [exact El|]. split; [exact X|].
    right. exists f, c. split; [exact If|exact W].
Qed.

(** The first conversion stopped when the tags were written, so that the bag
    is a head bag without lists. The second stopped in the middle of writing
    the list of files. The third comes to its end. *)
Definition rc_t1 : tree := rc_stop 2 (U "4") None va_tree.
Definition rc_t2 : tree := got [] (write_file (U "multibag/file-lookup.tsv") (U "da") (rc_stop 4 (U "5") (Some (U "ark:/1")) rc_t1)).

Lemma rc_conversions : conversions rc_env rc_size va_tree rc_t2.
Proof.
  assert (V : tag_value_ok Codecs (U "4") /\ tag_value_ok Codecs (U "5")) by (split; apply plain_valueb_ok; reflexivity). destruct V as [V4 V5].
  assert (C1 : conversion rc_env rc_size (U "/bags/src") (U "4") None va_tree rc_t1).
  { apply (rc_conversion 2 (U "4") None va_tree (snd (got ([], []) (open_bag rc_env Codecs (e_dest rc_env) va_tree)))); [| | |vm_compute; discriminate|]; vm_compute; reflexivity. }
  assert (C2 : conversion rc_env rc_size (U "/bags/src") (U "5") (Some (U "ark:/1")) rc_t1 rc_t2).
  { destruct (rc_conversion 4 (U "5") (Some (U "ark:/1")) rc_t1 (snd (got ([], []) (open_bag rc_env Codecs (e_dest rc_env) rc_t1)))) as [_ X]; [| | |vm_compute; discriminate| |]; try (vm_compute; reflexivity).
    apply (X F_lookup (U "da")); [right; left; reflexivity|]. vm_compute. reflexivity. }
  apply (converted_once_more _ _ _ (U "/bags/src") (U "5") (Some (U "ark:/1")) rc_t1); [|discriminate|exact V5|exact C2].
  apply (converted_once_more _ _ _ (U "/bags/src") (U "4") None va_tree); [constructor|discriminate|exact V4|exact C1].
Qed.

Example C130_case :
  plain_algos rc_env /\ NoDup (e_algos rc_env) /\ good_hash rc_env /\ plain_size rc_size /\
  convertible va_tree (U "multibag") /\ unobstructed rc_env (U "multibag") va_tree /\ tags_of Codecs va_tree = Ok (rc_info va_tree) /\
  storable_member Codecs (plain_member (U "src")) /\
  (forall p, is_payload p && is_file p va_tree = true -> storable_entry Codecs (p, U "src")) /\
  conversions rc_env rc_size va_tree rc_t2 /\
  is_head (open_hb (U "src") rc_t1 (rc_info rc_t1) Codecs) = true /\
  iter_member_bags (open_hb (U "src") rc_t1 (rc_info rc_t1) Codecs) = Err EMissingFile /\
  iter_file_lookup (open_hb (U "src") rc_t2 (rc_info rc_t2) Codecs) = Err EMultibag /\
  same_head (U "src") (U "multibag") (rc_info va_tree) (got [] (rc_single (U "7") None va_tree)) (got [] (rc_single (U "7") None rc_t2)) /\
  map (tag_values (rc_info (got [] (rc_single (U "7") None rc_t2)))) [U "Contact-Name"; U "Multibag-Head-Version"] = [[U "A"; U "B"]; [U "7"]].
Proof.
  destruct C116_case as (P1 & P2 & P3 & P4 & P5 & P6 & P7 & P8 & _).
  assert (T : tags_of Codecs va_tree = Ok (rc_info va_tree)) by (vm_compute; reflexivity).
  split; [exact P1|]. split; [exact P2|]. split; [exact P3|]. split; [exact P4|]. split; [exact P5|]. split; [exact P6|]. split; [exact T|].
  split; [exact P7|]. split; [exact P8|]. split; [exact rc_conversions|]. split; [vm_compute; reflexivity|]. split; [vm_compute; reflexivity|]. split; [vm_compute; reflexivity|].
  split; [|vm_compute; reflexivity].
  destruct (C130_again_partial rc_env rc_size (U "/bags/src") (U "src") va_tree (U "multibag") (rc_info va_tree) (U "7") None rc_t2 P1 P2 P3 P4 P5 P6 T) as (t1 & t2 & E1 & E2 & S);
    [discriminate| |right; exists (U "/bags"); reflexivity|discriminate|apply plain_valueb_ok; reflexivity|exact P7|exact P8|exact rc_conversions|].
  { vm_compute. intuition discriminate. }
  unfold rc_single. rewrite E1, E2. exact S.
Qed.

(** ** What is missing: stops in the middle of writing the tags *)

(** The first conversion stopped when bag-info.txt had just been emptied: the
    second succeeds, but the tags that the bag had are lost. *)
Theorem C130_tags_refuted : exists v bsize bagdir name t td version t1 t2 r1 r2,
  plain_algos v /\ NoDup (e_algos v) /\ good_hash v /\ plain_size bsize /\ convertible t td /\ unobstructed v td t /\
  name_at bagdir = name /\ conversions v bsize t t1 /\ t2 = od_set (U "bag-info.txt") (NFile []) t1 /\
  make_single_multibag v bsize bagdir t version None = Ok r1 /\ make_single_multibag v bsize bagdir t2 version None = Ok r2 /\
  (exists j, tags_of Codecs r1 = Ok j /\ tag_values j (U "Contact-Name") = [U "A"; U "B"]) /\
  (exists j, tags_of Codecs r2 = Ok j /\ tag_values j (U "Contact-Name") = [] /\ tag_values j (U "Multibag-Head-Version") = [version]).
Proof.
  destruct C130_case as (P1 & P2 & P3 & P4 & P5 & P6 & _).
  set (t2 := od_set (U "bag-info.txt") (NFile []) va_tree).
  exists rc_env, rc_size, (U "/bags/src"), (U "src"), va_tree, (U "multibag"), (U "7"), va_tree, t2, (got [] (rc_single (U "7") None va_tree)), (got [] (rc_single (U "7") None t2)).
  split; [exact P1|]. split; [exact P2|]. split; [exact P3|]. split; [exact P4|]. split; [exact P5|]. split; [exact P6|]. split; [reflexivity|].
  split; [constructor|]. split; [reflexivity|]. split; [vm_compute; reflexivity|]. split; [vm_compute; reflexivity|]. split.
  - exists (rc_info (got [] (rc_single (U "7") None va_tree))). split; vm_compute; reflexivity.
  - exists (rc_info (got [] (rc_single (U "7") None t2))). split; [|split]; vm_compute; reflexivity.
Qed.
Print Assumptions C130_tags_refuted.

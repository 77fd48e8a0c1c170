(** C131: cases *)
Require Import String NArith ZArith PeanoNat Bool List Lia.
From Verif Require Import PyBase PyFacts Version Tsv TsvProofs Fs FsFacts HeadBag HeadBagProofs HeadBagProofs2 HeadBagProofs3 BagIt BagItProofs Split SplitApply SplitApplyProofs SplitApplyProofs5 SplitApplyProofs7 SplitApplyProofs8 Restore RestoreProofs RestoreProofs2 RestoreProofs6 RestoreProofs8 RestoreProofs10 Props_Restore Props_Restore3 Amend AmendProofs AmendProofs2 AmendProofs3 AmendProofs4 Props_SplitApply Props_Amend Props_AmendRestore Props_AmendRestore2 Props_AmendHistory Props_AmendHistory2 AmendTotalProofs Props_AmendTotal Props_AmendTotal2 Again SpecAgain Props_Again Props_Again2 Stepwise SpecStepwise StepwiseProofs2 Props_Stepwise.
Import ListNotations.
Open Scope N_scope.

(** As in C129, with a bag that is added after the first finalize and holds a
    file that the new head bag holds too. *)
Definition sw_tree : tree := ar_bag [(U "data/f", U "old"); (U "data/a", U "new")] [].
Definition sw_src : src := {| s_name := U "late"; s_ro := true; s_tree := sw_tree |}.
Definition sw_calls : list call := [CFinalize (U "2.1"); CAdd sw_src; CFinalize (U "2.2"); CAdd ar_src; CAdd sw_src].

Lemma sw_amends : amends ex_repr (U "last") hg_last ag_old (bags_added sw_calls) (U "3").
Proof.
  destruct ag_amends as (A1 & A2 & A3 & A4 & A5 & A6 & A7 & A8 & A9 & A10).
  split; [exact A1|]. split; [exact A2|]. split; [exact A3|]. split; [exact A4|]. split; [exact A5|]. split; [exact A6|]. split; [exact A7|].
  split.
  { cbn [bags_added sw_calls flat_map app]. assert (X1 : bag_files (s_tree sw_src) /\ s_name sw_src <> []) by (split; [apply ex_bag_files; vm_compute; reflexivity|discriminate]).
    assert (X2 : bag_files (s_tree ar_src) /\ s_name ar_src <> []) by (split; [apply ex_bag_files; vm_compute; reflexivity|discriminate]).
    exact (Forall_cons _ X1 (Forall_cons _ X2 (Forall_cons _ X1 (Forall_nil _)))). }
  split; [exact A9|]. intros b p I H.
  assert (X1 : filter is_payload (files sw_tree) = [U "data/f"; U "data/a"]) by (vm_compute; reflexivity).
  assert (X2 : filter is_payload (files ar_more) = [U "data/a"]) by (vm_compute; reflexivity).
  assert (F : Forall (storable_entry Codecs) [(U "data/f", U "late"); (U "data/a", U "late"); (U "data/b", U "more")]) by (apply wf_tableb_ok; reflexivity).
  assert (F2 : Forall (storable_entry Codecs) [(U "data/a", U "more")]) by (apply wf_tableb_ok; reflexivity).
  assert (L : forall q, is_payload q && is_file q sw_tree = true -> storable_entry Codecs (q, U "late")).
  { intros q Q. apply files_entry in Q; [|apply nodupb_ok; vm_compute; reflexivity]. rewrite X1 in Q. inversion F as [|? ? F1 F3]; subst. inversion F3 as [|? ? F4 _]; subst.
    destruct Q as [<-|[<-|[]]]; assumption. }
  cbn [bags_added sw_calls flat_map app map] in I. destruct I as [<-|[<-|[<-|I]]].
  - apply L. exact H.
  - cbn [fst snd bag_of] in *. apply files_entry in H; [|apply nodupb_ok; vm_compute; reflexivity]. change (s_tree ar_src) with ar_more in H. rewrite X2 in H.
    destruct H as [<-|[]]. inversion F2; assumption.
  - apply L. exact H.
  - apply A10; [exact I|exact H].
Qed.

Definition sw_use (calls : list call) : hb * res hb :=
  use_amender ag_env ag_algs (fun _ => U "1 kB") ex_repr false ag_old calls (hg_open (U "last") hg_last).
Definition sw_answers (h : hb) (p : pystr) : res (option pystr) :=
  snd (lookup_file p false (hg_open (U "last") (hb_tree h))).

Example C131_case :
  plain_algos ag_env /\ NoDup (e_algos ag_env) /\ good_hash ag_env /\ incl ag_algs (e_algos ag_env) /\
  amendment (fun _ => U "1 kB") ex_repr ag_old (hg_open (U "last") hg_last) (U "last") hg_last (U "multibag") (U "3") /\
  room ag_env ag_algs (U "multibag") hg_last (hb_info (hg_open (U "last") hg_last)) /\
  amends ex_repr (U "last") hg_last ag_old (bags_added sw_calls) (U "3") /\
  Forall (fun x => x <> [] /\ tag_value_ok Codecs x) (versions_given sw_calls) /\
  members_of ag_old (map plain_member [U "src"; U "more"; U "next"]) /\
  Forall (storable_member Codecs) (map plain_member [U "src"; U "more"; U "next"] ++ map (fun s => plain_member (s_name s)) (bags_added sw_calls) ++ [plain_member (U "last")]) /\
  (** what is on disk after the first finalize, and after the last *)
  iter_member_bags (hg_open (U "last") (hb_tree (fst (sw_use (firstn 1 sw_calls))))) = Ok (map plain_member [U "src"; U "more"; U "next"; U "last"]) /\
  sw_answers (fst (sw_use (firstn 1 sw_calls))) (U "data/a") = Ok (Some (U "more")) /\
  iter_member_bags (hg_open (U "last") (hb_tree (fst (sw_use (sw_calls ++ [CFinalize (U "3")]))))) =
    Ok (map plain_member [U "src"; U "next"; U "more"; U "late"; U "last"]) /\
  sw_answers (fst (sw_use (sw_calls ++ [CFinalize (U "3")]))) (U "data/a") = Ok (Some (U "late")) /\
  sw_answers (fst (sw_use (sw_calls ++ [CFinalize (U "3")]))) (U "data/f") = Ok (Some (U "last")).
Proof.
  destruct C129_case as (P1 & P2 & P3 & P4 & Am & Rm & _ & Hm & _).
  split; [exact P1|]. split; [exact P2|]. split; [exact P3|]. split; [exact P4|]. split; [exact Am|]. split; [exact Rm|]. split; [exact sw_amends|].
  split. { cbn [versions_given sw_calls flat_map app]. apply Forall_cons; [split; [discriminate|apply plain_valueb_ok; reflexivity]|]. apply Forall_cons; [split; [discriminate|apply plain_valueb_ok; reflexivity]|]. constructor. }
  split; [exact Hm|].
  split. { cbn [map app bags_added sw_calls flat_map s_name sw_src ar_src]. repeat (apply Forall_cons; [apply storable_name, storableb_ok; reflexivity|]). constructor. }
  split; [vm_compute; reflexivity|]. split; [vm_compute; reflexivity|]. split; [vm_compute; reflexivity|]. split; vm_compute; reflexivity.
Qed.

(** An amendee that deprecates two versions, and one that deprecates one. *)
Definition sw_old (l : list pystr) : hb :=
  set_info ag_old (od_set (U "Multibag-Head-Deprecates") (match l with [x] => IStr x | _ => IList l end) (hb_info ag_old)).
Definition sw_twice (old : hb) : hb * res hb :=
  match init_from_amendee ex_repr false false old (hg_open (U "last") hg_last) with
  | (h, Ok old') => init_from_amendee ex_repr false false old' h
  | x => x
  end.
Example C131_init_case :
  is_ok (snd (sw_twice (sw_old [U "0"; U "1"]))) = true /\
  tag_values (hb_info (fst (sw_twice (sw_old [U "0"; U "1"])))) (U "Multibag-Head-Deprecates") = [U "0"; U "1"; U "2"; U "2"] /\
  is_ok (snd (sw_twice (sw_old [U "1"]))) = true /\
  tag_values (hb_info (fst (sw_twice (sw_old [U "1"])))) (U "Multibag-Head-Deprecates") = [U "1"; U "2"].
Proof. split; [|split; [|split]]; vm_compute; reflexivity. Qed.

(** * Lemmas on applying a split plan: checksums that were loaded, payload *)

Require Import String NArith PeanoNat Bool List Lia Permutation.
From Verif Require Import PyBase PyFacts Version Tsv TsvProofs Fs FsFacts HeadBag HeadBagProofs HeadBagProofs3 BagIt BagItProofs BagItProofs2 Props_BagIt Split SplitApply SplitApplyProofs SplitApplyProofs2 SplitApplyProofs3 SplitApplyProofs4 SplitApplyProofs6 SplitApplyProofs8.
Import ListNotations.
Open Scope N_scope.

Lemma entry_hash line h p : manifest_entry line = Some (h, p) -> manifest_hash h.
Proof.
  intros H. apply manifest_entry_iff in H. destruct H as (q & (w1 & w2 & w3 & _ & _ & _ & A & B & C & _) & _). constructor; auto.
Qed.

Lemma in_filter_some {A} (x : A) l : In x (filter_some l) <-> In (Some x) l.
Proof.
  induction l as [|[y|] l IH]; cbn [filter_some In]; [tauto| |].
  - rewrite IH. split; intros [E|E]; auto; left; congruence.
  - rewrite IH. split; [auto|]. intros [E|E]; [discriminate|auto].
Qed.

(** What loading leaves in the entries. *)
Definition entries_ok (P : pystr -> pystr -> Prop) (e : entries) : Prop :=
  forall f d, od_get f e = Some d -> NoDup (od_keys d) /\ forall a h, In (a, h) d -> P a h.

Lemma add_entries_ok (P : pystr -> pystr -> Prop) dangerous v1 e x e' :
  entries_ok P e -> P (fst x) (fst (snd x)) -> add1 dangerous v1 e x = Ok e' -> entries_ok P e'.
Proof.
  destruct x as [a0 [h0 p0]]. intros He Hp H. cbn [fst snd] in Hp. unfold add1, add_entry in H. cbn [fst snd] in H.
  destruct (dangerous p0); [discriminate|].
  set (d0 := match od_get p0 e with Some d => d | None => [] end) in *.
  assert (D0 : NoDup (od_keys d0) /\ forall a h, In (a, h) d0 -> P a h).
  { unfold d0. destruct (od_get p0 e) as [d|] eqn:G; [exact (He _ _ G)|]. split; [constructor|intros ? ? []]. }
  assert (E : entries_ok P (od_set p0 (od_set a0 h0 d0) e)).
  { intros f d. rewrite od_get_set. destruct (streq f p0); [|apply He]. intros [= <-].
    destruct D0 as [N0 D0]. split; [apply od_set_NoDup; exact N0|].
    assert (F : Forall (fun ah => P (fst ah) (snd ah)) (od_set a0 h0 d0)).
    { apply od_set_Forall; [intros k' E; apply streq_eq in E as <-; exact Hp|]. apply Forall_forall. intros [a h] I. apply D0. exact I. }
    rewrite Forall_forall in F. intros a h I. exact (F _ I). }
  destruct (od_get a0 d0) as [h'|]; [destruct (streq h' h0); [destruct v1|]|]; try discriminate; inversion H; subst; exact E.
Qed.

Lemma load_entries_ok dangerous v1 r algos t e :
  load_manifests dangerous v1 r (bag_manifests algos true t) = Ok e ->
  entries_ok (fun a h => In a algos /\ manifest_hash h) e.
Proof.
  unfold load_manifests. rewrite load_flat. intros H.
  assert (F : forall x, In x (listing r (bag_manifests algos true t)) -> In (fst x) algos /\ manifest_hash (fst (snd x))).
  { intros [a [h p]] I. unfold listing in I. apply in_flat_map in I. destruct I as ([a' c] & I & J).
    apply in_map_iff in J. destruct J as ([h' p'] & E & J). inversion E; subst. cbn [fst snd] in *. split.
    - unfold bag_manifests in I. apply in_app_iff in I. destruct I as [I|I]; apply in_filter_some in I;
        apply in_map_iff in I; destruct I as (x & E' & I); destruct (read _ t); inversion E'; subst; exact I.
    - unfold manifest_lines in J. apply in_filter_some in J. apply in_map_iff in J. destruct J as (l & El & _).
      eapply entry_hash. exact El. }
  revert H F. generalize (listing r (bag_manifests algos true t)). intros l.
  assert (E0 : entries_ok (fun a h => In a algos /\ manifest_hash h) []) by (intros f d E; discriminate).
  revert E0. generalize (@nil (pystr * dict pystr)). induction l as [|x l IH]; intros e0 E0 H F; cbn [foldM] in H.
  - inversion H; subst; exact E0.
  - apply bind_ok in H. destruct H as (e1 & H1 & H2). apply (IH e1); auto; [|intros; apply F; right; auto].
    eapply add_entries_ok; [exact E0| |exact H1]. apply F. left; reflexivity.
Qed.

Lemma loaded_sums_ok dangerous v1 s : NoDup (so_algos s) ->
  load_manifests dangerous v1 (so_reader s) (bag_manifests (so_algos s) true (so_tree s)) = Ok (so_entries s) ->
  (forall a f h, checksum (so_entries s) a f = Some h -> hd 0 h <> BOM) -> sums_ok s.
Proof.
  intros Na H Hb. apply load_entries_ok in H. constructor; auto.
  - intros f d a h G I. apply H in G. destruct G as [_ G]. apply G in I. tauto.
  - intros f d G. apply H in G. tauto.
  - intros a f h C. split; [|eapply Hb; eauto]. unfold checksum in C. destruct (od_get f (so_entries s)) as [d|] eqn:G; [|discriminate].
    apply H in G. destruct G as [_ G]. apply od_get_in in C. apply G in C. tauto.
Qed.

(** The payload of an output bag. *)
Lemma own_not_payload h p : own_file h p -> is_payload p = false.
Proof. intros O. destruct O; reflexivity. Qed.

Lemma files_nodup t : NoDup (od_keys t) -> NoDup (files t).
Proof. intros N0. unfold files. apply NoDup_map_filter. exact N0. Qed.

Lemma payload_perm s o m h ms lu b t : one_bag s o m h ms lu b t -> NoDup (m_contents m) ->
  Permutation (filter is_payload (plan_files s m)) (filter is_payload (files t)).
Proof.
  intros (c & Rc & R & _) Nm. assert (Nt : NoDup (od_keys t)) by (eapply run_ops_nodup; [|exact R]; constructor).
  apply NoDup_Permutation.
  - apply NoDup_filter. unfold plan_files. apply NoDup_filter. exact Nm.
  - apply NoDup_filter. apply files_nodup. exact Nt.
  - intros f. rewrite !filter_In. unfold plan_files. rewrite filter_In. rewrite (in_files f t Nt).
    split; intros [A P]; (split; [|exact P]);
      assert (Nf : ~ own_file h f) by (intros O; apply own_not_payload in O; congruence);
      pose proof (bag_reads _ _ _ _ _ _ _ _ _ _ R Nf) as E.
    + destruct A as [A1 A2]. apply str_in_iff in A1. rewrite A1 in E. apply is_file_read in A2. destruct A2 as [x A2].
      apply is_file_read. exists x. congruence.
    + apply is_file_read in A. destruct A as [x A]. rewrite A in E.
      destruct (str_in f (m_contents m)) eqn:S; [|discriminate]. apply str_in_iff in S. split; auto.
      apply is_file_read. eauto.
Qed.

Lemma sum_perm l l' : Permutation l l' -> sum_N l = sum_N l'.
Proof. induction 1; cbn; lia. Qed.

Lemma payload_oxum s o m h ms lu b t : one_bag s o m h ms lu b t -> NoDup (m_contents m) ->
  oxum_text s m =
  dec (sum_N (map (fun f => size_of f t) (filter is_payload (files t)))) ++ [DOT] ++
  dec (N.of_nat (length (filter is_payload (files t)))).
Proof.
  intros O Nm. pose proof (payload_perm _ _ _ _ _ _ _ _ O Nm) as P. unfold oxum_text, oxum_of. cbn [fst snd].
  rewrite (Permutation_length P). rewrite <- (sum_perm _ _ (Permutation_map (fun f => size_of f t) P)).
  assert (E : map (fun f => size_of f (so_tree s)) (filter is_payload (plan_files s m)) =
              map (fun f => size_of f t) (filter is_payload (plan_files s m))).
  { apply map_ext_in. intros f I. apply filter_In in I. destruct I as [I Pf]. unfold plan_files in I. apply filter_In in I.
    destruct I as [I _]. destruct O as (c & Rc & R & _).
    assert (Nf : ~ own_file h f) by (intros Of; apply own_not_payload in Of; congruence).
    pose proof (bag_reads _ _ _ _ _ _ _ _ _ _ R Nf) as E. apply str_in_iff in I. rewrite I in E.
    unfold size_of. rewrite E. reflexivity. }
  rewrite E. reflexivity.
Qed.

(** * Lemmas on applying a split plan: reading the checksums back *)

Require Import String NArith PeanoNat Bool List Lia Permutation.
From Verif Require Import PyBase PyFacts Tsv TsvProofs Fs FsFacts HeadBag BagIt BagItProofs Split SplitProofs3 SplitApply SplitApplyProofs SplitApplyProofs2 SplitApplyProofs3.
Import ListNotations.
Open Scope N_scope.

(** Recorded checksums that manifests can hold: known algorithms, each once. *)
Record sums_ok (s : source) : Prop := {
  so_nodup_algos : NoDup (so_algos s);
  so_known : forall f d a h, od_get f (so_entries s) = Some d -> In (a, h) d -> In a (so_algos s);
  so_once : forall f d, od_get f (so_entries s) = Some d -> NoDup (od_keys d);
  so_hash : forall a f h, checksum (so_entries s) a f = Some h -> manifest_hash h /\ hd 0 h <> BOM
}.

Section Sums.
  Variables (s : source) (r : reader).
  Hypothesis S : sums_ok s.

  Lemma in_sums k a fs h f : In (h, f) (sums s k a fs) <->
    In f fs /\ kind_of f = k /\ checksum (so_entries s) a f = Some h.
  Proof.
    unfold sums. rewrite in_flat_map. split.
    - intros (g & I & J). destruct (streq_reflect (kind_of g) k) as [E|]; [|destruct J].
      destruct (checksum (so_entries s) a g) eqn:C; [|destruct J]. destruct J as [J|[]]. inversion J; subst. auto.
    - intros (I & E & C). exists f. split; auto. rewrite E, streq_refl, C. left; reflexivity.
  Qed.

  Lemma sums_sub k a fs : NoDup fs -> NoDup (map snd (sums s k a fs)).
  Proof.
    unfold sums. induction 1 as [|f fs Nf Nd IH]; [constructor|]. cbn [flat_map]. rewrite map_app.
    destruct (streq (kind_of f) k) eqn:E; [|exact IH].
    destruct (checksum (so_entries s) a f) eqn:C; [|exact IH]. cbn [map app snd]. constructor; [|exact IH].
    intros I. apply in_map_iff in I. destruct I as ([h g] & Eg & I). cbn in Eg. subst.
    apply (in_sums k a fs h f) in I. tauto.
  Qed.

  Lemma lines_nil l : lines l = [] -> l = [].
  Proof.
    destruct l as [|[h p] l]; auto. unfold lines. cbn [flat_map fst snd]. unfold hash_line. intros H. exfalso.
    apply app_eq_nil in H. destruct H as [H _]. apply app_eq_nil in H. destruct H as [_ H]. discriminate.
  Qed.

  Lemma skip_bom_lines l : Forall (fun hp => manifest_hash (fst hp) /\ hd 0 (fst hp) <> BOM) l ->
    skip_bom (lines l) = lines l.
  Proof.
    intros F. destruct l as [|[h p] l]; [reflexivity|]. inversion F as [|? ? [[Hn _ _] Hb] _]; subst.
    cbn [fst] in *. unfold lines. cbn [flat_map fst snd]. unfold hash_line at 1. destruct h as [|x h]; [congruence|].
    cbn in Hb. cbn [app skip_bom]. destruct (N.eqb_spec x BOM); [contradiction|reflexivity].
  Qed.

  Variables (m : manifest) (t : tree).
  Let fs := plan_files s m.
  Hypothesis Rm : forall k a, In k [K_man; K_tag] -> In a (so_algos s) ->
    read (man_name k a) t = Some (lines (sums s k a fs)) \/
    (read (man_name k a) t = None /\ lines (sums s k a fs) = []).
  Hypothesis Hp : forall f a h, In f fs -> checksum (so_entries s) a f = Some h -> manifest_path r f.

  Lemma read_sums k a : manifest_lines r (skip_bom (lines (sums s k a fs))) = sums s k a fs.
  Proof.
    assert (F : Forall (fun hp => manifest_hash (fst hp) /\ hd 0 (fst hp) <> BOM /\ manifest_path r (snd hp)) (sums s k a fs)).
    { apply Forall_forall. intros [h f] I. apply in_sums in I. destruct I as (I & _ & C). cbn [fst snd].
      pose proof (so_hash s S _ _ _ C). split; [tauto|]. split; [tauto|]. eapply Hp; eauto. }
    rewrite skip_bom_lines.
    - apply hash_lines. eapply Forall_impl; [|exact F]. cbn beta. tauto.
    - eapply Forall_impl; [|exact F]. cbn beta. tauto.
  Qed.

  Definition of_kind (k : pystr) (al : list pystr) : list (pystr * pystr) :=
    filter_some (map (fun a => match read (man_name k a) t with
                               | Some c => Some (a, c)
                               | None => None
                               end) al).

  Lemma listing_kind k al : In k [K_man; K_tag] -> incl al (so_algos s) ->
    listing r (of_kind k al) = flat_map (fun a => map (pair a) (sums s k a fs)) al.
  Proof.
    intros Ik. induction al as [|a al IH]; intros Hi; [reflexivity|].
    assert (IH' := IH (fun x I => Hi x (or_intror I))).
    unfold of_kind in *. cbn [map filter_some flat_map].
    destruct (Rm k a Ik (Hi a (or_introl eq_refl))) as [E|[E Z]]; rewrite E.
    - cbn [filter_some]. unfold listing. cbn [flat_map fst snd]. rewrite read_sums. f_equal. exact IH'.
    - apply lines_nil in Z. rewrite Z. exact IH'.
  Qed.

  Lemma listing_bag : listing r (bag_manifests (so_algos s) true t) =
    flat_map (fun a => map (pair a) (sums s K_man a fs)) (so_algos s) ++
    flat_map (fun a => map (pair a) (sums s K_tag a fs)) (so_algos s).
  Proof.
    unfold bag_manifests. cbn zeta. fold (of_kind K_man (so_algos s)). fold (of_kind K_tag (so_algos s)).
    assert (E : forall x y, listing r (x ++ y) = listing r x ++ listing r y) by (intros; apply flat_map_app).
    rewrite E. rewrite !listing_kind; try (apply incl_refl); cbn; auto.
  Qed.

  Lemma in_listing_bag a h f : In (a, (h, f)) (listing r (bag_manifests (so_algos s) true t)) <->
    In f fs /\ checksum (so_entries s) a f = Some h.
  Proof.
    rewrite listing_bag, in_app_iff, !in_flat_map. split.
    - intros [(a' & I & J)|(a' & I & J)]; apply in_map_iff in J; destruct J as (hf & E & J); inversion E; subst;
        apply in_sums in J; tauto.
    - intros (I & C). assert (Ia : In a (so_algos s)).
      { unfold checksum in C. destruct (od_get f (so_entries s)) as [d|] eqn:E; [|discriminate].
        eapply (so_known s S); [exact E|]. apply od_get_in. exact C. }
      destruct (is_payload f) eqn:Ip; [left|right]; exists a; (split; [exact Ia|]); apply in_map_iff;
        exists (h, f); (split; [reflexivity|]); apply in_sums; (split; [exact I|]); (split; [|exact C]);
        unfold kind_of; rewrite Ip; reflexivity.
  Qed.

  Lemma nodup_listing : NoDup fs ->
    NoDup (map (fun x => (fst x, snd (snd x))) (listing r (bag_manifests (so_algos s) true t))).
  Proof.
    intros Nf. rewrite listing_bag, map_app.
    assert (G : forall k, NoDup (map (fun x : pystr * (pystr * pystr) => (fst x, snd (snd x)))
                  (flat_map (fun a => map (pair a) (sums s k a fs)) (so_algos s)))).
    { intros k. assert (E : forall al, map (fun x : pystr * (pystr * pystr) => (fst x, snd (snd x)))
                  (flat_map (fun a => map (pair a) (sums s k a fs)) al) =
                  flat_map (fun a => map (pair a) (map snd (sums s k a fs))) al).
      { induction al as [|a al IH]; [reflexivity|]. cbn [flat_map]. rewrite map_app, IH. f_equal.
        rewrite !map_map. apply map_ext. intros [h f]. reflexivity. }
      rewrite E. apply NoDup_flat_map.
      - apply (so_nodup_algos s S).
      - intros a _. apply NoDup_map_inj; [intros; congruence|]. apply sums_sub; auto.
      - intros x x' y _ _ I J. apply in_map_iff in I, J. destruct I as (? & <- & _), J as (? & E' & _). congruence. }
    apply NoDup_app_intro; auto.
    intros x I J. apply in_map_iff in I, J. destruct I as ([a [h f]] & Ex & I), J as ([a' [h' f']] & Ex' & J).
    cbn in *. subst x. inversion Ex'; subst. apply in_flat_map in I, J.
    destruct I as (a1 & _ & I), J as (a2 & _ & J). apply in_map_iff in I, J.
    destruct I as (? & E1 & I), J as (? & E2 & J). inversion E1; inversion E2; subst.
    apply in_sums in I. apply in_sums in J. destruct I as (_ & I & _), J as (_ & J & _). rewrite I in J. discriminate.
  Qed.

  Lemma load_bag dangerous v1 : (v1 = true -> NoDup fs) -> (forall f, In f fs -> dangerous f = false) ->
    exists e, load_manifests dangerous v1 r (bag_manifests (so_algos s) true t) = Ok e /\
      forall a f, checksum e a f = if str_in f fs then checksum (so_entries s) a f else None.
  Proof.
    intros Nf Hd. unfold load_manifests.
    destruct (load_accept dangerous v1 (listing r (bag_manifests (so_algos s) true t)) []) as [e E].
    - intros a h q I. apply in_listing_bag in I. apply Hd. tauto.
    - intros a q h h' I J. apply in_listing_bag in I, J. destruct I as [_ I], J as [_ J]. congruence.
    - intros V. apply nodup_listing; auto.
    - intros a h q _. left. reflexivity.
    - exists e. rewrite load_flat. split; [exact E|]. destruct (load_ok _ _ _ _ _ E) as (L1 & L2 & _).
      intros a f. destruct (str_in f fs) eqn:If.
      + apply str_in_iff in If. destruct (checksum (so_entries s) a f) as [h|] eqn:C.
        * apply L2. apply in_listing_bag. auto.
        * destruct (checksum e a f) as [h|] eqn:Ce; auto. exfalso.
          assert (K : checksum e a f <> None) by congruence. apply L1 in K. destruct K as [K|[h' K]].
          -- apply K. reflexivity.
          -- apply in_listing_bag in K. destruct K. congruence.
      + apply str_in_false in If. destruct (checksum e a f) as [h|] eqn:Ce; auto. exfalso.
        assert (K : checksum e a f <> None) by congruence. apply L1 in K. destruct K as [K|[h' K]].
        * apply K. reflexivity.
        * apply in_listing_bag in K. destruct K. contradiction.
  Qed.
End Sums.

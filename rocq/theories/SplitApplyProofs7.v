(** * Lemmas on applying a split plan: the tags of the output bags *)

Require Import String NArith PeanoNat Bool List Lia Permutation.
From Verif Require Import PyBase PyFacts Version Tsv TsvProofs Fs FsFacts HeadBag HeadBagProofs HeadBagProofs2 HeadBagProofs3 BagIt BagItProofs BagItProofs2 Split SplitApply SplitApplyProofs SplitApplyProofs2 SplitApplyProofs3 SplitApplyProofs4 SplitApplyProofs5 SplitApplyProofs6.
Import ListNotations.
Open Scope N_scope.

Definition P_MULTIBAG := U "Multibag-".

(** The values of a tag of the source that may be passed on. *)
Definition passed (o : apply_opts) (i : infod) (k : pystr) : list pystr :=
  if startswith k P_MULTIBAG || str_in k (ao_nopass o) then [] else tag_values i k.

Lemma values_items k k' vs : values_of k (items k' vs) = if streq k' k then vs else [].
Proof.
  unfold values_of, items. induction vs as [|v vs IH]; cbn [map filter fst]; [destruct (streq k' k); reflexivity|].
  destruct (streq k' k) eqn:E; cbn [map snd]; rewrite IH; reflexivity.
Qed.

Lemma values_app k x y : values_of k (x ++ y) = values_of k x ++ values_of k y.
Proof. unfold values_of. rewrite filter_app, map_app. reflexivity. Qed.

Lemma values_flat_map {A} k (f : A -> list (pystr * pystr)) l :
  values_of k (flat_map f l) = flat_map (fun x => values_of k (f x)) l.
Proof. induction l as [|x l IH]; [reflexivity|]. cbn [flat_map]. rewrite values_app, IH. reflexivity. Qed.

Lemma one_key {V} (X : V -> list pystr) k (d : dict V) : NoDup (od_keys d) ->
  flat_map (fun kv => if streq (fst kv) k then X (snd kv) else []) d =
  match od_get k d with Some v => X v | None => [] end.
Proof.
  induction d as [|[k0 v0] d IH]; intros Nd; [reflexivity|]. inversion Nd as [|? ? N0 Nd']; subst. cbn [flat_map fst snd od_get].
  rewrite (streq_sym k k0). destruct (streq_reflect k0 k) as [->|D].
  - rewrite IH by exact Nd'. apply od_get_none in N0. rewrite N0, app_nil_r. reflexivity.
  - cbn [app]. rewrite IH by exact Nd'. reflexivity.
Qed.

Lemma not_source k k' : startswith k P_MULTIBAG = false -> streq (P_SOURCE ++ k') k = false.
Proof. intros H. apply streq_neq. intros <-. cbn in H. discriminate. Qed.

Lemma source_inj k k' : streq (P_SOURCE ++ k) (P_SOURCE ++ k') = streq k k'.
Proof.
  destruct (streq_reflect k k') as [->|D]; [apply streq_refl|]. apply streq_neq. intros E. apply app_inv_head in E. contradiction.
Qed.

Section Tags.
  Variables (o : apply_opts) (i : infod) (b ox : pystr).
  Hypothesis Nd : NoDup (od_keys i).
  Hypothesis Ne : forall k v, In (k, v) i -> vals_of v <> [].

  Definition from_source : list (pystr * pystr) := flat_map (tag_items b (ao_nopass o) ox) i.

  (** A tag that gets its values from one tag of the source. *)
  Lemma from_one k k0 (X : list pystr -> list pystr) : X [] = [] ->
    (forall kv, values_of k (tag_items b (ao_nopass o) ox kv) =
       if streq (fst kv) k0 then
         (if startswith k0 P_MULTIBAG || str_in k0 (ao_nopass o) then [] else X (vals_of (snd kv))) else []) ->
    values_of k from_source = X (passed o i k0).
  Proof.
    intros X0 H. unfold from_source. rewrite values_flat_map. erewrite flat_map_ext; [|exact H].
    rewrite (one_key (fun v => if startswith k0 P_MULTIBAG || str_in k0 (ao_nopass o) then [] else X (vals_of v)) k0 i Nd).
    unfold passed, tag_values. destruct (startswith k0 P_MULTIBAG || str_in k0 (ao_nopass o)).
    - rewrite X0. destruct (od_get k0 i); reflexivity.
    - destruct (od_get k0 i) as [[v|l]|]; auto.
  Qed.

  Lemma from_none k : (forall kv, values_of k (tag_items b (ao_nopass o) ox kv) = []) -> values_of k from_source = [].
  Proof.
    intros H. unfold from_source. rewrite values_flat_map. erewrite flat_map_ext; [|exact H].
    clear. induction i as [|kv l IH]; auto.
  Qed.

  Ltac head_tac kv :=
    destruct kv as [k' v]; unfold tag_items; cbn [fst snd];
    destruct (startswith k' (U "Multibag-")) eqn:?SW;
    [|destruct (str_in k' (ao_nopass o)) eqn:?NP;
      [|destruct (streq_reflect k' T_ISI) as [->|?D1];
        [|destruct (streq_reflect k' T_ISD) as [->|?D2];
          [|destruct (streq_reflect k' T_EXT) as [->|?D3];
            [|destruct (streq_reflect k' T_BagSize) as [->|?D4];
              [|destruct (streq_reflect k' T_OXUM) as [->|?D5]]]]]]];
    rewrite ?values_app, ?values_items.

  (** Names that do not start with "Multibag-". *)
  Lemma v_plain k : startswith k P_MULTIBAG = false ->
    ~ In k [T_ISI; T_ISD; T_EXT; T_GROUP; T_BagSize; T_OXUM] -> values_of k from_source = passed o i k.
  Proof.
    intros Hs Hk. apply (from_one k k (fun l => l)); auto. intros kv.
    assert (Dk : forall x, In x [T_ISI; T_ISD; T_EXT; T_GROUP; T_BagSize; T_OXUM] -> streq x k = false).
    { intros x I. apply streq_neq. congruence. }
    head_tac kv; rewrite ?not_source by exact Hs; rewrite ?Dk by (cbn; tauto); cbn [app]; auto.
    - destruct (streq_reflect k' k) as [->|]; auto. fold P_MULTIBAG in *. congruence.
    - destruct (streq_reflect k' k) as [->|]; auto. rewrite NP, orb_true_r. reflexivity.
    - destruct (streq_reflect k' k) as [->|]; auto. rewrite Hs, NP. reflexivity.
  Qed.

  Ltac lit_tac := repeat match goal with
    | |- context [streq ?x ?y] => let r := eval vm_compute in (streq x y) in
        match r with true => change (streq x y) with true | false => change (streq x y) with false end
    end.

  Ltac close_tac k0 := cbn [app]; rewrite ?app_nil_r; lit_tac; cbn [app]; rewrite ?app_nil_r; auto;
    try (match goal with SW : startswith ?k' _ = true |- context [streq ?k' _] =>
           destruct (streq_reflect k' k0) as [->|]; [discriminate|]; auto end);
    try (match goal with NP : str_in ?k' _ = true |- context [streq ?k' _] =>
           destruct (streq_reflect k' k0) as [->|]; auto; rewrite NP, orb_true_r; reflexivity end);
    try (match goal with NP : str_in _ _ = false |- _ => rewrite NP; reflexivity end);
    try (match goal with |- context [streq ?k' k0] => destruct (streq_reflect k' k0) as [->|]; try congruence; auto end).

  Definition if_any (l : list pystr) (x : pystr) : list pystr := match l with [] => [] | _ => [x] end.

  Lemma vals_any (v : ival) x : vals_of v <> [] -> if_any (vals_of v) x = [x].
  Proof. destruct (vals_of v); [congruence|reflexivity]. Qed.

  (** As [from_one], for the tags that are there. *)
  Lemma from_one_in k k0 (X : list pystr -> list pystr) : X [] = [] ->
    (forall kv, vals_of (snd kv) <> [] -> values_of k (tag_items b (ao_nopass o) ox kv) =
       if streq (fst kv) k0 then
         (if startswith k0 P_MULTIBAG || str_in k0 (ao_nopass o) then [] else X (vals_of (snd kv))) else []) ->
    values_of k from_source = X (passed o i k0).
  Proof.
    intros X0 H. unfold from_source. rewrite values_flat_map.
    assert (E : flat_map (fun x => values_of k (tag_items b (ao_nopass o) ox x)) i =
                flat_map (fun kv => if streq (fst kv) k0 then
         (if startswith k0 P_MULTIBAG || str_in k0 (ao_nopass o) then [] else X (vals_of (snd kv))) else []) i).
    { clear Nd. induction i as [|kv l IH]; [reflexivity|]. cbn [flat_map]. rewrite H.
      - rewrite IH; [reflexivity|]. intros; eapply Ne; right; eauto.
      - destruct kv as [k1 v1]. apply (Ne k1). left; reflexivity. }
    rewrite E.
    rewrite (one_key (fun v => if startswith k0 P_MULTIBAG || str_in k0 (ao_nopass o) then [] else X (vals_of v)) k0 i Nd).
    unfold passed, tag_values. destruct (startswith k0 P_MULTIBAG || str_in k0 (ao_nopass o)).
    - rewrite X0. destruct (od_get k0 i); reflexivity.
    - destruct (od_get k0 i) as [[v|l]|]; auto.
  Qed.

  Lemma v_isi : values_of T_ISI from_source = if_any (passed o i T_ISI) b.
  Proof.
    apply (from_one_in T_ISI T_ISI (fun l => if_any l b)); auto. intros kv Hv.
    head_tac kv; cbn [snd] in Hv; rewrite ?vals_any by exact Hv; close_tac T_ISI.
  Qed.

  Lemma v_isd : values_of T_ISD from_source = if_any (passed o i T_ISD) SPLIT_DESC.
  Proof.
    apply (from_one_in T_ISD T_ISD (fun l => if_any l SPLIT_DESC)); auto. intros kv Hv.
    head_tac kv; cbn [snd] in Hv; rewrite ?vals_any by exact Hv; close_tac T_ISD.
  Qed.

  Lemma v_oxum : values_of T_OXUM from_source = if_any (passed o i T_OXUM) ox.
  Proof.
    apply (from_one_in T_OXUM T_OXUM (fun l => if_any l ox)); auto. intros kv Hv.
    head_tac kv; cbn [snd] in Hv; rewrite ?vals_any by exact Hv; close_tac T_OXUM.
  Qed.

  Lemma v_size : values_of T_BagSize from_source = [].
  Proof. apply from_none. intros kv. head_tac kv; close_tac T_BagSize. Qed.

  Lemma v_ext : values_of T_EXT from_source =
    match passed o i T_EXT with [] => [] | v :: _ => [v ++ U "/mbag:" ++ b] end.
  Proof.
    apply (from_one T_EXT T_EXT (fun l => match l with [] => [] | v :: _ => [v ++ U "/mbag:" ++ b] end)); auto.
    intros kv. head_tac kv; close_tac T_EXT.
  Qed.

  Lemma v_source k0 : In k0 [T_ISI; T_ISD; T_EXT; T_BagSize] -> values_of (P_SOURCE ++ k0) from_source = passed o i k0.
  Proof.
    intros I. apply (from_one (P_SOURCE ++ k0) k0 (fun l => l)); auto. intros kv.
    destruct I as [<-|[<-|[<-|[<-|[]]]]]; head_tac kv;
      match goal with |- context [str_in ?k0 _] => close_tac k0 | _ => idtac end; cbn [app]; rewrite ?app_nil_r; lit_tac; auto;
      try (match goal with |- context [streq ?k' (P_SOURCE ++ ?z)] =>
             destruct (streq_reflect k' (P_SOURCE ++ z)) as [->|]; [discriminate|] end; auto).
  Qed.

  Lemma v_multibag k : startswith k P_MULTIBAG = true ->
    ~ In k (map (app P_SOURCE) [T_ISI; T_ISD; T_EXT; T_BagSize]) -> values_of k from_source = [].
  Proof.
    intros Hs Hk. apply from_none. intros kv.
    assert (Dk : forall x, In x [T_ISI; T_ISD; T_EXT; T_BagSize] -> streq (P_SOURCE ++ x) k = false).
    { intros x I. apply streq_neq. intros E. apply Hk. rewrite <- E. apply (in_map (app P_SOURCE)). exact I. }
    assert (Lk : forall x, startswith x P_MULTIBAG = false -> streq x k = false).
    { intros x E. apply streq_neq. congruence. }
    head_tac kv; rewrite ?Dk by (cbn; tauto); rewrite ?Lk by reflexivity; auto; rewrite Lk by exact SW; auto.
  Qed.

  Lemma v_group : Permutation (values_of T_GROUP from_source) (passed o i T_GROUP ++ passed o i T_EXT).
  Proof.
    unfold from_source. rewrite values_flat_map.
    set (f0 := fun k0 (kv : pystr * ival) => if streq (fst kv) k0 then
         (if startswith k0 P_MULTIBAG || str_in k0 (ao_nopass o) then [] else vals_of (snd kv)) else []).
    assert (E : forall kv, values_of T_GROUP (tag_items b (ao_nopass o) ox kv) = f0 T_GROUP kv ++ f0 T_EXT kv).
    { intros kv. unfold f0. head_tac kv; cbn [fst snd app]; rewrite ?app_nil_r; lit_tac; cbn [app]; rewrite ?app_nil_r; auto.
      - destruct (streq_reflect k' T_GROUP) as [->|]; [discriminate|].
        destruct (streq_reflect k' T_EXT) as [->|]; [discriminate|]. reflexivity.
      - destruct (streq_reflect k' T_GROUP) as [->|]; [rewrite NP, orb_true_r; reflexivity|].
        destruct (streq_reflect k' T_EXT) as [->|]; [rewrite NP, orb_true_r; reflexivity|]. reflexivity.
      - rewrite NP. reflexivity.
      - destruct (streq_reflect k' T_GROUP) as [->|]; [rewrite NP; reflexivity|reflexivity]. }
    assert (P : forall l, Permutation (flat_map (fun x => values_of T_GROUP (tag_items b (ao_nopass o) ox x)) l)
                            (flat_map (f0 T_GROUP) l ++ flat_map (f0 T_EXT) l)).
    { induction l as [|kv l IH]; [constructor|]. cbn [flat_map]. rewrite E. rewrite <- !app_assoc.
      apply Permutation_app_head. rewrite IH. rewrite !app_assoc. apply Permutation_app_tail. apply Permutation_app_comm. }
    rewrite P.
    assert (Q : forall k0, flat_map (f0 k0) i = passed o i k0).
    { intros k0. unfold f0.
      rewrite (one_key (fun v => if startswith k0 P_MULTIBAG || str_in k0 (ao_nopass o) then [] else vals_of v) k0 i Nd).
      unfold passed, tag_values. destruct (startswith k0 P_MULTIBAG || str_in k0 (ao_nopass o)).
      - destruct (od_get k0 i); reflexivity.
      - destruct (od_get k0 i) as [[v|l]|]; auto. }
    rewrite !Q. reflexivity.
  Qed.
End Tags.

(** All the tags of an output bag. *)
Lemma in_info_items s o b m h k :
  values_of k (info_items s o b m h) =
  (if streq T_Version k then [CURRENT_VERSION] else []) ++
  values_of k (from_source o (so_info s) b (oxum_text s m)) ++
  (if streq T_TagDir k then [MULTIBAG] else []) ++
  (if h then values_of k (head_items o) else []).
Proof.
  unfold info_items. rewrite !values_app, !values_items. destruct h; reflexivity.
Qed.

Lemma values_head o k : values_of k (head_items o) =
  (if streq T_HeadVersion k then [ao_version o] else []) ++
  (if streq T_HeadDeprecates k then
     map (fun p => match snd p with Some b => fst p ++ U "," ++ b | None => fst p end) (ao_deprecates o) else []).
Proof. unfold head_items. rewrite values_app, !values_items. reflexivity. Qed.

(** ** The head bag as it is read *)

(** A split bag's tags, loaded again. *)
Lemma split_std r s o b m h d : info_ok r (so_info s) ->
  (forall k, tag_values d k = map (unfold_value r) (values_of k (info_items s o b m h))) ->
  tag_shape d -> std_tags d (U "multibag").
Proof.
  intros [Nd Hi] H Sh.
  assert (V : tag_values d T_Version = [CURRENT_VERSION]).
  { rewrite H, in_info_items. rewrite (v_multibag o (so_info s) b (oxum_text s m) T_Version) by (try reflexivity; intros I; cbn in I; intuition discriminate).
    cbn [app]. rewrite values_head. destruct h, r; reflexivity. }
  assert (T : tag_values d T_TagDir = [MULTIBAG]).
  { rewrite H, in_info_items. rewrite (v_multibag o (so_info s) b (oxum_text s m) T_TagDir) by (try reflexivity; intros I; cbn in I; intuition discriminate).
    cbn [app]. rewrite values_head. destruct h, r; reflexivity. }
  assert (One : forall k x, tag_values d k = [x] -> od_get k d = Some (IStr x)).
  { intros k x E. unfold tag_values in E. destruct (od_get k d) as [[v|l]|] eqn:G; [congruence| |discriminate].
    apply Sh in G. subst l. cbn in G. lia. }
  apply One in V. apply One in T. split.
  - unfold tag_dir_raw. rewrite T. reflexivity.
  - unfold profile_version, required_info. rewrite V. vm_compute. reflexivity.
Qed.

Lemma storable_name r n : storable r n ->
  storable_member r {| Tsv.m_name := n; m_uri := None; m_comment := None; m_info := [] |}.
Proof. intros (L & B & M). split; [|exact M]. split; [split; auto|]. cbn. intuition discriminate. Qed.

Lemma members_read r b t d ns : std_tags d (U "multibag") ->
  read (U "multibag/member-bags.tsv") t = Some (members_out ns) -> Forall (storable r) ns ->
  iter_member_bags (open_hb b t d r) =
    Ok (map (fun n => {| Tsv.m_name := n; m_uri := None; m_comment := None; m_info := [] |}) ns).
Proof.
  intros S R F. set (l := map _ ns).
  assert (Fl : Forall (storable_member r) l).
  { unfold l. apply Forall_forall. intros x I. apply in_map_iff in I. destruct I as (n & <- & I).
    apply storable_name. rewrite Forall_forall in F. auto. }
  assert (Fm : Forall (legal_member r) l) by (eapply Forall_impl; [|exact Fl]; intros ? []; auto).
  rewrite (iter_members_read (open_hb b t d r) (U "multibag") (members_out ns)); [|exact S|exact R].
  pose proof (members_out_text ns) as E. fold l in E. rewrite (members_text_body r l Fm) in E. inversion E as [E'].
  change (hb_reader (open_hb b t d r)) with r. rewrite <- E' in *.
  rewrite decode_id by (apply members_text_no_bom; exact Fl). apply members_text_parse. exact Fm.
Qed.

Lemma lookup_read r b t d lu : std_tags d (U "multibag") ->
  read (U "multibag/file-lookup.tsv") t = Some (lookup_text lu) -> Forall (storable_entry r) lu ->
  iter_file_lookup (open_hb b t d r) = Ok lu.
Proof.
  intros S R F. rewrite (iter_lookup_read (open_hb b t d r) (U "multibag") (lookup_text lu)); [|exact S|exact R].
  change (hb_reader (open_hb b t d r)) with r.
  rewrite decode_id by (apply lookup_text_no_bom; exact F).
  apply lookup_roundtrip. apply Forall_storable_legal. exact F.
Qed.

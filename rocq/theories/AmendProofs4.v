(** The lookup after an amendment *)
Require Import String NArith PeanoNat Bool List Lia.
From Verif Require Import PyBase PyFacts Version Tsv TsvProofs Fs FsFacts HeadBag HeadBagProofs HeadBagProofs2 HeadBagProofs3 BagIt BagItProofs Split SplitApply SplitApplyProofs SplitApplyProofs5 SplitApplyProofs8 Restore RestoreProofs RestoreProofs6 Props_SplitApply Props_Restore3 Amend AmendProofs AmendProofs2 AmendProofs3.
Import ListNotations.
Open Scope N_scope.

(** A payload file of a bag. *)
Definition holds (t : tree) (p : pystr) : bool := is_payload p && is_file p t.

Definition bag_files (t : tree) : Prop := wf_tree t /\ is_file DATA t = false.

Lemma selected_payload t p : bag_files t -> (selected t [U "data"] [] p <-> holds t p = true).
Proof.
  intros [W F]. unfold selected, holds. rewrite andb_true_iff. split.
  - intros (Fp & i & [<-|[]] & _ & [->|(_ & B & _)]).
    + change (U "data") with DATA in Fp. congruence.
    + split; [exact B|exact Fp].
  - intros [P Fp]. split; [exact Fp|]. exists (U "data"). split; [left; reflexivity|]. split; [intros []|]. right.
    split; [|split; [exact P|split; [intros []|intros a _ _ []]]].
    unfold is_payload in P. apply startswith_iff in P. destruct P as (r & E).
    assert (I : In (U "data") (dirs t)).
    { apply (wf_ancestor t W p (U "data") r); [|exact E]. unfold is_file in Fp. destruct (od_get p t) as [n|] eqn:G; [|discriminate].
      apply od_get_in in G. apply (in_map fst) in G. exact G. }
    apply in_dirs in I; [|apply W]. unfold is_dir. rewrite I. reflexivity.
Qed.

Lemma default_update s h h' d : bag_files (s_tree s) -> s_name s <> [] -> cur_table h = Ok d ->
  update_for_member s SNone SNone false None h = (h', Ok tt) ->
  exists d', cur_table h' = Ok d' /\
    forall p, od_get p d' = if holds (s_tree s) p then Some (s_name s) else od_get p d.
Proof.
  intros W Nn C H.
  assert (MD : s_ro s = false \/ flat_exclusions (s_tree s) []) by (right; intros a p []).
  assert (G : Forall good_path [U "data"]) by (constructor; [|constructor]; apply good_pathb_ok; reflexivity).
  destruct (update_loop s [] (s_name s) [U "data"] h d (proj1 W) G Nn MD C) as (h1 & fs & R & C1 & Sp & _).
  assert (E : h1 = h').
  { assert (X : update_for_member s SNone SNone false None h = (h1, Ok tt)) by exact R. congruence. }
  subst h1. eexists. split; [exact C1|]. intros p. rewrite fold_set_get.
  assert (I : str_in p fs = holds (s_tree s) p).
  { apply eq_true_iff_eq. rewrite str_in_iff, Sp. apply selected_payload; auto. }
  rewrite I. reflexivity.
Qed.

(** Adding a bag with its payload. *)
Definition step_lookup (m : pystr -> option pystr) (b : pystr * tree) (p : pystr) : option pystr :=
  if holds (snd b) p then Some (fst b)
  else match m p with Some x => if streq x (fst b) then None else Some x | None => None end.
Definition lookups (m : pystr -> option pystr) (bags : list (pystr * tree)) : pystr -> option pystr :=
  fold_left step_lookup bags m.

Lemma lookups_ext bags : forall m m', (forall p, m p = m' p) -> forall p, lookups m bags p = lookups m' bags p.
Proof.
  induction bags as [|b bags IH]; intros m m' E p; [apply E|]. cbn [lookups fold_left]. apply IH. intros q.
  unfold step_lookup. rewrite E. reflexivity.
Qed.

Definition bag_of (s : src) : pystr * tree := (s_name s, s_tree s).

Lemma step_table m s h h0 h1 l d : cur_members h = Ok l -> table_ok h d -> bag_files (s_tree s) -> s_name s <> [] ->
  Tsv.m_name m = s_name s -> add_member_bag m true h = (h0, Ok tt) -> update_for_member s SNone SNone false None h0 = (h1, Ok tt) ->
  exists l' d', cur_members h1 = Ok l' /\ table_ok h1 d' /\ forall p, od_get p d' = step_lookup (fun q => od_get q d) (bag_of s) p.
Proof.
  intros C T W Nn En H0 H1. destruct (add_member_eff _ _ _ _ _ H0 C T) as (E0 & T0 & S0).
  destruct (update_only _ _ _ _ _ _ H1) as (M1 & S1 & T1). destruct (T1 _ T0) as [d1 T1'].
  destruct (default_update _ _ _ _ W Nn (proj1 T0) H1) as (d2 & C2 & G).
  assert (d2 = d1) by (destruct T1' as [T1' _]; congruence). subst d2.
  eexists. exists d1. split; [apply cur_members_some; rewrite M1; exact E0|]. split; [exact T1'|]. intros p. rewrite G. unfold step_lookup, bag_of. cbn [fst snd].
  rewrite drop_files_get by apply T. rewrite En. reflexivity.
Qed.

Lemma bags_table bags : forall h h' l d, cur_members h = Ok l -> table_ok h d ->
  Forall (fun s => bag_files (s_tree s) /\ s_name s <> []) bags ->
  forM (map default_bag bags) add_amending_bag h = (h', Ok tt) ->
  exists l' d', cur_members h' = Ok l' /\ table_ok h' d' /\ forall p, od_get p d' = lookups (fun q => od_get q d) (map bag_of bags) p.
Proof.
  induction bags as [|b bags IH]; intros h h' l d C T F H; cbn [map forM] in H.
  - inversion H; subst. exists l, d. cbn. auto.
  - inversion F as [|? ? [Fb Fn] F']; subst. apply bindM_ok in H. destruct H as ([] & h1 & H1 & H). unfold add_amending_bag in H1.
    apply bindM_ok in H1. destruct H1 as ([] & h0 & H0 & H1).
    destruct (step_table (ab_member (default_bag b)) b h h0 h1 l d C T Fb Fn eq_refl H0 H1) as (l1 & d1 & C1 & T1 & G1).
    destruct (IH _ _ _ _ C1 T1 F' H) as (l2 & d2 & C2 & T2 & G2). exists l2, d2. split; [exact C2|]. split; [exact T2|].
    intros p. rewrite G2. cbn [map lookups fold_left]. apply lookups_ext. exact G1.
Qed.

(** The entries of another lookup, taken over. *)
Lemma entries_table es : forall h h' d, cur_table h = Ok d ->
  forM es (fun kv => add_file_lookup (fst kv) (snd kv)) h = (h', Ok tt) ->
  cur_table h' = Ok (fold_left (fun d kv => od_set (fst kv) (snd kv) d) es d).
Proof.
  induction es as [|[p b] es IH]; intros h h' d C H; cbn [forM] in H.
  - inversion H; subst. exact C.
  - apply bindM_ok in H. destruct H as ([] & h1 & H1 & H). cbn [fst snd] in H1.
    destruct (add_lookup_inv _ _ _ _ H1) as (P & B & _).
    destruct (add_lookup_effect p b h d P B C) as (h2 & R & L & _). rewrite R in H1. inversion H1; subst h2.
    cbn [fold_left fst snd]. apply (IH h1); [|exact H]. unfold cur_table. rewrite L. reflexivity.
Qed.

(** Resetting the lists of the new head bag leaves its payload alone. *)
Lemma wf_del p t : wf_tree t -> is_file p t = true -> wf_tree (od_del p t).
Proof.
  intros W F. constructor.
  - apply od_del_NoDup, W.
  - apply Forall_forall. intros q I. pose proof (wf_paths t W) as P. rewrite Forall_forall in P. apply P.
    apply in_map_iff in I. destruct I as ([k n] & <- & I). apply (in_map fst). eapply od_del_incl; eauto.
  - intros q I. assert (Iq : In q (od_keys t)).
    { apply in_map_iff in I. destruct I as ([k n] & <- & I). apply (in_map fst). eapply od_del_incl; eauto. }
    pose proof (wf_parents t W q Iq) as D. unfold is_dir in *. destruct (dirname q) as [|c l] eqn:E; [reflexivity|].
    rewrite od_get_del_other; [exact D|]. intros X. unfold is_file in F. rewrite <- X in F.
    destruct (od_get (c :: l) t) as [[|]|]; discriminate.
Qed.

(** The tag directory is not part of the payload. *)
Definition outside_payload (td : pystr) : Prop := is_payload (td ++ [SLASH]) = false.

Lemma outside_file td f : outside_payload td -> In f [F_members; F_lookup] -> is_payload (sjoin td f) = false.
Proof.
  intros O I. destruct (is_payload (sjoin td f)) eqn:E; [|reflexivity]. exfalso. unfold outside_payload, is_payload, sjoin in *.
  apply startswith_iff in E. destruct E as (r & E). change (U "data/") with (U "data" ++ [SLASH]) in *.
  assert (X : exists r', td ++ [SLASH] = (U "data" ++ [SLASH]) ++ r').
  { change ([SLASH] ++ f) with (SLASH :: f) in E. rewrite <- app_assoc in E. cbn [app] in E.
    destruct td as [|a1 [|a2 [|a3 [|a4 [|a5 td]]]]]; cbn in E; try (injection E; intros; subst; discriminate); try discriminate.
    injection E as -> -> -> -> -> _. exists (td ++ [SLASH]). reflexivity. }
  destruct X as (r' & X). assert (Y : startswith (td ++ [SLASH]) (U "data" ++ [SLASH]) = true) by (apply startswith_iff; eauto). congruence.
Qed.

Lemma holds_del p q t : is_payload p = false -> holds (od_del p t) q = holds t q.
Proof.
  intros H. unfold holds. destruct (is_payload q) eqn:E; [|reflexivity]. cbn [andb]. unfold is_file. rewrite od_get_del_other; [reflexivity|].
  intros ->. congruence.
Qed.

Lemma reset_payload td t t1 t2 : good_path td -> outside_payload td -> bag_files t ->
  reset_step td t = Ok t1 -> clear_step td t1 = Ok t2 ->
  bag_files t2 /\ forall p, holds t2 p = holds t p.
Proof.
  intros G O [W F] H1 H2.
  assert (X : bag_files t1 /\ forall p, holds t1 p = holds t p).
  { unfold reset_step in H1. destruct (is_file (sjoin td F_members) t) eqn:E.
    - unfold remove_file in H1. rewrite E in H1. inversion H1; subst t1. split; [split; [apply wf_del; auto|]|].
      + unfold is_file. rewrite od_get_del_other; [exact F|]. intros X. rewrite X in F. congruence.
      + intros p. apply holds_del, outside_file; cbn; auto.
    - unfold ensure_step in H1. destruct (exists_ td t) eqn:Ex; [inversion H1; subst; split; [split|]; auto|].
      unfold mkdir in H1. rewrite Ex in H1. destruct (is_dir (dirname td) t) eqn:Ed; [|discriminate]. inversion H1; subst t1.
      assert (Ne : od_get td t = None) by (apply exists_false in Ex; apply Ex).
      split; [split; [apply wf_set; auto|]|].
      + unfold is_file in *. rewrite od_get_set. destruct (streq DATA td); [reflexivity|exact F].
      + intros p. unfold holds. destruct (is_payload p); [|reflexivity]. cbn [andb]. unfold is_file. rewrite od_get_set.
        destruct (streq_reflect p td) as [->|]; [rewrite Ne|]; reflexivity. }
  destruct X as [[W1 F1] X]. unfold clear_step in H2. destruct (exists_ (sjoin td F_lookup) t1) eqn:Ex.
  - unfold remove_file in H2. destruct (is_file (sjoin td F_lookup) t1) eqn:E; [|discriminate]. inversion H2; subst t2.
    split; [split; [apply wf_del; auto|]|].
    + unfold is_file. rewrite od_get_del_other; [exact F1|]. intros Y. rewrite Y in F1. congruence.
    + intros p. rewrite holds_del; [apply X|apply outside_file; cbn; auto].
  - inversion H2; subst t2. split; [split|]; auto.
Qed.

(** What the amendee said. *)
Definition old_answer (old : hb) (p : pystr) : option pystr :=
  if is_head old then match iter_file_lookup old with Ok es => od_get p (od_of_pairs es) | Err _ => None end
  else if holds (hb_tree old) p then Some (hb_name old) else None.

Lemma amend_table repr ro old bags new h old' td :
  std_tags (init_info repr false old new) td -> hb_mem new = None -> hb_lu new = None -> NoDup (od_keys (hb_tree new)) ->
  bag_files (hb_tree old) -> hb_name old <> [] ->
  Forall (fun s => bag_files (s_tree s) /\ s_name s <> []) bags -> bag_files (hb_tree new) -> hb_name new <> [] ->
  good_path td -> outside_payload td ->
  amend_lists repr false ro old (map default_bag bags) (own_member None None []) SNone SNone new = (h, Ok old') ->
  exists d, table_ok h d /\
    forall p, od_get p d = lookups (old_answer old) (map bag_of bags ++ [(hb_name new, hb_tree new)]) p.
Proof.
  set (i0 := init_info repr false old new). intros S M0 L0 D Wo No Wb Wn Nn Gt Ot H. unfold amend_lists in H.
  pose proof (init_new repr false old new) as En. pose proof (init_old repr false old new) as Eo.
  cbv zeta in Eo. destruct (init_multibag_info repr false old new) as [o n] eqn:E. cbn [fst snd] in En, Eo. fold i0 in En. subst n.
  destruct Eo as (Eh & Em & Ef & Ena & Et).
  apply bindM_ok in H. destruct H as ([] & h1 & H1 & H). apply bindM_ok in H. destruct H as ([] & h2 & H2 & H).
  apply bindM_ok in H. destruct H as ([] & h3 & H3 & H). apply bindM_ok in H. destruct H as ([] & h4 & H4 & H).
  unfold retM in H. inversion H; subst h4 o. clear H.
  destruct (init_members_eff old' (set_info new i0) h1 td S M0 L0 D H1) as (ms & t1 & Om & R1 & D1 & S1 & C1).
  cbn [hb_tree set_info] in R1.
  destruct S1 as (Sn & St & Sdi & Si & Sr). cbn [hb_name hb_tree hb_info hb_dinfo hb_reader set_tree set_info] in Sn, St, Sdi, Si, Sr.
  assert (S' : std_tags (hb_info h1) td) by (rewrite Si; exact S).
  assert (D' : NoDup (od_keys (hb_tree h1))) by (rewrite St; exact D1).
  destruct (init_lookup_eff ro old' h1 h2 td _ S' D' C1 H2) as (t2 & hx & R2 & D2 & Ex & Tx & Ox & C2 & Src).
  destruct (proj2 (proj2 Ox) _ Tx) as [d2 T2].
  assert (G2 : forall p, od_get p d2 = old_answer old p).
  { intros p. unfold old_answer. rewrite Eh in Src. destruct (is_head old).
    - destruct Src as (es & Ies & Fe). rewrite Ef in Ies. rewrite Ies.
      pose proof (entries_table _ _ _ _ (proj1 Tx) Fe) as C. destruct T2 as [T2 _]. rewrite C in T2. inversion T2 as [T2'].
      unfold od_of_pairs. reflexivity.
    - destruct (default_update (src_of ro old') hx h2 []) as (d' & C & G).
      + cbn [s_tree src_of]. rewrite Et. exact Wo.
      + cbn [s_name src_of]. rewrite Ena. exact No.
      + apply Tx.
      + exact Src.
      + destruct T2 as [T2 _]. rewrite C in T2. inversion T2; subst d'. rewrite G. cbn [s_tree s_name src_of od_get]. rewrite Et, Ena. reflexivity. }
  destruct (bags_eff _ _ _ _ _ C2 T2 H3) as (_ & _ & S3).
  destruct (bags_table _ _ _ _ _ C2 T2 Wb H3) as (l3 & d3 & C3 & T3 & G3).
  assert (Ov : same_disk (set_tree (set_info new i0) t2) h3).
  { eapply same_disk_trans; [|exact S3]. eapply same_disk_trans; [|exact (proj1 (proj2 Ox))]. subst hx.
    unfold same_disk. cbn [hb_name hb_tree hb_info hb_dinfo hb_reader set_tree set_info set_lu]. auto. }
  assert (En : hb_name h3 = hb_name new) by (destruct Ov as [Ov _]; exact Ov).
  assert (Et3 : hb_tree h3 = t2) by (destruct Ov as (_ & Ov & _); exact Ov).
  unfold list_itself in H4. apply bindM_ok in H4. destruct H4 as ([] & h0 & H0 & H4). rewrite En in H0.
  destruct (add_member_eff _ _ _ _ _ H0 C3 T3) as (_ & _ & S0).
  assert (E0 : hb_tree h0 = t2) by (destruct S0 as (_ & S0 & _); congruence).
  assert (E1 : hb_name h0 = hb_name new) by (destruct S0 as (S0 & _); congruence).
  rewrite St in R2. destruct (reset_payload td _ _ _ Gt Ot Wn R1 R2) as [W2 Hh].
  destruct (step_table (own_member None None [] (hb_name new)) (src_of false h0) h3 h0 h l3 d3 C3 T3) as (l4 & d4 & C4 & T4 & G4);
    [cbn [s_tree src_of]; rewrite E0; exact W2|cbn [s_name src_of]; rewrite E1; exact Nn|cbn [s_name src_of]; rewrite E1; reflexivity|exact H0|exact H4|].
  exists d4. split; [exact T4|]. intros p. rewrite G4. unfold lookups. rewrite fold_left_app. cbn [fold_left].
  change (fold_left step_lookup (map bag_of bags) (old_answer old)) with (lookups (old_answer old) (map bag_of bags)).
  assert (X : od_get p d3 = lookups (old_answer old) (map bag_of bags) p) by (rewrite G3; apply lookups_ext; exact G2).
  unfold step_lookup, bag_of. cbn [fst snd s_name s_tree src_of]. rewrite E0, E1, Hh, X. reflexivity.
Qed.

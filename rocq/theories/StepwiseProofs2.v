(** Proofs about an Amender that is used step by step: the calls *)
Require Import String NArith PeanoNat Bool List Lia.
From Verif Require Import PyBase PyFacts Version Tsv TsvProofs Fs FsFacts HeadBag HeadBagProofs HeadBagProofs2 HeadBagProofs3 BagIt BagItProofs Split SplitApply SplitApplyProofs SplitApplyProofs5 SplitApplyProofs8 Restore RestoreProofs RestoreProofs2 RestoreProofs3 RestoreProofs4 RestoreProofs6 RestoreProofs7 RestoreProofs8 RestoreProofs9 RestoreProofs10 Props_Restore Props_Restore3 Amend AmendProofs AmendProofs2 AmendProofs3 AmendProofs4 Props_SplitApply Props_Amend SingleProofs AmendTotalProofs Props_AmendTotal SingleTotalProofs Stepwise SpecStepwise StepwiseProofs.
Import ListNotations.
Open Scope N_scope.

Lemma saved_of_written algs q : written algs q -> saved_file q.
Proof. intros [->|(a & _ & ->)]; [left; reflexivity|right; exists a; reflexivity]. Qed.

Lemma list_not_written v algs td f : sane v -> incl algs (e_algos v) -> ~ written algs (sjoin td f).
Proof.
  intros Hs Ia W. apply (top_not_join v algs td f (sjoin td f) Hs Ia); [|reflexivity].
  destruct W as [->|(a & I & ->)]; [right; left; reflexivity|]. right; right. exists K_tag, a. cbn. auto.
Qed.

(** Writing everything leaves a bag that can be written again. *)
Lemma write_all_total2 v algs bsize version h td l : sane v -> NoDup (e_algos v) -> good_hash v -> incl algs (e_algos v) ->
  savable v algs (hb_tree h) -> plain_size bsize -> info_ok Codecs (hb_info h) -> no_bom (hb_info h) -> tag_value_ok Codecs version ->
  tag_dir (hb_info h) = td -> profile_version (hb_info h) = CURRENT_VERSION -> is_dir td (hb_tree h) = true -> tagdir_ok (hb_tree h) td ->
  ~ saved_file td -> good_path (sjoin td F_members) -> good_path (sjoin td F_lookup) ->
  Forall (good_name v) [F_baginfo; sjoin td F_members; sjoin td F_lookup] ->
  hb_mem h = Some l -> Forall (fun m => m_info m = []) l ->
  exists h', write_all v algs bsize version h = (h', Ok tt) /\ savable v algs (hb_tree h') /\ no_bom (hb_info h') /\
    is_dir td (hb_tree h') = true /\ tagdir_ok (hb_tree h') td /\
    (forall q, ~ saved_file q -> q <> sjoin td F_members -> q <> sjoin td F_lookup -> od_get q (hb_tree h') = od_get q (hb_tree h)).
Proof.
  intros S0 ND Gh Ia Sv B Oi Nb Vv Td Pv Hd Ht Ns G1 G2 Gn Hm Fm.
  inversion Gn as [|? ? Gb Gn']; subst. inversion Gn' as [|? ? Gm Gn'']; subst. inversion Gn'' as [|? ? Gl _]; subst. clear Gn Gn' Gn''.
  set (td := tag_dir (hb_info h)) in *.
  destruct (put_total td F_members (fst (members_prefix l)) h eq_refl ltac:(cbn; auto) Hd Ht) as (P1 & W1 & Hd1 & Ht1).
  pose proof (savable_put v algs td F_members _ _ S0 Ia Sv G1 Gm W1) as Sv1.
  set (t1 := od_set (sjoin td F_members) (NFile (fst (members_prefix l))) (hb_tree h)) in *.
  assert (Sm : save_member_bags h = (set_tree h t1, Ok tt)).
  { unfold save_member_bags. rewrite Hm. fold td. unfold bindM in P1 |- *. destruct (ensure_tagdir h) as [h1 [x|e]]; [|discriminate P1]. rewrite P1.
    rewrite (members_formatted l Fm). reflexivity. }
  assert (X : exists t2, save_file_lookup (set_tree h t1) = (set_tree h t2, Ok tt) /\ savable v algs t2 /\ is_dir td t2 = true /\ tagdir_ok t2 td /\
    forall q, q <> sjoin td F_members -> q <> sjoin td F_lookup -> od_get q t2 = od_get q (hb_tree h)).
  { unfold save_file_lookup. cbn [hb_lu set_tree]. destruct (hb_lu h) as [d|].
    - destruct (put_total td F_lookup (lookup_text d) (set_tree h t1) eq_refl ltac:(cbn; auto) Hd1 Ht1) as (P2 & W2 & Hd2 & Ht2).
      eexists. split; [exact P2|]. split; [apply (savable_put v algs td F_lookup _ _ S0 Ia Sv1 G2 Gl W2)|]. split; [exact Hd2|]. split; [exact Ht2|].
      intros q Q1 Q2. cbn [hb_tree set_tree]. rewrite od_get_set_other by exact Q2. apply od_get_set_other. exact Q1.
    - exists t1. split; [reflexivity|]. split; [exact Sv1|]. split; [exact Hd1|]. split; [exact Ht1|]. intros q Q1 _. apply od_get_set_other. exact Q1. }
  destruct X as (t2 & Sl & Sv2 & Hd2 & Ht2 & K2).
  destruct (info_total2 v algs bsize version CURRENT_VERSION (set_tree h t2) S0 ND Gh Ia Sv2 B Oi Nb Vv (plain_valueb_ok CURRENT_VERSION eq_refl) Gb) as (h' & H' & Sv3 & Nb3 & K3).
  exists h'. split; [unfold write_all; unfold bindM at 1; rewrite Sm; unfold bindM at 1; rewrite Sl; cbn [hb_info set_tree]; rewrite Pv; exact H'|].
  split; [exact Sv3|]. split; [exact Nb3|]. cbn [hb_tree set_tree] in K3.
  assert (Nt : ~ written algs td) by (intros X; apply Ns; eapply saved_of_written; exact X).
  assert (Hd3 : is_dir td (hb_tree h') = true) by (rewrite (dir_same td t2); [exact Hd2|apply K3; exact Nt]).
  split; [exact Hd3|]. split.
  - split; [left; exact Hd3|]. intros f If. rewrite (dir_same _ t2); [apply Ht2; exact If|]. apply K3. apply (list_not_written v); assumption.
  - intros q Q1 Q2 Q3. rewrite K3 by (intros X; apply Q1; eapply saved_of_written; exact X). apply K2; assumption.
Qed.

Section Calls.
Variables (v : env) (algs : list pystr) (bsize : tree -> pystr) (name td : pystr) (t : tree) (i0 : infod).
Hypothesis Hs : sane v.
Hypothesis Hn : NoDup (e_algos v).
Hypothesis Hg : good_hash v.
Hypothesis Hi : incl algs (e_algos v).
Hypothesis Hb : plain_size bsize.
Hypothesis Ht : tag_value_ok Codecs td.
Hypothesis Gt : good_path td.
Hypothesis Ot : outside_payload td.
Hypothesis Nt : ~ saved_file td.
Hypothesis Gn : Forall (good_name v) [F_baginfo; sjoin td F_members; sjoin td F_lookup].
Hypothesis Nn : name <> [].

(** The handle of the new head bag between calls: [l] is the list of members,
    [d] the table. *)
Record between (h : hb) (l : list minfo) (d : dict pystr) : Prop := {
  b_name : hb_name h = name;
  b_members : cur_members h = Ok l;
  b_plain : Forall (fun m => m_info m = []) l;
  b_table : table_ok h d;
  b_first : hb_lu h = None -> read (sjoin td F_lookup) (hb_tree h) = None;
  b_info : info_ok Codecs (hb_info h);
  b_bom : no_bom (hb_info h);
  b_dir : tag_dir_raw (hb_info h) = Ok td;
  b_version : od_get T_Version (hb_info h) = Some (IStr CURRENT_VERSION);
  b_tags : forall k, ~ In k info_keys -> tag_values (hb_info h) k = tag_values i0 k;
  b_about : with_about (tag_values (hb_info h) T_ISD) = with_about (tag_values i0 T_ISD);
  b_save : savable v algs (hb_tree h);
  b_tagdir : is_dir td (hb_tree h) = true /\ tagdir_ok (hb_tree h) td;
  b_bag : bag_files (hb_tree h);
  b_holds : forall p, holds (hb_tree h) p = holds t p;
  b_rest : forall q, ~ saved_file q -> q <> td -> q <> sjoin td F_members -> q <> sjoin td F_lookup -> od_get q (hb_tree h) = od_get q t
}.

Lemma between_std h l d : between h l d -> std_tags (hb_info h) td.
Proof.
  intros B. split; [apply (b_dir _ _ _ B)|]. unfold profile_version, required_info. rewrite (b_version _ _ _ B). vm_compute. reflexivity.
Qed.

Lemma between_profile h l d : between h l d -> profile_version (hb_info h) = CURRENT_VERSION.
Proof. intros B. unfold profile_version, required_info. rewrite (b_version _ _ _ B). reflexivity. Qed.

(** In memory. *)
Lemma between_listed m s h l d : between h l d -> bag_files (s_tree s) -> s_name s <> [] -> Tsv.m_name m = s_name s -> m_info m = [] ->
  exists h0 h1 d', add_member_bag m true h = (h0, Ok tt) /\ update_for_member s SNone SNone false None h0 = (h1, Ok tt) /\ same_disk h h0 /\
    hb_mem h1 = Some (drop_member (Tsv.m_name m) l ++ [m]) /\ between h1 (drop_member (Tsv.m_name m) l ++ [m]) d' /\
    forall p, od_get p d' = step_lookup (fun q => od_get q d) (bag_of s) p.
Proof.
  intros B Ws Ns En Em. destruct (listing m s h l d (b_members _ _ _ B) (b_table _ _ _ B) Ws Ns En) as (h0 & h1 & d' & R0 & R1 & S0 & S1 & M1 & T1 & G1 & L1).
  exists h0, h1, d'. split; [exact R0|]. split; [exact R1|]. split; [exact S0|]. split; [exact M1|]. split; [|exact G1].
  destruct S1 as (Sn & St & _ & Si & _). constructor; rewrite ?Sn, ?St, ?Si; try apply B.
  - apply cur_members_some. exact M1.
  - apply Forall_app. split; [|constructor; [exact Em|constructor]]. unfold drop_member. apply Forall_forall. intros x X. apply filter_In in X.
    exact (proj1 (Forall_forall _ _) (b_plain _ _ _ B) x (proj1 X)).
  - exact T1.
  - intros L. apply (b_first _ _ _ B). destruct (hb_lu h) as [x|]; [|reflexivity]. exfalso. apply L1; [discriminate|exact L].
Qed.

Lemma src_same ro h h' : same_disk h h' -> src_of ro h' = src_of ro h.
Proof. intros (Sn & St & _). unfold src_of. rewrite Sn, St. reflexivity. Qed.

(** What a call of finalize leaves on disk. *)
Definition finalized (version : pystr) (h : hb) (l : list minfo) : Prop :=
  read (sjoin td F_members) (hb_tree h) = Some (fst (members_prefix l)) /\
  read (sjoin td F_lookup) (hb_tree h) = (match hb_lu h with Some d => Some (lookup_text d) | None => None end) /\
  exists j, tags_of Codecs (hb_tree h) = Ok j /\ std_tags j td /\
    tag_values j T_HeadVersion = [version] /\ tag_values j T_Version = [CURRENT_VERSION] /\ tag_values j T_Reference = [CURRENT_REFERENCE] /\
    tag_values j T_TagDir = [td] /\
    tag_values j T_ISD = map (fun x => unfold_value Codecs (one_line x)) (with_about (tag_values i0 T_ISD)) /\
    (forall k, ~ In k info_keys -> tag_values j k = map (fun x => unfold_value Codecs (one_line x)) (tag_values i0 k)).

Lemma call_finalize version h l d : between h l d -> version <> [] -> tag_value_ok Codecs version ->
  exists h' d', finalize v algs bsize version h = (h', Ok tt) /\ between h' (drop_member name l ++ [plain_member name]) d' /\
    (forall p, od_get p d' = step_lookup (fun q => od_get q d) (name, t) p) /\
    finalized version h' (drop_member name l ++ [plain_member name]).
Proof.
  intros B Nv Vv.
  destruct (between_listed (plain_member name) (src_of false h) h l d B) as (h0 & h1 & d' & R0 & R1 & S0 & M1 & B1 & G1);
    [exact (b_bag _ _ _ B)|cbn [src_of s_name]; rewrite (b_name _ _ _ B); exact Nn|cbn [src_of s_name]; symmetry; exact (b_name _ _ _ B)|reflexivity|].
  change (Tsv.m_name (plain_member name)) with name in M1, B1. set (l1 := drop_member name l ++ [plain_member name]) in *.
  assert (Li : (fun h => list_itself (own_member None None [] (hb_name h)) SNone SNone h) h = (h1, Ok tt)).
  { cbv beta. rewrite (b_name _ _ _ B). unfold list_itself, bindM. change (own_member None None [] name) with (plain_member name). rewrite R0.
    rewrite (src_same false h h0 S0). exact R1. }
  pose proof (between_std _ _ _ B1) as Sd. pose proof (std_tag_dir _ _ Sd) as Etd. pose proof (between_profile _ _ _ B1) as Pv.
  destruct (b_tagdir _ _ _ B1) as [D1 D2].
  destruct (write_all_total2 v algs bsize version h1 td l1 Hs Hn Hg Hi (b_save _ _ _ B1) Hb (b_info _ _ _ B1) (b_bom _ _ _ B1) Vv Etd Pv D1 D2 Nt
    ltac:(apply good_listfile; cbn; auto) ltac:(apply good_listfile; cbn; auto) Gn M1 (b_plain _ _ _ B1)) as (h' & W & Sv' & Nb' & Hd' & Ht' & K').
  pose proof (write_all_eff _ _ _ _ _ _ _ M1 W) as X. cbv zeta in X. rewrite Etd, Pv in X.
  destruct X as (hx & U1 & Ei & En1 & Em & El & Rs & Rm & Rl).
  assert (Ox : info_ok Codecs (hb_info hx)) by (rewrite Ei; apply B1).
  destruct (update_info_tags_read _ _ _ _ _ _ _ Hb Ox Nv Vv (plain_valueb_ok CURRENT_VERSION eq_refl) U1) as (N1 & M1' & L1 & Q & T).
  destruct (update_info_mem v algs bsize version CURRENT_VERSION hx h' td Hb Ox Nv Vv) as (A1 & A2 & A3 & _ & _ & _ & _ & A7 & A8);
    [rewrite Ei; apply B1|apply plain_valueb_ok; reflexivity|vm_compute; reflexivity|discriminate|exact U1|].
  assert (Rd : forall q, ~ saved_file q -> read q (hb_tree h') = read q (hb_tree hx)) by (intros q Hq; unfold read; rewrite Q; auto).
  assert (Ku : keeps (hb_tree h1) (hb_tree h')).
  { rewrite run_app in Rs. apply bind_ok in Rs. destruct Rs as (tm & Rs1 & Rs2).
    eapply keeps_trans; [apply (members_keeps td l1 _ _ Gt Ot Rs1)|]. eapply keeps_trans; [apply (lookup_keeps td _ _ _ Gt Ot Rs2)|].
    exact (SingleProofs.update_keeps v algs bsize (Some version) CURRENT_VERSION hx h' Hs Hi U1). }
  destruct (Ku (b_bag _ _ _ B1)) as [Bf' Pl'].
  assert (Rl' : read (sjoin td F_lookup) (hb_tree h') = (match hb_lu h' with Some d => Some (lookup_text d) | None => None end)).
  { rewrite Rd by (apply tagfile_not_saved; cbn; auto). rewrite Rl, L1, El. destruct (hb_lu h1) eqn:E; [reflexivity|]. exact (b_first _ _ _ B1 E). }
  destruct (T Codecs) as (j & J1 & J2 & J3 & J4 & J5 & J6 & J7).
  assert (Sj : tag_shape j).
  { unfold tags_of in J1. destruct (read (U "bag-info.txt") (hb_tree h')) as [c|]; [exact (Props_Restore3.load_shape _ _ _ J1)|]. injection J1 as <-. discriminate J2. }
  assert (J4' : od_get T_TagDir j = Some (IStr td)) by (apply J4; [rewrite Ei; apply B1|exact Ht]).
  exists h', d'. split; [unfold finalize, bindM; rewrite Li; exact W|]. split; [|split].
  - constructor.
    + rewrite N1, En1. apply B1.
    + apply cur_members_some. rewrite M1', Em. exact M1.
    + apply B1.
    + destruct (b_table _ _ _ B1) as (C & C1 & C2). split; [|split; assumption]. unfold cur_table in C |- *. rewrite L1, El. destruct (hb_lu h1) as [x|] eqn:E; [exact C|].
      unfold disk_lookup in C |- *. rewrite (missing_lookup h1 td Sd (b_first _ _ _ B1 E)) in C. rewrite (missing_lookup h' td A2); [exact C|].
      rewrite Rl', L1, El. reflexivity.
    + intros E. rewrite Rl', E. reflexivity.
    + exact A1.
    + exact Nb'.
    + exact (proj1 A2).
    + apply update_info_inv in U1. cbv zeta in U1. destruct U1 as (tx & ty & _ & _ & ->). cbn [hb_info set_tree set_info].
      rewrite od_get_set_other by discriminate. rewrite update_tags_get by (auto; try discriminate; apply Ox).
      change (streq T_Version T_HeadVersion) with false. rewrite streq_refl. reflexivity.
    + intros k K. rewrite A8 by exact K. rewrite Ei. apply B1. exact K.
    + rewrite A7, about_once, Ei. apply B1.
    + exact Sv'.
    + split; assumption.
    + exact Bf'.
    + intros p. rewrite <- (b_holds _ _ _ B1 p). unfold holds. destruct (is_payload p) eqn:P; [|reflexivity]. cbn [andb]. unfold is_file. rewrite Pl' by exact P. reflexivity.
    + intros q Q1 Q2 Q3 Q4. rewrite K' by assumption. apply (b_rest _ _ _ B1); assumption.
  - intros p. rewrite G1. unfold step_lookup, bag_of. cbn [fst snd s_tree s_name src_of]. rewrite (b_holds _ _ _ B p), (b_name _ _ _ B). reflexivity.
  - split; [rewrite Rd by (apply tagfile_not_saved; cbn; auto); exact Rm|]. split; [exact Rl'|]. exists j. split; [exact J1|]. split.
    { split; [unfold tag_dir_raw; rewrite J4'; reflexivity|]. unfold profile_version, required_info. rewrite (one_value _ _ _ Sj J3). vm_compute. reflexivity. }
    split; [exact J2|]. split; [exact J3|]. split; [exact J6|]. split; [unfold tag_values; rewrite J4'; reflexivity|]. split.
    + rewrite J7, Ei. f_equal. apply B1.
    + intros k K. rewrite J5 by exact K. rewrite Ei. f_equal. apply B1. exact K.
Qed.

(** A call that can be made. *)
Definition good_call (c : call) : Prop :=
  match c with
  | CAdd b => bag_files (s_tree b) /\ s_name b <> []
  | CFinalize x => x <> [] /\ tag_value_ok Codecs x
  end.

Lemma call_made c h l d : between h l d -> good_call c ->
  exists h' d', do_call v algs bsize c h = (h', Ok tt) /\ between h' (add_all l (listed name [c])) d' /\
    forall p, od_get p d' = lookups (fun q => od_get q d) (tabled name t [c]) p.
Proof.
  intros B G. destruct c as [b|x]; cbn [good_call] in G.
  - destruct G as [Wb Nb]. destruct (between_listed (plain_member (s_name b)) b h l d B Wb Nb eq_refl eq_refl) as (h0 & h1 & d' & R0 & R1 & _ & _ & B1 & G1).
    exists h1, d'. split; [|split; [exact B1|exact G1]]. cbn [do_call]. unfold add_amending_bag, bindM.
    change (ab_member (default_bag b)) with (plain_member (s_name b)). rewrite R0. exact R1.
  - destruct G as [Nx Vx]. destruct (call_finalize x h l d B Nx Vx) as (h' & d' & R & B1 & G1 & _). exists h', d'. auto.
Qed.

Lemma calls_made calls : forall h l d, between h l d -> Forall good_call calls ->
  exists h' d', forM calls (do_call v algs bsize) h = (h', Ok tt) /\ between h' (add_all l (listed name calls)) d' /\
    forall p, od_get p d' = lookups (fun q => od_get q d) (tabled name t calls) p.
Proof.
  induction calls as [|c calls IH]; intros h l d B F.
  - exists h, d. split; [reflexivity|]. split; [exact B|reflexivity].
  - inversion F as [|? ? Gc F']; subst. destruct (call_made c h l d B Gc) as (h1 & d1 & R1 & B1 & G1).
    destruct (IH h1 _ d1 B1 F') as (h2 & d2 & R2 & B2 & G2). exists h2, d2. split; [|split].
    + cbn [forM]. unfold bindM. rewrite R1. exact R2.
    + rewrite <- add_all_app in B2. exact B2.
    + intros p. rewrite G2. change (tabled name t (c :: calls)) with (tabled name t [c] ++ tabled name t calls).
      unfold lookups. rewrite fold_left_app. apply (lookups_ext (tabled name t calls)). exact G1.
Qed.
End Calls.

(** What a head bag says after an amendment *)
Require Import String NArith PeanoNat Bool List Lia.
From Verif Require Import PyBase PyFacts Version Tsv TsvProofs Fs FsFacts HeadBag HeadBagProofs HeadBagProofs2 HeadBagProofs3 BagIt BagItProofs Split SplitApply SplitApplyProofs SplitApplyProofs5 Restore RestoreProofs RestoreProofs6 Props_SplitApply Props_Restore3 Amend AmendProofs AmendProofs2.
Import ListNotations.
Open Scope N_scope.

(** ** Member lists *)

(** Of members with the same name, the last one. *)
Fixpoint last_ones (l : list minfo) : list minfo :=
  match l with
  | [] => []
  | m :: t => if str_in (Tsv.m_name m) (map Tsv.m_name t) then last_ones t else m :: last_ones t
  end.

Lemma add_all_spec ms : forall l,
  add_all l ms = filter (fun m => negb (str_in (Tsv.m_name m) (map Tsv.m_name ms))) l ++ last_ones ms.
Proof.
  induction ms as [|m ms IH]; intros l.
  - cbn. rewrite app_nil_r. induction l as [|x l IHl]; [reflexivity|]. cbn. congruence.
  - cbn [add_all fold_left]. change (fold_left _ ms ?x) with (add_all x ms). rewrite IH, filter_app. unfold drop_member.
    rewrite filter_filter. cbn [map last_ones filter]. rewrite <- app_assoc. f_equal.
    + apply filter_ext. intros x. cbn [map str_in existsb]. rewrite negb_orb. reflexivity.
    + destruct (str_in (Tsv.m_name m) (map Tsv.m_name ms)); reflexivity.
Qed.

Lemma add_all_last ms : add_all [] ms = last_ones ms.
Proof. apply add_all_spec. Qed.

Lemma last_ones_in m ms : In m (last_ones ms) -> In m ms.
Proof. induction ms as [|x ms IH]; cbn [last_ones]; [auto|]. destruct (str_in _ _); cbn [In]; intuition. Qed.

Lemma last_ones_nodup ms : NoDup (map Tsv.m_name ms) -> last_ones ms = ms.
Proof.
  induction ms as [|x ms IH]; cbn [map last_ones]; intros D; [reflexivity|]. inversion D as [|? ? Ni D']; subst.
  apply str_in_false in Ni. rewrite Ni, IH; auto.
Qed.

(** ** The final writes *)

Lemma clear_step_none td t t' : NoDup (od_keys t) -> clear_step td t = Ok t' ->
  read (sjoin td F_lookup) t' = None /\ forall q, q <> sjoin td F_lookup -> od_get q t' = od_get q t.
Proof.
  intros D. unfold clear_step. destruct (exists_ (sjoin td F_lookup) t) eqn:X.
  - unfold remove_file. destruct (is_file _ _); [|discriminate]. intros H. inversion H; subst t'. split.
    + rewrite read_del, streq_refl by auto. reflexivity.
    + intros q Q. apply od_get_del_other; auto.
  - intros H. inversion H; subst t'. split; [|auto]. apply exists_false in X. destruct X as [X _]. unfold read. rewrite X. reflexivity.
Qed.

Lemma members_not_lookup td : sjoin td F_members <> sjoin td F_lookup.
Proof. intros E. unfold sjoin in E. apply app_inv_head in E. vm_compute in E. discriminate. Qed.

Lemma write_all_eff v algs bsize version h new' l :
  hb_mem h = Some l -> let td := tag_dir (hb_info h) in
  write_all v algs bsize version h = (new', Ok tt) ->
  exists h1, update_info_disk v algs bsize (Some version) (profile_version (hb_info h)) h1 = (new', Ok tt) /\
    hb_info h1 = hb_info h /\ hb_name h1 = hb_name h /\ hb_mem h1 = hb_mem h /\ hb_lu h1 = hb_lu h /\
    run_steps (members_steps td l ++ lookup_steps td (hb_lu h)) (hb_tree h) = Ok (hb_tree h1) /\
    read (sjoin td F_members) (hb_tree h1) = Some (fst (members_prefix l)) /\
    read (sjoin td F_lookup) (hb_tree h1) =
      (match hb_lu h with Some d => Some (lookup_text d) | None => read (sjoin td F_lookup) (hb_tree h) end).
Proof.
  intros E td H. unfold write_all in H. apply bindM_ok in H. destruct H as ([] & h1 & H1 & H).
  apply bindM_ok in H. destruct H as ([] & h2 & H2 & H).
  destruct (save_members_ok _ _ _ E H1) as (t1 & X1 & Rm & Ro). subst h1.
  destruct (save_members_steps _ _ _ E H1) as (t1' & X1 & R1). apply (f_equal hb_tree) in X1. cbn in X1. subst t1'.
  destruct (save_lookup_steps _ _ H2) as (t2 & X2 & R2). subst h2. cbn [hb_info hb_lu hb_tree set_tree] in *.
  exists (set_tree (set_tree h t1) t2). split; [exact H|]. cbn [hb_info hb_name hb_mem hb_lu hb_tree set_tree].
  split; [auto|]. split; [auto|]. split; [auto|]. split; [auto|]. split; [rewrite run_app; fold td in R1; rewrite R1; exact R2|].
  fold td in Rm, Ro. destruct (hb_lu h) as [d|] eqn:L.
  - destruct (save_lookup_ok (set_tree h t1) _ d L H2) as (t2' & X2 & Rl & Rx). apply (f_equal hb_tree) in X2. cbn in X2. subst t2'. cbn [hb_info hb_tree set_tree] in Rl, Rx. fold td in Rl, Rx. split; [|exact Rl].
    rewrite Rx; [exact Rm|apply members_not_lookup].
  - cbn in R2. inversion R2; subst t2. split; [exact Rm|]. apply Ro. intros X. symmetry in X. revert X. apply members_not_lookup.
Qed.

(** ** Tags of the new head bag *)

Definition deprecates (repr : list pystr -> pystr) (i : infod) : list pystr :=
  tag_values i T_HeadDeprecates ++ [old_version repr i].

Lemma init_info_get repr keep old new k : k <> T_Version ->
  od_get k (init_info repr keep old new) =
    if streq k T_HeadDeprecates then Some (IList (deprecates repr (hb_info old))) else od_get k (hb_info new).
Proof.
  intros K. unfold init_info, init_multibag_info, deprecates, tag_values.
  destruct (od_get T_HeadDeprecates (hb_info old)) as [[s|l]|] eqn:E; cbn [snd hb_info set_info]; rewrite od_get_set;
    (destruct (streq_reflect k T_HeadDeprecates) as [->|]; [reflexivity|]); rewrite od_get_set_other; auto.
Qed.

Lemma init_info_version repr old new : od_get T_Version (init_info repr false old new) = Some (IStr CURRENT_VERSION).
Proof.
  unfold init_info, init_multibag_info. destruct (od_get T_HeadDeprecates (hb_info old)) as [[s|l]|]; cbn [snd hb_info set_info];
    rewrite od_get_set_other by discriminate; rewrite od_get_set_same; reflexivity.
Qed.

Lemma init_info_ok repr old new : info_ok Codecs (hb_info new) -> Forall (tag_value_ok Codecs) (deprecates repr (hb_info old)) ->
  info_ok Codecs (init_info repr false old new).
Proof.
  intros O F. assert (V : Forall (value_ok Codecs) (deprecates repr (hb_info old))) by (eapply Forall_impl; [|exact F]; intros x; apply value_ok_plain).
  assert (O1 : info_ok Codecs (od_set T_Version (IStr CURRENT_VERSION) (hb_info new))).
  { apply info_ok_put; [exact O|apply lit_name; reflexivity|discriminate|]. constructor; [|constructor]. apply value_ok_plain, plain_valueb_ok. reflexivity. }
  unfold init_info, init_multibag_info. unfold deprecates, tag_values in V.
  destruct (od_get T_HeadDeprecates (hb_info old)) as [[s|l]|]; cbn [snd hb_info set_info];
    (apply info_ok_put; [exact O1|apply lit_name; reflexivity| |exact V]); cbn [vals_of]; try discriminate.
  destruct l; discriminate.
Qed.

Lemma init_std repr old new td : tag_dir_raw (hb_info new) = Ok td -> std_tags (init_info repr false old new) td.
Proof.
  intros E. split.
  - unfold tag_dir_raw in *. rewrite init_info_get by discriminate. exact E.
  - unfold profile_version, required_info. rewrite init_info_version. reflexivity.
Qed.

(** ** The whole amendment, as it is read again *)

(** [new] is the directory bag [name] with files [t], just opened. *)
Definition just_opened (new : hb) (name : pystr) (t : tree) : Prop :=
  exists i, tags_of Codecs t = Ok i /\ new = open_hb name t i Codecs.

Lemma tags_of_ok r t i : tags_of r t = Ok i -> info_ok r i.
Proof.
  unfold tags_of. destruct (read _ t); [apply load_tags_ok|]. intros H. inversion H; subst. split; [constructor|intros ? ? []].
Qed.

Lemma amend_disk v algs bsize repr ro old bags own inc exc version new new' old' name t td :
  plain_size bsize -> just_opened new name t -> NoDup (od_keys t) ->
  tag_dir_raw (hb_info new) = Ok td -> tag_value_ok Codecs td -> version <> [] -> tag_value_ok Codecs version ->
  Forall (tag_value_ok Codecs) (deprecates repr (hb_info old)) ->
  amend v algs bsize repr false ro old bags own inc exc version new = (new', Ok old') ->
  exists ms t2 h d, old_members old ms /\
    amend_lists repr false ro old bags own inc exc new = (h, Ok old') /\
    run_steps [reset_step td; clear_step td] t = Ok t2 /\ hb_tree h = t2 /\ hb_info h = init_info repr false old new /\
    hb_mem h = Some (last_ones (ms ++ map ab_member bags ++ [own name])) /\ table_ok h d /\
    (hb_lu h = None -> d = []) /\
    hb_name new' = name /\ hb_lu new' = hb_lu h /\ hb_mem new' = hb_mem h /\
    read (sjoin td F_members) (hb_tree new') = Some (fst (members_prefix (last_ones (ms ++ map ab_member bags ++ [own name])))) /\
    read (sjoin td F_lookup) (hb_tree new') = (match hb_lu h with Some d => Some (lookup_text d) | None => None end) /\
    run_steps (members_steps td (last_ones (ms ++ map ab_member bags ++ [own name])) ++ lookup_steps td (hb_lu h) ++
               info_steps v algs bsize (Some version) CURRENT_VERSION (hb_info h)) t2 = Ok (hb_tree new') /\
    forall r, exists i, tags_of r (hb_tree new') = Ok i /\ std_tags i td /\
      tag_values i T_HeadVersion = [version] /\ tag_values i T_HeadDeprecates = deprecates repr (hb_info old) /\
      tag_values i T_Version = [CURRENT_VERSION] /\ tag_values i T_Reference = [CURRENT_REFERENCE] /\ tag_values i T_TagDir = [td] /\
      tag_values i T_ISD = map (fun x => unfold_value r (one_line x)) (with_about (tag_values (hb_info new) T_ISD)) /\
      (forall k, ~ In k info_keys -> k <> T_HeadDeprecates ->
         tag_values i k = map (fun x => unfold_value r (one_line x)) (tag_values (hb_info new) k)).
Proof.
  intros B (i & Ti & En) D Td Tv Nv Vv Fd H.
  assert (Oi : info_ok Codecs (hb_info new)) by (subst new; apply (tags_of_ok _ _ _ Ti)).
  assert (Dt : NoDup (od_keys (hb_tree new))) by (subst new; exact D).
  pose proof (init_std repr old new td Td) as S0.
  destruct (amend_run _ _ _ _ _ _ _ _ _ _ _ _ _ _ _ _ S0 ltac:(subst; reflexivity) ltac:(subst; reflexivity) Dt H)
    as (_ & ms & t1 & t2 & h & d & Om & R1 & R2 & D2 & Sd & Hm & Tb & Al & W).
  assert (Et : hb_tree new = t) by (subst new; reflexivity). assert (Ena : hb_name new = name) by (subst new; reflexivity).
  rewrite add_all_last, Ena in Hm.
  destruct Sd as (Sn & St & _ & Si & Sr). cbn [hb_name hb_tree hb_info hb_reader set_tree set_info] in Sn, St, Si, Sr.
  exists ms, t2, h, d. split; [exact Om|]. split; [exact Al|]. split.
  { rewrite <- Et. rewrite run_cons, R1. cbn [bind]. rewrite run_cons, R2. reflexivity. }
  split; [exact St|]. split; [exact Si|]. split; [exact Hm|]. split; [exact Tb|].
  assert (D1 : NoDup (od_keys t1)).
  { unfold reset_step in R1. destruct (is_file _ _) eqn:F.
    - unfold remove_file in R1. rewrite F in R1. inversion R1; subst t1. apply od_del_NoDup; auto.
    - apply (ensure_step_other _ _ _ R1). auto. }
  destruct (clear_step_none _ _ _ D1 R2) as [Rn _].
  assert (S1 : std_tags (hb_info h) td) by (rewrite Si; exact S0).
  split.
  { intros L. destruct Tb as (C & _). unfold cur_table, disk_lookup in C. rewrite L in C.
    rewrite (missing_lookup h td S1) in C; [inversion C; reflexivity|]. rewrite St. exact Rn. }
  pose proof (write_all_eff _ _ _ _ _ _ _ Hm W) as X. cbv zeta in X. rewrite (std_tag_dir _ _ S1) in X.
  destruct X as (h1 & U1 & Ei & En1 & Em & El & Rs & Rm & Rl).
  assert (Pv : profile_version (hb_info h) = CURRENT_VERSION) by (unfold profile_version, required_info; rewrite Si, init_info_version; reflexivity).
  rewrite Pv in U1.
  assert (Oh : info_ok Codecs (hb_info h1)) by (rewrite Ei, Si; apply init_info_ok; auto).
  destruct (update_info_tags_read _ _ _ _ _ _ _ B Oh Nv Vv (plain_valueb_ok CURRENT_VERSION eq_refl) U1) as (N1 & M1 & L1 & Q & T).
  split; [congruence|]. split; [congruence|]. split; [congruence|].
  assert (Rd : forall q, ~ saved_file q -> read q (hb_tree new') = read q (hb_tree h1)) by (intros q Hq; unfold read; rewrite Q; auto).
  split; [rewrite Rd by (apply tagfile_not_saved; cbn; auto); exact Rm|].
  split.
  { rewrite Rd by (apply tagfile_not_saved; cbn; auto). rewrite Rl, St, Rn. reflexivity. }
  split.
  { rewrite app_assoc, run_app. rewrite <- St, Rs. cbn [bind]. rewrite <- Ei. apply update_info_run. exact U1. }
  intros r. destruct (T r) as (j & J1 & J2 & J3 & J4 & J5 & J6 & J7). exists j. split; [exact J1|].
  assert (Sj : tag_shape j).
  { unfold tags_of in J1. destruct (read (U "bag-info.txt") (hb_tree new')) as [c|]; [exact (Props_Restore3.load_shape _ _ _ J1)|]. injection J1 as <-. discriminate J2. }
  split.
  { split.
    - unfold tag_dir_raw. rewrite (J4 td); [reflexivity| |exact Tv]. rewrite Ei. apply S1.
    - unfold profile_version, required_info. rewrite (one_value _ _ _ Sj J3). reflexivity. }
  split; [exact J2|]. split.
  2: { split; [exact J3|]. split; [exact J6|]. split; [unfold tag_values; rewrite (J4 td); [reflexivity|rewrite Ei; apply S1|exact Tv]|]. rewrite J7, Ei, Si. split.
       - f_equal. f_equal. unfold tag_values. rewrite init_info_get by discriminate. reflexivity.
       - intros k K Kd. rewrite (J5 k K), Ei, Si. f_equal. unfold tag_values. cbn [info_keys In] in K.
         rewrite init_info_get by (intros ->; tauto). rewrite (proj2 (streq_neq k T_HeadDeprecates) Kd). destruct (od_get k (hb_info new)); reflexivity. }
  rewrite J5 by (cbn; intuition discriminate).
  assert (Ev : tag_values (hb_info h1) T_HeadDeprecates = deprecates repr (hb_info old)).
  { unfold tag_values. rewrite Ei, Si, init_info_get by discriminate. rewrite streq_refl. reflexivity. }
  rewrite Ev. apply read_plains. exact Fd.
Qed.

(** The member list as it is read again. *)
Lemma members_again r name t i td l : std_tags i td -> read (sjoin td F_members) t = Some (fst (members_prefix l)) ->
  Forall (storable_member r) l -> iter_member_bags (open_hb name t i r) = Ok l.
Proof.
  intros S R F. assert (L : Forall (legal_member r) l) by (eapply Forall_impl; [|exact F]; intros m [? ?]; auto).
  rewrite (iter_members_read (open_hb name t i r) td _ S R). cbn [hb_reader open_hb].
  rewrite (members_prefix_text r l L). cbn [fst]. rewrite decode_id by (apply members_text_no_bom; auto). apply members_text_parse; auto.
Qed.

(** The lookup as it is read again. *)
Lemma lookup_again r name t i td (lu : option (dict pystr)) p : std_tags i td ->
  read (sjoin td F_lookup) t = (match lu with Some d => Some (lookup_text d) | None => None end) ->
  (forall d, lu = Some d -> NoDup (od_keys d) /\ Forall (storable_entry r) d) ->
  snd (lookup_file p false (open_hb name t i r)) = Ok (match lu with Some d => od_get p d | None => None end).
Proof.
  intros S R F. destruct lu as [d|].
  - destruct (F d eq_refl) as [D St]. apply lookup_of_iter; auto.
    rewrite (iter_lookup_read (open_hb name t i r) td _ S R). cbn [hb_reader open_hb].
    rewrite decode_id by (apply lookup_text_no_bom; auto). apply lookup_roundtrip. apply Forall_storable_legal; auto.
  - apply (lookup_cur_table _ []). unfold cur_table, disk_lookup. cbn [hb_lu open_hb].
    rewrite (missing_lookup (open_hb name t i r) td S R). reflexivity.
Qed.

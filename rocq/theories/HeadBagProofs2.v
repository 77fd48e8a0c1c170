(** Member list, deleted list, update_for_member *)
Require Import String NArith Bool List Lia.
From Verif Require Import PyBase PyFacts Version Tsv TsvProofs Fs FsFacts HeadBag HeadBagProofs.
Import ListNotations.
Open Scope N_scope.

(** ** What a handle currently knows *)

(** The member list as seen through the handle. *)
Definition cur_members (h : hb) : res (list minfo) :=
  match hb_mem h with
  | Some l => Ok l
  | None => match iter_member_bags h with
            | Ok l => Ok l
            | Err EMissingFile => Ok []
            | Err e => Err e
            end
  end.

(** The lookup table as seen through the handle. *)
Definition cur_table (h : hb) : res (dict pystr) :=
  match hb_lu h with
  | Some d => Ok d
  | None => disk_lookup h
  end.

(** Everything except the caches is as before. *)
Definition same_disk (h h' : hb) : Prop :=
  hb_name h' = hb_name h /\ hb_tree h' = hb_tree h /\ hb_dinfo h' = hb_dinfo h /\
  hb_info h' = hb_info h /\ hb_reader h' = hb_reader h.

Lemma same_disk_refl h : same_disk h h.
Proof. unfold same_disk; auto. Qed.
Lemma same_disk_trans h1 h2 h3 : same_disk h1 h2 -> same_disk h2 h3 -> same_disk h1 h3.
Proof. unfold same_disk. intuition congruence. Qed.
Lemma same_disk_set_lu h x : same_disk h (set_lu h x).
Proof. unfold same_disk; auto. Qed.
Lemma same_disk_set_mem h x : same_disk h (set_mem h x).
Proof. unfold same_disk; auto. Qed.
Lemma same_disk_set_del h x : same_disk h (set_del h x).
Proof. unfold same_disk; auto. Qed.
#[global] Hint Resolve same_disk_refl same_disk_set_lu same_disk_set_mem same_disk_set_del : core.

Lemma same_disk_lookup h h' : same_disk h h' -> disk_lookup h' = disk_lookup h.
Proof.
  unfold same_disk. intros (_ & T & _ & I & R). unfold disk_lookup, iter_file_lookup.
  rewrite T, I, R. reflexivity.
Qed.

Lemma same_disk_members h h' : same_disk h h' -> iter_member_bags h' = iter_member_bags h.
Proof.
  unfold same_disk. intros (_ & T & _ & I & R). unfold iter_member_bags.
  rewrite T, I, R. reflexivity.
Qed.

(** Keys of a lookup table are never empty. *)
Definition nonempty_keys (d : dict pystr) : Prop := Forall (fun kv => fst kv <> []) d.

Lemma nonempty_keys_in d k : nonempty_keys d -> In k (od_keys d) -> k <> [].
Proof.
  unfold nonempty_keys, od_keys. rewrite Forall_forall, in_map_iff.
  intros H (kv & <- & I). auto.
Qed.

(** ** add_file_lookup and remove_file_lookup on the current table *)

Lemma add_lookup_effect p b h d :
  p <> [] -> b <> [] -> cur_table h = Ok d ->
  exists h', add_file_lookup p b h = (h', Ok tt) /\ hb_lu h' = Some (od_set p b d) /\
             same_disk h h' /\ hb_mem h' = hb_mem h /\ hb_del h' = hb_del h.
Proof.
  intros NP NB C. unfold add_file_lookup, cur_table in *.
  destruct p as [|c p]; [congruence|]. destruct b as [|c' b]; [congruence|].
  destruct (hb_lu h) as [d'|] eqn:E.
  - injection C as ->. eexists. split; [reflexivity|]. auto.
  - destruct (cache_cases h d C) as [-> |[-> ->]]; simpl; eexists; (split; [reflexivity|]); repeat split.
Qed.

Lemma remove_lookup_effect p h d :
  p <> [] -> cur_table h = Ok d -> NoDup (od_keys d) ->
  exists h', remove_file_lookup p h = (h', Ok tt) /\ cur_table h' = Ok (od_del p d) /\
             same_disk h h' /\ hb_mem h' = hb_mem h /\ hb_del h' = hb_del h /\
             (hb_lu h <> None -> hb_lu h' <> None).
Proof.
  intros NP C ND. unfold remove_file_lookup, cur_table in *.
  assert (E0 : forall d : dict pystr, (if od_has p d then od_del p d else d) = od_del p d).
  { intros d'. destruct (od_has p d') eqn:X; auto. symmetry. apply od_del_notin.
    apply od_has_false, od_get_none in X. auto. }
  destruct p as [|c p]; [congruence|].
  destruct (hb_lu h) as [d'|] eqn:E.
  - injection C as ->. eexists. split; [reflexivity|]. simpl. rewrite E0. repeat split. discriminate.
  - destruct (cache_cases h d C) as [-> |[-> ->]]; simpl.
    + eexists. split; [reflexivity|]. simpl. rewrite E0. repeat split. congruence.
    + exists h. split; [reflexivity|]. rewrite E. repeat split; auto.
Qed.

Lemma files_in_member_effect b h d :
  cur_table h = Ok d ->
  exists h', files_in_member b h = (h', Ok (files_of_member b d)) /\ cur_table h' = Ok d /\
             same_disk h h' /\ hb_mem h' = hb_mem h /\ hb_del h' = hb_del h.
Proof.
  intros C. unfold files_in_member, cur_table in *.
  destruct (hb_lu h) as [d'|] eqn:E.
  - injection C as ->. exists h. rewrite E. repeat split.
  - destruct (cache_cases h d C) as [K|[K ->]]; rewrite K; simpl.
    + eexists. split; [reflexivity|]. repeat split.
    + exists h. split; [reflexivity|]. rewrite E. repeat split; auto.
Qed.

(** files_in_member is the inverse of lookup_file (C10). *)
Lemma files_of_member_keys b d :
  NoDup (od_keys d) ->
  files_of_member b d = filter (fun p => match od_get p d with Some x => streq x b | None => false end) (od_keys d).
Proof.
  intros ND. unfold files_of_member, od_keys.
  assert (G : forall l : dict pystr, (forall k v, In (k, v) l -> od_get k d = Some v) ->
    map fst (filter (fun kv => streq (snd kv) b) l) =
    filter (fun p => match od_get p d with Some x => streq x b | None => false end) (map fst l)).
  { induction l as [|[k v] l IH]; simpl; intros H; auto.
    rewrite (H k v) by auto. destruct (streq v b); simpl; rewrite IH; auto. }
  apply G. intros. apply od_in_get; auto.
Qed.

Lemma files_of_member_iff b d p :
  NoDup (od_keys d) -> (In p (files_of_member b d) <-> od_get p d = Some b).
Proof.
  intros ND. rewrite files_of_member_keys by auto. rewrite filter_In. split.
  - intros [_ H]. destruct (od_get p d); [|discriminate]. apply streq_eq in H. congruence.
  - intros H. split; [eapply od_get_some_key; eauto|]. rewrite H. apply streq_refl.
Qed.

(** ** remove_member_bag *)

Definition drop_member (b : pystr) (l : list minfo) : list minfo :=
  filter (fun m => negb (streq (m_name m) b)) l.
Definition drop_files (b : pystr) (d : dict pystr) : dict pystr :=
  filter (fun kv => negb (streq (snd kv) b)) d.

(** Removing every file of the bag one by one filters the table. *)
Lemma del_all_files b (d : dict pystr) :
  NoDup (od_keys d) -> fold_left (fun d f => od_del f d) (files_of_member b d) d = drop_files b d.
Proof.
  assert (G : forall fs (k : pystr) v (d : dict pystr), ~ In k fs ->
             fold_left (fun d f => od_del f d) fs ((k, v) :: d) =
             (k, v) :: fold_left (fun d f => od_del f d) fs d).
  { induction fs as [|f fs IH]; intros k v d0 NI; auto. cbn [fold_left od_del].
    destruct (streq_reflect f k) as [->|]; [simpl in NI; tauto|]. rewrite IH by (simpl in NI; tauto).
    reflexivity. }
  induction d as [|[k v] d IH]; simpl; intros ND; auto. inversion ND as [|? ? NI ND']; subst.
  unfold files_of_member, drop_files. simpl. destruct (streq v b) eqn:E; cbn [negb map fst].
  - cbn [fold_left]. simpl od_del at 2. cbn [od_del]. rewrite streq_refl. apply IH; auto.
  - rewrite G.
    + f_equal. apply IH; auto.
    + intros I. apply NI. apply in_map_iff in I as (kv & <- & I). apply filter_In in I as [I _].
      apply in_map; auto.
Qed.

Definition del_default (h : hb) : list pystr := match hb_del h with Some d => d | None => [] end.

Lemma forM_remove fs h d :
  cur_table h = Ok d -> NoDup (od_keys d) -> Forall (fun f => f <> []) fs ->
  exists h', forM fs (fun f => unset_deleted f ;; remove_file_lookup f) h = (h', Ok tt) /\
    cur_table h' = Ok (fold_left (fun d f => od_del f d) fs d) /\
    same_disk h h' /\ hb_mem h' = hb_mem h /\
    hb_del h' = match fs with [] => hb_del h
                | _ => Some (filter (fun p => negb (str_in p fs)) (del_default h)) end.
Proof.
  revert h d; induction fs as [|f fs IH]; intros h d C ND F.
  - exists h. repeat split; auto.
  - inversion F as [|? ? NF F']; subst. cbn [forM].
    set (h0 := set_del h (Some (set_remove f (del_default h)))).
    assert (C0 : cur_table h0 = Ok d) by exact C.
    destruct (remove_lookup_effect f h0 d NF C0 ND) as (h1 & R1 & C1 & S1 & M1 & D1 & _).
    destruct (IH h1 _ C1 (od_del_NoDup f d ND) F') as (h2 & R2 & C2 & S2 & M2 & D2).
    exists h2. split; [|split; [|split; [|split]]].
    + unfold bindM at 1. unfold bindM at 1. unfold unset_deleted at 1.
      change (match hb_del h with Some d => d | None => [] end) with (del_default h).
      fold h0. rewrite R1. exact R2.
    + exact C2.
    + eapply same_disk_trans; [|exact S2]. eapply same_disk_trans; [|exact S1]. unfold h0; auto.
    + rewrite M2, M1. reflexivity.
    + rewrite D2. assert (DD : del_default h1 = set_remove f (del_default h)).
      { unfold del_default at 1. rewrite D1. reflexivity. }
      assert (FF : forall l gs, filter (fun p => negb (str_in p gs)) (set_remove f l) =
                   filter (fun p => negb (str_in p (f :: gs))) l).
      { intros l gs. unfold set_remove. induction l as [|x l IHl]; [reflexivity|].
        cbn [filter]. change (str_in x (f :: gs)) with (streq x f || str_in x gs).
        rewrite (streq_sym x f). destruct (streq f x); cbn [negb filter orb]; rewrite IHl; reflexivity. }
      destruct fs as [|g fs].
      * rewrite D1. unfold h0. etransitivity; [|exact (f_equal Some (FF (del_default h) []))].
        cbn [hb_del set_del]. f_equal. generalize (set_remove f (del_default h)) as l.
        induction l as [|x l IHl]; [reflexivity|]. cbn. f_equal. exact IHl.
      * rewrite DD. exact (f_equal Some (FF (del_default h) (g :: fs))).
Qed.

Lemma remove_member_effect b h d :
  cur_table h = Ok d -> NoDup (od_keys d) -> nonempty_keys d ->
  exists h', remove_member_bag b h = (h', Ok tt) /\
    hb_mem h' = option_map (drop_member b) (hb_mem h) /\
    cur_table h' = Ok (drop_files b d) /\ same_disk h h' /\
    hb_del h' = match files_of_member b d with [] => hb_del h
                | fs => Some (filter (fun p => negb (str_in p fs)) (del_default h)) end.
Proof.
  intros C ND NE. unfold remove_member_bag.
  set (h0 := match hb_mem h with Some l => set_mem h (Some (filter (fun m => negb (streq (m_name m) b)) l)) | None => h end).
  assert (C0 : cur_table h0 = Ok d) by (unfold h0; destruct (hb_mem h); exact C).
  assert (S0 : same_disk h h0) by (unfold h0; destruct (hb_mem h); auto).
  assert (M0 : hb_mem h0 = option_map (drop_member b) (hb_mem h)) by (unfold h0; destruct (hb_mem h) eqn:E; simpl; auto).
  assert (D0 : hb_del h0 = hb_del h) by (unfold h0; destruct (hb_mem h); reflexivity).
  destruct (files_in_member_effect b h0 d C0) as (h1 & R1 & C1 & S1 & M1 & D1).
  assert (F : Forall (fun f => f <> []) (files_of_member b d)).
  { apply Forall_forall. intros f I. apply files_of_member_iff in I; auto.
    eapply nonempty_keys_in; eauto. eapply od_get_some_key; eauto. }
  destruct (forM_remove (files_of_member b d) h1 d C1 ND F) as (h2 & R2 & C2 & S2 & M2 & D2).
  exists h2. split; [|split; [|split; [|split]]].
  - unfold bindM at 1. rewrite R1. exact R2.
  - congruence.
  - rewrite C2, del_all_files; auto.
  - eapply same_disk_trans; [exact S0|]. eapply same_disk_trans; eauto.
  - rewrite D2. unfold del_default. rewrite D1, D0. destruct (files_of_member b d); reflexivity.
Qed.

(** ** add_member_bag (C07) *)

Lemma add_member_effect m h l d :
  cur_members h = Ok l -> cur_table h = Ok d -> NoDup (od_keys d) -> nonempty_keys d ->
  exists h', add_member_bag m true h = (h', Ok tt) /\
    hb_mem h' = Some (drop_member (m_name m) l ++ [m]) /\
    cur_table h' = Ok (drop_files (m_name m) d) /\ same_disk h h'.
Proof.
  intros L C ND NE. unfold add_member_bag.
  assert (H1 : exists h1, (fun h => match hb_mem h with
      | Some _ => (h, Ok tt)
      | None => (do _ <- member_bags false ; retM tt) h end) h = (h1, Ok tt) /\
      same_disk h h1 /\ hb_lu h1 = hb_lu h /\ hb_del h1 = hb_del h /\
      match hb_mem h1 with None => [] | Some l => l end = l).
  { unfold cur_members in L. destruct (hb_mem h) as [l0|] eqn:E.
    - exists h. rewrite E. repeat split; congruence.
    - unfold bindM, member_bags, member_bags_ro. rewrite E.
      destruct (iter_member_bags h) as [l0|e].
      + injection L as ->. eexists. split; [reflexivity|]. repeat split.
      + destruct e; try discriminate. injection L as <-. exists h. rewrite E. repeat split. }
  destruct H1 as (h1 & R1 & S1 & L1 & D1 & M1).
  set (h2 := match hb_mem h1 with None => set_mem h1 (Some []) | Some _ => h1 end).
  assert (M2 : hb_mem h2 = Some l) by (unfold h2; destruct (hb_mem h1) eqn:E; simpl; congruence).
  assert (S2 : same_disk h h2).
  { eapply same_disk_trans; [exact S1|]. unfold h2; destruct (hb_mem h1); auto. }
  assert (C2 : cur_table h2 = Ok d).
  { unfold cur_table in *. assert (EL : hb_lu h2 = hb_lu h) by (unfold h2; destruct (hb_mem h1); auto).
    rewrite EL. rewrite (same_disk_lookup h h2 S2). exact C. }
  destruct (remove_member_effect (m_name m) h2 d C2 ND NE) as (h3 & R3 & M3 & C3 & S3 & _).
  rewrite M2 in M3. simpl in M3.
  exists (set_mem h3 (Some (drop_member (m_name m) l ++ [m]))). split; [|split; [|split]].
  - unfold bindM at 1. rewrite R1. unfold bindM at 1. fold h2. unfold bindM at 1. rewrite R3.
    rewrite M3. reflexivity.
  - reflexivity.
  - exact C3.
  - eapply same_disk_trans; [exact S2|]. eapply same_disk_trans; [exact S3|]. auto.
Qed.

Lemma drop_files_NoDup b d : NoDup (od_keys d) -> NoDup (od_keys (drop_files b d)).
Proof. apply NoDup_map_filter. Qed.
Lemma drop_files_nonempty b d : nonempty_keys d -> nonempty_keys (drop_files b d).
Proof.
  unfold nonempty_keys, drop_files. rewrite !Forall_forall. intros H x I. apply filter_In in I as [I _]. auto.
Qed.

Lemma drop_files_get b (d : dict pystr) p :
  NoDup (od_keys d) ->
  od_get p (drop_files b d) = match od_get p d with
                              | Some x => if streq x b then None else Some x
                              | None => None end.
Proof.
  induction d as [|[k v] d IH]; simpl; intros ND; auto. inversion ND as [|? ? NI ND']; subst.
  destruct (streq v b) eqn:E; simpl.
  - destruct (streq_reflect p k) as [->|]; [|apply IH; auto].
    rewrite E. apply od_get_none. intros I. apply NI.
    apply in_map_iff in I as (kv & <- & I). apply filter_In in I as [I _]. apply in_map; auto.
  - destruct (streq p k); [rewrite E; reflexivity|apply IH; auto].
Qed.

(** Sequences of additions. Specification on names: a bag added again moves
    to the end. *)
Definition names (l : list minfo) : list pystr := map m_name l.

Definition add_names (l : list pystr) (ns : list pystr) : list pystr :=
  fold_left (fun l n => filter (fun x => negb (streq x n)) l ++ [n]) ns l.

Lemma names_drop b l : names (drop_member b l) = filter (fun x => negb (streq x b)) (names l).
Proof. induction l as [|m l IH]; simpl; auto. destruct (streq (m_name m) b); simpl; congruence. Qed.

Lemma add_members_effect ms h l d :
  cur_members h = Ok l -> cur_table h = Ok d -> NoDup (od_keys d) -> nonempty_keys d ->
  exists h' l', forM ms (fun m => add_member_bag m true) h = (h', Ok tt) /\
    cur_members h' = Ok l' /\ names l' = add_names (names l) (map m_name ms) /\ same_disk h h'.
Proof.
  revert h l d; induction ms as [|m ms IH]; intros h l d L C ND NE.
  - exists h, l. repeat split; auto.
  - destruct (add_member_effect m h l d L C ND NE) as (h1 & R1 & M1 & C1 & S1).
    destruct (IH h1 (drop_member (m_name m) l ++ [m]) (drop_files (m_name m) d)) as (h2 & l2 & R2 & L2 & N2 & S2).
    + unfold cur_members. rewrite M1. reflexivity.
    + exact C1.
    + apply drop_files_NoDup; auto.
    + apply drop_files_nonempty; auto.
    + exists h2, l2. split; [|split; [|split]].
      * cbn [forM]. unfold bindM. rewrite R1. exact R2.
      * exact L2.
      * rewrite N2. cbn [map]. unfold add_names. cbn [fold_left]. f_equal.
        rewrite <- names_drop. unfold names. rewrite map_app. reflexivity.
      * eapply same_disk_trans; eauto.
Qed.

Lemma add_names_NoDup ns l : NoDup l -> NoDup (add_names l ns).
Proof.
  revert l; induction ns as [|n ns IH]; intros l ND; [exact ND|].
  cbn [add_names fold_left]. apply IH. apply NoDup_snoc.
  - apply NoDup_filter; auto.
  - intros I. apply filter_In in I as [_ I]. rewrite streq_refl in I. discriminate.
Qed.

Lemma add_names_last ns n l : exists l', add_names l (ns ++ [n]) = l' ++ [n].
Proof.
  unfold add_names. rewrite fold_left_app. simpl. eauto.
Qed.

(** The bags not added again keep their relative order in front. *)
Lemma filter_filter {A} (f g : A -> bool) l :
  filter f (filter g l) = filter (fun x => g x && f x) l.
Proof.
  induction l as [|x l IH]; [reflexivity|]. simpl. destruct (g x); simpl; rewrite IH; reflexivity.
Qed.

Lemma add_names_others ns l :
  filter (fun x => negb (str_in x ns)) (add_names l ns) = filter (fun x => negb (str_in x ns)) l.
Proof.
  revert l; induction ns as [|n ns IH]; intros l; [reflexivity|].
  assert (G : forall l', filter (fun x => negb (str_in x (n :: ns))) l' =
              filter (fun x => negb (streq x n)) (filter (fun x => negb (str_in x ns)) l')).
  { intros l'. rewrite filter_filter. apply filter_ext. intros x.
    change (str_in x (n :: ns)) with (streq x n || str_in x ns).
    rewrite negb_orb. apply andb_comm. }
  rewrite !G. unfold add_names in *. cbn [fold_left]. rewrite IH, filter_app, filter_app.
  rewrite !filter_filter.
  assert (Z : filter (fun x => negb (str_in x ns) && negb (streq x n)) [n] = []).
  { cbn [filter]. rewrite streq_refl. cbn. rewrite andb_false_r. reflexivity. }
  rewrite Z, app_nil_r. apply filter_ext. intros x.
  destruct (streq x n), (str_in x ns); reflexivity.
Qed.

(** ** Saving all three files (C08) *)

(** A member that reader [r] reads back. *)
Definition storable_member (r : reader) (m : minfo) : Prop :=
  legal_member r m /\ no_bom r (m_name m).

Lemma members_text_no_bom r l :
  Forall (storable_member r) l -> no_bom r (flat_map (fun m => member_body m ++ [LF]) l).
Proof.
  intros F. destruct l as [|m l]; [destruct r; exact I|]. inversion F as [|? ? [L B] _]; subst.
  simpl. unfold member_body. rewrite <- !app_assoc. apply no_bom_app; auto.
  destruct L as [[[T _] _] _]. apply trimmed_nonempty; auto.
Qed.

Lemma members_prefix_text r l :
  Forall (legal_member r) l ->
  members_prefix l = (flat_map (fun m => member_body m ++ [LF]) l, Ok tt).
Proof.
  induction 1 as [|m l L F IH]; simpl; auto.
  rewrite (format_member_body r m L), IH. reflexivity.
Qed.

Lemma members_text_parse r l :
  Forall (legal_member r) l ->
  parse_file r parse_member_03 (flat_map (fun m => member_body m ++ [LF]) l) = Ok l.
Proof.
  intros F. destruct (members_roundtrip r l F) as (t & E & P).
  rewrite (members_text_body r l F) in E. injection E as <-. exact P.
Qed.

Lemma save_members_ok h h' l :
  hb_mem h = Some l -> save_member_bags h = (h', Ok tt) ->
  exists t', h' = set_tree h t' /\
    read (sjoin (tag_dir (hb_info h)) F_members) t' = Some (fst (members_prefix l)) /\
    (forall q, q <> sjoin (tag_dir (hb_info h)) F_members -> read q t' = read q (hb_tree h)).
Proof.
  unfold save_member_bags. intros ->. intros H.
  unfold bindM at 1 in H. destruct (ensure_tagdir h) as [h1 [[]|]] eqn:E1; [|discriminate].
  unfold bindM at 1 in H. destruct (put_file _ _ h1) as [h2 [[]|]] eqn:E2; [|discriminate].
  injection H as <- _. apply ensure_put_ok. apply bindM_ok. eauto.
Qed.

Lemma members_saved_read_back r h h' td l :
  hb_mem h = Some l -> Forall (storable_member r) l ->
  std_tags (hb_info h) td -> std_tags (hb_dinfo h) td ->
  save_member_bags h = (h', Ok tt) ->
  iter_member_bags (reopen r h') = Ok l.
Proof.
  intros L F S S' H. destruct (save_members_ok _ _ _ L H) as (t' & -> & R & _).
  rewrite (std_tag_dir _ _ S) in R.
  assert (FL : Forall (legal_member r) l) by (eapply Forall_impl; [|exact F]; intros m [K _]; exact K).
  rewrite (members_prefix_text r l FL) in R. simpl in R.
  rewrite (iter_members_read (reopen r (set_tree h t')) td _ S' R). simpl.
  rewrite decode_id by (apply members_text_no_bom; auto). apply members_text_parse; auto.
Qed.

Lemma save_deleted_ok h h' :
  save_deleted h = (h', Ok tt) ->
  NoDup (od_keys (hb_tree h)) ->
  exists t', h' = set_tree h t' /\
    (forall l, hb_del h = Some l -> read (sjoin (tag_dir (hb_info h)) F_deleted) t' = Some (deleted_text l)) /\
    (forall q, q <> sjoin (tag_dir (hb_info h)) F_deleted -> read q t' = read q (hb_tree h)).
Proof.
  unfold save_deleted. intros H ND. destruct (hb_del h) as [l|] eqn:E.
  - set (p := sjoin (tag_dir (hb_info h)) F_deleted) in *.
    unfold bindM at 1 in H.
    assert (G : exists t0, (match l with
        | [] => if exists_ p (hb_tree h)
                then match remove_file p (hb_tree h) with
                     | Ok t => (set_tree h t, Ok tt)
                     | Err e => (h, Err e) end
                else (h, Ok tt)
        | _ :: _ => (h, Ok tt) end) = (set_tree h t0, Ok tt) /\
        forall q, q <> p -> read q t0 = read q (hb_tree h)).
    { destruct l as [|x l].
      - destruct (exists_ p (hb_tree h)) eqn:X.
        + unfold remove_file in *. destruct (is_file p (hb_tree h)) eqn:Y; [|discriminate].
          exists (od_del p (hb_tree h)). split; auto. intros q N. unfold read.
          rewrite od_get_del_other; auto.
        + exists (hb_tree h). rewrite set_tree_id. auto.
      - exists (hb_tree h). rewrite set_tree_id. auto. }
    destruct G as (t0 & G & R0). rewrite G in H.
    change (tag_dir (hb_info h)) with (tag_dir (hb_info (set_tree h t0))) in p.
    apply ensure_put_ok in H as (t' & -> & R & R'). exists t'. split; [reflexivity|]. split.
    + intros l0 E0. injection E0 as <-. exact R.
    + intros q N. rewrite R' by auto. apply R0; auto.
  - injection H as <-. exists (hb_tree h). rewrite set_tree_id. repeat split; auto. discriminate.
Qed.

Lemma F_distinct td f g : f <> g -> sjoin td f <> sjoin td g.
Proof. intros N E. apply N. unfold sjoin in E. apply app_inv_head in E. injection E; auto. Qed.

Lemma storable_drop r b l : Forall (storable_member r) l -> Forall (storable_member r) (drop_member b l).
Proof. rewrite !Forall_forall. intros H x I. apply filter_In in I as [I _]. auto. Qed.

Lemma table_drop r b d : wf_table r d -> wf_table r (drop_files b d).
Proof.
  intros [ND F]. split; [apply drop_files_NoDup; auto|]. rewrite Forall_forall in *.
  intros x I. apply filter_In in I as [I _]. auto.
Qed.

Lemma wf_table_nonempty r d : wf_table r d -> nonempty_keys d.
Proof.
  intros [_ F]. unfold nonempty_keys. eapply Forall_impl; [|exact F].
  intros kv [S _]. eapply storable_nonempty; eauto.
Qed.

Lemma ensure_put_keys p c h h' :
  (ensure_tagdir ;; put_file p c) h = (h', Ok tt) -> NoDup (od_keys (hb_tree h)) -> NoDup (od_keys (hb_tree h')).
Proof.
  intros H ND. apply bindM_ok in H as ([] & h1 & H1 & H2).
  assert (N1 : NoDup (od_keys (hb_tree h1))).
  { unfold ensure_tagdir in H1. destruct (exists_ _ _); [congruence|].
    destruct (mkdir _ _) as [t|] eqn:K; [|discriminate]. apply mkdir_ok in K.
    injection H1 as <-. simpl. rewrite K. apply od_set_NoDup; auto. }
  unfold put_file in H2. destruct (write_file p c (hb_tree h1)) as [t|] eqn:W; [|discriminate].
  apply write_file_ok in W. injection H2 as <-. simpl. rewrite W. apply od_set_NoDup; auto.
Qed.

Lemma remove_member_saved r h h' td l d b :
  hb_mem h = Some l -> cur_table h = Ok d -> wf_table r d -> Forall (storable_member r) l ->
  std_tags (hb_info h) td -> std_tags (hb_dinfo h) td -> NoDup (od_keys (hb_tree h)) ->
  hb_reader h = r ->
  (remove_member_bag b ;; save_member_bags ;; save_file_lookup ;; save_deleted) h = (h', Ok tt) ->
  iter_member_bags (reopen r h') = Ok (drop_member b l) /\
  disk_lookup (reopen r h') = Ok (drop_files b d).
Proof.
  intros L C W F S S' ND RR H.
  destruct (remove_member_effect b h d C (proj1 W) (wf_table_nonempty _ _ W))
    as (h1 & R1 & M1 & C1 & SD & _).
  rewrite L in M1. simpl in M1.
  unfold bindM at 1 in H. rewrite R1 in H.
  unfold bindM at 1 in H. destruct (save_member_bags h1) as [h2 [[]|]] eqn:E2; [|discriminate].
  unfold bindM at 1 in H. destruct (save_file_lookup h2) as [h3 [[]|]] eqn:E3; [|discriminate].
  destruct SD as (_ & T1 & DI1 & I1 & Rd1).
  assert (S1 : std_tags (hb_info h1) td) by (rewrite I1; auto).
  assert (S1' : std_tags (hb_dinfo h1) td) by (rewrite DI1; auto).
  pose proof (std_tag_dir _ _ S1) as TD.
  assert (FD : Forall (legal_member r) (drop_member b l)).
  { eapply Forall_impl; [|apply storable_drop; exact F]. intros m [K _]; exact K. }
  destruct (save_members_ok _ _ _ M1 E2) as (t2 & -> & Rm & Ro2). rewrite TD in *.
  rewrite (members_prefix_text r _ FD) in Rm. simpl fst in Rm.
  assert (ND2 : NoDup (od_keys t2)).
  { unfold save_member_bags in E2. rewrite M1 in E2.
    unfold bindM at 1 in E2. destruct (ensure_tagdir h1) as [h5 [[]|]] eqn:E5; [|discriminate].
    unfold bindM at 1 in E2. destruct (put_file _ _ h5) as [h6 [[]|]] eqn:E6; [|discriminate].
    injection E2 as E2 _.
    assert (K : NoDup (od_keys (hb_tree h6))).
    { eapply ensure_put_keys with (h := h1); [apply bindM_ok; eauto|]. rewrite T1; auto. }
    rewrite E2 in K. exact K. }
  (* the lookup file *)
  assert (G3 : exists t3, h3 = set_tree h1 t3 /\ NoDup (od_keys t3) /\
     (forall q, q <> sjoin td F_lookup -> read q t3 = read q t2) /\
     match hb_lu h1 with
     | Some d1 => read (sjoin td F_lookup) t3 = Some (lookup_text d1)
     | None => t3 = t2
     end).
  { unfold save_file_lookup in E3. simpl hb_lu in E3. destruct (hb_lu h1) as [d1|].
    - pose proof (ensure_put_keys _ _ _ _ E3 ND2) as ND3.
      apply ensure_put_ok in E3 as (t3 & -> & Rl & Ro3). simpl in *. rewrite TD in *.
      exists t3. repeat split; auto.
    - injection E3 as <-. exists t2. repeat split; auto. }
  destruct G3 as (t3 & -> & ND3 & Ro3 & G3).
  destruct (save_deleted_ok _ _ H ND3) as (t4 & -> & _ & Ro4). simpl in Ro4. rewrite TD in *.
  assert (Rm4 : read (sjoin td F_members) t4 = Some (flat_map (fun m => member_body m ++ [LF]) (drop_member b l))).
  { rewrite Ro4, Ro3 by (apply F_distinct; discriminate). exact Rm. }
  assert (Rl4 : read (sjoin td F_lookup) t4 = read (sjoin td F_lookup) t3).
  { rewrite Ro4 by (apply F_distinct; discriminate). reflexivity. }
  split.
  - rewrite (iter_members_read (reopen r (set_tree (set_tree h1 t3) t4)) td _ S1' Rm4). simpl.
    rewrite decode_id by (apply members_text_no_bom, storable_drop; auto).
    apply members_text_parse; auto.
  - unfold cur_table in C1. destruct (hb_lu h1) as [d1|] eqn:EL.
    + injection C1 as ->. destruct (table_drop r b d W) as [NDd Fd].
      unfold disk_lookup. rewrite (iter_lookup_read (reopen r (set_tree (set_tree h1 t3) t4)) td (lookup_text (drop_files b d)) S1').
      * simpl. rewrite decode_id by (apply lookup_text_no_bom; auto).
        rewrite lookup_roundtrip by (apply Forall_storable_legal; auto).
        rewrite od_of_pairs_id by auto. reflexivity.
      * simpl. rewrite Rl4. exact G3.
    + subst t3. rewrite <- C1. unfold disk_lookup, iter_file_lookup. simpl.
      destruct S1' as [A1 A2], S1 as [B1 B2]. rewrite A1, A2, B1, B2. simpl.
      rewrite Rl4, Ro2 by (apply F_distinct; discriminate). rewrite Rd1, RR. reflexivity.
Qed.

(** ** Deleted paths (C09) *)

Definition storable_path (r : reader) (p : pystr) : Prop :=
  trimmed p /\ no_brk r p /\ no_bom r p.

Lemma deleted_text_no_bom' r l : Forall (storable_path r) l -> no_bom r (deleted_text l).
Proof.
  intros F. destruct l as [|p l]; [destruct r; exact I|]. inversion F as [|? ? S _]; subst.
  destruct S as (T & _ & B). simpl. rewrite <- app_assoc.
  apply no_bom_app; auto. apply trimmed_nonempty; auto.
Qed.

Lemma deleted_saved_read_back r h h' l :
  hb_del h = Some l -> Forall (storable_path r) l ->
  tag_dir (hb_dinfo h) = tag_dir (hb_info h) -> NoDup (od_keys (hb_tree h)) ->
  save_deleted h = (h', Ok tt) ->
  iter_deleted (reopen r h') = Ok l.
Proof.
  intros L F S ND H. destruct (save_deleted_ok _ _ H ND) as (t' & -> & R & _).
  specialize (R l L). unfold iter_deleted, reopen. simpl. rewrite S, R.
  rewrite decode_id by (apply deleted_text_no_bom'; auto).
  rewrite deleted_roundtrip; auto. eapply Forall_impl; [|exact F]. intros p (A & B & _); auto.
Qed.

Lemma Forall_set_add (P : pystr -> Prop) p l : P p -> Forall P l -> Forall P (set_add p l).
Proof.
  intros Hp F. unfold set_add. destruct (str_in p l); auto. apply Forall_app. auto.
Qed.

Lemma Forall_set_remove (P : pystr -> Prop) p l : Forall P l -> Forall P (set_remove p l).
Proof. rewrite !Forall_forall. intros F x I. apply filter_In in I as [I _]. auto. Qed.

Lemma set_deleted_saved r h h' l p :
  hb_del h = Some l -> Forall (storable_path r) (p :: l) ->
  tag_dir (hb_dinfo h) = tag_dir (hb_info h) -> NoDup (od_keys (hb_tree h)) ->
  (set_deleted p ;; save_deleted) h = (h', Ok tt) ->
  exists l', iter_deleted (reopen r h') = Ok l' /\ forall q, In q l' <-> q = p \/ In q l.
Proof.
  intros L F S ND H. inversion F as [|? ? Fp Fl]; subst.
  unfold bindM, set_deleted in H. rewrite L in H.
  exists (set_add p l). split; [|intros q; apply in_set_add].
  apply (deleted_saved_read_back r (set_del h (Some (set_add p l))) h' (set_add p l)); auto using Forall_set_add.
Qed.

Lemma unset_deleted_saved r h h' l p :
  hb_del h = Some l -> Forall (storable_path r) l ->
  tag_dir (hb_dinfo h) = tag_dir (hb_info h) -> NoDup (od_keys (hb_tree h)) ->
  (unset_deleted p ;; save_deleted) h = (h', Ok tt) ->
  exists l', iter_deleted (reopen r h') = Ok l' /\ forall q, In q l' <-> q <> p /\ In q l.
Proof.
  intros L F S ND H.
  unfold bindM, unset_deleted in H. rewrite L in H.
  exists (set_remove p l). split; [|intros q; apply in_set_remove].
  apply (deleted_saved_read_back r (set_del h (Some (set_remove p l))) h' (set_remove p l)); auto using Forall_set_remove.
Qed.

(** On a fresh handle, calling deleted_paths() first makes it right. *)
Lemma set_deleted_after_read r h h' l p :
  hb_del h = None -> iter_deleted h = Ok l -> Forall (storable_path r) (p :: l) ->
  tag_dir (hb_dinfo h) = tag_dir (hb_info h) -> NoDup (od_keys (hb_tree h)) ->
  (deleted_paths false ;; set_deleted p ;; save_deleted) h = (h', Ok tt) ->
  exists l', iter_deleted (reopen r h') = Ok l' /\ forall q, In q l' <-> q = p \/ In q l.
Proof.
  intros L I F S ND H. unfold bindM at 1, deleted_paths in H. rewrite L, I in H.
  inversion F as [|? ? Fp Fl]; subst.
  destruct (set_deleted_saved r (set_del h (Some (set_of l))) h' (set_of l) p) as (l' & A & B); auto.
  - constructor; auto. rewrite Forall_forall in *. intros x Hx. apply Fl, in_set_of; auto.
  - exists l'. split; auto. intros q. rewrite B, in_set_of. tauto.
Qed.

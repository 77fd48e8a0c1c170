(** The files of a head bag after an amendment *)
Require Import String NArith PeanoNat Bool List Lia.
From Verif Require Import PyBase PyFacts Version Tsv TsvProofs Fs FsFacts HeadBag HeadBagProofs HeadBagProofs2 HeadBagProofs3 BagIt BagItProofs Split SplitApply SplitApplyProofs SplitApplyProofs5 Restore RestoreProofs RestoreProofs6 Props_SplitApply Props_Restore3 Amend AmendProofs.
Import ListNotations.
Open Scope N_scope.

(** ** Tags *)

Lemma info_ok_put r k v i : info_ok r i -> tag_name_ok r k -> vals_of v <> [] -> Forall (value_ok r) (vals_of v) ->
  info_ok r (od_set k v i).
Proof.
  intros [D O] Hk Hn Hv. split; [apply od_set_NoDup; auto|]. intros k' v' I.
  assert (G : Forall (fun kv => tag_name_ok r (fst kv) /\ vals_of (snd kv) <> [] /\ Forall (value_ok r) (vals_of (snd kv)))
                (od_set k v i)).
  { apply od_set_Forall.
    - intros k0 E. apply streq_eq in E. subst. cbn [fst snd]. auto.
    - apply Forall_forall. intros [k0 v0] I0. cbn [fst snd]. apply O; auto. }
  rewrite Forall_forall in G. exact (G _ I).
Qed.

Lemma info_ok_vals r i k : info_ok r i -> Forall (value_ok r) (tag_values i k).
Proof.
  intros [_ O]. unfold tag_values. destruct (od_get k i) as [w|] eqn:E; [|constructor]. apply od_get_in in E. apply O in E.
  destruct E as (_ & _ & E). destruct w; exact E.
Qed.

Lemma value_ok_plain r x : tag_value_ok r x -> value_ok r x.
Proof. intros H. split; [apply H|]. apply plain_folded. exact H. Qed.

Definition plain_valueb (s : pystr) : bool := trimmedb s && forallb (fun c => negb (is_brk Codecs c)) s.
Lemma plain_valueb_ok s : plain_valueb s = true -> tag_value_ok Codecs s.
Proof.
  intros H. apply andb_true_iff in H. destruct H as [A B]. split; [right; apply trimmedb_ok; auto|]. apply no_brk_b. exact B.
Qed.

Lemma lit_name k : trimmedb k = true -> existsb (N.eqb COLON) k = false -> forallb (fun c => negb (is_brk Codecs c)) k = true ->
  tag_name_ok Codecs k.
Proof.
  intros A B C. split; [apply trimmedb_ok; auto|]. split.
  - intros I. assert (E : existsb (N.eqb COLON) k = true) by (apply existsb_exists; exists COLON; split; [exact I|apply N.eqb_refl]). congruence.
  - apply no_brk_b. exact C.
Qed.

Lemma read_plain r x : tag_value_ok Codecs x -> unfold_value r (one_line x) = x.
Proof.
  intros [T B]. rewrite one_line_plain by (apply no_brk_any; auto). apply plain_folded. split; [exact T|]. apply no_brk_any; auto.
Qed.

Lemma read_plains r l : Forall (tag_value_ok Codecs) l -> map (fun x => unfold_value r (one_line x)) l = l.
Proof. induction 1 as [|x l H _ IH]; [reflexivity|]. cbn [map]. rewrite IH, read_plain; auto. Qed.

Lemma one_value d k x : tag_shape d -> tag_values d k = [x] -> od_get k d = Some (IStr x).
Proof.
  intros S E. unfold tag_values in E. destruct (od_get k d) as [[s|l]|] eqn:G.
  - inversion E; subst. reflexivity.
  - subst l. apply S in G. cbn in G. lia.
  - discriminate.
Qed.

(** The tags that update_info changes. *)
Definition info_keys : list pystr := [T_Version; T_HeadVersion; T_TagDir; T_Reference; T_ISD; T_BagCount; T_BagSize].

Lemma setdefault_ok r k v i : info_ok r i -> tag_name_ok r k -> vals_of v <> [] -> Forall (value_ok r) (vals_of v) ->
  info_ok r (od_setdefault k v i).
Proof. intros. unfold od_setdefault. destruct (od_has k i); [auto|apply info_ok_put; auto]. Qed.

Lemma update_tags_ok version profver i : info_ok Codecs i -> tag_value_ok Codecs version -> tag_value_ok Codecs profver ->
  info_ok Codecs (update_info_tags (Some version) profver i).
Proof.
  intros O Hv Hp. unfold update_info_tags. cbv zeta. apply info_ok_del, info_ok_del.
  assert (L : forall x, tag_value_ok Codecs x -> vals_of (IStr x) <> [] /\ Forall (value_ok Codecs) (vals_of (IStr x))).
  { intros x Hx. split; [discriminate|]. constructor; [|constructor]. apply value_ok_plain; auto. }
  match goal with |- info_ok _ (match od_get T_ISD ?x with _ => _ end) => assert (O5 : info_ok Codecs x); [|revert O5; generalize x; clear i O] end.
  { apply info_ok_put; [|apply lit_name; reflexivity|apply L|apply L]; try (apply plain_valueb_ok; reflexivity).
    apply setdefault_ok; [|apply lit_name; reflexivity|apply L|apply L]; try (apply plain_valueb_ok; reflexivity).
    apply setdefault_ok; [|apply lit_name; reflexivity|apply L|apply L]; try (apply plain_valueb_ok; reflexivity).
    apply info_ok_put; [|apply lit_name; reflexivity|apply L; auto|apply L; auto].
    destruct (truthy (Some version)); [|exact O]. apply info_ok_put; [exact O|apply lit_name; reflexivity|apply L; auto|apply L; auto]. }
  intros i O5.
  assert (A : tag_value_ok Codecs ABOUT_MBAG) by (apply plain_valueb_ok; vm_compute; reflexivity).
  destruct (od_get T_ISD i) as [v|] eqn:E.
  - pose proof (proj2 O5 _ _ (od_get_in _ _ _ E)) as (_ & Hn & Hf).
    assert (E' : vals_of v = match v with IStr s => [s] | IList l => l end) by (destruct v; reflexivity).
    rewrite <- E'. destruct (existsb _ _).
    + apply info_ok_put; [exact O5|apply lit_name; reflexivity|exact Hn|exact Hf].
    + apply info_ok_put; [exact O5|apply lit_name; reflexivity| |].
      * cbn [vals_of]. destruct (vals_of v); discriminate.
      * cbn [vals_of]. apply Forall_app. split; [exact Hf|]. constructor; [|constructor]. apply value_ok_plain; auto.
  - apply info_ok_put; [exact O5|apply lit_name; reflexivity|apply L; auto|apply L; auto].
Qed.

Lemma setdefault_get {V} k k' (v : V) i : od_get k' (od_setdefault k v i) =
  match od_get k' i with Some x => Some x | None => if streq k' k then Some v else None end.
Proof.
  unfold od_setdefault, od_has. destruct (od_get k i) as [x|] eqn:E.
  - destruct (streq_reflect k' k) as [->|]; [rewrite E; reflexivity|]. destruct (od_get k' i); reflexivity.
  - rewrite od_get_set. destruct (streq_reflect k' k) as [->|]; [rewrite E; reflexivity|]. destruct (od_get k' i); reflexivity.
Qed.

Lemma update_tags_get version profver i k : version <> [] -> NoDup (od_keys i) -> k <> T_BagSize -> k <> T_BagCount -> k <> T_ISD ->
  od_get k (update_info_tags (Some version) profver i) =
    if streq k T_HeadVersion then Some (IStr version) else
    if streq k T_Version then Some (IStr profver) else
    if streq k T_Reference then Some (IStr CURRENT_REFERENCE) else
    match od_get k i with Some x => Some x | None => if streq k T_TagDir then Some (IStr (U "multibag")) else None end.
Proof.
  intros Nv D K1 K2 K3. unfold update_info_tags. cbv zeta.
  rewrite (od_get_del_other k T_BagSize) by auto. rewrite (od_get_del_other k T_BagCount) by auto.
  match goal with |- od_get k (match ?x with _ => _ end) = _ => destruct x end;
    rewrite od_get_set_other by auto; rewrite od_get_set;
    (destruct (streq_reflect k T_Reference) as [->|]; [reflexivity|]);
    rewrite !setdefault_get, od_get_set;
    (destruct (streq_reflect k T_Version) as [->|]; [reflexivity|]);
    destruct version as [|c version]; try congruence; cbn [truthy oget]; rewrite od_get_set;
    (destruct (streq_reflect k T_HeadVersion) as [->|]; [reflexivity|]);
    destruct (od_get k i); try reflexivity; destruct (streq k T_TagDir); reflexivity.
Qed.

(** ** Saving bag-info.txt and the tag manifests *)

Definition saved_file (q : pystr) : Prop := q = F_baginfo \/ exists a, q = man_name K_tag a.

Lemma last_app_ne {A} (x y : list A) d : y <> [] -> last (x ++ y) d = last y d.
Proof.
  intros H. destruct (exists_last H) as (y' & c & ->). rewrite app_assoc, !last_last. reflexivity.
Qed.

Lemma tagfile_not_saved td f : In f [F_members; F_lookup] -> ~ saved_file (sjoin td f).
Proof.
  intros I.
  assert (L : forall a b : pystr, a = b -> last a 0 = last b 0) by (intros; congruence).
  assert (A : last (sjoin td f) 0 = 118).
  { unfold sjoin. rewrite last_app_ne by discriminate. rewrite last_app_ne; destruct I as [<-|[<-|[]]]; try discriminate; reflexivity. }
  intros [E|[a E]]; apply L in E; rewrite A in E.
  - vm_compute in E. discriminate.
  - unfold man_name in E. rewrite !app_assoc, last_app_ne in E by discriminate. vm_compute in E. discriminate.
Qed.

Lemma save_other v algs i t t' q : save v algs i t = Ok t' -> ~ saved_file q -> od_get q t' = od_get q t.
Proof.
  unfold save. intros H N0. apply bind_ok in H. destruct H as (t1 & H1 & H). apply bind_ok in H. destruct H as (t2 & H2 & H).
  apply bind_ok in H. destruct H as (_ & _ & H). inversion H; subst. clear H. apply write_file_ok in H1.
  transitivity (od_get q t1).
  - clear H1. revert t1 H2. induction algs as [|a algs IH]; intros t1 H; cbn [foldM] in H.
    + inversion H; subst. auto.
    + apply bind_ok in H. destruct H as (t2 & H1 & H2). rewrite (IH t2) by auto. apply write_file_ok in H1. subst t2.
      apply od_get_set_other. intros ->. apply N0. right. eauto.
  - subst t1. apply od_get_set_other. intros ->. apply N0. left. auto.
Qed.

Lemma save_NoDup v algs i t t' : save v algs i t = Ok t' -> NoDup (od_keys t) -> NoDup (od_keys t').
Proof.
  unfold save. intros H D. apply bind_ok in H. destruct H as (t1 & H1 & H). apply bind_ok in H. destruct H as (t2 & H2 & H).
  apply bind_ok in H. destruct H as (_ & _ & H). inversion H; subst. clear H. apply write_file_ok in H1.
  assert (D1 : NoDup (od_keys t1)) by (subst t1; apply od_set_NoDup; auto). clear H1 D.
  revert t1 D1 H2. induction algs as [|a algs IH]; intros t1 D1 H; cbn [foldM] in H.
  - inversion H; subst. auto.
  - apply bind_ok in H. destruct H as (t2 & H1 & H2). apply write_file_ok in H1. apply (IH t2); auto. subst t2. apply od_set_NoDup; auto.
Qed.

(** The descriptions: the one about multibags is added unless it is there. *)
Definition with_about (l : list pystr) : list pystr :=
  if existsb (substr_in about_morsel) l then l else l ++ [ABOUT_MBAG].

Lemma update_tags_about version profver i : version <> [] -> NoDup (od_keys i) ->
  tag_values (update_info_tags (Some version) profver i) T_ISD = with_about (tag_values i T_ISD).
Proof.
  intros Nv D. unfold update_info_tags. cbv zeta. unfold tag_values.
  rewrite (od_get_del_other T_ISD T_BagSize) by discriminate. rewrite (od_get_del_other T_ISD T_BagCount) by discriminate.
  match goal with |- context [match od_get T_ISD ?x with Some v => od_set _ _ _ | None => _ end] =>
    assert (E : od_get T_ISD x = od_get T_ISD i) end.
  { rewrite od_get_set_other by discriminate. rewrite !setdefault_get, od_get_set. change (streq T_ISD T_Version) with false.
    change (streq T_ISD T_TagDir) with false. change (streq T_ISD T_HeadVersion) with false.
    destruct (truthy (Some version)); [rewrite od_get_set_other by discriminate|]; destruct (od_get T_ISD i); reflexivity. }
  rewrite E. destruct (od_get T_ISD i) as [[x|l]|]; rewrite od_get_set_same; reflexivity.
Qed.

Lemma about_once l : with_about (with_about l) = with_about l.
Proof.
  unfold with_about. destruct (existsb (substr_in about_morsel) l) eqn:E; [rewrite E; reflexivity|].
  rewrite existsb_app. assert (X : existsb (substr_in about_morsel) [ABOUT_MBAG] = true) by (vm_compute; reflexivity).
  rewrite X, orb_true_r. reflexivity.
Qed.

(** The tags of a head bag after update_info. *)
Lemma update_info_tags_read v algs bsize version profver h h' :
  plain_size bsize -> info_ok Codecs (hb_info h) -> version <> [] -> tag_value_ok Codecs version -> tag_value_ok Codecs profver ->
  update_info_disk v algs bsize (Some version) profver h = (h', Ok tt) ->
  hb_name h' = hb_name h /\ hb_mem h' = hb_mem h /\ hb_lu h' = hb_lu h /\
  (forall q, ~ saved_file q -> od_get q (hb_tree h') = od_get q (hb_tree h)) /\
  forall r, exists d, tags_of r (hb_tree h') = Ok d /\
    tag_values d T_HeadVersion = [version] /\ tag_values d T_Version = [profver] /\
    (forall td, tag_dir_raw (hb_info h) = Ok td -> tag_value_ok Codecs td -> od_get T_TagDir d = Some (IStr td)) /\
    (forall k, ~ In k info_keys -> tag_values d k = map (fun x => unfold_value r (one_line x)) (tag_values (hb_info h) k)) /\
    tag_values d T_Reference = [CURRENT_REFERENCE] /\
    tag_values d T_ISD = map (fun x => unfold_value r (one_line x)) (with_about (tag_values (hb_info h) T_ISD)).
Proof.
  intros B O Nv Hv Hp H. apply update_info_inv in H. cbv zeta in H. destruct H as (t1 & t2 & S1 & S2 & ->).
  split; [reflexivity|]. split; [reflexivity|]. split; [reflexivity|]. split.
  { intros q Q. cbn [hb_tree set_tree set_info]. rewrite (save_other _ _ _ _ _ _ S2 Q). eapply save_other; eauto. }
  intros r. set (i1 := update_info_tags (Some version) profver (hb_info h)) in *.
  assert (O1 : info_ok Codecs i1) by (apply update_tags_ok; auto).
  set (i2 := od_set T_BagSize (IStr (bsize t1)) i1) in *.
  assert (O2 : info_ok Codecs i2).
  { destruct (B t1) as [Bb Bt]. apply info_ok_put; [exact O1|apply lit_name; reflexivity|discriminate|].
    constructor; [|constructor]. apply value_ok_plain. split; auto. }
  destruct (info_read r i2 T_BagSize (IStr (bsize t1)) O2) as (d & L & V).
  { apply od_get_in. apply od_get_set_same. }
  { reflexivity. }
  pose proof (proj1 O) as D.
  exists d. split.
  { unfold tags_of. cbn [hb_tree set_tree]. change (U "bag-info.txt") with F_baginfo. rewrite (save_info _ _ _ _ _ S2). exact L. }
  assert (Gt : forall k, k <> T_BagSize -> od_get k i2 = od_get k i1) by (intros k K; apply od_get_set_other; auto).
  split; [|split; [|split; [|split; [|split]]]].
  - rewrite V. unfold tag_values. rewrite Gt by discriminate. unfold i1.
    rewrite update_tags_get by (auto; discriminate). cbn [streq]. rewrite streq_refl. cbn [map]. rewrite read_plain; auto.
  - rewrite V. unfold tag_values. rewrite Gt by discriminate. unfold i1.
    rewrite update_tags_get by (auto; discriminate). change (streq T_Version T_HeadVersion) with false. rewrite streq_refl. cbn [map]. rewrite read_plain; auto.
  - intros td E T. apply one_value; [eapply Props_Restore3.load_shape; eauto|]. rewrite V. unfold tag_values. rewrite Gt by discriminate. unfold i1.
    rewrite update_tags_get by (auto; discriminate). change (streq T_TagDir T_HeadVersion) with false.
    change (streq T_TagDir T_Version) with false. change (streq T_TagDir T_Reference) with false. rewrite streq_refl.
    unfold tag_dir_raw in E. destruct (od_get T_TagDir (hb_info h)) as [[s|l]|]; inversion E; subst; cbn [map]; rewrite read_plain; auto.
  - intros k K. rewrite V. f_equal. unfold tag_values. unfold info_keys in K. cbn [In] in K.
    rewrite Gt by (intros ->; tauto). unfold i1. rewrite update_tags_get; auto; try (intros ->; tauto).
    assert (X : forall a, a <> k -> streq k a = false) by (intros a Ha; apply streq_neq; auto).
    rewrite !X by (intros <-; tauto). destruct (od_get k (hb_info h)); reflexivity.
  - rewrite V. unfold tag_values. rewrite Gt by discriminate. unfold i1. rewrite update_tags_get by (auto; discriminate).
    change (streq T_Reference T_HeadVersion) with false. change (streq T_Reference T_Version) with false. rewrite streq_refl. cbn [map].
    rewrite read_plain; [reflexivity|]. apply plain_valueb_ok. vm_compute. reflexivity.
  - rewrite V, <- (update_tags_about version profver) by auto. f_equal. unfold tag_values. rewrite Gt by discriminate. reflexivity.
Qed.

(** ** The amendment in memory *)

Definition old_members (old : hb) (ms : list minfo) : Prop :=
  if is_head old then iter_member_bags old = Ok ms else ms = [plain_member (hb_name old)].

Definition init_info (repr : list pystr -> pystr) (keep : bool) (old new : hb) : infod :=
  hb_info (snd (init_multibag_info repr keep old new)).

Lemma init_new repr keep old new : snd (init_multibag_info repr keep old new) = set_info new (init_info repr keep old new).
Proof. unfold init_info, init_multibag_info. destruct (od_get T_HeadDeprecates (hb_info old)) as [[s|l]|]; reflexivity. Qed.

Lemma init_old repr keep old new : let old' := fst (init_multibag_info repr keep old new) in
  is_head old' = is_head old /\ iter_member_bags old' = iter_member_bags old /\ iter_file_lookup old' = iter_file_lookup old /\
  hb_name old' = hb_name old /\ hb_tree old' = hb_tree old.
Proof.
  cbv zeta. unfold init_multibag_info. destruct (od_get T_HeadDeprecates (hb_info old)) as [[s|l]|] eqn:E; cbn [fst]; auto.
  set (i := od_set T_HeadDeprecates _ (hb_info old)).
  assert (G : forall k, k <> T_HeadDeprecates -> od_get k i = od_get k (hb_info old)) by (intros k K; apply od_get_set_other; auto).
  assert (Td : tag_dir_raw i = tag_dir_raw (hb_info old)) by (unfold tag_dir_raw; rewrite G by discriminate; reflexivity).
  assert (Pv : profile_version i = profile_version (hb_info old)) by (unfold profile_version, required_info; rewrite G by discriminate; reflexivity).
  split; [|split; [|split; [|split; reflexivity]]].
  - unfold is_head, od_has. cbn [hb_info set_info]. rewrite G by discriminate. reflexivity.
  - unfold iter_member_bags. cbn [hb_info hb_tree hb_reader set_info]. rewrite Td, Pv. reflexivity.
  - unfold iter_file_lookup. cbn [hb_info hb_tree hb_reader set_info]. rewrite Td, Pv. reflexivity.
Qed.

Lemma init_members_eff old new h' td : std_tags (hb_info new) td -> hb_mem new = None -> hb_lu new = None ->
  NoDup (od_keys (hb_tree new)) -> init_member_bags old new = (h', Ok tt) ->
  exists ms t1, old_members old ms /\ reset_step td (hb_tree new) = Ok t1 /\ NoDup (od_keys t1) /\
    same_disk (set_tree new t1) h' /\ cur_members h' = Ok (add_all [] ms).
Proof.
  intros S M0 L0 D H. unfold init_member_bags in H. apply bindM_ok in H. destruct H as ([] & h1 & H1 & H).
  destruct (reset_eff _ _ _ S M0 D H1) as (t1 & -> & R & D1 & Rd).
  assert (C : cur_members (set_tree new t1) = Ok []).
  { unfold cur_members. cbn [hb_mem set_tree]. rewrite M0. rewrite (missing_members (set_tree new t1) td S Rd). reflexivity. }
  unfold old_members. destruct (is_head old).
  - destruct (iter_member_bags old) as [ms|e]; [|discriminate]. exists ms, t1. split; [reflexivity|]. split; [exact R|]. split; [exact D1|].
    destruct (first_members_eff ms (set_tree new t1) h' [] L0 H C) as [A B]. auto.
  - exists [plain_member (hb_name old)], t1. split; [reflexivity|]. split; [exact R|]. split; [exact D1|].
    assert (H' : forM [plain_member (hb_name old)] (fun m => add_member_bag m true) (set_tree new t1) = (h', Ok tt))
      by (cbn [forM]; apply bindM_ok; exists tt, h'; split; [exact H|reflexivity]).
    destruct (first_members_eff _ (set_tree new t1) h' [] L0 H' C) as [A B]. auto.
Qed.

Lemma init_lookup_eff ro old h h' td l : std_tags (hb_info h) td -> NoDup (od_keys (hb_tree h)) -> cur_members h = Ok l ->
  init_file_lookup ro old h = (h', Ok tt) ->
  exists t1 h1, clear_step td (hb_tree h) = Ok t1 /\ NoDup (od_keys t1) /\ h1 = set_lu (set_tree h t1) None /\
    table_ok h1 [] /\ only_table h1 h' /\ cur_members h' = Ok l /\
    (if is_head old then exists es, iter_file_lookup old = Ok es /\ forM es (fun kv => add_file_lookup (fst kv) (snd kv)) h1 = (h', Ok tt)
     else update_for_member (src_of ro old) SNone SNone false None h1 = (h', Ok tt)).
Proof.
  intros S D C H. unfold init_file_lookup in H. apply bindM_ok in H. destruct H as ([] & h1 & H1 & H).
  destruct (clear_eff _ _ _ (std_tag_dir _ _ S) D H1) as (t1 & E1 & R & D1 & Rd & Ro).
  exists t1, h1. split; [exact R|]. split; [exact D1|]. split; [exact E1|].
  assert (T1 : table_ok h1 []).
  { subst h1. apply fresh_table; [reflexivity|]. unfold cur_table, disk_lookup. cbn [hb_lu set_lu].
    rewrite (missing_lookup (set_lu (set_tree h t1) None) td S Rd). reflexivity. }
  split; [exact T1|].
  assert (Cm : cur_members h1 = Ok l).
  { rewrite <- C. subst h1. unfold cur_members. cbn [hb_mem set_lu set_tree]. destruct (hb_mem h); [reflexivity|].
    unfold iter_member_bags. cbn [hb_info hb_tree hb_reader set_lu set_tree]. destruct S as [S1 S2]. rewrite S1, S2. cbn [bind].
    rewrite Ro by (intros E; unfold sjoin in E; apply app_inv_head in E; vm_compute in E; discriminate). reflexivity. }
  assert (X : only_table h1 h' /\ (if is_head old then exists es, iter_file_lookup old = Ok es /\ forM es (fun kv => add_file_lookup (fst kv) (snd kv)) h1 = (h', Ok tt)
     else update_for_member (src_of ro old) SNone SNone false None h1 = (h', Ok tt))).
  { destruct (is_head old).
    - destruct (iter_file_lookup old) as [es|e]; [|discriminate]. split; [|eauto]. revert H. apply forM_only.
      intros x a b. apply add_lookup_only.
    - split; [|exact H]. eapply update_only; eauto. }
  destruct X as [X Y]. split; [exact X|]. split; [|exact Y]. rewrite <- Cm. unfold cur_members. rewrite (proj1 X).
  destruct (hb_mem h1); [reflexivity|]. rewrite (same_disk_members _ _ (proj1 (proj2 X))). reflexivity.
Qed.

Lemma bags_eff bags : forall h h' l d, cur_members h = Ok l -> table_ok h d -> forM bags add_amending_bag h = (h', Ok tt) ->
  cur_members h' = Ok (add_all l (map ab_member bags)) /\ (exists d', table_ok h' d') /\ same_disk h h'.
Proof.
  induction bags as [|b bags IH]; intros h h' l d C T H; cbn [forM] in H.
  - inversion H; subst. cbn. eauto.
  - apply bindM_ok in H. destruct H as ([] & h1 & H1 & H). unfold add_amending_bag in H1.
    apply bindM_ok in H1. destruct H1 as ([] & h0 & H0 & H1).
    destruct (add_member_eff _ _ _ _ _ H0 C T) as (E0 & T0 & S0).
    destruct (update_only _ _ _ _ _ _ H1) as (M1 & S1 & T1). destruct (T1 _ T0) as [d1 T1'].
    assert (C1 : cur_members h1 = Ok (drop_member (Tsv.m_name (ab_member b)) l ++ [ab_member b]))
      by (apply cur_members_some; congruence).
    destruct (IH _ _ _ _ C1 T1' H) as (C2 & T2 & S2). split; [exact C2|]. split; [exact T2|].
    eapply same_disk_trans; [exact S0|]. eapply same_disk_trans; eauto.
Qed.

Lemma add_all_app l a b : add_all l (a ++ b) = add_all (add_all l a) b.
Proof. unfold add_all. apply fold_left_app. Qed.

(** From the beginning to the state before the final writes. *)
Lemma amend_run v algs bsize repr keep ro old bags own inc exc version new new' old' td :
  let i0 := init_info repr keep old new in
  std_tags i0 td -> hb_mem new = None -> hb_lu new = None -> NoDup (od_keys (hb_tree new)) ->
  amend v algs bsize repr keep ro old bags own inc exc version new = (new', Ok old') ->
  old' = fst (init_multibag_info repr keep old new) /\
  exists ms t1 t2 h d, old_members old ms /\
    reset_step td (hb_tree new) = Ok t1 /\ clear_step td t1 = Ok t2 /\ NoDup (od_keys t2) /\
    same_disk (set_tree (set_info new i0) t2) h /\
    hb_mem h = Some (add_all [] (ms ++ map ab_member bags ++ [own (hb_name new)])) /\ table_ok h d /\
    amend_lists repr keep ro old bags own inc exc new = (h, Ok old') /\
    write_all v algs bsize version h = (new', Ok tt).
Proof.
  intros i0 S M0 L0 D H. unfold amend in H. apply bindM_ok in H. destruct H as (o' & h4' & Hl & H).
  apply bindM_ok in H. destruct H as ([] & h5 & H5 & H). unfold retM in H. inversion H; subst h5 o'. clear H.
  pose proof Hl as H. unfold amend_lists in H. pose proof (init_new repr keep old new) as En. pose proof (init_old repr keep old new) as Eo.
  cbv zeta in Eo. destruct (init_multibag_info repr keep old new) as [o n] eqn:E. cbn [fst snd] in En, Eo. fold i0 in En. subst n.
  destruct Eo as (Eh & Em & Ef & Ena & Et).
  apply bindM_ok in H. destruct H as ([] & h1 & H1 & H). apply bindM_ok in H. destruct H as ([] & h2 & H2 & H).
  apply bindM_ok in H. destruct H as ([] & h3 & H3 & H). apply bindM_ok in H. destruct H as ([] & h4 & H4 & H).
  unfold retM in H. inversion H; subst h4' o. clear H.
  split; [reflexivity|].
  destruct (init_members_eff old' (set_info new i0) h1 td S M0 L0 D H1) as (ms & t1 & Om & R1 & D1 & S1 & C1).
  assert (Om' : old_members old ms) by (unfold old_members in *; rewrite Eh, Em, Ena in Om; exact Om).
  destruct S1 as (Sn & St & Sdi & Si & Sr). cbn [hb_name hb_tree hb_info hb_dinfo hb_reader set_tree set_info] in Sn, St, Sdi, Si, Sr.
  assert (S' : std_tags (hb_info h1) td) by (rewrite Si; exact S).
  assert (D' : NoDup (od_keys (hb_tree h1))) by (rewrite St; exact D1).
  destruct (init_lookup_eff ro old' h1 h2 td _ S' D' C1 H2) as (t2 & hx & R2 & D2 & Ex & Tx & Ox & C2 & _).
  destruct (proj2 (proj2 Ox) _ Tx) as [d2 T2].
  destruct (bags_eff _ _ _ _ _ C2 T2 H3) as (C3 & (d3 & T3) & S3).
  assert (Ov : same_disk (set_tree (set_info new i0) t2) h3).
  { eapply same_disk_trans; [|exact S3]. eapply same_disk_trans; [|exact (proj1 (proj2 Ox))]. subst hx.
    unfold same_disk. cbn [hb_name hb_tree hb_info hb_dinfo hb_reader set_tree set_info set_lu]. auto. }
  assert (En : hb_name h3 = hb_name new) by (destruct Ov as [Ov _]; exact Ov).
  unfold list_itself in H4. apply bindM_ok in H4. destruct H4 as ([] & h0 & H0 & H4).
  rewrite En in H0. destruct (add_member_eff _ _ _ _ _ H0 C3 T3) as (E0 & T0 & S0).
  destruct (update_only _ _ _ _ _ _ H4) as (M4 & S4 & T4). destruct (T4 _ T0) as [d4 T4'].
  exists ms, t1, t2, h4, d4. split; [exact Om'|]. split; [exact R1|]. split; [rewrite <- R2, St; reflexivity|]. split; [exact D2|].
  split; [eapply same_disk_trans; [exact Ov|]; eapply same_disk_trans; eauto|]. split; [|split; [exact T4'|split; [exact Hl|exact H5]]].
  rewrite M4, E0, !add_all_app. reflexivity.
Qed.

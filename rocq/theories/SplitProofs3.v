(** * Proofs about split plans *)

Require Import String NArith PeanoNat Bool List Lia Permutation Sorted.
From Verif Require Import PyBase PyFacts Fs FsFacts Split SplitProofs SplitProofs2.
Import ListNotations.
Open Scope N_scope.

(** ** Special names *)

Lemma is_word_not_slash c : is_word c = true -> c <> SLASH.
Proof. intros H ->. discriminate H. Qed.

Lemma dot_txt_cases s : re_dot_txt s = true ->
  exists c t, s = c :: t /\ (t = U "txt" \/ t = U "txt" ++ [LF]).
Proof.
  destruct s as [|c t]; [discriminate|]. cbn [re_dot_txt]. intros H.
  apply andb_true_iff in H as [_ H]. apply orb_true_iff in H.
  exists c, t. split; [reflexivity|]. rewrite !streq_eq in H. exact H.
Qed.

Lemma word_txt_cases s : forall seen, re_word_txt seen s = true ->
  exists w c t, s = w ++ c :: t /\ ~ In SLASH w /\ (t = U "txt" \/ t = U "txt" ++ [LF]).
Proof.
  induction s as [|x s IH]; intros seen H; cbn [re_word_txt] in H; apply orb_true_iff in H as [H|H].
  - apply andb_true_iff in H as [_ H]. discriminate.
  - discriminate.
  - apply andb_true_iff in H as [_ H]. apply dot_txt_cases in H as (c & t & E & T).
    exists [], c, t. split; [exact E|]. split; [easy|exact T].
  - apply andb_true_iff in H as [W H]. apply IH in H as (w & c & t & E & N1 & T).
    exists (x :: w), c, t. rewrite E. split; [reflexivity|]. split; [|exact T].
    intros [->|K]; [discriminate W|auto].
Qed.

Lemma startswith_skipn s p : startswith s p = true -> s = p ++ skipn (length p) s.
Proof.
  intros H. apply startswith_iff in H as [t ->]. rewrite skipn_app, skipn_all, Nat.sub_diag. reflexivity.
Qed.

Lemma special_shape f : special_name f = true ->
  exists w c t, f = w ++ c :: t /\ ~ In SLASH w /\ (t = U "txt" \/ t = U "txt" ++ [LF]).
Proof.
  unfold special_name. intros H. apply orb_true_iff in H as [H|H].
  - assert (P : exists pre, ~ In SLASH pre /\ re_pre_txt pre f = true).
    { apply orb_true_iff in H as [H|H]; [apply orb_true_iff in H as [H|H]|].
      - exists (U "bagit"). split; [|exact H]. cbn. intuition discriminate.
      - exists (U "bag-info"). split; [|exact H]. cbn. intuition discriminate.
      - exists (U "fetch"). split; [|exact H]. cbn. intuition discriminate. }
    destruct P as (pre & N1 & P). unfold re_pre_txt in P. apply andb_true_iff in P as [S D].
    apply startswith_skipn in S. apply dot_txt_cases in D as (c & t & E & T). rewrite E in S.
    exists pre, c, t. auto.
  - unfold re_manifest in H.
    assert (P : exists pre, ~ In SLASH pre /\ startswith f pre = true /\
                re_word_txt false (skipn (length pre) f) = true).
    { apply orb_true_iff in H as [H|H]; apply andb_true_iff in H as [H1 H2].
      - exists (U "manifest-"). split; [|split; assumption]. cbn. intuition discriminate.
      - exists (U "tagmanifest-"). split; [|split; assumption]. cbn. intuition discriminate. }
    destruct P as (pre & N1 & S & D). apply startswith_skipn in S.
    apply word_txt_cases in D as (w & c & t & E & N2 & T). rewrite E in S.
    exists (pre ++ w), c, t. rewrite <- app_assoc. split; [exact S|]. split; [|exact T].
    rewrite in_app_iff. tauto.
Qed.

(** A special name that contains a '/' ends in "/txt", which is no special
    base name. *)
Lemma special_both f : special_name f = true -> special_name (basename f) = true -> ~ In SLASH f.
Proof.
  intros H B Hin. apply special_shape in H as (w & c & t & E & NW & T).
  assert (NT : ~ In SLASH t) by (destruct T as [-> | ->]; cbn; intuition discriminate).
  assert (c = SLASH) as ->.
  { rewrite E in Hin. apply in_app_or in Hin as [Hin|[Hin|Hin]]; [tauto|auto|tauto]. }
  rewrite E, basename_app in B by exact NT. destruct T as [-> | ->]; discriminate B.
Qed.

(** ** The non-standard files *)

Definition empty_dir (d : pystr) (t : tree) : Prop :=
  is_dir d t = true /\ forall q, In q (od_keys t) -> dirname q <> d.

Lemma keys_split q (t : tree) : In q (od_keys t) <-> In q (files t) \/ In q (dirs t).
Proof.
  unfold od_keys, files, dirs. rewrite !in_map_iff. split.
  - intros ([k n] & <- & H). destruct n as [|c].
    + right. exists (k, NDir). split; [reflexivity|]. apply filter_In. auto.
    + left. exists (k, NFile c). split; [reflexivity|]. apply filter_In. auto.
  - intros [([k n] & <- & H)|([k n] & <- & H)]; apply filter_In in H as [H _]; eauto.
Qed.

Section Plans.
Variable t : tree.
Hypothesis W : wf_tree t.

Definition nonstd_in (d : pystr) : list pystr :=
  (match subdirs_in d t, files_in d t with [], [] => [d] | _, _ => [] end) ++
  map (pjoin d) (filter (fun f => negb (special_name f)) (files_in d t)).

Lemma filter_below_nil l : filter (below []) l = l.
Proof. induction l as [|d l IH]; cbn; [|rewrite IH]; reflexivity. Qed.

Lemma flat_map_map {A B C} (f : B -> list C) (g : A -> B) l :
  flat_map f (map g l) = flat_map (fun x => f (g x)) l.
Proof. induction l as [|x l IH]; cbn; [|rewrite IH]; reflexivity. Qed.

Lemma nonstandard_eq : nonstandard t = flat_map nonstd_in ([] :: dirs t).
Proof.
  unfold nonstandard, walk. rewrite filter_below_nil, flat_map_map. reflexivity.
Qed.

Lemma empty_dir_iff d : In d ([] :: dirs t) ->
  (subdirs_in d t = [] /\ files_in d t = [] <-> empty_dir d t).
Proof.
  intros Hd. split.
  - intros [H1 H2]. split.
    + destruct Hd as [<-|Hd]; [reflexivity|]. apply in_dirs in Hd; [|apply W].
      unfold is_dir. rewrite Hd. destruct d; reflexivity.
    + intros q Hq E. apply keys_split in Hq as [Hq|Hq].
      * assert (In (basename q) (files_in d t)) as K by (apply in_files_in; eauto).
        rewrite H2 in K. exact K.
      * assert (In (basename q) (subdirs_in d t)) as K by (apply in_subdirs_in; eauto).
        rewrite H1 in K. exact K.
  - intros [_ H]. split.
    + destruct (subdirs_in d t) as [|b l] eqn:E; [reflexivity|]. exfalso.
      assert (In b (subdirs_in d t)) as K by (rewrite E; left; reflexivity).
      apply in_subdirs_in in K as (p & I & Ed & _). apply (H p); [|exact Ed].
      apply keys_split. auto.
    + destruct (files_in d t) as [|b l] eqn:E; [reflexivity|]. exfalso.
      assert (In b (files_in d t)) as K by (rewrite E; left; reflexivity).
      apply in_files_in in K as (p & I & Ed & _). apply (H p); [|exact Ed].
      apply keys_split. auto.
Qed.

Lemma in_nonstd_in d p : In d ([] :: dirs t) ->
  (In p (nonstd_in d) <->
   (p = d /\ empty_dir d t) \/
   (In p (files t) /\ dirname p = d /\ special_name (basename p) = false)).
Proof.
  intros Hd. unfold nonstd_in. rewrite in_app_iff.
  assert (A : In p (match subdirs_in d t, files_in d t with [], [] => [d] | _, _ => [] end) <->
              p = d /\ empty_dir d t).
  { rewrite <- (empty_dir_iff d Hd). destruct (subdirs_in d t), (files_in d t); cbn;
      split; intuition (try congruence; try discriminate). }
  rewrite A. apply or_iff_compat_l. rewrite in_map_iff. split.
  - intros (b & <- & H). apply filter_In in H as [H N1]. apply negb_true_iff in N1.
    apply in_files_in in H as (q & I & <- & <-).
    rewrite pjoin_dirname_basename; [auto|]. apply (wf_good t W), files_key, I.
  - intros (I & <- & N1). exists (basename p).
    split; [apply pjoin_dirname_basename, (wf_good t W), files_key, I|].
    apply filter_In. split; [|rewrite N1; reflexivity].
    apply in_files_in. eauto.
Qed.

Lemma in_nonstandard p : In p (nonstandard t) <->
  empty_dir p t \/ (In p (files t) /\ special_name (basename p) = false).
Proof.
  rewrite nonstandard_eq, in_flat_map. split.
  - intros (d & Hd & H). apply in_nonstd_in in H as [[-> H]|(I & _ & N1)]; auto.
  - intros [H|[I N1]].
    + exists p. assert (Hd : In p ([] :: dirs t)).
      { destruct H as [H _]. unfold is_dir in H. destruct p as [|c p]; [left; reflexivity|right].
        apply in_dirs; [apply W|]. destruct (od_get (c :: p) t) as [[|]|]; congruence. }
      split; [exact Hd|]. apply in_nonstd_in; auto.
    + exists (dirname p). assert (Hd : In (dirname p) ([] :: dirs t)).
      { destruct (wf_parent_dir t W p (files_key _ _ I)) as [E|E]; [left; congruence|right; exact E]. }
      split; [exact Hd|]. apply in_nonstd_in; auto.
Qed.

Lemma dir_not_file p : In p ([] :: dirs t) -> ~ In p (files t).
Proof.
  intros H I. pose proof (files_key _ _ I) as K. apply in_files in I; [|apply W].
  destruct H as [<-|H].
  - rewrite is_file_not_nil in I by exact W. discriminate.
  - apply in_dirs in H; [|apply W]. unfold is_file in I. rewrite H in I. discriminate.
Qed.

Lemma NoDup_nonstandard : NoDup (nonstandard t).
Proof.
  rewrite nonstandard_eq. apply NoDup_flat_map.
  - pose proof (NoDup_walk_dirs t W []) as H. rewrite filter_below_nil in H. exact H.
  - intros d Hd. unfold nonstd_in.
    assert (ND : NoDup (map (pjoin d) (filter (fun f => negb (special_name f)) (files_in d t)))).
    { pose proof (map_pjoin_files_in t W d) as E.
      assert (ND : NoDup (map (pjoin d) (files_in d t))).
      { rewrite E. apply NoDup_filter, NoDup_files, W. }
      apply NoDup_map_filter. exact ND. }
    destruct (subdirs_in d t), (files_in d t) eqn:E; try exact ND.
    repeat constructor. easy.
  - intros d d' p Hd Hd' H H'. apply in_nonstd_in in H; [|exact Hd]. apply in_nonstd_in in H'; [|exact Hd'].
    destruct H as [[-> _]|(I & E & _)], H' as [[E' _]|(I' & E' & _)]; try congruence.
    + exfalso. exact (dir_not_file _ Hd I').
    + subst p. exfalso. exact (dir_not_file _ Hd' I).
Qed.

End Plans.

(** ** Plans *)

Definition all_contents (p : plan) : list pystr := flat_map m_contents (p_manifests p).

Lemma find_destination_none f p : find_destination f p = None <-> ~ In f (all_contents p).
Proof.
  unfold find_destination, all_contents. rewrite in_flat_map. split.
  - intros H (m & I & J). pose proof (find_none _ _ H m) as K.
    rewrite <- in_rev in K. specialize (K I). unfold path_in in K. apply str_in_false in K. auto.
  - intros H. destruct (find _ _) as [m|] eqn:E; [|reflexivity]. exfalso. apply H.
    apply find_some in E as [I J]. exists m. rewrite <- in_rev in I. split; [exact I|].
    apply str_in_iff. exact J.
Qed.

Lemma find_destination_last f p m : find_destination f p = Some m <->
  exists ms1 ms2, p_manifests p = ms1 ++ m :: ms2 /\ In f (m_contents m) /\
                  Forall (fun m' => ~ In f (m_contents m')) ms2.
Proof.
  unfold find_destination. generalize (p_manifests p). intros ms. clear p.
  induction ms as [|x ms IH] using rev_ind.
  - cbn. split; [discriminate|]. intros ([|? ?] & ms2 & E & _); discriminate.
  - rewrite rev_app_distr. cbn [rev app find]. unfold path_in at 1.
    destruct (str_in f (m_contents x)) eqn:E.
    + apply str_in_iff in E. split.
      * intros H. injection H as <-. exists ms, []. repeat split; auto.
      * intros (ms1 & ms2 & E1 & I & F). destruct ms2 as [|y ms2] using rev_ind.
        { apply app_inj_tail in E1 as [_ ->]. reflexivity. }
        exfalso. change (m :: ms2 ++ [y]) with ((m :: ms2) ++ [y]) in E1.
        rewrite app_assoc in E1. apply app_inj_tail in E1 as [_ ->].
        apply Forall_app in F as [_ F]. inversion F; subst. contradiction.
    + apply str_in_false in E. rewrite IH. split.
      * intros (ms1 & ms2 & E1 & I & F). exists ms1, (ms2 ++ [x]). rewrite E1, <- app_assoc.
        split; [reflexivity|]. split; [exact I|]. apply Forall_app. split; [exact F|]. constructor; auto.
      * intros (ms1 & ms2 & E1 & I & F). destruct ms2 as [|y ms2] using rev_ind.
        { apply app_inj_tail in E1 as [_ ->]. contradiction. }
        change (m :: ms2 ++ [y]) with ((m :: ms2) ++ [y]) in E1.
        rewrite app_assoc in E1. apply app_inj_tail in E1 as [E1 _].
        exists ms1, ms2. split; [exact E1|]. split; [exact I|]. apply Forall_app in F as [F _]. exact F.
Qed.

Lemma in_missing f p : In f (missing p) <-> In f (required p) /\ ~ In f (all_contents p).
Proof.
  unfold missing. rewrite filter_In. rewrite <- find_destination_none.
  destruct (find_destination f p); intuition congruence.
Qed.

Lemma is_complete_iff p : is_complete p = true <-> missing p = [].
Proof. unfold is_complete. destruct (missing p); split; congruence. Qed.

Lemma complete_plan_cases p :
  (missing p = [] /\ complete_plan p = p) \/
  (missing p <> [] /\ exists man, m_contents man = missing p /\
     m_total man = fold_left (fun s f => s + sizeof (p_bag p) f) (missing p) 0 /\
     m_name man = Some (b_name (p_bag p) ++ U "_" ++ dec (N.of_nat (length (p_manifests p))) ++ U ".mbag") /\
     complete_plan p = {| p_bag := p_bag p; p_manifests := p_manifests p ++ [man] |}).
Proof.
  unfold complete_plan. destruct (missing p) as [|f l] eqn:E; [left; auto|].
  right. split; [discriminate|]. eexists. split; [|split; [|split; [|reflexivity]]]; reflexivity.
Qed.

Lemma complete_plan_missing p : missing (complete_plan p) = [].
Proof.
  destruct (complete_plan_cases p) as [[H ->]|(H & man & Hc & _ & _ & E)]; [exact H|].
  destruct (missing (complete_plan p)) as [|f l] eqn:EM; [reflexivity|]. exfalso.
  assert (K : In f (missing (complete_plan p))) by (rewrite EM; left; reflexivity).
  rewrite E in K. apply in_missing in K as [K1 K2].
  unfold required in K1. cbn in K1. unfold all_contents in K2. cbn in K2.
  rewrite flat_map_app, in_app_iff in K2. cbn in K2. rewrite app_nil_r, Hc in K2.
  apply K2. destruct (find_destination f p) eqn:D.
  - left. assert (~ ~ In f (all_contents p)) as X.
    { intros X. apply find_destination_none in X. congruence. }
    destruct (in_dec (list_eq_dec N.eq_dec) f (all_contents p)) as [Y|Y]; [exact Y|contradiction].
  - right. apply in_missing. split; [exact K1|]. apply find_destination_none. exact D.
Qed.

Lemma complete_plan_contents p :
  all_contents (complete_plan p) = all_contents p ++ missing p.
Proof.
  destruct (complete_plan_cases p) as [[H ->]|(H & man & Hc & _ & _ & ->)].
  - rewrite H, app_nil_r. reflexivity.
  - unfold all_contents. cbn. rewrite flat_map_app. cbn. rewrite app_nil_r, Hc. reflexivity.
Qed.

(** ** Plans made by the splitters *)

Definition worklist (s : splitter) (t : tree) : list finfo :=
  map (fun f => {| f_path := SLASH :: f; f_size := size_of f t |})
      (filter (fun f => negb (is_special (SLASH :: f)) && negb (str_in (SLASH :: f) (s_forhead s)))
              (files t)).

Lemma sorted_files_perm s t : Permutation (sorted_files s t) (worklist s t).
Proof. apply isort_perm. Qed.

Lemma sorted_files_sorted s t : StronglySorted (fun a b => fi_le a b = true) (sorted_files s t).
Proof. apply isort_sorted; [exact fi_le_total|exact fi_le_trans]. Qed.

Lemma contents_man_of cs :
  flat_map m_contents (map man_of cs) = map (fun f => skipn 1 (f_path f)) (concat cs).
Proof.
  induction cs as [|c cs IH]; [reflexivity|]. cbn [map flat_map concat]. rewrite map_app, IH. reflexivity.
Qed.

Definition packed (k : strategy) (s : splitter) (t : tree) : list manifest :=
  match k with
  | WellPacked => well_packed s (sorted_files s t)
  | Neighborly => neighborly s (sorted_files s t)
  end.

Lemma packed_groups k s t : exists cs, packed k s t = map man_of cs /\
  Permutation (concat cs) (sorted_files s t) /\ Forall (fun c => c <> []) cs /\
  Forall (small_or_single s) cs /\ Forall (closed_ok s) cs /\ tight s cs [].
Proof.
  pose proof (sorted_desc _ (sorted_files_sorted s t)) as D.
  destruct k; cbn [packed].
  - destruct (well_packed_spec s (sorted_files s t)) as (_ & cs & E & P & N1 & C & T & Z).
    exists cs. repeat (split; [solve [auto]|]). exact T.
  - destruct (neighborly_spec s (sorted_files s t)) as (_ & cs & E & R).
    exists cs. split; [exact E|]. split; [eapply neigh_run_perm; exact R|].
    split; [eapply neigh_run_nonempty; exact R|]. split; [eapply neigh_run_single; eassumption|].
    split; [eapply neigh_run_closed; exact R|eapply neigh_run_tight; exact R].
Qed.

Lemma packed_contents k s t :
  Permutation (flat_map m_contents (packed k s t))
    (filter (fun f => negb (special_name f) && negb (str_in (SLASH :: f) (s_forhead s))) (files t)).
Proof.
  destruct (packed_groups k s t) as (cs & -> & P & _).
  rewrite contents_man_of, P, (sorted_files_perm s t). unfold worklist. rewrite map_map. cbn.
  rewrite map_id. reflexivity.
Qed.

Lemma create_plan_eq k s b :
  create_plan k s b = complete_plan {| p_bag := b; p_manifests := packed k s (b_tree b) |}.
Proof. reflexivity. Qed.

Lemma NoDup_app_intro {A} (a b : list A) :
  NoDup a -> NoDup b -> (forall x, In x a -> ~ In x b) -> NoDup (a ++ b).
Proof.
  induction 1 as [|x a Hx Ha IH]; cbn; intros Hb H; [exact Hb|].
  constructor; [rewrite in_app_iff; intros [K|K]; [auto|eapply H; [left; reflexivity|exact K]]|].
  apply IH; auto.
Qed.

Lemma create_plan_NoDup k s b : wf_tree (b_tree b) -> NoDup (all_contents (create_plan k s b)).
Proof.
  intros W. rewrite create_plan_eq, complete_plan_contents. apply NoDup_app_intro.
  - unfold all_contents. cbn. eapply Permutation_NoDup; [symmetry; apply packed_contents|].
    apply NoDup_filter, NoDup_files, W.
  - unfold missing. apply NoDup_filter. apply (NoDup_nonstandard (b_tree b) W).
  - intros x Hx K. apply in_missing in K as [_ K]. contradiction.
Qed.

Lemma create_plan_in k s b x : wf_tree (b_tree b) ->
  (In x (all_contents (create_plan k s b)) <->
   empty_dir x (b_tree b) \/
   (In x (files (b_tree b)) /\
    (special_name (basename x) = false \/
     (special_name x = false /\ ~ In (SLASH :: x) (s_forhead s))))).
Proof.
  intros W. rewrite create_plan_eq, complete_plan_contents, in_app_iff, in_missing.
  unfold required. cbn [p_bag]. rewrite (in_nonstandard (b_tree b) W).
  set (A := all_contents _).
  assert (HA : In x A <-> In x (files (b_tree b)) /\ special_name x = false /\ ~ In (SLASH :: x) (s_forhead s)).
  { unfold A, all_contents. cbn [p_manifests]. split.
    - intros H. apply (Permutation_in x (packed_contents k s (b_tree b))) in H.
      apply filter_In in H as [H1 H2]. apply andb_true_iff in H2 as [H2 H3].
      apply negb_true_iff in H2, H3. apply str_in_false in H3. auto.
    - intros (H1 & H2 & H3). apply (Permutation_in x (Permutation_sym (packed_contents k s (b_tree b)))).
      apply filter_In. split; [exact H1|]. rewrite H2. cbn. apply negb_true_iff, str_in_false, H3. }
  destruct (in_dec (list_eq_dec N.eq_dec) x A) as [Y|Y].
  - pose proof (proj1 HA Y). tauto.
  - rewrite HA in Y. tauto.
Qed.

(** ** Names *)

Lemma name_from_simple base ms : forall k,
  name_from (simple_namer base) k ms =
  (Ok tt, map (fun im => set_name (base ++ U "_" ++ dec (N.of_nat (S (fst im))) ++ U ".mbag") (snd im))
              (combine (seq k (length ms)) ms)).
Proof.
  induction ms as [|m ms IH]; intros k; [reflexivity|].
  cbn [name_from simple_namer]. rewrite IH. reflexivity.
Qed.

(** * Properties of writing split bags: C25 - C31, C45, C64, C70 - C72

    Every theorem is followed by its assumptions and by an example that meets
    its hypotheses. *)

Require Import String NArith PeanoNat Bool List Lia Permutation.
From Verif Require Import PyBase PyFacts Version Tsv TsvProofs Fs FsFacts HeadBag HeadBagProofs HeadBagProofs2 HeadBagProofs3 BagIt BagItProofs BagItProofs2 Split SplitProofs3 SplitApply SplitApplyProofs SplitApplyProofs2 SplitApplyProofs3 SplitApplyProofs4 SplitApplyProofs5 SplitApplyProofs6 SplitApplyProofs7 SplitApplyProofs8.
Import ListNotations.
Open Scope N_scope.

(** ** Vocabulary *)

(** Applying plan [p] to source [s] in output directory [out] made [bags]
    (names and trees), in this order. *)
Definition splits_into (s : source) (o : apply_opts) (p : plan) (it : option naming)
    (out bags : dict tree) : Prop :=
  exists a, apply_plan s o p it out = Ok a /\ a_out a = out ++ bags.

(** The tags that a bag has when it is opened. *)
Definition tags_of (r : reader) (t : tree) : res infod :=
  match read (U "bag-info.txt") t with Some c => load_tags r c | None => Ok [] end.

(** The source was opened: its tags are those on the disk. *)
Definition opened (s : source) : Prop := tags_of (so_reader s) (so_tree s) = Ok (so_info s).

(** The member list and the lookup that the source has itself. *)
Inductive lists_before (s : source) : list pystr -> dict pystr -> Prop :=
| not_a_head : od_has (U "Multibag-Head-Version") (so_info s) = false -> lists_before s [] []
| a_head ms lu : od_has (U "Multibag-Head-Version") (so_info s) = true ->
    let h := open_hb (so_name s) (so_tree s) (so_info s) (so_reader s) in
    iter_member_bags h = Ok ms -> iter_file_lookup h = Ok lu ->
    lists_before s (map Tsv.m_name ms) (od_of_pairs lu).

(** Options whose values are single lines. *)
Definition plain_opts (r : reader) (o : apply_opts) : Prop :=
  tag_value_ok r (ao_version o) /\
  Forall (fun p => tag_value_ok r (match snd p with Some b => fst p ++ U "," ++ b | None => fst p end))
         (ao_deprecates o).

Lemma lists_before_initial s ms lu : lists_before s ms lu -> initial_lists s = Ok (ms, lu).
Proof.
  unfold initial_lists. intros [E|ms' lu' E h Hm Hl].
  - change T_HeadVersion with (U "Multibag-Head-Version"). rewrite E. reflexivity.
  - change T_HeadVersion with (U "Multibag-Head-Version"). rewrite E. fold h. rewrite Hm, Hl. reflexivity.
Qed.

Lemma plain_opts_ok r o : plain_opts r o -> opts_ok r o.
Proof.
  intros [A B]. unfold opts_ok, head_items. apply Forall_app. split.
  - constructor; [|constructor]. cbn. apply plain_folded in A. tauto.
  - unfold items. rewrite Forall_map. cbn [snd]. rewrite Forall_map. eapply Forall_impl; [|exact B].
    intros p V. apply plain_folded in V. tauto.
Qed.

Lemma opened_info s : opened s -> read F_baginfo (so_tree s) <> None -> info_ok (so_reader s) (so_info s).
Proof.
  unfold opened, tags_of. intros H D. change F_baginfo with (U "bag-info.txt") in D.
  destruct (read (U "bag-info.txt") (so_tree s)) as [c|] eqn:E; [|congruence].
  eapply load_tags_ok; eauto.
Qed.

Lemma opened_info_ok s : opened s -> info_ok (so_reader s) (so_info s).
Proof.
  intros H. destruct (read F_baginfo (so_tree s)) eqn:E; [apply opened_info; congruence|].
  unfold opened, tags_of in H. change F_baginfo with (U "bag-info.txt") in E. rewrite E in H. inversion H as [E'].
  split; [constructor|intros k v []].
Qed.

Lemma load_shape r text d : load_tags r text = Ok d -> tag_shape d.
Proof.
  unfold load_tags. intros H. apply bind_ok in H. destruct H as (kvs & _ & H). inversion H; subst.
  apply fold_add_tag_shape. intros k l E. discriminate.
Qed.

(** What a bag's tags read back as. *)
Lemma bag_tags s o m h ms lu b t : opened s -> plain_opts (so_reader s) o -> no_brk (so_reader s) b ->
  one_bag s o m h ms lu b t ->
  exists d, tags_of (so_reader s) t = Ok d /\ tag_shape d /\
    forall k, tag_values d k = map (unfold_value (so_reader s)) (values_of k (info_items s o b m h)).
Proof.
  intros Ho Hp Hb (c & Rc & R & Hh). apply read_baginfo in R.
  destruct (info_read_back (so_reader s) s o b m h (opened_info_ok s Ho) Hb (plain_opts_ok _ _ Hp)) as (d & E & V).
  exists d. unfold tags_of. rewrite R. split; [exact E|]. split; [eapply load_shape; eauto|exact V].
Qed.

Lemma made_split s o p it out bags : splits_into s o p it out bags ->
  exists ms0 lu0 ms' lu', initial_lists s = Ok (ms0, lu0) /\ made s o (manifests p) bags ms0 lu0 ms' lu' /\
    NoDup (map fst bags) /\ (forall b, In b (map fst bags) -> ~ In b (od_keys out)) /\
    map Some (map fst bags) = names_for (names_of it) (p_manifests p).
Proof.
  intros (a & H & E). apply apply_plan_ok in H. destruct H as (ms0 & lu0 & bts & Hi & Eo & M & N1 & F & L).
  rewrite Eo in E. apply app_inv_head in E. subst bts. exists ms0, lu0, (a_members a), (a_lookup a). auto.
Qed.

Lemma Forall2_manifests {B} (P : manifest -> bool -> B -> Prop) p (bs : list B) :
  Forall2 (fun mh b => P (fst mh) (snd mh) b) (manifests p) bs ->
  forall P' : manifest -> bool -> B -> Prop, (forall m h b, In m (p_manifests p) -> P m h b -> P' m h b) ->
  Forall2 (fun mh b => P' (fst mh) (snd mh) b) (manifests p) bs.
Proof.
  intros H P' HP.
  assert (In1 : forall mh, In mh (manifests p) -> In (fst mh) (p_manifests p)).
  { unfold manifests. generalize (p_manifests p). clear. induction l as [|m [|m' l] IH]; intros mh I.
    - destruct I.
    - destruct I as [<-|[]]. left; reflexivity.
    - destruct I as [<-|I]; [left; reflexivity|]. right. apply IH. exact I. }
  induction H; constructor.
  - apply HP; auto. apply In1. left; reflexivity.
  - apply IHForall2. intros mh I. apply In1. right. exact I.
Qed.

Lemma each_bag s o p bags :
  Forall2 (fun mh bt => exists ms lu, one_bag s o (fst mh) (snd mh) ms lu (fst bt) (snd bt)) (manifests p) bags ->
  forall P : manifest -> bool -> pystr * tree -> Prop,
  (forall m h bt, In m (p_manifests p) -> (exists ms lu, one_bag s o m h ms lu (fst bt) (snd bt)) -> P m h bt) ->
  Forall2 (fun mh bt => P (fst mh) (snd mh) bt) (manifests p) bags.
Proof.
  intros H P HP.
  exact (Forall2_manifests (fun m h bt => exists ms lu, one_bag s o m h ms lu (fst bt) (snd bt)) p bags H P HP).
Qed.

(** An example: a bag that is split in two. *)
Definition ex_info_text : pystr :=
  U "Internal-Sender-Identifier: src" ++ [LF] ++ U "External-Identifier: ark:/1" ++ [LF] ++
  U "Contact-Name: A" ++ [LF] ++ U "Bag-Size: 1 kB" ++ [LF] ++ U "Contact-Name: B" ++ [LF] ++
  U "Payload-Oxum: 7.2" ++ [LF] ++ U "Multibag-Version: 0.2" ++ [LF].
Definition ex_tree : tree :=
  [(U "bagit.txt", NFile (U "BagIt-Version: 1.0" ++ [LF]));
   (U "bag-info.txt", NFile ex_info_text);
   (U "manifest-md5.txt", NFile (U "h1  data/a" ++ [LF] ++ U "h2  data/d/b" ++ [LF]));
   (U "tagmanifest-md5.txt", NFile (U "h3  meta/m" ++ [LF]));
   (U "data", NDir); (U "data/a", NFile (U "abcd")); (U "data/d", NDir); (U "data/d/b", NFile (U "xyz"));
   (U "data/e", NDir); (U "meta", NDir); (U "meta/m", NFile (U "M"))].
Definition ex_algos : list pystr := [U "md5"; U "sha256"].
Definition got {A} (d : A) (x : res A) : A := match x with Ok a => a | Err _ => d end.
Definition ex_source : source :=
  {| so_name := U "src"; so_tree := ex_tree; so_info := got [] (load_tags Codecs ex_info_text);
     so_algos := ex_algos;
     so_entries := got [] (load_manifests (fun _ => false) true Codecs (bag_manifests ex_algos true ex_tree));
     so_reader := Codecs |}.
Definition ex_plan : plan :=
  {| p_bag := {| b_name := U "src"; b_tree := ex_tree; b_dirsize := fun _ => 0 |};
     p_manifests :=
       [{| m_name := Some (U "one"); m_contents := [U "data/a"; U "gone"]; m_total := 4 |};
        {| m_name := Some (U "two"); m_contents := [U "data/d/b"; U "data/e"; U "meta/m"]; m_total := 4 |}] |}.
Definition ex_opts : apply_opts := {| ao_nopass := []; ao_version := U "1.1"; ao_deprecates := [] |}.
Definition ex_bags : dict tree :=
  match apply_plan ex_source ex_opts ex_plan None [] with Ok a => a_out a | Err _ => [] end.

Example ex_splits : splits_into ex_source ex_opts ex_plan None [] ex_bags /\ map fst ex_bags = [U "one"; U "two"].
Proof.
  split; [|vm_compute; reflexivity]. unfold ex_bags.
  destruct (apply_plan ex_source ex_opts ex_plan None []) as [a|e] eqn:E; [exists a; auto|vm_compute in E; discriminate].
Qed.

Example ex_opened : opened ex_source /\ plain_opts Codecs ex_opts.
Proof.
  split; [vm_compute; reflexivity|]. split; [|constructor]. split; [right; apply trimmedb_ok; reflexivity|].
  apply no_brk_b. reflexivity.
Qed.

(** ** C25: contents *)

(** Output bag [t] holds exact copies of what [m] plans from [src], apart
    from the tag files [own_file] that the split writes itself: bagit.txt,
    bag-info.txt, manifests and, in the head bag, the three files in
    "multibag". *)
Record exact_copies (src t : tree) (m : manifest) (ishead : bool) : Prop := {
  ec_planned : forall f c, In f (m_contents m) -> read f src = Some c -> ~ own_file ishead f ->
    read f t = Some c;
  ec_only : forall f c, read f t = Some c ->
    own_file ishead f \/ (In f (m_contents m) /\ read f src = Some c);
  ec_dirs : forall d, In d (m_contents m) -> is_dir d src = true -> ~ own_file ishead d ->
    is_dir d t = true;
  ec_parents : forall d, is_dir d t = true ->
    d = [] \/ d = U "data" \/ (ishead = true /\ d = U "multibag") \/
    exists f, In f (m_contents m) /\ exists_ f src = true /\
              (below d f = true \/ (d = f /\ is_dir f src = true))
}.

Lemma own_file_dec h p : own_file h p \/ ~ own_file h p.
Proof.
  assert (Aff : forall pre, (exists a, p = pre ++ a ++ U ".txt") \/ ~ exists a, p = pre ++ a ++ U ".txt").
  { intros pre. destruct (startswith p pre) eqn:S1.
    - apply startswith_iff in S1. destruct S1 as [x ->]. destruct (endswith x (U ".txt")) eqn:S2.
      + apply endswith_iff in S2. destruct S2 as [a ->]. left. eauto.
      + right. intros [a E]. apply app_inv_head in E. subst x.
        assert (T : endswith (a ++ U ".txt") (U ".txt") = true) by (apply endswith_iff; eauto). congruence.
    - right. intros [a ->]. assert (T : startswith (pre ++ a ++ U ".txt") pre = true) by (apply startswith_iff; eauto). congruence. }
  destruct (str_eq_dec p (U "bagit.txt")) as [->|D1]; [left; constructor|].
  destruct (str_eq_dec p (U "bag-info.txt")) as [->|D2]; [left; constructor|].
  destruct (Aff (U "manifest-")) as [[a ->]|D3]; [left; constructor|].
  destruct (Aff (U "tagmanifest-")) as [[a ->]|D4]; [left; constructor|].
  destruct h.
  - destruct (str_eq_dec p (U "multibag/member-bags.tsv")) as [->|D5]; [left; constructor; auto|].
    destruct (str_eq_dec p (U "multibag/file-lookup.tsv")) as [->|D6]; [left; constructor; auto|].
    destruct (str_eq_dec p (U "multibag/aggregation-info.txt")) as [->|D7]; [left; constructor; auto|].
    right. intros O. inversion O; subst; eauto.
  - right. intros O. inversion O; subst; eauto; discriminate.
Qed.

Theorem C25_exact_copies : forall s o p it out bags, wf_tree (so_tree s) ->
  splits_into s o p it out bags ->
  Forall2 (fun mh bt => exact_copies (so_tree s) (snd bt) (fst mh) (snd mh)) (manifests p) bags.
Proof.
  intros s o p it out bags W H. apply made_split in H. destruct H as (ms0 & lu0 & ms' & lu' & _ & M & _).
  apply made_each in M.
  apply (each_bag s o p bags M (fun m h bt => exact_copies (so_tree s) (snd bt) m h)).
  intros m h [b t] _ (ms & lu & c & Rc & R & _). cbn [fst snd] in *.
  assert (RD : forall q, ~ own_file h q -> read q t = if str_in q (m_contents m) then read q (so_tree s) else None).
  { intros q Nq. eapply bag_reads; eauto. }
  assert (DM : forall d, dirp d t -> d = DATA \/ (h = true /\ d = MULTIBAG) \/
    exists f, In f (m_contents m) /\
      ((is_file f (so_tree s) = true /\ In d (prefixes (dirname f))) \/
       (is_dir f (so_tree s) = true /\ is_file f (so_tree s) = false /\ In d (prefixes f)))).
  { intros d D. destruct (run_ops_dirp d _ _ _ R) as (A & _). destruct (A D) as [A'|A']; [|discriminate].
    apply bag_makes in A'. exact A'. }
  constructor.
  - intros f cc If Rf Nf. rewrite RD by exact Nf. apply str_in_iff in If. rewrite If. exact Rf.
  - intros f cc Rf. destruct (own_file_dec h f) as [O|O]; [left; exact O|right].
    rewrite RD in Rf by exact O. destruct (str_in f (m_contents m)) eqn:E; [|discriminate].
    apply str_in_iff in E. auto.
  - intros d Id Dd Nd. destruct d as [|x d']; [reflexivity|]. set (d := x :: d') in *.
    assert (Ds : dirp d (so_tree s)) by (apply is_dir_dirp; [discriminate|exact Dd]).
    assert (Gd : good_path d) by (eapply wf_good; [exact W|eapply od_get_some_key; exact Ds]).
    assert (Ex : exists_ d t = true).
    { destruct (run_ops_dirp d _ _ _ R) as (_ & _ & A). apply A. right. apply bag_makes. right; right.
      exists d. split; auto. right. split; auto. split; [apply dirp_not_file; exact Ds|].
      apply in_prefixes; auto. split; [discriminate|auto]. }
    unfold exists_ in Ex. apply orb_true_iff in Ex. destruct Ex as [Ex|Ex]; auto.
    apply is_file_read in Ex. destruct Ex as [cc Ex]. rewrite RD in Ex by exact Nd.
    apply str_in_iff in Id. rewrite Id in Ex. apply read_get in Ex. unfold dirp in Ds. congruence.
  - intros d D. apply is_dir_cases in D. destruct D as [->|D]; [auto|]. right.
    apply DM in D. destruct D as [->|[[Eh ->]|(f & If & D)]]; [left; reflexivity|right; left; auto|].
    right; right. exists f. split; auto. unfold exists_. destruct D as [[F D]|[F [F' D]]].
    + rewrite F. split; [reflexivity|]. left.
      assert (Gf : good_path f) by (eapply file_good; eauto).
      destruct (good_path_dirname f Gf) as [E|G]; [rewrite E in D; destruct D|].
      apply in_prefixes in D; auto. destruct D as [Nd D]. apply below_dirname; auto. destruct D as [D|D]; auto.
    + rewrite F. rewrite orb_true_r. split; [reflexivity|].
      apply is_dir_cases in F. destruct F as [->|F]; [destruct D|].
      assert (Gf : good_path f) by (eapply wf_good; [exact W|eapply od_get_some_key; exact F]).
      apply in_prefixes in D; auto. destruct D as [Nd [->|D]]; auto.
Qed.

(** A split of a bag that has the two tag files, into bags with distinct new
    names, succeeds and makes one bag for each manifest. *)
Theorem C25_split_succeeds : forall s o p it out ms0 lu0 names,
  layout_ok s true -> is_file (U "bagit.txt") (so_tree s) = true -> is_file (U "bag-info.txt") (so_tree s) = true ->
  lists_before s ms0 lu0 ->
  usable it -> map Some names = names_for (names_of it) (p_manifests p) -> NoDup (od_keys out ++ names) ->
  exists bags, splits_into s o p it out bags /\ map fst bags = names.
Proof.
  intros s o p it out ms0 lu0 names L Fb Fi LB Hu Hn Hd.
  apply is_file_read in Fb, Fi. destruct Fb as [cb Fb], Fi as [ci Fi].
  assert (En : map fst (manifests p) = p_manifests p).
  { unfold manifests. generalize (p_manifests p). induction l as [|m [|m' l] IH]; [reflexivity|reflexivity|].
    change (mark_head (m :: m' :: l)) with ((m, false) :: mark_head (m' :: l)). cbn [map fst]. rewrite IH. reflexivity. }
  destruct (apply_fold_runs s o (manifests p) L ltac:(unfold F_bagit; congruence) ltac:(intros _; unfold F_baginfo; congruence)
              {| a_out := out; a_members := ms0; a_lookup := lu0; a_naming := it |} names Hu) as [a Ha].
  - cbn [a_naming]. rewrite En. exact Hn.
  - exact Hd.
  - assert (E : apply_plan s o p it out = Ok a).
    { unfold apply_plan. rewrite (lists_before_initial _ _ _ LB). exact Ha. }
    pose proof E as E'. apply apply_plan_ok in E'. destruct E' as (ms1 & lu1 & bts & _ & Eo & _ & _ & _ & En').
    exists bts. split; [exists a; auto|]. rewrite <- Hn in En'.
    clear -En'. revert names En'. generalize (map fst bts). induction l as [|x l IH]; intros [|y n] E; try discriminate; auto.
    cbn in E. inversion E. f_equal. auto.
Qed.

(** A decidable sufficient condition for [layout_ok], for examples. *)
Definition layoutb (s : source) (h : bool) : bool :=
  wf_treeb (so_tree s) && negb (is_file (U "data") (so_tree s)) && negb (is_file (U "multibag") (so_tree s)) &&
  forallb (fun d => negb (existsb (fun c => (c =? DOT)) d)) (dirs (so_tree s)) &&
  forallb (fun a => negb (existsb (fun c => (c =? SLASH)) a)) (so_algos s) &&
  forallb (fun fd => forallb (fun ah => str_in (fst ah) (so_algos s)) (snd fd)) (so_entries s).

Lemma layoutb_ok s h : layoutb s h = true -> layout_ok s h.
Proof.
  unfold layoutb. rewrite !andb_true_iff. intros (((((A & B) & C) & D) & E) & F).
  apply wf_treeb_ok in A. constructor; auto.
  - apply negb_true_iff. exact B.
  - intros _. apply negb_true_iff. exact C.
  - intros p O. destruct (is_dir p (so_tree s)) eqn:Dp; auto. exfalso.
    assert (Dt : In DOT p) by (destruct O; rewrite ?in_app_iff; cbn; tauto).
    assert (Np : p <> []) by (intros ->; destruct Dt).
    apply is_dir_dirp in Dp; auto. apply in_dirs in Dp; [|apply A]. rewrite forallb_forall in D. apply D in Dp.
    apply negb_true_iff in Dp. assert (X : existsb (fun c => c =? DOT) p = true).
    { apply existsb_exists. exists DOT. split; auto. }
    congruence.
  - rewrite forallb_forall in E. apply Forall_forall. intros a I J. apply E in I. apply negb_true_iff in I.
    assert (X : existsb (fun c => c =? SLASH) a = true) by (apply existsb_exists; exists SLASH; auto). congruence.
  - intros f d a x G I. apply od_get_in in G. rewrite forallb_forall in F. apply F in G. cbn [snd] in G.
    rewrite forallb_forall in G. apply G in I. apply str_in_iff in I. exact I.
Qed.

Example C25_case :
  layout_ok ex_source true /\ wf_tree (so_tree ex_source) /\ lists_before ex_source [] [] /\
  map (fun bt => files (snd bt)) ex_bags =
    [[U "manifest-md5.txt"; U "bagit.txt"; U "data/a"; U "bag-info.txt"];
     [U "manifest-md5.txt"; U "bagit.txt"; U "data/d/b"; U "meta/m"; U "tagmanifest-md5.txt"; U "bag-info.txt";
      U "multibag/member-bags.tsv"; U "multibag/file-lookup.tsv"; U "multibag/aggregation-info.txt"]] /\
  map (fun bt => dirs (snd bt)) ex_bags =
    [[U "data"]; [U "data"; U "data/d"; U "data/e"; U "meta"; U "multibag"]].
Proof.
  split; [apply layoutb_ok; vm_compute; reflexivity|].
  split; [apply wf_treeb_ok; vm_compute; reflexivity|].
  split; [constructor; vm_compute; reflexivity|]. split; vm_compute; reflexivity.
Qed.

Print Assumptions C25_exact_copies.
Print Assumptions C25_split_succeeds.

(** ** C26: the head bag and its members *)

Lemma split_last s o p it out bags : splits_into s o p it out bags -> p_manifests p <> [] ->
  exists l m bags1 b t ms0 lu0 ms1 lu1 ms' lu',
    p_manifests p = l ++ [m] /\ bags = bags1 ++ [(b, t)] /\ initial_lists s = Ok (ms0, lu0) /\
    made s o (manifests p) bags ms0 lu0 ms' lu' /\
    made s o (map (fun x => (x, false)) l) bags1 ms0 lu0 ms1 lu1 /\
    one_bag s o m true ms' lu' b t /\ NoDup (map fst bags).
Proof.
  intros H Np. apply made_split in H. destruct H as (ms0 & lu0 & ms' & lu' & Hi & M & Nd & _).
  destruct (exists_last Np) as (l & m & E).
  pose proof M as M'. unfold manifests in M'. rewrite E, mark_head_last in M'. apply made_snoc in M'.
  destruct M' as (bags1 & b & t & ms1 & lu1 & -> & M1 & _ & _ & O).
  exists l, m, bags1, b, t, ms0, lu0, ms1, lu1, ms', lu'. auto 10.
Qed.

Lemma head_version_values s o b m h :
  values_of T_HeadVersion (info_items s o b m h) = if h then [ao_version o] else [].
Proof.
  rewrite in_info_items.
  rewrite (v_multibag o (so_info s) b (oxum_text s m) T_HeadVersion) by (try reflexivity; intros I; cbn in I; intuition discriminate).
  rewrite values_head. destruct h; reflexivity.
Qed.

(** Only the last bag is a head bag, and the names in its member list are
    those of the source's own list (if any) that were not written now,
    followed by all the bags written, in order. Missing for C26: names that
    member-bags.tsv cannot hold (see C01), and source lists with repeats: see
    [C26_refuted]. *)
Theorem C26_head_and_members_partial : forall s o p it out bags ms0 lu0,
  opened s -> plain_opts (so_reader s) o -> lists_before s ms0 lu0 -> NoDup ms0 ->
  p_manifests p <> [] -> splits_into s o p it out bags ->
  Forall (storable (so_reader s)) (ms0 ++ map fst bags) ->
  exists others head t tags members,
    bags = others ++ [(head, t)] /\
    Forall (fun bt => exists d, tags_of (so_reader s) (snd bt) = Ok d /\
                                od_has (U "Multibag-Head-Version") d = false) others /\
    tags_of (so_reader s) t = Ok tags /\
    tag_values tags (U "Multibag-Head-Version") = [ao_version o] /\
    iter_member_bags (open_hb head t tags (so_reader s)) = Ok members /\
    map Tsv.m_name members = filter (fun n => negb (str_in n (map fst bags))) ms0 ++ map fst bags /\
    NoDup (map Tsv.m_name members).
Proof.
  intros s o p it out bags ms0 lu0 Ho Hp LB Nd0 Np H F. set (r := so_reader s) in *.
  pose proof (split_last _ _ _ _ _ _ H Np) as (l & m & bags1 & b & t & ms0' & lu0' & ms1 & lu1 & ms' & lu' & Em & Eb & Hi & M & M1 & O & Nd).
  apply lists_before_initial in LB. rewrite LB in Hi. inversion Hi; subst ms0' lu0'. clear Hi.
  apply Forall_app in F. destruct F as [F0 Fb].
  assert (Nb : forall bt, In bt bags -> no_brk r (fst bt)).
  { intros bt I. rewrite Forall_forall in Fb. assert (J : In (fst bt) (map fst bags)) by (apply in_map; auto).
    apply Fb in J. destruct J as (_ & J & _). exact J. }
  destruct (bag_tags s o m true ms' lu' b t Ho Hp) as (d & Td & Sh & V); [apply (Nb (b, t)); subst bags; apply in_app_iff; right; left; reflexivity|exact O|].
  fold r in Td, V.
  assert (St : std_tags d (U "multibag")) by (eapply split_std; [apply (opened_info_ok s Ho)|exact V|exact Sh]).
  assert (Ems : ms' = filter (fun n => negb (str_in n (map fst bags))) ms0 ++ map fst bags).
  { rewrite (made_members _ _ _ _ _ _ _ _ M). apply push_members; auto. }
  assert (Fm : Forall (storable r) ms').
  { rewrite Ems. apply Forall_app. split; auto. apply Forall_forall. intros x I. apply filter_In in I.
    rewrite Forall_forall in F0. apply F0. tauto. }
  destruct O as (c & Rc & R & Hh). pose proof (read_members _ _ _ _ _ _ _ _ _ R eq_refl) as Rm.
  pose proof (members_read r b t d ms' St Rm Fm) as Im.
  exists bags1, b, t, d, (map (fun n => {| Tsv.m_name := n; m_uri := None; m_comment := None; m_info := [] |}) ms').
  split; [exact Eb|]. split; [|split; [exact Td|split]].
  - apply Forall_forall. intros [b1 t1] I1. apply made_each in M1.
    assert (X : exists m1 ms lu, one_bag s o m1 false ms lu b1 t1).
    { clear -M1 I1. revert I1. remember (map (fun x => (x, false)) l) as L. revert l HeqL.
      induction M1 as [|mh bt L bts Hm M1 IH]; intros [|m l] E I; cbn in E; try discriminate.
      - destruct I.
      - inversion E; subst. destruct I as [->|I]; [|exact (IH l eq_refl I)]. destruct Hm as (ms & lu & Hm). cbn in Hm. eauto. }
    destruct X as (m1 & ms & lu & X).
    destruct (bag_tags s o m1 false ms lu b1 t1 Ho Hp) as (d1 & Td1 & Sh1 & V1); [apply (Nb (b1, t1)); subst bags; apply in_app_iff; auto|exact X|].
    exists d1. split; [exact Td1|]. specialize (V1 T_HeadVersion). rewrite head_version_values in V1. cbn [map] in V1.
    change (U "Multibag-Head-Version") with T_HeadVersion. apply od_has_false.
    unfold tag_values in V1. destruct (od_get T_HeadVersion d1) as [[v|[|v l0]]|] eqn:G; auto; try discriminate.
    apply Sh1 in G. cbn in G. lia.
  - change (U "Multibag-Head-Version") with T_HeadVersion. rewrite V, head_version_values. cbn [map]. f_equal.
    destruct Hp as [Hv _]. apply plain_folded in Hv. tauto.
  - split; [exact Im|]. assert (E : forall ns, map Tsv.m_name (map (fun n => {| Tsv.m_name := n; m_uri := None; m_comment := None; m_info := [] |}) ns) = ns).
    { induction ns; cbn; congruence. }
    rewrite E. split; [exact Ems|]. rewrite Ems. apply NoDup_app_intro; auto.
    + apply NoDup_filter. exact Nd0.
    + intros x I J. apply filter_In in I. destruct I as [_ I]. apply str_in_iff in J. rewrite J in I. discriminate.
Qed.

Example C26_case :
  opened ex_source /\ plain_opts Codecs ex_opts /\ lists_before ex_source [] [] /\
  p_manifests ex_plan <> [] /\ splits_into ex_source ex_opts ex_plan None [] ex_bags /\
  Forall (storable Codecs) ([] ++ map fst ex_bags).
Proof.
  split; [apply ex_opened|]. split; [apply ex_opened|]. split; [constructor; vm_compute; reflexivity|].
  split; [discriminate|]. split; [apply ex_splits|]. destruct ex_splits as [_ ->].
  apply Forall_forall. intros x [<-|[<-|[]]]; apply storableb_ok; reflexivity.
Qed.

(** A source that is a head bag itself. *)
Definition exh_info_text : pystr :=
  U "External-Identifier: ark:/1" ++ [LF] ++ U "Multibag-Version: 0.4" ++ [LF] ++
  U "Multibag-Head-Version: 1.0" ++ [LF] ++ U "Multibag-Tag-Directory: multibag" ++ [LF].
Definition exh_tree (members : list pystr) : tree :=
  [(U "bagit.txt", NFile (U "BagIt-Version: 1.0" ++ [LF]));
   (U "bag-info.txt", NFile exh_info_text);
   (U "manifest-md5.txt", NFile (U "h1  data/a" ++ [LF]));
   (U "tagmanifest-md5.txt", NFile (U "h2  multibag/member-bags.tsv" ++ [LF]));
   (U "data", NDir); (U "data/a", NFile (U "abcd"));
   (U "multibag", NDir);
   (U "multibag/member-bags.tsv", NFile (members_out members));
   (U "multibag/file-lookup.tsv", NFile (U "data/old" ++ [TAB] ++ U "old" ++ [LF]))].
Definition exh_source (members : list pystr) : source :=
  {| so_name := U "src"; so_tree := exh_tree members; so_info := got [] (load_tags Codecs exh_info_text);
     so_algos := ex_algos;
     so_entries := got [] (load_manifests (fun _ => false) true Codecs (bag_manifests ex_algos true (exh_tree members)));
     so_reader := Codecs |}.
Definition exh_plan (members : list pystr) (contents : list pystr) : plan :=
  {| p_bag := {| b_name := U "src"; b_tree := exh_tree members; b_dirsize := fun _ => 0 |};
     p_manifests := [{| m_name := Some (U "one"); m_contents := contents; m_total := 0 |}] |}.

(** The names in the member list of the head bag of a split into one bag. *)
Definition new_list (s : source) (o : apply_opts) (p : plan) : res (list pystr) :=
  let? a := apply_plan s o p None [] in
  match a_out a with
  | [(head, t)] =>
      let? tags := tags_of (so_reader s) t in
      let? ms := iter_member_bags (open_hb head t tags (so_reader s)) in
      Ok (map Tsv.m_name ms)
  | _ => Err EIndex
  end.

(** The list can have repeats: a name listed twice in a source that is a head
    bag is listed twice in the new head. *)
Theorem C26_refuted : exists s o p a head t tags members,
  opened s /\ apply_plan s o p None [] = Ok a /\ a_out a = [(head, t)] /\ tags_of (so_reader s) t = Ok tags /\
  iter_member_bags (open_hb head t tags (so_reader s)) = Ok members /\
  map Tsv.m_name members = [U "old"; U "old"; U "one"] /\ ~ NoDup (map Tsv.m_name members).
Proof.
  assert (X : opened (exh_source [U "old"; U "old"])) by (vm_compute; reflexivity).
  assert (E : new_list (exh_source [U "old"; U "old"]) ex_opts (exh_plan [U "old"; U "old"] [U "data/a"]) =
              Ok [U "old"; U "old"; U "one"]) by (vm_compute; reflexivity).
  revert X E. generalize (exh_source [U "old"; U "old"]) ex_opts (exh_plan [U "old"; U "old"] [U "data/a"]).
  intros s o p X E. unfold new_list in E. apply bind_ok in E. destruct E as (a & Ha & E).
  destruct (a_out a) as [|[h t] [|y z]] eqn:Eo; try discriminate.
  apply bind_ok in E. destruct E as (d & Hd & E). apply bind_ok in E. destruct E as (ms & Hm & E).
  assert (E' : map Tsv.m_name ms = [U "old"; U "old"; U "one"]) by congruence.
  exists s, o, p, a, h, t, d, ms. do 6 (split; auto). rewrite E'. intros N0. inversion N0 as [|? ? H _]; subst.
  apply H. left; reflexivity.
Qed.

Print Assumptions C26_head_and_members_partial.
Print Assumptions C26_refuted.

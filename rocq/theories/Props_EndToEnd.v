(** * Splitting with one of the library's splitters, from end to end (C100)

    Brings together the plans of the splitters (C20, C23), the making of the
    bags (C25), their validation (C90, C91, C92) and the restoring (C95): for
    an ordinary valid bag nothing is left to be assumed about the plan, about
    the names of the bags or about whether the split comes to an end. *)

Require Import String NArith ZArith PeanoNat Bool List Lia.
From Verif Require Import PyBase PyFacts Version Tsv TsvProofs Fs FsFacts HeadBag HeadBagProofs HeadBagProofs3 BagIt BagItProofs BagItProofs2 Split SplitProofs2 SplitProofs3 Props_Split SplitApply SplitApplyProofs SplitApplyProofs2 SplitApplyProofs4 SplitApplyProofs5 SplitApplyProofs6 SplitApplyProofs8 SplitApplyProofs9 Props_SplitApply Props_SplitApply2 Restore RestoreProofs RestoreProofs2 RestoreProofs3 Props_Restore RestoreProofs8 RestoreProofs9 RestoreProofs10 Props_RoundTrip SplitRestoreProofs Props_RoundTrip2 Props_Restore4 Validate Props_Validate3 Props_Validate BagValid BagValidProofs Props_BagValid Props_BagValid2 Props_BagValid3 Props_BagValid4.
Import ListNotations.
Open Scope N_scope.

(** An ordinary bag: valid, not a multibag, with a bag-info.txt. Its paths and
    tag values can be written to the files of a bag, and only the files that
    BagIt defines are called like them. *)
Record ordinary (w : benv) (s : source) (b : obag) : Prop := {
  or_valid : valid_source w s b;
  or_algos : NoDup (v_algos w) /\ Forall (fun a => ~ In SLASH a) (v_algos w);
  or_ascii : forall a c x, In x (v_hash w a c) -> x < 128;
  or_info : is_file (U "bag-info.txt") (so_tree s) = true;
  or_single : od_has (U "Multibag-Head-Version") (so_info s) = false /\ forall q, multibag_path q -> od_get q (so_tree s) = None;
  or_special : forall q, own_file true q \/ q = U "fetch.txt" -> In q (od_keys (so_tree s)) ->
    is_file q (so_tree s) = true /\ special_name q = true /\ ~ In SLASH q;
  or_looks : forall q, In q (od_keys (so_tree s)) -> special_name q = true -> ~ In SLASH q -> special_path q;
  or_paths : forall q, In q (od_keys (so_tree s)) -> v_danger w q = false /\ manifest_path IoText q /\ storable IoText q;
  or_lines : forall k x, In x (tag_values (so_info s) k) -> no_brk IoText x;
  or_ids : forall k x, In k [U "Bag-Group-Identifier"; U "External-Identifier"] -> In x (tag_values (so_info s) k) -> x <> []
}.

(** The plan that a splitter makes for the bag, which is where its sizes come
    from ([ds] are those of directories). *)
Definition bag_of (s : source) (ds : pystr -> N) : bag :=
  {| Split.b_name := so_name s; Split.b_tree := so_tree s; b_dirsize := ds |}.
Definition planned (k : strategy) (sp : splitter) (base : pystr) (s : source) (ds : pystr -> N) : plan :=
  snd (splitter_plan k sp base (bag_of s ds)).

(** The name of the bag with the number [i]. *)
Definition nth_name (base : pystr) (i : nat) : pystr := base ++ U "_" ++ dec (N.of_nat i) ++ U ".mbag".

Lemma nodup_parts {A} (l l' : list A) : NoDup (l ++ l') -> NoDup l /\ NoDup l'.
Proof.
  induction l as [|x l IH]; cbn [app]; [intros H; split; [constructor|exact H]|]. intros H. inversion H as [|? ? Nx Nl]; subst.
  destruct (IH Nl) as [H1 H2]. split; [|exact H2]. constructor; [|exact H1]. intros I. apply Nx, in_app_iff. auto.
Qed.

Section Ordinary.
  Variables (w : benv) (s : source) (b : obag).
  Hypothesis O : ordinary w s b.

  Lemma ord_wf : wf_tree (so_tree s).
  Proof. apply (vs_wf _ _ _ (or_valid _ _ _ O)). Qed.

  Lemma ord_bagit : is_file (U "bagit.txt") (so_tree s) = true.
  Proof.
    pose proof (vs_open _ _ _ (or_valid _ _ _ O)) as Op. destruct (open_plain_ok _ _ _ Op) as (c & f & Rc & _).
    apply is_file_read. exists c. exact Rc.
  Qed.

  Lemma ord_data : is_dir (U "data") (so_tree s) = true.
  Proof.
    pose proof (or_valid _ _ _ O) as V. pose proof (vs_valid _ _ _ V) as Va.
    rewrite (C88_validates _ _ _ (vs_wf _ _ _ V) (vs_open _ _ _ V)) in Va. apply (vb_data _ _ _ _ Va).
  Qed.

  Lemma ord_known : forall f d a h, od_get f (so_entries s) = Some d -> In (a, h) d -> In a (so_algos s).
  Proof.
    pose proof (or_valid _ _ _ O) as [W Er Ea Op Ei Ee V Va].
    pose proof (open_plain_ok _ _ _ Op) as (c & fi & Rc & Rv & Et & _ & Cl & Li & Lm). rewrite V in Lm.
    rewrite (C88_validates _ _ _ W Op) in Va.
    assert (Hb : forall a f h, checksum (so_entries s) a f = Some h -> hd 0 h <> BOM).
    { intros a f h C B. rewrite Ee in C. destruct (vb_sums _ _ _ _ Va _ _ _ C) as (cf & _ & E). apply lower_bom in B. rewrite E in B.
      pose proof (or_ascii _ _ _ O a cf) as Hx. destruct (v_hash w a cf) as [|x l]; [discriminate|]. cbn [hd] in B. subst x. specialize (Hx BOM (or_introl eq_refl)). unfold BOM in Hx. lia. }
    assert (Na : NoDup (so_algos s)) by (rewrite Ea; apply (or_algos _ _ _ O)).
    apply so_known. eapply loaded_sums_ok; [exact Na| |exact Hb]. rewrite Er, Ea, Ee. exact Lm.
  Qed.

  Lemma ord_layout : layout_ok s true.
  Proof.
    constructor.
    - exact ord_wf.
    - pose proof ord_data as D. unfold is_dir in D. unfold is_file. change (match od_get (U "data") (so_tree s) with Some NDir => true | _ => false end = true) in D.
      destruct (od_get (U "data") (so_tree s)) as [[|]|]; [reflexivity|discriminate|discriminate].
    - intros _. unfold is_file. rewrite (proj2 (or_single _ _ _ O) (U "multibag")); [reflexivity|left; reflexivity].
    - intros p Op. destruct (is_dir p (so_tree s)) eqn:D; [|reflexivity]. exfalso.
      apply is_dir_cases in D. destruct D as [->|D]; [inversion Op; destruct a; discriminate|].
      destruct (or_special _ _ _ O p (or_introl Op)) as (F & _); [eapply od_get_some_key; exact D|].
      unfold is_file in F. unfold dirp in D. rewrite D in F. discriminate.
    - rewrite (vs_algos _ _ _ (or_valid _ _ _ O)). apply (or_algos _ _ _ O).
    - exact ord_known.
  Qed.

  Variables (k : strategy) (sp : splitter) (base : pystr) (ds : pystr -> N).
  Hypothesis Hf : plain_forhead sp (so_tree s).
  Let p := planned k sp base s ds.
  Let q := create_plan k sp (bag_of s ds).

  Lemma planned_eq : map m_contents (p_manifests p) = map m_contents (p_manifests q) /\
    map m_name (p_manifests p) = map (fun i => Some (nth_name base i)) (seq 1 (length (p_manifests p))).
  Proof.
    pose proof (C23_output_bags_get_distinct_names k sp base (bag_of s ds)) as H. unfold p, q, planned.
    destruct (splitter_plan k sp base (bag_of s ds)) as [r pl]. destruct H as (_ & Nm & _ & C). split; [exact C|exact Nm].
  Qed.

  Lemma planned_in m : In m (p_manifests p) -> exists m', In m' (p_manifests q) /\ m_contents m = m_contents m'.
  Proof.
    intros I. apply (in_map m_contents) in I. rewrite (proj1 planned_eq) in I. apply in_map_iff in I. destruct I as (m' & E & I). eauto.
  Qed.

  Lemma created_in m' : In m' (p_manifests q) -> exists m, In m (p_manifests p) /\ m_contents m = m_contents m'.
  Proof.
    intros I. apply (in_map m_contents) in I. rewrite <- (proj1 planned_eq) in I. apply in_map_iff in I. destruct I as (m & E & I). eauto.
  Qed.

  Lemma nodup_each (ms : list manifest) : NoDup (flat_map m_contents ms) -> forall m, In m ms -> NoDup (m_contents m).
  Proof.
    induction ms as [|x ms IH]; cbn [flat_map]; [intros _ m []|]. intros N m [->|I].
    - apply (nodup_parts _ _ N).
    - apply nodup_parts in N. apply IH; [apply N|exact I].
  Qed.

  (** What the plan lists: files and empty directories of the bag. *)
  Lemma planned_path m x : In m (p_manifests p) -> In x (m_contents m) ->
    In x (od_keys (so_tree s)) /\ (is_file x (so_tree s) = true -> In SLASH x \/ special_name x = false).
  Proof.
    intros Im Ix. destruct (planned_in m Im) as (m' & Im' & E). rewrite E in Ix.
    destruct (C20_plan_covers_the_bag_partial k sp (bag_of s ds) ord_wf Hf) as [_ C]. cbn [Split.b_tree bag_of] in C.
    assert (I : In x (all_contents (create_plan k sp (bag_of s ds)))) by (unfold all_contents; apply in_flat_map; eauto).
    apply C in I. destruct I as [[D N0]|[F H]].
    - apply is_dir_cases in D. destruct D as [->|D].
      + exfalso. pose proof ord_data as Dd. apply is_dir_cases in Dd. destruct Dd as [Dd|Dd]; [discriminate|].
        apply od_get_some_key in Dd. apply (N0 _ Dd). reflexivity.
      + split; [eapply od_get_some_key; exact D|]. intros F. unfold is_file in F. unfold dirp in D. rewrite D in F. discriminate.
    - pose proof F as F'. apply (in_files x (so_tree s)) in F'; [|apply wf_nodup; exact ord_wf]. split; [|intros _; exact H].
      unfold is_file in F'. destruct (od_get x (so_tree s)) eqn:G; [|discriminate]. eapply od_get_some_key. exact G.
  Qed.

  Lemma planned_plain : plain_plan w s p.
  Proof.
    assert (Sp : forall m x, In m (p_manifests p) -> In x (m_contents m) -> ~ (own_file true x \/ x = U "fetch.txt")).
    { intros m x Im Ix H. destruct (planned_path m x Im Ix) as [I F]. destruct (or_special _ _ _ O x H I) as (F1 & F2 & F3).
      destruct (F F1); [contradiction|congruence]. }
    constructor.
    - apply Forall_forall. intros m Im. destruct (planned_in m Im) as (m' & Im' & E). rewrite E.
      destruct (C20_plan_covers_the_bag_partial k sp (bag_of s ds) ord_wf Hf) as [Nd _]. eapply nodup_each; [exact Nd|exact Im'].
    - intros m x Im Ix H. apply (Sp m x Im Ix). auto.
    - intros m Im Ix. apply (Sp m _ Im Ix). auto.
    - intros m x Im Ix. apply (or_paths _ _ _ O). apply (planned_path m x Im Ix).
    - intros m x Im Ix _. apply (or_paths _ _ _ O). apply (planned_path m x Im Ix).
  Qed.

  Lemma planned_all : plans_all p (so_tree s).
  Proof.
    intros x Lx Sx. destruct (C32_created_plans k sp (bag_of s ds) ord_wf Hf) with (x := x) as (m' & Im' & Ix); auto.
    - intros y Iy. apply (or_looks _ _ _ O). apply (in_files y (so_tree s)) in Iy; [|apply wf_nodup; exact ord_wf].
      unfold is_file in Iy. destruct (od_get y (so_tree s)) eqn:G; [|discriminate]. eapply od_get_some_key. exact G.
    - destruct (created_in m' Im') as (m & Im & E). exists m. split; [exact Im|]. rewrite E. exact Ix.
  Qed.

  Lemma planned_some : p_manifests p <> [].
  Proof.
    pose proof ord_data as D. apply is_dir_cases in D. destruct D as [D|D]; [discriminate|].
    destruct (has_leaf (so_tree s) ord_wf (U "data") D) as (x & Lx & Bx). intros E.
    destruct (planned_all x Lx) as (m & Im & _); [|rewrite E in Im; destruct Im].
    assert (St : startswith x (U "data") = true) by (destruct Bx as [->|Bx]; [reflexivity|unfold below in Bx; apply startswith_iff in Bx; destruct Bx as [r ->]; reflexivity]).
    apply startswith_iff in St. destruct St as [r ->].
    intros [H|[H|[H|[H|[H|[H|[r' H]]]]]]]; discriminate.
  Qed.
End Ordinary.

(** The names that the splitter gives can be written to the files of a
    multibag, if the base can. *)
Lemma names_storable base i : storable IoText base -> storable IoText (nth_name base i).
Proof.
  intros ((T & Nt) & B & _). pose proof (dec_digits (N.of_nat i)) as D. rewrite Forall_forall in D.
  assert (Dg : forall c, In c (dec (N.of_nat i)) -> 48 <= c <= 57).
  { intros c I. apply D in I. unfold is_digit in I. apply andb_true_iff in I. destruct I as [I1 I2]. apply N.leb_le in I1, I2. lia. }
  unfold nth_name. split; [split|split; [|exact I]].
  - destruct T as [(c & t & -> & W) _]. split; [exists c, (t ++ U "_" ++ dec (N.of_nat i) ++ U ".mbag"); auto|].
    exists ((c :: t) ++ U "_" ++ dec (N.of_nat i) ++ U ".mba"), 103. split; [|reflexivity].
    rewrite <- !app_assoc. reflexivity.
  - rewrite !in_app_iff. intros [H|[H|[H|H]]]; [contradiction| | |]; [cbn in H; intuition discriminate|apply Dg in H; unfold TAB in H; lia|cbn in H; intuition discriminate].
  - apply Forall_app. split; [exact B|]. apply Forall_app. split; [repeat constructor|]. apply Forall_app. split; [|repeat constructor].
    apply Forall_forall. intros c I. apply Dg in I. cbn [is_brk]. apply orb_false_iff. split; apply N.eqb_neq; lia.
Qed.

Lemma names_drawn (ms : list manifest) : names_for [] ms = map m_name ms.
Proof. induction ms as [|m ms IH]; [reflexivity|]. cbn [names_for map]. rewrite IH. reflexivity. Qed.

Lemma nth_name_inj base i j : nth_name base i = nth_name base j -> i = j.
Proof.
  unfold nth_name. intros E. apply app_inv_head in E. injection E as E. apply app_inv_tail in E. apply dec_inj in E. lia.
Qed.

Lemma nodup_names base n (out : dict tree) : NoDup (od_keys out) -> (forall i, ~ In (nth_name base i) (od_keys out)) ->
  NoDup (od_keys out ++ map (nth_name base) (seq 1 n)).
Proof.
  intros No Nn. assert (Ns : NoDup (map (nth_name base) (seq 1 n))).
  { apply NoDup_map_inj; [|apply seq_NoDup]. intros x y _ _ E. exact (nth_name_inj base x y E). }
  revert No Nn. generalize (od_keys out). induction l as [|x l IH]; intros No Nn; [exact Ns|]. inversion No as [|? ? Nx Nl]; subst.
  cbn [app]. constructor.
  - rewrite in_app_iff. intros [H|H]; [contradiction|]. apply in_map_iff in H. destruct H as (i & E & _). apply (Nn i). left. auto.
  - apply IH; [exact Nl|]. intros i H. apply (Nn i). right. exact H.
Qed.

(** ** C100 *)

(** Splitting an ordinary bag comes to its end without an exception. The bags
    have the names base_1.mbag, base_2.mbag and so on. Each one is valid, the
    last one is accepted by the validator of head bags, and the others by the
    one of member bags. *)
Theorem C100_split_works : forall u w s b k sp base ds o out want,
  (forall x, exists scheme host, u x = Ok (scheme, host)) ->
  ordinary w s b -> plain_forhead sp (so_tree s) -> storable IoText base ->
  plain_opts IoText o -> ao_version o <> [] -> (forall i, older_versions o (nth_name base i)) ->
  NoDup (od_keys out) -> (forall i, ~ In (nth_name base i) (od_keys out)) -> ~ asks want REC ->
  exists bags, splits_into s o (planned k sp base s ds) None out bags /\ bags <> [] /\
    map fst bags = map (nth_name base) (seq 1 (length bags)) /\
    Forall (fun bt => passes_plain w (snd bt)) bags /\
    forall others head t, bags = others ++ [(head, t)] ->
      head_passes u w head t want /\ forall n tn, In (n, tn) others -> member_passes w n tn want false.
Proof.
  intros u w s b k sp base ds o out want Hu O Hf Sb Po Nv Ov No Nn Nr. set (p := planned k sp base s ds).
  destruct (planned_eq s k sp base ds) as [_ En]. fold p in En.
  set (names := map (nth_name base) (seq 1 (length (p_manifests p)))).
  destruct (C25_split_succeeds s o p None out [] [] names) as (bags & Sp & Eb).
  - exact (ord_layout w s b O).
  - exact (ord_bagit w s b O).
  - apply (or_info _ _ _ O).
  - apply not_a_head. apply (or_single _ _ _ O).
  - exact I.
  - cbn [names_of]. rewrite names_drawn, En. unfold names. rewrite map_map. reflexivity.
  - apply nodup_names; assumption.
  - assert (Lb : length bags = length (p_manifests p)) by (rewrite <- (map_length fst bags), Eb; unfold names; rewrite map_length, seq_length; reflexivity).
    assert (St : Forall (storable IoText) (map fst bags)).
    { rewrite Eb. apply Forall_forall. intros n Hn. apply in_map_iff in Hn. destruct Hn as (i & <- & _). apply names_storable. exact Sb. }
    pose proof (planned_plain w s b O k sp base ds Hf) as PP. fold p in PP.
    assert (CS : clean_split w s b o p None out bags).
    { constructor; try assumption.
      - apply (or_valid _ _ _ O).
      - apply (or_algos _ _ _ O).
      - apply (or_ascii _ _ _ O).
      - apply (or_single _ _ _ O).
      - intros m f Im If _. apply (or_paths _ _ _ O). exact (proj1 (planned_path w s b O k sp base ds Hf m f Im If)).
      - apply (or_lines _ _ _ O).
      - apply (or_ids _ _ _ O). }
    exists bags. split; [exact Sp|]. split.
    { intros ->. pose proof (planned_some w s b O k sp base ds Hf) as N0. fold p in N0. destruct (p_manifests p); [contradiction|discriminate]. }
    split; [rewrite Lb; exact Eb|]. split.
    { apply (C90_split_valid_partial w s b o p None out bags); try assumption; try apply CS.
      eapply Forall_impl; [|exact St]. intros n (_ & B & _). exact B. }
    intros others head t E. rewrite E in CS. split.
    + apply (C91_split_head_partial u w s b o p None out others head t want); try assumption.
      assert (I : In head (map fst bags)) by (rewrite E, map_app; apply in_app_iff; right; left; reflexivity).
      rewrite Eb in I. apply in_map_iff in I. destruct I as (i & <- & _). apply Ov.
    + intros n tn I. apply (C92_members_partial w s b o p None out others head t n tn want CS I).
Qed.
Print Assumptions C100_split_works.

(** Restoring the bags that the split made comes to its end as well, and what
    it makes is a valid bag with the content of the source. *)
Theorem C100_there_and_back : forall v w A s b k sp base ds o out bags bsize ro h place src,
  ordinary (at_place v w src) s b -> restorable v A s -> same_world v w ->
  plain_forhead sp (so_tree s) -> storable IoText base -> plain_opts IoText o ->
  splits_into s o (planned k sp base s ds) None out bags ->
  incl A (e_algos v) -> good_hash v -> plain_text bsize ->
  found v place bags -> safe_places v place bags (so_tree s) -> head_of IoText bags h ->
  exists dest', restore v true true bsize ro h (place (hb_name h)) [] = Ok dest' /\
    passes_plain (at_place v w (e_dest v)) dest' /\
    forall q, ~ special_path q -> od_get q dest' = od_get q (so_tree s).
Proof.
  intros v w A s b k sp base ds o out bags bsize ro h place src O RS Sw Hf Sb Po Sp Ia Gh Pt Fo Sf Hd.
  destruct (planned_eq s k sp base ds) as [_ En].
  assert (St : Forall (storable IoText) (map fst bags)).
  { pose proof (made_split _ _ _ _ _ _ Sp) as (ms0 & lu0 & ms' & lu' & _ & _ & _ & _ & Nm). cbn [names_of] in Nm. rewrite names_drawn, En in Nm.
    apply Forall_forall. intros n Hn. apply (in_map Some) in Hn. rewrite Nm in Hn. apply in_map_iff in Hn. destruct Hn as (i & E & _).
    injection E as <-. apply names_storable. exact Sb. }
  pose proof (or_algos _ _ _ O) as [Na Ns]. cbn [at_place v_algos] in Na, Ns. rewrite (sw_algos _ _ Sw) in Na, Ns.
  eapply (C95_split_restores_valid s o (planned k sp base s ds) None out bags v w A bsize ro h place src b); try eassumption.
  - exact (ord_data _ _ _ O).
  - exact (planned_some _ _ _ O k sp base ds Hf).
  - exact (planned_all _ _ _ O k sp base ds Hf).
  - intros a I. rewrite Forall_forall in Ns. apply Ns. exact I.
  - apply (or_valid _ _ _ O).
  - exact (planned_plain _ _ _ O k sp base ds Hf).
  - intros a c x I. apply (or_ascii _ _ _ O a c x I).
Qed.
Print Assumptions C100_there_and_back.

(** The bag of [C95_case] is ordinary. Its files do not fit in one bag, so that
    the splitter makes three. *)
Definition ordinary_keyb (q : pystr) (t : tree) : bool :=
  (negb (special_pathb q) || (is_file q t && special_name q && negb (existsb (N.eqb SLASH) q))) &&
  (negb (special_name q) || special_pathb q) &&
  negb (in_multibag q) && manifest_pathb IoText q && storableb IoText q.

Lemma special_pathb_ok q : special_pathb q = true -> special_path q.
Proof.
  unfold special_pathb, special_path. rewrite !orb_true_iff, str_in_iff. intros [[[H|H]|H]|H]; [|tauto|tauto|].
  - destruct H as [<-|[<-|[<-|[]]]]; tauto.
  - apply multibag_iff in H. tauto.
Qed.

Example C100_case : let w := at_place va_env va_world (U "/src") in
  ordinary w va_source va_open /\ restorable va_env ex_algos va_source /\ same_world va_env va_world /\
  plain_forhead (fst (new_splitter 5 None None)) (so_tree va_source) /\ storable IoText (U "src") /\ plain_opts IoText Props_SplitApply.ex_opts /\
  ao_version Props_SplitApply.ex_opts <> [] /\ (forall i, older_versions Props_SplitApply.ex_opts (nth_name (U "src") i)) /\
  (forall i, ~ In (nth_name (U "src") i) (od_keys [(U "other", @nil (pystr * node))])) /\ ~ asks PROB REC /\
  map m_contents (p_manifests (planned WellPacked (fst (new_splitter 5 None None)) (U "src") va_source (fun _ => 0))) =
    [[U "data/a"; U "meta/m"]; [U "data/d/b"; U "about.txt"]; [U "data/e"]] /\
  map (nth_name (U "src")) (seq 1 3) = [U "src_1.mbag"; U "src_2.mbag"; U "src_3.mbag"].
Proof.
  cbv zeta. destruct C95_case as (A1 & _ & A3 & _ & _ & _ & _ & A8 & A9 & _ & _ & _ & _ & _ & _ & A16 & A17 & _ & A19 & _).
  split.
  { assert (K : forallb (fun q => ordinary_keyb q va_tree) (od_keys va_tree) = true) by (vm_compute; reflexivity). rewrite forallb_forall in K.
    assert (K' : forall q, In q (od_keys va_tree) ->
      (special_pathb q = true -> is_file q va_tree = true /\ special_name q = true /\ ~ In SLASH q) /\
      (special_name q = true -> special_path q) /\ in_multibag q = false /\ manifest_path IoText q /\ storable IoText q).
    { intros q I. apply K in I. unfold ordinary_keyb in I. rewrite !andb_true_iff, !orb_true_iff, !negb_true_iff in I. destruct I as ((((I1 & I2) & I3) & I4) & I5).
      split; [|split; [|split; [exact I3|split; [apply manifest_pathb_ok; exact I4|apply storableb_ok; exact I5]]]].
      - intros Sq. destruct I1 as [I1|I1]; [congruence|]. rewrite !andb_true_iff, negb_true_iff in I1. destruct I1 as ((I11 & I12) & I13).
        split; [exact I11|]. split; [exact I12|]. intros X. rewrite <- not_true_iff_false in I13. apply I13, existsb_exists. exists SLASH. split; [exact X|reflexivity].
      - intros Sq. destruct I2 as [I2|I2]; [congruence|]. apply special_pathb_ok. exact I2. }
    constructor.
    - exact A17.
    - split; [exact A9|]. apply Forall_forall. intros a I. apply A8. exact I.
    - exact A19.
    - vm_compute. reflexivity.
    - split; [vm_compute; reflexivity|]. intros q M. destruct (od_get q va_tree) as [n|] eqn:G; [|exact G]. exfalso.
      apply od_get_some_key in G. destruct (K' q G) as (_ & _ & X & _). apply multibag_iff in M. congruence.
    - intros q H I. apply (K' q I). destruct H as [H| ->]; [apply own_special; exact H|reflexivity].
    - intros q I Sq _. apply (K' q I). exact Sq.
    - intros q I. split; [reflexivity|]. apply (K' q I).
    - apply every_value. vm_compute. repeat constructor.
    - intros k x _. apply (every_value _ (fun x => x <> [])). vm_compute. repeat constructor; discriminate. }
  split; [exact A1|]. split; [exact A16|]. split; [apply no_forhead; reflexivity|]. split; [apply storableb_ok; reflexivity|]. split; [exact A3|].
  split; [discriminate|]. split; [intros i x []|]. split; [intros i [H|[]]; discriminate|]. split; [intros H; apply H; reflexivity|].
  split; vm_compute; reflexivity.
Qed.

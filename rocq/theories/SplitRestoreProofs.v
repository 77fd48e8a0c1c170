(** * Lemmas: the bags of a split can be restored *)

Require Import String NArith PeanoNat Bool List Lia Permutation.
From Verif Require Import PyBase PyFacts Tsv TsvProofs Fs FsFacts HeadBag HeadBagProofs HeadBagProofs3 BagIt BagItProofs BagItProofs2 Split SplitProofs2 SplitApply SplitApplyProofs SplitApplyProofs2 SplitApplyProofs3 SplitApplyProofs4 SplitApplyProofs5 SplitApplyProofs6 SplitApplyProofs8 SplitApplyProofs9 Props_SplitApply Props_SplitApply2 Restore RestoreProofs RestoreProofs2 RestoreProofs3 Props_Restore RestoreProofs4 RestoreProofs6 RestoreProofs7 RestoreProofs8 RestoreProofs9 RestoreProofs10 RestoreProofs11.
Import ListNotations.
Open Scope N_scope.

(** The files that a restored bag has whatever its members hold. *)
Definition bag_files : list pystr :=
  [F_bagit; F_baginfo; F_fetch; U "multibag/member-bags.tsv"; U "multibag/file-lookup.tsv"; U "multibag/aggregation-info.txt"].

(** A bag whose split can be restored: [A] are the algorithms of its
    manifests. *)
Record restorable (v : env) (A : list pystr) (s : source) : Prop := {
  rs_reader : so_reader s = IoText;
  rs_algos : so_algos s = e_algos v;
  rs_opened : opened s;
  rs_loaded : checksums_loaded s;
  rs_member : od_has (U "Multibag-Head-Version") (so_info s) = false;
  rs_layout : layout_ok s true;
  rs_nomulti : forall q, multibag_path q -> od_get q (so_tree s) = None;
  rs_mans : good_mans v (e_dest v) (so_tree s);
  rs_uses : uses v A (so_tree s);
  rs_version : forall c, read F_bagit (so_tree s) = Some c -> exists v1, e_version v c = Ok (true, v1);
  rs_info : forall c, read F_baginfo (so_tree s) = Some c -> good_tags c;
  rs_fetch : is_dir F_fetch (so_tree s) = false;
  rs_names : names_ok v (so_tree s);
  rs_own : forall p, special v p \/ In p bag_files -> is_tagman p = false -> good_name v p
}.

(** A plan that does not name the bag's own files, nor a path twice. *)
Record restorable_plan (m : manifest) : Prop := {
  rp_once : NoDup (m_contents m);
  rp_own : forall f, In f (m_contents m) -> ~ own_file true f
}.

Lemma own_true h p : own_file h p -> own_file true p.
Proof. intros [| | | | | |]; econstructor; reflexivity. Qed.

(** The files of a bag of a split. *)
Lemma bag_file_cases s o b m h ms lu t q : (forall f d a x, od_get f (so_entries s) = Some d -> In (a, x) d -> In a (so_algos s)) ->
  one_bag s o m h ms lu b t -> is_file q t = true ->
  (In q (m_contents m) /\ is_file q (so_tree s) = true) \/ In q bag_files \/
  exists k a, In k [K_man; K_tag] /\ In a (so_algos s) /\ q = man_name k a.
Proof.
  intros Le (c & Rc & R & _) F. apply is_file_read in F. destruct F as [x F]. rewrite (run_ops_read _ _ _ _ R) in F.
  assert (T : Exists (touches q) (bag_list s o b m h ms lu c)).
  { destruct (Exists_dec (touches q) (bag_list s o b m h ms lu c) (touches_dec q)) as [T|T]; auto. exfalso.
    rewrite fold_untouched in F; [discriminate|]. intros y I Ty. apply T. apply Exists_exists. eauto. }
  apply Exists_exists in T. destruct T as (y & I & T). unfold bag_list in I. rewrite !in_app_iff in I. destruct I as [I|[I|[I|[I|I]]]].
  - apply in_start_ops in I. destruct I as [->|(a & -> & Ia & _)]; cbn in T; [contradiction|]. right; right. exists K_man, a. cbn. auto.
  - destruct I as [<-|[]]. cbn in T. right; left. subst. left. reflexivity.
  - apply in_flat_map in I. destruct I as (f & If & I). apply in_path_ops in I.
    destruct I as [(cc & Rf & [->|[->|I]])|(_ & _ & ->)]; cbn in T; try contradiction.
    + subst f. left. split; auto. apply is_file_read. eauto.
    + apply in_hash_ops in I. destruct I as (a & x' & -> & d & Gd & Id). cbn in T. right; right. exists (if is_payload f then K_man else K_tag), a.
      split; [destruct (is_payload f); cbn; auto|]. split; [eapply Le; eauto|exact T].
  - destruct I as [<-|[]]. cbn in T. right; left. subst. right; left. reflexivity.
  - destruct h; [|destruct I]. right; left. cbn in I. destruct I as [<-|[<-|[<-|[<-|[]]]]]; cbn in T; try contradiction; subst q.
    + do 3 right; left; reflexivity.
    + do 4 right; left; reflexivity.
    + do 5 right; left; reflexivity.
Qed.

(** The directories of a bag of a split. *)
Lemma bag_dir_cases s m h t d : wf_tree (so_tree s) -> exact_copies (so_tree s) t m h -> od_get d t = Some NDir -> d <> [] ->
  d = U "data" \/ d = U "multibag" \/ od_get d (so_tree s) = Some NDir.
Proof.
  intros Ws X G Nd. assert (D : is_dir d t = true) by (unfold is_dir; rewrite G; destruct d; reflexivity).
  destruct (ec_parents _ _ _ _ X d D) as [->|[->|[[_ ->]|(f & If & Ef & [B|[-> Df]])]]]; auto; [congruence| |].
  - right; right. assert (K : In f (od_keys (so_tree s))).
    { unfold exists_ in Ef. apply orb_true_iff in Ef. destruct Ef as [Ef|Ef].
      - apply is_file_read in Ef. destruct Ef as [c Ef]. apply read_get in Ef. eapply od_get_some_key; eauto.
      - apply is_dir_cases in Ef. destruct Ef as [->|Ef]; [|eapply od_get_some_key; exact Ef].
        apply below_iff in B; auto. destruct B as [r Er]. destruct d; [congruence|discriminate]. }
    pose proof (below_trans_dir _ _ _ Ws Nd K B) as I. apply in_dirs in I; [exact I|apply wf_nodup; auto].
  - right; right. apply is_dir_cases in Df. destruct Df as [->|Df]; [congruence|exact Df].
Qed.

(** ** One bag *)

Section Bag.
  Variables (v : env) (A : list pystr) (s : source) (o : apply_opts) (b : pystr) (m : manifest) (ishead : bool)
            (ms : list pystr) (lu : dict pystr) (t : tree).
  Hypothesis Na : NoDup (e_algos v).
  Hypothesis Inc : incl A (e_algos v).
  Hypothesis RS : restorable v A s.
  Hypothesis RP : restorable_plan m.
  Hypothesis OB : one_bag s o m ishead ms lu b t.

  (** What the source has recorded is in its manifests. *)
  Lemma source_sums a f h : checksum (so_entries s) a f = Some h <->
    In a (e_algos v) /\ entry_in IoText (kind_of (is_payload f)) (so_tree s) a f h.
  Proof.
    destruct (rs_loaded _ _ _ RS) as (d & v1 & L). rewrite (rs_algos _ _ _ RS), (rs_reader _ _ _ RS) in L.
    pose proof (rs_mans _ _ _ RS) as G. rewrite (load_chars v (e_dest v) (so_tree s) d IoText true v1 _ G L a f h).
    split.
    - intros (Ia & [E|[_ E]]); split; auto.
      + destruct (good_plain _ _ _ G true a f h Ia E) as (_ & _ & _ & ->). exact E.
      + destruct (good_plain _ _ _ G false a f h Ia E) as (_ & _ & _ & ->). exact E.
    - intros (Ia & E). split; auto. destruct (is_payload f); [left|right; split]; auto.
  Qed.

  Lemma source_plain a f h : checksum (so_entries s) a f = Some h ->
    In a (e_algos v) /\ plain_entry (is_payload f) h f /\ manifest_path Codecs f /\ e_danger v (e_dest v) f = false.
  Proof.
    intros C. apply source_sums in C. destruct C as (Ia & c & R & I). split; auto.
    destruct (rs_mans _ _ _ RS _ _ _ Ia R) as [G D]. destruct (gm_plain _ _ G _ _ I) as [P M]. split; [exact P|]. split; [exact M|]. eapply D; eauto.
  Qed.

  Lemma sums_source : sums_ok s.
  Proof.
    destruct (rs_loaded _ _ _ RS) as (d & v1 & L). eapply loaded_sums_ok; [|exact L|].
    - rewrite (rs_algos _ _ _ RS). exact Na.
    - intros a f h C. apply source_plain in C. destruct C as (_ & (_ & B & _) & _). exact B.
  Qed.

  Definition listed (pay : bool) (a : pystr) : list (pystr * pystr) := sums s (kind_of pay) a (plan_files s m).

  Lemma in_listed pay a h f : In (h, f) (listed pay a) <->
    In f (plan_files s m) /\ is_payload f = pay /\ checksum (so_entries s) a f = Some h.
  Proof.
    unfold listed. rewrite (in_sums s). unfold SplitApplyProofs3.kind_of, kind_of.
    split; intros (H1 & H2 & H3); (split; [exact H1|]); (split; [|exact H3]); destruct (is_payload f), pay; auto; discriminate.
  Qed.

  Lemma own_man_name pay a : own_file true (man_name (kind_of pay) a).
  Proof. destruct pay; [exact (own_man true a)|exact (own_tag true a)]. Qed.

  Lemma bag_manifest pay a c : read (man_name (kind_of pay) a) t = Some c ->
    c = flat_map (fun hp => hash_line (fst hp) (snd hp)) (listed pay a) /\
    forall r, manifest_lines r (skip_bom c) = listed pay a.
  Proof.
    intros Rd. destruct OB as (c0 & Rc & R & _). pose proof sums_source as So.
    assert (Nc : ~ In (man_name (kind_of pay) a) (m_contents m)).
    { intros I. apply (rp_own _ RP) in I. apply I. apply own_man_name. }
    destruct (read_manifest s o b m ishead ms lu c0 t R (so_once s So) (kind_of pay) a (kind_in pay) Nc) as [E|[E _]]; [|congruence].
    rewrite Rd in E. assert (Ec : c = flat_map (fun hp => hash_line (fst hp) (snd hp)) (listed pay a)) by (injection E as ->; reflexivity).
    split; [exact Ec|]. intros r. rewrite Ec. apply hash_text_lines. apply Forall_forall. intros [h f] I. cbn [fst snd].
    apply in_listed in I. destruct I as (_ & _ & C). apply source_plain in C. destruct C as (_ & (P1 & P2 & P3 & _) & P4 & _).
    split; [exact P1|]. split; [exact P2|]. destruct r; assumption.
  Qed.

  Lemma bag_entry pay a f h : entry_in IoText (kind_of pay) t a f h -> In (h, f) (listed pay a).
  Proof. intros (c & Rd & I). destruct (bag_manifest _ _ _ Rd) as [_ E]. rewrite E in I. exact I. Qed.

  Lemma bag_man_file pay a : In a (e_algos v) -> is_file (man_name (kind_of pay) a) t = true <->
    ((pay = true /\ is_file (man_name (kind_of pay) a) (so_tree s) = true) \/ listed pay a <> []).
  Proof.
    intros Ia. destruct OB as (c0 & Rc & R & _). split.
    - intros F. apply is_file_read in F. destruct F as [x F]. rewrite (run_ops_read _ _ _ _ R) in F. set (q := man_name (kind_of pay) a) in *.
      assert (T : Exists (touches q) (bag_list s o b m ishead ms lu c0)).
      { destruct (Exists_dec (touches q) (bag_list s o b m ishead ms lu c0) (touches_dec q)) as [T|T]; auto. exfalso.
        rewrite fold_untouched in F; [discriminate|]. intros y I Ty. apply T. apply Exists_exists. eauto. }
      apply Exists_exists in T. destruct T as (y & I & T). unfold bag_list in I. rewrite !in_app_iff in I.
      assert (Kd : forall k a', In k [K_man; K_tag] -> q = man_name k a' -> k = kind_of pay /\ a' = a).
      { unfold q. intros k a' Ik E. destruct Ik as [<-|[<-|[]]], pay; try discriminate; split; auto; apply app_inv_head in E; apply (app_inv_head [45]) in E; apply app_inv_tail in E; auto. }
      destruct I as [I|[I|[I|[I|I]]]].
      + apply in_start_ops in I. destruct I as [->|(a' & -> & _ & Fa)]; cbn in T; [contradiction|]. left.
        destruct (Kd K_man a' (or_introl eq_refl) T) as [E ->]. destruct pay; [|discriminate]. split; auto.
      + destruct I as [<-|[]]. cbn in T. unfold q in T. destruct pay; discriminate.
      + apply in_flat_map in I. destruct I as (f & If & I). apply in_path_ops in I.
        destruct I as [(cc & Rf & [->|[->|I]])|(_ & _ & ->)]; cbn in T; try contradiction.
        * exfalso. subst f. apply (rp_own _ RP) in If. apply If. apply own_man_name.
        * apply in_hash_ops in I. destruct I as (a' & x' & -> & d & Gd & Id). cbn in T. right.
          destruct (Kd (if is_payload f then K_man else K_tag) a') as [E ->]; [destruct (is_payload f); cbn; auto|exact T|].
          intros Z. assert (J : In (x', f) (listed pay a)); [|rewrite Z in J; destruct J].
          apply in_listed. split; [apply filter_In; split; auto; apply is_file_read; eauto|].
          split; [destruct (is_payload f), pay; auto; discriminate|]. unfold checksum. rewrite Gd.
          apply od_in_get; auto. apply (so_once _ sums_source _ _ Gd).
      + destruct I as [<-|[]]. cbn in T. unfold q in T. destruct pay; discriminate.
      + destruct ishead; [|destruct I]. exfalso. cbn in I. unfold q in T. destruct I as [<-|[<-|[<-|[<-|[]]]]]; cbn in T; try contradiction; destruct pay; discriminate.
    - intros H. apply is_file_read.
      assert (X : Exists (touches (man_name (kind_of pay) a)) (bag_list s o b m ishead ms lu c0)).
      { apply Exists_exists. destruct H as [[-> F]|L].
        - exists (OWrite (man_name K_man a) []). split; [|reflexivity]. unfold bag_list. apply in_app_iff. left. unfold start_ops. right.
          apply (in_map (fun f => OWrite f [])). unfold manifest_files. rewrite (rs_algos _ _ _ RS). apply filter_In. split; [apply in_map; exact Ia|exact F].
        - destruct (listed pay a) as [|[h f] l] eqn:E; [congruence|]. assert (J : In (h, f) (listed pay a)) by (rewrite E; left; auto).
          apply in_listed in J. destruct J as (If & Pf & C). apply filter_In in If. destruct If as [If Ff]. apply is_file_read in Ff. destruct Ff as [x Rx].
          exists (OAppend (man_name (if is_payload f then K_man else K_tag) a) (hash_line h f)). split; [|cbn; rewrite Pf; destruct pay; reflexivity].
          unfold bag_list. rewrite !in_app_iff. right; right; left. apply in_flat_map. exists f. split; auto. unfold path_ops. rewrite Rx. right; right.
          unfold hash_ops. unfold checksum in C. destruct (od_get f (so_entries s)) as [d|]; [|discriminate].
          apply in_map_iff. exists (a, h). split; [reflexivity|]. apply od_get_in. exact C. }
      apply (touched_some _ _ (read (man_name (kind_of pay) a) [])) in X. rewrite <- (run_ops_read _ _ _ _ R) in X.
      destruct (read (man_name (kind_of pay) a) t) eqn:E; [eauto|congruence].
  Qed.

  Lemma bag_good_mans loc : (forall f, In f (plan_files s m) -> (exists a, checksum (so_entries s) a f <> None) -> e_danger v loc f = false) ->
    good_mans v loc t.
  Proof.
    intros D pay a c Ia Rd. destruct (bag_manifest _ _ _ Rd) as [Ec El]. split.
    - constructor.
      + rewrite !El. reflexivity.
      + intros h p. rewrite El. intros I. apply in_listed in I. destruct I as (_ & Pf & C). apply source_plain in C. destruct C as (_ & P & M & _).
        rewrite Pf in P. auto.
      + rewrite El. unfold listed. apply sums_sub. apply NoDup_filter. apply (rp_once _ RP).
    - intros h p. rewrite El. intros I. apply in_listed in I. destruct I as (If & _ & C). apply D; auto. exists a. congruence.
  Qed.

  Lemma good_mans_dest : good_mans v (e_dest v) t.
  Proof.
    apply bag_good_mans. intros f _ (a & C). destruct (checksum (so_entries s) a f) as [h|] eqn:E; [|congruence].
    apply source_plain in E. tauto.
  Qed.

  Lemma listed_all pay a a' : In a A -> In a' A -> forall h f, In (h, f) (listed pay a) -> exists h', In (h', f) (listed pay a').
  Proof.
    intros Ia Ia' h f I. apply in_listed in I. destruct I as (If & Pf & C). apply source_sums in C. destruct C as [_ C].
    destruct (us_sums _ _ _ (rs_uses _ _ _ RS) _ _ a' _ _ Ia Ia' C) as [h' C']. exists h'. apply in_listed. split; [exact If|]. split; [exact Pf|].
    apply source_sums. split; [apply Inc; exact Ia'|exact C'].
  Qed.

  Lemma bag_uses : uses v A t.
  Proof.
    constructor.
    - intros pay a Ia F. apply bag_man_file in F; auto.
      assert (Hs : is_file (man_name (kind_of pay) a) (so_tree s) = true).
      { destruct F as [[_ F]|F]; auto. destruct (listed pay a) as [|[h f] l] eqn:E; [congruence|].
        assert (J : In (h, f) (listed pay a)) by (rewrite E; left; auto). apply in_listed in J. destruct J as (_ & Pf & C).
        apply source_sums in C. destruct C as (_ & c & R & _). rewrite Pf in R. apply is_file_read. eauto. }
      destruct (us_all _ _ _ (rs_uses _ _ _ RS) _ _ Ia Hs) as [IA All]. split; [exact IA|].
      intros a' Ia'. apply bag_man_file; [apply Inc; exact Ia'|]. destruct F as [[-> F]|F].
      + left. split; [reflexivity|]. apply All. exact Ia'.
      + right. destruct (listed pay a) as [|[h f] l] eqn:E; [congruence|].
        destruct (listed_all pay a a' IA Ia' h f) as [h' I']; [rewrite E; left; auto|]. intros Z. rewrite Z in I'. destruct I'.
    - intros pay a a' p h Ia Ia' E. apply bag_entry in E. destruct (listed_all pay a a' Ia Ia' h p E) as [h' I']. exists h'.
      assert (F : is_file (man_name (kind_of pay) a') t = true).
      { apply bag_man_file; [apply Inc; exact Ia'|]. right. intros Z. rewrite Z in I'. destruct I'. }
      apply is_file_read in F. destruct F as [c Rd]. exists c. split; [exact Rd|]. destruct (bag_manifest _ _ _ Rd) as [_ El]. rewrite El. exact I'.
  Qed.
End Bag.

(** A bag of the split can be opened, and its files be copied. *)
Lemma bag_member_ok v A s o b m h ms lu t loc : NoDup (e_algos v) -> incl A (e_algos v) -> restorable v A s -> restorable_plan m ->
  plain_opts IoText o -> no_brk IoText b -> one_bag s o m h ms lu b t -> exact_copies (so_tree s) t m h ->
  loc <> e_dest v ->
  (forall f, In f (m_contents m) -> is_file f (so_tree s) = true -> e_danger v loc f = false) ->
  member_ok v A {| rb_loc := loc; rb_tree := t |}.
Proof.
  intros Na Inc RS RP Hp Hb OB X Nl D. pose proof (rs_layout _ _ _ RS) as Lo.
  assert (W : wf_tree t).
  { eapply bag_wf; [|exact OB]. destruct h; auto. destruct Lo. constructor; auto. intros x Ox. apply lo_own. eapply own_true; eauto. }
  assert (Gl : good_mans v loc t).
  { eapply bag_good_mans; eauto. intros f If _. apply filter_In in If. destruct If. auto. }
  constructor; cbn [rb_tree rb_loc].
  - exact W.
  - exact Nl.
  - destruct OB as (c & Rc & R & Hh). destruct (rs_version _ _ _ RS c Rc) as [v1 Ev].
    pose proof (rs_opened _ _ _ RS) as Ho. pose proof (rs_reader _ _ _ RS) as Er.
    destruct (bag_tags s o m h ms lu b t Ho) as (d & Td & _).
    { rewrite Er. exact Hp. } { rewrite Er. exact Hb. } { exists c. auto. }
    rewrite Er in Td. unfold tags_of in Td. destruct (load_good v loc t IoText true v1 Na Gl) as (es & Le & _).
    exists d, es. unfold open_bag. change F_bagit with (U "bagit.txt"). rewrite (read_bagit_gen s o b m h ms lu c t R Rc).
    rewrite Ev. cbn [bind]. change F_baginfo with (U "bag-info.txt"). destruct (read (U "bag-info.txt") t); rewrite Td; cbn [bind]; rewrite Le; reflexivity.
  - eapply good_mans_dest; eauto.
  - eapply bag_uses; eauto.
  - intros q T G. assert (Nq : q <> []).
    { destruct T as [(k & a & [<-|[<-|[]]] & _ & ->)|[->| ->]]; discriminate. }
    assert (Ds : is_dir q (so_tree s) = false).
    { destruct T as [(k & a & [<-|[<-|[]]] & _ & ->)|[->| ->]].
      - apply (lo_own _ _ Lo). exact (own_man true a).
      - apply (lo_own _ _ Lo). exact (own_tag true a).
      - apply (lo_own _ _ Lo). exact (own_info true).
      - apply (rs_fetch _ _ _ RS). }
    destruct (bag_dir_cases s m h t q (lo_wf _ _ Lo) X G Nq) as [->|[->|G']].
    + destruct T as [(k & a & [<-|[<-|[]]] & _ & E)|[E|E]]; discriminate.
    + destruct T as [(k & a & [<-|[<-|[]]] & _ & E)|[E|E]]; discriminate.
    + unfold is_dir in Ds. rewrite G' in Ds. destruct q; [congruence|discriminate].
Qed.

(** No path is a directory in one bag and a file in another. *)
Lemma bags_agree v A s m h t m' h' t' p : restorable v A s -> exact_copies (so_tree s) t m h -> exact_copies (so_tree s) t' m' h' ->
  wf_tree t -> od_get p t = Some NDir -> is_file p t' = false.
Proof.
  intros RS X X' W G. destruct (is_file p t') eqn:F; auto. exfalso. apply is_file_read in F. destruct F as [c F].
  pose proof (rs_layout _ _ _ RS) as Lo.
  assert (Np : p <> []) by (apply good_path_nonempty; eapply wf_good; [exact W|eapply od_get_some_key; exact G]).
  destruct (bag_dir_cases s m h t p (lo_wf _ _ Lo) X G Np) as [->|[->|G']].
  - destruct (ec_only _ _ _ _ X' _ _ F) as [Ow|[_ Rs]]; [inversion Ow|].
    pose proof (lo_data _ _ Lo) as D. assert (D' : is_file (U "data") (so_tree s) = true) by (apply is_file_read; eauto). congruence.
  - destruct (ec_only _ _ _ _ X' _ _ F) as [Ow|[_ Rs]]; [inversion Ow|].
    apply read_get in Rs. rewrite (rs_nomulti _ _ _ RS) in Rs; [discriminate|left; reflexivity].
  - destruct (ec_only _ _ _ _ X' _ _ F) as [Ow|[_ Rs]].
    + apply own_true in Ow. pose proof (lo_own _ _ Lo _ Ow) as D. unfold is_dir in D. rewrite G' in D. destruct p; [congruence|discriminate].
    + apply read_get in Rs. congruence.
Qed.

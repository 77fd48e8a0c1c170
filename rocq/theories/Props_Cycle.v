(** * Properties of splitting and restoring again and again: C123

    A bag is split and restored, what was restored is split and restored
    somewhere else, and so on.  Each round has its own splitter, output
    directory, places and options. *)

Require Import String NArith ZArith PeanoNat Bool List Lia.
From Verif Require Import PyBase PyFacts Version Tsv TsvProofs Fs FsFacts HeadBag HeadBagProofs HeadBagProofs3 BagIt BagItProofs BagItProofs2 Split SplitProofs2 Props_Split SplitApply SplitApplyProofs SplitApplyProofs2 SplitApplyProofs3 SplitApplyProofs5 SplitApplyProofs6 SplitApplyProofs8 Props_SplitApply Props_SplitApply2 Restore RestoreProofs RestoreProofs2 RestoreProofs3 Props_Restore RestoreProofs4 RestoreProofs6 Props_Restore3 RestoreProofs7 RestoreProofs8 RestoreProofs9 RestoreProofs10 RestoreProofs11 Props_Restore2 Props_RoundTrip SplitRestoreProofs Props_RoundTrip2 Props_Restore4 Validate BagValid BagValidProofs Props_BagValid Props_BagValid2 Props_BagValid3 Props_BagValid4 Props_EndToEnd Props_AmendTotal2 Props_InPlace CycleProofs.
Import ListNotations.
Open Scope N_scope.

(** ** Rounds *)

(** One round: how the bag is split (with the sizes of directories, and the
    output directory [rn_out] as it is before), where the bags are put, and
    where and under which name the bag is restored. *)
Record round := {
  rn_kind : strategy; rn_splitter : splitter; rn_base : pystr; rn_sizes : pystr -> N;
  rn_opts : apply_opts; rn_out : dict tree;
  rn_place : pystr -> pystr; rn_dest : pystr; rn_name : pystr;
  rn_bagsize : tree -> pystr; rn_readonly : bool
}.

(** The same world with another destination. *)
Definition into (v : env) (d : pystr) : env :=
  {| e_algos := e_algos v; e_version := e_version v; e_danger := e_danger v; e_hash := e_hash v; e_dest := d; e_find := e_find v |}.

(** The bags that were made are found where they were put. *)
Definition bags_at (place : pystr -> pystr) (bags : dict tree) (n : pystr) : option rbag :=
  option_map (fun t => {| rb_loc := place n; rb_tree := t |}) (od_get n bags).

(** A directory, opened as a bag. *)
Definition opens_as (w : benv) (n : pystr) (t : tree) (s : source) : Prop :=
  exists b, open_plain w t = Ok b /\
    s = {| so_name := n; so_tree := t; so_info := o_info b; so_algos := v_algos w; so_entries := o_entries b; so_reader := IoText |}.

Inductive cycles (v : env) (w : benv) : source -> list round -> source -> Prop :=
| stop s : cycles v w s [] s
| once_more s x xs bags h t s1 s2 :
    splits_into s (rn_opts x) (planned (rn_kind x) (rn_splitter x) (rn_base x) s (rn_sizes x)) None (rn_out x) bags ->
    head_of IoText bags h ->
    restore (searching (into v (rn_dest x)) (bags_at (rn_place x) bags)) true true (rn_bagsize x) (rn_readonly x) h
      (rn_place x (hb_name h)) [] = Ok t ->
    opens_as (at_place v w (rn_dest x)) (rn_name x) t s1 ->
    cycles v w s1 xs s2 -> cycles v w s (x :: xs) s2.

(** ** What is assumed *)

(** The places [P] are such that no path of the bag, and none of the files that
    BagIt defines, leads outside there. *)
Record world (P : pystr -> Prop) (v : env) (w : benv) (A : list pystr) : Prop := {
  wd_algos : incl A (e_algos v);
  wd_hash : good_hash v;
  wd_same : same_world v w;
  wd_own : forall q, RestoreProofs2.special v q \/ In q [F_bagit; F_baginfo] ->
    special_name q = true /\ manifest_path IoText q /\ storable IoText q /\ forall d, P d -> e_danger v d q = false
}.

(** A bag at [src] that can be split and restored.  Its tag values are single
    lines, and the same for both ways of opening it. *)
Record steady (P : pystr -> Prop) (v : env) (w : benv) (A : list pystr) (src : pystr) (s : source) : Prop := {
  sd_ordinary : exists b, ordinary (at_place v w src) s b;
  sd_restorable : forall d, P d -> restorable (into v d) A s;
  sd_safe : forall d q, P d -> In q (od_keys (so_tree s)) -> e_danger v d q = false;
  sd_tags : exists i, tags_of Codecs (so_tree s) = Ok i /\
    forall k, tag_values i k = tag_values (so_info s) k /\ Forall (no_brk Codecs) (tag_values i k)
}.

Record good_round (P : pystr -> Prop) (t : tree) (x : round) : Prop := {
  gr_head : plain_forhead (rn_splitter x) t;
  gr_base : storable IoText (rn_base x);
  gr_opts : plain_opts IoText (rn_opts x);
  gr_size : plain_text (rn_bagsize x);
  gr_dest : P (rn_dest x);
  gr_places : forall i, P (rn_place x (nth_name (rn_base x) i)) /\ rn_place x (nth_name (rn_base x) i) <> rn_dest x;
  gr_out : NoDup (od_keys (rn_out x));
  gr_new : forall i, ~ In (nth_name (rn_base x) i) (od_keys (rn_out x))
}.

Fixpoint last_place (src : pystr) (xs : list round) : pystr :=
  match xs with [] => src | x :: xs => last_place (rn_dest x) xs end.

(** ** One round *)

Lemma into_same v w d f : same_world v w -> same_world (searching (into v d) f) w.
Proof. intros []. constructor; assumption. Qed.

Lemma no_values r d k : info_ok r d -> tag_values d k = [] -> ~ In k (od_keys d).
Proof.
  intros [_ Oi] T K. destruct (od_get k d) as [x|] eqn:G; [|apply od_get_none in G; contradiction].
  pose proof (od_get_in _ _ _ G) as Gi. destruct (Oi _ _ Gi) as (_ & Nv & _). unfold tag_values in T. rewrite G in T. destruct x; [discriminate|].
  apply Nv. exact T.
Qed.

Lemma rewritten_same r info k : info_ok Codecs info -> Forall (no_brk Codecs) (tag_values info k) -> str_in k mb_keys = false ->
  rewritten r info k = tag_values info k.
Proof.
  intros [_ Oi] F E. unfold rewritten. rewrite E. rewrite <- (map_id (tag_values info k)) at 2. apply map_ext_in. intros x Ix.
  rewrite Forall_forall in F. specialize (F x Ix).
  assert (X : x = [] \/ trimmed x).
  { unfold tag_values in Ix. destruct (od_get k info) as [w|] eqn:Ek; [|destruct Ix]. apply od_get_in in Ek.
    apply Oi in Ek. destruct Ek as (_ & _ & Fv). rewrite Forall_forall in Fv. apply Fv. destruct w; exact Ix. }
  rewrite one_line_plain by (apply no_brk_any; auto). apply plain_folded. split; [exact X|apply no_brk_any; auto].
Qed.

Section Round.
  Variables (P : pystr -> Prop) (v : env) (w : benv) (A : list pystr).
  Hypothesis Wd : world P v w A.

  (** What is restored can be split and restored again. *)
  Lemma again src s d f D n : steady P v w A src s -> P d -> let v' := searching (into v d) f in
    back v' A s D -> passes_plain (at_place v w d) D ->
    (forall q, ~ special_path q -> od_get q D = od_get q (so_tree s)) ->
    forall s1, opens_as (at_place v w d) n D s1 ->
    steady P v w A d s1 /\
    (forall k, ~ In k multibag_tags -> k <> U "Payload-Oxum" -> k <> U "Bag-Size" -> tag_values (so_info s1) k = tag_values (so_info s) k) /\
    (forall sp, plain_forhead sp (so_tree s) -> plain_forhead sp D).
  Proof.
    intros [(b & O) RSd Sf (i & Ti & Vi)] Pd v' Bk (b1 & Op & Va) Eq s1 (b1' & Op' & Es1).
    assert (b1' = b1) by congruence. subst b1'. clear Op'.
    pose proof (RSd d Pd) as RS. destruct Wd as [Inc Gh Sw Own].
    destruct (is_file_read F_baginfo (so_tree s)) as [X _]. destruct (X (or_info _ _ _ O)) as [ci Ri]. clear X.
    destruct (bk_info _ _ _ _ Bk ci Ri) as (info & text & ox & bs & Li & Rt & Box & Bbs & Lt).
    assert (Ei : info = i). { unfold tags_of in Ti. change (U "bag-info.txt") with F_baginfo in Ti. rewrite Ri in Ti. congruence. } subst info.
    pose proof (load_tags_ok _ _ _ Li) as Oi.
    destruct (Lt IoText) as (dI & LdI & OxI & BsI & VI). destruct (Lt Codecs) as (dC & LdC & OxC & BsC & VC).
    pose proof (load_tags_ok _ _ _ LdI) as OkI. pose proof (load_tags_ok _ _ _ LdC) as OkC.
    destruct (open_plain_ok _ _ _ Op) as (c & fi & Rc & Rv & Et & _ & Cl & LiD & Lm).
    cbn [at_place v_algos v_danger] in Lm. rewrite (sw_algos _ _ Sw) in Lm.
    (* bagit.txt is that of the source *)
    pose proof (or_valid _ _ _ O) as VS. pose proof (vs_open _ _ _ VS) as OpS.
    destruct (open_plain_ok _ _ _ OpS) as (c0 & f0 & Rc0 & Rv0 & _).
    pose proof (bk_bagit _ _ _ _ Bk c0 Rc0) as RcD. rewrite Rc in RcD. injection RcD as <-.
    assert (Rv1 : read_version w c = Ok (o_version b1, fi)) by exact Rv.
    assert (Rv2 : read_version w c = Ok (o_version b, f0)) by exact Rv0.
    assert (Evs : o_version b1 = o_version b /\ fi = f0) by (split; congruence). destruct Evs as [Ev Ef].
    assert (V97 : from_097 (o_version b1) = true) by (rewrite Ev; apply (vs_version _ _ _ VS)).
    assert (Efi : fi = F_baginfo).
    { clear - Rv1 V97. unfold read_version in Rv1. apply bind_ok in Rv1. destruct Rv1 as (kvs & _ & Rv). cbv zeta in Rv.
      destruct (od_get T_BagItVersion _) as [[vs|]|]; try discriminate; destruct (od_get T_Encoding _) as [enc|]; try discriminate.
      destruct (parse_version vs) as [vi'|]; [|discriminate]. destruct (tag_file_name vi') as [f'|] eqn:Tf; [|discriminate].
      destruct enc as [e|]; [|discriminate]. destruct (v_codec w e); [|discriminate]. injection Rv as E1 E2. subst vi' f'. eapply version_097_file; eassumption. }
    rewrite Efi in LiD. clear f0 Ef Rv0 Rv2 Rc0.
    assert (Fi : is_file F_baginfo D = true) by (apply is_file_read; eauto).
    assert (Eo : o_info b1 = dI).
    { unfold exists_ in LiD. rewrite Fi in LiD. cbn [orb] in LiD. destruct LiD as (ci' & Rci' & Ld'). rewrite Rt in Rci'. injection Rci' as <-. congruence. }
    (* tag values *)
    assert (Vals : forall r dd, load_tags r text = Ok dd -> tag_values dd T_OXUM = [ox] -> tag_values dd T_BagSize = [bs] ->
              (forall k, k <> T_OXUM -> k <> T_BagSize -> tag_values dd k = rewritten r i k) ->
              forall k, tag_values dd k = if streq k T_OXUM then [ox] else if streq k T_BagSize then [bs] else if str_in k mb_keys then [] else tag_values i k).
    { intros r dd _ H1 H2 H3 k. destruct (streq k T_OXUM) eqn:K1; [apply streq_eq in K1; subst k; exact H1|].
      destruct (streq k T_BagSize) eqn:K2; [apply streq_eq in K2; subst k; exact H2|]. apply streq_neq in K1, K2. rewrite (H3 k K1 K2).
      destruct (str_in k mb_keys) eqn:K3; [unfold rewritten; rewrite K3; reflexivity|]. apply rewritten_same; [exact Oi|apply Vi|exact K3]. }
    pose proof (Vals IoText dI LdI OxI BsI VI) as ValI. pose proof (Vals Codecs dC LdC OxC BsC VC) as ValC. clear Vals.
    assert (Bk1 : forall k, Forall (no_brk Codecs) (tag_values dC k)).
    { intros k. rewrite ValC. destruct (streq k T_OXUM); [constructor; [exact Box|constructor]|]. destruct (streq k T_BagSize); [constructor; [exact Bbs|constructor]|].
      destruct (str_in k mb_keys); [constructor|apply Vi]. }
    assert (Ecd : forall k, tag_values dC k = tag_values dI k) by (intros k; rewrite ValC, ValI; reflexivity).
    (* paths *)
    pose proof (bk_ok _ _ _ _ Bk) as [WD Md Us Ds]. pose proof (wf_nodup _ WD) as NdD.
    assert (Own1 : forall q, q = F_bagit \/ q = F_baginfo \/ RestoreProofs2.special v' q ->
              special_name q = true /\ manifest_path IoText q /\ storable IoText q /\ forall d, P d -> e_danger v d q = false).
    { intros q [->|[->|Hq]]; apply Own; [right; left; auto|right; right; left; auto|left; exact Hq]. }
    assert (Ns : forall q, q = F_bagit \/ q = F_baginfo \/ RestoreProofs2.special v' q -> ~ In SLASH q).
    { pose proof (or_algos _ _ _ O) as [_ Hs]. cbn [at_place v_algos] in Hs. rewrite (sw_algos _ _ Sw) in Hs. rewrite Forall_forall in Hs.
      intros q [->|[->|(k & a & Ik & Ia & ->)]]; [vm_compute; intuition discriminate|vm_compute; intuition discriminate|].
      specialize (Hs a Ia). unfold man_name. intros I0. rewrite !in_app_iff in I0.
      destruct I0 as [I0|I0]; [destruct Ik as [<-|[<-|[]]]; vm_compute in I0; intuition discriminate|].
      destruct I0 as [I0|[I0|I0]]; [vm_compute in I0; intuition discriminate|exact (Hs I0)|vm_compute in I0; intuition discriminate]. }
    assert (Kind : forall q, In q (od_keys D) ->
              (is_file q D = true /\ (q = F_bagit \/ q = F_baginfo \/ RestoreProofs2.special v' q)) \/
              (In q (od_keys (so_tree s)) /\ is_file q D = is_file q (so_tree s))).
    { intros q K. destruct (od_get q D) as [nd|] eqn:G; [|apply od_get_none in G; contradiction].
      destruct (bk_paths _ _ _ _ Bk q nd G) as [[N1 Hq]|(n' & G' & E)].
      - left. split; [|exact Hq]. unfold is_file. rewrite G. destruct nd; [congruence|reflexivity].
      - right. split; [eapply od_get_some_key; exact G'|]. unfold is_file. rewrite G, G'. destruct nd, n'; try reflexivity; destruct E as [E1 E2]; [discriminate (E1 eq_refl)|discriminate (E2 eq_refl)]. }
    assert (Nmb : forall q, In q (od_keys D) -> ~ multibag_path q /\ q <> Restore.F_fetch).
    { intros q K. destruct (od_get q D) as [nd|] eqn:G; [|apply od_get_none in G; contradiction]. split.
      - intros M. rewrite (bk_multi _ _ _ _ Bk q M) in G. discriminate.
      - intros ->. rewrite (bk_fetch _ _ _ _ Bk) in G. discriminate. }
    assert (Safe1 : forall d q, P d -> In q (od_keys D) -> e_danger v d q = false).
    { intros d' q Pd' K. destruct (Kind q K) as [[_ Hq]|[K' _]]; [apply (Own1 q Hq); exact Pd'|apply Sf; assumption]. }
    assert (Single : od_has (U "Multibag-Head-Version") (o_info b1) = false).
    { rewrite Eo. apply od_has_false, od_get_none. apply (no_values IoText _ _ OkI). rewrite ValI. reflexivity. }
    assert (Ord : ordinary (at_place v w d) s1 b1).
    { subst s1. constructor; cbn [so_tree so_info].
      - constructor; cbn [so_tree so_info so_reader so_algos so_entries]; auto.
      - apply (or_algos _ _ _ O).
      - apply (or_ascii _ _ _ O).
      - exact Fi.
      - split; [exact Single|]. apply (bk_multi _ _ _ _ Bk).
      - intros q Hq K. destruct (Kind q K) as [[F Hs]|[K' F]].
        + split; [exact F|]. split; [apply (Own1 q Hs)|apply Ns; exact Hs].
        + rewrite F. apply (or_special _ _ _ O q Hq K').
      - intros q K Sn Nsl. destruct (Kind q K) as [[F Hs]|[K' F]]; [|apply (or_looks _ _ _ O q K' Sn Nsl)].
        destruct Hs as [->|[->|(k & a & [<-|[<-|[]]] & _ & ->)]]; [left; reflexivity|right; left; reflexivity| |].
        + do 3 right; left. apply startswith_iff. eexists. reflexivity.
        + do 4 right; left. apply startswith_iff. eexists. reflexivity.
      - intros q K. cbn [at_place v_danger]. split; [apply Safe1; assumption|].
        destruct (Kind q K) as [[F Hs]|[K' F]]; [destruct (Own1 q Hs) as (_ & H1 & H2 & _); auto|].
        destruct (or_paths _ _ _ O q K') as (_ & H1 & H2). auto.
      - intros k x Ix. rewrite Eo, <- Ecd in Ix. specialize (Bk1 k). rewrite Forall_forall in Bk1. apply no_brk_any. apply Bk1. exact Ix.
      - intros k x Ik Ix. rewrite Eo, ValI in Ix.
        assert (E : (if streq k T_OXUM then [ox] else if streq k T_BagSize then [bs] else if str_in k mb_keys then [] else tag_values i k) = tag_values i k)
          by (destruct Ik as [<-|[<-|[]]]; reflexivity).
        rewrite E in Ix. rewrite (proj1 (Vi k)) in Ix. apply (or_ids _ _ _ O k x Ik Ix). }
    assert (Listed : forall pay a p h, In a (e_algos v) -> entry_in IoText (kind_of pay) D a p h -> In p (od_keys D)).
    { intros pay a p h Ia E. apply (C88_validates _ _ _ WD Op) in Va.
      pose proof (load_chars v' d D _ IoText _ _ _ Md Lm a p h) as Ch.
      assert (C : checksum (o_entries b1) a p = Some h).
      { apply Ch. split; [exact Ia|]. destruct pay; [left; exact E|right; split; [exact V97|exact E]]. }
      destruct (vb_sums _ _ _ _ Va a p h C) as (cc & Rcc & _). apply read_get in Rcc. eapply od_get_some_key. exact Rcc. }
    split; [|split].
    - constructor.
      + exists b1. exact Ord.
      + intros d' Pd'. pose proof (RSd d' Pd') as RS'. subst s1. constructor; cbn [so_tree so_info so_reader so_algos so_entries].
        * reflexivity.
        * apply (sw_algos _ _ Sw).
        * unfold opened. cbn [so_reader so_tree so_info]. unfold tags_of. change (U "bag-info.txt") with F_baginfo. rewrite Rt, Eo. exact LdI.
        * exists (e_danger v d), (from_1 (o_version b1)). cbn [so_reader so_tree so_algos so_entries at_place v_algos]. rewrite (sw_algos _ _ Sw). rewrite V97 in Lm. exact Lm.
        * exact Single.
        * exact (ord_layout _ _ _ Ord).
        * apply (bk_multi _ _ _ _ Bk).
        * intros pay a c1 Ia Rd. destruct (Md pay a c1 Ia Rd) as [G _]. split; [exact G|]. intros h p Ip. cbn [into e_danger e_dest].
          apply Safe1; [exact Pd'|]. apply (Listed pay a p h Ia). exists c1. auto.
        * destruct Us as [U1 U2]. constructor; assumption.
        * intros c1 Rc1. rewrite Rc in Rc1. injection Rc1 as <-. exists (from_1 (o_version b1)). cbn [into e_version].
          rewrite (sw_version _ _ Sw _ _ _ Rv1), V97. reflexivity.
        * intros c1 Rc1. rewrite Rt in Rc1. injection Rc1 as <-. split; [eauto|]. exists dC. split; [exact LdC|]. intros k K.
          assert (Nv : tag_values dC k <> []) by (intros Z; exact (no_values Codecs _ _ OkC Z K)). rewrite ValC in Nv.
          destruct (streq k T_OXUM) eqn:K1; [apply streq_eq in K1; subst k; vm_compute; discriminate|].
          destruct (streq k T_BagSize) eqn:K2; [apply streq_eq in K2; subst k; vm_compute; discriminate|].
          destruct (str_in k mb_keys); [congruence|].
          destruct (rs_info _ _ _ RS ci Ri) as [_ (i' & Li' & Hk)]. rewrite Li in Li'. injection Li' as <-. apply Hk.
          destruct (in_dec str_eq_dec k (od_keys i)) as [I0|I0]; [exact I0|]. exfalso. apply Nv. unfold tag_values.
          apply od_get_none in I0. rewrite I0. reflexivity.
        * unfold is_dir. rewrite (bk_fetch _ _ _ _ Bk). reflexivity.
        * intros p F T1 T2. destruct (bk_names _ _ _ _ Bk p F T1 T2) as (M1 & M2 & _). split; [exact M1|]. split; [exact M2|].
          cbn [into e_danger e_dest]. apply Safe1; [exact Pd'|]. apply is_file_read in F. destruct F as [x F]. apply read_get in F. eapply od_get_some_key; exact F.
        * exact (rs_own _ _ _ RS').
      + subst s1. exact Safe1.
      + exists dC. subst s1. cbn [so_tree so_info]. split; [unfold tags_of; change (U "bag-info.txt") with F_baginfo; rewrite Rt; exact LdC|].
        intros k. split; [rewrite Eo; apply Ecd|apply Bk1].
    - intros k K1 K2 K3. subst s1. cbn [so_info]. rewrite Eo, ValI. change (U "Payload-Oxum") with T_OXUM in K2. change (U "Bag-Size") with T_BagSize in K3.
      apply streq_neq in K2, K3. rewrite K2, K3. assert (E : str_in k mb_keys = false) by (apply str_in_false; exact K1). rewrite E. apply Vi.
    - intros sp Hf q Iq Fq Sq. apply (Hf q Iq); [|exact Sq]. apply in_files in Fq; [|exact NdD].
      apply in_files; [apply wf_nodup, (vs_wf _ _ _ VS)|]. 
      assert (K : In q (od_keys D)) by (apply is_file_read in Fq; destruct Fq as [x Fq]; apply read_get in Fq; eapply od_get_some_key; exact Fq).
      destruct (Kind q K) as [[_ Hs]|[_ E]]; [exfalso; exact (Ns q Hs Sq)|congruence].
  Qed.
End Round.

(** ** C123 *)

Section Cycle.
  Variables (P : pystr -> Prop) (v : env) (w : benv) (A : list pystr).
  Hypothesis Wd : world P v w A.

  Lemma split_found v' place base bags : NoDup (map fst bags) ->
    (forall n, In n (map fst bags) -> exists i, n = nth_name base i) -> (forall i, place (nth_name base i) <> e_dest v') ->
    e_find v' = bags_at place bags -> found v' place bags.
  Proof.
    intros N0 Nth Np Ef n t I. rewrite Ef. split.
    - unfold bags_at. rewrite (od_in_get n t bags N0 I). reflexivity.
    - destruct (Nth n) as [i ->]; [apply in_map_iff; exists (n, t); auto|apply Np].
  Qed.

  (** The names of the bags. *)
  Lemma split_names k sp base s ds o out bags : splits_into s o (planned k sp base s ds) None out bags ->
    NoDup (map fst bags) /\ forall n, In n (map fst bags) -> exists i, n = nth_name base i.
  Proof.
    intros Sp. pose proof (made_split _ _ _ _ _ _ Sp) as (ms0 & lu0 & ms' & lu' & _ & _ & N0 & _ & Nm). split; [exact N0|].
    destruct (planned_eq s k sp base ds) as [_ En]. cbn [names_of] in Nm. rewrite names_drawn, En in Nm.
    intros n Hn. apply (in_map Some) in Hn. rewrite Nm in Hn. apply in_map_iff in Hn. destruct Hn as (i & E & _). injection E as <-. eauto.
  Qed.

  Lemma one_round src s x bags h : steady P v w A src s -> good_round P (so_tree s) x ->
    splits_into s (rn_opts x) (planned (rn_kind x) (rn_splitter x) (rn_base x) s (rn_sizes x)) None (rn_out x) bags ->
    head_of IoText bags h ->
    exists t, restore (searching (into v (rn_dest x)) (bags_at (rn_place x) bags)) true true (rn_bagsize x) (rn_readonly x) h
        (rn_place x (hb_name h)) [] = Ok t /\
      back (searching (into v (rn_dest x)) (bags_at (rn_place x) bags)) A s t /\
      passes_plain (at_place v w (rn_dest x)) t /\ forall q, ~ special_path q -> od_get q t = od_get q (so_tree s).
  Proof.
    intros Sd G Sp Hd. set (v' := searching (into v (rn_dest x)) (bags_at (rn_place x) bags)).
    destruct (sd_ordinary _ _ _ _ _ _ Sd) as [b O]. destruct (split_names _ _ _ _ _ _ _ _ Sp) as [Nb Nth].
    assert (RS : restorable v' A s) by (apply searching_restorable, (sd_restorable _ _ _ _ _ _ Sd), (gr_dest _ _ _ G)).
    assert (Sw : same_world v' w) by (apply into_same, (wd_same _ _ _ _ Wd)).
    assert (Fo : found v' (rn_place x) bags).
    { apply (split_found v' (rn_place x) (rn_base x)); auto. intros i. apply (gr_places _ _ _ G i). }
    assert (Sf : safe_places v' (rn_place x) bags (so_tree s)).
    { intros n f I F. destruct (Nth n I) as [i ->]. apply (sd_safe _ _ _ _ _ _ Sd); [apply (gr_places _ _ _ G i)|].
      apply is_file_read in F. destruct F as [c F]. apply read_get in F. eapply od_get_some_key; exact F. }
    assert (O' : ordinary (at_place v' w src) s b) by exact O.
    destruct (C100_there_and_back v' w A s b (rn_kind x) (rn_splitter x) (rn_base x) (rn_sizes x) (rn_opts x) (rn_out x) bags (rn_bagsize x)
      (rn_readonly x) h (rn_place x) src O' RS Sw (gr_head _ _ _ G) (gr_base _ _ _ G) (gr_opts _ _ _ G) Sp (wd_algos _ _ _ _ Wd) (wd_hash _ _ _ _ Wd)
      (gr_size _ _ _ G) Fo Sf Hd) as (t & Hr & Va & Eq).
    exists t. split; [exact Hr|]. split; [|split; [exact Va|exact Eq]].
    pose proof (or_algos _ _ _ O) as [Na Ns]. cbn [at_place v_algos] in Na, Ns. rewrite (sw_algos _ _ Sw) in Na, Ns.
    apply (split_back s (rn_opts x) (planned (rn_kind x) (rn_splitter x) (rn_base x) s (rn_sizes x)) None (rn_out x) bags v' w A (rn_bagsize x)
      (rn_readonly x) h (rn_place x) src b t); auto.
    - exact (ord_data _ _ _ O).
    - apply (gr_opts _ _ _ G).
    - exact (planned_some _ _ _ O _ _ _ _ (gr_head _ _ _ G)).
    - exact (planned_all _ _ _ O _ _ _ _ (gr_head _ _ _ G)).
    - apply Forall_forall. intros n I. destruct (Nth n I) as [i ->]. apply names_storable, (gr_base _ _ _ G).
    - intros a I. rewrite Forall_forall in Ns. apply Ns. exact I.
    - apply (wd_algos _ _ _ _ Wd).
    - exact (wd_hash _ _ _ _ Wd).
    - apply (gr_size _ _ _ G).
    - apply (or_valid _ _ _ O').
    - exact (planned_plain _ _ _ O' _ _ _ _ (gr_head _ _ _ G)).
  Qed.

  Lemma can_split src s x : steady P v w A src s -> good_round P (so_tree s) x ->
    exists bags h, splits_into s (rn_opts x) (planned (rn_kind x) (rn_splitter x) (rn_base x) s (rn_sizes x)) None (rn_out x) bags /\
      head_of IoText bags h.
  Proof.
    intros Sd G. destruct (sd_ordinary _ _ _ _ _ _ Sd) as [b O]. set (p := planned _ _ _ _ _).
    destruct (planned_eq s (rn_kind x) (rn_splitter x) (rn_base x) (rn_sizes x)) as [_ En]. fold p in En.
    destruct (C25_split_succeeds s (rn_opts x) p None (rn_out x) [] [] (map (nth_name (rn_base x)) (seq 1 (length (p_manifests p))))) as (bags & Sp & Eb).
    - exact (ord_layout _ s b O).
    - exact (ord_bagit _ s b O).
    - apply (or_info _ _ _ O).
    - apply not_a_head. apply (or_single _ _ _ O).
    - exact I.
    - cbn [names_of]. rewrite names_drawn, En. rewrite map_map. reflexivity.
    - apply nodup_names; [apply (gr_out _ _ _ G)|apply (gr_new _ _ _ G)].
    - pose proof (rs_opened _ _ _ (sd_restorable _ _ _ _ _ _ Sd _ (gr_dest _ _ _ G))) as Ho.
      pose proof (rs_reader _ _ _ (sd_restorable _ _ _ _ _ _ Sd _ (gr_dest _ _ _ G))) as Er.
      destruct (C26_head_and_members_partial s (rn_opts x) p None (rn_out x) bags [] [] Ho) as (others & head & t & tags & members & E & _ & Tg & _).
      + rewrite Er. apply (gr_opts _ _ _ G).
      + apply not_a_head. apply (or_single _ _ _ O).
      + constructor.
      + exact (planned_some _ _ _ O _ _ _ _ (gr_head _ _ _ G)).
      + exact Sp.
      + rewrite Er, Eb. apply Forall_forall. intros n I. apply in_map_iff in I. destruct I as (i & <- & _). apply names_storable, (gr_base _ _ _ G).
      + exists bags, (open_hb head t tags IoText). split; [exact Sp|]. exists others, head, t, tags. rewrite Er in Tg. auto.
  Qed.
End Cycle.

(** Any number of rounds can be made, whatever the splitters do; after them the
    bag is valid, it has the same content, and all tags but the sizes have the
    same values. *)
Theorem C123_cycles : forall P v w A src s xs,
  world P v w A -> steady P v w A src s -> Forall (good_round P (so_tree s)) xs ->
  (exists s', cycles v w s xs s') /\
  forall s', cycles v w s xs s' ->
    passes_plain (at_place v w (last_place src xs)) (so_tree s') /\
    (forall q, ~ special_path q -> od_get q (so_tree s') = od_get q (so_tree s)) /\
    (forall k, ~ In k multibag_tags -> k <> U "Payload-Oxum" -> k <> U "Bag-Size" ->
       tag_values (so_info s') k = tag_values (so_info s) k) /\
    steady P v w A (last_place src xs) s'.
Proof.
  intros P v w A src s xs Wd. revert src s. induction xs as [|x xs IH]; intros src s Sd G.
  - split; [exists s; constructor|]. intros s' C. inversion C; subst. cbn [last_place].
    split; [|split; [reflexivity|split; [reflexivity|exact Sd]]].
    destruct (sd_ordinary _ _ _ _ _ _ Sd) as [b O]. exists b. split; apply (or_valid _ _ _ O).
  - inversion G as [|? ? Gx Gs]; subst.
    assert (Step : forall bags h t s1,
      splits_into s (rn_opts x) (planned (rn_kind x) (rn_splitter x) (rn_base x) s (rn_sizes x)) None (rn_out x) bags ->
      head_of IoText bags h ->
      restore (searching (into v (rn_dest x)) (bags_at (rn_place x) bags)) true true (rn_bagsize x) (rn_readonly x) h (rn_place x (hb_name h)) [] = Ok t ->
      opens_as (at_place v w (rn_dest x)) (rn_name x) t s1 ->
      (forall q, ~ special_path q -> od_get q (so_tree s1) = od_get q (so_tree s)) /\
      (forall k, ~ In k multibag_tags -> k <> U "Payload-Oxum" -> k <> U "Bag-Size" -> tag_values (so_info s1) k = tag_values (so_info s) k) /\
      steady P v w A (rn_dest x) s1 /\ Forall (good_round P (so_tree s1)) xs).
    { intros bags h t s1 Sp Hd Hr Os. destruct (one_round P v w A Wd src s x bags h Sd Gx Sp Hd) as (t' & Hr' & Bk & Va & Eq).
      rewrite Hr in Hr'. injection Hr' as <-. assert (Et : so_tree s1 = t) by (destruct Os as (b1 & _ & ->); reflexivity).
      destruct (again P v w A Wd src s (rn_dest x) (bags_at (rn_place x) bags) t (rn_name x) Sd (gr_dest _ _ _ Gx) Bk Va Eq s1 Os) as (S1 & T1 & H1).
      rewrite Et. split; [exact Eq|]. split; [exact T1|]. split; [exact S1|]. apply Forall_forall. intros y Iy. rewrite Forall_forall in Gs.
      destruct (Gs y Iy) as [g1 g2 g3 g4 g5 g6 g7 g8]. constructor; auto. }
    split.
    + destruct (can_split P v w A src s x Sd Gx) as (bags & h & Sp & Hd).
      destruct (one_round P v w A Wd src s x bags h Sd Gx Sp Hd) as (t & Hr & _ & (b1 & Op & Va) & _).
      set (s1 := {| so_name := rn_name x; so_tree := t; so_info := o_info b1; so_algos := v_algos (at_place v w (rn_dest x));
                    so_entries := o_entries b1; so_reader := IoText |}).
      assert (Os : opens_as (at_place v w (rn_dest x)) (rn_name x) t s1) by (exists b1; auto).
      destruct (Step bags h t s1 Sp Hd Hr Os) as (_ & _ & S1 & G1). destruct (IH _ _ S1 G1) as [[s' C] _].
      exists s'. exact (once_more v w s x xs bags h t s1 s' Sp Hd Hr Os C).
    + intros s' C. inversion C as [|? ? ? bags h t s1 ? Sp Hd Hr Os C1]; subst.
      destruct (Step bags h t s1 Sp Hd Hr Os) as (E1 & T1 & S1 & G1). destruct (IH _ _ S1 G1) as [_ H].
      destruct (H s' C1) as (H1 & H2 & H3 & H4). cbn [last_place]. split; [exact H1|]. split; [|split; [|exact H4]].
      * intros q Nq. rewrite (H2 q Nq). apply E1. exact Nq.
      * intros k K1 K2 K3. rewrite (H3 k K1 K2 K3). apply T1; assumption.
Qed.
Print Assumptions C123_cycles.

(** The bag of [C100_case], split first into bags of at most five bytes and
    then into bags of at most three. *)
Definition cy_round (k : strategy) (size : N) (base dest : pystr) : round :=
  {| rn_kind := k; rn_splitter := fst (new_splitter size None None); rn_base := base; rn_sizes := fun _ => 0;
     rn_opts := Props_SplitApply.ex_opts; rn_out := [(U "other", [])];
     rn_place := fun n => U "/bags/" ++ n; rn_dest := dest; rn_name := U "again"; rn_bagsize := fun _ => U "1 kB"; rn_readonly := false |}.
Definition cy_rounds : list round := [cy_round WellPacked 5 (U "src") (U "/out/one"); cy_round Neighborly 3 (U "again") (U "/out/two")].

Lemma cy_into d A s : restorable va_env A s -> restorable (into va_env d) A s.
Proof. intros [R1 R2 R3 R4 R5 R6 R7 R8 [U1 U2] R10 R11 R12 R13 R14]. constructor; try assumption. constructor; assumption. Qed.

Example C123_case : let P := fun d => startswith d (U "/") = true in
  world P va_env va_world ex_algos /\ steady P va_env va_world ex_algos (U "/src") va_source /\
  Forall (good_round P (so_tree va_source)) cy_rounds /\
  tag_values (so_info va_source) (U "Contact-Name") = [U "A"; U "B"] /\
  read (U "data/d/b") (so_tree va_source) <> None /\ ~ special_path (U "data/d/b").
Proof.
  cbv zeta. destruct C95_case as (A1 & _ & _ & _ & _ & _ & _ & _ & _ & A10 & A11 & _). destruct C100_case as (B1 & B2 & B3 & B4 & B5 & B6 & _).
  split; [|split; [|split; [|split; [|split]]]].
  - constructor.
    + intros a Ia. exact Ia.
    + exact A11.
    + exact B3.
    + intros q Hq. assert (X : special_name q = true /\ manifest_path IoText q /\ storable IoText q).
      { assert (Iq : In q [U "manifest-md5.txt"; U "manifest-sha256.txt"; U "tagmanifest-md5.txt"; U "tagmanifest-sha256.txt"; U "bagit.txt"; U "bag-info.txt"]).
        { destruct Hq as [(k & a & [<-|[<-|[]]] & [<-|[<-|[]]] & ->)|[<-|[<-|[]]]]; cbn; auto 8. }
        clear Hq. repeat destruct Iq as [<-|Iq]; try destruct Iq; (split; [vm_compute; reflexivity|split; [apply manifest_pathb_ok; vm_compute; reflexivity|apply storableb_ok; vm_compute; reflexivity]]). }
      destruct X as (X1 & X2 & X3). split; [exact X1|]. split; [exact X2|]. split; [exact X3|]. intros d _. reflexivity.
  - constructor.
    + exists va_open. exact B1.
    + intros d _. apply cy_into. exact B2.
    + intros d q _ _. reflexivity.
    + exists (o_info va_open). split; [vm_compute; reflexivity|]. intros k. split; [reflexivity|]. apply Forall_forall. intros x Ix.
      revert Ix. apply (every_value _ (no_brk Codecs)). vm_compute. repeat constructor.
  - repeat apply Forall_cons; [| |apply Forall_nil]; constructor; cbn [cy_round rn_splitter rn_base rn_opts rn_bagsize rn_dest rn_place rn_out].
    + apply no_forhead. reflexivity.
    + apply storableb_ok. vm_compute. reflexivity.
    + exact B6.
    + intros t. split; [apply no_brk_b; vm_compute; reflexivity|right; apply trimmedb_ok; vm_compute; reflexivity].
    + vm_compute. reflexivity.
    + intros i. split; [reflexivity|discriminate].
    + repeat constructor. intros [].
    + intros i [E|[]]; discriminate E.
    + apply no_forhead. reflexivity.
    + apply storableb_ok. vm_compute. reflexivity.
    + exact B6.
    + intros t. split; [apply no_brk_b; vm_compute; reflexivity|right; apply trimmedb_ok; vm_compute; reflexivity].
    + vm_compute. reflexivity.
    + intros i. split; [reflexivity|discriminate].
    + repeat constructor. intros [].
    + intros i [E|[]]; discriminate E.
  - vm_compute. reflexivity.
  - vm_compute. discriminate.
  - intros [H|[H|[H|[H|[H|[H|[z' H]]]]]]]; discriminate H.
Qed.
Print Assumptions C123_case.

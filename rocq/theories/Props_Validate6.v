(** What amending leaves passes validation (C86) *)
Require Import String NArith PeanoNat Bool List Lia.
From Verif Require Import PyBase PyFacts Version Tsv TsvProofs Fs FsFacts HeadBag HeadBagProofs HeadBagProofs2 HeadBagProofs3 BagIt BagItProofs Split SplitApply SplitApplyProofs SplitApplyProofs5 SplitApplyProofs7 SplitApplyProofs8 Restore RestoreProofs RestoreProofs2 RestoreProofs3 RestoreProofs6 Props_SplitApply Props_Restore Props_Restore3 Amend AmendProofs AmendProofs2 AmendProofs3 AmendProofs4 Props_Amend SingleProofs Props_Single Validate ValidateProofs Props_Validate Props_Validate2 Props_Validate3 ValidateProofs2 Props_Validate5.
Import ListNotations.
Open Scope N_scope.


(** ** C86: the head bag of an amendment passes *)

Lemma keeps_run (l : list step) : Forall (fun s : step => forall t t', s t = Ok t' -> keeps t t') l ->
  forall t t', run_steps l t = Ok t' -> keeps t t'.
Proof.
  induction 1 as [|s l Hs _ IH]; intros t t' H; [cbn in H; inversion H; apply keeps_refl|].
  rewrite run_cons in H. apply bind_ok in H. destruct H as (t1 & H1 & H2). eapply keeps_trans; [apply (Hs _ _ H1)|exact (IH _ _ H2)].
Qed.
Lemma top_keeps p c t t' : good_path p -> p <> DATA -> is_payload p = false -> write_file p c t = Ok t' -> keeps t t'.
Proof.
  intros G Nd P H [W F]. apply write_file_ok2 in H. destruct H as (-> & E1 & E2). split; [split; [apply wf_set; auto|]|].
  - unfold is_file. rewrite od_get_set_other; [exact F|]. auto.
  - intros q Q. apply od_get_set_other. intros ->. congruence.
Qed.
Lemma info_steps_keep v algs bsize version pv i t t' : plain_algos v -> (forall a, In a algs -> In a (e_algos v)) ->
  run_steps (info_steps v algs bsize version pv i) t = Ok t' -> keeps t t'.
Proof.
  intros Pa Al. apply keeps_run.
  assert (S : forall f, Forall (fun s : step => forall t t', s t = Ok t' -> keeps t t') (save_steps v algs f)).
  { intros f. unfold save_steps. constructor.
    - intros x x' H. eapply top_keeps; [| | |exact H]; [apply good_pathb_ok; reflexivity|discriminate|reflexivity].
    - apply Forall_forall. intros s I. apply in_map_iff in I. destruct I as (a & <- & I). intros x x' H.
      eapply top_keeps; [| | |exact H]; [|discriminate|reflexivity]. apply man_good; [right; left; reflexivity|]. apply Pa. apply Al. exact I. }
  unfold info_steps. apply Forall_app. split; apply S.
Qed.
Lemma reset_keeps td t t' : good_path td -> outside_payload td -> reset_step td t = Ok t' -> keeps t t'.
Proof.
  intros G O H. unfold reset_step in H. destruct (is_file (sjoin td F_members) t) eqn:E; [|eapply ensure_keeps; eauto].
  intros [W F]. unfold remove_file in H. rewrite E in H. inversion H; subst t'. split; [split; [apply wf_del; auto|]|].
  - unfold is_file. rewrite od_get_del_other; [exact F|]. intros Y. rewrite Y in F. congruence.
  - intros p P. apply od_get_del_other. intros ->. rewrite (outside_file td F_members O) in P; [discriminate|cbn; auto].
Qed.

Lemma own_last m bags name t p : lookups m (bags ++ [(name, t)]) p = Some name -> holds t p = true.
Proof.
  unfold lookups. rewrite fold_left_app. cbn [fold_left]. unfold step_lookup at 1. cbn [fst snd]. destruct (holds t p); [reflexivity|].
  match goal with |- context [match ?x with Some _ => _ | None => _ end] => destruct x as [y|] end; [|discriminate].
  destruct (streq_reflect y name) as [->|Ne]; [discriminate|]. intros E. injection E as ->. congruence.
Qed.
Lemma own_listed m bags name t p : holds t p = true -> lookups m (bags ++ [(name, t)]) p = Some name.
Proof. intros H. unfold lookups. rewrite fold_left_app. cbn [fold_left]. unfold step_lookup at 1. cbn [fst snd]. rewrite H. reflexivity. Qed.

Lemma last_ones_end l m : exists l', last_ones (l ++ [m]) = l' ++ [m].
Proof.
  induction l as [|x l (l' & IH)]; [exists []; reflexivity|]. cbn [app last_ones]. destruct (str_in _ _); [exists l'; exact IH|].
  exists (x :: l'). rewrite IH. reflexivity.
Qed.
Lemma last_ones_in l m : In m (last_ones l) -> In m l.
Proof. induction l as [|x l IH]; [auto|]. cbn [last_ones]. destruct (str_in _ _); [intros I; right; auto|]. intros [->|I]; [left; reflexivity|right; auto]. Qed.

(** The versions that the new head bag deprecates are written properly, and
    none of them is its own. *)
Definition other_versions (l : list pystr) (version name : pystr) : Prop :=
  forall v, In v l -> v <> [] /\ (length (split_on 44 v) <= 2)%nat /\ fst (deprecated v) <> version /\ snd (deprecated v) <> Some name.

Theorem C86_amended_partial : forall u v algs bsize repr ro old bags version new new' old' name t td ms b want,
  url_parser u -> plain_algos v -> (forall a, In a algs -> In a (e_algos v)) ->
  amendment bsize repr old new name t td version -> good_path td -> outside_payload td ->
  members_of old ms -> (is_head old = true -> hb_lu old = None /\ exists es, iter_file_lookup old = Ok es) ->
  bag_files (hb_tree old) -> hb_name old <> [] ->
  Forall (fun s => bag_files (s_tree s) /\ s_name s <> []) bags -> bag_files t -> name <> [] ->
  (* names, URLs and paths *)
  Forall (storable_member IoText) (ms ++ map (fun s => entry_of (default_bag s)) bags ++ [own_member None None [] name]) ->
  Forall (accepted_url u) ms -> all_storable IoText old (map bag_of bags ++ [(name, t)]) ->
  (* tags of the new head bag, and the versions of the old one *)
  (forall i, tags_of Codecs t = Ok i -> ordinary_tags i want) ->
  other_versions (deprecates repr (hb_info old)) version name ->
  (exists p, is_payload p && is_file p t = true) ->
  is_dir (td ++ U "/aggregation-info.txt") t = false ->
  (forall text, read (td ++ U "/aggregation-info.txt") t = Some text -> exists tags, load_tags IoText text = Ok tags) ->
  amend_bag_with v algs bsize repr ro old bags version new = (new', Ok old') ->
  opened b name (hb_tree new') -> passes u b want.
Proof.
  intros u v algs bsize repr ro old bags version new new' old' name t td ms b want Hu Pa Al' Am Gt Ot Ms Hh Wo No Wb Wn Nn Sm Ur St Or Dv [q Q] Ad Ag H (Bn & Bt & Bp & rd & Bi) target.
  destruct Am as (B & (i & Ti & En & Td) & D & Tv & Nv & Vv & Fd).
  assert (Td' : tag_dir_raw (hb_info new) = Ok td) by (subst new; exact Td).
  destruct (amend_disk v algs bsize repr ro old (map default_bag bags) (own_member None None []) SNone SNone version new new' old' name t td B) as
    (ms' & t2 & h & d & Om & Al & R1 & Et & Ei & Hm & Tb & Ln & En' & El & _ & Rm & Rl & R2 & T); auto.
  { exists i. auto. }
  assert (ms' = ms) by (eapply members_of_unique; eauto). subst ms'.
  pose proof (init_std repr old new td Td') as S0.
  assert (Hn : hb_name new = name) by (subst new; reflexivity). assert (Ht : hb_tree new = t) by (subst new; reflexivity).
  assert (Hi : hb_info new = i) by (subst new; reflexivity).
  destruct (amend_table repr ro old bags new h old' td S0 ltac:(subst new; reflexivity) ltac:(subst new; reflexivity)
    ltac:(rewrite Ht; exact D) Wo No Wb ltac:(rewrite Ht; exact Wn) ltac:(rewrite Hn; exact Nn) Gt Ot Al) as (d' & Tb' & G).
  rewrite Hn, Ht in G. assert (d' = d) by (destruct Tb as [Tb _], Tb' as [Tb' _]; congruence). subst d'.
  assert (Lu : hb_lu h = Some d).
  { destruct (hb_lu h) as [d0|] eqn:L.
    - destruct Tb as [Tb _]. unfold cur_table in Tb. rewrite L in Tb. congruence.
    - exfalso. specialize (G q). rewrite (own_listed _ _ _ _ _ Q), (Ln eq_refl) in G. discriminate. }
  rewrite Lu in Rl, R2.
  set (lst := last_ones (ms ++ map ab_member (map default_bag bags) ++ [own_member None None [] name])) in *.
  assert (R : run_steps (([reset_step td; clear_step td] ++ members_steps td lst ++ lookup_steps td (Some d)) ++
               info_steps v algs bsize (Some version) CURRENT_VERSION (hb_info h)) t = Ok (hb_tree new')).
  { rewrite <- !app_assoc. rewrite run_app, R1. exact R2. }
  assert (Sa : od_get (td ++ U "/aggregation-info.txt") (hb_tree new') = od_get (td ++ U "/aggregation-info.txt") t).
  { revert R. change (td ++ U "/aggregation-info.txt") with (sjoin td F_aggregation). apply run_leaves. apply Forall_app. split.
    - apply list_leaves; [apply not_own_dir; discriminate| |]; apply other_name; discriminate.
    - apply info_leaves; auto. unfold sjoin; apply in_or_app; right; left; reflexivity. }
  assert (K : keeps t (hb_tree new')).
  { rewrite run_app in R. destruct (run_steps ([reset_step td; clear_step td] ++ members_steps td lst ++ lookup_steps td (Some d)) t) as [t3|] eqn:R3; [|discriminate].
    cbn [bind] in R. eapply keeps_trans; [|apply (info_steps_keep _ _ _ _ _ _ _ _ Pa Al' R)]. clear R.
    rewrite run_app, R1 in R3. cbn [bind] in R3. rewrite run_app in R3. destruct (run_steps (members_steps td lst) t2) as [t4|] eqn:R4; [|discriminate].
    cbn [bind] in R3. rewrite run_cons in R1. apply bind_ok in R1. destruct R1 as (t1 & R1 & R5). rewrite run_cons in R5. apply bind_ok in R5. destruct R5 as (t5 & R5 & R6).
    cbn in R6. inversion R6; subst t5.
    eapply keeps_trans; [eapply reset_keeps; eauto|]. eapply keeps_trans; [eapply clear_keeps; eauto|].
    eapply keeps_trans; [eapply members_keeps; eauto|]. eapply lookup_keeps; eauto. }
  destruct (K Wn) as [W' Kp]. destruct (T rd) as (j & Tj & Sj & Vj & Jh & Jv & Jr & Jt & Jd & Jk). rewrite Hi in Jd, Jk.
  assert (Ej : b_info b = j) by congruence.
  assert (Sd : Forall (legal_entry IoText) d).
  { apply Forall_storable_legal. apply Forall_forall. intros [p x] I. pose proof (od_in_get p x d (proj1 (proj2 Tb)) I) as E.
    rewrite G in E. apply lookups_from in E. destruct E as [E|(b' & Ib & Hb & ->)]; [|apply St; auto].
    apply St. unfold answer_of. unfold old_answer in E. destruct (is_head old) eqn:Eh.
    - left. split; [reflexivity|]. destruct (Hh eq_refl) as [Lo [es Ies]]. unfold lookup_file_ro, cache_file_lookup. rewrite Lo, Ies.
      rewrite Ies in E. cbn. rewrite E. reflexivity.
    - right. split; [reflexivity|]. unfold holds in E. rewrite E. reflexivity. }
  assert (Fp : forall p, is_payload p = true -> is_file p (b_tree b) = is_file p t) by (intros p P; unfold is_file; rewrite Bt, (Kp p P); reflexivity).
  assert (Nm : td <> []) by (apply good_path_nonempty; exact Gt).
  assert (Key : forall p, is_file p (hb_tree new') = true -> In p (od_keys (hb_tree new'))).
  { intros p F. unfold is_file in F. destruct (od_get p (hb_tree new')) as [n|] eqn:E; [|discriminate]. apply od_get_in in E. exact (in_map fst _ _ E). }
  assert (Anc : forall p a r, is_file p (hb_tree new') = true -> p = a ++ SLASH :: r -> a <> [] -> is_dir a (hb_tree new') = true).
  { intros p a r F E Na. pose proof (wf_ancestor _ (proj1 W') p a r (Key p F) E) as I. apply in_dirs in I; [|apply W'].
    unfold is_dir. destruct a; [congruence|]. rewrite I. reflexivity. }
  assert (El2 : exists l', lst = l' ++ [own_member None None [] name]).
  { unfold lst. rewrite app_assoc. apply last_ones_end. }
  apply (made_passes u b target want td version lst d); rewrite ?Bn; auto.
  - rewrite Bt. apply W'.
  - rewrite Ej. unfold tags_of in Tj. destruct (read (U "bag-info.txt") (hb_tree new')) as [c|]; [exact (loaded_read_tags _ _ _ Tj)|]. injection Tj as <-. discriminate Vj.
  - unfold made_tags, values. rewrite Ej. split; [exact Jv|]. split; [exact Jr|]. split; [exact Jt|].
    split; [exact Nm|]. split; [exact Vj|]. split; [exact Nv|]. split.
    { change (U "Multibag-Head-Deprecates") with T_HeadDeprecates in *. intros x I. rewrite Jh in I.
      destruct (Dv x I) as (A1 & A2 & A3 & A4). split; [exact A1|]. split; [exact A2|]. intros [X|X].
      - rewrite Ej in X. rewrite (last_single j "Multibag-Head-Version" version Vj) in X. injection X as X. contradiction.
      - rewrite Bn in X. contradiction. }
    apply (made_recommended rd i); auto.
  - rewrite Bt. apply andb_true_iff in Q. destruct Q as [Qp Qf]. pose proof (Fp q Qp) as Fq. rewrite Bt, Qf in Fq.
    unfold is_payload in Qp. apply startswith_iff in Qp. destruct Qp as [r ->]. apply (Anc _ (U "data") r Fq); [reflexivity|discriminate].
  - rewrite Bt. apply (Anc (sjoin td F_members) td F_members); [|reflexivity|exact Nm]. apply is_file_read. eauto.
  - rewrite Bt. unfold is_dir in *. rewrite Sa. exact Ad.
  - intros text. rewrite Bt. unfold read in *. rewrite Sa. apply Ag.
  - rewrite Bt. exact Rm.
  - apply Forall_forall. intros m I. apply last_ones_in in I. rewrite map_map in I. rewrite Forall_forall in Sm. apply (Sm m I).
  - apply C41_distinct.
  - destruct El2 as (l' & ->). exists (map Tsv.m_name l'). rewrite map_app. reflexivity.
  - apply Forall_forall. intros m I. apply last_ones_in in I. apply in_app_or in I. destruct I as [I|I]; [rewrite Forall_forall in Ur; auto|].
    apply in_app_or in I. destruct I as [I|[<-|[]]]; [|reflexivity]. apply in_map_iff in I. destruct I as (a & <- & I).
    apply in_map_iff in I. destruct I as (s & <- & _). reflexivity.
  - rewrite Bt. exact Rl.
  - apply Tb.
  - intros p E. rewrite G in E. apply own_last in E. unfold holds in E. apply andb_true_iff in E. rewrite Fp; apply E.
  - intros _ p F P. rewrite G. rewrite own_listed; [discriminate|]. unfold holds. rewrite Fp in F by exact P. rewrite P, F. reflexivity.
Qed.
Print Assumptions C86_amended_partial.

Lemma ex_ordinary : forall i, tags_of Codecs ex_three = Ok i -> ordinary_tags i PROB.
Proof.
  intros i E. assert (i = got [] (tags_of Codecs ex_three)) by (rewrite E; reflexivity). subst i. intros el I.
  assert (X : tag_values (got [] (tags_of Codecs ex_three)) (U el) = []) by (destruct I as [<-|[<-|[<-|[]]]]; vm_compute; reflexivity).
  rewrite X. split; [constructor|]. intros A. exfalso. revert A. vm_compute. intuition discriminate.
Qed.

Example C86_case :
  amendment (fun _ => U "1 kB") ex_repr ex_amendee ex_new (U "three") ex_three (U "multibag") (U "2") /\
  members_of ex_amendee (map plain_member [U "one"; U "two"]) /\
  Forall (storable_member IoText) (map plain_member [U "one"; U "two"] ++ map (fun s => entry_of (default_bag s)) [ex_four] ++ [own_member None None [] (U "three")]) /\
  Forall (accepted_url ex_urlparse) (map plain_member [U "one"; U "two"]) /\
  all_storable IoText ex_amendee (map bag_of [ex_four] ++ [(U "three", ex_three)]) /\
  (forall i, tags_of Codecs ex_three = Ok i -> ordinary_tags i PROB) /\
  other_versions (deprecates ex_repr (hb_info ex_amendee)) (U "2") (U "three") /\
  (exists p, is_payload p && is_file p ex_three = true) /\
  read (U "multibag" ++ U "/aggregation-info.txt") ex_three = None /\
  ex_amend ex_amendee [ex_four] ex_new = (ex_amended, Ok ex_amendee) /\
  opened (seen (U "three") (hb_tree ex_amended)) (U "three") (hb_tree ex_amended) /\
  is_valid (head_validate ex_urlparse (seen (U "three") (hb_tree ex_amended)) (U "three")) PROB = Ok true.
Proof.
  split; [exact ex_amendment|]. split; [left; split; vm_compute; reflexivity|]. split.
  { repeat (apply Forall_cons; [apply storable_name, storableb_ok; reflexivity|]). constructor. }
  split; [repeat constructor|]. split.
  { assert (Ies : iter_file_lookup ex_amendee = Ok ex_lookup_list) by (vm_compute; reflexivity).
    assert (Eh : is_head ex_amendee = true) by (vm_compute; reflexivity).
    assert (F : Forall (storable_entry IoText) ex_lookup_list) by (apply wf_tableb_ok; reflexivity). split.
    - intros p x A. pose proof (answer_entry _ _ _ Eh A _ eq_refl Ies) as I.
      assert (X : od_of_pairs ex_lookup_list = ex_lookup_list) by (vm_compute; reflexivity). rewrite X in I. rewrite Forall_forall in F. apply F. exact I.
    - intros b p I H.
      assert (F2 : Forall (storable_entry IoText) [(U "data/a", U "four"); (U "data/b", U "four"); (U "data/a", U "three")])
        by (apply wf_tableb_ok; reflexivity).
      rewrite Forall_forall in F2. apply F2. destruct I as [<-|[<-|[]]]; cbn [fst snd bag_of] in *.
      + apply files_entry in H; [|apply nodupb_ok; vm_compute; reflexivity].
        assert (X : filter is_payload (files (s_tree ex_four)) = [U "data/a"; U "data/b"]) by (vm_compute; reflexivity). rewrite X in H.
        destruct H as [<-|[<-|[]]]; cbn; auto.
      + apply files_entry in H; [|apply nodupb_ok; vm_compute; reflexivity].
        assert (X : filter is_payload (files ex_three) = [U "data/a"]) by (vm_compute; reflexivity). rewrite X in H.
        destruct H as [<-|[]]; cbn; auto. }
  split; [exact ex_ordinary|]. split.
  { assert (E : deprecates ex_repr (hb_info ex_amendee) = [U "1"]) by (vm_compute; reflexivity). rewrite E.
    intros x [<-|[]]. split; [discriminate|]. split; [cbn; lia|]. split; vm_compute; discriminate. }
  split; [exists (U "data/a"); vm_compute; reflexivity|]. split; [vm_compute; reflexivity|]. split; [vm_compute; reflexivity|].
  split; [apply seen_opened; vm_compute; exact I|]. vm_compute. reflexivity.
Qed.

(** Nothing stops an amendment from keeping the version of the amendee, nor
    from taking over a member whose URL is not accepted; then the new head bag
    does not pass. *)
Definition ex_kept (old : hb) (version : pystr) : hb * res hb :=
  amend_bag_with ex_env [U "md5"] (fun _ => U "1 kB") ex_repr false old [ex_four] version ex_new.
Definition ex_hosted_tree : tree :=
  od_set (U "multibag/member-bags.tsv") (NFile (txt [U "one" ++ [TAB] ++ U "https://host/one"; U "two"])) ex_amendee_tree.
Definition ex_hosted : hb := open_hb (U "two") ex_hosted_tree (got [] (load_tags Codecs ex_info2)) Codecs.

Theorem C86_refuted :
  (exists old new', amendment (fun _ => U "1 kB") ex_repr old ex_new (U "three") ex_three (U "multibag") (U "1") /\
     ex_kept old (U "1") = (new', Ok old) /\ tag_values (hb_info old) (U "Multibag-Head-Version") = [U "1"] /\
     opened (seen (U "three") (hb_tree new')) (U "three") (hb_tree new') /\
     is_valid (head_validate ex_urlparse (seen (U "three") (hb_tree new')) (U "three")) PROB = Ok false) /\
  (exists old new', amendment (fun _ => U "1 kB") ex_repr old ex_new (U "three") ex_three (U "multibag") (U "2") /\
     ex_kept old (U "2") = (new', Ok old) /\
     option_map m_uri (hd_error (got [] (iter_member_bags old))) = Some (Some (U "https://host/one")) /\
     opened (seen (U "three") (hb_tree new')) (U "three") (hb_tree new') /\
     is_valid (head_validate ex_urlparse (seen (U "three") (hb_tree new')) (U "three")) ERROR = Ok false).
Proof.
  destruct ex_amendment as (A1 & A2 & A3 & A4 & A5 & A6 & A7). split.
  - exists ex_amendee, (fst (ex_kept ex_amendee (U "1"))). split.
    { split; [exact A1|]. split; [exact A2|]. split; [exact A3|]. split; [exact A4|]. split; [discriminate|]. split; [apply plain_valueb_ok; reflexivity|exact A7]. }
    split; [vm_compute; reflexivity|]. split; [vm_compute; reflexivity|]. split; [apply seen_opened; vm_compute; exact I|]. vm_compute. reflexivity.
  - exists ex_hosted, (fst (ex_kept ex_hosted (U "2"))). split.
    { split; [exact A1|]. split; [exact A2|]. split; [exact A3|]. split; [exact A4|]. split; [exact A5|]. split; [exact A6|exact A7]. }
    split; [vm_compute; reflexivity|]. split; [vm_compute; reflexivity|]. split; [apply seen_opened; vm_compute; exact I|]. vm_compute. reflexivity.
Qed.
Print Assumptions C86_refuted.

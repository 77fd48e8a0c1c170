(** A bag that was split can be amended, and be restored after that (C119) *)
Require Import String NArith ZArith PeanoNat Bool List Lia.
From Verif Require Import PyBase PyFacts Version Tsv TsvProofs Fs FsFacts HeadBag HeadBagProofs HeadBagProofs3 BagIt BagItProofs BagItProofs2 Split SplitProofs2 SplitProofs3 Props_Split SplitApply SplitApplyProofs SplitApplyProofs2 SplitApplyProofs4 SplitApplyProofs5 SplitApplyProofs6 SplitApplyProofs8 SplitApplyProofs9 Props_SplitApply Props_SplitApply2 Restore RestoreProofs RestoreProofs2 RestoreProofs3 Props_Restore RestoreProofs8 RestoreProofs9 RestoreProofs10 Props_RoundTrip SplitRestoreProofs Props_RoundTrip2 Props_Restore4 Validate Props_Validate3 Props_Validate BagValid BagValidProofs Props_BagValid Props_BagValid2 Props_BagValid3 Props_BagValid4 Props_EndToEnd SplitApplyProofs7 SplitApplyProofs3 HeadBagProofs2 RestoreProofs4 RestoreProofs6 RestoreProofs7 RestoreProofs11 Props_Restore3 Amend AmendProofs AmendProofs2 AmendProofs3 AmendProofs4 SingleProofs SaveValidProofs Props_Amend Props_Single Props_Validate5 Props_AmendRestore Props_AmendValid Props_AmendRestore2 Props_AmendHistory Props_AmendHistory2 AmendTotalProofs Props_AmendTotal Props_AmendTotal2 SingleTotalProofs Props_SingleTotal Props_LifeCycle.
Import ListNotations.
Open Scope N_scope.

(** ** The head bag of a split, as the first version of a history *)

Definition read_by (r : reader) (s : source) : source :=
  {| so_name := so_name s; so_tree := so_tree s; so_info := so_info s; so_algos := so_algos s; so_entries := so_entries s; so_reader := r |}.

Lemma info_by r s : tags_of r (so_tree s) = Ok (so_info s) -> info_ok r (so_info s).
Proof. intros H. exact (opened_info_ok (read_by r s) H). Qed.

Lemma split_first r s o p it out bags :
  tags_of r (so_tree s) = Ok (so_info s) -> od_has (U "Multibag-Head-Version") (so_info s) = false ->
  layout_ok s true -> plain_opts r o -> plain_opts Codecs o -> p_manifests p <> [] -> splits_into s o p it out bags ->
  Forall (storable r) (map fst bags) ->
  (forall m f, In m (p_manifests p) -> In f (m_contents m) -> is_file f (so_tree s) = true -> storable r f) ->
  exists others head t d ms, bags = others ++ [(head, t)] /\ NoDup (map fst bags) /\ map Tsv.m_name ms = map fst bags /\
    first_version r head t d ms (SplitApply.ao_version o) /\ amendable (open_hb head t d r) /\
    (forall f x, answers (open_hb head t d r) f (Some x) -> In x (map fst bags)) /\
    ((exists m f, In m (p_manifests p) /\ In f (m_contents m) /\ is_file f (so_tree s) = true) ->
       exists f x, answers (open_hb head t d r) f (Some x)).
Proof.
  intros Ti Hh Lo Hp Hc Np Sp St Fp.
  pose proof (split_last _ _ _ _ _ _ Sp Np) as (l & m & bags1 & b & t & ms0 & lu0 & ms1 & lu1 & ms' & lu' & Em & Eb & Hi & M & M1 & O & Nd).
  pose proof (lists_before_initial _ _ _ (not_a_head s Hh)) as LB. rewrite LB in Hi. injection Hi as <- <-.
  assert (Ih : In b (map fst bags)) by (rewrite Eb, map_app; apply in_or_app; right; left; reflexivity).
  assert (Nb : no_brk r b) by (rewrite Forall_forall in St; apply St in Ih; apply Ih).
  pose proof O as (c & Rc & R & Hx). pose proof (info_by r s Ti) as Io.
  destruct (info_read_back r s o b m true Io Nb (plain_opts_ok _ _ Hp)) as (d & Ld & V).
  assert (Td : tags_of r t = Ok d) by (unfold tags_of; pose proof (read_baginfo _ _ _ _ _ _ _ _ _ R) as E; rewrite E; exact Ld).
  assert (Sh : tag_shape d) by (eapply load_shape; exact Ld).
  assert (Sd : std_tags d (U "multibag")) by (eapply split_std; [exact Io|exact V|exact Sh]).
  assert (Ems : ms' = map fst bags) by (rewrite (made_members _ _ _ _ _ _ _ _ M); apply push_members; [constructor|exact Nd]).
  assert (Fm : Forall (storable r) ms') by (rewrite Ems; exact St).
  pose proof (members_read r b t d ms' Sd (read_members _ _ _ _ _ _ _ _ _ R eq_refl) Fm) as Im.
  assert (Fl : Forall (storable_entry r) lu').
  { eapply made_storable; [exact M|constructor|exact St|]. rewrite manifests_fst. intros m1 f I1 J.
    unfold plan_files in J. apply filter_In in J. apply (Fp m1 f); tauto. }
  assert (Nl : NoDup (od_keys lu')) by (eapply lookup_nodup; [exact M|constructor]).
  pose proof (lookup_read r b t d lu' Sd (read_lookup _ _ _ _ _ _ _ _ _ R eq_refl) Fl) as Il.
  assert (Hv : tag_values d T_HeadVersion = [SplitApply.ao_version o]).
  { rewrite V, head_version_values. cbn [map]. f_equal. destruct Hp as [Hp _]. apply plain_folded in Hp. tauto. }
  assert (Hd : is_head (open_hb b t d r) = true).
  { unfold is_head, od_has. cbn [open_hb hb_info]. destruct (od_get T_HeadVersion d) eqn:E; [reflexivity|]. unfold tag_values in Hv. rewrite E in Hv. discriminate Hv. }
  assert (Ea : forall f, snd (lookup_file f false (open_hb b t d r)) = Ok (od_get f lu')).
  { intros f. apply (lookup_of_iter (open_hb b t d r) lu' f false (or_introl eq_refl) Il Nl). }
  assert (An : forall f x, answers (open_hb b t d r) f x <-> x = od_get f lu').
  { intros f x. unfold answers. rewrite Hd, Ea. split; [intros [[_ E]|[E _]]; [injection E as <-; reflexivity|discriminate E]|intros ->; left; auto]. }
  set (ms := map (fun n => {| Tsv.m_name := n; m_uri := None; m_comment := None; m_info := [] |}) ms') in *.
  exists bags1, b, t, d, ms. split; [exact Eb|]. split; [exact Nd|].
  split; [unfold ms; rewrite map_map; cbn [Tsv.m_name]; rewrite map_id; exact Ems|].
  assert (Wt : wf_tree t) by (eapply bag_wf; [exact Lo|exact O]).
  split; [constructor|].
  - split; [exact Wt|]. destruct (is_file DATA t) eqn:F; [|reflexivity]. exfalso.
    pose proof (data_made _ _ _ _ _ _ _ _ _ R) as D. unfold is_dir, DATA in *. unfold is_file in F.
    change (match od_get (U "data") t with Some NDir => true | _ => false end = true) in D. destruct (od_get (U "data") t) as [[|]|]; congruence.
  - rewrite Forall_forall in St. exact (storable_some _ _ (St b Ih)).
  - exact Td.
  - left. split; [exact Hd|exact Im].
  - intros f. exists (od_get f lu'). apply An. reflexivity.
  - left. exact (one_value _ _ _ Sh Hv).
  - apply Forall_app. split; [|constructor; [apply Hc|constructor]].
    change (U "Multibag-Head-Deprecates") with T_HeadDeprecates. rewrite V, in_info_items, values_head.
    rewrite (v_multibag o (so_info s) b (oxum_text s m) T_HeadDeprecates) by (try reflexivity; intros I1; cbn in I1; intuition discriminate).
    cbn [app streq]. assert (X : Forall (tag_value_ok Codecs) (map (unfold_value r) (map (fun p0 => match snd p0 with Some b0 => fst p0 ++ U "," ++ b0 | None => fst p0 end) (ao_deprecates o)))).
    { apply Forall_forall. intros y Y. apply in_map_iff in Y. destruct Y as (z & <- & Y). apply in_map_iff in Y. destruct Y as (q & <- & Y).
      destruct Hp as [_ Hp], Hc as [_ Hc]. rewrite Forall_forall in Hp, Hc. pose proof (Hp q Y) as P1. apply plain_folded in P1. exact (eq_ind_r (fun z => tag_value_ok Codecs z) (Hc q Y) (proj2 P1)). }
    exact X.
  - unfold ms. rewrite Forall_map. revert Fm. apply Forall_impl. intros n. apply storable_name.
  - intros f x A0. apply An in A0. symmetry in A0. apply od_get_in in A0. rewrite Forall_forall in Fl. exact (Fl _ A0).
  - split.
    + right. split; [exact Hd|]. split; [exists ms; split; [exact Im|]; unfold ms; rewrite Forall_map; apply Forall_forall; reflexivity|].
      exists lu'. split; [exact Il|]. revert Fl. apply Forall_impl. intros e [E1 E2]. split; eapply storable_some; eassumption.
    + split.
      * intros f x A0. apply An in A0. destruct (lookup_last _ _ _ _ _ _ _ _ f M) as [X|[_ X]]; [|rewrite X in A0; discriminate A0].
        destruct X as (m2 & h2 & b2 & t2 & c1 & c2 & d1 & d2 & _ & E2 & _ & _ & _ & G). rewrite G in A0. injection A0 as ->.
        rewrite E2, map_app. apply in_or_app. right. left. reflexivity.
      * intros (m1 & f & I1 & J1 & F1). destruct (lookup_last _ _ _ _ _ _ _ _ f M) as [X|[X _]].
        -- destruct X as (m2 & h2 & b2 & t2 & c1 & c2 & d1 & d2 & _ & _ & _ & _ & _ & G). exists f, b2. apply An. symmetry. exact G.
        -- exfalso. rewrite <- manifests_fst in I1. apply in_map_iff in I1. destruct I1 as ([m2 h2] & E2 & I1). cbn in E2. subst m2.
           apply (X _ _ I1). unfold plan_files. apply filter_In. auto.
Qed.

(** ** The bags of a split, as parts of a later version *)

Section Parts.
  Variables (v : env) (w : benv) (A : list pystr) (place : pystr -> pystr) (src : pystr) (s : source) (b : obag).
  Variables (o : apply_opts) (p : plan) (it : option naming) (out bags : dict tree).
  Hypothesis Na : NoDup (e_algos v).
  Hypothesis Inc : incl A (e_algos v).
  Hypothesis Sw : same_world v w.
  Hypothesis H128 : forall a c x, In x (v_hash w a c) -> x < 128.
  Hypothesis RS : restorable v A s.
  Hypothesis VS : valid_source (at_place v w src) s b.
  Hypothesis PP : plain_plan (at_place v w src) s p.
  Hypothesis Dd : is_dir (U "data") (so_tree s) = true.
  Hypothesis Hp : plain_opts IoText o.
  Hypothesis Sp : splits_into s o p it out bags.
  Hypothesis St : Forall (storable IoText) (map fst bags).
  Hypothesis Dg : safe_places v place bags (so_tree s).
  Hypothesis Pd : forall n, In n (map fst bags) -> place n <> e_dest v.

  Let Lo := rs_layout _ _ _ RS.

  Lemma parts_copies : Forall2 (fun mh bt => wf_tree (snd bt) /\ exact_copies (so_tree s) (snd bt) (fst mh) (snd mh)) (manifests p) bags.
  Proof.
    pose proof (C25_exact_copies s o p it out bags (lo_wf _ _ Lo) Sp) as F1.
    pose proof Sp as M. apply made_split in M. destruct M as (ms0 & lu0 & ms' & lu' & _ & M & _). apply made_each in M.
    assert (F2 : Forall2 (fun mh bt => wf_tree (snd bt)) (manifests p) bags).
    { apply (each_bag s o p bags M (fun m h bt => wf_tree (snd bt))). intros m h bt _ (ms & lu & O).
      eapply bag_wf; [|exact O]. destruct h; [exact Lo|]. destruct Lo as [L1 L2 L3 L4 L5 L6]. constructor; auto; try discriminate.
      intros x Ox. apply L4. inversion Ox; subst; constructor; auto. }
    clear - F1 F2. induction F1; inversion F2; subst; constructor; auto.
  Qed.

  Lemma parts_each bt : In bt bags -> exists m hh ms lu, In m (p_manifests p) /\ one_bag s o m hh ms lu (fst bt) (snd bt) /\
    exact_copies (so_tree s) (snd bt) m hh /\ wf_tree (snd bt).
  Proof.
    intros Ib. pose proof parts_copies as Fw. pose proof Sp as M. apply made_split in M. destruct M as (ms0 & lu0 & ms' & lu' & _ & M & _). apply made_each in M.
    assert (F3 : Forall2 (fun mh bt => (wf_tree (snd bt) /\ exact_copies (so_tree s) (snd bt) (fst mh) (snd mh)) /\
              exists ms lu, one_bag s o (fst mh) (snd mh) ms lu (fst bt) (snd bt)) (manifests p) bags).
    { clear - Fw M. induction Fw; inversion M; subst; constructor; auto. }
    destruct (forall2_at _ _ _ _ F3 Ib) as ([m hh] & Im & (W & X) & ms & lu & O). apply in_manifests in Im.
    exists m, hh, ms, lu. auto.
  Qed.

  Lemma parts_plan m : In m (p_manifests p) -> restorable_plan m.
  Proof.
    intros Im. constructor; [apply (proj1 (Forall_forall _ _) (pp_once _ _ _ PP) m Im)|]. intros f If. apply (pp_own _ _ _ PP m f Im If).
  Qed.

  Lemma parts_name bt : In bt bags -> In (fst bt) (map fst bags).
  Proof. apply in_map. Qed.

  Lemma parts_member bt : In bt bags -> member_ok v A (placed place bt).
  Proof.
    intros Ib. destruct (parts_each bt Ib) as (m & hh & ms & lu & Im & O & X & W).
    pose proof (proj1 (Forall_forall _ _) St _ (parts_name bt Ib)) as (_ & Nb & _).
    apply (bag_member_ok v A s o (fst bt) m hh ms lu (snd bt) (place (fst bt))); auto.
    - apply parts_plan. exact Im.
    - apply Pd. apply parts_name. exact Ib.
    - intros f _ F. apply Dg; [apply parts_name; exact Ib|exact F].
  Qed.

  Lemma parts_fetch bt : In bt bags -> is_file (U "fetch.txt") (snd bt) = false.
  Proof.
    intros Ib. destruct (parts_each bt Ib) as (m & hh & ms & lu & Im & O & X & W).
    destruct (is_file (U "fetch.txt") (snd bt)) eqn:F; [|reflexivity]. exfalso. apply is_file_read in F. destruct F as [x F].
    destruct (ec_only _ _ _ _ X _ _ F) as [Ow|[If _]]; [inversion Ow|]. apply (pp_fetch _ _ _ PP m Im If).
  Qed.

  Lemma parts_valid bt : In bt bags -> passes_plain (at_place v w (place (fst bt))) (snd bt).
  Proof.
    intros Ib. destruct (parts_each bt Ib) as (m & hh & ms & lu & Im & O & X & W).
    assert (Fn : Forall (fun n => no_brk IoText n) (map fst bags)) by (eapply Forall_impl; [|exact St]; intros n (_ & N1 & _); exact N1).
    assert (Na' : NoDup (v_algos (at_place v w src))) by (cbn [at_place v_algos]; rewrite (sw_algos _ _ Sw); exact Na).
    pose proof (C90_split_valid_partial _ _ _ _ _ _ _ _ VS Na' H128 Hp PP Sp Fn) as C90.
    apply (move_valid v w src (place (fst bt))); auto.
    - apply (bag_good_mans v A s o (fst bt) m hh ms lu (snd bt) Na RS (parts_plan m Im) O). intros f If _.
      apply filter_In in If. destruct If as [_ If]. apply Dg; [apply parts_name; exact Ib|exact If].
    - apply parts_fetch. exact Ib.
    - rewrite Forall_forall in C90. apply (C90 bt Ib).
  Qed.

  Lemma parts_dir bt q : In bt bags -> od_get q (snd bt) = Some NDir -> q = U "multibag" \/ od_get q (so_tree s) = Some NDir.
  Proof.
    intros Ib G. destruct (parts_each bt Ib) as (m & hh & ms & lu & Im & O & X & W).
    assert (Np : q <> []) by (apply good_path_nonempty; eapply wf_good; [exact W|eapply od_get_some_key; exact G]).
    destruct (bag_dir_cases s m hh (snd bt) q (lo_wf _ _ Lo) X G Np) as [->|[->|G']]; auto.
    right. apply is_dir_cases in Dd. destruct Dd as [D|D]; [discriminate D|exact D].
  Qed.

  Lemma parts_file bt q : In bt bags -> is_file q (snd bt) = true ->
    is_file q (so_tree s) = true \/ In q SplitRestoreProofs.bag_files \/ RestoreProofs2.special v q.
  Proof.
    intros Ib F. destruct (parts_each bt Ib) as (m & hh & ms & lu & Im & O & X & W).
    destruct (bag_file_cases _ _ _ _ _ _ _ _ q (lo_entries _ _ Lo) O F) as [[_ Fs]|[Bf|(k & a & Ik & Ia & ->)]]; auto.
    right. right. rewrite (rs_algos _ _ _ RS) in Ia. exists k, a. auto.
  Qed.

  Lemma parts_none q : multibag_path q -> od_get q (so_tree s) = None.
  Proof. apply (rs_nomulti _ _ _ RS). Qed.

  Lemma parts_room bt : In bt bags -> leaves_room (snd bt).
  Proof.
    intros Ib. assert (M1 : multibag_path (U "multibag/member-bags.tsv")) by (right; exists (U "member-bags.tsv"); reflexivity).
    assert (M2 : multibag_path (U "multibag/file-lookup.tsv")) by (right; exists (U "file-lookup.tsv"); reflexivity).
    assert (X : forall q, q <> [] -> q <> U "multibag" -> multibag_path q -> is_dir q (snd bt) = false).
    { intros q N0 N1 Mq. destruct (is_dir q (snd bt)) eqn:D; [|reflexivity]. exfalso. apply is_dir_cases in D. destruct D as [D|D]; [contradiction|].
      destruct (parts_dir bt q Ib D) as [->|G]; [apply N1; reflexivity|]. rewrite (parts_none q Mq) in G. discriminate G. }
    split; [|split; apply X; auto; discriminate].
    destruct (is_file (U "multibag") (snd bt)) eqn:F; [|reflexivity]. exfalso. destruct (parts_file bt _ Ib F) as [F'|[F'|(k & a & Ik & _ & F')]].
    - unfold is_file in F'. rewrite (parts_none (U "multibag")) in F'; [discriminate F'|left; reflexivity].
    - cbn in F'. intuition discriminate.
    - destruct Ik as [<-|[<-|[]]]; discriminate F'.
  Qed.

  (** Several bags take the place of one. *)
  Lemma parts_together loc h rest dl :
    valid_parts v w A loc h ({| rb_loc := src; rb_tree := so_tree s |} :: rest) dl ->
    Forall (fun t => is_dir (U "multibag/aggregation-info.txt") t = false) (map rb_tree rest ++ [hb_tree h]) ->
    valid_parts v w A loc h (map (placed place) bags ++ rest) dl.
  Proof.
    intros [V1 V2 V3 V4 V5 V6 V7 V8] Ng.
    assert (Old : forall c, In c (rest ++ [{| rb_loc := loc; rb_tree := hb_tree h |}]) ->
      In c (rev (({| rb_loc := src; rb_tree := so_tree s |} :: rest) ++ [{| rb_loc := loc; rb_tree := hb_tree h |}]))) by (intros c I1; rewrite <- in_rev; right; exact I1).
    assert (Src : In {| rb_loc := src; rb_tree := so_tree s |} (rev (({| rb_loc := src; rb_tree := so_tree s |} :: rest) ++ [{| rb_loc := loc; rb_tree := hb_tree h |}])))
      by (rewrite <- in_rev; left; reflexivity).
    assert (New : forall c, In c (rev ((map (placed place) bags ++ rest) ++ [{| rb_loc := loc; rb_tree := hb_tree h |}])) ->
      (exists bt, In bt bags /\ c = placed place bt) \/ In c (rest ++ [{| rb_loc := loc; rb_tree := hb_tree h |}])).
    { intros c I1. rewrite <- in_rev, <- app_assoc in I1. apply in_app_or in I1. destruct I1 as [I1|I1]; [left|right; exact I1].
      apply in_map_iff in I1. destruct I1 as (bt & E & I1). eauto. }
    assert (Tr : forall c, In c (rest ++ [{| rb_loc := loc; rb_tree := hb_tree h |}]) -> In (rb_tree c) (map rb_tree rest ++ [hb_tree h])).
    { intros c I1. apply in_app_or in I1. apply in_or_app. destruct I1 as [I1|[<-|[]]]; [left; apply in_map; exact I1|right; left; reflexivity]. }
    assert (Ihd : In {| rb_loc := loc; rb_tree := hb_tree h |} (rest ++ [{| rb_loc := loc; rb_tree := hb_tree h |}])) by (apply in_or_app; right; left; reflexivity).
    assert (Rm : forall t, In t (map rb_tree rest ++ [hb_tree h]) -> leaves_room t).
    { intros t I1. rewrite Forall_forall in V5. apply V5. right. exact I1. }
    constructor; auto.
    - destruct V4 as [A1 A2 A3 A4 A5 A6 A7 A8 A9]. rewrite Forall_forall in A1, Ng. constructor; auto; try discriminate.
      + apply Forall_forall. intros c I1. destruct (New c I1) as [(bt & Ib & ->)|I2]; [apply parts_member; exact Ib|apply A1, Old; exact I2].
      + intros c c' q I1 I2 G Gn. destruct (New c I1) as [(bt & Ib & ->)|I3]; destruct (New c' I2) as [(bt' & Ib' & ->)|I4].
        * destruct (parts_each _ Ib) as (m & hh & ms & lu & _ & _ & X & W). destruct (parts_each _ Ib') as (m' & hh' & ms' & lu' & _ & _ & X' & _).
          exact (bags_agree v A s m hh (snd bt) m' hh' (snd bt') q RS X X' W G).
        * destruct (parts_dir bt q Ib G) as [->|G']; [apply (Rm (rb_tree c')); apply Tr; exact I4|].
          exact (A5 _ c' q Src (Old _ I4) G' Gn).
        * cbn [placed rb_tree]. destruct (is_file q (snd bt')) eqn:F; [|reflexivity]. exfalso.
          destruct (parts_file bt' q Ib' F) as [F'|[F'|F']].
          -- pose proof (A5 c _ q (Old _ I3) Src G Gn) as Y. cbn [rb_tree] in Y. congruence.
          -- pose proof (A1 c (Old _ I3)) as M. assert (Di : is_dir q (rb_tree c) = true) by (unfold is_dir; rewrite G; destruct q; reflexivity).
             cbn [SplitRestoreProofs.bag_files In] in F'. destruct F' as [<-|[<-|[<-|[<-|[<-|[<-|[]]]]]]].
             ++ destruct (mo_open _ _ _ M) as (i & es & Op). unfold open_bag in Op. unfold read in Op. rewrite G in Op. discriminate Op.
             ++ apply (mo_dirs _ _ _ M F_baginfo); [right; left; reflexivity|exact G].
             ++ apply (mo_dirs _ _ _ M F_fetch); [right; right; reflexivity|exact G].
             ++ destruct (Rm _ (Tr _ I3)) as (_ & R1 & _). congruence.
             ++ destruct (Rm _ (Tr _ I3)) as (_ & _ & R1). congruence.
             ++ pose proof (Ng _ (Tr _ I3)) as R1. cbv beta in R1. congruence.
          -- apply (mo_dirs _ _ _ (A1 c (Old _ I3)) q); [left; exact F'|exact G].
        * exact (A5 c c' q (Old _ I3) (Old _ I4) G Gn).
      + intros _. destruct (A6 eq_refl) as (c & I1 & G). rewrite <- in_rev in I1.
        destruct V1 as [(bb & Op & Va) _ _ _ _ _]. exists {| rb_loc := loc; rb_tree := hb_tree h |}. split; [rewrite <- in_rev; apply in_or_app; right; left; reflexivity|].
        cbn [rb_tree]. rewrite (C88_validates _ _ _ (mo_wf _ _ _ (A1 _ (Old _ Ihd))) Op) in Va.
        pose proof (vb_data _ _ _ _ Va) as D. apply is_dir_cases in D. destruct D as [D|D]; [discriminate D|exact D].
      + intros c q I1 F Gn T1 T2. destruct (New c I1) as [(bt & Ib & ->)|I2]; [|exact (A8 c q (Old _ I2) F Gn T1 T2)].
        cbn [placed rb_tree] in F. destruct (parts_file bt q Ib F) as [F'|[F'|F']].
        * apply (rs_names _ _ _ RS); auto.
        * apply (rs_own _ _ _ RS); auto.
        * apply (rs_own _ _ _ RS); auto.
    - rewrite map_app, <- app_assoc. apply Forall_app. split; [|inversion V5; assumption]. rewrite map_map. apply Forall_forall. intros t I1.
      apply in_map_iff in I1. destruct I1 as (bt & <- & I1). apply parts_room. exact I1.
    - apply Forall_app. split; [|inversion V6; assumption]. apply Forall_forall. intros c I1. apply in_map_iff in I1. destruct I1 as (bt & <- & I1). apply parts_valid. exact I1.
    - rewrite map_app, <- app_assoc. apply Forall_app. split; [|inversion V7; assumption]. rewrite map_map. apply Forall_forall. intros t I1.
      apply in_map_iff in I1. destruct I1 as (bt & <- & I1). apply parts_fetch. exact I1.
  Qed.

  (** Together they have what the source has. *)
  Lemma parts_latest q : plans_all p (so_tree s) -> ~ special_path q -> latest (map snd bags) q = od_get q (so_tree s).
  Proof.
    intros Pa Sq. pose proof (lo_wf _ _ Lo) as Ws.
    assert (Ag1 : forall t0 n', In t0 (map snd bags) -> od_get q t0 = Some n' -> od_get q (so_tree s) = Some n').
    { intros t0 n' I1 G. apply in_map_iff in I1. destruct I1 as (bt & <- & I1).
      destruct (parts_each bt I1) as (m & hh & ms & lu & _ & _ & E & W). eapply bag_node; eauto. }
    destruct (od_get q (so_tree s)) as [n|] eqn:G.
    - apply latest_all.
      + intros t0 n' I1 G'. pose proof (Ag1 t0 n' I1 G'). congruence.
      + destruct (some_bag s p bags q n Ws Pa parts_copies Sq G) as (bt & n' & I1 & G'). exists (snd bt), n'. split; [apply in_map; auto|auto].
    - destruct (latest (map snd bags) q) as [n|] eqn:La; auto. exfalso.
      assert (X : exists n0, latest (map snd bags) q = Some n0) by eauto. apply latest_some in X. destruct X as (t0 & I1 & n' & G').
      pose proof (Ag1 t0 n' I1 G'). congruence.
  Qed.
End Parts.

(** ** C119 *)

Lemma latest_start ts ts' t q : latest ts q = od_get q t -> latest (ts ++ ts') q = latest (t :: ts') q.
Proof.
  intros E. unfold latest at 1. rewrite fold_left_app. unfold latest in E. unfold tree in *. rewrite E. unfold latest. cbn [fold_left]. destruct (od_get q t); reflexivity.
Qed.

Lemma describing_special q : describing q -> special_path q.
Proof.
  unfold describing, special_path. intros [->|[->|(a & [->| ->])]]; auto.
  - do 3 right. left. apply startswith_app.
  - do 4 right. left. apply startswith_app.
Qed.

(** A bag was split with any plan that has everything. Then the head bag of the
    split can be amended any number of times; the last version can be restored
    to a valid bag, which has what is left after laying the bags of all versions
    over the source, without the files that the last version deletes. *)
Theorem C119_split_amended : forall v w A r place bsize repr ro s b src o p it out bags rs x j dl bs ro',
  plain_algos v -> NoDup (e_algos v) -> incl A (e_algos v) -> good_hash v -> same_world v w -> plain_size bsize -> plain_text bs ->
  (forall a c y, In y (v_hash w a c) -> y < 128) ->
  restorable v A s -> valid_source (at_place v w src) s b -> is_dir (U "data") (so_tree s) = true ->
  tags_of r (so_tree s) = Ok (so_info s) -> (forall q, is_file q (so_tree s) = true -> storable r q) ->
  plain_plan (at_place v w src) s p -> plans_all p (so_tree s) -> p_manifests p <> [] ->
  (exists m f, In m (p_manifests p) /\ In f (m_contents m) /\ is_file f (so_tree s) = true) ->
  (forall r', plain_opts r' o) -> splits_into s o p it out bags -> (forall r' n, In n (map fst bags) -> storable r' n) ->
  safe_places v place bags (so_tree s) -> (forall n, In n (map fst bags) -> place n <> e_dest v) ->
  Forall (good_release r) (rs ++ [x]) -> NoDup (map fst bags ++ map fst (flat_map bags_in (rs ++ [x]))) ->
  Forall (roomy_release v place) (rs ++ [x]) -> Forall (fit v w place) (rs ++ [x]) ->
  tags_of Codecs (rl_tree x) = Ok j -> iter_deleted (open_hb (rl_name x) (rl_tree x) j r) = Ok dl ->
  valid_parts v w A (place (rl_name x)) (open_hb (rl_name x) (rl_tree x) j r)
    (at_loc src (so_tree s) :: map (put place) (flat_map bags_in rs ++ map (fun s => (s_name s, s_tree s)) (rl_bags x))) dl ->
  Forall (fun bt => is_dir (U "multibag/aggregation-info.txt") (snd bt) = false) (flat_map bags_in (rs ++ [x])) ->
  exists others head t t2 before, bags = others ++ [(head, t)] /\
    amended_by (performed v place r bsize repr ro) head t (rs ++ [x]) (rl_name x) t2 (before ++ [(rl_name x, t2)]) /\
    forall f, Forall (fun bt => f (fst bt) = Some (put place bt)) (bags ++ before) ->
    exists i dest, tags_of r t2 = Ok i /\
      restore (searching v f) true true bs ro' (open_hb (rl_name x) t2 i r) (place (rl_name x)) [] = Ok dest /\
      passes_plain (at_place v w (e_dest v)) dest /\
      forall q, ~ special_path q ->
        (deleted dl q -> od_get q dest = None) /\
        (~ deleted dl q -> od_get q dest = latest (so_tree s :: map snd (flat_map bags_in (rs ++ [x]))) q).
Proof.
  intros v w A r place bsize repr ro s b src o p it out bags rs x j dl bs ro' Pa Na Ia Gh Sw B Pt H128 RS VS Dd Ti Sf PP Pl Np Ex Po Sp St Dg Pd G D Rr Ft Tj Dl Vp Ng.
  assert (S1 : Forall (storable r) (map fst bags)) by (apply Forall_forall; apply St).
  assert (S2 : Forall (storable IoText) (map fst bags)) by (apply Forall_forall; apply St).
  destruct (split_first r s o p it out bags Ti (rs_member _ _ _ RS) (rs_layout _ _ _ RS) (Po r) (Po Codecs) Np Sp S1 (fun m f _ _ F => Sf f F))
    as (others & head & t & d & ms & Eb & Nd & En & Fv & Am & An & Sm).
  set (rest := map (put place) (flat_map bags_in rs ++ map (fun s => (s_name s, s_tree s)) (rl_bags x))) in *.
  assert (Vp' : valid_parts v w A (place (rl_name x)) (open_hb (rl_name x) (rl_tree x) j r) (map (put place) bags ++ rest) dl).
  { refine (parts_together v w A place src s b o p it out bags Na Ia Sw H128 RS VS PP Dd (Po IoText) Sp S2 Dg Pd _ _ rest dl Vp _).
    rewrite Forall_forall in Ng |- *. intros t0 I0. apply in_app_or in I0. destruct I0 as [I0|[<-|[]]].
    - unfold rest in I0. rewrite map_map in I0. apply in_map_iff in I0. destruct I0 as (bt & <- & I0). apply (Ng bt).
      rewrite flat_map_app. apply in_app_or in I0. apply in_or_app. destruct I0 as [I0|I0]; [left; exact I0|right]. cbn [flat_map]. rewrite app_nil_r.
      unfold bags_in. apply in_or_app. left. exact I0.
    - cbn [open_hb hb_tree]. apply (Ng (rl_name x, rl_tree x)). rewrite flat_map_app. apply in_or_app. right. cbn [flat_map]. rewrite app_nil_r.
      unfold bags_in. apply in_or_app. right. left. reflexivity. }
  assert (Ds : all_distinct r head t d ms (rs ++ [x])).
  { split; [rewrite En; exact D|]. intros q y A0 I0. apply An in A0.
    clear - D A0 I0. induction (map fst bags) as [|z l IH]; [destruct A0|]. cbn [app] in D. inversion D as [|? ? D1 D2]; subst. destruct A0 as [->|A0]; [|auto].
    apply D1. apply in_or_app. right. exact I0. }
  destruct (C115_life_cycle v w A r place bsize repr ro head t d ms (SplitApply.ao_version o) rs x (map (put place) bags) j dl bs ro'
    Pa Na Ia Gh Sw B Pt Fv Am (or_introl (Sm Ex)) G Ds Rr Ft Tj Dl Vp') as (t2 & before & Hb & Rs).
  exists others, head, t, t2, before. split; [exact Eb|]. split; [exact Hb|]. intros f Ff. apply Forall_app in Ff. destruct Ff as [Ff1 Ff2].
  destruct (Rs f) as (i & dest & R1 & R2 & R3 & R4); [|exact Ff2|].
  { clear - En Ff1. revert ms En. induction bags as [|bt l IH]; intros [|m ms] En; cbn [map] in *; try discriminate En; [constructor|].
    injection En as E1 E2. inversion Ff1; subst. constructor; [rewrite E1; assumption|apply IH; assumption]. }
  exists i, dest. split; [exact R1|]. split; [exact R2|]. split; [exact R3|]. intros q Sq.
  destruct (R4 q) as [Q1 Q2].
  { intros X. apply Sq, describing_special. exact X. }
  { intros X. apply Sq. do 5 right. exact X. }
  split; [exact Q1|]. intros Nd'. rewrite (Q2 Nd'). rewrite map_map. cbn [put at_loc rb_tree fst snd].
  apply (latest_start (map snd bags)). exact (parts_latest v A s o p it out bags RS Dd Sp q Pl Sq).
Qed.
Print Assumptions C119_split_amended.

Lemma names_fit r base i : storable r base -> storable r (nth_name base i).
Proof.
  intros ((T & Nt) & B & M). pose proof (dec_digits (N.of_nat i)) as D. rewrite Forall_forall in D.
  assert (Dg : forall c, In c (dec (N.of_nat i)) -> 48 <= c <= 57).
  { intros c Ic. apply D in Ic. unfold is_digit in Ic. apply andb_true_iff in Ic. destruct Ic as [I1 I2]. apply N.leb_le in I1, I2. lia. }
  unfold nth_name. destruct T as [(c & t & -> & W) _]. split; [split|split].
  - split; [exists c, (t ++ U "_" ++ dec (N.of_nat i) ++ U ".mbag"); auto|].
    exists ((c :: t) ++ U "_" ++ dec (N.of_nat i) ++ U ".mba"), 103. split; [|reflexivity].
    rewrite <- !app_assoc. reflexivity.
  - rewrite !in_app_iff. intros [H|[H|[H|H]]]; [contradiction| | |]; [cbn in H; intuition discriminate|apply Dg in H; unfold TAB in H; lia|cbn in H; intuition discriminate].
  - apply Forall_app. split; [exact B|]. apply Forall_app. split; [destruct r; repeat constructor|]. apply Forall_app. split; [|destruct r; repeat constructor].
    apply Forall_forall. intros z Iz. apply Dg in Iz. destruct (is_brk r z) eqn:E; [|reflexivity]. exfalso. assert (X : forallb (fun n => negb (is_brk r n)) [48;49;50;51;52;53;54;55;56;57] = true) by (destruct r; reflexivity).
    rewrite forallb_forall in X. specialize (X z). rewrite E in X. cbn [negb] in X. assert (Y : false = true) by (apply X; cbn; lia). discriminate Y.
  - destruct r; [exact I|exact M].
Qed.

(** The bag is split with one of the splitters of the library: every step
    succeeds. *)
Theorem C119_split_life : forall v w A r place bsize repr ro s b src k sp base ds o out rs x j dl bs ro',
  incl A (e_algos v) -> good_hash v -> same_world v w -> plain_size bsize -> plain_text bs ->
  Props_EndToEnd.ordinary (at_place v w src) s b -> restorable v A s ->
  tags_of r (so_tree s) = Ok (so_info s) -> (forall q, is_file q (so_tree s) = true -> storable r q) ->
  (exists q, is_file q (so_tree s) = true /\ is_payload q = true) ->
  plain_forhead sp (so_tree s) -> (forall r', plain_opts r' o) -> (forall r', storable r' base) ->
  NoDup (od_keys out) -> (forall i, ~ In (nth_name base i) (od_keys out)) ->
  (forall i q, is_file q (so_tree s) = true -> e_danger v (place (nth_name base i)) q = false) ->
  (forall i, place (nth_name base i) <> e_dest v) ->
  Forall (good_release r) (rs ++ [x]) -> NoDup (map fst (flat_map bags_in (rs ++ [x]))) ->
  (forall i, ~ In (nth_name base i) (map fst (flat_map bags_in (rs ++ [x])))) ->
  Forall (roomy_release v place) (rs ++ [x]) -> Forall (fit v w place) (rs ++ [x]) ->
  tags_of Codecs (rl_tree x) = Ok j -> iter_deleted (open_hb (rl_name x) (rl_tree x) j r) = Ok dl ->
  valid_parts v w A (place (rl_name x)) (open_hb (rl_name x) (rl_tree x) j r)
    (at_loc src (so_tree s) :: map (put place) (flat_map bags_in rs ++ map (fun s => (s_name s, s_tree s)) (rl_bags x))) dl ->
  Forall (fun bt => is_dir (U "multibag/aggregation-info.txt") (snd bt) = false) (flat_map bags_in (rs ++ [x])) ->
  exists bags others head t t2 before,
    splits_into s o (planned k sp base s ds) None out bags /\ bags = others ++ [(head, t)] /\
    amended_by (performed v place r bsize repr ro) head t (rs ++ [x]) (rl_name x) t2 (before ++ [(rl_name x, t2)]) /\
    forall f, Forall (fun bt => f (fst bt) = Some (put place bt)) (bags ++ before) ->
    exists i dest, tags_of r t2 = Ok i /\
      restore (searching v f) true true bs ro' (open_hb (rl_name x) t2 i r) (place (rl_name x)) [] = Ok dest /\
      passes_plain (at_place v w (e_dest v)) dest /\
      forall q, ~ special_path q ->
        (deleted dl q -> od_get q dest = None) /\
        (~ deleted dl q -> od_get q dest = latest (so_tree s :: map snd (flat_map bags_in (rs ++ [x]))) q).
Proof.
  intros v w A r place bsize repr ro s b src k sp base ds o out rs x j dl bs ro' Ia Gh Sw B Pt O RS Ti Sf (f0 & F0 & P0) Hf Po Sb No Nn Dg Pd G D Nr Rr Ft Tj Dl Vp Ng.
  set (p := planned k sp base s ds). destruct (planned_eq s k sp base ds) as [_ En]. fold p in En.
  set (names := map (nth_name base) (seq 1 (length (p_manifests p)))).
  destruct (C25_split_succeeds s o p None out [] [] names) as (bags & Sp & Eb).
  - exact (ord_layout _ s b O).
  - exact (ord_bagit _ s b O).
  - apply (or_info _ _ _ O).
  - apply not_a_head. apply (or_single _ _ _ O).
  - exact I.
  - cbn [names_of]. rewrite names_drawn, En. unfold names. rewrite map_map. reflexivity.
  - apply nodup_names; assumption.
  - assert (Nth : forall n, In n (map fst bags) -> exists i, n = nth_name base i).
    { intros n I0. rewrite Eb in I0. apply in_map_iff in I0. destruct I0 as (i & <- & _). eauto. }
    pose proof (or_algos _ _ _ O) as [Na Ns]. cbn [at_place v_algos] in Na, Ns. rewrite (sw_algos _ _ Sw) in Na, Ns.
    destruct (C119_split_amended v w A r place bsize repr ro s b src o p None out bags rs x j dl bs ro') as (others & head & t & t2 & before & H); auto.
    + intros a I0. rewrite Forall_forall in Ns. apply Ns. exact I0.
    + exact (or_ascii _ _ _ O).
    + apply (or_valid _ _ _ O).
    + exact (ord_data _ _ _ O).
    + exact (planned_plain _ _ _ O k sp base ds Hf).
    + exact (planned_all _ _ _ O k sp base ds Hf).
    + exact (planned_some _ _ _ O k sp base ds Hf).
    + destruct (planned_all _ _ _ O k sp base ds Hf f0) as (m & Im & If); [left; exact F0| |exists m, f0; auto].
      unfold is_payload in P0. apply startswith_iff in P0. destruct P0 as [z ->]. intros [H|[H|[H|[H|[H|[H|[z' H]]]]]]]; discriminate H.
    + intros r' n I0. destruct (Nth n I0) as [i ->]. apply names_fit. apply Sb.
    + intros n q I0 F. destruct (Nth n I0) as [i ->]. apply Dg. exact F.
    + intros n I0. destruct (Nth n I0) as [i ->]. apply Pd.
    + assert (Nb : NoDup (map fst bags)) by (rewrite Eb; exact (proj2 (nodup_parts _ _ (nodup_names base _ out No Nn)))).
      clear - Nb D Nr Nth. induction (map fst bags) as [|z l IH]; [exact D|]. inversion Nb as [|? ? N1 N2]; subst. cbn [app]. constructor.
      * intros I0. apply in_app_or in I0. destruct I0 as [I0|I0]; [exact (N1 I0)|]. destruct (Nth z (or_introl eq_refl)) as [i ->]. exact (Nr i I0).
      * apply IH; [|exact N2]. intros n I0. apply Nth. right. exact I0.
    + exists bags, others, head, t, t2, before. split; [exact Sp|exact H].
Qed.
Print Assumptions C119_split_life.

(** The bag of [C100_case] is split into three, and its head bag is amended with
    the releases of [C113_case]. *)
Definition ls_plan : plan := planned WellPacked (fst (new_splitter 5 None None)) (U "src") va_source (fun _ => 0).
Definition ls_bags : dict tree := match apply_plan va_source Props_SplitApply.ex_opts ls_plan None [] with Ok a => a_out a | Err _ => [] end.
Definition ls_head : tree := snd (last ls_bags ([], [])).
Definition ls_t1 : tree := hb_tree (hg_step (U "src_3.mbag") ls_head hg_r1).
Definition ls_t2 : tree := hb_tree (hg_step (U "next") ls_t1 hg_r2).
Definition ls_find (n : pystr) : option rbag :=
  if streq n (U "more") then Some (at_loc (ar_place n) ar_more) else if streq n (U "next") then Some (at_loc (ar_place n) ls_t1)
  else match od_get n ls_bags with Some t => Some (at_loc (ar_place n) t) | None => None end.
Definition ls_back : tree :=
  got [] (restore (searching hg_env ls_find) true true (fun _ => U "1 kB") false (hg_open (U "last") ls_t2) (ar_place (U "last")) []).

Lemma ls_restorable : restorable hg_env Props_SplitApply.ex_algos va_source.
Proof.
  destruct C95_case as (A1 & _). apply restorableb_ok; try (vm_compute; reflexivity); [|exists (fun _ => false), true; vm_compute; reflexivity].
  exact (rs_version _ _ _ A1).
Qed.

Example C119_case : let sp := fst (new_splitter 5 None None) in
  incl Props_SplitApply.ex_algos (e_algos hg_env) /\ good_hash hg_env /\ same_world hg_env va_world /\
  plain_size (fun _ => U "1 kB") /\ plain_text (fun _ => U "1 kB") /\
  Props_EndToEnd.ordinary (at_place hg_env va_world (ar_place (U "src"))) va_source va_open /\
  restorable hg_env Props_SplitApply.ex_algos va_source /\ tags_of Codecs va_tree = Ok (so_info va_source) /\
  (forall q, is_file q va_tree = true -> storable Codecs q) /\ (is_file (U "data/a") va_tree = true /\ is_payload (U "data/a") = true) /\
  plain_forhead sp (so_tree va_source) /\ (forall r', plain_opts r' Props_SplitApply.ex_opts) /\ (forall r', storable r' (U "src")) /\
  (forall i q, is_file q va_tree = true -> e_danger hg_env (ar_place (nth_name (U "src") i)) q = false) /\
  (forall i, ar_place (nth_name (U "src") i) <> e_dest hg_env) /\
  Forall (good_release Codecs) ([hg_r1] ++ [hg_r2]) /\ NoDup (map fst (flat_map bags_in ([hg_r1] ++ [hg_r2]))) /\
  (forall i, ~ In (nth_name (U "src") i) (map fst (flat_map bags_in ([hg_r1] ++ [hg_r2])))) /\
  Forall (roomy_release hg_env ar_place) ([hg_r1] ++ [hg_r2]) /\ Forall (fit hg_env va_world ar_place) ([hg_r1] ++ [hg_r2]) /\
  tags_of Codecs hg_last = Ok (got [] (tags_of Codecs hg_last)) /\ iter_deleted (hg_open (U "last") hg_last) = Ok [U "data/a"] /\
  valid_parts hg_env va_world Props_SplitApply.ex_algos (ar_place (U "last")) (hg_open (U "last") hg_last)
    (at_loc (ar_place (U "src")) va_tree :: map (put ar_place) (flat_map bags_in [hg_r1] ++ map (fun s => (s_name s, s_tree s)) (rl_bags hg_r2))) [U "data/a"] /\
  Forall (fun bt => is_dir (U "multibag/aggregation-info.txt") (snd bt) = false) (flat_map bags_in ([hg_r1] ++ [hg_r2])) /\
  map fst ls_bags = [U "src_1.mbag"; U "src_2.mbag"; U "src_3.mbag"] /\
  map (fun p => read p ls_back) [U "data/a"; U "data/c"; U "data/d/b"; U "data/e"; U "data/f"; U "meta/m"; U "about.txt"] =
    [None; Some (U "c"); Some (U "xyz"); read (U "data/e") va_tree; Some (U "ff"); Some (U "M"); read (U "about.txt") va_tree] /\
  verdict_of (at_place hg_env va_world (U "/out")) ls_back = Ok VPass.
Proof.
  cbv zeta. destruct C113_case as (_ & C2 & C3 & C4 & C5 & C6 & _ & C8 & _ & _ & C11 & C12 & C13 & _).
  destruct C116_case as (_ & _ & _ & D4 & D5 & D6 & D7 & D8 & D9 & D10 & _ & D12 & D13).
  destruct C100_case as (O & _ & _ & _ & _ & E6 & _).
  split; [exact C3|]. split; [exact C4|]. split; [exact C5|]. split; [exact D4|]. split; [exact C6|]. split; [exact O|]. split; [exact ls_restorable|].
  split; [vm_compute; reflexivity|]. split.
  { intros q F. assert (K : forallb (storableb Codecs) (od_keys va_tree) = true) by (vm_compute; reflexivity). rewrite forallb_forall in K.
    apply storableb_ok. apply K. apply is_file_read in F. destruct F as [c F]. apply read_get in F. eapply od_get_some_key. exact F. }
  split; [split; vm_compute; reflexivity|]. split; [apply no_forhead; reflexivity|]. split.
  { intros [|]; [exact E6|]. split; [|constructor]. split; [right; apply trimmedb_ok; reflexivity|]. apply no_brk_b. reflexivity. }
  split; [intros r'; apply storableb_ok; destruct r'; reflexivity|]. split; [reflexivity|]. split; [intros i X; discriminate X|].
  split; [exact C8|]. split; [inversion D12; subst; assumption|]. split.
  { intros i X. cbn in X. repeat (destruct X as [X|X]; [discriminate X|]). exact X. }
  split; [exact D13|]. split; [exact C11|]. split; [vm_compute; reflexivity|]. split; [exact C12|]. split; [exact C13|].
  split; [repeat (apply Forall_cons; [vm_compute; reflexivity|]); constructor|]. split; [vm_compute; reflexivity|]. split; vm_compute; reflexivity.
Qed.

(** * Properties of validating what a split makes: C91, C92

    Continues Props_BagValid2.v: the head bag and the member bags that a split
    writes, under the validators of head bags and of member bags, with the
    validation of plain bags in them. *)

Require Import String NArith ZArith PeanoNat Bool List Lia Permutation.
From Verif Require Import PyBase PyFacts Version Tsv TsvProofs Fs FsFacts HeadBag HeadBagProofs HeadBagProofs2 HeadBagProofs3 BagIt BagItProofs BagItProofs2 Split SplitProofs3 SplitApply SplitApplyProofs SplitApplyProofs2 SplitApplyProofs3 SplitApplyProofs4 SplitApplyProofs5 SplitApplyProofs6 SplitApplyProofs7 SplitApplyProofs8 SplitApplyProofs9 Props_SplitApply Props_SplitApply2 Props_SplitApply3 Validate ValidateProofs Props_Validate Props_Validate2 Props_Validate3 Props_Validate4 ValidateProofs2 BagValid BagValidProofs Props_BagValid Props_BagValid2.
Import ListNotations.
Open Scope N_scope.

(** A split of a valid bag that is not a head bag, as C90 has it, with names
    and tags that the files of a multibag can hold. *)
Record clean_split (v : benv) (s : source) (b : obag) (o : apply_opts) (p : plan) (it : option naming) (out bags : dict tree) : Prop := {
  cs_source : valid_source v s b;
  cs_algos : NoDup (v_algos v);
  cs_ascii : forall a c x, In x (v_hash v a c) -> x < 128;
  cs_opts : plain_opts IoText o;
  cs_plan : plain_plan v s p;
  cs_split : splits_into s o p it out bags;
  cs_member : od_has (U "Multibag-Head-Version") (so_info s) = false;
  cs_names : Forall (storable IoText) (map fst bags);
  cs_files : forall m f, In m (p_manifests p) -> In f (m_contents m) -> is_file f (so_tree s) = true -> storable IoText f;
  cs_lines : forall k x, In x (tag_values (so_info s) k) -> no_brk IoText x;
  cs_ids : forall k x, In k [U "Bag-Group-Identifier"; U "External-Identifier"] -> In x (tag_values (so_info s) k) -> x <> []
}.

Lemma all_opened v s b o p it out bags : clean_split v s b o p it out bags ->
  Forall2 (fun mh bt => exists b', open_plain v (snd bt) = Ok b' /\ validate_plain v b' = VPass /\ o_tree b' = snd bt /\
     read_tags (o_info b') /\ documented (so_info s) o (fst bt) (snd mh) (o_info b')) (manifests p) bags.
Proof.
  intros [VS Na Hx Po PP Hs Hm Fn Ff Fl Fi].
  assert (Nb : Forall (fun n => no_brk IoText n) (map fst bags)).
  { eapply Forall_impl; [|exact Fn]. intros n (_ & B & _). exact B. }
  destruct (split_opens v s b o p it out bags VS Na Hx Po PP Hs Nb) as [Ho F].
  assert (Er : so_reader s = IoText) by apply VS.
  assert (D := C30_bag_info_partial s o p it out bags Ho). rewrite Er in D.
  assert (D' := D Po Hs). clear D. rename D' into D.
  assert (Tv : Forall (fun b => tag_value_ok IoText b) (map fst bags)).
  { eapply Forall_impl; [|exact Fn]. intros n ((T & _) & B & _). split; [right; exact T|exact B]. }
  specialize (D Tv Fl). clear -D F. induction D as [|mh bt mhs bts (d & T & Dc) D IH]; constructor; [|apply IH; inversion F; assumption].
  inversion F as [|? ? (b' & Op & Va & Tb & Ot) _]; subst. exists b'. rewrite T in Tb. injection Tb as ->.
  do 3 (split; [assumption|]). split; [|exact Dc]. unfold tags_of in T. destruct (read _ _); [eapply loaded_read_tags; exact T|]. injection T as <-. discriminate.
Qed.

Lemma same_length {A B} (R : A -> B -> Prop) l l' : Forall2 R l l' -> length l = length l'.
Proof. induction 1 as [|a b l l' _ _ IH]; [reflexivity|]. cbn [length]. rewrite IH. reflexivity. Qed.

Lemma planned_ne s o p it out others bt : splits_into s o p it out (others ++ [bt]) -> p_manifests p <> [].
Proof.
  intros H E. apply made_split in H. destruct H as (a & b & c & d & _ & M & _). unfold manifests in M. rewrite E in M.
  cbn in M. destruct others; contradiction.
Qed.

Lemma multibag_made s o b m ms lu c t : run_ops (bag_list s o b m true ms lu c) [] = Ok t -> is_dir (U "multibag") t = true.
Proof.
  unfold bag_list, run_ops. rewrite !app_assoc, foldM_app. intros H. apply bind_ok in H. destruct H as (t1 & _ & H).
  change (multibag_ops s ms lu) with (firstn 3 (multibag_ops s ms lu) ++ skipn 3 (multibag_ops s ms lu)) in H.
  rewrite foldM_app in H. apply bind_ok in H. destruct H as (t2 & _ & H). cbn [skipn multibag_ops foldM run_op] in H.
  apply bind_ok in H. destruct H as (t3 & H & E). injection E as <-. apply write_file_ok2 in H. destruct H as (-> & _ & D).
  change (is_dir (U "multibag") t2 = true) in D. unfold is_dir in *. rewrite od_get_set_other; [exact D|discriminate].
Qed.

Lemma data_made s o b m h ms lu c t : run_ops (bag_list s o b m h ms lu c) [] = Ok t -> is_dir (U "data") t = true.
Proof.
  unfold bag_list, run_ops, start_ops. cbn [app foldM run_op]. intros H. apply bind_ok in H. destruct H as (t1 & H1 & H).
  assert (D : dirp (U "data") t1).
  { unfold mkdir in H1. cbn in H1. injection H1 as <-. reflexivity. }
  apply (run_ops_dirp (U "data")) in H. apply H in D. unfold is_dir. change (od_get (U "data") t = Some NDir) in D. rewrite D. reflexivity.
Qed.

Lemma plain_names ns : Forall (storable IoText) ns ->
  Forall (legal_member IoText) (map (fun n => {| Tsv.m_name := n; m_uri := None; m_comment := None; m_info := [] |}) ns).
Proof.
  intros F. apply Forall_forall. intros m I. apply in_map_iff in I. destruct I as (n & <- & I).
  rewrite Forall_forall in F. destruct (F n I) as (L & B & _). split; [split; assumption|].
  split; [split; [exact Logic.I|intros _ w E; discriminate]|]. split; [exact Logic.I|reflexivity].
Qed.

Lemma names_back ns : map Tsv.m_name (map (fun n => {| Tsv.m_name := n; m_uri := None; m_comment := None; m_info := [] |}) ns) = ns.
Proof. induction ns as [|n ns IH]; [reflexivity|]. cbn [map Tsv.m_name]. rewrite IH. reflexivity. Qed.

(** ** C91: the head bag of a split *)

Definition deprecated_texts (o : apply_opts) : list pystr :=
  map (fun p => match snd p with Some b => fst p ++ U "," ++ b | None => fst p end) (ao_deprecates o).

(** The versions that the head bag deprecates are written properly, and none
    of them is its own. *)
Definition older_versions (o : apply_opts) (head : pystr) : Prop :=
  forall x, In x (deprecated_texts o) ->
    x <> [] /\ (length (split_on 44 x) <= 2)%nat /\ fst (deprecated x) <> ao_version o /\ snd (deprecated x) <> Some head.

Definition head_passes (u : pystr -> res (pystr * pystr)) (v : benv) (name : pystr) (t : tree) (want : N) : Prop :=
  exists b, open_plain v t = Ok b /\
  forall target, exists r, head_validate u (under_validation v name b) target want = Ok r /\ ok r = true.

(** Missing for C91: recommendations, see [C91_refuted]; sources that are head
    bags themselves; versions given twice (C82 has the rule). *)
Theorem C91_split_head_partial : forall u v s b o p it out others head t want,
  (forall w, exists scheme host, u w = Ok (scheme, host)) ->
  clean_split v s b o p it out (others ++ [(head, t)]) ->
  ao_version o <> [] -> older_versions o head ->
  ~ asks want REC ->
  head_passes u v head t want.
Proof.
  intros u v s b o p it out others head t want Hu CS Nv Ov Nr.
  pose proof (all_opened _ _ _ _ _ _ _ _ CS) as A. destruct CS as [VS Na Hx Po PP Hs Hm Fn Ff Fl Fi].
  pose proof (split_last _ _ _ _ _ _ Hs (planned_ne _ _ _ _ _ _ _ Hs)) as (l & m & bags1 & b1 & t1 & ms0 & lu0 & ms1 & lu1 & ms' & lu' & Em & Eb & Hi & M & M1 & O & Nd).
  apply app_inj_tail in Eb. destruct Eb as [E1 E2]. injection E2 as E2 E3. subst bags1 b1 t1.
  rewrite (lists_before_initial s [] [] (not_a_head s Hm)) in Hi. injection Hi as <- <-.
  pose proof M as M'. unfold manifests in A, M. rewrite Em, mark_head_last in A, M.
  apply Forall2_app_inv_l in A. destruct A as (k1 & k2 & _ & A2 & Ek).
  inversion A2 as [|? ? ? ? A3 A4]; subst. inversion A4; subst. apply app_inj_tail in Ek. destruct Ek as [_ <-].
  destruct A3 as (b' & Op & Va & Ot & Rt & Dc). cbn [fst snd] in *. exists b'. split; [exact Op|]. intros target.
  set (vb := under_validation v head b').
  assert (Bt : b_tree vb = t) by exact Ot.
  assert (Bp : b_plain vb = Ok None) by (unfold vb; cbn [b_plain under_validation]; rewrite Va; reflexivity).
  destruct Dc as [_ D1 D2 _ D3 _ _ Dv Dt Dh Dd Do].
  assert (Dr : values vb "Multibag-Reference" = []) by (apply Do; [reflexivity|cbn [In]; intuition discriminate]).
  assert (Er : so_reader s = IoText) by apply VS.
  destruct O as (c & Rc & R & Ri).
  assert (Nt : NoDup (od_keys t)) by (eapply run_ops_nodup; [|exact R]; constructor).
  assert (Dm : is_dir (U "multibag") t = true) by (eapply multibag_made; exact R).
  assert (Da : is_dir (U "data") t = true) by (eapply data_made; exact R).
  assert (Nt2 : read (U "multibag/aggregation-info.txt") t <> None /\
                forall text, read (U "multibag/aggregation-info.txt") t = Some text -> exists tags, load_tags IoText text = Ok tags).
  { specialize (Ri eq_refl). destruct (read F_baginfo (so_tree s)) as [ci|] eqn:Eci; [|congruence].
    rewrite (read_agginfo _ _ _ _ _ _ _ _ _ R _ eq_refl Eci). split; [discriminate|]. intros text E. injection E as <-. rewrite Er. cbn [decode].
    assert (Nb : Forall (fun n => no_brk IoText n) (map fst (others ++ [(head, t)]))).
    { eapply Forall_impl; [|exact Fn]. intros n (_ & B & _). exact B. }
    destruct (split_opens v s b o p it out _ VS Na Hx Po PP Hs Nb) as [Ho _]. unfold opened, tags_of in Ho. change (U "bag-info.txt") with F_baginfo in Ho.
    rewrite Eci, Er in Ho. eauto. }
  destruct Nt2 as [Ag1 Ag2].
  assert (Fm : od_get (U "multibag/aggregation-info.txt") t <> Some NDir) by (intros E; apply Ag1; unfold read; rewrite E; reflexivity).
  assert (Ems : ms' = map fst (others ++ [(head, t)])).
  { rewrite (SplitApplyProofs6.made_members _ _ _ _ _ _ _ _ M). apply (push_members _ []); [constructor|exact Nd]. }
  assert (Vl : validatable u vb (U "multibag")).
  { split; [eauto|]. split; [exact Hu|]. split; [exists (ao_version o); split; [apply last_single; exact Dh|exact Nv]|].
    split; [right; split; [apply last_single; exact Dt|discriminate]|]. rewrite Bt. split; [exact Da|]. unfold is_dir.
    change (U "multibag" ++ U "/aggregation-info.txt") with (U "multibag/aggregation-info.txt"). change ((match od_get (U "multibag/aggregation-info.txt") t with Some NDir => true | _ => false end) = false). destruct (od_get (U "multibag/aggregation-info.txt") t) as [[|]|]; [contradiction Fm; reflexivity|reflexivity|reflexivity]. }
  destruct (C77_partial u vb target want _ Vl) as (r & H). exists r. split; [exact H|].
  assert (Md : multibag_directory vb (U "multibag")) by (right; split; [apply last_single; exact Dt|discriminate]).
  assert (Op' : old_profile vb = false) by (unfold old_profile; rewrite (last_single (b_info vb) _ _ Dv); reflexivity).
  assert (Nt' : NoDup (od_keys (b_tree vb))) by (rewrite Bt; exact Nt).
  apply (C81_decides u vb target want r _ Nt' Rt Md H). split; [auto|]. split; [|split].
  - split; [|split].
    + intros _. split; [exists (U "0.4"); split; [exact Dv|discriminate]|]. split; [left; exact Dr|].
      split; [right; exists (U "multibag"); split; [exact Dt|discriminate]|]. split; [rewrite Bt; exact Dm|]. split.
      { intros first rest E _ x I. rewrite <- E in I. change (values vb "Multibag-Head-Deprecates") with (tag_values (o_info b') (U "Multibag-Head-Deprecates")) in I.
        rewrite Dd in I. apply (Ov x I). }
      intros el [<-|[<-|[<-|[]]]] x E Nx.
      * change (values vb _) with (tag_values (o_info b') (U "Internal-Sender-Identifier")). unfold last_value in E. change (b_info vb) with (o_info b') in E.
        rewrite D1 in *. destruct (passed_on _ _ _); [discriminate|]. cbn [rev app] in E. injection E as ->. intros [I|[]]. congruence.
      * change (values vb _) with (tag_values (o_info b') (U "Internal-Sender-Description")). unfold last_value in E. change (b_info vb) with (o_info b') in E.
        destruct (tag_values (o_info b') (U "Internal-Sender-Description")) as [|y [|y' ys]]; [discriminate| |destruct (passed_on (ao_nopass o) (so_info s) (U "Internal-Sender-Description")); discriminate D2].
        cbn in E. injection E as ->. intros [I|[]]. congruence.
      * change (values vb _) with (tag_values (o_info b') (U "Bag-Group-Identifier")). intros I. apply (Permutation_in _ D3) in I. apply in_app_iff in I.
        assert (P : forall k, In [] (passed_on (ao_nopass o) (so_info s) k) -> In [] (tag_values (so_info s) k)).
        { intros k. unfold passed_on. destruct (_ || _); [intros []|auto]. }
        destruct I as [I|I]; apply P in I.
        -- apply (Fi (U "Bag-Group-Identifier") [] (or_introl eq_refl) I). reflexivity.
        -- apply (Fi (U "External-Identifier") [] (or_intror (or_introl eq_refl)) I). reflexivity.
    + intros _. split; [change (values vb "Multibag-Version") with (tag_values (o_info b') (U "Multibag-Version")); rewrite Dv; cbn; lia|].
      split; [exists (ao_version o); split; [exact Dh|exact Nv]|].
      intros first rest E. change (tag_values (o_info b') (U "Multibag-Head-Deprecates") = first :: rest) in E.
      assert (K : forall x, In x (first :: rest) -> x <> [] /\ ~ deprecates_own vb x).
      { intros x I. rewrite <- E, Dd in I. destruct (Ov x I) as (Z1 & _ & Z3 & Z4). split; [exact Z1|]. intros [X|X]; [|contradiction].
        rewrite (last_single (b_info vb) "Multibag-Head-Version" _ Dh) in X. injection X as X. contradiction. }
      split; [apply K; left; reflexivity|]. intros x I. apply K. exact I.
    + intros W. contradiction.
  - intros _. split.
    + apply (ValidateProofs2.made_members u vb want (U "multibag") (map (fun n => {| Tsv.m_name := n; m_uri := None; m_comment := None; m_info := [] |}) ms') Op').
      * rewrite Bt. change (U "multibag" ++ U "/" ++ U "member-bags.tsv") with (U "multibag/member-bags.tsv"). rewrite (read_members _ _ _ _ _ _ _ _ _ R eq_refl). f_equal.
        rewrite <- Ems in Fn. rewrite (members_prefix_text IoText _ (plain_names _ Fn)). cbn [fst]. clear. induction ms' as [|n ns IH]; [reflexivity|].
        cbn [map flat_map members_out]. unfold members_out in IH. rewrite IH. unfold member_body. cbn. rewrite ?app_nil_r. reflexivity.
      * apply plain_names. rewrite Ems. exact Fn.
      * rewrite names_back, Ems. exact Nd.
      * rewrite names_back, Ems, map_app. exists (map fst others). reflexivity.
      * apply Forall_forall. intros x I. apply in_map_iff in I. destruct I as (n & <- & _). reflexivity.
    + apply (ValidateProofs2.made_lookup vb want (U "multibag") lu' Op').
      * rewrite Bt. exact (read_lookup _ _ _ _ _ _ _ _ _ R eq_refl).
      * apply Forall_storable_legal. eapply made_storable; [exact M| |exact Fn|]; [constructor|]. intros m1 f I1 I2.
        unfold plan_files in I2. apply filter_In in I2. apply (Ff m1 f); [|tauto|tauto]. rewrite Em. rewrite map_app, map_map in I1. cbn [map fst] in I1.
        rewrite map_id in I1. exact I1.
      * eapply lookup_nodup; [exact M|constructor].
      * intros f G. rewrite Bt. destruct (lookup_last _ _ _ _ _ _ _ _ f M) as [(m1 & h & b1 & t1 & c1 & c2 & d1 & d2 & E1 & E2 & El & If & _ & G1)|[_ G1]]; [|rewrite G1 in G; discriminate].
        assert (Ebn : b1 = head) by (change (b_name vb) with head in G; congruence). subst b1.
        destruct (exists_last (l := (head, t1) :: d2) ltac:(discriminate)) as (d3 & [hx tx] & E4). rewrite E4 in E2. rewrite app_assoc in E2. apply app_inj_tail in E2. destruct E2 as [E2 E5]. injection E5 as <- <-.
        destruct d3 as [|[h4 t4] d3].
        -- cbn in E4. injection E4 as -> ->. rewrite app_nil_r in E2. assert (Lc : c2 = []).
           { apply (f_equal (@length _)) in E1. rewrite !app_length in E1. cbn [length] in E1. rewrite map_length in E1. assert (Le : length others = length l).
             { pose proof M as M2. apply made_each in M2. apply same_length in M2. rewrite !app_length, map_length in M2. cbn [length] in M2. lia. }
             subst d1. destruct c2; [reflexivity|]. cbn [length] in E1. lia. }
           subst c2. apply app_inj_tail in E1. destruct E1 as [_ E1]. injection E1 as <- <-. eapply planned_there; [|exact If]. exists c. eauto.
        -- exfalso. cbn [app] in E4. injection E4 as <- <- E4. rewrite map_app in Nd. cbn [map fst] in Nd. rewrite E2, map_app in Nd. cbn [map fst] in Nd.
           rewrite <- app_assoc in Nd. apply NoDup_remove_2 in Nd. apply Nd. apply in_app_iff. right. apply in_app_iff. right. left. reflexivity.
      * intros W. contradiction.
  - intros _ _ _. rewrite Bt. exact Ag2.
Qed.
Print Assumptions C91_split_head_partial.

(** When recommendations are asked for, every head bag made by a split fails:
    it has no Multibag-Reference. *)
Theorem C91_refuted : forall u v s b o p it out others head t want,
  clean_split v s b o p it out (others ++ [(head, t)]) ->
  asks want REC ->
  ~ head_passes u v head t want.
Proof.
  intros u v s b o p it out others head t want CS W (b' & Op & H).
  pose proof (all_opened _ _ _ _ _ _ _ _ CS) as A. destruct CS as [_ _ _ _ _ Hs _ _ _ _ _].
  pose proof (split_last _ _ _ _ _ _ Hs (planned_ne _ _ _ _ _ _ _ Hs)) as (l & m & bags1 & b1 & t1 & ms0 & lu0 & ms1 & lu1 & ms' & lu' & Em & Eb & Hi & M & M1 & O & Nd).
  apply app_inj_tail in Eb. destruct Eb as [E1 E2]. injection E2 as E2 E3. subst bags1 b1 t1.
  unfold manifests in A. rewrite Em, mark_head_last in A.
  apply Forall2_app_inv_l in A. destruct A as (k1 & k2 & _ & A2 & Ek).
  inversion A2 as [|? ? ? ? A3 A4]; subst. inversion A4; subst. apply app_inj_tail in Ek. destruct Ek as [_ <-].
  destruct A3 as (b2 & Op2 & Va & Ot & Rt & Dc). cbn [fst snd] in *. rewrite Op in Op2. injection Op2 as <-.
  destruct (H []) as (r & Hr & Okr). destruct O as (c & Rc & R & Ri).
  assert (Nt : NoDup (od_keys (b_tree (under_validation v head b')))).
  { cbn [b_tree under_validation]. rewrite Ot. eapply run_ops_nodup; [|exact R]. constructor. }
  assert (Md : multibag_directory (under_validation v head b') (U "multibag")).
  { right. split; [apply last_single; exact (doc_tagdir _ _ _ _ _ Dc)|discriminate]. }
  apply (C81_decides u _ [] want r _ Nt Rt Md Hr) in Okr. destruct Okr as (_ & (_ & _ & X) & _). apply (proj1 (X W)).
  apply (doc_others _ _ _ _ _ Dc); [reflexivity|cbn [In]; intuition discriminate].
Qed.
Print Assumptions C91_refuted.

(** ** C92: the member bags of a split *)

Lemma rec_ends ty lab spec p c r : In ty [ERROR; WARN; REC] -> exists r', rec_issue ty lab spec p c r = Ok r'.
Proof. intros [<-|[<-|[<-|[]]]]; eexists; reflexivity. Qed.

Lemma member_ends b target want results : b_plain b = Ok None -> exists r, member_validate b target want results = Ok r.
Proof.
  intros Pl. unfold member_validate.
  assert (B1 : forall r, exists r', bag_validate b want r = Ok r').
  { intros r. unfold bag_validate. rewrite Pl. destruct (has_bits _ _); cbn [bind]; eexists; reflexivity. }
  assert (B2 : forall r, exists r', validate_bagname b (version_of (b_info b)) r = Ok r').
  { intros r. unfold validate_bagname. destruct (is_02 _); [eauto|]. cbn. eexists. reflexivity. }
  assert (B3 : forall r, exists r', validate_as_nonhead b r = Ok r').
  { intros r. unfold validate_as_nonhead. destruct (od_has _ _); [eauto|].
    match goal with |- exists r', (let? o := ?x in _) = _ => destruct (rec_ends WARN "2-Head-Deprecates" "" true [] r) as [r1 _]; [cbn; auto|] end.
    cbn [rec_issue bind]. cbv zeta.
    match goal with |- exists r', bind ?x _ = _ => assert (E : exists r', x = Ok r') by (eexists; reflexivity); destruct E as (r2 & ->) end. cbn [bind].
    match goal with |- exists r', bind ?x _ = _ => assert (E : exists r', x = Ok r') by (eexists; reflexivity); destruct E as (r3 & ->) end. cbn [bind].
    match goal with |- context [foldM _ ?l] => generalize l end. intros l. revert r3. induction l as [|d l IH]; intros r3; [eexists; reflexivity|]. cbn [foldM].
    match goal with |- exists r', bind ?x _ = _ => assert (E : exists r', x = Ok r') by (eexists; reflexivity); destruct E as (r4 & ->) end. cbn [bind]. apply IH. }
  cbv zeta. set (r0 := match results with Some r => r | None => _ end). destruct (B1 r0) as (r1 & ->). cbn [bind].
  match goal with |- exists r', bind ?x _ = _ => assert (E : exists r', x = Ok r') by (eexists; reflexivity); destruct E as (r2 & ->) end. cbn [bind].
  destruct (match version_of (b_info b) with Some s => nonempty s | None => false end); [|eauto]. destruct results as [rs|].
  - destruct (B2 r2) as (r3 & ->). cbn [bind]. apply B3.
  - destruct (B2 (new_results target want CURRENT_VERSION)) as (r3 & ->). cbn [bind]. destruct (B3 (new_results target want CURRENT_VERSION)) as (r4 & ->). cbn [bind]. eauto.
Qed.

(** The result of validating a member bag; [given]: the caller hands over
    results to add to; the default is not to. *)
Definition member_passes (v : benv) (name : pystr) (t : tree) (want : N) (given : bool) : Prop :=
  exists b, open_plain v t = Ok b /\
  forall target, exists r,
    member_validate (under_validation v name b) target want (if given then Some (new_results target want CURRENT_VERSION) else None) = Ok r /\ ok r = true.
Definition member_fails (v : benv) (name : pystr) (t : tree) (want : N) : Prop :=
  exists b, open_plain v t = Ok b /\
  forall target, exists r,
    member_validate (under_validation v name b) target want (Some (new_results target want CURRENT_VERSION)) = Ok r /\ ok r = false.

Lemma member_opened v s b o p it out others head t n tn : clean_split v s b o p it out (others ++ [(head, t)]) -> In (n, tn) others ->
  storable IoText n /\ exists b', open_plain v tn = Ok b' /\ validate_plain v b' = VPass /\ o_tree b' = tn /\ read_tags (o_info b') /\
    documented (so_info s) o n false (o_info b').
Proof.
  intros CS I. pose proof (all_opened _ _ _ _ _ _ _ _ CS) as A. destruct CS as [_ _ _ _ _ Hs _ Fn _ _ _]. split.
  { rewrite Forall_forall in Fn. apply Fn. rewrite map_app. apply in_app_iff. left. exact (in_map fst _ _ I). }
  pose proof (split_last _ _ _ _ _ _ Hs (planned_ne _ _ _ _ _ _ _ Hs)) as (l & m & bags1 & b1 & t1 & ms0 & lu0 & ms1 & lu1 & ms' & lu' & Em & Eb & _).
  apply app_inj_tail in Eb. destruct Eb as [E1 E2]. injection E2 as E2 E3. subst bags1 b1 t1.
  unfold manifests in A. rewrite Em, mark_head_last in A.
  apply Forall2_app_inv_l in A. destruct A as (k1 & k2 & A1 & A2 & Ek).
  inversion A2 as [|? ? ? ? A3 A4]; subst. inversion A4; subst. apply app_inj_tail in Ek. destruct Ek as [<- _].
  clear -A1 I. revert A1 I. generalize others. clear others. induction l as [|x l IH]; intros others A1 I; inversion A1 as [|? ? ? ? A H]; subst; [destruct I|].
  destruct I as [->|I]; [exact A|]. eapply IH; eassumption.
Qed.

(** Every member bag of the split keeps the rules for errors, and breaks one of
    those for warnings: it names a multibag directory, which only a head bag
    has. Recommendations do not matter. *)
Theorem C92_members_partial : forall v s b o p it out others head t n tn want,
  clean_split v s b o p it out (others ++ [(head, t)]) -> In (n, tn) others ->
  (~ asks want WARN -> member_passes v n tn want true) /\
  (asks want WARN -> member_fails v n tn want) /\
  member_passes v n tn want false.
Proof.
  intros v s b o p it out others head t n tn want CS I. destruct (member_opened _ _ _ _ _ _ _ _ _ _ _ _ CS I) as (St & b' & Op & Va & Ot & Rt & Dc).
  set (vb := under_validation v n b').
  assert (Bp : b_plain vb = Ok None) by (unfold vb; cbn [b_plain under_validation]; rewrite Va; reflexivity).
  assert (Dv := doc_version _ _ _ _ _ Dc). assert (Dt := doc_tagdir _ _ _ _ _ Dc). assert (Dh := doc_head _ _ _ _ _ Dc). cbv beta iota in Dh.
  assert (Sm : says_multibag vb) by (exists (U "0.4"); split; [apply last_single; exact Dv|discriminate]).
  assert (Dec : forall target, exists r, member_validate vb target want (Some (new_results target want CURRENT_VERSION)) = Ok r /\ (ok r = true <-> ~ asks want WARN)).
  { intros target. destruct (member_ends vb target want (Some (new_results target want CURRENT_VERSION)) Bp) as (r & H). exists r. split; [exact H|].
    assert (Ty : typed (new_results target want CURRENT_VERSION)) by (repeat split; constructor).
    rewrite (C85_member_partial vb target want _ r Rt Ty eq_refl H). split.
    - intros (_ & _ & _ & X) W. destruct (X Sm) as [_ Y]. destruct (Y W Dh) as (_ & Z & _). change (tag_values (o_info b') (U "Multibag-Tag-Directory") = []) in Z. rewrite Dt in Z. discriminate.
    - intros Nw. split; [apply (ok_all _ Ty); intros i []|]. split; [auto|]. split; [auto|]. intros _. split; [|contradiction].
      intros _ _ Bn. destruct St as ((T & Nt) & _ & _). change (b_name vb) with n in Bn. destruct T as [(c1 & t1 & E1 & W1) (t2 & c2 & E2 & W2)].
      destruct Bn as [Bn|[(c & x & E & W)|(c & x & E & W)]]; [contradiction| |].
      + rewrite E in E1. injection E1 as -> ->. congruence.
      + rewrite E in E2. apply app_inj_tail in E2. destruct E2 as [_ ->]. congruence. }
  split; [|split].
  - intros Nw. exists b'. split; [exact Op|]. intros target. destruct (Dec target) as (r & H & D). exists r. split; [exact H|]. apply D. exact Nw.
  - intros W. exists b'. split; [exact Op|]. intros target. destruct (Dec target) as (r & H & D). exists r. split; [exact H|].
    destruct (ok r); [|reflexivity]. exfalso. apply D; [reflexivity|exact W].
  - exists b'. split; [exact Op|]. intros target. destruct (member_ends vb target want None Bp) as (r & H). exists r. split; [exact H|].
    apply (C85_refuted vb target want r H). auto.
Qed.
Print Assumptions C92_members_partial.

(** ** The case of C90 *)

Lemma every_value i (P : pystr -> Prop) : Forall (fun kv => Forall P (vals (snd kv))) i -> forall k x, In x (tag_values i k) -> P x.
Proof.
  intros F k x I. unfold tag_values in I. destruct (od_get k i) as [y|] eqn:G; [|destruct I]. apply od_get_in in G. rewrite Forall_forall in F.
  specialize (F _ G). cbn [snd] in F. rewrite Forall_forall in F. apply F. destruct y as [y|l]; exact I.
Qed.

Example C91_case :
  clean_split ex_env vs_source vs_bag ex_opts vs_plan None [] vs_bags /\
  vs_bags = [hd (U "", []) vs_bags] ++ [last vs_bags (U "", [])] /\ fst (last vs_bags (U "", [])) = U "two" /\
  ao_version ex_opts <> [] /\ older_versions ex_opts (U "two") /\ ~ asks PROB REC /\ asks PROB WARN /\ asks ALL REC /\
  (exists b, open_plain ex_env (snd (last vs_bags (U "", []))) = Ok b /\
     is_valid (fun w => head_validate ex_urlparse (under_validation ex_env (U "two") b) (U "t") w) PROB = Ok true /\
     is_valid (fun w => head_validate ex_urlparse (under_validation ex_env (U "two") b) (U "t") w) ALL = Ok false) /\
  (exists b, open_plain ex_env (snd (hd (U "", []) vs_bags)) = Ok b /\
     is_valid (fun w => member_validate (under_validation ex_env (U "one") b) (U "t") w (Some (new_results (U "t") w CURRENT_VERSION))) PROB = Ok false /\
     is_valid (fun w => member_validate (under_validation ex_env (U "one") b) (U "t") w None) PROB = Ok true).
Proof.
  destruct C90_case as (A1 & A2 & A3 & A4 & A5 & A6 & A7 & A8 & _).
  assert (F : Forall (storable IoText) (map fst vs_bags)).
  { rewrite A7. constructor; [apply storableb_ok; reflexivity|]. constructor; [apply storableb_ok; reflexivity|constructor]. }
  split; [|split; [|split; [|split; [|split; [|split; [|split; [|split; [|split]]]]]]]].
  - constructor; try assumption.
    + reflexivity.
    + intros m f Im If _. assert (I : In f [U "data/one"; U "about.txt"; U "data/d/two"]) by (destruct Im as [<-|[<-|[]]]; cbn [m_contents] in If; cbn [In] in *; tauto).
      destruct I as [<-|[<-|[<-|[]]]]; apply storableb_ok; reflexivity.
    + apply every_value. vm_compute. repeat constructor.
    + intros k x _. apply (every_value _ (fun x => x <> [])). vm_compute. repeat constructor; discriminate.
  - vm_compute. reflexivity.
  - vm_compute. reflexivity.
  - discriminate.
  - intros x [].
  - intros H. apply H. reflexivity.
  - discriminate.
  - discriminate.
  - destruct (open_plain ex_env (snd (last vs_bags (U "", [])))) as [b|] eqn:E; [|vm_compute in E; discriminate].
    exists b. split; [reflexivity|]. vm_compute in E. injection E as <-. split; vm_compute; reflexivity.
  - destruct (open_plain ex_env (snd (hd (U "", []) vs_bags))) as [b|] eqn:E; [|vm_compute in E; discriminate].
    exists b. split; [reflexivity|]. vm_compute in E. injection E as <-. split; vm_compute; reflexivity.
Qed.

(** ** C93: the versions of BagIt that are read *)

(** The specification: MAJOR.MINOR, or MAJOR alone, and the file with the
    bag's tags; [None]: not supported. *)
Inductive bagit_version : pystr -> option pystr -> Prop :=
| version_2 a b x y : decimal a x -> decimal b y ->
    bagit_version (a ++ U "." ++ b)
      (if x =? 0 then (if y <? 93 then None else if y <=? 95 then Some (U "package-info.txt") else Some (U "bag-info.txt"))
       else if x =? 1 then Some (U "bag-info.txt") else None)
| version_1 a x : decimal a x -> bagit_version a (if x =? 1 then Some (U "bag-info.txt") else None).

Lemma decimal_chars a x : decimal a x -> trimmed a /\ no_brk IoText a /\ ~ In DOT a.
Proof.
  intros (Ne & F & _). rewrite Forall_forall in F. split; [split|split].
  - destruct a as [|c a]; [congruence|]. exists c, a. split; [reflexivity|]. apply is_digit_not_ws. apply F. left. reflexivity.
  - destruct (exists_last Ne) as (l & c & E). exists l, c. split; [exact E|]. apply is_digit_not_ws. apply F. rewrite E. apply in_app_iff. right. left. reflexivity.
  - apply Forall_forall. intros c I. apply F in I. unfold is_digit in I. apply andb_true_iff in I. destruct I as [I1 I2]. apply N.leb_le in I1, I2.
    change ((c =? 10) || (c =? 13) = false). destruct (N.eqb_spec c 10), (N.eqb_spec c 13); try reflexivity; lia.
  - intros I. apply F in I. discriminate.
Qed.

Lemma version_parsed s f : bagit_version s f -> tag_value_ok IoText s /\ exists vi, parse_version s = Some vi /\ tag_file_name vi = f.
Proof.
  assert (Z1 : forall x n, (Z.of_N x =? Z.of_N n)%Z = (x =? n)) by (intros; destruct (N.eqb_spec x n), (Z.eqb_spec (Z.of_N x) (Z.of_N n)); lia).
  assert (Z2 : forall x n, (Z.of_N x <? Z.of_N n)%Z = (x <? n)) by (intros; destruct (N.ltb_spec x n), (Z.ltb_spec (Z.of_N x) (Z.of_N n)); lia).
  intros [a b x y Da Db|a x Da].
  - destruct (decimal_chars _ _ Da) as ([T1 _] & B1 & D1), (decimal_chars _ _ Db) as ([_ T2] & B2 & D2). split; [split|].
    + right. split.
      * destruct T1 as (c & l & -> & W). eexists _, _. split; [reflexivity|exact W].
      * destruct T2 as (l & c & -> & W). exists (a ++ U "." ++ l), c. split; [rewrite !app_assoc; reflexivity|exact W].
    + rewrite !no_brk_app. split; [exact B1|]. split; [repeat constructor|exact B2].
    + exists [Z.of_N x; Z.of_N y]. unfold parse_version. change (a ++ U "." ++ b) with (a ++ DOT :: b). rewrite (split1_app _ _ _ D1), (py_int_decimal _ _ Da), (py_int_decimal _ _ Db).
      split; [reflexivity|]. unfold tag_file_name, zs_le. cbn [zs_lt zs_eq].
      change 0%Z with (Z.of_N 0). change 93%Z with (Z.of_N 93). change 95%Z with (Z.of_N 95). change 96%Z with (Z.of_N 96). change 2%Z with (Z.of_N 2). rewrite !Z1, !Z2.
      destruct (N.eqb_spec 0 x) as [<-|N0].
      * change (0 =? 0) with true. change (0 =? 2) with false. change (0 <? 2) with true. rewrite ?andb_true_r, ?orb_false_r. cbn [andb orb].
        destruct (N.ltb_spec 93 y), (N.eqb_spec 93 y), (N.ltb_spec y 95), (N.eqb_spec y 95), (N.ltb_spec y 93), (N.leb_spec y 95), (N.ltb_spec 96 y), (N.eqb_spec 96 y); cbn [andb orb]; try reflexivity; try lia.
      * rewrite (N.eqb_sym x 0). destruct (N.eqb_spec 0 x); [contradiction|]. cbn [andb orb]. rewrite ?orb_false_r, ?andb_false_r.
        destruct (N.eqb_spec x 2), (N.eqb_spec x 1), (N.ltb_spec 0 x), (N.ltb_spec x 0), (N.ltb_spec x 2); cbn [andb orb]; try reflexivity; lia.
  - destruct (decimal_chars _ _ Da) as (T1 & B1 & D1). split; [split; [right; exact T1|exact B1]|].
    exists [Z.of_N x]. unfold parse_version. rewrite (split1_none _ _ D1), (py_int_decimal _ _ Da). split; [reflexivity|].
    unfold tag_file_name, zs_le. cbn [zs_lt zs_eq].
    change 0%Z with (Z.of_N 0). change 2%Z with (Z.of_N 2). rewrite !Z1, !Z2.
    destruct (N.eqb_spec 0 x), (N.eqb_spec x 0), (N.eqb_spec x 2), (N.eqb_spec x 1), (N.ltb_spec 0 x), (N.ltb_spec x 0), (N.ltb_spec x 2); cbn [andb orb]; try reflexivity; lia.
Qed.

(** A bag whose bagit.txt has the two lines: refused with BagError if the
    version is not supported; otherwise its tags are read from the file that
    goes with the version, and the refusal, if any, comes from the files. *)
Theorem C93_versions : forall v t s f e,
  bagit_version s f -> tag_value_ok IoText e -> v_codec v e = true ->
  read (U "bagit.txt") t = Some (tags_text [(U "BagIt-Version", s); (U "Tag-File-Character-Encoding", e)]) ->
  match f with
  | None => open_plain v t = Err EBag
  | Some name =>
      (forall b, open_plain v t = Ok b ->
         match read name t with Some c => load_tags IoText c = Ok (o_info b) | None => o_info b = [] end) /\
      ((forall p c, read p t = Some c -> p = U "bagit.txt") -> exists_ name t = false ->
         exists b, open_plain v t = Ok b /\ o_info b = [] /\ o_entries b = [])
  end.
Proof.
  intros v t s f e V E C R. destruct (version_parsed _ _ V) as (Vs & vi & Pv & Tf).
  assert (Rv : read_version v (tags_text [(U "BagIt-Version", s); (U "Tag-File-Character-Encoding", e)]) =
               match f with Some name => Ok (vi, name) | None => Err EBag end).
  { unfold read_version. change (skip_bom _) with (tags_text [(U "BagIt-Version", s); (U "Tag-File-Character-Encoding", e)]). rewrite parse_tags_plain.
    - cbn [bind fold_left]. cbn. rewrite Pv, Tf, C. destruct f; reflexivity.
    - constructor; [split; [|exact Vs]|constructor; [split; [|exact E]|constructor]]; cbn [fst];
        (split; [apply trimmedb_ok; reflexivity|split; [|apply no_brk_b; reflexivity]]); cbn; intuition discriminate. }
  unfold open_plain. change F_bagit with (U "bagit.txt"). rewrite R, Rv. destruct f as [name|]; [|reflexivity]. cbn [bind]. split.
  - intros b H. apply bind_ok in H. destruct H as (i & Hi & H). apply bind_ok in H. destruct H as (es & _ & H). injection H as <-. cbn [o_info].
    unfold exists_ in Hi. destruct (read name t) as [c|] eqn:Rn.
    + assert (F : is_file name t = true) by (apply is_file_read; eauto). rewrite F in Hi. exact Hi.
    + destruct (is_file name t || is_dir name t); [discriminate|]. injection Hi as <-. reflexivity.
  - intros Only Ex. rewrite Ex. cbn [bind].
    assert (B : bag_manifests (v_algos v) (from_097 vi) t = []).
    { unfold bag_manifests. assert (K : forall k l, k = K_man \/ k = K_tag ->
        filter_some (map (fun a => match read (man_name k a) t with Some c => Some (a, c) | None => None end) l) = []).
      { intros k l Hk. induction l as [|a l IH]; [reflexivity|]. cbn [map filter_some].
        destruct (read (man_name k a) t) eqn:Rk; [|exact IH]. apply Only in Rk. exfalso. destruct Hk as [->| ->]; discriminate Rk. }
      rewrite (K K_man) by auto. destruct (from_097 vi); [rewrite (K K_tag) by auto|]; reflexivity. }
    rewrite B. cbn. eexists. split; [reflexivity|]. auto.
Qed.
Print Assumptions C93_versions.

Example C93_case :
  bagit_version (U "0.97") (Some (U "bag-info.txt")) /\ bagit_version (U "0.95") (Some (U "package-info.txt")) /\
  bagit_version (U "1") (Some (U "bag-info.txt")) /\ bagit_version (U "2.0") None /\ bagit_version (U "0.92") None /\
  (exists b, open_plain ex_env [(U "bagit.txt", NFile (tags_text [(U "BagIt-Version", U "1"); (U "Tag-File-Character-Encoding", U "UTF-8")]))] = Ok b) /\
  open_plain ex_env [(U "bagit.txt", NFile (tags_text [(U "BagIt-Version", U "2.0"); (U "Tag-File-Character-Encoding", U "UTF-8")]))] = Err EBag.
Proof.
  assert (D : forall s n, forallb is_digit s = true -> s <> [] -> fold_left (fun a c => 10 * a + (c - 48)) s 0 = n -> decimal s n).
  { intros s n F Ne E. split; [exact Ne|]. split; [|exact E]. apply Forall_forall. intros c I. rewrite forallb_forall in F. apply F. exact I. }
  split; [apply (version_2 (U "0") (U "97") 0 97); apply D; (reflexivity || discriminate)|].
  split; [apply (version_2 (U "0") (U "95") 0 95); apply D; (reflexivity || discriminate)|].
  split; [apply (version_1 (U "1") 1); apply D; (reflexivity || discriminate)|].
  split; [apply (version_2 (U "2") (U "0") 2 0); apply D; (reflexivity || discriminate)|].
  split; [apply (version_2 (U "0") (U "92") 0 92); apply D; (reflexivity || discriminate)|].
  split; [|vm_compute; reflexivity]. destruct (open_plain ex_env _) as [b|] eqn:E; [eauto|vm_compute in E; discriminate].
Qed.

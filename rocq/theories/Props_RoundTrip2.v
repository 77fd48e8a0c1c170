(** * The bags of a split can be restored (C32) *)

Require Import String NArith PeanoNat Bool List Lia.
From Verif Require Import PyBase PyFacts Tsv TsvProofs Fs FsFacts HeadBag HeadBagProofs HeadBagProofs3 BagIt BagItProofs BagItProofs2 Split SplitProofs SplitProofs3 Props_Split SplitApply SplitApplyProofs SplitApplyProofs2 SplitApplyProofs3 SplitApplyProofs4 SplitApplyProofs5 SplitApplyProofs6 SplitApplyProofs7 SplitApplyProofs8 Props_SplitApply Props_SplitApply2 Restore RestoreProofs RestoreProofs2 RestoreProofs3 Props_Restore RestoreProofs4 RestoreProofs6 RestoreProofs7 RestoreProofs8 RestoreProofs9 RestoreProofs10 RestoreProofs11 Props_RoundTrip SplitRestoreProofs Props_BagValid3.
Import ListNotations.
Open Scope N_scope.

Lemma in_manifests p m h : In (m, h) (manifests p) -> In m (p_manifests p).
Proof.
  unfold manifests. generalize (p_manifests p). induction l as [|a [|b l] IH]; intros I.
  - destruct I.
  - destruct I as [E|[]]. inversion E; subst. left; auto.
  - change (mark_head (a :: b :: l)) with ((a, false) :: mark_head (b :: l)) in I.
    destruct I as [E|I]; [inversion E; subst; left; auto|right; auto].
Qed.

Lemma forall2_at {X Y} (R : X -> Y -> Prop) l1 l2 y : Forall2 R l1 l2 -> In y l2 -> exists x, In x l1 /\ R x y.
Proof.
  induction 1 as [|a b l1 l2 H F IH]; intros I; [destruct I|]. destruct I as [->|I].
  - exists a. split; [left; auto|auto].
  - destruct (IH I) as (x & Ix & Hx). exists x. split; [right; auto|auto].
Qed.

Lemma split_agg_ok s o p it out bags v A us rt ro h place :
  NoDup (e_algos v) -> incl A (e_algos v) -> restorable v A s -> (forall m, In m (p_manifests p) -> restorable_plan m) ->
  plain_opts IoText o -> p_manifests p <> [] -> splits_into s o p it out bags -> Forall (storable IoText) (map fst bags) ->
  found v place bags -> head_of IoText bags h ->
  (forall n f, In n (map fst bags) -> is_file f (so_tree s) = true -> e_danger v (place n) f = false) ->
  exists members bs, head_lists ro h = Ok ([], members) /\
    Forall2 (fun n b => e_find v n = Some b) (others h members) bs /\
    agg_ok v A [] us rt h (head_bag h (place (hb_name h)) :: bs).
Proof.
  intros Na Inc RS RP Hp Np Sp St Fo Hd Dg. pose proof (rs_reader _ _ _ RS) as Er. pose proof (rs_layout _ _ _ RS) as Lo.
  destruct (split_aggregation s o p it out bags v ro h place) as (othr & head & t & tags & members & Eb & Tg & -> & Hl & Ag & Fw);
    try rewrite Er; auto; try apply RS.
  rewrite Er in Tg, Hl, Ag. apply aggregation_others in Ag. destruct Ag as (bs & F2 & Ebs). exists members, bs. cbn [hb_name open_hb].
  split; [exact Hl|]. split; [exact F2|].
  assert (Each : forall bt, In bt bags -> exists m hh ms lu, In m (p_manifests p) /\ one_bag s o m hh ms lu (fst bt) (snd bt) /\
            exact_copies (so_tree s) (snd bt) m hh /\ wf_tree (snd bt)).
  { intros bt I. pose proof Sp as M. apply made_split in M. destruct M as (ms0 & lu0 & ms' & lu' & _ & M & _). apply made_each in M.
    assert (F3 : Forall2 (fun mh bt => (wf_tree (snd bt) /\ exact_copies (so_tree s) (snd bt) (fst mh) (snd mh)) /\
              exists ms lu, one_bag s o (fst mh) (snd mh) ms lu (fst bt) (snd bt)) (manifests p) bags).
    { clear - Fw M. induction Fw; inversion M; subst; constructor; auto. }
    destruct (forall2_at _ _ _ _ F3 I) as ([m hh] & Im & (W & X) & ms & lu & O). apply in_manifests in Im.
    exists m, hh, ms, lu. auto. }
  assert (Of : forall b, In b (head_bag (open_hb head t tags IoText) (place head) :: bs) ->
            exists bt, In bt bags /\ b = placed place bt).
  { intros b I. apply in_rev in I. rewrite <- Ebs in I. apply in_map_iff in I. destruct I as (bt & <- & I). eauto. }
  assert (Ih : In (head, t) bags) by (rewrite Eb; apply in_app_iff; right; left; auto).
  assert (Hd1 : exists m ms lu c, one_bag s o m true ms lu head t /\ read F_bagit (so_tree s) = Some c /\ run_ops (bag_list s o head m true ms lu c) [] = Ok t).
  { pose proof (split_last _ _ _ _ _ _ Sp Np) as (l & m & bags1 & b & t1 & ms0' & lu0' & ms1 & lu1 & ms' & lu' & Em & Eb2 & Hi & M & M1 & O & Nd).
    rewrite Eb in Eb2. apply app_inj_tail in Eb2. destruct Eb2 as [_ Eb2]. inversion Eb2; subst b t1.
    pose proof O as (c & Rc & R & _). exists m, ms', lu', c. auto. }
  destruct Hd1 as (mh & msh & luh & ch & Oh & Rch & Rh).
  constructor.
  - apply Forall_forall. intros b I. destruct (Of b I) as ([n tt] & Ib & ->). destruct (Each _ Ib) as (m & hh & ms & lu & Im & O & X & W). cbn [fst snd] in *.
    unfold placed. cbn [fst snd].
    assert (In_n : In n (map fst bags)) by (apply in_map_iff; exists (n, tt); auto).
    rewrite Forall_forall in St. destruct (St n In_n) as (_ & Nb & _).
    apply (bag_member_ok v A s o n m hh ms lu tt (place n)); auto.
    apply (Fo n tt Ib).
  - intros q _. reflexivity.
  - destruct (rs_version _ _ _ RS ch Rch) as [v1 Ev]. exists ch, v1. split; [|exact Ev]. cbn [hb_tree open_hb].
    exact (read_bagit_gen s o head mh true msh luh ch t Rh Rch).
  - pose proof Oh as (c' & _ & _ & Hi). specialize (Hi eq_refl). destruct (read F_baginfo (so_tree s)) as [ci|] eqn:Ri; [|congruence].
    exists ci. split; [|apply (rs_info _ _ _ RS); exact Ri]. unfold first_info. cbn [hb_tree hb_reader open_hb].
    change (sjoin MULTIBAG F_agginfo) with (U "multibag/aggregation-info.txt").
    rewrite (read_agginfo s o head mh true msh luh ch t Rh ci eq_refl Ri). rewrite Er. reflexivity.
  - intros b b' q I I' G _. destruct (Of b I) as (bt & Ib & ->). destruct (Of b' I') as (bt' & Ib' & ->). cbn [placed rb_tree] in *.
    destruct (Each _ Ib) as (m & hh & ms & lu & _ & _ & X & W). destruct (Each _ Ib') as (m' & hh' & ms' & lu' & _ & _ & X' & _).
    exact (bags_agree v A s m hh (snd bt) m' hh' (snd bt') q RS X X' W G).
  - intros _. exists (head_bag (open_hb head t tags IoText) (place head)). split; [left; auto|]. cbn [head_bag rb_tree hb_tree open_hb].
    pose proof (data_made _ _ _ _ _ _ _ _ _ Rh) as D. apply is_dir_cases in D. destruct D as [D|D]; [discriminate|exact D].
  - intros _. cbn [hb_tree open_hb]. pose proof (multibag_made _ _ _ _ _ _ _ _ Rh) as D. apply is_dir_cases in D. destruct D as [D|D]; [discriminate|exact D].
  - intros b q I F _ T1 T2. destruct (Of b I) as (bt & Ib & ->). cbn [placed rb_tree] in *.
    destruct (Each _ Ib) as (m & hh & ms & lu & _ & O & X & W).
    destruct (bag_file_cases _ _ _ _ _ _ _ _ q (lo_entries _ _ Lo) O F) as [[_ Fs]|[Bf|(k & a & Ik & Ia & ->)]].
    + apply (rs_names _ _ _ RS); auto.
    + apply (rs_own _ _ _ RS); auto.
    + apply (rs_own _ _ _ RS); auto. left. rewrite (rs_algos _ _ _ RS) in Ia. exists k, a. auto.
  - intros q T T2. apply (rs_own _ _ _ RS); auto. destruct T as [T|[->| ->]]; [left; exact T|right|right]; cbn; auto.
Qed.

(** ** C32 *)

(** Where the bags are put: no path listed in them leads outside. *)
Definition safe_places (v : env) (place : pystr -> pystr) (bags : dict tree) (src : tree) : Prop :=
  forall n f, In n (map fst bags) -> is_file f src = true -> e_danger v (place n) f = false.

(** The bags of a split can be restored, and that gives the source back. *)
Theorem C32_split_restores : forall s o p it out bags v A us bsize ro h place,
  restorable v A s -> is_dir (U "data") (so_tree s) = true ->
  plain_opts IoText o -> p_manifests p <> [] -> plans_all p (so_tree s) ->
  (forall m, In m (p_manifests p) -> restorable_plan m) ->
  splits_into s o p it out bags -> Forall (storable IoText) (map fst bags) ->
  plain_algos v -> NoDup (e_algos v) -> incl A (e_algos v) -> good_hash v -> plain_text bsize ->
  found v place bags -> safe_places v place bags (so_tree s) -> head_of IoText bags h ->
  exists dest', restore v us true bsize ro h (place (hb_name h)) [] = Ok dest' /\
    forall q, ~ special_path q -> od_get q dest' = od_get q (so_tree s).
Proof.
  intros s o p it out bags v A us bsize ro h place RS Dd Hp Np Pa RP Sp St Sv Na Inc Gh Pt Fo Sf Hd.
  destruct (split_agg_ok s o p it out bags v A us true ro h place Na Inc RS RP Hp Np Sp St Fo Hd Sf) as (members & bs & Hl & F2 & Ag).
  destruct (restore_succeeds v A us true bsize ro h (place (hb_name h)) [] members bs) as (D & Hr & _); auto.
  exists D. split; [exact Hr|]. intros q Sq. pose proof (rs_reader _ _ _ RS) as Er.
  apply (C32_round_trip_partial s o p it out bags v us bsize ro h place D); try rewrite Er; auto; apply RS.
Qed.
Print Assumptions C32_split_restores.

(** ** An example *)

Definition manifest_pathb (r : reader) (p : pystr) : bool :=
  trimmedb p && forallb (fun c => negb (is_brk r c)) p && negb (startswith p [STAR]) && good_pathb p &&
  negb (substr_in (U "%0D") p) && negb (substr_in (U "%0A") p).
Lemma manifest_pathb_ok r p : manifest_pathb r p = true -> manifest_path r p.
Proof.
  unfold manifest_pathb. rewrite !andb_true_iff, !negb_true_iff. intros (((((H1 & H2) & H3) & H4) & H5) & H6).
  constructor; auto; [apply trimmedb_ok; auto|apply no_brk_b; auto|apply good_pathb_ok; auto].
Qed.

Definition manifest_hashb (h : pystr) : bool :=
  forallb (fun c => negb (is_ws c)) h && negb (startswith h [HASH]) && match h with [] => false | c :: _ => negb (c =? BOM) end.
Lemma manifest_hashb_ok h : manifest_hashb h = true -> manifest_hash h /\ hd 0 h <> BOM.
Proof.
  unfold manifest_hashb. rewrite !andb_true_iff, negb_true_iff. intros ((H1 & H2) & H3). destruct h as [|c h]; [discriminate|]. split.
  - constructor; [discriminate| |exact H2]. apply Forall_forall. intros x I. rewrite forallb_forall in H1. apply H1 in I. apply negb_true_iff in I. exact I.
  - cbn [hd]. apply negb_true_iff in H3. apply N.eqb_neq. exact H3.
Qed.

Fixpoint lines_eqb (a b : list (pystr * pystr)) : bool :=
  match a, b with
  | [], [] => true
  | x :: a, y :: b => streq (fst x) (fst y) && streq (snd x) (snd y) && lines_eqb a b
  | _, _ => false
  end.
Lemma lines_eqb_ok a : forall b, lines_eqb a b = true -> a = b.
Proof.
  induction a as [|[h p] a IH]; intros [|[h' p'] b] H; cbn [lines_eqb fst snd] in H; try discriminate; auto.
  rewrite !andb_true_iff in H. destruct H as ((H1 & H2) & H3). apply streq_eq in H1, H2. apply IH in H3. congruence.
Qed.

Definition good_manb (pay : bool) (c : pystr) : bool :=
  let l := manifest_lines IoText (skip_bom c) in
  let l' := manifest_lines Codecs (skip_bom c) in
  lines_eqb l' l &&
  forallb (fun hp => manifest_hashb (fst hp) && manifest_pathb IoText (snd hp) && manifest_pathb Codecs (snd hp) && Bool.eqb (is_payload (snd hp)) pay) l &&
  nodupb (map snd l).

Lemma good_manb_ok pay c : good_manb pay c = true -> good_man pay c.
Proof.
  unfold good_manb. cbv zeta. rewrite !andb_true_iff. intros ((H1 & H2) & H3). constructor.
  - apply lines_eqb_ok. exact H1.
  - intros h p I. rewrite forallb_forall in H2. apply H2 in I. cbn [fst snd] in I. rewrite !andb_true_iff in I. destruct I as (((I1 & I2) & I3) & I4).
    apply manifest_hashb_ok in I1. apply manifest_pathb_ok in I2, I3. apply Bool.eqb_prop in I4. destruct I1. unfold plain_entry. auto.
  - apply nodupb_ok. exact H3.
Qed.

Definition good_mansb (algos : list pystr) (t : tree) : bool :=
  forallb (fun a => forallb (fun pay => match read (man_name (kind_of pay) a) t with Some c => good_manb pay c | None => true end) [true; false]) algos.
Lemma good_mansb_ok v loc t : (forall l p, e_danger v l p = false) -> good_mansb (e_algos v) t = true -> good_mans v loc t.
Proof.
  intros D H pay a c Ia R. unfold good_mansb in H. rewrite forallb_forall in H. apply H in Ia. rewrite forallb_forall in Ia.
  specialize (Ia pay). rewrite R in Ia. split; [|auto]. apply good_manb_ok. apply Ia. destruct pay; cbn; auto.
Qed.

Definition usesb (algos A : list pystr) (t : tree) : bool :=
  forallb (fun pay =>
    forallb (fun a => negb (is_file (man_name (kind_of pay) a) t) ||
                      (str_in a A && forallb (fun a' => is_file (man_name (kind_of pay) a') t) A)) algos &&
    forallb (fun a => forallb (fun a' =>
      match read (man_name (kind_of pay) a) t with
      | None => true
      | Some c => forallb (fun hp => match read (man_name (kind_of pay) a') t with
                                     | None => false
                                     | Some c' => str_in (snd hp) (map snd (manifest_lines IoText (skip_bom c')))
                                     end) (manifest_lines IoText (skip_bom c))
      end) A) A) [true; false].
Lemma usesb_ok v A t : usesb (e_algos v) A t = true -> uses v A t.
Proof.
  unfold usesb. intros H. rewrite forallb_forall in H.
  assert (H' : forall pay, _ = true) by (intros pay; apply (H pay); destruct pay; cbn; auto). clear H. constructor.
  - intros pay a Ia F. specialize (H' pay). apply andb_true_iff in H'. destruct H' as [H _]. rewrite forallb_forall in H. apply H in Ia.
    rewrite F in Ia. cbn [negb orb] in Ia. apply andb_true_iff in Ia. destruct Ia as [I1 I2]. apply str_in_iff in I1. split; auto.
    intros a' I. rewrite forallb_forall in I2. auto.
  - intros pay a a' p h Ia Ia' (c & R & I). specialize (H' pay). apply andb_true_iff in H'. destruct H' as [_ H]. rewrite forallb_forall in H. apply H in Ia.
    rewrite forallb_forall in Ia. apply Ia in Ia'. rewrite R in Ia'. rewrite forallb_forall in Ia'. apply Ia' in I. cbn [snd] in I.
    destruct (read (man_name (kind_of pay) a') t) as [c'|] eqn:R'; [|discriminate]. apply str_in_iff, in_map_iff in I. destruct I as ([h' p'] & E & I).
    cbn [snd] in E. subst p'. exists h', c'. auto.
Qed.

Definition good_tagsb (text : pystr) : bool :=
  match load_tags IoText text, load_tags Codecs text with
  | Ok _, Ok d => forallb (fun k => negb (hd 0 k =? BOM)) (od_keys d)
  | _, _ => false
  end.
Lemma good_tagsb_ok text : good_tagsb text = true -> good_tags text.
Proof.
  unfold good_tagsb. destruct (load_tags IoText text) as [d1|] eqn:E1; [|discriminate]. destruct (load_tags Codecs text) as [d2|] eqn:E2; [|discriminate].
  intros H. split; [eauto|]. exists d2. split; [exact E2|]. intros k I. rewrite forallb_forall in H. apply H in I. apply negb_true_iff in I. apply N.eqb_neq. exact I.
Qed.

Definition good_nameb (p : pystr) : bool := manifest_pathb IoText p && manifest_pathb Codecs p.
Definition restorableb (algos A : list pystr) (s : source) : bool :=
  od_has (U "Multibag-Head-Version") (so_info s) || negb (layoutb s true) ||
  negb (forallb (fun q => negb (in_multibag q)) (od_keys (so_tree s))) ||
  negb (good_mansb algos (so_tree s)) || negb (usesb algos A (so_tree s)) ||
  negb (match read F_baginfo (so_tree s) with Some c => good_tagsb c | None => true end) ||
  is_dir F_fetch (so_tree s) ||
  negb (forallb good_nameb (od_keys (so_tree s) ++ map (man_name K_man) algos ++ map (man_name K_tag) algos ++ bag_files)).

Lemma restorableb_ok v A s : (forall l p, e_danger v l p = false) -> (forall c, read F_bagit (so_tree s) = Some c -> exists v1, e_version v c = Ok (true, v1)) ->
  so_reader s = IoText -> so_algos s = e_algos v -> opened s -> checksums_loaded s ->
  restorableb (e_algos v) A s = false -> restorable v A s.
Proof.
  intros D Vn Er Ea Ho Hl H. unfold restorableb in H. rewrite !orb_false_iff, !negb_false_iff in H.
  destruct H as (((((((H1 & H2) & H3) & H4) & H5) & H6) & H7) & H8). rewrite forallb_forall in H8.
  assert (Gn : forall p, good_nameb p = true -> good_name v p).
  { intros p G. unfold good_nameb in G. apply andb_true_iff in G. destruct G as [G1 G2]. apply manifest_pathb_ok in G1, G2.
    split; [exact G1|]. split; [exact G2|]. apply D. }
  constructor; auto.
  - apply layoutb_ok. exact H2.
  - intros q M. destruct (od_get q (so_tree s)) eqn:E; auto. exfalso. apply od_get_some_key in E. apply multibag_iff in M.
    rewrite forallb_forall in H3. apply H3 in E. rewrite M in E. discriminate.
  - apply good_mansb_ok; auto.
  - apply usesb_ok. exact H5.
  - intros c R. rewrite R in H6. apply good_tagsb_ok. exact H6.
  - intros p F _ _. apply Gn. apply H8. apply in_app_iff. left. apply is_file_read in F. destruct F as [c F]. apply read_get in F. eapply od_get_some_key; eauto.
  - intros p I _. apply Gn. apply H8. rewrite !in_app_iff. right. destruct I as [(k & a & [<-|[<-|[]]] & Ia & ->)|I].
    + left. apply in_map. exact Ia.
    + right; left. apply in_map. exact Ia.
    + right; right. exact I.
Qed.

(** A bag with manifests for two algorithms, split by a plan with two bags. *)
Definition rt_tree : tree :=
  [(U "bagit.txt", NFile (U "BagIt-Version: 1.0" ++ [LF]));
   (U "bag-info.txt", NFile ex_info_text);
   (U "manifest-md5.txt", NFile (U "h1  data/a" ++ [LF] ++ U "h2  data/d/b" ++ [LF]));
   (U "manifest-sha256.txt", NFile (U "s1  data/a" ++ [LF] ++ U "s2  data/d/b" ++ [LF]));
   (U "tagmanifest-md5.txt", NFile (U "h3  meta/m" ++ [LF] ++ U "h4  about.txt" ++ [LF] ++ U "h5  bag-info.txt" ++ [LF]));
   (U "tagmanifest-sha256.txt", NFile (U "s5  bag-info.txt" ++ [LF] ++ U "s3  meta/m" ++ [LF] ++ U "s4  about.txt" ++ [LF]));
   (U "data", NDir); (U "data/a", NFile (U "abcd")); (U "data/d", NDir); (U "data/d/b", NFile (U "xyz"));
   (U "data/e", NDir); (U "about.txt", NFile (U "?")); (U "meta", NDir); (U "meta/m", NFile (U "M"))].
Definition rt_source : source :=
  {| so_name := U "src"; so_tree := rt_tree; so_info := got [] (load_tags IoText ex_info_text);
     so_algos := ex_algos;
     so_entries := got [] (load_manifests (fun _ => false) true IoText (bag_manifests ex_algos true rt_tree));
     so_reader := IoText |}.
Definition rt_bag : bag := {| b_name := U "src"; b_tree := rt_tree; b_dirsize := fun _ => 0 |}.
Definition rt_plan : plan := snd (splitter_plan WellPacked (fst (new_splitter 5 None None)) (U "src") rt_bag).
Definition rt_bags : dict tree :=
  match apply_plan rt_source ex_opts rt_plan None [] with Ok a => a_out a | Err _ => [] end.
Definition rt_env : env :=
  {| e_algos := ex_algos; e_version := fun _ => Ok (true, true); e_danger := fun _ _ => false;
     e_hash := fun a c => U "h" ++ dec (N.of_nat (length c)); e_dest := U "/out";
     e_find := fun n => match od_get n rt_bags with
                        | Some t => Some {| rb_loc := ex_place n; rb_tree := t |}
                        | None => None
                        end |}.
Definition rt_last : pystr * tree := last rt_bags ([], []).
Definition rt_head : hb :=
  open_hb (fst rt_last) (snd rt_last) (got [] (tags_of IoText (snd rt_last))) IoText.

Lemma own_special f : own_file true f -> special_pathb f = true.
Proof.
  unfold special_pathb. intros Ow. inversion Ow as [E|E|a E|a E|_ E|_ E|_ E]; try reflexivity; rewrite startswith_app.
  - rewrite orb_true_r. reflexivity.
  - rewrite !orb_true_r. reflexivity.
Qed.

Lemma h_dec_hash n : manifest_hash (U "h" ++ dec n) /\ hd 0 (U "h" ++ dec n) <> BOM.
Proof.
  split; [|discriminate]. constructor; [discriminate| |reflexivity]. apply Forall_app. split; [repeat constructor|].
  eapply Forall_impl; [|apply dec_digits]. intros c D. unfold is_digit in D. apply andb_true_iff in D. destruct D as [D1 D2].
  apply N.leb_le in D1, D2. assert (X : forall k, c = 48 + k -> k < 10 -> is_ws c = false).
  { intros k -> L. destruct k as [|p]; [reflexivity|]. do 4 (destruct p; try reflexivity; try lia). }
  apply (X (c - 48)); lia.
Qed.

Example C32_split_restores_case :
  restorable rt_env ex_algos rt_source /\ is_dir (U "data") rt_tree = true /\ plain_opts IoText ex_opts /\ p_manifests rt_plan <> [] /\
  plans_all rt_plan rt_tree /\ (forall m, In m (p_manifests rt_plan) -> restorable_plan m) /\
  splits_into rt_source ex_opts rt_plan None [] rt_bags /\ Forall (storable IoText) (map fst rt_bags) /\
  plain_algos rt_env /\ NoDup (e_algos rt_env) /\ incl ex_algos (e_algos rt_env) /\ good_hash rt_env /\ plain_text (fun _ => U "1 kB") /\
  found rt_env ex_place rt_bags /\ safe_places rt_env ex_place rt_bags rt_tree /\ head_of IoText rt_bags rt_head /\
  map fst rt_bags = [U "src_1.mbag"; U "src_2.mbag"; U "src_3.mbag"] /\ map (fun bt => length (snd bt)) rt_bags = [9; 11; 10]%nat.
Proof.
  split. { apply restorableb_ok; try (vm_compute; reflexivity); [intros c _; exists true; reflexivity|].
    exists (fun _ => false), true. vm_compute. reflexivity. }
  split; [reflexivity|]. split. { split; [|constructor]. split; [right; apply trimmedb_ok; reflexivity|]. apply no_brk_b. reflexivity. }
  split; [vm_compute; discriminate|]. split; [apply plans_allb_ok; vm_compute; reflexivity|].
  split. { intros m I. assert (X : forallb (fun m => nodupb (m_contents m) && forallb (fun f => negb (special_pathb f)) (m_contents m)) (p_manifests rt_plan) = true) by (vm_compute; reflexivity).
    rewrite forallb_forall in X. apply X in I. apply andb_true_iff in I. destruct I as [I1 I2]. constructor; [apply nodupb_ok; exact I1|].
    intros f If Ow. rewrite forallb_forall in I2. apply I2 in If. apply negb_true_iff in If.
    rewrite (own_special f Ow) in If. discriminate. }
  split. { unfold rt_bags. destruct (apply_plan rt_source ex_opts rt_plan None []) as [a|e] eqn:E; [exists a; auto|vm_compute in E; discriminate]. }
  split. { apply Forall_forall. intros n I. apply storableb_ok. assert (X : forallb (storableb IoText) (map fst rt_bags) = true) by (vm_compute; reflexivity).
    rewrite forallb_forall in X. apply X. exact I. }
  split. { intros a I. cbn in I. destruct I as [<-|[<-|[]]]; intros X; cbn in X; intuition discriminate. }
  split; [apply nodupb_ok; reflexivity|]. split; [intros a I; exact I|]. split; [intros a c; apply h_dec_hash|].
  split. { intros t. split; [apply no_brk_b; reflexivity|right; apply trimmedb_ok; reflexivity]. }
  split. { intros n t I. assert (X : od_get n rt_bags = Some t) by (apply od_in_get; [apply nodupb_ok; vm_compute; reflexivity|exact I]).
    split; [cbn [e_find rt_env]; rewrite X; reflexivity|discriminate]. }
  split; [intros n f _ _; reflexivity|]. split.
  { exists (removelast rt_bags), (fst rt_last), (snd rt_last), (got [] (tags_of IoText (snd rt_last))).
    split; [vm_compute; reflexivity|]. split; [vm_compute; reflexivity|reflexivity]. }
  split; vm_compute; reflexivity.
Qed.

(** ** C32 is refuted for bags whose tag manifests are not for the same
    algorithms as their manifests *)

(** The same bag without its tag manifest for SHA-256. It can be split, and
    all its bags be opened. Restoring fails with a KeyError: the copied tag
    manifest lists paths that have no checksum for SHA-256 (restore.py
    238-241). *)
Definition kt_tree : tree := filter (fun pn => negb (streq (fst pn) (U "tagmanifest-sha256.txt"))) rt_tree.
Definition kt_source : source :=
  {| so_name := U "src"; so_tree := kt_tree; so_info := got [] (load_tags IoText ex_info_text);
     so_algos := ex_algos;
     so_entries := got [] (load_manifests (fun _ => false) true IoText (bag_manifests ex_algos true kt_tree));
     so_reader := IoText |}.
Definition kt_bags : dict tree :=
  match apply_plan kt_source ex_opts rt_plan None [] with Ok a => a_out a | Err _ => [] end.
Definition kt_env : env :=
  {| e_algos := ex_algos; e_version := fun _ => Ok (true, true); e_danger := fun _ _ => false;
     e_hash := fun a c => U "h" ++ dec (N.of_nat (length c)); e_dest := U "/out";
     e_find := fun n => match od_get n kt_bags with
                        | Some t => Some {| rb_loc := ex_place n; rb_tree := t |}
                        | None => None
                        end |}.
Definition kt_last : pystr * tree := last kt_bags ([], []).
Definition kt_head : hb :=
  open_hb (fst kt_last) (snd kt_last) (got [] (tags_of IoText (snd kt_last))) IoText.

Theorem C32_refuted : exists s o p bags v h place,
  opened s /\ checksums_loaded s /\ plain_opts IoText o /\ od_has (U "Multibag-Head-Version") (so_info s) = false /\ layout_ok s true /\
  is_dir (U "data") (so_tree s) = true /\ (forall q, multibag_path q -> od_get q (so_tree s) = None) /\ p_manifests p <> [] /\ plans_all p (so_tree s) /\
  good_mans v (e_dest v) (so_tree s) /\
  (forall a f c, In a (e_algos v) -> is_payload f = true -> read f (so_tree s) = Some c -> checksum (so_entries s) a f <> None) /\
  splits_into s o p None [] bags /\ Forall (storable IoText) (map fst bags) /\ plain_algos v /\ good_hash v /\
  found v place bags /\ head_of IoText bags h /\
  (forall n t, In (n, t) bags -> exists info es, open_bag v IoText (place n) t = Ok (info, es)) /\
  restore v true true (fun _ => U "1 kB") false h (place (hb_name h)) [] = Err EKey.
Proof.
  exists kt_source, ex_opts, rt_plan, kt_bags, kt_env, kt_head, ex_place.
  split; [vm_compute; reflexivity|]. split; [exists (fun _ => false), true; vm_compute; reflexivity|].
  split. { split; [|constructor]. split; [right; apply trimmedb_ok; reflexivity|]. apply no_brk_b. reflexivity. }
  split; [vm_compute; reflexivity|]. split; [apply layoutb_ok; vm_compute; reflexivity|]. split; [reflexivity|].
  split. { intros q M. destruct (od_get q (so_tree kt_source)) eqn:E; auto. exfalso. apply od_get_some_key in E. apply multibag_iff in M.
    assert (X : forallb (fun q => negb (in_multibag q)) (od_keys (so_tree kt_source)) = true) by (vm_compute; reflexivity).
    rewrite forallb_forall in X. apply X in E. rewrite M in E. discriminate. }
  split; [vm_compute; discriminate|]. split; [apply plans_allb_ok; vm_compute; reflexivity|].
  split; [apply good_mansb_ok; [intros l p; reflexivity|vm_compute; reflexivity]|].
  split. { intros a f c Ia Pf R. pose proof R as K. apply read_get, od_get_some_key in K.
    assert (X : forallb (fun f => negb (is_file f kt_tree) || negb (is_payload f) || forallb (fun a => match checksum (so_entries kt_source) a f with Some _ => true | None => false end) ex_algos) (od_keys kt_tree) = true) by (vm_compute; reflexivity).
    rewrite forallb_forall in X. apply X in K. assert (F : is_file f kt_tree = true) by (apply is_file_read; eauto).
    rewrite F, Pf in K. cbn [negb orb] in K. rewrite forallb_forall in K. apply K in Ia. intros E. rewrite E in Ia. discriminate. }
  split. { unfold kt_bags. destruct (apply_plan kt_source ex_opts rt_plan None []) as [a|e] eqn:E; [exists a; auto|vm_compute in E; discriminate]. }
  split. { apply Forall_forall. intros n I. apply storableb_ok. assert (X : forallb (storableb IoText) (map fst kt_bags) = true) by (vm_compute; reflexivity).
    rewrite forallb_forall in X. apply X. exact I. }
  split. { intros a I. cbn in I. destruct I as [<-|[<-|[]]]; intros X; cbn in X; intuition discriminate. }
  split; [intros a c; apply h_dec_hash|].
  split. { intros n t I. assert (X : od_get n kt_bags = Some t) by (apply od_in_get; [apply nodupb_ok; vm_compute; reflexivity|exact I]).
    split; [cbn [e_find kt_env]; rewrite X; reflexivity|discriminate]. }
  split. { exists (removelast kt_bags), (fst kt_last), (snd kt_last), (got [] (tags_of IoText (snd kt_last))).
    split; [vm_compute; reflexivity|]. split; [vm_compute; reflexivity|reflexivity]. }
  split; [|vm_compute; reflexivity]. intros n t I.
  assert (X : forallb (fun bt => match open_bag kt_env IoText (ex_place (fst bt)) (snd bt) with Ok _ => true | Err _ => false end) kt_bags = true) by (vm_compute; reflexivity).
  rewrite forallb_forall in X. apply X in I. cbn [fst snd] in I. destruct (open_bag kt_env IoText (ex_place n) t) as [[info es]|]; [eauto|discriminate].
Qed.
Print Assumptions C32_refuted.

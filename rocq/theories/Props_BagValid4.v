(** * Restored bags are valid (C95)

    Brings together the restoring of bags ([Restore.v]) and the validation of
    plain bags ([BagValid.v]). *)

Require Import String NArith ZArith PeanoNat Bool List Lia.
From Verif Require Import PyBase PyFacts Version Tsv TsvProofs Fs FsFacts HeadBag HeadBagProofs HeadBagProofs3 BagIt BagItProofs BagItProofs2 Split SplitApply SplitApplyProofs SplitApplyProofs2 SplitApplyProofs5 SplitApplyProofs6 SplitApplyProofs8 Props_SplitApply Restore RestoreProofs RestoreProofs2 RestoreProofs3 Props_Restore RestoreProofs4 RestoreProofs6 Props_Restore3 RestoreProofs7 RestoreProofs8 RestoreProofs9 RestoreProofs10 RestoreProofs11 Props_Restore2 Props_RoundTrip SplitRestoreProofs Props_RoundTrip2 Props_Restore4 Validate BagValid BagValidProofs Props_BagValid Props_BagValid2.
Import ListNotations.
Open Scope N_scope.

(** The validation of a bag at a place: which paths lead outside depends on
    it. *)
Definition at_place (v : env) (w : benv) (loc : pystr) : benv :=
  {| v_algos := v_algos w; v_danger := e_danger v loc; v_codec := v_codec w; v_url := v_url w; v_hash := v_hash w |}.

(** Restoring and validating know the same algorithms, compute the same
    checksums, and make the same of bagit.txt. *)
Record same_world (v : env) (w : benv) : Prop := {
  sw_algos : v_algos w = e_algos v;
  sw_hash : forall a c, lower (e_hash v a c) = v_hash w a c;
  sw_version : forall c vi f, read_version w c = Ok (vi, f) -> e_version v c = Ok (from_097 vi, from_1 vi)
}.

(** ** A valid bag *)

Record sound (v : env) (w : benv) (t : tree) : Prop := {
  so_sums : forall a p h, In a (e_algos v) -> entry_in IoText K_man t a p h -> exists c, read p t = Some c /\ lower h = v_hash w a c;
  so_listed : forall p, is_file p t = true -> is_payload p = true -> exists a h, In a (e_algos v) /\ entry_in IoText K_man t a p h;
  so_data : od_get DATA t = Some NDir;
  so_manifest : exists a, In a (e_algos v) /\ is_file (man_name K_man a) t = true;
  so_version : exists c vi f, read F_bagit t = Some c /\ read_version w c = Ok (vi, f) /\ hd 0 c <> 65279
}.

Lemma valid_sound v w loc loc' t : same_world v w -> wf_tree t -> good_mans v loc' t -> passes_plain (at_place v w loc) t -> sound v w t.
Proof.
  intros Sw W G (b & Op & Va). apply (C88_validates _ _ _ W Op) in Va. destruct Va as [Hd Hm Hb _ _ Hl Hs].
  destruct (open_plain_ok _ _ _ Op) as (c & f & Rc & Rv & _ & _ & _ & _ & Lm). cbn [at_place v_algos v_danger v_hash] in *.
  rewrite (sw_algos _ _ Sw) in *.
  pose proof (load_chars v loc' t _ IoText _ _ _ G Lm) as Ch. constructor.
  - intros a p h Ia E. apply (Hs a p h). apply Ch. auto.
  - intros p F P. destruct (Hl p) as (a & h & C); [split; [exact F|exact P]|]. apply Ch in C. destruct C as (Ia & [E|[_ E]]); [exists a, h; auto|].
    apply (entry_payload v loc' t false a p h G Ia) in E. congruence.
  - apply is_dir_get in Hd; [exact Hd|discriminate].
  - exact Hm.
  - exists c, (o_version b), f. split; [exact Rc|]. split; [exact Rv|]. apply Hb. exact Rc.
Qed.

(** ** Files that stay *)

Lemma write_manifests_keep q m : forall t t', foldM write_manifests m t = Ok t' -> is_file q t = true -> is_file q t' = true.
Proof.
  assert (K : forall k a d t t', write_manifest k a d t = Ok t' -> is_file q t = true -> is_file q t' = true).
  { intros k a d t t' H F. apply write_manifest_ok in H. subst t'. destruct d; [exact F|]. unfold is_file in *. rewrite od_get_set.
    destruct (streq q (man_name k a)); [reflexivity|exact F]. }
  induction m as [|[a d] m IH]; intros t t' H F; cbn [foldM] in H; [injection H as <-; exact F|].
  apply bind_ok in H. destruct H as (t1 & H1 & H). apply (IH t1 t' H). unfold write_manifests in H1. apply bind_ok in H1. destruct H1 as (t2 & H2 & H1).
  eapply K; [exact H1|]. eapply K; [exact H2|exact F].
Qed.

Lemma update_keeps v es us t t' q : update_manifests v es us t = Ok t' -> is_file q t = true -> is_file q t' = true.
Proof.
  unfold update_manifests. intros H. apply bind_ok in H. destruct H as ([i des] & _ & H). apply bind_ok in H. destruct H as (m & _ & H).
  eapply write_manifests_keep. exact H.
Qed.

Lemma from_keeps v skip b D D' q : ~ In [] skip -> wf_tree (rb_tree b) -> wf_tree D -> restore_from v false skip b D = Ok D' -> rb_loc b <> e_dest v ->
  is_file q D = true \/ (od_get q D = None /\ gone skip q = false /\ is_file q (rb_tree b) = true) -> is_file q D' = true.
Proof.
  intros N0 Wb Wd H L F. unfold restore_from in H. destruct (streq_reflect (rb_loc b) (e_dest v)) as [E|_]; [congruence|].
  apply bind_ok in H. destruct H as ([i es] & _ & H). apply bind_ok in H. destruct H as ([t u] & Hc & H).
  destruct (copy_nodes _ _ _ _ _ N0 Wb Wd Hc) as [_ Q].
  assert (Ft : is_file q t = true).
  { unfold is_file in *. rewrite Q. destruct F as [F|(G & Gg & F)].
    - destruct (od_get q D); [exact F|discriminate].
    - rewrite G, Gg. exact F. }
  destruct u; [injection H as <-; exact Ft|]. eapply update_keeps; eauto.
Qed.

Lemma members_keep v skip bs q : forall D D', ~ In [] skip -> Forall (fun b => wf_tree (rb_tree b) /\ rb_loc b <> e_dest v) bs -> sane v -> wf_tree D ->
  foldM (fun d b => restore_from v false skip b d) bs D = Ok D' -> is_file q D = true -> is_file q D' = true.
Proof.
  induction bs as [|b bs IH]; intros D D' N0 Fb S Wd H F; cbn [foldM] in H; [injection H as <-; exact F|].
  inversion Fb as [|? ? [Wb Lb] Fb']; subst. apply bind_ok in H. destruct H as (D1 & H1 & H).
  assert (W1 : wf_tree D1).
  { assert (X : foldM (fun d b => restore_from v false skip b d) [b] D = Ok D1) by (cbn [foldM]; rewrite H1; reflexivity).
    apply (restore_bags_nodes v skip [b] D D1 S N0); auto. }
  apply (IH D1 D' N0 Fb' S W1 H). exact (from_keeps v skip b D D1 q N0 Wb Wd H1 Lb (or_introl F)).
Qed.

(** The manifests of the head bag are there after restoring, and fetch.txt is
    not if no bag has one. *)
Lemma restored_tags v A us rt bsize ro h loc skip ms bs D : sane v -> ~ In [] skip ->
  head_lists ro h = Ok (skip, ms) -> Forall2 (fun n b => e_find v n = Some b) (others h ms) bs ->
  Forall (member_ok v A) (head_bag h loc :: bs) -> (forall q, touched v q -> gone skip q = false) ->
  restore v us rt bsize ro h loc [] = Ok D ->
  (forall a, In a (e_algos v) -> is_file (man_name K_man a) (hb_tree h) = true -> is_file (man_name K_man a) D = true) /\
  (Forall (fun b => read Restore.F_fetch (rb_tree b) = None) (head_bag h loc :: bs) -> read Restore.F_fetch D = None).
Proof.
  intros S N0 Hl F2 Fm Ng H. assert (W0 : wf_tree []) by (apply (do_wf v A); apply empty_ok).
  assert (Wb : Forall (fun b => wf_tree (rb_tree b) /\ rb_loc b <> e_dest v) (head_bag h loc :: bs)).
  { eapply Forall_impl; [|exact Fm]. intros b M. split; apply M. }
  assert (Wb1 : Forall (fun b => wf_tree (rb_tree b)) bs).
  { inversion Wb; subst. eapply Forall_impl; [|eassumption]. intros b M. apply M. }
  assert (Wh : wf_tree (hb_tree h)) by (inversion Fm as [|? ? Mh _]; exact (mo_wf _ _ _ Mh)).
  apply restore_parts in H. destruct H as (skip' & ms' & t & t1 & Hl' & Hg & Hf & Hn). rewrite Hl in Hl'. injection Hl' as <- <-.
  destruct (gather_nodes v ro h loc skip ms bs [] t S N0 Hl F2 Wh Wb1 W0 Hg) as [Wt Q].
  destruct (fetch_step_nodes _ _ _ _ Wt Hf) as [W1 Q1]. destruct (finish_nodes v us rt bsize t1 D S W1 Hn) as (_ & _ & Fn).
  assert (Nm : forall q, ~ In SLASH q -> q <> MULTIBAG -> rt && in_multibag q = false).
  { intros q Ns Nq. unfold in_multibag. apply streq_neq in Nq. rewrite Nq. cbn [orb]. destruct (below MULTIBAG q) eqn:B; [|apply andb_false_r].
    exfalso. apply Ns. apply below_iff in B; [|discriminate]. destruct B as [r ->]. apply in_or_app. right; left; auto. }
  split.
  - intros a Ia F. unfold is_file. rewrite Fn by (right; left; eauto). rewrite Nm; [|apply man_no_slash; [left; auto|apply S; exact Ia]|discriminate].
    rewrite Q1 by discriminate. change (is_file (man_name K_man a) t = true).
    unfold gather in Hg. rewrite Hl in Hg. cbn [bind] in Hg. apply bind_ok in Hg. destruct Hg as (t0 & H1 & Hg). apply bind_ok in Hg. destruct Hg as (t2 & H2 & Hg).
    rewrite (members_bags v skip _ _ _ F2) in Hg. destruct (start_info_nodes _ _ _ W0 H1) as [Wt0 Q0].
    inversion Wb as [|? ? [_ Lh] Fbs]; subst.
    assert (F0 : is_file (man_name K_man a) t2 = true).
    { apply (from_keeps v skip (head_bag h loc) t0 t2); auto. right. split; [rewrite Q0 by discriminate; reflexivity|].
      split; [apply Ng; left; exists K_man, a; split; [left; auto|auto]|exact F]. }
    assert (W2 : wf_tree t2).
    { apply (restore_bags_nodes v skip [head_bag h loc] t0 t2 S N0); auto. cbn [foldM]. unfold head_bag. rewrite H2. reflexivity. }
    exact (members_keep v skip bs _ t2 t N0 Fbs S W2 Hg F0).
  - intros Nf. assert (Nget : Forall (fun b => od_get Restore.F_fetch (rb_tree b) = None) (head_bag h loc :: bs)).
    { rewrite Forall_forall in *. intros b I. specialize (Nf b I). pose proof (mo_dirs _ _ _ (Fm b I) Restore.F_fetch (or_intror (or_intror eq_refl))) as Nd.
      unfold read in Nf. destruct (od_get Restore.F_fetch (rb_tree b)) as [[|]|]; congruence. }
    assert (Gt : od_get Restore.F_fetch t = None).
    { rewrite Q; [|intros (k & a & [<-|[<-|[]]] & _ & E); discriminate|discriminate]. cbn [od_get]. destruct (gone skip Restore.F_fetch); [reflexivity|].
      rewrite (map_contrib v A) by exact Fm. destruct (first_of (map rb_tree (head_bag h loc :: bs)) Restore.F_fetch) as [n|] eqn:E; [|reflexivity]. exfalso.
      apply first_of_in in E. destruct E as (x & I & E). apply in_map_iff in I. destruct I as (b & <- & I). rewrite Forall_forall in Nget. rewrite (Nget b I) in E. discriminate. }
    assert (Ht : t1 = t).
    { destruct (others h ms) as [|n ns] eqn:O; [injection Hf as <-; reflexivity|]. unfold restore_fetch in Hf.
      assert (K : forall l bl, Forall2 (fun n b => e_find v n = Some b) l bl -> Forall (member_ok v A) bl -> Forall (fun b => read Restore.F_fetch (rb_tree b) = None) bl ->
                forall d, foldM (fetch_of v t) l [] = Ok d -> d = []).
      { induction l as [|x l IH]; intros bl X2 Xm Xf d Hd; cbn [foldM] in Hd; [congruence|]. inversion X2 as [|? b ? bl' Eb X2']; subst.
        inversion Xm as [|? ? Mb Xm']; subst. inversion Xf as [|? ? Nb Xf']; subst. apply bind_ok in Hd. destruct Hd as (d1 & H1 & Hd).
        unfold fetch_of in H1. rewrite Eb in H1. destruct (streq_reflect (rb_loc b) (e_dest v)) as [E|_]; [destruct (mo_loc _ _ _ Mb E)|].
        cbv zeta in H1. apply bind_ok in H1. destruct H1 as (oo & _ & H1). rewrite Nb in H1. injection H1 as <-. apply (IH bl'); auto. }
      apply bind_ok in Hf. destruct Hf as (d & Hd & Hf). inversion Fm as [|? ? _ Fm']; subst. inversion Nf as [|? ? _ Nf']; subst. pose proof (K (n :: ns) bs F2 Fm' Nf' d Hd) as ->. injection Hf as <-. reflexivity. }
    subst t1. unfold read. rewrite Fn by (right; right; auto). rewrite Nm; [|intros I; cbn in I; intuition discriminate|discriminate]. rewrite Gt. reflexivity.
Qed.

(** ** C95 *)

Lemma latest_split bags p n : latest (map rb_tree bags) p = Some n ->
  exists before b after, bags = before ++ b :: after /\ od_get p (rb_tree b) = Some n /\ Forall (fun b => od_get p (rb_tree b) = None) after.
Proof.
  rewrite latest_first, <- map_rev. assert (K : forall l, first_of (map rb_tree l) p = Some n ->
    exists x b y, l = x ++ b :: y /\ od_get p (rb_tree b) = Some n /\ Forall (fun b => od_get p (rb_tree b) = None) x).
  { induction l as [|b l IH]; cbn [map first_of fold_right]; [discriminate|]. destruct (od_get p (rb_tree b)) eqn:E.
    - intros H. injection H as ->. exists [], b, l. split; [reflexivity|]. split; [exact E|constructor].
    - intros H. destruct (IH H) as (x & c & y & -> & Ec & F). exists (b :: x), c, y. split; [reflexivity|]. split; [exact Ec|constructor; auto]. }
  intros H. destruct (K _ H) as (x & b & y & E & G & F). exists (rev y), b, (rev x). split; [|split; [exact G|apply Forall_rev; exact F]].
  rewrite <- (rev_involutive bags), E, rev_app_distr. cbn [rev]. rewrite <- app_assoc. reflexivity.
Qed.

Lemma oxum_right t sn : NoDup (od_keys t) -> calc_oxum t = Ok sn -> right_oxum t (oxum_value sn).
Proof.
  intros Nd C. unfold calc_oxum in C. destruct (is_dir DATA t); [|discriminate]. injection C as <-. unfold oxum_value. cbn [fst snd].
  eexists _, _, (on_disk t). split; [reflexivity|]. split; [apply on_disk_list; exact Nd|]. split; apply decimal_dec.
Qed.

Lemma tag_line_reads v a t text p h : good_hash v -> lists_tag_files (e_hash v a) t text ->
  (forall p, tag_file t p -> manifest_path IoText p) -> In (h, p) (manifest_lines IoText (skip_bom text)) ->
  exists c, read p t = Some c /\ h = e_hash v a c.
Proof.
  intros Gh (paths & _ & Hp & Et) Mp I.
  set (l := map (fun p => (e_hash v a (match read p t with Some c => c | None => [] end), p)) paths).
  assert (E : text = flat_map (fun hp => hash_line (fst hp) (snd hp)) l).
  { rewrite Et. unfold l. clear. induction paths as [|q paths IH]; [reflexivity|]. cbn [flat_map map fst snd]. rewrite IH. reflexivity. }
  rewrite E, hash_text_lines in I.
  - unfold l in I. apply in_map_iff in I. destruct I as (q & Eq & I). injection Eq as <- <-. apply Hp in I. destruct I as (F & _).
    apply is_file_read in F. destruct F as [c F]. rewrite F. eauto.
  - apply Forall_forall. intros x Ix. unfold l in Ix. apply in_map_iff in Ix. destruct Ix as (q & <- & Iq). cbn [fst snd]. apply Hp in Iq.
    destruct (Gh a (match read q t with Some c => c | None => [] end)). auto.
Qed.

(** Restoring a consistent aggregation of valid bags gives a valid bag. *)
Theorem C95_restored_valid : forall v w A bsize ro h loc skip ms bags,
  plain_algos v -> NoDup (e_algos v) -> incl A (e_algos v) -> good_hash v -> plain_text bsize -> same_world v w ->
  hb_del h = None -> head_lists ro h = Ok (skip, ms) -> aggregation v h loc ms bags ->
  agg_ok v A skip true true h (rev bags) ->
  Forall (fun b => passes_plain (at_place v w (rb_loc b)) (rb_tree b)) bags ->
  Forall (fun b => is_file (U "fetch.txt") (rb_tree b) = false) bags ->
  (forall p, startswith p (U "data/") = true -> is_file p (hb_tree h) = true -> ~ deleted skip p) ->
  exists dest', restore v true true bsize ro h loc [] = Ok dest' /\ passes_plain (at_place v w (e_dest v)) dest'.
Proof.
  intros v w A bsize ro h loc skip ms bags Sv Na Inc Gh Pt Sw Hd Hl Ha Ag Vb Nf Nd.
  destruct (aggregation_others _ _ _ _ _ Ha) as (bs & F2 & Eb).
  assert (N0 : ~ In [] skip) by (apply head_lists_ok in Hl; eapply skip_nonempty; [exact Hd|apply Hl]).
  assert (Ag' : agg_ok v A skip true true h (head_bag h loc :: bs)) by (rewrite Eb, rev_involutive in Ag; exact Ag).
  destruct (restore_succeeds v A true true bsize ro h loc skip ms bs Sv Na Inc N0 Gh Pt Hl F2 Ag') as (D & Hr & Dk & Nm).
  exists D. split; [exact Hr|].
  pose proof (ao_members _ _ _ _ _ _ _ Ag') as Fm.
  assert (Ib : forall b, In b bags <-> In b (head_bag h loc :: bs)) by (intros b; rewrite Eb; symmetry; apply in_rev).
  assert (Ih : In (head_bag h loc) bags) by (apply Ib; left; auto).
  assert (Mo : forall b, In b bags -> member_ok v A b) by (intros b I; apply Ib in I; rewrite Forall_forall in Fm; auto).
  assert (So : forall b, In b bags -> sound v w (rb_tree b)).
  { intros b I. pose proof (Mo b I) as M. rewrite Forall_forall in Vb. apply (valid_sound v w (rb_loc b) (e_dest v)); auto; [apply M|apply M]. }
  destruct (restored_tags v A true true bsize ro h loc skip ms bs D Sv N0 Hl F2 Fm) as [Hman Hfetch]; [|exact Hr|].
  { intros q T. apply (ao_skip _ _ _ _ _ _ _ Ag'). left; exact T. }
  assert (Wb : Forall (fun b => wf_tree (rb_tree b)) bags) by (apply Forall_forall; intros b I; apply (Mo b I)).
  assert (W0 : wf_tree []) by (apply (do_wf v A); apply empty_ok).
  assert (Wl : Forall (fun b => wf_tree (rb_tree b) /\ rb_loc b <> e_dest v) bags) by (apply Forall_forall; intros b I; split; apply (Mo b I)).
  pose proof (C33_combination v true true bsize ro h loc skip ms bags D Sv Hd Hl Ha Wl Hr) as C33.
  assert (Lh : forall q n, od_get q (hb_tree h) = Some n -> latest (map rb_tree bags) q = Some n).
  { intros q n G. rewrite latest_first, <- map_rev, Eb, rev_involutive. cbn [map first_of fold_right head_bag rb_tree]. rewrite G. reflexivity. }
  assert (Keep : forall q n, In q [F_bagit; DATA] -> od_get q (hb_tree h) = Some n -> od_get q D = Some n).
  { intros q n Iq G. destruct (C33 q) as [_ X].
    - rewrite bag_file_iff. intros [(k & a & Ik & _ & E)|[E|E]]; destruct Iq as [<-|[<-|[]]]; try discriminate; destruct Ik as [<-|[<-|[]]]; discriminate.
    - intros _. rewrite multibag_iff. destruct Iq as [<-|[<-|[]]]; discriminate.
    - rewrite X; [apply Lh; exact G|]. rewrite deleted_iff. rewrite (ao_skip _ _ _ _ _ _ _ Ag'); [discriminate|].
      right. destruct Iq as [<-|[<-|[]]]; [left|right; left]; reflexivity. }
  destruct (So _ Ih) as [Hs1 Hs2 Hs3 Hs4 (c & vi & f & Rc & Rv & Bm)]. cbn [head_bag rb_tree] in *.
  assert (Rb : read F_bagit D = Some c). { apply read_get. apply Keep; [left; auto|]. apply read_get. exact Rc. }
  assert (V97 : from_097 vi = true).
  { destruct (ao_version _ _ _ _ _ _ _ Ag') as (c' & v1 & Rc' & Ev). rewrite Rc in Rc'. injection Rc' as <-. rewrite (sw_version _ _ Sw _ _ _ Rv) in Ev. congruence. }
  assert (Ef : f = F_baginfo).
  { clear - Rv V97. unfold read_version in Rv. apply bind_ok in Rv. destruct Rv as (kvs & _ & Rv). cbv zeta in Rv.
    destruct (od_get T_BagItVersion _) as [[vs|]|]; try discriminate; destruct (od_get T_Encoding _) as [enc|]; try discriminate.
    destruct (parse_version vs) as [vi'|]; [|discriminate]. destruct (tag_file_name vi') as [f'|] eqn:Tf; [|discriminate].
    destruct enc as [e|]; [|discriminate]. destruct (v_codec w e); [|discriminate]. injection Rv as E1 E2. subst vi' f'. eapply version_097_file; eassumption. }
  subst f.
  destruct (restored_end _ _ _ _ _ _ _ _ _ _ _ _ Sv Hd Hl Ha Wb W0 Hr) as (t & Wt & Hn & _).
  destruct (finish_tags v bsize t D Pt Hn) as (info & es0 & sn & t' & text & _ & Ox & Ri & Lt). destruct (Lt IoText) as (d & Ld & Od & _).
  destruct (load_good v (e_dest v) D IoText true (from_1 vi) Na (do_mans _ _ _ Dk)) as (es & Le & Ch & _).
  assert (Op : open_plain (at_place v w (e_dest v)) D = Ok {| o_tree := D; o_version := vi; o_info := d; o_entries := es |}).
  { unfold open_plain. rewrite Rb. change (read_version (at_place v w (e_dest v)) c) with (read_version w c). rewrite Rv. cbn [bind].
    assert (X : exists_ F_baginfo D = true) by (unfold exists_; assert (Fi : is_file F_baginfo D = true) by (apply is_file_read; eauto); rewrite Fi; reflexivity).
    rewrite X, Ri, Ld. cbn [bind at_place v_algos v_danger]. rewrite (sw_algos _ _ Sw), V97, Le. reflexivity. }
  eexists. split; [exact Op|]. pose proof (wf_nodup _ (do_wf _ _ _ Dk)) as ND. apply (validates_iff _ _ _ ND Op). cbn [o_info o_entries].
  assert (Pm : Forall (fun b => wf_tree (rb_tree b) /\ rb_loc b <> e_dest v /\ plain_manifests v (rb_tree b)) bags).
  { apply Forall_forall. intros b I. pose proof (Mo b I) as M. split; [apply M|]. split; [apply M|].
    pose proof (good_plain _ _ _ (mo_mans _ _ _ M)) as G. intros a p h0 Ia. rewrite records_iff, tag_records_iff, payload_iff. split; intros E.
    - destruct (G true a p h0 Ia E) as (X1 & X2 & X3 & X4). split; [split; auto|exact X4].
    - destruct (G false a p h0 Ia E) as (X1 & X2 & X3 & X4). split; [split; auto|congruence]. }
  assert (Ngm : forall a, In a (e_algos v) -> ~ deleted skip (U "manifest-" ++ a ++ U ".txt")).
  { intros a Ia. rewrite deleted_iff. change (U "manifest-" ++ a ++ U ".txt") with (man_name K_man a).
    rewrite (ao_skip _ _ _ _ _ _ _ Ag'); [discriminate|]. left; left. exists K_man, a. split; [left; auto|auto]. }
  assert (Cov : forall b a, In b bags -> In a (e_algos v) -> is_file (U "manifest-" ++ a ++ U ".txt") (rb_tree b) = true ->
            is_file (U "manifest-" ++ a ++ U ".txt") (hb_tree h) = true).
  { intros b a I Ia F. destruct (us_all _ _ _ (mo_uses _ _ _ (Mo b I)) true a Ia F) as [IA _].
    destruct Hs4 as (a0 & Ia0 & F0). destruct (us_all _ _ _ (mo_uses _ _ _ (Mo _ Ih)) true a0 Ia0 F0) as [_ X]. apply (X a IA). }
  pose proof (C37_checksums_partial v true true bsize ro h loc skip ms bags D Sv Hd Hl Ha Pm Ngm Cov Hr) as C37.
  (* the node of a payload file *)
  assert (Nbf : forall p, is_payload p = true -> ~ bag_file v p /\ (true = true -> ~ multibag_path p)).
  { intros p P. unfold is_payload in P. apply startswith_iff in P. destruct P as [r ->]. split.
    - rewrite bag_file_iff. intros [(k & a & [<-|[<-|[]]] & _ & E)|[E|E]]; discriminate.
    - intros _. rewrite multibag_iff. discriminate. }
  assert (Last : forall p before b after, is_payload p = true -> bags = before ++ b :: after -> is_file p (rb_tree b) = true ->
            Forall (fun b => od_get p (rb_tree b) = None) after -> ~ deleted skip p ->
            forall a h0, In a (e_algos v) -> (records D a p h0 <-> records (rb_tree b) a p h0)).
  { intros p before b after P Es Fb Fa Ng a h0 Ia. destruct (C37 a p Ia (proj2 (payload_iff p) P)) as [C1 _].
    apply (C1 before b after Es Fb Fa Ng). 
    destruct (exists_last (l := b :: after) ltac:(discriminate)) as (l' & z & El).
    assert (Ez : z = head_bag h loc).
    { rewrite Eb in Es. cbn [rev] in Es. rewrite El, app_assoc in Es. apply app_inj_tail in Es. symmetry. apply Es. }
    destruct (entry_dec K_man (rb_tree b) a p) as [X|[c0 X]]; [right|left; exists c0; apply records_iff; exact X].
    intros c0 Y. apply records_iff in Y. destruct (Hs1 a p c0 Ia Y) as (cc & Rcc & _).
    destruct after as [|y after].
    - destruct l' as [|? [|? ?]]; cbn [app] in El; try discriminate. injection El as ->. rewrite Ez in X. apply (X c0). exact Y.
    - assert (Iz : In z (y :: after)).
      { destruct l' as [|x l']; cbn [app] in El; [discriminate|]. injection El as _ El. rewrite El. apply in_app_iff. right; left; auto. }
      rewrite Forall_forall in Fa. apply Fa in Iz. rewrite Ez in Iz. cbn [head_bag rb_tree] in Iz. apply read_get in Rcc. congruence. }
  constructor.
  - apply is_dir_get; [discriminate|]. change (U "data") with DATA. apply Keep; [right; left; auto|exact Hs3].
  - destruct Hs4 as (a & Ia & Fa). exists a. cbn [at_place v_algos]. rewrite (sw_algos _ _ Sw). split; [exact Ia|]. exact (Hman a Ia Fa).
  - intros c' Rc'. change (U "bagit.txt") with F_bagit in Rc'. rewrite Rb in Rc'. injection Rc' as <-. exact Bm.
  - intros c' line Rf. exfalso. change (U "fetch.txt") with Restore.F_fetch in Rf. rewrite Hfetch in Rf; [discriminate|].
    apply Forall_forall. intros b I. apply Ib in I. rewrite Forall_forall in Nf. apply Nf in I. change (U "fetch.txt") with Restore.F_fetch in I.
    unfold is_file in I. unfold read. destruct (od_get Restore.F_fetch (rb_tree b)) as [[|]|]; congruence.
  - intros s l Ts. change (U "Payload-Oxum") with T_OXUM in Ts. rewrite Od in Ts. injection Ts as <- _. apply oxum_right; auto.
  - intros p [Fp P]. destruct (Nbf p P) as [B1 B2]. destruct (C33 p B1 B2) as [X1 X2].
    assert (Ng : ~ deleted skip p). { intros Dl. unfold is_file in Fp. rewrite (X1 Dl) in Fp. discriminate. }
    specialize (X2 Ng). destruct (od_get p D) as [n|] eqn:G; [|unfold is_file in Fp; rewrite G in Fp; discriminate]. symmetry in X2.
    apply latest_split in X2. destruct X2 as (before & b & after & Es & Gb & Fa).
    assert (Fb : is_file p (rb_tree b) = true) by (unfold is_file in *; rewrite G in Fp; rewrite Gb; exact Fp).
    assert (I : In b bags) by (rewrite Es; apply in_app_iff; right; left; auto).
    destruct (so_listed _ _ _ (So b I) p Fb P) as (a & h0 & Ia & E). exists a, h0. apply Ch. split; [exact Ia|]. left. apply records_iff.
    apply (Last p before b after P Es Fb Fa Ng a h0 Ia). apply records_iff. exact E.
  - intros a p h0 C. apply Ch in C. destruct C as (Ia & [E|[_ E]]); cbn [at_place v_hash].
    + pose proof (entry_payload v (e_dest v) D true a p h0 (do_mans _ _ _ Dk) Ia E) as P. destruct (Nbf p P) as [B1 B2]. destruct (C33 p B1 B2) as [_ X2].
      destruct (C37 a p Ia (proj2 (payload_iff p) P)) as [_ C2]. apply records_iff in E.
      assert (Hh : deleted skip p \/ Forall (fun b => is_file p (rb_tree b) = false) bags -> False).
      { intros Z. apply (C2 Z) in E. apply records_iff in E. destruct (Hs1 a p h0 Ia E) as (cc & Rcc & _).
        assert (Fh : is_file p (hb_tree h) = true) by (apply is_file_read; eauto).
        destruct Z as [Z|Z]; [apply (Nd p); auto|]. rewrite Forall_forall in Z. apply Z in Ih. cbn [head_bag rb_tree] in Ih. congruence. }
      assert (Ng : ~ deleted skip p) by (intros Z; apply Hh; left; exact Z).
      destruct (latest (map rb_tree bags) p) as [n|] eqn:La.
      * pose proof La as La'. apply latest_split in La'. destruct La' as (before & b & after & Es & Gb & Fa).
        assert (I : In b bags) by (rewrite Es; apply in_app_iff; right; left; auto).
        destruct (is_file p (rb_tree b)) eqn:Fb.
        -- apply (Last p before b after P Es Fb Fa Ng a h0 Ia) in E. apply records_iff in E.
           destruct (so_sums _ _ _ (So b I) a p h0 Ia E) as (cc & Rcc & Ec). exists cc. split; [|exact Ec].
           apply read_get. rewrite (X2 Ng). apply read_get in Rcc. congruence.
        -- exfalso. apply Hh. right. apply Forall_forall. intros b' I'. apply Ib in I, I'.
           assert (Gd : od_get p (rb_tree b) = Some NDir) by (unfold is_file in Fb; rewrite Gb in Fb |- *; destruct n; [reflexivity|discriminate]).
           apply (ao_clash _ _ _ _ _ _ _ Ag' b b' p I I' Gd). rewrite deleted_iff in Ng. destruct (gone skip p); [congruence|reflexivity].
      * exfalso. apply Hh. right. apply Forall_forall. intros b I. destruct (is_file p (rb_tree b)) eqn:Fb; [|reflexivity]. exfalso.
        assert (Z : exists n, latest (map rb_tree bags) p = Some n).
        { apply latest_some. exists (rb_tree b). split; [apply in_map; exact I|]. unfold is_file in Fb. destruct (od_get p (rb_tree b)); [eauto|discriminate]. }
        destruct Z as [n Z]. congruence.
    + destruct E as (tx & Rt & I).
      destruct (C76_tag_manifests v true true bsize ro h loc skip ms bags [] D a Sv Hd Hl Ha Wb W0 (or_introl eq_refl) Hr Ia) as (tx' & Rt' & Lst).
      { right. split; [apply is_file_read; exists tx; exact Rt|]. exists c, (from_1 vi). split; [exact Rb|]. rewrite <- V97. apply (sw_version _ _ Sw _ _ _ Rv). }
      change (U "tagmanifest-" ++ a ++ U ".txt") with (man_name K_tag a) in Rt'. rewrite Rt in Rt'. injection Rt' as <-.
      destruct (tag_line_reads v a D tx p h0 Gh Lst) as (cc & Rcc & ->); [|exact I|].
      * intros q (Fq & T1 & T2 & T3). apply (Nm q Fq); [|exact T3]. rewrite top_data. intros [Z|Z]; congruence.
      * exists cc. split; [exact Rcc|]. apply (sw_hash _ _ Sw).
Qed.
Print Assumptions C95_restored_valid.

(** ** The bags of a split *)

(** A valid bag is valid at another place, if its manifests list no path that
    leads outside there. *)
Lemma move_valid v w loc loc' t : NoDup (e_algos v) -> same_world v w -> wf_tree t -> good_mans v loc' t -> is_file (U "fetch.txt") t = false ->
  passes_plain (at_place v w loc) t -> passes_plain (at_place v w loc') t.
Proof.
  intros Na Sw W G Nf (b & Op & Va). apply (C88_validates _ _ _ W Op) in Va. destruct Va as [Hd Hm Hb _ Ho Hl Hs].
  destruct (open_plain_ok _ _ _ Op) as (c & f & Rc & Rv & Et & _ & _ & Li & Lm). cbn [at_place v_algos v_danger v_hash] in *.
  rewrite (sw_algos _ _ Sw) in *. pose proof (load_chars v loc' t _ IoText _ _ _ G Lm) as Ch.
  destruct (load_good v loc' t IoText (from_097 (o_version b)) (from_1 (o_version b)) Na G) as (es & Le & Ch' & _).
  assert (Eq : forall a p h, checksum es a p = Some h <-> checksum (o_entries b) a p = Some h) by (intros a p h; rewrite Ch, Ch'; reflexivity).
  assert (Op' : open_plain (at_place v w loc') t = Ok {| o_tree := t; o_version := o_version b; o_info := o_info b; o_entries := es |}).
  { unfold open_plain. rewrite Rc. change (read_version (at_place v w loc') c) with (read_version (at_place v w loc) c). rewrite Rv. cbn [bind].
    assert (X : (if exists_ f t then match read f t with Some c => load_tags IoText c | None => Err EOS end else Ok []) = Ok (o_info b)).
    { destruct (exists_ f t); [|rewrite Li; reflexivity]. destruct Li as (ci & -> & Ld). exact Ld. }
    rewrite X. cbn [bind at_place v_algos v_danger]. rewrite (sw_algos _ _ Sw), Le. reflexivity. }
  eexists. split; [exact Op'|]. apply (C88_validates _ _ _ W Op'). cbn [o_info o_entries]. constructor; cbn [at_place v_algos v_danger v_hash]; auto.
  - rewrite (sw_algos _ _ Sw). exact Hm.
  - intros x line R. exfalso. apply read_get in R. unfold is_file in Nf. rewrite R in Nf. discriminate.
  - intros p P. destruct (Hl p P) as (a & h & C). exists a, h. apply Eq. exact C.
  - intros a p h C. apply (Hs a p h). apply Eq. exact C.
Qed.

(** Splitting a valid bag and restoring it from the bags gives a valid bag. *)
Theorem C95_split_restores_valid : forall s o p it out bags v w A bsize ro h place src b,
  restorable v A s -> is_dir (U "data") (so_tree s) = true ->
  plain_opts IoText o -> p_manifests p <> [] -> plans_all p (so_tree s) ->
  splits_into s o p it out bags -> Forall (storable IoText) (map fst bags) ->
  plain_algos v -> NoDup (e_algos v) -> incl A (e_algos v) -> good_hash v -> plain_text bsize ->
  found v place bags -> safe_places v place bags (so_tree s) -> head_of IoText bags h ->
  same_world v w -> valid_source (at_place v w src) s b -> plain_plan (at_place v w src) s p ->
  (forall a c x, In x (v_hash w a c) -> x < 128) ->
  exists dest', restore v true true bsize ro h (place (hb_name h)) [] = Ok dest' /\
    passes_plain (at_place v w (e_dest v)) dest' /\
    forall q, ~ special_path q -> od_get q dest' = od_get q (so_tree s).
Proof.
  intros s o p it out bags v w A bsize ro h place src b RS Dd Hp Np Pa Sp St Sv Na Inc Gh Pt Fo Sf Hd Sw VS PP H128.
  assert (RP : forall m, In m (p_manifests p) -> restorable_plan m).
  { intros m I. constructor; [apply (proj1 (Forall_forall _ _) (pp_once _ _ _ PP) m I)|]. intros f If. apply (pp_own _ _ _ PP m f I If). }
  destruct (C32_split_restores s o p it out bags v A true bsize ro h place RS Dd Hp Np Pa RP Sp St Sv Na Inc Gh Pt Fo Sf Hd) as (D & Hr & Eq).
  exists D. split; [exact Hr|]. split; [|exact Eq].
  destruct (split_agg_ok s o p it out bags v A true true ro h place Na Inc RS RP Hp Np Sp St Fo Hd Sf) as (members & bs & Hl & F2 & Ag).
  pose proof (rs_reader _ _ _ RS) as Er.
  destruct (split_aggregation s o p it out bags v ro h place) as (othr & head & t & tags & members' & Eb & Tg & Eh & Hl' & Ha & Fw);
    try rewrite Er; auto; try apply RS. rewrite Er in Eh.
  assert (Em : members' = members) by congruence. subst members'.
  assert (En : hb_name h = head) by (rewrite Eh; reflexivity). rewrite En in *.
  assert (Fn : Forall (fun n => no_brk IoText n) (map fst bags)) by (eapply Forall_impl; [|exact St]; intros n (_ & N1 & _); exact N1).
  assert (Na' : NoDup (v_algos (at_place v w src))) by (cbn [at_place v_algos]; rewrite (sw_algos _ _ Sw); exact Na).
  pose proof (C90_split_valid_partial _ _ _ _ _ _ _ _ VS Na' H128 Hp PP Sp Fn) as C90.
  assert (Nf : forall bt, In bt bags -> is_file (U "fetch.txt") (snd bt) = false).
  { intros bt I. destruct (forall2_at _ _ _ _ Fw I) as ([m hh] & Im & _ & X). cbn [fst snd] in *. apply in_manifests in Im.
    destruct (is_file (U "fetch.txt") (snd bt)) eqn:F; [|reflexivity]. exfalso. apply is_file_read in F. destruct F as [x F].
    destruct (ec_only _ _ _ _ X _ _ F) as [Ow|[If _]]; [inversion Ow|]. apply (pp_fetch _ _ _ PP m Im If). }
  destruct (aggregation_others _ _ _ _ _ Ha) as (bs' & F2' & Ebs).
  assert (E2 : bs' = bs).
  { clear - F2 F2'. revert bs bs' F2 F2'. generalize (others h members). induction l as [|n l IH]; intros bs bs' F2 F2'; inversion F2; inversion F2'; subst; auto.
    f_equal; [congruence|]. apply IH; auto. }
  subst bs'.
  destruct (C95_restored_valid v w A bsize ro h (place head) [] members (map (placed place) bags) Sv Na Inc Gh Pt Sw) as (D' & Hr' & Va); auto.
  - rewrite Eh. reflexivity.
  - rewrite Ebs, rev_involutive. exact Ag.
  - apply Forall_forall. intros rb I. apply in_map_iff in I. destruct I as ([n tt] & <- & I). unfold placed. cbn [fst snd rb_loc rb_tree].
    destruct (forall2_at _ _ _ _ Fw I) as ([m hh] & Im & Wt & X). cbn [fst snd] in *. apply in_manifests in Im.
    pose proof Sp as M. apply made_split in M. destruct M as (ms0 & lu0 & ms' & lu' & _ & M & _). apply made_each in M.
    apply (move_valid v w src (place n)); auto.
    + destruct (forall2_at _ _ _ _ M I) as ([m1 h1] & Im1 & ms1 & lu1 & O1). cbn [fst snd] in *. apply in_manifests in Im1.
      apply (bag_good_mans v A s o n m1 h1 ms1 lu1 tt Na RS (RP m1 Im1) O1). intros f If _.
      apply filter_In in If. destruct If as [_ If]. apply Sf; [apply in_map_iff; exists (n, tt); auto|exact If].
    + apply (Nf (n, tt) I).
    + rewrite Forall_forall in C90. apply (C90 (n, tt) I).
  - apply Forall_forall. intros rb I. apply in_map_iff in I. destruct I as (bt & <- & I). apply (Nf bt I).
  - intros q _ _ De. unfold deleted in De. destruct De as (d & Id & _). destruct Id.
  - assert (D' = D) by congruence. subst D'. exact Va.
Qed.
Print Assumptions C95_split_restores_valid.

(** A valid bag with two payload files, split in three and restored. *)
Definition va_bagit : pystr := ln "BagIt-Version: 1.0" ++ ln "Tag-File-Character-Encoding: UTF-8".
Definition va_info : pystr :=
  ln "Internal-Sender-Identifier: src" ++ ln "Contact-Name: A" ++ ln "Contact-Name: B" ++ ln "Payload-Oxum: 7.2".
Definition va_tree : tree :=
  [(U "bagit.txt", NFile va_bagit);
   (U "bag-info.txt", NFile va_info);
   (U "manifest-md5.txt", NFile (ln "h4  data/a" ++ ln "h3  data/d/b"));
   (U "manifest-sha256.txt", NFile (ln "h4  data/a" ++ ln "H3  data/d/b"));
   (U "tagmanifest-md5.txt", NFile (ln "h1  meta/m" ++ ln "h2  about.txt" ++ ln "h82  bag-info.txt"));
   (U "tagmanifest-sha256.txt", NFile (ln "h1  meta/m" ++ ln "h2  about.txt" ++ ln "h82  bag-info.txt"));
   (U "data", NDir); (U "data/a", NFile (U "abcd")); (U "data/d", NDir); (U "data/d/b", NFile (U "xyz"));
   (U "data/e", NDir); (U "about.txt", NFile (U "??")); (U "meta", NDir); (U "meta/m", NFile (U "M"))].
Definition va_world : benv :=
  {| v_algos := ex_algos; v_danger := fun _ => false; v_codec := fun e => streq e (U "UTF-8");
     v_url := fun u => Ok ([], []); v_hash := fun a c => U "h" ++ dec (N.of_nat (length c)) |}.
Definition va_open : obag :=
  match open_plain va_world va_tree with
  | Ok b => b
  | Err _ => {| o_tree := []; o_version := []; o_info := []; o_entries := [] |}
  end.
Definition va_source : source :=
  {| so_name := U "src"; so_tree := va_tree; so_info := o_info va_open; so_algos := ex_algos;
     so_entries := o_entries va_open; so_reader := IoText |}.
Definition va_plan : plan :=
  snd (splitter_plan WellPacked (fst (new_splitter 5 None None)) (U "src")
         {| Split.b_name := U "src"; Split.b_tree := va_tree; b_dirsize := fun _ => 0 |}).
Definition va_bags : dict tree :=
  match apply_plan va_source ex_opts va_plan None [] with Ok a => a_out a | Err _ => [] end.
Definition va_env : env :=
  {| e_algos := ex_algos;
     e_version := fun c => match read_version va_world c with Ok (vi, _) => Ok (from_097 vi, from_1 vi) | Err e => Err e end;
     e_danger := fun _ _ => false; e_hash := fun a c => U "h" ++ dec (N.of_nat (length c)); e_dest := U "/out";
     e_find := fun n => match od_get n va_bags with
                        | Some t => Some {| rb_loc := ex_place n; rb_tree := t |}
                        | None => None
                        end |}.
Definition va_last : pystr * tree := last va_bags ([], []).
Definition va_head : hb := open_hb (fst va_last) (snd va_last) (got [] (tags_of IoText (snd va_last))) IoText.

Lemma h_dec_lower n : lower (U "h" ++ dec n) = U "h" ++ dec n.
Proof.
  unfold lower. rewrite map_app. f_equal. pose proof (dec_digits n) as D. induction D as [|c l D _ IH]; [reflexivity|].
  cbn [map]. rewrite IH. f_equal. unfold is_digit in D. apply andb_true_iff in D. destruct D as [_ D]. apply N.leb_le in D.
  destruct (N.leb_spec 65 c); [lia|reflexivity].
Qed.

Example C95_case :
  restorable va_env ex_algos va_source /\ is_dir (U "data") va_tree = true /\ plain_opts IoText ex_opts /\ p_manifests va_plan <> [] /\
  plans_all va_plan va_tree /\ splits_into va_source ex_opts va_plan None [] va_bags /\ Forall (storable IoText) (map fst va_bags) /\
  plain_algos va_env /\ NoDup (e_algos va_env) /\ incl ex_algos (e_algos va_env) /\ good_hash va_env /\ plain_text (fun _ => U "1 kB") /\
  found va_env ex_place va_bags /\ safe_places va_env ex_place va_bags va_tree /\ head_of IoText va_bags va_head /\
  same_world va_env va_world /\ valid_source (at_place va_env va_world (U "/src")) va_source va_open /\
  plain_plan (at_place va_env va_world (U "/src")) va_source va_plan /\ (forall a c x, In x (v_hash va_world a c) -> x < 128) /\
  map fst va_bags = [U "src_1.mbag"; U "src_2.mbag"; U "src_3.mbag"] /\
  tag_values (o_info va_open) (U "Payload-Oxum") = [U "7.2"] /\ checksum (o_entries va_open) (U "sha256") (U "data/d/b") = Some (U "H3").
Proof.
  assert (Pl : forallb (fun m => nodupb (m_contents m) && forallb (fun f => negb (special_pathb f) && negb (streq f (U "fetch.txt")) && manifest_pathb IoText f) (m_contents m)) (p_manifests va_plan) = true) by (vm_compute; reflexivity).
  rewrite forallb_forall in Pl.
  assert (Pf : forall m f, In m (p_manifests va_plan) -> In f (m_contents m) -> special_pathb f = false /\ streq f (U "fetch.txt") = false /\ manifest_path IoText f).
  { intros m f Im If. apply Pl in Im. apply andb_true_iff in Im. destruct Im as [_ Im]. rewrite forallb_forall in Im. apply Im in If.
    rewrite !andb_true_iff, !negb_true_iff in If. destruct If as ((I1 & I2) & I3). split; [exact I1|]. split; [exact I2|]. apply manifest_pathb_ok. exact I3. }
  split. { apply restorableb_ok; try (vm_compute; reflexivity); [intros c R|exists (fun _ => false), true; vm_compute; reflexivity].
    assert (X : read F_bagit (so_tree va_source) = Some va_bagit) by (vm_compute; reflexivity). assert (c = va_bagit) by congruence. subst c.
    exists true. vm_compute. reflexivity. }
  split; [reflexivity|]. split. { split; [|constructor]. split; [right; apply trimmedb_ok; reflexivity|]. apply no_brk_b. reflexivity. }
  split; [vm_compute; discriminate|]. split; [apply plans_allb_ok; vm_compute; reflexivity|].
  split. { unfold va_bags. destruct (apply_plan va_source ex_opts va_plan None []) as [a|e] eqn:E; [exists a; auto|vm_compute in E; discriminate]. }
  split. { apply Forall_forall. intros n I. apply storableb_ok. assert (X : forallb (storableb IoText) (map fst va_bags) = true) by (vm_compute; reflexivity).
    rewrite forallb_forall in X. apply X. exact I. }
  split. { intros a I. cbn in I. destruct I as [<-|[<-|[]]]; intros X; cbn in X; intuition discriminate. }
  split; [apply nodupb_ok; reflexivity|]. split; [intros a I; exact I|]. split; [intros a c; apply h_dec_hash|].
  split. { intros t. split; [apply no_brk_b; reflexivity|right; apply trimmedb_ok; reflexivity]. }
  split. { intros n t I. assert (X : od_get n va_bags = Some t) by (apply od_in_get; [apply nodupb_ok; vm_compute; reflexivity|exact I]).
    split; [cbn [e_find va_env]; rewrite X; reflexivity|discriminate]. }
  split; [intros n f _ _; reflexivity|]. split.
  { exists (removelast va_bags), (fst va_last), (snd va_last), (got [] (tags_of IoText (snd va_last))).
    split; [vm_compute; reflexivity|]. split; [vm_compute; reflexivity|reflexivity]. }
  split. { constructor; [reflexivity|intros a c; apply h_dec_lower|]. intros c vi f E. cbn [e_version va_env]. rewrite E. reflexivity. }
  split. { constructor; try (vm_compute; reflexivity). apply wf_treeb_ok. vm_compute. reflexivity. }
  split. { constructor.
    - apply Forall_forall. intros m Im. apply Pl in Im. apply andb_true_iff in Im. apply nodupb_ok. apply Im.
    - intros m f Im If Ow. destruct (Pf m f Im If) as (X & _). rewrite (own_special f Ow) in X. discriminate.
    - intros m Im If. destruct (Pf m _ Im If) as (_ & X & _). rewrite streq_refl in X. discriminate.
    - reflexivity.
    - intros m f Im If _. apply (Pf m f Im If). }
  split. { intros a c x I. cbn [v_hash va_world] in I. apply in_app_iff in I. destruct I as [[<-|[]]|I]; [reflexivity|].
    pose proof (dec_digits (N.of_nat (length c))) as D. rewrite Forall_forall in D. apply D in I. unfold is_digit in I.
    apply andb_true_iff in I. destruct I as [_ I]. apply N.leb_le in I. lia. }
  split; [vm_compute; reflexivity|]. split; vm_compute; reflexivity.
Qed.

(** What is restored from these bags. *)
Example C95_back :
  let back := got [] (restore va_env true true (fun _ => U "1 kB") false va_head (ex_place (hb_name va_head)) []) in
  length back = 14%nat /\ verdict_of (at_place va_env va_world (U "/out")) back = Ok VPass /\
  read (U "manifest-sha256.txt") back = Some (ln "h4 data/a" ++ ln "H3 data/d/b").
Proof. vm_compute. auto. Qed.

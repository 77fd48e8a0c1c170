(** * Restoring a head bag in place (C120)

    restore_bag without a destination turns the head bag itself into the whole
    bag ([restore.py] 44-97, 330-355). *)

Require Import String NArith ZArith PeanoNat Bool List Lia.
From Verif Require Import PyBase PyFacts Version Tsv TsvProofs Fs FsFacts HeadBag HeadBagProofs HeadBagProofs3 BagIt BagItProofs BagItProofs2 Split SplitApply SplitApplyProofs SplitApplyProofs2 SplitApplyProofs5 SplitApplyProofs6 SplitApplyProofs8 Props_SplitApply Restore RestoreProofs RestoreProofs2 RestoreProofs3 Props_Restore RestoreProofs4 RestoreProofs6 Props_Restore3 RestoreProofs7 RestoreProofs8 RestoreProofs9 RestoreProofs10 RestoreProofs11 InPlaceProofs Props_Restore2 Props_RoundTrip SplitRestoreProofs Props_RoundTrip2 Props_Restore4 Validate BagValid BagValidProofs Props_BagValid Props_BagValid2 Props_BagValid4 Props_AmendTotal2.
Import ListNotations.
Open Scope N_scope.

(** The manifests of the head bag stay, and no fetch.txt appears if no bag has
    one. *)
Lemma there_tags v A us rt bsize ro h loc skip ms bs D : sane v -> NoDup (e_algos v) -> incl A (e_algos v) -> ~ In [] skip ->
  head_lists ro h = Ok (skip, ms) -> Forall2 (fun n b => e_find v n = Some b) (others h ms) bs ->
  agg_ok v A skip us rt h (head_bag h loc :: bs) -> (forall p, In p (od_keys (hb_tree h)) -> gone skip p = false) ->
  restore v us rt bsize ro h (e_dest v) (hb_tree h) = Ok D ->
  (forall a, In a (e_algos v) -> is_file (man_name K_man a) (hb_tree h) = true -> is_file (man_name K_man a) D = true) /\
  (Forall (fun b => read Restore.F_fetch (rb_tree b) = None) (head_bag h loc :: bs) -> read Restore.F_fetch D = None).
Proof.
  intros S Na Inc N0 Hl F2 Ag Nd H.
  destruct (there_gather v A us rt ro h loc skip ms bs S Na Inc N0 Hl F2 Ag) as (D0 & t & c & v1 & text & E0 & Dk0 & Q0 & Em & Eg & Dk & _).
  apply restore_parts in H. destruct H as (skip' & ms' & t' & t1 & Hl' & Hg & Hf & Hn). rewrite Hl in Hl'. injection Hl' as <- <-.
  rewrite Eg in Hg. injection Hg as <-. destruct (there_nodes v A us rt ro h loc skip ms bs S N0 Hl F2 Ag Nd t Eg) as [Wt Q].
  destruct (fetch_step_nodes _ _ _ _ Wt Hf) as [W1 Q1]. destruct (finish_nodes v us rt bsize t1 D S W1 Hn) as (_ & _ & Fn).
  assert (Nm : forall q, ~ In SLASH q -> q <> MULTIBAG -> rt && in_multibag q = false).
  { intros q Ns Nq. unfold in_multibag. apply streq_neq in Nq. rewrite Nq. cbn [orb]. destruct (below MULTIBAG q) eqn:B; [|apply andb_false_r].
    exfalso. apply Ns. apply below_iff in B; [|discriminate]. destruct B as [r ->]. apply in_or_app. right; left; auto. }
  pose proof (ao_members _ _ _ _ _ _ _ Ag) as Fm. inversion Fm as [|? ? Mh Fm']; subst. split.
  - intros a Ia F. unfold is_file. rewrite Fn by (right; left; eauto). rewrite Nm; [|apply man_no_slash; [left; auto|apply S; exact Ia]|discriminate].
    rewrite Q1 by discriminate. change (is_file (man_name K_man a) t = true).
    apply (members_keep v skip bs _ D0 t N0); auto; [|apply Dk0|].
    + eapply Forall_impl; [|exact Fm']. intros b M. split; apply M.
    + unfold is_file. rewrite Q0 by discriminate. exact F.
  - intros Nf. assert (Nget : Forall (fun b => od_get Restore.F_fetch (rb_tree b) = None) (head_bag h loc :: bs)).
    { rewrite Forall_forall in *. intros b I. specialize (Nf b I). pose proof (mo_dirs _ _ _ (Fm b I) Restore.F_fetch (or_intror (or_intror eq_refl))) as Nx.
      unfold read in Nf. destruct (od_get Restore.F_fetch (rb_tree b)) as [[|]|]; congruence. }
    assert (Gt : od_get Restore.F_fetch t = None).
    { rewrite Q; [|intros (k & a & [<-|[<-|[]]] & _ & E); discriminate|discriminate]. destruct (gone skip Restore.F_fetch); [reflexivity|].
      destruct (first_of (map rb_tree (head_bag h loc :: bs)) Restore.F_fetch) as [n|] eqn:E; [|reflexivity]. exfalso.
      apply first_of_in in E. destruct E as (x & I & E). apply in_map_iff in I. destruct I as (b & <- & I). rewrite Forall_forall in Nget. rewrite (Nget b I) in E. discriminate. }
    assert (Ht : t1 = t).
    { destruct (others h ms) as [|n ns] eqn:O; [injection Hf as <-; reflexivity|]. unfold restore_fetch in Hf.
      assert (K : forall l bl, Forall2 (fun n b => e_find v n = Some b) l bl -> Forall (member_ok v A) bl -> Forall (fun b => read Restore.F_fetch (rb_tree b) = None) bl ->
                forall d, foldM (fetch_of v t) l [] = Ok d -> d = []).
      { induction l as [|x l IH]; intros bl X2 Xm Xf d Hd; cbn [foldM] in Hd; [congruence|]. inversion X2 as [|? b ? bl' Eb X2']; subst.
        inversion Xm as [|? ? Mb Xm']; subst. inversion Xf as [|? ? Nb Xf']; subst. apply bind_ok in Hd. destruct Hd as (d1 & H1 & Hd).
        unfold fetch_of in H1. rewrite Eb in H1. destruct (streq_reflect (rb_loc b) (e_dest v)) as [E|_]; [destruct (mo_loc _ _ _ Mb E)|].
        cbv zeta in H1. apply bind_ok in H1. destruct H1 as (oo & _ & H1). rewrite Nb in H1. injection H1 as <-. apply (IH bl'); auto. }
      apply bind_ok in Hf. destruct Hf as (d & Hd & Hf). inversion Nf as [|? ? _ Nf']; subst. pose proof (K (n :: ns) bs F2 Fm' Nf' d Hd) as ->. injection Hf as <-. reflexivity. }
    subst t1. unfold read. rewrite Fn by (right; right; auto). rewrite Nm; [|intros I; cbn in I; intuition discriminate|discriminate]. rewrite Gt. reflexivity.
Qed.

(** Restoring without a destination makes the head bag a valid bag with the whole
    content, if the bags fit together, all are valid, and the head bag holds
    nothing that it lists as deleted. *)
Theorem C120_in_place : forall v w A bsize ro h loc skip ms before,
  plain_algos v -> NoDup (e_algos v) -> incl A (e_algos v) -> good_hash v -> plain_text bsize -> same_world v w ->
  hb_del h = None -> head_lists ro h = Ok (skip, ms) -> aggregation v h (e_dest v) ms (before ++ [head_bag h (e_dest v)]) ->
  agg_ok v A skip true true h (rev (before ++ [head_bag h loc])) ->
  passes_plain (at_place v w (e_dest v)) (hb_tree h) ->
  Forall (fun b => passes_plain (at_place v w (rb_loc b)) (rb_tree b)) before ->
  Forall (fun b => is_file (U "fetch.txt") (rb_tree b) = false) (before ++ [head_bag h loc]) ->
  (forall p n, od_get p (hb_tree h) = Some n -> ~ deleted skip p) ->
  exists dest', restore v true true bsize ro h (e_dest v) (hb_tree h) = Ok dest' /\
    passes_plain (at_place v w (e_dest v)) dest' /\
    forall p, ~ bag_file v p -> ~ multibag_path p ->
      (deleted skip p -> od_get p dest' = None) /\
      (~ deleted skip p -> od_get p dest' = latest (map rb_tree before ++ [hb_tree h]) p).
Proof.
  intros v w A bsize ro h loc skip ms before Sv Na Inc Gh Pt Sw Hd Hl Ha Ag0 Vh Vb Nf Nd0.
  destruct (aggregation_others _ _ _ _ _ Ha) as (bs & F2 & Eb0).
  assert (Ebf : before = rev bs) by (cbn [rev] in Eb0; apply app_inj_tail in Eb0; apply Eb0). clear Eb0.
  remember (before ++ [head_bag h loc]) as bags eqn:Ebags.
  assert (Eb : bags = rev (head_bag h loc :: bs)) by (cbn [rev]; rewrite <- Ebf; exact Ebags).
  assert (N0 : ~ In [] skip) by (apply head_lists_ok in Hl; eapply skip_nonempty; [exact Hd|apply Hl]).
  assert (Ag' : agg_ok v A skip true true h (head_bag h loc :: bs)) by (rewrite Eb, rev_involutive in Ag0; exact Ag0).
  assert (Nd : forall p, In p (od_keys (hb_tree h)) -> gone skip p = false).
  { intros p I. destruct (od_get p (hb_tree h)) as [n|] eqn:G; [|apply od_get_none in G; contradiction].
    apply Nd0 in G. rewrite deleted_iff in G. destruct (gone skip p); [congruence|reflexivity]. }
  destruct (there_succeeds v A true true ro bsize h loc skip ms bs Sv Na Inc N0 Hl F2 Ag' Nd Gh Pt) as (D & Hr & Dk & Nm).
  exists D. split; [exact Hr|].
  pose proof (ao_members _ _ _ _ _ _ _ Ag') as Fm.
  assert (Ib : forall b, In b bags <-> In b (head_bag h loc :: bs)) by (intros b; rewrite Eb; symmetry; apply in_rev).
  assert (Ih : In (head_bag h loc) bags) by (apply Ib; left; auto).
  assert (Mo : forall b, In b bags -> member_ok v A b) by (intros b I; apply Ib in I; rewrite Forall_forall in Fm; auto).
  assert (So : forall b, In b bags -> sound v w (rb_tree b)).
  { intros b I. pose proof (Mo b I) as M. rewrite Ebags in I. apply in_app_iff in I. destruct I as [I|[<-|[]]].
    - rewrite Forall_forall in Vb. apply (valid_sound v w (rb_loc b) (e_dest v)); auto; [apply M|apply M].
    - apply (valid_sound v w (e_dest v) (e_dest v)); auto; [apply M|apply M]. }
  destruct (there_tags v A true true bsize ro h loc skip ms bs D Sv Na Inc N0 Hl F2 Ag' Nd Hr) as [Hman Hfetch].
  assert (Wb : Forall (fun b => wf_tree (rb_tree b)) (before ++ [head_bag h (e_dest v)])).
  { apply Forall_app. split; [apply Forall_forall; intros b I; apply (Mo b); rewrite Ebags; apply in_app_iff; left; exact I|].
    constructor; [|constructor]. exact (mo_wf _ _ _ (Mo _ Ih)). }
  assert (W0 : wf_tree (hb_tree h)) by exact (mo_wf _ _ _ (Mo _ Ih)).
  assert (C33 : forall p, ~ bag_file v p -> (true = true -> ~ multibag_path p) -> (deleted skip p -> od_get p D = None) /\
            (~ deleted skip p -> od_get p D = latest (map rb_tree bags) p)).
  { intros p B1 B2. pose proof Hr as H. apply restore_parts in H. destruct H as (skip' & ms' & t & t1 & Hl' & Hg & Hf & Hn).
    rewrite Hl in Hl'. injection Hl' as <- <-. destruct (there_nodes v A true true ro h loc skip ms bs Sv N0 Hl F2 Ag' Nd t Hg) as [Wt Q].
    destruct (fetch_step_nodes _ _ _ _ Wt Hf) as [W1 Q1]. destruct (finish_nodes v true true bsize t1 D Sv W1 Hn) as (_ & _ & Fn).
    rewrite bag_file_iff in B1. specialize (B2 eq_refl). rewrite multibag_iff in B2.
    assert (X : od_get p D = if gone skip p then None else first_of (map rb_tree (head_bag h loc :: bs)) p).
    { rewrite Fn by (left; exact B1). destruct (in_multibag p) eqn:M; [congruence|]. cbn [andb]. rewrite Q1 by (intros ->; apply B1; right; right; reflexivity).
      apply Q; [intros Sp; apply B1; left; exact Sp|intros ->; apply B1; right; left; reflexivity]. }
    rewrite deleted_iff, latest_first, <- map_rev, Eb, rev_involutive, X. destruct (gone skip p); split; intros Z; auto; congruence. }
  split; [|intros p B1 B2; assert (El : map rb_tree before ++ [hb_tree h] = map rb_tree bags) by (rewrite Ebags, map_app; reflexivity); rewrite El; apply C33; auto].
  assert (Lh : forall q n, od_get q (hb_tree h) = Some n -> latest (map rb_tree bags) q = Some n).
  { intros q n G. rewrite latest_first, <- map_rev, Eb, rev_involutive. cbn [map first_of fold_right head_bag rb_tree]. rewrite G. reflexivity. }
  assert (Keep : forall q n, In q [F_bagit; DATA] -> od_get q (hb_tree h) = Some n -> od_get q D = Some n).
  { intros q n Iq G. destruct (C33 q) as [_ X].
    - rewrite bag_file_iff. intros [(k & a & Ik & _ & E)|[E|E]]; destruct Iq as [<-|[<-|[]]]; try discriminate; destruct Ik as [<-|[<-|[]]]; discriminate.
    - intros _. rewrite multibag_iff. destruct Iq as [<-|[<-|[]]]; discriminate.
    - rewrite X; [apply Lh; exact G|]. rewrite deleted_iff. rewrite (ao_skip _ _ _ _ _ _ _ Ag'); [discriminate|].
      right. destruct Iq as [<-|[<-|[]]]; [left|right; left]; reflexivity. }
  destruct (So _ Ih) as [Hs1 Hs2 Hs3 Hs4 (c & vi & f & Rc & Rv & Bm)]. cbn [head_bag rb_tree] in *.
  assert (Rb : read F_bagit D = Some c). { apply read_get. apply Keep; [left; auto|]. apply read_get. exact Rc. }
  assert (V97 : from_097 vi = true).
  { destruct (ao_version _ _ _ _ _ _ _ Ag') as (c' & v1 & Rc' & Ev). rewrite Rc in Rc'. injection Rc' as <-. rewrite (sw_version _ _ Sw _ _ _ Rv) in Ev. congruence. }
  assert (Ef : f = F_baginfo).
  { clear - Rv V97. unfold read_version in Rv. apply bind_ok in Rv. destruct Rv as (kvs & _ & Rv). cbv zeta in Rv.
    destruct (od_get T_BagItVersion _) as [[vs|]|]; try discriminate; destruct (od_get T_Encoding _) as [enc|]; try discriminate.
    destruct (parse_version vs) as [vi'|]; [|discriminate]. destruct (tag_file_name vi') as [f'|] eqn:Tf; [|discriminate].
    destruct enc as [e|]; [|discriminate]. destruct (v_codec w e); [|discriminate]. injection Rv as E1 E2. subst vi' f'. eapply version_097_file; eassumption. }
  subst f.
  destruct (restored_end _ _ _ _ _ _ _ _ _ _ _ _ Sv Hd Hl Ha Wb W0 Hr) as (t & Wt & Hn & _).
  destruct (finish_tags v bsize t D Pt Hn) as (info & es0 & sn & t' & text & _ & Ox & Ri & Lt). destruct (Lt IoText) as (d & Ld & Od & _).
  destruct (load_good v (e_dest v) D IoText true (from_1 vi) Na (do_mans _ _ _ Dk)) as (es & Le & Ch & _).
  assert (Op : open_plain (at_place v w (e_dest v)) D = Ok {| o_tree := D; o_version := vi; o_info := d; o_entries := es |}).
  { unfold open_plain. rewrite Rb. change (read_version (at_place v w (e_dest v)) c) with (read_version w c). rewrite Rv. cbn [bind].
    assert (X : exists_ F_baginfo D = true) by (unfold exists_; assert (Fi : is_file F_baginfo D = true) by (apply is_file_read; eauto); rewrite Fi; reflexivity).
    rewrite X, Ri, Ld. cbn [bind at_place v_algos v_danger]. rewrite (sw_algos _ _ Sw), V97, Le. reflexivity. }
  eexists. split; [exact Op|]. pose proof (wf_nodup _ (do_wf _ _ _ Dk)) as ND. apply (validates_iff _ _ _ ND Op). cbn [o_info o_entries].
  assert (Cov : forall b a, In b bags -> In a (e_algos v) -> is_file (U "manifest-" ++ a ++ U ".txt") (rb_tree b) = true ->
            is_file (U "manifest-" ++ a ++ U ".txt") (hb_tree h) = true).
  { intros b a I Ia F. destruct (us_all _ _ _ (mo_uses _ _ _ (Mo b I)) true a Ia F) as [IA _].
    destruct Hs4 as (a0 & Ia0 & F0). destruct (us_all _ _ _ (mo_uses _ _ _ (Mo _ Ih)) true a0 Ia0 F0) as [_ X]. apply (X a IA). }
  destruct (there_entries v A true true ro bsize h loc skip ms bs Sv Na Inc N0 Hl F2 Ag' D Hr) as (G' & Ge & R).
  { intros b a I Ia F. apply (Cov b a); auto. apply Ib. right; exact I. }
  assert (C37 : forall a p, In a (e_algos v) -> Props_Restore2.payload p ->
    (forall before' b after, bags = before' ++ b :: after -> is_file p (rb_tree b) = true ->
       Forall (fun b => od_get p (rb_tree b) = None) after -> ~ deleted skip p ->
       (exists c, records (rb_tree b) a p c) \/ (forall c, ~ records (hb_tree h) a p c) ->
       forall c, records D a p c <-> records (rb_tree b) a p c) /\
    (deleted skip p \/ Forall (fun b => is_file p (rb_tree b) = false) bags ->
       forall c, records D a p c <-> records (hb_tree h) a p c)).
  { intros a p Ia Py. apply Props_Restore2.payload_iff in Py. destruct (R p Py) as [R1 R2]. split.
    - intros before' b after Es Fb Fa Ng Hx c0. rewrite !records_iff, (Ge a p c0 Ia Py). destruct after as [|z after _] using rev_ind.
      + assert (Ez : b = head_bag h loc) by (rewrite Ebags in Es; apply app_inj_tail in Es; symmetry; apply Es). subst b. apply R1; auto. left.
        cbn [head_bag rb_tree] in Fb. unfold is_file in Fb. destruct (od_get p (hb_tree h)); [discriminate|discriminate Fb].
      + rewrite Ebags, app_comm_cons, app_assoc in Es. apply app_inj_tail in Es. destruct Es as [Es <-]. rewrite Ebf in Es.
        assert (E2 : bs = rev after ++ b :: rev before') by (rewrite <- (rev_involutive bs), Es, rev_app_distr; cbn [rev]; rewrite <- app_assoc; reflexivity).
        apply Forall_app in Fa. destruct Fa as [Fa Fz]. pose proof (Forall_inv Fz) as Gz. cbn [head_bag rb_tree] in Gz.
        destruct (R2 (rev after) b (rev before') E2 (Forall_rev Fa) Fb Gz) with (a := a) as [R3 R4]; [|exact Ia|].
        { rewrite deleted_iff in Ng. destruct (gone skip p); [congruence|reflexivity]. }
        destruct (entry_dec K_man (rb_tree b) a p) as [X|[c1 X]].
        * rewrite (R4 X). destruct Hx as [[c1 Hx]|Hx]; [apply records_iff in Hx; destruct (X c1 Hx)|].
          split; intros Y; [destruct (Hx c0); apply records_iff; exact Y|destruct (X c0 Y)].
        * split; [|apply R3]. intros Y. pose proof (R3 c1 X) as Z. assert (c1 = c0) by congruence. subst c1. exact X.
    - intros Z c0. rewrite !records_iff, (Ge a p c0 Ia Py). apply R1; auto. destruct Z as [Z|Z]; [right; left; apply deleted_iff; exact Z|].
      right; right. rewrite Forall_forall in *. intros b I. apply Z. apply Ib. right; exact I. }
  (* the node of a payload file *)
  assert (Nbf : forall p, is_payload p = true -> ~ bag_file v p /\ (true = true -> ~ multibag_path p)).
  { intros p P. unfold is_payload in P. apply startswith_iff in P. destruct P as [r ->]. split.
    - rewrite bag_file_iff. intros [(k & a & [<-|[<-|[]]] & _ & E)|[E|E]]; discriminate.
    - intros _. rewrite multibag_iff. discriminate. }
  assert (Last : forall p before0 b after, is_payload p = true -> bags = before0 ++ b :: after -> is_file p (rb_tree b) = true ->
            Forall (fun b => od_get p (rb_tree b) = None) after -> ~ deleted skip p ->
            forall a h0, In a (e_algos v) -> (records D a p h0 <-> records (rb_tree b) a p h0)).
  { intros p before0 b after P Es Fb Fa Ng a h0 Ia. destruct (C37 a p Ia (proj2 (payload_iff p) P)) as [C1 _].
    apply (C1 before0 b after Es Fb Fa Ng). 
    destruct (exists_last (l := b :: after) ltac:(discriminate)) as (l' & z & El).
    assert (Ez : z = head_bag h loc).
    { rewrite Eb in Es. cbn [rev] in Es. rewrite El, app_assoc in Es. apply app_inj_tail in Es. symmetry. apply Es. }
    destruct (entry_dec K_man (rb_tree b) a p) as [X|[c0 X]]; [right|left; exists c0; apply records_iff; exact X].
    intros c0 Y. apply records_iff in Y. destruct (Hs1 a p c0 Ia Y) as (cc & Rcc & _).
    destruct after as [|y after].
    - destruct l' as [|? [|? ?]]; cbn [app] in El; try discriminate. injection El as ->. rewrite Ez in X. apply (X c0). exact Y.
    - assert (Iz : In z (y :: after)).
      { destruct l' as [|x l']; cbn [app] in El; [discriminate|]. injection El as _ El. rewrite El. apply in_app_iff. right; left; auto. }
      rewrite Forall_forall in Fa. apply Fa in Iz. rewrite Ez in Iz. cbn [head_bag rb_tree] in Iz. apply read_get in Rcc. congruence. }
  constructor.
  - apply is_dir_get; [discriminate|]. change (U "data") with DATA. apply Keep; [right; left; auto|exact Hs3].
  - destruct Hs4 as (a & Ia & Fa). exists a. cbn [at_place v_algos]. rewrite (sw_algos _ _ Sw). split; [exact Ia|]. exact (Hman a Ia Fa).
  - intros c' Rc'. change (U "bagit.txt") with F_bagit in Rc'. rewrite Rb in Rc'. injection Rc' as <-. exact Bm.
  - intros c' line Rf. exfalso. change (U "fetch.txt") with Restore.F_fetch in Rf. rewrite Hfetch in Rf; [discriminate|].
    apply Forall_forall. intros b I. apply Ib in I. rewrite Forall_forall in Nf. apply Nf in I. change (U "fetch.txt") with Restore.F_fetch in I.
    unfold is_file in I. unfold read. destruct (od_get Restore.F_fetch (rb_tree b)) as [[|]|]; congruence.
  - intros s l Ts. change (U "Payload-Oxum") with T_OXUM in Ts. rewrite Od in Ts. injection Ts as <- _. apply oxum_right; auto.
  - intros p [Fp P]. destruct (Nbf p P) as [B1 B2]. destruct (C33 p B1 B2) as [X1 X2].
    assert (Ng : ~ deleted skip p). { intros Dl. unfold is_file in Fp. rewrite (X1 Dl) in Fp. discriminate. }
    specialize (X2 Ng). destruct (od_get p D) as [n|] eqn:G; [|unfold is_file in Fp; rewrite G in Fp; discriminate]. symmetry in X2.
    apply latest_split in X2. destruct X2 as (before0 & b & after & Es & Gb & Fa).
    assert (Fb : is_file p (rb_tree b) = true) by (unfold is_file in *; rewrite G in Fp; rewrite Gb; exact Fp).
    assert (I : In b bags) by (rewrite Es; apply in_app_iff; right; left; auto).
    destruct (so_listed _ _ _ (So b I) p Fb P) as (a & h0 & Ia & E). exists a, h0. apply Ch. split; [exact Ia|]. left. apply records_iff.
    apply (Last p before0 b after P Es Fb Fa Ng a h0 Ia). apply records_iff. exact E.
  - intros a p h0 C. apply Ch in C. destruct C as (Ia & [E|[_ E]]); cbn [at_place v_hash].
    + pose proof (entry_payload v (e_dest v) D true a p h0 (do_mans _ _ _ Dk) Ia E) as P. destruct (Nbf p P) as [B1 B2]. destruct (C33 p B1 B2) as [_ X2].
      destruct (C37 a p Ia (proj2 (payload_iff p) P)) as [_ C2]. apply records_iff in E.
      assert (Hh : deleted skip p \/ Forall (fun b => is_file p (rb_tree b) = false) bags -> False).
      { intros Z. apply (C2 Z) in E. apply records_iff in E. destruct (Hs1 a p h0 Ia E) as (cc & Rcc & _).
        assert (Fh : is_file p (hb_tree h) = true) by (apply is_file_read; eauto).
        destruct Z as [Z|Z]; [apply read_get in Rcc; apply (Nd0 p _ Rcc); exact Z|]. rewrite Forall_forall in Z. apply Z in Ih. cbn [head_bag rb_tree] in Ih. congruence. }
      assert (Ng : ~ deleted skip p) by (intros Z; apply Hh; left; exact Z).
      destruct (latest (map rb_tree bags) p) as [n|] eqn:La.
      * pose proof La as La'. apply latest_split in La'. destruct La' as (before0 & b & after & Es & Gb & Fa).
        assert (I : In b bags) by (rewrite Es; apply in_app_iff; right; left; auto).
        destruct (is_file p (rb_tree b)) eqn:Fb.
        -- apply (Last p before0 b after P Es Fb Fa Ng a h0 Ia) in E. apply records_iff in E.
           destruct (so_sums _ _ _ (So b I) a p h0 Ia E) as (cc & Rcc & Ec). exists cc. split; [|exact Ec].
           apply read_get. rewrite (X2 Ng). apply read_get in Rcc. congruence.
        -- exfalso. apply Hh. right. apply Forall_forall. intros b' I'. apply Ib in I, I'.
           assert (Gd : od_get p (rb_tree b) = Some NDir) by (unfold is_file in Fb; rewrite Gb in Fb |- *; destruct n; [reflexivity|discriminate]).
           apply (ao_clash _ _ _ _ _ _ _ Ag' b b' p I I' Gd). rewrite deleted_iff in Ng. destruct (gone skip p); [congruence|reflexivity].
      * exfalso. apply Hh. right. apply Forall_forall. intros b I. destruct (is_file p (rb_tree b)) eqn:Fb; [|reflexivity]. exfalso.
        assert (Z : exists n, latest (map rb_tree bags) p = Some n).
        { apply latest_some. exists (rb_tree b). split; [apply in_map; exact I|]. unfold is_file in Fb. destruct (od_get p (rb_tree b)); [eauto|discriminate]. }
        destruct Z as [n Z]. congruence.
    + destruct E as (tx & Rt & I).
      destruct (C76_tag_manifests v true true bsize ro h (e_dest v) skip ms _ (hb_tree h) D a Sv Hd Hl Ha Wb W0 (or_introl eq_refl) Hr Ia) as (tx' & Rt' & Lst).
      { right. split; [apply is_file_read; exists tx; exact Rt|]. exists c, (from_1 vi). split; [exact Rb|]. rewrite <- V97. apply (sw_version _ _ Sw _ _ _ Rv). }
      change (U "tagmanifest-" ++ a ++ U ".txt") with (man_name K_tag a) in Rt'. rewrite Rt in Rt'. injection Rt' as <-.
      destruct (tag_line_reads v a D tx p h0 Gh Lst) as (cc & Rcc & ->); [|exact I|].
      * intros q (Fq & T1 & T2 & T3). apply (Nm q Fq); [|exact T3]. rewrite top_data. intros [Z|Z]; congruence.
      * exists cc. split; [exact Rcc|]. apply (sw_hash _ _ Sw).
Qed.
Print Assumptions C120_in_place.

(** Restoring to a new directory gives the same content. *)
Theorem C120_like_elsewhere : forall v w A bsize ro h loc skip ms before,
  plain_algos v -> NoDup (e_algos v) -> incl A (e_algos v) -> good_hash v -> plain_text bsize -> same_world v w ->
  hb_del h = None -> head_lists ro h = Ok (skip, ms) -> aggregation v h (e_dest v) ms (before ++ [head_bag h (e_dest v)]) ->
  agg_ok v A skip true true h (rev (before ++ [head_bag h loc])) ->
  passes_plain (at_place v w (e_dest v)) (hb_tree h) ->
  Forall (fun b => passes_plain (at_place v w (rb_loc b)) (rb_tree b)) before ->
  Forall (fun b => is_file (U "fetch.txt") (rb_tree b) = false) (before ++ [head_bag h loc]) ->
  (forall p n, od_get p (hb_tree h) = Some n -> ~ deleted skip p) ->
  exists here there, restore v true true bsize ro h (e_dest v) (hb_tree h) = Ok here /\
    restore v true true bsize ro h loc [] = Ok there /\
    forall p, ~ bag_file v p -> od_get p here = od_get p there.
Proof.
  intros v w A bsize ro h loc skip ms before Sv Na Inc Gh Pt Sw Hd Hl Ha Ag Vh Vb Nf Nd.
  destruct (C120_in_place v w A bsize ro h loc skip ms before Sv Na Inc Gh Pt Sw Hd Hl Ha Ag Vh Vb Nf Nd) as (D & Hr & _ & Q).
  assert (Ha' : aggregation v h loc ms (before ++ [head_bag h loc])).
  { destruct Ha as (names & bf & X & Y & E). apply app_inj_tail in E. destruct E as [-> _]. exists names, bf. split; [exact X|]. split; [exact Y|reflexivity]. }
  destruct (aggregation_others _ _ _ _ _ Ha') as (bs & F2 & Eb).
  assert (N0 : ~ In [] skip) by (apply head_lists_ok in Hl; eapply skip_nonempty; [exact Hd|apply Hl]).
  pose proof Ag as Ag'. rewrite Eb, rev_involutive in Ag'.
  destruct (restore_succeeds v A true true bsize ro h loc skip ms bs Sv Na Inc N0 Gh Pt Hl F2 Ag') as (D1 & Hr1 & _).
  exists D, D1. split; [exact Hr|]. split; [exact Hr1|].
  assert (Wl : Forall (fun b => wf_tree (rb_tree b) /\ rb_loc b <> e_dest v) (before ++ [head_bag h loc])).
  { apply Forall_forall. intros b I. apply in_rev in I. pose proof (ao_members _ _ _ _ _ _ _ Ag) as M. rewrite Forall_forall in M.
    apply M in I. split; apply I. }
  pose proof (C33_combination v true true bsize ro h loc skip ms _ D1 Sv Hd Hl Ha' Wl Hr1) as Q1.
  assert (Em : forall b, map rb_tree (before ++ [head_bag h b]) = map rb_tree before ++ [hb_tree h]) by (intros b; rewrite map_app; reflexivity).
  assert (Wh : wf_tree (hb_tree h)).
  { rewrite Forall_forall in Wl. destruct (Wl (head_bag h loc)) as [W _]; [apply in_app_iff; right; left; reflexivity|exact W]. }
  assert (Wb : Forall (fun b => wf_tree (rb_tree b)) (before ++ [head_bag h (e_dest v)])).
  { apply Forall_app in Wl. destruct Wl as [Wl _]. apply Forall_app. split; [|constructor; [exact Wh|constructor]].
    eapply Forall_impl; [|exact Wl]. intros b [W _]. exact W. }
  intros p Bp. destruct (in_multibag p) eqn:M.
  - assert (N1 : ~ touched v p) by (rewrite <- bag_file_iff; exact Bp).
    destruct (restored_end _ _ _ _ _ _ _ _ _ _ _ _ Sv Hd Hl Ha Wb Wh Hr) as (x & Wx & Hx & _).
    destruct (restored_end _ _ _ _ _ _ _ _ _ _ _ _ Sv Hd Hl Ha' (Forall_impl _ (fun b X => proj1 X) Wl) wf_nil Hr1) as (y & Wy & Hy & _).
    destruct (finish_nodes v true true bsize x D Sv Wx Hx) as (_ & _ & Fx). destruct (finish_nodes v true true bsize y D1 Sv Wy Hy) as (_ & _ & Fy).
    rewrite Fx, Fy, M by (left; exact N1). reflexivity.
  - assert (Mp : ~ multibag_path p) by (rewrite multibag_iff; congruence).
    destruct (Q p Bp Mp) as [A1 A2]. destruct (Q1 p Bp (fun _ => Mp)) as [B1 B2]. rewrite Em in B2. rewrite deleted_iff in *.
    destruct (gone skip p); [rewrite A1, B1 by reflexivity; reflexivity|rewrite A2, B2 by discriminate; reflexivity].
Qed.
Print Assumptions C120_like_elsewhere.

(** ** The bags of a split *)

Lemma searching_restorable v f A s : restorable v A s -> restorable (searching v f) A s.
Proof. intros []. constructor; try assumption. apply searching_uses. assumption. Qed.

(** A valid bag that was split: its head bag, put at another place, becomes
    there a valid bag with all that the source has.  The head bag needs not be
    found among the bags. *)
Theorem C120_split_in_place : forall s o p it out parts head t v w A bsize ro h place src b,
  restorable v A s -> is_dir (U "data") (so_tree s) = true ->
  plain_opts IoText o -> p_manifests p <> [] -> plans_all p (so_tree s) ->
  splits_into s o p it out (parts ++ [(head, t)]) -> Forall (storable IoText) (map fst (parts ++ [(head, t)])) ->
  plain_algos v -> NoDup (e_algos v) -> incl A (e_algos v) -> good_hash v -> plain_text bsize ->
  found v place parts -> place head <> e_dest v -> safe_places v place (parts ++ [(head, t)]) (so_tree s) ->
  head_of IoText (parts ++ [(head, t)]) h ->
  same_world v w -> valid_source (at_place v w src) s b -> plain_plan (at_place v w src) s p ->
  (forall a c x, In x (v_hash w a c) -> x < 128) ->
  exists dest', restore v true true bsize ro h (e_dest v) t = Ok dest' /\
    passes_plain (at_place v w (e_dest v)) dest' /\
    forall q, ~ special_path q -> od_get q dest' = od_get q (so_tree s).
Proof.
  intros s o p it out parts head t v w A bsize ro h place src b RS Dd Hp Np Pa Sp St Sv Na Inc Gh Pt Fo Pl Sf Hd Sw VS PP H128.
  remember (parts ++ [(head, t)]) as bags eqn:Eg. pose proof (rs_reader _ _ _ RS) as Er.
  assert (Ho : opened s) by apply RS. assert (Hp' : plain_opts (so_reader s) o) by (rewrite Er; exact Hp).
  assert (St' : Forall (storable (so_reader s)) (map fst bags)) by (rewrite Er; exact St).
  destruct (C26_head_and_members_partial s o p it out bags [] [] Ho Hp' (not_a_head s (rs_member _ _ _ RS)) (NoDup_nil _) Np Sp St')
    as (parts' & head' & t' & tags & members & Eb & _ & Tg & _ & Im & Nms & Ndm). cbn [filter app] in Nms. rewrite Er in Tg, Im.
  assert (E3 : parts' = parts /\ (head', t') = (head, t)) by (apply app_inj_tail; rewrite <- Eb; exact Eg).
  destruct E3 as [-> E3]. injection E3 as -> ->. clear Eb.
  assert (Nh : ~ In head (map fst parts)).
  { rewrite Nms, Eg, map_app in Ndm. cbn [map fst] in Ndm. apply NoDup_remove_2 in Ndm. rewrite app_nil_r in Ndm. exact Ndm. }
  assert (Eh : h = open_hb head t tags IoText).
  { destruct Hd as (o' & head' & t' & tags' & Eb' & Tg' & ->). rewrite Eg in Eb'. apply app_inj_tail in Eb'.
    destruct Eb' as [_ Eb']. injection Eb' as <- <-. rewrite Tg in Tg'. injection Tg' as <-. reflexivity. }
  set (f := fun n => if streq n head then Some {| rb_loc := place head; rb_tree := t |} else e_find v n).
  assert (Fo' : found (searching v f) place bags).
  { intros n x I. cbn [searching e_find e_dest]. rewrite Eg in I. apply in_app_iff in I. destruct I as [I|[E|[]]].
    - unfold f. destruct (streq_reflect n head) as [->|_]; [destruct Nh; apply in_map_iff; exists (head, x); auto|]. apply Fo. exact I.
    - injection E as <- <-. unfold f. rewrite streq_refl. auto. }
  pose proof (searching_restorable v f A s RS) as RS'.
  assert (RP : forall m, In m (p_manifests p) -> restorable_plan m).
  { intros m I. constructor; [apply (proj1 (Forall_forall _ _) (pp_once _ _ _ PP) m I)|]. intros x If. apply (pp_own _ _ _ PP m x I If). }
  assert (Sw' : same_world (searching v f) w) by (destruct Sw; constructor; assumption).
  destruct (C95_split_restores_valid s o p it out bags (searching v f) w A bsize ro h place src b RS' Dd Hp Np Pa Sp St Sv Na Inc Gh Pt Fo' Sf Hd Sw' VS PP H128)
    as (D0 & Hr0 & _ & Eq0).
  destruct (split_agg_ok s o p it out bags (searching v f) A true true ro h place Na Inc RS' RP Hp Np Sp St Fo' Hd Sf) as (members' & bs & Hl & F2 & Ag).
  assert (Em : members' = members) by (pose proof (head_lists_ok _ _ _ _ Hl) as X; rewrite Eh in X; destruct X as [_ X]; destruct ro; [unfold member_bags_ro in X|unfold HeadBag.member_bags in X]; cbn in X, Im; rewrite Im in X; cbn in X; congruence). subst members'.
  assert (Ehd : hb_name h = head) by (rewrite Eh; reflexivity). assert (Eht : hb_tree h = t) by (rewrite Eh; reflexivity).
  assert (Ha' : aggregation (searching v f) h (place head) members (map (placed place) bags)).
  { exists (map fst parts), (map (placed place) parts). rewrite Ehd. split; [left; rewrite Nms, Eg, map_app; reflexivity|]. split.
    - clear - Fo' Eg. assert (X : forall bt, In bt parts -> In bt bags) by (intros bt I; rewrite Eg; apply in_app_iff; left; exact I). clear Eg.
      induction parts as [|[n x] parts IH]; cbn [map]; constructor; [apply Fo'; apply X; left; reflexivity|apply IH; intros bt I; apply X; right; exact I].
    - rewrite Eg, map_app, Eht. reflexivity. }
  assert (Ha : aggregation v h (e_dest v) members (map (placed place) parts ++ [head_bag h (e_dest v)])).
  { exists (map fst parts), (map (placed place) parts). rewrite Ehd. split; [left; rewrite Nms, Eg, map_app; reflexivity|]. split; [|reflexivity].
    clear - Fo. induction parts as [|[n x] parts IH]; cbn [map]; constructor; [apply Fo; left; reflexivity|apply IH; intros m y I; apply Fo; right; exact I]. }
  rewrite Ehd in *. destruct (aggregation_others _ _ _ _ _ Ha') as (bs' & F2' & Ebs).
  assert (E2 : bs' = bs).
  { clear - F2 F2'. revert bs bs' F2 F2'. generalize (others h members). induction l as [|n l IH]; intros bs bs' F2 F2'; inversion F2; inversion F2'; subst; auto.
    f_equal; [congruence|]. apply IH; auto. }
  subst bs'. rewrite Eg, map_app in Ebs. cbn [map] in Ebs.
  assert (Ebs' : map (placed place) parts ++ [head_bag h (place head)] = rev (head_bag h (place head) :: bs)).
  { rewrite <- Ebs. unfold head_bag, placed at 2. rewrite Eht. reflexivity. }
  assert (Ag' : agg_ok v A [] true true h (rev (map (placed place) parts ++ [head_bag h (place head)]))).
  { rewrite Ebs', rev_involutive. destruct v. exact (searching_agg _ _ _ _ _ _ _ _ Ag). }
  destruct (split_aggregation s o p it out bags (searching v f) ro h place) as (othr & head' & t' & tags' & members' & Eb & _ & _ & _ & _ & Fw);
    try rewrite Er; auto; try apply RS. clear Eb othr head' t' tags' members'.
  assert (Fn : Forall (fun n => no_brk IoText n) (map fst bags)) by (eapply Forall_impl; [|exact St]; intros n (_ & N1 & _); exact N1).
  assert (Na' : NoDup (v_algos (at_place v w src))) by (cbn [at_place v_algos]; rewrite (sw_algos _ _ Sw); exact Na).
  pose proof (C90_split_valid_partial _ _ _ _ _ _ _ _ VS Na' H128 Hp PP Sp Fn) as C90. rewrite Forall_forall in C90.
  assert (Nf : forall bt, In bt bags -> is_file (U "fetch.txt") (snd bt) = false).
  { intros bt I. destruct (forall2_at _ _ _ _ Fw I) as ([m hh] & Imm & _ & X). cbn [fst snd] in *. apply in_manifests in Imm.
    destruct (is_file (U "fetch.txt") (snd bt)) eqn:F; [|reflexivity]. exfalso. apply is_file_read in F. destruct F as [x F].
    destruct (ec_only _ _ _ _ X _ _ F) as [Ow|[If _]]; [inversion Ow|]. apply (pp_fetch _ _ _ PP m Imm If). }
  assert (Wt : forall bt, In bt bags -> wf_tree (snd bt)) by (intros bt I; destruct (forall2_at _ _ _ _ Fw I) as (? & _ & W & _); exact W).
  pose proof Sp as M. apply made_split in M. destruct M as (ms0 & lu0 & ms' & lu' & _ & M & _). apply made_each in M.
  assert (Vp : forall n x l, In (n, x) bags -> (forall q, is_file q (so_tree s) = true -> e_danger v l q = false) -> passes_plain (at_place v w l) x).
  { intros n x l I Dg. apply (move_valid v w src l); auto.
    - apply (Wt (n, x) I).
    - destruct (forall2_at _ _ _ _ M I) as ([m1 h1] & Im1 & ms1 & lu1 & O1). cbn [fst snd] in *. apply in_manifests in Im1.
      apply (bag_good_mans v A s o n m1 h1 ms1 lu1 x Na RS (RP m1 Im1) O1). intros q If _. apply filter_In in If. destruct If as [_ If]. apply Dg. exact If.
    - apply (Nf (n, x) I).
    - apply (C90 (n, x) I). }
  assert (Ih : In (head, t) bags) by (rewrite Eg; apply in_app_iff; right; left; reflexivity).
  destruct (C120_in_place v w A bsize ro h (place head) [] members (map (placed place) parts) Sv Na Inc Gh Pt Sw) as (D & Hr & Va & Q); auto.
  - rewrite Eh. reflexivity.
  - rewrite Eht. apply (move_valid v w src (e_dest v)); auto.
    + apply (Wt (head, t) Ih).
    + pose proof (ao_members _ _ _ _ _ _ _ Ag') as Fm. rewrite Forall_forall in Fm. specialize (Fm (head_bag h (place head))).
      rewrite Ebs', rev_involutive in Fm. specialize (Fm (or_introl eq_refl)). pose proof (mo_mans _ _ _ Fm) as Gm. cbn [head_bag rb_tree] in Gm. rewrite Eht in Gm. exact Gm.
    + apply (Nf (head, t) Ih).
    + apply (C90 (head, t) Ih).
  - apply Forall_forall. intros rb I. apply in_map_iff in I. destruct I as ([n x] & <- & I). unfold placed. cbn [fst snd rb_loc rb_tree].
    assert (I' : In (n, x) bags) by (rewrite Eg; apply in_app_iff; left; exact I). apply (Vp n x); [exact I'|].
    intros q F. apply Sf; [apply in_map_iff; exists (n, x); auto|exact F].
  - apply Forall_app. split; [|constructor; [|constructor]].
    + apply Forall_forall. intros rb I. apply in_map_iff in I. destruct I as (bt & <- & I). apply (Nf bt). rewrite Eg. apply in_app_iff. left; exact I.
    + cbn [head_bag rb_tree]. rewrite Eht. apply (Nf (head, t) Ih).
  - intros q n _ (d & Id & _). destruct Id.
  - exists D. rewrite Eht in Hr, Q. split; [exact Hr|]. split; [exact Va|]. intros q Sq. rewrite <- (Eq0 q Sq).
    assert (Bq : ~ bag_file v q) by (intros X; apply Sq; apply (special_bag_file v); exact X).
    assert (Mq : ~ multibag_path q) by (intros X; apply Sq; unfold special_path; auto 10).
    assert (Nx : ~ deleted [] q) by (intros (d & Id & _); destruct Id).
    destruct (Q q Bq Mq) as [_ Q1]. rewrite (Q1 Nx).
    assert (Wl : Forall (fun b => wf_tree (rb_tree b) /\ rb_loc b <> e_dest (searching v f)) (map (placed place) bags)).
    { apply Forall_forall. intros rb I. apply in_map_iff in I. destruct I as ([n x] & <- & I). split; [apply (Wt (n, x) I)|]. apply (Fo' n x I). }
    assert (Hd0 : hb_del h = None) by (rewrite Eh; reflexivity).
    destruct (C33_combination (searching v f) true true bsize ro h (place head) [] members (map (placed place) bags) D0 Sv Hd0 Hl Ha' Wl Hr0 q) as [_ Q2]; [exact Bq|auto|].
    rewrite (Q2 Nx), Eg, !map_app. reflexivity.
Qed.
Print Assumptions C120_split_in_place.

(** The bag of [C95_case] again, split in three. *)
Definition va_parts : dict tree := removelast va_bags.
Definition va_here : tree :=
  got [] (restore va_env true true (fun _ => U "1 kB") false va_head (U "/out") (snd va_last)).

Lemma va_split : va_bags = va_parts ++ [(fst va_last, snd va_last)].
Proof. vm_compute. reflexivity. Qed.

Lemma found_part v place (a b : dict tree) : found v place (a ++ b) -> found v place a.
Proof. intros H n t I. apply H. apply in_or_app. left. exact I. Qed.

Example C120_case :
  splits_into va_source ex_opts va_plan None [] (va_parts ++ [(fst va_last, snd va_last)]) /\ found va_env ex_place va_parts /\
  ex_place (fst va_last) <> e_dest va_env /\ safe_places va_env ex_place (va_parts ++ [(fst va_last, snd va_last)]) va_tree /\
  head_of IoText (va_parts ++ [(fst va_last, snd va_last)]) va_head /\ map fst va_parts = [U "src_1.mbag"; U "src_2.mbag"] /\
  is_file (U "data/a") (snd va_last) = false /\
  read (U "data/a") va_here = Some (U "abcd") /\ verdict_of (at_place va_env va_world (U "/out")) va_here = Ok VPass /\
  is_dir (U "multibag") (snd va_last) = true /\ is_dir (U "multibag") va_here = false.
Proof.
  destruct C95_case as (_ & _ & _ & _ & _ & Sp & _ & _ & _ & _ & _ & _ & Fo & Sf & Hd & _). rewrite <- va_split.
  split; [exact Sp|]. split; [rewrite va_split in Fo; exact (found_part _ _ _ _ Fo)|]. split; [vm_compute; discriminate|].
  split; [exact Sf|]. split; [exact Hd|]. split; [vm_compute; reflexivity|]. split; [vm_compute; reflexivity|]. split; [vm_compute; reflexivity|].
  split; [vm_compute; reflexivity|]. split; vm_compute; reflexivity.
Qed.

(** * Lemmas on restoring a head bag in place *)

Require Import String NArith PeanoNat Bool List Lia Permutation.
From Verif Require Import PyBase PyFacts Tsv TsvProofs Fs FsFacts HeadBag HeadBagProofs HeadBagProofs3 BagIt BagItProofs BagItProofs2 Split SplitProofs2 SplitApply SplitApplyProofs SplitApplyProofs2 SplitApplyProofs5 SplitApplyProofs8 Restore RestoreProofs RestoreProofs2 RestoreProofs3 RestoreProofs4 RestoreProofs6 RestoreProofs7 RestoreProofs8 RestoreProofs9 RestoreProofs10 RestoreProofs11.
Import ListNotations.
Open Scope N_scope.

(** The head bag itself is not copied. *)
Lemma gather_there v ro h skip ms bs dest : head_lists ro h = Ok (skip, ms) -> Forall2 (fun n b => e_find v n = Some b) (others h ms) bs ->
  gather v ro h (e_dest v) dest = let? d := start_info h dest in foldM (fun d b => restore_from v false skip b d) bs d.
Proof.
  intros Hl F2. unfold gather. rewrite Hl. cbn [bind]. destruct (start_info h dest) as [d|e]; [|reflexivity]. cbn [bind].
  unfold restore_from at 1. cbn [rb_loc]. rewrite streq_refl. cbn [bind]. apply (members_bags v skip _ _ _ F2).
Qed.

Section There.
  Variables (v : env) (A : list pystr) (us rt ro : bool) (bsize : tree -> pystr) (h : hb) (loc : pystr).
  Variables (skip : list pystr) (ms : list minfo) (bs : list rbag).
  Hypothesis Sv : sane v.
  Hypothesis ND : NoDup (e_algos v).
  Hypothesis Inc : incl A (e_algos v).
  Hypothesis N0 : ~ In [] skip.
  Hypothesis Hl : head_lists ro h = Ok (skip, ms).
  Hypothesis F2 : Forall2 (fun n b => e_find v n = Some b) (others h ms) bs.
  Hypothesis Ag : agg_ok v A skip us rt h (head_bag h loc :: bs).

  Lemma there_head : dest_ok v A (hb_tree h).
  Proof. pose proof (ao_members _ _ _ _ _ _ _ Ag) as Am. inversion Am as [|? ? [W _ _ M U0 Nd] _]; subst. constructor; assumption. Qed.

  Lemma there_members : Forall (member_ok v A) bs.
  Proof. pose proof (ao_members _ _ _ _ _ _ _ Ag) as Am. inversion Am; assumption. Qed.

  Lemma there_start : exists D, start_info h (hb_tree h) = Ok D /\ dest_ok v A D /\
    (forall q, q <> F_baginfo -> od_get q D = od_get q (hb_tree h)) /\
    forall text, first_info h text -> read F_baginfo D = Some text.
  Proof.
    pose proof there_head as Dk. unfold start_info, first_info. destruct (read (sjoin MULTIBAG F_agginfo) (hb_tree h)) as [c|].
    - destruct (dest_write v A F_baginfo (decode (hb_reader h) c) (hb_tree h) Inc Dk) as [Wr Dk'].
      + apply baginfo_good.
      + intros X. cbn in X. intuition discriminate.
      + apply special_not_baginfo.
      + apply baginfo_touched.
      + eexists. split; [exact Wr|]. split; [exact Dk'|]. split.
        * intros q Nq. apply od_get_set_other. auto.
        * intros text ->. apply read_get. apply od_get_set_same.
    - exists (hb_tree h). split; [reflexivity|]. split; [exact Dk|]. split; auto.
  Qed.

  Lemma there_gather : exists D0 D c v1 text, start_info h (hb_tree h) = Ok D0 /\ dest_ok v A D0 /\
    (forall q, q <> F_baginfo -> od_get q D0 = od_get q (hb_tree h)) /\
    foldM (fun d b => restore_from v false skip b d) bs D0 = Ok D /\
    gather v ro h (e_dest v) (hb_tree h) = Ok D /\ dest_ok v A D /\ read F_bagit D = Some c /\ e_version v c = Ok (true, v1) /\
    read F_baginfo D = Some text /\ good_tags text.
  Proof.
    destruct there_start as (D0 & E0 & Dk0 & Q0 & T0). destruct (ao_version _ _ _ _ _ _ _ Ag) as (c & v1 & Rb & V0).
    destruct (ao_info _ _ _ _ _ _ _ Ag) as (text & Fi & Gt). pose proof (ao_clash _ _ _ _ _ _ _ Ag) as Ac.
    destruct (members_succeed v A skip c v1 text bs D0 (fun p => is_file p (hb_tree h) = true)) as (D & E & Dk & R1 & R2); auto using there_members.
    - intros q Sq. apply (ao_skip _ _ _ _ _ _ _ Ag). left; left; exact Sq.
    - unfold read. rewrite Q0 by discriminate. exact Rb.
    - intros p F. destruct (streq_reflect p F_baginfo) as [->|Np]; [left; apply baginfo_touched|right]. unfold is_file in *. rewrite <- Q0 by auto. exact F.
    - intros b p Ib Ep Gp F. change (hb_tree h) with (rb_tree (head_bag h loc)) in F. rewrite (Ac b (head_bag h loc) p) in F; [discriminate F|right; auto|left; auto|exact Ep|exact Gp].
    - intros b b' p Ib Ib'. apply Ac; right; auto.
    - exists D0, D, c, v1, text. split; [exact E0|]. split; [exact Dk0|]. split; [exact Q0|]. split; [exact E|]. split.
      + rewrite (gather_there _ _ _ _ _ _ _ Hl F2), E0. exact E.
      + auto.
  Qed.

  Hypothesis Nd : forall p, In p (od_keys (hb_tree h)) -> gone skip p = false.

  (** At every path but those of the merged tag files there is what there is after
      restoring to a new directory. *)
  Lemma there_nodes D : gather v ro h (e_dest v) (hb_tree h) = Ok D ->
    wf_tree D /\ forall q, ~ special v q -> q <> F_baginfo ->
      od_get q D = if gone skip q then None else first_of (map rb_tree (head_bag h loc :: bs)) q.
  Proof.
    intros Hg. pose proof (ao_members _ _ _ _ _ _ _ Ag) as Am. pose proof (do_wf _ _ _ there_head) as Wh.
    assert (Wb : Forall (fun b => wf_tree (rb_tree b)) bs) by (eapply Forall_impl; [|exact there_members]; intros b Mb; apply Mb).
    destruct (gather_nodes v ro h (e_dest v) skip ms bs (hb_tree h) D Sv N0 Hl F2 Wh Wb Wh Hg) as [W Q]. split; [exact W|]. intros q Sq Bq.
    rewrite (Q q Sq Bq). cbn [map first_of fold_right head_bag rb_tree]. destruct (od_get q (hb_tree h)) as [n|] eqn:G.
    - rewrite (Nd q) by (eapply od_get_some_key; exact G). reflexivity.
    - destruct (gone skip q); [reflexivity|]. unfold contrib at 1. cbn [head_bag rb_loc]. rewrite streq_refl. cbn [od_get].
      rewrite (map_contrib v A) by exact there_members. reflexivity.
  Qed.

  Hypothesis Gh : good_hash v.
  Hypothesis Pb : plain_text bsize.

  Theorem there_succeeds : exists D, restore v us rt bsize ro h (e_dest v) (hb_tree h) = Ok D /\ dest_ok v A D /\ names_ok v D.
  Proof.
    destruct there_gather as (D0 & D & c & v1 & text & E0 & Dk0 & Q0 & Em & Eg & Dk & Rb & V0 & Ri & Gt).
    destruct (there_nodes D Eg) as [_ Q]. destruct Ag as [Am Ask _ _ Ac Ad Amb An Ao].
    assert (Fx : exists D', (match others h ms with [] => Ok D | ns => restore_fetch v ns D end) = Ok D' /\ dest_ok v A D' /\
                   forall q, q <> F_fetch -> od_get q D' = od_get q D).
    { destruct (others h ms) as [|n ns] eqn:O; [exists D; auto|]. apply (fetch_succeeds v A (n :: ns) bs); auto using there_members. }
    destruct Fx as (D1 & E1 & Dk1 & Q1). unfold restore. rewrite Hl. cbn [bind]. rewrite Eg. cbn [bind]. rewrite E1. cbn [bind].
    assert (Q2 : forall q, ~ touched v q -> od_get q D1 = if gone skip q then None else first_of (map rb_tree (head_bag h loc :: bs)) q).
    { intros q T. rewrite Q1 by (intros ->; apply T; right; right; auto). apply Q; [intros Sq; apply T; left; auto|intros ->; apply T, baginfo_touched]. }
    assert (Nt : forall q, In q [F_bagit; DATA; MULTIBAG] -> ~ touched v q).
    { intros q Iq [(k & a & Ik & _ & E)|[E|E]].
      - destruct Iq as [<-|[<-|[<-|[]]]]; destruct Ik as [<-|[<-|[]]]; discriminate.
      - destruct Iq as [<-|[<-|[<-|[]]]]; discriminate.
      - destruct Iq as [<-|[<-|[<-|[]]]]; discriminate. }
    apply (finish_succeeds v A us rt bsize D1 c v1 text); auto.
    - apply read_get. rewrite Q1 by discriminate. apply read_get. exact Rb.
    - apply read_get. rewrite Q1 by discriminate. apply read_get. exact Ri.
    - intros R. rewrite Q2 by (apply Nt; right; right; left; auto). rewrite Ask by (right; right; right; left; auto).
      cbn [map first_of fold_right rb_tree head_bag]. rewrite (Amb R). reflexivity.
    - intros U0. destruct (Ad U0) as (b & Ib & Eb).
      assert (Gd : gone skip DATA = false) by (apply Ask; right; right; left; auto).
      rewrite Q2 by (apply Nt; right; left; auto). rewrite Gd.
      destruct (first_of (map rb_tree (head_bag h loc :: bs)) DATA) as [n|] eqn:F.
      + apply first_of_in in F. destruct F as (t & It & Et). apply in_map_iff in It. destruct It as (b' & <- & Ib').
        pose proof (Ac b b' DATA Ib Ib' Eb Gd) as X. unfold is_file in X. rewrite Et in X. destruct n; [reflexivity|discriminate].
      + exfalso. revert F. apply (first_of_some _ DATA (rb_tree b)); [apply in_map; auto|congruence].
    - intros p F T1 T2. destruct (str_in p (map (man_name K_man) (e_algos v) ++ map (man_name K_tag) (e_algos v) ++ [F_baginfo; F_fetch])) eqn:Sq.
      + apply Ao; auto. apply str_in_iff in Sq. rewrite !in_app_iff, !in_map_iff in Sq.
        destruct Sq as [(a & <- & Ia)|[(a & <- & Ia)|[<-|[<-|[]]]]].
        * left. exists K_man, a. split; [left; auto|auto].
        * left. exists K_tag, a. split; [right; left; auto|auto].
        * right; left; auto.
        * right; right; auto.
      + assert (Nt' : ~ touched v p).
        { intros T. apply str_in_false in Sq. apply Sq. rewrite !in_app_iff, !in_map_iff.
          destruct T as [(k & a & [<-|[<-|[]]] & Ia & ->)|[->| ->]]; eauto.
          - right; right; left; auto.
          - right; right; right; left; auto. }
        unfold is_file in F. rewrite (Q2 p Nt') in F. destruct (gone skip p) eqn:Gp; [discriminate|].
        destruct (first_of (map rb_tree (head_bag h loc :: bs)) p) as [n|] eqn:Fo; [|discriminate].
        apply first_of_in in Fo. destruct Fo as (t & It & Et). apply in_map_iff in It. destruct It as (b' & <- & Ib').
        apply (An b' p); auto. unfold is_file. rewrite Et. exact F.
    - apply Ao; [apply baginfo_touched|reflexivity].
  Qed.

  (** The checksums that the manifests give. *)
  Lemma there_entries D : restore v us rt bsize ro h (e_dest v) (hb_tree h) = Ok D ->
    (forall b a, In b bs -> In a (e_algos v) -> is_file (man_name K_man a) (rb_tree b) = true -> is_file (man_name K_man a) (hb_tree h) = true) ->
    exists G', (forall a p h0, In a (e_algos v) -> is_payload p = true -> (entry_in IoText K_man D a p h0 <-> G' a p = Some h0)) /\
    forall p, is_payload p = true ->
      ((od_get p (hb_tree h) <> None \/ gone skip p = true \/ Forall (fun b => is_file p (rb_tree b) = false) bs) ->
       forall a h0, In a (e_algos v) -> (G' a p = Some h0 <-> entry_in IoText K_man (hb_tree h) a p h0)) /\
      (forall before b after, bs = before ++ b :: after -> Forall (fun b => od_get p (rb_tree b) = None) before ->
       is_file p (rb_tree b) = true -> od_get p (hb_tree h) = None -> gone skip p = false ->
       forall a, In a (e_algos v) ->
       (forall h0, entry_in IoText K_man (rb_tree b) a p h0 -> G' a p = Some h0) /\
       ((forall h0, ~ entry_in IoText K_man (rb_tree b) a p h0) -> forall h0, G' a p = Some h0 <-> entry_in IoText K_man (hb_tree h) a p h0)).
  Proof.
    intros H Cv. pose proof (do_mans _ _ _ there_head) as Gm.
    destruct (load_good v (e_dest v) (hb_tree h) IoText false true ND Gm) as (es & _ & Ch & _).
    assert (Ds : forall t, (forall q, special v q -> od_get q t = od_get q (hb_tree h)) -> describes v t (fun a p => checksum es a p)).
    { intros t Et. apply (describes_ext v (hb_tree h) t _ Et). constructor; [exact (good_plain _ _ _ Gm)|].
      intros a p h0 Ia _. rewrite Ch. split; [auto|]. intros (_ & [E|[E _]]); [exact E|discriminate E]. }
    destruct there_gather as (D0 & D' & c & v1 & text & E0 & Dk0 & Q0 & Em & Eg & Dk & _).
    apply restore_parts in H. destruct H as (skip' & ms' & t & t1 & Hl' & Hg & Hf & Hn). rewrite Hl in Hl'. injection Hl' as <- <-.
    rewrite Eg in Hg. injection Hg as <-.
    assert (Sb : forall q, special v q -> q <> F_baginfo) by (intros q Sq ->; exact (special_not_baginfo v Sq)).
    destruct (members_describe v skip bs D0 D' (fun a p => checksum es a p) Sv N0) as (G' & Dt & R); auto.
    - eapply Forall_impl; [|exact there_members]. intros b [W Lb _ M _ _]. split; [exact W|]. split; [exact Lb|]. exact (good_plain _ _ _ M).
    - apply Dk0.
    - intros b a Ib Ia F. rewrite Q0 by (apply Sb; exists K_man, a; split; [left; reflexivity|auto]). pose proof (Cv b a Ib Ia F) as X. unfold is_file in X.
      intros Y. rewrite Y in X. discriminate X.
    - destruct (fetch_step_nodes _ _ _ _ (do_wf _ _ _ Dk) Hf) as [W2 Q2].
      destruct (finish_nodes v us rt bsize t1 D Sv W2 Hn) as (_ & _ & Qf).
      exists G'. split.
      + intros a p h0 Ia Py. destruct Dt as [_ Dt]. rewrite <- (Dt a p h0 Ia Py). apply entry_ext.
        rewrite Qf by (right; left; eauto). rewrite man_not_multibag, andb_false_r. apply Q2. discriminate.
      + intros p Py. destruct (R p Py) as [R1 R2].
        assert (Bp : p <> F_baginfo) by (intros ->; discriminate).
        assert (Gi : forall a h0, In a (e_algos v) -> (checksum es a p = Some h0 <-> entry_in IoText K_man (hb_tree h) a p h0)).
        { intros a h0 Ia. rewrite Ch. split; [intros (_ & [E|[E _]]); [exact E|discriminate E]|auto]. }
        split.
        * intros Hp a h0 Ia. rewrite R1 by (rewrite ?Q0 by auto; auto). apply Gi. exact Ia.
        * intros before b after E Fbf Fp Np Gp a Ia. destruct (R2 before b after E Fbf Fp) with (a := a) as [R3 R4]; auto; [rewrite Q0 by auto; exact Np|].
          split; [exact R3|]. intros X h0. rewrite (R4 X). apply Gi. exact Ia.
  Qed.
End There.

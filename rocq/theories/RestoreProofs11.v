(** * Lemmas on restoring: a consistent aggregation can be restored *)

Require Import String NArith PeanoNat Bool List Lia Permutation.
From Verif Require Import PyBase PyFacts Tsv TsvProofs Fs FsFacts HeadBag HeadBagProofs HeadBagProofs3 BagIt BagItProofs BagItProofs2 Split SplitProofs2 SplitApply SplitApplyProofs SplitApplyProofs2 SplitApplyProofs5 SplitApplyProofs8 Restore RestoreProofs RestoreProofs2 RestoreProofs3 RestoreProofs4 RestoreProofs6 RestoreProofs7 RestoreProofs8 RestoreProofs9 RestoreProofs10.
Import ListNotations.
Open Scope N_scope.

(** The text that the restored bag-info.txt starts from. *)
Definition first_info (h : hb) (text : pystr) : Prop :=
  match read (sjoin MULTIBAG F_agginfo) (hb_tree h) with
  | Some c => text = decode (hb_reader h) c
  | None => read F_baginfo (hb_tree h) = Some text
  end.

(** An aggregation that can be restored to a new directory: [bs] are its
    bags, the head bag [h] first. *)
Record agg_ok (v : env) (A skip : list pystr) (us rt : bool) (h : hb) (bs : list rbag) : Prop := {
  ao_members : Forall (member_ok v A) bs;
  ao_skip : forall q, touched v q \/ In q [F_bagit; DATA; MULTIBAG] -> gone skip q = false;
  ao_version : exists c v1, read F_bagit (hb_tree h) = Some c /\ e_version v c = Ok (true, v1);
  ao_info : exists text, first_info h text /\ good_tags text;
  ao_clash : forall b b' p, In b bs -> In b' bs -> od_get p (rb_tree b) = Some NDir -> gone skip p = false ->
               is_file p (rb_tree b') = false;
  ao_data : us = true -> exists b, In b bs /\ od_get DATA (rb_tree b) = Some NDir;
  ao_multibag : rt = true -> od_get MULTIBAG (hb_tree h) = Some NDir;
  ao_names : forall b p, In b bs -> is_file p (rb_tree b) = true -> gone skip p = false -> top_of p <> DATA ->
               is_tagman p = false -> good_name v p;
  ao_own : forall p, touched v p -> is_tagman p = false -> good_name v p
}.

Lemma first_of_in bs q n : first_of bs q = Some n -> exists t, In t bs /\ od_get q t = Some n.
Proof.
  induction bs as [|t bs IH]; cbn [first_of fold_right]; [discriminate|]. destruct (od_get q t) eqn:E.
  - intros H. inversion H; subst. exists t. split; [left; auto|auto].
  - intros H. destruct (IH H) as (t' & I & E'). exists t'. split; [right; auto|auto].
Qed.

Lemma first_of_some bs q t : In t bs -> od_get q t <> None -> first_of bs q <> None.
Proof.
  induction bs as [|x bs IH]; intros I H; [destruct I|]. destruct I as [->|I]; cbn [first_of fold_right].
  - destruct (od_get q t); congruence.
  - destruct (od_get q x); [discriminate|]. apply IH; auto.
Qed.

Lemma map_contrib v A bs : Forall (member_ok v A) bs -> map (contrib v) bs = map rb_tree bs.
Proof.
  intros F. apply map_ext_in. intros b I. rewrite Forall_forall in F. apply F in I. unfold contrib.
  destruct (streq_reflect (rb_loc b) (e_dest v)) as [E|_]; auto. destruct (mo_loc _ _ _ I E).
Qed.

Lemma empty_ok v A : dest_ok v A [].
Proof.
  constructor.
  - constructor; [constructor|constructor|intros p []].
  - intros pay a c _ R. discriminate.
  - constructor; [intros pay a _ F; discriminate|intros pay a a' p h _ _ (c & R & _); discriminate].
  - intros q _. discriminate.
Qed.

Lemma fetch_of_succeeds v A dest names : forall bs d, Forall2 (fun n b => e_find v n = Some b) names bs -> Forall (member_ok v A) bs ->
  exists d', foldM (fetch_of v dest) names d = Ok d'.
Proof.
  induction names as [|n names IH]; intros bs d F2 F; inversion F2 as [|? b ? bs' Hn Hs]; subst; cbn [foldM]; [eauto|].
  inversion F as [|? ? Mb Fb]; subst. unfold fetch_of at 1. rewrite Hn.
  destruct (streq_reflect (rb_loc b) (e_dest v)) as [E|_]; [destruct (mo_loc _ _ _ Mb E)|].
  destruct (mo_open _ _ _ Mb) as (info & es & Ho). rewrite Ho. cbn [bind].
  destruct (read F_fetch (rb_tree b)); cbn [bind]; apply (IH bs'); auto.
Qed.

Lemma fetch_succeeds v A names bs D : incl A (e_algos v) -> Forall2 (fun n b => e_find v n = Some b) names bs -> Forall (member_ok v A) bs ->
  dest_ok v A D -> exists D', restore_fetch v names D = Ok D' /\ dest_ok v A D' /\ forall q, q <> F_fetch -> od_get q D' = od_get q D.
Proof.
  intros Inc F2 F Dk. destruct (fetch_of_succeeds v A D names bs [] F2 F) as [d Hd]. unfold restore_fetch. rewrite Hd. cbn [bind].
  destruct d as [|x d]; [exists D; auto|].
  destruct (dest_write v A F_fetch (flat_map snd (x :: d)) D Inc Dk) as [Wr Dk'].
  - apply fetch_good.
  - intros I. cbn in I. intuition discriminate.
  - intros (k & a & [<-|[<-|[]]] & _ & E); discriminate.
  - right; right; reflexivity.
  - eexists. split; [exact Wr|]. split; [exact Dk'|]. intros q Nq. apply od_get_set_other. auto.
Qed.

Lemma start_succeeds h v A : incl A (e_algos v) ->
  exists D, start_info h [] = Ok D /\ dest_ok v A D /\ (forall q, q <> F_baginfo -> od_get q D = None) /\
    forall text, first_info h text -> od_get F_baginfo D = Some (NFile text) \/ (od_get F_baginfo D = None /\ read F_baginfo (hb_tree h) = Some text).
Proof.
  intros Inc. unfold start_info, first_info. destruct (read (sjoin MULTIBAG F_agginfo) (hb_tree h)) as [c|].
  - destruct (dest_write v A F_baginfo (decode (hb_reader h) c) [] Inc (empty_ok v A)) as [Wr Dk].
    + apply baginfo_good.
    + intros I. cbn in I. intuition discriminate.
    + apply special_not_baginfo.
    + apply baginfo_touched.
    + eexists. split; [exact Wr|]. split; [exact Dk|]. split.
      * intros q Nq. rewrite od_get_set_other by auto. reflexivity.
      * intros text ->. left. apply od_get_set_same.
  - exists []. split; [reflexivity|]. split; [apply empty_ok|]. split; auto.
Qed.

Lemma gather_succeeds v A us rt ro h loc skip ms bs : sane v -> NoDup (e_algos v) -> incl A (e_algos v) -> ~ In [] skip ->
  head_lists ro h = Ok (skip, ms) -> Forall2 (fun n b => e_find v n = Some b) (others h ms) bs ->
  agg_ok v A skip us rt h (head_bag h loc :: bs) ->
  exists D c v1 text, gather v ro h loc [] = Ok D /\ dest_ok v A D /\ read F_bagit D = Some c /\ e_version v c = Ok (true, v1) /\
    read F_baginfo D = Some text /\ good_tags text.
Proof.
  intros S ND Inc N0 Hl F2 Ag. destruct Ag as [Am Ask (c & v1 & Rb & V0) (text & Fi & Gt) Ac _ _ _ _].
  inversion Am as [|? ? Mh Mb]; subst.
  assert (Ng : forall q, special v q -> gone skip q = false) by (intros q Sq; apply Ask; left; left; auto).
  unfold gather. rewrite Hl. cbn [bind].
  destruct (start_succeeds h v A Inc) as (D0 & E0 & Dk0 & Q0 & T0). rewrite E0. cbn [bind].
  assert (B0 : then_copied skip (rb_tree (head_bag h loc)) D0 F_bagit = Some (NFile c)).
  { unfold then_copied. rewrite Q0 by discriminate. rewrite Ask by (right; left; auto). apply read_get. exact Rb. }
  assert (I0 : then_copied skip (rb_tree (head_bag h loc)) D0 F_baginfo = Some (NFile text)).
  { unfold then_copied. destruct (T0 text Fi) as [->|[-> R]]; [reflexivity|]. rewrite Ask by (left; apply baginfo_touched). apply read_get. exact R. }
  destruct (from_succeeds v A skip (head_bag h loc) D0 c v1 text S ND Inc N0 Ng Mh Dk0 B0 V0 I0 Gt) as (D1 & E1 & Dk1 & Q1).
  { intros p Ep Gp. destruct (streq_reflect p F_baginfo) as [->|Np].
    - destruct (mo_dirs _ _ _ Mh F_baginfo (baginfo_touched v) Ep).
    - unfold is_file. rewrite Q0 by auto. reflexivity. }
  change {| rb_loc := loc; rb_tree := hb_tree h |} with (head_bag h loc). rewrite E1. cbn [bind].
  rewrite (members_bags v skip _ bs) by exact F2.
  destruct (members_succeed v A skip c v1 text bs D1 (fun p => is_file p (hb_tree h) = true)) as (D2 & E2 & Dk2 & Rb2 & Ri2); auto.
  - apply read_get. rewrite Q1 by apply special_not_bagit. exact B0.
  - apply read_get. rewrite Q1 by apply special_not_baginfo. exact I0.
  - intros p F. destruct (str_in p (map (man_name K_man) (e_algos v) ++ map (man_name K_tag) (e_algos v))) eqn:Sq.
    + left. left. apply str_in_iff in Sq. apply in_app_iff in Sq. rewrite !in_map_iff in Sq.
      destruct Sq as [(a & <- & Ia)|(a & <- & Ia)]; [exists K_man, a|exists K_tag, a]; (split; [|split; auto]); [left|right; left]; auto.
    + assert (Ns : ~ special v p).
      { intros (k & a & Ik & Ia & ->). apply str_in_false in Sq. apply Sq. apply in_app_iff. rewrite !in_map_iff.
        destruct Ik as [<-|[<-|[]]]; [left|right]; exists a; auto. }
      destruct (streq_reflect p F_baginfo) as [->|Np]; [left; apply baginfo_touched|].
      unfold is_file in F. rewrite (Q1 p Ns) in F. unfold then_copied in F. rewrite Q0 in F by auto.
      destruct (gone skip p); [discriminate|]. right. exact F.
  - intros b p Ib Ep Gp F. change (hb_tree h) with (rb_tree (head_bag h loc)) in F. rewrite (Ac b (head_bag h loc) p) in F; [discriminate|right; auto|left; auto|exact Ep|exact Gp].
  - intros b b' p Ib Ib'. apply Ac; right; auto.
  - exists D2, c, v1, text. exact (conj E2 (conj Dk2 (conj Rb2 (conj V0 (conj Ri2 Gt))))).
Qed.

Theorem restore_succeeds v A us rt bsize ro h loc skip ms bs : sane v -> NoDup (e_algos v) -> incl A (e_algos v) -> ~ In [] skip ->
  good_hash v -> plain_text bsize ->
  head_lists ro h = Ok (skip, ms) -> Forall2 (fun n b => e_find v n = Some b) (others h ms) bs ->
  agg_ok v A skip us rt h (head_bag h loc :: bs) ->
  exists D, restore v us rt bsize ro h loc [] = Ok D /\ dest_ok v A D /\ names_ok v D.
Proof.
  intros S ND Inc N0 Gh Pb Hl F2 Ag.
  destruct (gather_succeeds v A us rt ro h loc skip ms bs S ND Inc N0 Hl F2 Ag) as (D & c & v1 & text & Eg & Dk & Rb & V0 & Ri & Gt).
  destruct Ag as [Am Ask _ _ Ac Ad Amb An Ao]. pose proof Am as Am'. inversion Am' as [|? ? Mh Mb]; subst.
  assert (Wb : Forall (fun b => wf_tree (rb_tree b)) bs) by (eapply Forall_impl; [|exact Mb]; intros b Hb; apply Hb).
  destruct (gather_nodes v ro h loc skip ms bs [] D S N0 Hl F2 (mo_wf _ _ _ Mh) Wb (do_wf _ _ _ (empty_ok v A)) Eg) as [_ Q].
  cbn [od_get] in Q. rewrite (map_contrib v A) in Q by exact Am.
  assert (Fx : exists D', (match others h ms with [] => Ok D | ns => restore_fetch v ns D end) = Ok D' /\ dest_ok v A D' /\
                 forall q, q <> F_fetch -> od_get q D' = od_get q D).
  { destruct (others h ms) as [|n ns] eqn:O; [exists D; auto|]. apply (fetch_succeeds v A (n :: ns) bs); auto. }
  destruct Fx as (D1 & E1 & Dk1 & Q1). unfold restore. rewrite Hl. cbn [bind]. rewrite Eg. cbn [bind]. rewrite E1. cbn [bind].
  assert (Q2 : forall q, ~ touched v q -> od_get q D1 = if gone skip q then None else first_of (map rb_tree (head_bag h loc :: bs)) q).
  { intros q T. rewrite Q1 by (intros ->; apply T; right; right; auto). apply Q; [intros Sq; apply T; left; auto|intros ->; apply T, baginfo_touched]. }
  assert (Nt : forall q, In q [F_bagit; DATA; MULTIBAG] -> ~ touched v q).
  { intros q Iq [(k & a & Ik & _ & E)|[E|E]].
    - destruct Iq as [<-|[<-|[<-|[]]]]; destruct Ik as [<-|[<-|[]]]; discriminate.
    - destruct Iq as [<-|[<-|[<-|[]]]]; discriminate.
    - destruct Iq as [<-|[<-|[<-|[]]]]; discriminate. }
  apply (finish_succeeds v A us rt bsize D1 c v1 text); auto.
  - apply read_get. rewrite Q1 by discriminate. apply read_get. exact Rb.
  - apply read_get. rewrite Q1 by discriminate. apply read_get. exact Ri.
  - intros R. rewrite Q2 by (apply Nt; right; right; left; auto). rewrite Ask by (right; right; right; left; auto).
    cbn [map first_of fold_right rb_tree head_bag]. rewrite (Amb R). reflexivity.
  - intros U0. destruct (Ad U0) as (b & Ib & Eb).
    assert (Gd : gone skip DATA = false) by (apply Ask; right; right; left; auto).
    rewrite Q2 by (apply Nt; right; left; auto). rewrite Gd.
    destruct (first_of (map rb_tree (head_bag h loc :: bs)) DATA) as [n|] eqn:F.
    + apply first_of_in in F. destruct F as (t & It & Et). apply in_map_iff in It. destruct It as (b' & <- & Ib').
      pose proof (Ac b b' DATA Ib Ib' Eb Gd) as X. unfold is_file in X. rewrite Et in X. destruct n; [reflexivity|discriminate].
    + exfalso. revert F. apply (first_of_some _ DATA (rb_tree b)); [apply in_map; auto|congruence].
  - intros p F T1 T2. destruct (str_in p (map (man_name K_man) (e_algos v) ++ map (man_name K_tag) (e_algos v) ++ [F_baginfo; F_fetch])) eqn:Sq.
    + apply Ao; auto. apply str_in_iff in Sq. rewrite !in_app_iff, !in_map_iff in Sq.
      destruct Sq as [(a & <- & Ia)|[(a & <- & Ia)|[<-|[<-|[]]]]].
      * left. exists K_man, a. split; [left; auto|auto].
      * left. exists K_tag, a. split; [right; left; auto|auto].
      * right; left; auto.
      * right; right; auto.
    + assert (Nt' : ~ touched v p).
      { intros T. apply str_in_false in Sq. apply Sq. rewrite !in_app_iff, !in_map_iff.
        destruct T as [(k & a & [<-|[<-|[]]] & Ia & ->)|[->| ->]]; eauto.
        - right; right; left; auto.
        - right; right; right; left; auto. }
      unfold is_file in F. rewrite (Q2 p Nt') in F. destruct (gone skip p) eqn:Gp; [discriminate|].
      destruct (first_of (map rb_tree (head_bag h loc :: bs)) p) as [n|] eqn:Fo; [|discriminate].
      apply first_of_in in Fo. destruct Fo as (t & It & Et). apply in_map_iff in It. destruct It as (b' & <- & Ib').
      apply (An b' p); auto. unfold is_file. rewrite Et. exact F.
  - apply Ao; [apply baginfo_touched|reflexivity].
Qed.

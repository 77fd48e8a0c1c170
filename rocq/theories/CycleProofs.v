(** * Lemmas: what is left of a split and a restoration *)

Require Import String NArith ZArith PeanoNat Bool List Lia.
From Verif Require Import PyBase PyFacts Version Tsv TsvProofs Fs FsFacts HeadBag HeadBagProofs HeadBagProofs3 BagIt BagItProofs BagItProofs2 Split SplitApply SplitApplyProofs SplitApplyProofs2 SplitApplyProofs3 SplitApplyProofs5 SplitApplyProofs6 SplitApplyProofs8 Props_SplitApply Restore RestoreProofs RestoreProofs2 RestoreProofs3 Props_Restore RestoreProofs4 RestoreProofs6 Props_Restore3 RestoreProofs7 RestoreProofs8 RestoreProofs9 RestoreProofs10 RestoreProofs11 Props_Restore2 Props_RoundTrip SplitRestoreProofs Props_RoundTrip2 Props_Restore4 Validate BagValid BagValidProofs Props_BagValid Props_BagValid2 Props_BagValid4.
Import ListNotations.
Open Scope N_scope.

(** The tag values read from [info] for the key [k], after bag-info.txt was
    written anew. *)
Definition rewritten (r : reader) (info : infod) (k : pystr) : list pystr :=
  if str_in k mb_keys then [] else map (fun x => unfold_value r (one_line x)) (tag_values info k).

(** What is known of the tree [D] restored from a split of [s]. *)
Record back (v : env) (A : list pystr) (s : source) (D : tree) : Prop := {
  bk_ok : dest_ok v A D;
  bk_names : names_ok v D;
  bk_bagit : forall c, read F_bagit (so_tree s) = Some c -> read F_bagit D = Some c;
  bk_fetch : od_get Restore.F_fetch D = None;
  bk_multi : forall q, multibag_path q -> od_get q D = None;
  bk_paths : forall q n, od_get q D = Some n ->
    (n <> NDir /\ (q = F_bagit \/ q = F_baginfo \/ RestoreProofs2.special v q)) \/
    (exists n', od_get q (so_tree s) = Some n' /\ (n = NDir <-> n' = NDir));
  bk_info : forall ci, read F_baginfo (so_tree s) = Some ci ->
    exists info text ox bs, load_tags Codecs ci = Ok info /\ read F_baginfo D = Some text /\
      no_brk Codecs ox /\ no_brk Codecs bs /\
      forall r, exists d, load_tags r text = Ok d /\ tag_values d T_OXUM = [ox] /\ tag_values d T_BagSize = [bs] /\
        forall k, k <> T_OXUM -> k <> T_BagSize -> tag_values d k = rewritten r info k
}.

Lemma special_dec v q : {RestoreProofs2.special v q} + {~ RestoreProofs2.special v q}.
Proof.
  destruct (in_dec str_eq_dec q (map (man_name K_man) (e_algos v) ++ map (man_name K_tag) (e_algos v))) as [I|I].
  - left. apply in_app_or in I. destruct I as [I|I]; apply in_map_iff in I; destruct I as (a & <- & I); [exists K_man, a|exists K_tag, a]; cbn; auto.
  - right. intros (k & a & Ik & Ia & ->). apply I. apply in_or_app. destruct Ik as [<-|[<-|[]]]; [left|right]; apply in_map; exact Ia.
Qed.

Lemma split_back : forall s o p it out bags v w A bsize ro h place src b D,
  restorable v A s -> is_dir (U "data") (so_tree s) = true ->
  plain_opts IoText o -> p_manifests p <> [] -> plans_all p (so_tree s) ->
  splits_into s o p it out bags -> Forall (storable IoText) (map fst bags) ->
  plain_algos v -> NoDup (e_algos v) -> incl A (e_algos v) -> good_hash v -> plain_text bsize ->
  found v place bags -> safe_places v place bags (so_tree s) -> head_of IoText bags h ->
  valid_source (at_place v w src) s b -> plain_plan (at_place v w src) s p ->
  restore v true true bsize ro h (place (hb_name h)) [] = Ok D ->
  back v A s D.
Proof.
  intros s o p it out bags v w A bsize ro h place src b D RS Dd Hp Np Pa Sp St Sv Na Inc Gh Pt Fo Sf Hd VS PP Hr.
  assert (RP : forall m, In m (p_manifests p) -> restorable_plan m).
  { intros m I. constructor; [apply (proj1 (Forall_forall _ _) (pp_once _ _ _ PP) m I)|]. intros f If. apply (pp_own _ _ _ PP m f I If). }
  destruct (split_agg_ok s o p it out bags v A true true ro h place Na Inc RS RP Hp Np Sp St Fo Hd Sf) as (members & bs & Hl & F2 & Ag).
  pose proof (rs_reader _ _ _ RS) as Er. pose proof (rs_layout _ _ _ RS) as Lo.
  destruct (split_aggregation s o p it out bags v ro h place) as (othr & head & t & tags & members' & Eb & Tg & Eh & Hl' & Ha & Fw);
    try rewrite Er; auto; try apply RS. rewrite Er in Eh.
  assert (Em : members' = members) by congruence. subst members'.
  assert (En : hb_name h = head) by (rewrite Eh; reflexivity). rewrite En in *.
  assert (Each : forall bt, In bt bags -> exists m hh ms lu, In m (p_manifests p) /\ one_bag s o m hh ms lu (fst bt) (snd bt) /\
            exact_copies (so_tree s) (snd bt) m hh /\ wf_tree (snd bt)).
  { intros bt I. pose proof Sp as M. apply made_split in M. destruct M as (ms0 & lu0 & ms' & lu' & _ & M & _). apply made_each in M.
    assert (F3 : Forall2 (fun mh bt => (wf_tree (snd bt) /\ exact_copies (so_tree s) (snd bt) (fst mh) (snd mh)) /\
              exists ms lu, one_bag s o (fst mh) (snd mh) ms lu (fst bt) (snd bt)) (manifests p) bags).
    { clear - Fw M. induction Fw; inversion M; subst; constructor; auto. }
    destruct (forall2_at _ _ _ _ F3 I) as ([m hh] & Im & (W & X) & ms & lu & O). apply in_manifests in Im.
    exists m, hh, ms, lu. auto. }
  assert (Hd1 : exists m ms lu c, one_bag s o m true ms lu head t /\ read F_bagit (so_tree s) = Some c /\ run_ops (bag_list s o head m true ms lu c) [] = Ok t).
  { pose proof (split_last _ _ _ _ _ _ Sp Np) as (l & m & bags1 & b1 & t1 & ms0' & lu0' & ms1 & lu1 & ms' & lu' & Em & Eb2 & Hi & M & M1 & O & Nd).
    rewrite Eb in Eb2. apply app_inj_tail in Eb2. destruct Eb2 as [_ Eb2]. inversion Eb2; subst b1 t1.
    pose proof O as (c & Rc & R & _). exists m, ms', lu', c. auto. }
  destruct Hd1 as (mh & msh & luh & ch & Oh & Rch & Rh).
  assert (Nf : forall bt, In bt bags -> is_file (U "fetch.txt") (snd bt) = false).
  { intros bt I. destruct (forall2_at _ _ _ _ Fw I) as ([m hh] & Im & _ & X). cbn [fst snd] in *. apply in_manifests in Im.
    destruct (is_file (U "fetch.txt") (snd bt)) eqn:F; [|reflexivity]. exfalso. apply is_file_read in F. destruct F as [x F].
    destruct (ec_only _ _ _ _ X _ _ F) as [Ow|[If _]]; [inversion Ow|]. apply (pp_fetch _ _ _ PP m Im If). }
  destruct (aggregation_others _ _ _ _ _ Ha) as (bs' & F2' & Ebs).
  assert (E2 : bs' = bs).
  { clear - F2 F2'. revert bs bs' F2 F2'. generalize (others h members). induction l as [|n l IH]; intros bs bs' F2 F2'; inversion F2; inversion F2'; subst; auto.
    f_equal; [congruence|]. apply IH; auto. }
  subst bs'.
  assert (N0 : ~ In [] (@nil pystr)) by (intros []).
  destruct (restore_succeeds v A true true bsize ro h (place head) [] members bs Sv Na Inc N0 Gh Pt Hl F2 Ag) as (D' & Hr' & Dk & Nm).
  assert (ED : D' = D) by congruence. subst D'. clear Hr'.
  pose proof (ao_members _ _ _ _ _ _ _ Ag) as Fm.
  assert (Hdel : hb_del h = None) by (rewrite Eh; reflexivity).
  assert (Mo : forall rb, In rb (map (placed place) bags) -> member_ok v A rb).
  { intros rb I. rewrite Ebs in I. apply in_rev in I. rewrite Forall_forall in Fm. apply Fm. exact I. }
  assert (Wb : Forall (fun b => wf_tree (rb_tree b)) (map (placed place) bags)) by (apply Forall_forall; intros x I; apply (Mo x I)).
  assert (Wl : Forall (fun b => wf_tree (rb_tree b) /\ rb_loc b <> e_dest v) (map (placed place) bags)) by (apply Forall_forall; intros x I; split; apply (Mo x I)).
  assert (W0 : wf_tree []) by (apply (do_wf v A); apply empty_ok).
  pose proof (C33_combination v true true bsize ro h (place head) [] members _ D Sv Hdel Hl Ha Wl Hr) as C33.
  assert (Ng : forall q, ~ deleted [] q) by (intros q De; destruct De as (d & [] & _)).
  assert (Lq : forall q, ~ bag_file v q -> ~ multibag_path q -> od_get q D = latest (map rb_tree (map (placed place) bags)) q).
  { intros q B M. apply (C33 q B); [intros _; exact M|apply Ng]. }
  assert (Mt : forall bt, In bt bags -> In (snd bt) (map rb_tree (map (placed place) bags))).
  { intros bt I. rewrite map_map. apply in_map_iff. exists bt. auto. }
  destruct (restored_tags v A true true bsize ro h (place head) [] members bs D Sv N0 Hl F2 Fm) as [Hman Hfetch]; [intros q _; reflexivity|exact Hr|].
  assert (Hmb : forall q, multibag_path q -> od_get q D = None).
  { intros q Mp. destruct (restored_end _ _ _ _ _ _ _ _ _ _ _ _ Sv Hdel Hl Ha Wb W0 Hr) as (t' & Wt & Hn & _).
    apply multibag_iff in Mp. destruct (finish_nodes v true true bsize t' D Sv Wt Hn) as (_ & _ & Q).
    rewrite Q; [cbn [andb]; rewrite Mp; reflexivity|]. left. intros T.
    destruct T as [(k & a & Ik & _ & ->)|[->| ->]]; [destruct Ik as [<-|[<-|[]]]|idtac|idtac]; discriminate Mp. }
  assert (Hft : od_get Restore.F_fetch D = None).
  { assert (R : read Restore.F_fetch D = None).
    { apply Hfetch. apply Forall_forall. intros rb I. apply in_rev in I. rewrite <- Ebs in I. apply in_map_iff in I.
      destruct I as (bt & <- & I). apply Nf in I. cbn [placed rb_tree]. change (U "fetch.txt") with Restore.F_fetch in I.
      unfold is_file in I. unfold read. destruct (od_get Restore.F_fetch (snd bt)) as [[|]|]; congruence. }
    destruct (od_get Restore.F_fetch D) as [[|c]|] eqn:G; [|unfold read in R; rewrite G in R; discriminate|reflexivity].
    exfalso. apply (do_dirs _ _ _ Dk Restore.F_fetch); [right; right; reflexivity|exact G]. }
  constructor.
  - exact Dk.
  - exact Nm.
  - intros c Rc. rewrite Rch in Rc. injection Rc as <-. pose proof (read_bagit_gen s o head mh true msh luh ch t Rh Rch) as Rt.
    apply read_get in Rt. apply read_get. change F_bagit with (U "bagit.txt"). rewrite Lq.
    + rewrite latest_first, <- map_rev, Ebs, rev_involutive. cbn [map first_of fold_right head_bag rb_tree]. rewrite Eh. cbn [hb_tree open_hb]. rewrite Rt. reflexivity.
    + rewrite bag_file_iff. intros [(k & a & Ik & _ & E)|[E|E]]; try discriminate E; destruct Ik as [<-|[<-|[]]]; discriminate E.
    + rewrite multibag_iff. discriminate.
  - exact Hft.
  - exact Hmb.
  - intros q n G. assert (Nq : q <> []) by (apply good_path_nonempty; eapply wf_good; [apply (do_wf _ _ _ Dk)|eapply od_get_some_key; exact G]).
    destruct (in_dec str_eq_dec q [F_bagit; F_baginfo]) as [I2|I2].
    { left. split; [|destruct I2 as [<-|[<-|[]]]; auto]. intros ->. destruct I2 as [<-|[<-|[]]].
      - assert (Rb : read F_bagit D = Some ch).
        { pose proof (read_bagit_gen s o head mh true msh luh ch t Rh Rch) as Rt.
          apply read_get in Rt. apply read_get. change F_bagit with (U "bagit.txt"). rewrite Lq.
          + rewrite latest_first, <- map_rev, Ebs, rev_involutive. cbn [map first_of fold_right head_bag rb_tree]. rewrite Eh. cbn [hb_tree open_hb]. rewrite Rt. reflexivity.
          + rewrite bag_file_iff. intros [(k & a & Ik & _ & E)|[E|E]]; try discriminate E; destruct Ik as [<-|[<-|[]]]; discriminate E.
          + rewrite multibag_iff. discriminate. }
        apply read_get in Rb. congruence.
      - apply (do_dirs _ _ _ Dk F_baginfo); [right; left; reflexivity|exact G]. }
    destruct (special_dec v q) as [Sq|Sq].
    { left. split; [|auto]. intros ->. apply (do_dirs _ _ _ Dk q); [left; exact Sq|exact G]. }
    right. assert (Mq : ~ multibag_path q) by (intros M; rewrite Hmb in G by exact M; discriminate).
    assert (Bq : ~ bag_file v q).
    { rewrite bag_file_iff. intros [T|[T|T]]; [exact (Sq T)|apply I2; right; left; auto|subst q; congruence]. }
    rewrite (Lq q Bq Mq) in G. assert (X : exists t1, In t1 (map rb_tree (map (placed place) bags)) /\ od_get q t1 = Some n).
    { rewrite latest_first in G. apply first_of_in in G. destruct G as (t1 & I1 & G1). apply in_rev in I1. eauto. }
    destruct X as (t1 & I1 & G1). rewrite map_map in I1. apply in_map_iff in I1. destruct I1 as (bt & Et & Ib). cbn [placed rb_tree] in Et. subst t1.
    destruct (Each bt Ib) as (m & hh & ms & lu & Im & O & X & W). destruct n as [|c].
    + exists NDir. split; [|tauto]. destruct (bag_dir_cases s m hh (snd bt) q (lo_wf _ _ Lo) X G1 Nq) as [->|[->|G']]; [| |exact G'].
      * apply is_dir_cases in Dd. destruct Dd as [Dd|Dd]; [discriminate|exact Dd].
      * exfalso. apply Mq. left; reflexivity.
    + assert (Fq : is_file q (snd bt) = true) by (unfold is_file; rewrite G1; reflexivity).
      destruct (bag_file_cases _ _ _ _ _ _ _ _ q (lo_entries _ _ Lo) O Fq) as [[_ Fs]|[Bf|(k & a & Ik & Ia & ->)]].
      * apply is_file_read in Fs. destruct Fs as [x Fs]. apply read_get in Fs. exists (NFile x). split; [exact Fs|]. split; intros Z; discriminate Z.
      * exfalso. destruct Bf as [<-|[<-|[<-|[<-|[<-|[<-|[]]]]]]].
        -- apply I2. left; auto.
        -- apply I2. right; left; auto.
        -- apply Nf in Ib. change (U "fetch.txt") with Restore.F_fetch in Ib. congruence.
        -- apply Mq. rewrite multibag_iff. reflexivity.
        -- apply Mq. rewrite multibag_iff. reflexivity.
        -- apply Mq. rewrite multibag_iff. reflexivity.
      * exfalso. apply Sq. exists k, a. split; [exact Ik|]. split; [|reflexivity]. rewrite (rs_algos _ _ _ RS) in Ia. exact Ia.
  - intros ci Ri. destruct (restored_end _ _ _ _ _ _ _ _ _ _ _ _ Sv Hdel Hl Ha Wb W0 Hr) as (t' & Wt & Hn & Q).
    assert (Tr : hb_tree h = t) by (rewrite Eh; reflexivity). rewrite Tr in Q.
    rewrite (read_agginfo s o head mh true msh luh ch t Rh ci eq_refl Ri) in Q. rewrite Er in Q. cbn [decode] in Q.
    assert (Hrd : hb_reader h = IoText) by (rewrite Eh; reflexivity). rewrite Hrd in Q.
    assert (R0 : read F_baginfo t' = Some ci) by (apply read_get; exact Q).
    destruct (finish_tags v bsize t' D Pt Hn) as (info & es & sn & t2 & text & Ho & Ox & Ri' & Lt).
    assert (Li : load_tags Codecs ci = Ok info).
    { unfold open_bag in Ho. destruct (read F_bagit t'); [|discriminate]. apply bind_ok in Ho. destruct Ho as ([v97 v1] & _ & Ho).
      rewrite R0 in Ho. apply bind_ok in Ho. destruct Ho as (i & E & Ho). apply bind_ok in Ho. destruct Ho as (e & _ & Ho).
      inversion Ho; subst. exact E. }
    exists info, text, (oxum_value sn), (bsize t2). split; [exact Li|]. split; [exact Ri'|]. split; [apply oxum_value_no_brk|].
    split; [apply (Pt t2)|]. intros r. destruct (Lt r) as (d & Ld & L1 & L2 & L3). exists d. split; [exact Ld|]. split; [exact L1|]. split; [exact L2|].
    intros k K1 K2. rewrite (L3 k K1 K2). reflexivity.
Qed.

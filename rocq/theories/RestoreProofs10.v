(** * Lemmas on restoring: saving the restored bag succeeds *)

Require Import String NArith PeanoNat Bool List Lia Permutation.
From Verif Require Import PyBase PyFacts Tsv TsvProofs Fs FsFacts HeadBag HeadBagProofs HeadBagProofs3 BagIt BagItProofs BagItProofs2 Split SplitProofs2 SplitApply SplitApplyProofs SplitApplyProofs2 SplitApplyProofs5 SplitApplyProofs8 Restore RestoreProofs RestoreProofs2 RestoreProofs3 RestoreProofs4 RestoreProofs6 RestoreProofs7 RestoreProofs8 RestoreProofs9.
Import ListNotations.
Open Scope N_scope.

(** ** Tag manifests *)

Definition is_tagman (p : pystr) : bool := startswith p (K_tag ++ [45]).

Lemma man_is_tagman a : is_tagman (man_name K_tag a) = true.
Proof. unfold is_tagman, man_name. rewrite app_assoc. apply startswith_app. Qed.

Lemma tag_files_set p c t : is_tagman p = true -> od_get p t <> Some NDir -> tag_files (od_set p (NFile c) t) = tag_files t.
Proof.
  intros P Nd. unfold tag_files, files. assert (X : forall n, negb (streq (top_of p) DATA) && negb (startswith p (K_tag ++ [45])) = n -> n = false).
  { intros n <-. unfold is_tagman in P. rewrite P. apply andb_false_r. }
  induction t as [|[k n] t IH]; cbn [od_set filter map fst snd].
  - rewrite (X _ eq_refl). reflexivity.
  - cbn [od_get] in Nd. destruct (streq_reflect p k) as [<-|E]; cbn [od_set filter map fst snd].
    + rewrite (X _ eq_refl). destruct n; cbn [map filter fst snd]; rewrite ?(X _ eq_refl); reflexivity.
    + destruct n; cbn [map filter fst snd]; [exact (IH Nd)|].
      destruct (negb (streq (top_of k) DATA) && negb (startswith k (K_tag ++ [45]))); [f_equal|]; exact (IH Nd).
Qed.

Lemma tag_files_in p t : NoDup (od_keys t) ->
  In p (tag_files t) <-> is_file p t = true /\ top_of p <> DATA /\ is_tagman p = false.
Proof.
  intros ND. unfold tag_files. rewrite filter_In, in_files by exact ND. rewrite andb_true_iff, !negb_true_iff.
  unfold is_tagman. rewrite streq_neq. tauto.
Qed.

Lemma tagmanifest_set v a p c t : is_tagman p = true -> od_get p t <> Some NDir -> tagmanifest v a (od_set p (NFile c) t) = tagmanifest v a t.
Proof.
  intros P Nd. unfold tagmanifest. rewrite tag_files_set by auto. rewrite !flat_map_concat_map. f_equal. apply map_ext_in.
  intros q I. unfold tag_files in I. apply filter_In in I. destruct I as [_ I]. apply andb_true_iff in I. destruct I as [_ I].
  apply negb_true_iff in I. unfold read. rewrite od_get_set_other; [reflexivity|]. intros ->. unfold is_tagman in P. congruence.
Qed.

(** The tag manifests that are written. *)
Lemma tags_written v algs : forall t t', (forall a, In a algs -> od_get (man_name K_tag a) t <> Some NDir) ->
  foldM (fun t a => write_file (man_name K_tag a) (tagmanifest v a t) t) algs t = Ok t' ->
  tag_files t' = tag_files t /\ (forall a, tagmanifest v a t' = tagmanifest v a t) /\
  (forall a, In a algs -> read (man_name K_tag a) t' = Some (tagmanifest v a t)) /\
  (forall q, (forall a, In a algs -> q <> man_name K_tag a) -> od_get q t' = od_get q t).
Proof.
  induction algs as [|a algs IH]; intros t t' Nd H; cbn [foldM] in H.
  - inversion H; subst. repeat split; auto. intros ? [].
  - apply bind_ok in H. destruct H as (t1 & H1 & H2). apply write_file_ok in H1. subst t1.
    assert (Na : od_get (man_name K_tag a) t <> Some NDir) by (apply Nd; left; auto).
    assert (Nx : forall x, In x algs -> od_get (man_name K_tag x) (od_set (man_name K_tag a) (NFile (tagmanifest v a t)) t) <> Some NDir).
    { intros x I. rewrite od_get_set. destruct (streq (man_name K_tag x) (man_name K_tag a)); [discriminate|apply Nd; right; exact I]. }
    destruct (IH _ _ Nx H2) as (A & B & C & D).
    rewrite tag_files_set in A by (auto using man_is_tagman).
    assert (B' : forall x, tagmanifest v x (od_set (man_name K_tag a) (NFile (tagmanifest v a t)) t) = tagmanifest v x t)
      by (intros x; apply tagmanifest_set; auto using man_is_tagman).
    split; [exact A|]. split; [intros x; rewrite B; apply B'|]. split.
    + intros x [<-|I]; [|rewrite C by auto; rewrite B'; reflexivity].
      destruct (str_in a algs) eqn:S.
      * apply str_in_iff in S. rewrite C by auto. rewrite B'. reflexivity.
      * apply str_in_false in S. apply read_get. rewrite D; [apply od_get_set_same|].
        intros y Iy E. apply man_name_inj in E. congruence.
    + intros q Hq. rewrite D by (intros; apply Hq; right; auto). apply od_get_set_other. apply Hq; left; auto.
Qed.

Lemma tags_succeed v algs : forall t, sane v -> (forall a, In a algs -> In a (e_algos v)) -> (forall a, In a algs -> od_get (man_name K_tag a) t <> Some NDir) ->
  exists t', foldM (fun t a => write_file (man_name K_tag a) (tagmanifest v a t) t) algs t = Ok t'.
Proof.
  induction algs as [|a algs IH]; intros t S Ia Nd; cbn [foldM]; [eauto|].
  assert (Sl : ~ In SLASH a) by (apply S, Ia; left; auto).
  rewrite write_top_succeeds; [|apply man_good; [right; left; auto|exact Sl]|apply man_no_slash; [right; left; auto|exact Sl]|apply Nd; left; auto].
  cbn [bind]. apply IH; auto.
  - intros x I. apply Ia. right; auto.
  - intros x I. rewrite od_get_set. destruct (streq (man_name K_tag x) (man_name K_tag a)); [discriminate|apply Nd; right; auto].
Qed.

(** ** Names and checksums that can be listed *)
Definition good_name (v : env) (p : pystr) : Prop :=
  manifest_path IoText p /\ manifest_path Codecs p /\ e_danger v (e_dest v) p = false.
Definition good_hash (v : env) : Prop := forall a c, manifest_hash (e_hash v a c) /\ hd 0 (e_hash v a c) <> BOM.

Definition tag_list (v : env) (a : pystr) (t : tree) : list (pystr * pystr) :=
  map (fun p => (e_hash v a (match read p t with Some c => c | None => [] end), p)) (tag_files t).

Lemma tagmanifest_list v a t : tagmanifest v a t = flat_map (fun hp => hash_line (fst hp) (snd hp)) (tag_list v a t).
Proof.
  unfold tagmanifest, tag_list. induction (tag_files t) as [|p l IH]; [reflexivity|]. cbn [flat_map map fst snd]. rewrite IH. reflexivity.
Qed.

Lemma tagmanifest_lines v a t r : good_hash v -> (forall p, In p (tag_files t) -> manifest_path r p) ->
  manifest_lines r (skip_bom (tagmanifest v a t)) = tag_list v a t.
Proof.
  intros H P. rewrite tagmanifest_list. apply hash_text_lines. apply Forall_forall. intros x I. unfold tag_list in I.
  apply in_map_iff in I. destruct I as (p & <- & I). cbn [fst snd]. destruct (H a (match read p t with Some c => c | None => [] end)). auto.
Qed.

Lemma payload_top p : is_payload p = true -> top_of p = DATA.
Proof.
  unfold is_payload. intros H. apply startswith_iff in H. destruct H as [r ->]. unfold top_of.
  change (U "data/" ++ r) with (DATA ++ SLASH :: r). rewrite split_on_app; [reflexivity|]. intros I. cbn in I. intuition discriminate.
Qed.

Lemma tagmanifest_good v a t : NoDup (od_keys t) -> good_hash v -> (forall p, In p (tag_files t) -> good_name v p) ->
  good_man false (tagmanifest v a t).
Proof.
  intros ND H P. assert (L : forall r, manifest_lines r (skip_bom (tagmanifest v a t)) = tag_list v a t).
  { intros r. apply tagmanifest_lines; auto. intros p I. apply P in I. destruct I as (A & B & _). destruct r; auto. }
  constructor; rewrite ?L; auto.
  - intros h p I. unfold tag_list in I. apply in_map_iff in I. destruct I as (q & E & I). inversion E; subst.
    pose proof (P _ I) as (A & B & _). split; auto. destruct (H a (match read p t with Some c => c | None => [] end)). split; auto. split; auto. split; auto.
    apply tag_files_in in I; auto. destruct I as (_ & I & _). destruct (is_payload p) eqn:Y; auto. apply payload_top in Y. congruence.
  - unfold tag_list. rewrite map_map. cbn [snd]. rewrite map_id. unfold tag_files. apply NoDup_filter, NoDup_files, ND.
Qed.

(** ** The tags *)

Lemma info_loads r i : info_ok Codecs i -> (forall k, In k (od_keys i) -> hd 0 k <> BOM) ->
  exists d, load_tags r (info_text i) = Ok d.
Proof.
  intros [D O] Nb. pose proof (isort_perm key_le i) as P. rewrite info_text_pairs.
  assert (F : Forall (fun kv => tag_name_ok r (fst kv) /\ folded r (snd kv)) (info_pairs (isort key_le i))).
  { apply Forall_forall. intros kv I. apply in_flat_map in I. destruct I as ([k v] & I & J). cbn [fst snd] in J.
    apply (Permutation_in _ P) in I. apply O in I. destruct I as (A & _ & B).
    unfold items in J. apply in_map_iff in J. destruct J as (x & <- & J). apply in_map_iff in J. destruct J as (y & <- & J).
    cbn [fst snd]. rewrite Forall_forall in B. apply B in J. destruct J as [_ J]. split; [apply tag_name_any; auto|apply folded_any; auto]. }
  assert (Dc : decode r (tags_text (info_pairs (isort key_le i))) = tags_text (info_pairs (isort key_le i))).
  { destruct r; [reflexivity|]. destruct (isort key_le i) as [|[k' v'] l] eqn:E; [reflexivity|].
    assert (Ok' : In (k', v') i) by (eapply Permutation_in; [exact P|left; auto]).
    assert (Hf : hd 0 k' <> BOM) by (apply Nb; apply in_map_iff; exists (k', v'); auto).
    apply O in Ok'. destruct Ok' as ((((y & u & Eu & _) & _) & _) & Ne & _). subst k'. cbn [hd] in Hf.
    unfold info_pairs. cbn [flat_map fst snd]. destruct (vals_of v') as [|w ws]; [congruence|]. cbn [map items].
    unfold items. cbn [map app tags_text flat_map]. unfold tags_text. cbn [app flat_map]. unfold tag_line at 1 3. cbn [app fst].
    cbn [decode]. destruct (N.eqb_spec y BOM); [congruence|]. reflexivity. }
  unfold load_tags. rewrite Dc, parse_tags_folded by exact F. cbn [bind]. eauto.
Qed.

(** ** Changes of the destination that leave the manifests alone *)

Lemma dest_same v A D D' : incl A (e_algos v) -> dest_ok v A D -> wf_tree D' -> (forall q, special v q -> od_get q D' = od_get q D) ->
  (forall q, touched v q -> od_get q D' <> Some NDir) -> dest_ok v A D'.
Proof.
  intros Inc [W G Us Nd] W' F Nd'.
  assert (Rd : forall pay a, In a (e_algos v) -> od_get (man_name (kind_of pay) a) D' = od_get (man_name (kind_of pay) a) D).
  { intros pay a Ia. apply F. exists (kind_of pay), a. split; auto using kind_in. }
  assert (En : forall pay a p h, In a (e_algos v) -> entry_in IoText (kind_of pay) D' a p h <-> entry_in IoText (kind_of pay) D a p h).
  { intros pay a p h Ia. unfold entry_in, read. rewrite Rd by auto. tauto. }
  constructor; auto.
  - intros pay a c Ia R. apply (G pay a c Ia). unfold read in *. rewrite Rd in R; auto.
  - destruct Us as [Ua Uss]. constructor.
    + intros pay a Ia Fa. unfold is_file in *. rewrite Rd in Fa by auto. destruct (Ua pay a Ia Fa) as [IA H]. split; auto.
      intros a' Ia'. specialize (H a' Ia'). rewrite Rd by (apply Inc; auto). exact H.
    + intros pay a a' p h Ia Ia' E. apply En in E; [|apply Inc; auto]. destruct (Uss pay a a' p h Ia Ia' E) as [h' E'].
      exists h'. apply En; [apply Inc; auto|exact E'].
Qed.

Lemma baginfo_touched v : touched v F_baginfo.
Proof. right; left; reflexivity. Qed.

Lemma dest_write v A q c D : incl A (e_algos v) -> dest_ok v A D -> good_path q -> ~ In SLASH q -> ~ special v q -> touched v q ->
  write_file q c D = Ok (od_set q (NFile c) D) /\ dest_ok v A (od_set q (NFile c) D).
Proof.
  intros Inc Dk G Ns Sp T. pose proof (do_dirs _ _ _ Dk q T) as Nd.
  assert (Wr : write_file q c D = Ok (od_set q (NFile c) D)) by (apply write_top_succeeds; auto). split; [exact Wr|].
  apply (dest_same v A D); auto.
  - eapply (run_op_wf D (OWrite q c)); [exact G|apply Dk|exact Wr].
  - intros x Sx. apply od_get_set_other. intros ->. contradiction.
  - intros x Tx. rewrite od_get_set. destruct (streq x q); [discriminate|]. apply Dk; auto.
Qed.

(** ** Saving *)

(** Tag files of the destination can be listed in tag manifests. *)
Definition names_ok (v : env) (D : tree) : Prop :=
  forall p, is_file p D = true -> top_of p <> DATA -> is_tagman p = false -> good_name v p.

(** The algorithms: all or none. *)
Definition all_or_none (A algs : list pystr) : Prop :=
  (forall a, In a algs -> In a A) /\ (forall a b, In b algs -> In a A -> In a algs).

Lemma save_succeeds v A algs i t c0 v1 : sane v -> NoDup (e_algos v) -> incl A (e_algos v) -> good_hash v ->
  dest_ok v A t -> read F_bagit t = Some c0 -> e_version v c0 = Ok (true, v1) -> all_or_none A algs ->
  info_ok Codecs i -> (forall k, In k (od_keys i) -> hd 0 k <> BOM) ->
  names_ok v t -> good_name v F_baginfo ->
  exists t', save v algs i t = Ok t' /\ dest_ok v A t' /\ names_ok v t' /\
    read F_bagit t' = Some c0 /\ (forall q, ~ touched v q -> od_get q t' = od_get q t) /\
    forall a, In a algs -> read (man_name K_tag a) t' = Some (tagmanifest v a t').
Proof.
  intros S ND Inc Gh Dk Rb V0 [Al1 Al2] Oi Nb Nm Gb.
  assert (Gp : good_path F_baginfo) by apply baginfo_good.
  assert (Nsp : ~ special v F_baginfo) by apply special_not_baginfo.
  assert (Nsl : ~ In SLASH F_baginfo) by (intros I; cbn in I; intuition discriminate).
  destruct (dest_write v A F_baginfo (info_text i) t Inc Dk Gp Nsl Nsp (baginfo_touched v)) as [Wr Dk1].
  set (t1 := od_set F_baginfo (NFile (info_text i)) t) in *.
  assert (Ia : forall a, In a algs -> In a (e_algos v)) by (intros a I; apply Inc, Al1, I).
  assert (Nd1 : forall a, In a algs -> od_get (man_name K_tag a) t1 <> Some NDir).
  { intros a I. apply (do_dirs _ _ _ Dk1). left. exists K_tag, a. split; [right; left; auto|auto]. }
  destruct (tags_succeed v algs t1 S Ia Nd1) as [t2 H2].
  destruct (tags_written v algs t1 t2 Nd1 H2) as (Tf & Tm & Tr & To).
  assert (Nm1 : names_ok v t1).
  { intros p F T1 T2. destruct (streq_reflect p F_baginfo) as [->|E]; [exact Gb|]. apply Nm; auto.
    unfold is_file, t1 in *. rewrite od_get_set_other in F by exact E. exact F. }
  assert (W1 : NoDup (od_keys t1)) by apply (wf_nodup _ (do_wf _ _ _ Dk1)).
  assert (Gn : forall p, In p (tag_files t1) -> good_name v p).
  { intros p I. apply tag_files_in in I; auto. destruct I as (A1 & A2 & A3). apply Nm1; auto. }
  assert (Lt : forall a, manifest_lines IoText (skip_bom (tagmanifest v a t1)) = tag_list v a t1).
  { intros a. apply tagmanifest_lines; auto. intros p I. apply Gn in I. apply I. }
  assert (Pay : forall a, od_get (man_name K_man a) t2 = od_get (man_name K_man a) t1).
  { intros a. apply To. intros b _. apply man_tag_differ. }
  assert (Oth : forall a, ~ In a algs -> od_get (man_name K_tag a) t2 = od_get (man_name K_tag a) t1).
  { intros a N0. apply To. intros b I E. apply man_name_inj in E. subst. contradiction. }
  assert (G2 : good_mans v (e_dest v) t2).
  { intros pay a c Ia' R. destruct pay; cbn [kind_of] in R.
    - apply (do_mans _ _ _ Dk1 true a c Ia'). cbn [kind_of]. unfold read in *. rewrite Pay in R. exact R.
    - destruct (str_in a algs) eqn:Sa.
      + apply str_in_iff in Sa. rewrite Tr in R by auto. inversion R; subst c. split; [apply tagmanifest_good; auto|].
        rewrite Lt. intros h p I. unfold tag_list in I. apply in_map_iff in I. destruct I as (q & E & I). inversion E; subst. apply Gn in I. apply I.
      + apply str_in_false in Sa. apply (do_mans _ _ _ Dk1 false a c Ia'). cbn [kind_of]. unfold read in *. rewrite Oth in R by auto. exact R. }
  assert (U2 : uses v A t2).
  { destruct (do_uses _ _ _ Dk1) as [Ua Us]. constructor.
    - intros pay a Ia' F. destruct pay; cbn [kind_of] in *.
      + unfold is_file in *. rewrite Pay in F. destruct (Ua true a Ia' F) as [X Y]. split; auto. intros a' IA. rewrite Pay. apply (Y a' IA).
      + destruct (str_in a algs) eqn:Sa.
        * apply str_in_iff in Sa. split; auto. intros a' IA. assert (Sa' : In a' algs) by (apply (Al2 a' a); auto).
          apply is_file_read. exists (tagmanifest v a' t1). auto.
        * apply str_in_false in Sa. unfold is_file in F. rewrite Oth in F by auto. destruct (Ua false a Ia' F) as [X Y]. split; auto.
          intros a' IA. assert (Na' : ~ In a' algs) by (intros I; apply Sa; apply (Al2 a a'); auto).
          unfold is_file. rewrite Oth by auto. apply (Y a' IA).
    - intros pay a a' p h IA IA' E. destruct pay; cbn [kind_of] in *.
      + assert (E1 : entry_in IoText K_man t1 a p h) by (unfold entry_in, read in *; rewrite Pay in E; exact E).
        destruct (Us true a a' p h IA IA' E1) as [h' E']. exists h'. unfold entry_in, read in *. rewrite Pay. exact E'.
      + destruct (str_in a algs) eqn:Sa.
        * apply str_in_iff in Sa. assert (Sa' : In a' algs) by (apply (Al2 a' a); auto).
          destruct E as (c & R & I). rewrite Tr in R by auto. inversion R; subst c. rewrite Lt in I. unfold tag_list in I.
          apply in_map_iff in I. destruct I as (q & E & I). inversion E; subst q.
          exists (e_hash v a' (match read p t1 with Some c => c | None => [] end)). exists (tagmanifest v a' t1).
          split; [auto|]. rewrite Lt. unfold tag_list. apply in_map_iff. exists p. auto.
        * apply str_in_false in Sa. assert (Na' : ~ In a' algs) by (intros I; apply Sa; apply (Al2 a a'); auto).
          assert (E1 : entry_in IoText K_tag t1 a p h) by (unfold entry_in, read in *; rewrite Oth in E by auto; exact E).
          destruct (Us false a a' p h IA IA' E1) as [h' E']. exists h'. unfold entry_in, read in *. cbn [kind_of] in E'. rewrite Oth by auto. exact E'. }
  assert (Rb2 : read F_bagit t2 = Some c0).
  { apply read_get. rewrite To by discriminate. unfold t1. rewrite od_get_set_other by discriminate. apply read_get. exact Rb. }
  assert (Ri2 : read F_baginfo t2 = Some (info_text i)).
  { apply read_get. rewrite To by discriminate. apply od_get_set_same. }
  destruct (info_loads Codecs i Oi Nb) as [d Hd].
  destruct (load_good v (e_dest v) t2 Codecs true v1 ND G2) as (es & Hl & _).
  assert (Hs : save v algs i t = Ok t2).
  { unfold save. rewrite Wr. cbn [bind]. rewrite H2. cbn [bind]. unfold open_bag. rewrite Rb2, V0. cbn [bind]. rewrite Ri2, Hd. cbn [bind].
    rewrite Hl. reflexivity. }
  exists t2. split; [exact Hs|].
  destruct (save_nodes v algs i t t2 S Ia (do_wf _ _ _ Dk) Hs) as (W2 & F2 & _ & _).
  split; [|split; [|split; [exact Rb2|split; [exact F2|]]]].
  - constructor; auto. intros q T. destruct (str_in q (map (man_name K_tag) algs)) eqn:Sq.
    + apply str_in_iff, in_map_iff in Sq. destruct Sq as (a & <- & I). rewrite (proj1 (read_get _ _ _) (Tr a I)). discriminate.
    + rewrite To; [apply Dk1; auto|]. intros a I ->. apply str_in_false in Sq. apply Sq. apply in_map. exact I.
  - intros p F T1 T2. apply Nm1; auto. unfold is_file in *. rewrite To in F; [exact F|].
    intros a I ->. rewrite man_is_tagman in T2. discriminate.
  - intros a I. rewrite Tm. auto.
Qed.

(** ** The end of the restoration *)

Lemma keys_set {V} k (x : V) d q : In q (od_keys (od_set k x d)) -> q = k \/ In q (od_keys d).
Proof. intros I. apply in_od_keys_set in I. tauto. Qed.

Lemma drop_keys ks : forall (i : infod) k, In k (od_keys (drop_tags ks i)) -> In k (od_keys i).
Proof.
  induction ks as [|x ks IH]; intros i k H; [exact H|]. cbn [drop_tags fold_left] in H. apply (IH (od_del x i)) in H.
  unfold od_keys in *. apply in_map_iff in H. destruct H as ([a b] & E & I). apply in_map_iff. exists (a, b). split; auto. eapply od_del_incl; eauto.
Qed.

(** The text for Bag-Size is a plain value. *)
Definition plain_text (bsize : tree -> pystr) : Prop :=
  forall t, no_brk Codecs (bsize t) /\ (bsize t = [] \/ trimmed (bsize t)).

Lemma finish_succeeds v A us rt bsize D c0 v1 text : sane v -> NoDup (e_algos v) -> incl A (e_algos v) -> good_hash v -> plain_text bsize ->
  dest_ok v A D -> read F_bagit D = Some c0 -> e_version v c0 = Ok (true, v1) ->
  read F_baginfo D = Some text -> good_tags text ->
  (rt = true -> od_get MULTIBAG D = Some NDir) -> (us = true -> od_get DATA D = Some NDir) ->
  names_ok v D -> good_name v F_baginfo ->
  exists D', finish v us rt bsize D = Ok D' /\ dest_ok v A D' /\ names_ok v D'.
Proof.
  intros S ND Inc Gh Pb Dk Rb V0 Ri [_ (info & Ht & Nb)] Mb Dd Nm Gb.
  destruct (load_good v (e_dest v) D Codecs true v1 ND (do_mans _ _ _ Dk)) as (es & Hl & _).
  assert (Ho : open_bag v Codecs (e_dest v) D = Ok (info, es)).
  { unfold open_bag. rewrite Rb, V0. cbn [bind]. rewrite Ri, Ht. cbn [bind]. rewrite Hl. reflexivity. }
  pose proof (open_info_ok _ _ _ _ _ _ Ho) as Oi.
  unfold finish. rewrite Ho. cbn [bind]. unfold algorithms. rewrite Rb, V0. cbn [bind].
  set (algs := set_of (map fst (bag_manifests (e_algos v) true D))).
  assert (Aa : forall a, In a algs <-> In a (e_algos v) /\ exists pay c, read (man_name (kind_of pay) a) D = Some c).
  { intros a. unfold algs. rewrite in_set_of, in_map_iff. split.
    - intros ([x c] & <- & I). apply in_bag_manifests in I. destruct I as (I & [R|[_ R]]); (split; [exact I|]); [exists true|exists false]; exists c; exact R.
    - intros (I & pay & c & R). exists (a, c). split; auto. apply in_bag_manifests. split; auto. destruct pay; auto. }
  assert (An : all_or_none A algs).
  { split.
    - intros a I. apply Aa in I. destruct I as (I & pay & c & R). assert (F : is_file (man_name (kind_of pay) a) D = true) by (apply is_file_read; eauto).
      apply (us_all _ _ _ (do_uses _ _ _ Dk) pay a I F).
    - intros a b I IA. apply Aa in I. destruct I as (I & pay & c & R). assert (F : is_file (man_name (kind_of pay) b) D = true) by (apply is_file_read; eauto).
      destruct (us_all _ _ _ (do_uses _ _ _ Dk) pay b I F) as [_ Y]. specialize (Y a IA). apply is_file_read in Y. destruct Y as [c' R'].
      apply Aa. split; [apply Inc; auto|]. exists pay, c'. exact R'. }
  set (i1 := if rt then drop_tags mb_keys info else info).
  assert (O1 : info_ok Codecs i1) by (unfold i1; destruct rt; [apply drop_tags_ok; exact Oi|exact Oi]).
  assert (B1 : forall k, In k (od_keys i1) -> hd 0 k <> BOM).
  { intros k I. apply Nb. unfold i1 in I. destruct rt; [eapply drop_keys; exact I|exact I]. }
  (* the first part *)
  assert (P1 : exists D1, (if rt then let? dest := rmtree MULTIBAG D in
                                      let? dest := save v algs (drop_tags mb_keys info) dest in Ok (drop_tags mb_keys info, dest)
                           else Ok (info, D)) = Ok (i1, D1) /\
               dest_ok v A D1 /\ names_ok v D1 /\ read F_bagit D1 = Some c0 /\ od_get DATA D1 = od_get DATA D).
  { unfold i1. destruct rt; [|exists D; auto]. specialize (Mb eq_refl).
    assert (Rm : exists Dr, rmtree MULTIBAG D = Ok Dr) by (unfold rmtree; rewrite Mb; eauto).
    destruct Rm as [Dr Rm]. destruct (rmtree_nodes _ _ _ (do_wf _ _ _ Dk) Rm) as (_ & Wr & Qr).
    assert (Out : forall q, ~ In SLASH q -> q <> MULTIBAG -> od_get q Dr = od_get q D).
    { intros q Ns Nq. rewrite Qr. destruct (streq_reflect q MULTIBAG); [congruence|]. cbn [orb].
      destruct (below MULTIBAG q) eqn:Bq; auto. exfalso. apply Ns. apply below_iff in Bq; [|discriminate]. destruct Bq as [r ->]. apply in_or_app. right; left; auto. }
    assert (Dr_ok : dest_ok v A Dr).
    { apply (dest_same v A D); auto.
      - intros q (k & a & Ik & Ia & ->). apply Out.
        + apply man_no_slash; auto.
        + intros E. destruct Ik as [<-|[<-|[]]]; discriminate.
      - intros q T. rewrite Qr. destruct (streq q MULTIBAG || below MULTIBAG q); [discriminate|]. apply Dk; auto. }
    assert (Nr : names_ok v Dr).
    { intros p F. apply Nm. unfold is_file in *. rewrite Qr in F. destruct (streq p MULTIBAG || below MULTIBAG p); [discriminate|exact F]. }
    assert (Rbr : read F_bagit Dr = Some c0).
    { apply read_get. rewrite Out; [apply read_get; exact Rb|intros I; cbn in I; intuition discriminate|discriminate]. }
    destruct (save_succeeds v A algs _ Dr c0 v1 S ND Inc Gh Dr_ok Rbr V0 An O1 B1 Nr Gb) as (D1 & Hs & Dk1 & Nm1 & Rb1 & F1 & _).
    rewrite Rm. cbn [bind]. unfold i1 in Hs. rewrite Hs. cbn [bind]. exists D1. split; auto. split; auto. split; auto. split; auto.
    rewrite F1, Out; auto; [intros I; cbn in I; intuition discriminate|discriminate|].
    intros [(k & a & [<-|[<-|[]]] & _ & E)|[E|E]]; discriminate. }
  destruct P1 as (D1 & E1 & Dk1 & Nm1 & Rb1 & Da1). 
  match type of E1 with ?L = _ => match goal with |- context [bind (if rt then ?x else ?y) _] => change (if rt then x else y) with L end end.
  rewrite E1. cbn [bind]. destruct us; [|exists D1; auto]. specialize (Dd eq_refl). rewrite <- Da1 in Dd.
  assert (Ox : exists sz n, calc_oxum D1 = Ok (sz, n)).
  { unfold calc_oxum. assert (Id : is_dir DATA D1 = true) by (apply is_dir_get; [discriminate|exact Dd]). rewrite Id. eauto. }
  destruct Ox as (sz & n & Ox). rewrite Ox. cbn [bind]. change (dec sz ++ [DOT] ++ dec n) with (oxum_value (sz, n)). set (sn := (sz, n)).
  set (i2 := od_set T_OXUM (IStr (oxum_value sn)) i1).
  assert (Tx : trimmed (oxum_value sn)) by (unfold oxum_value; apply trimmed_app; apply dec_trimmed).
  assert (O2 : info_ok Codecs i2).
  { apply info_ok_set; auto; [|apply plain_is_folded, oxum_value_no_brk].
    apply tag_name_lit; [apply trimmedb_ok; reflexivity|reflexivity|reflexivity]. }
  assert (B2 : forall k, In k (od_keys i2) -> hd 0 k <> BOM).
  { intros k I. apply keys_set in I. destruct I as [->|I]; [discriminate|auto]. }
  destruct (save_succeeds v A algs i2 D1 c0 v1 S ND Inc Gh Dk1 Rb1 V0 An O2 B2 Nm1 Gb) as (D2 & Hs2 & Dk2 & Nm2 & Rb2 & F2 & _).
  rewrite Hs2. cbn [bind]. destruct (Pb D2) as [Pb1 Pb2].
  set (i3 := od_set T_BagSize (IStr (bsize D2)) i2).
  assert (O3 : info_ok Codecs i3).
  { apply info_ok_set; auto; [|apply plain_is_folded; auto].
    apply tag_name_lit; [apply trimmedb_ok; reflexivity|reflexivity|reflexivity]. }
  assert (B3 : forall k, In k (od_keys i3) -> hd 0 k <> BOM).
  { intros k I. apply keys_set in I. destruct I as [->|I]; [discriminate|auto]. }
  destruct (save_succeeds v A algs i3 D2 c0 v1 S ND Inc Gh Dk2 Rb2 V0 An O3 B3 Nm2 Gb) as (D3 & Hs3 & Dk3 & Nm3 & _).
  exists D3. auto.
Qed.

(** * Splitting a bag and restoring it (C32) *)

Require Import String NArith PeanoNat Bool List Lia.
From Verif Require Import PyBase PyFacts Tsv TsvProofs Fs FsFacts HeadBag HeadBagProofs HeadBagProofs3 BagIt BagItProofs Split SplitProofs SplitProofs3 Props_Split SplitApply SplitApplyProofs SplitApplyProofs2 SplitApplyProofs3 SplitApplyProofs4 SplitApplyProofs5 SplitApplyProofs6 SplitApplyProofs7 SplitApplyProofs8 Props_SplitApply Restore RestoreProofs RestoreProofs2 RestoreProofs3 Props_Restore.
Import ListNotations.
Open Scope N_scope.

(** ** Specification *)

(** Files that describe the bag itself, and the multibag directory. *)
Definition special_path (p : pystr) : Prop :=
  p = U "bagit.txt" \/ p = U "bag-info.txt" \/ p = U "fetch.txt" \/
  startswith p (U "manifest-") = true \/ startswith p (U "tagmanifest-") = true \/ multibag_path p.

(** The plan has every file and every empty directory of the bag. *)
Definition plans_all (p : plan) (src : tree) : Prop :=
  forall x, is_file x src = true \/ empty_dir x src -> ~ special_path x ->
    exists m, In m (p_manifests p) /\ In x (m_contents m).

(** The bags of a split as they are found when the bag is restored: each one
    at a place of its own, away from the destination. *)
Definition found (v : env) (place : pystr -> pystr) (bags : dict tree) : Prop :=
  forall n t, In (n, t) bags ->
    e_find v n = Some {| rb_loc := place n; rb_tree := t |} /\ place n <> e_dest v.

(** The head bag of a split is the last one, opened. *)
Definition head_of (r : reader) (bags : dict tree) (h : hb) : Prop :=
  exists others head t tags, bags = others ++ [(head, t)] /\ tags_of r t = Ok tags /\ h = open_hb head t tags r.

(** ** Trees *)

(** Every directory has a leaf: a file or an empty directory. *)
Lemma has_leaf t : wf_tree t -> forall d, dirp d t ->
  exists x, (is_file x t = true \/ empty_dir x t) /\ (x = d \/ below d x = true).
Proof.
  intros W. assert (B : exists n, forall q, In q (od_keys t) -> (length q <= n)%nat).
  { exists (list_max (map (@length N) (od_keys t))). intros q I.
    pose proof (proj1 (list_max_le (map (@length N) (od_keys t)) _) (le_n _)) as F. rewrite Forall_forall in F.
    apply F. apply in_map. auto. }
  destruct B as [n B]. intros d D. remember (n - length d)%nat as k. assert (K : (n - length d <= k)%nat) by lia. clear Heqk.
  revert d D K. induction k as [|k IH]; intros d D K.
  - exists d. split; [|left; auto]. right. assert (Ne : d <> []).
    { intros ->. apply od_get_some_key in D. apply (wf_good _ W) in D. apply good_path_nonempty in D. congruence. }
    split; [apply is_dir_dirp; auto|]. intros q I E. pose proof (B q I) as Lq. pose proof (wf_good _ W q I) as Gq.
    assert (Bq : below d q = true) by (apply below_dirname; auto).
    apply below_iff in Bq; auto. destruct Bq as [r ->]. rewrite app_length in Lq. cbn in Lq. lia.
  - assert (Ne : d <> []).
    { intros ->. apply od_get_some_key in D. apply (wf_good _ W) in D. apply good_path_nonempty in D. congruence. }
    destruct (existsb (fun q => streq (dirname q) d) (od_keys t)) eqn:E.
    + apply existsb_exists in E. destruct E as (q & I & E). apply streq_eq in E.
      pose proof (wf_good _ W q I) as Gq. assert (Bq : below d q = true) by (apply below_dirname; auto).
      pose proof Bq as Bq'. apply below_iff in Bq'; auto. destruct Bq' as [r Eq].
      destruct (od_get q t) as [[|c]|] eqn:G; swap 1 2.
      * exists q. split; [left; unfold is_file; rewrite G; reflexivity|right; auto].
      * destruct (IH q G) as (x & X1 & X2). { rewrite Eq, app_length. cbn. lia. }
        exists x. split; auto. right. destruct X2 as [->|X2]; auto. apply below_iff in X2.
        -- destruct X2 as [r2 ->]. apply below_iff; auto. exists (r ++ SLASH :: r2). rewrite Eq, <- app_assoc. reflexivity.
        -- apply good_path_nonempty; auto.
      * apply od_get_none in G. contradiction.
    + exists d. split; [|left; auto]. right. split; [apply is_dir_dirp; auto|]. intros q I Q.
      assert (X : existsb (fun q => streq (dirname q) d) (od_keys t) = true).
      { apply existsb_exists. exists q. split; auto. rewrite Q. apply streq_refl. }
      congruence.
Qed.

Lemma prefix_dir d r pre : ~ In SLASH pre -> startswith (d ++ SLASH :: r) pre = true -> startswith d pre = true.
Proof.
  revert d. induction pre as [|c pre IH]; intros d N0 H; [apply startswith_nil|].
  destruct d as [|x d]; cbn [app startswith] in *.
  - apply andb_true_iff in H. destruct H as [H _]. apply N.eqb_eq in H. exfalso. apply N0. left; auto.
  - apply andb_true_iff in H. destruct H as [H1 H2]. rewrite H1. cbn [andb]. apply IH; auto. intros I. apply N0. right; auto.
Qed.

Lemma special_below d x : ~ special_path d -> below d x = true -> d <> [] -> ~ special_path x.
Proof.
  intros S B Ne. apply below_iff in B; auto. destruct B as [r ->]. intros X. apply S.
  assert (NS : forall (s : pystr), ~ In SLASH s -> d ++ SLASH :: r <> s).
  { intros s N0 E. apply N0. rewrite <- E. apply in_app_iff. right. left. reflexivity. }
  destruct X as [X|[X|[X|[X|[X|X]]]]].
  - exfalso. eapply NS; [|exact X]. cbn. intuition discriminate.
  - exfalso. eapply NS; [|exact X]. cbn. intuition discriminate.
  - exfalso. eapply NS; [|exact X]. cbn. intuition discriminate.
  - right; right; right; left. eapply prefix_dir; [|exact X]. cbn. intuition discriminate.
  - right; right; right; right; left. eapply prefix_dir; [|exact X]. cbn. intuition discriminate.
  - right; right; right; right; right. destruct X as [X|[r' X]].
    + exfalso. eapply NS; [|exact X]. cbn. intuition discriminate.
    + assert (P : startswith (d ++ SLASH :: r) (U "multibag") = true) by (rewrite X; reflexivity).
      apply prefix_dir in P; [|cbn; intuition discriminate]. apply startswith_iff in P. destruct P as [z ->].
      destruct z as [|c z]; [left; apply app_nil_r|]. right. exists z. cbn in X. inversion X. subst. reflexivity.
Qed.

Lemma special_own h p : own_file h p -> special_path p.
Proof.
  intros []; unfold special_path; auto.
  - right; right; right; left. apply startswith_app.
  - right; right; right; right; left. apply startswith_app.
  - do 5 right. right. exists (U "member-bags.tsv"). reflexivity.
  - do 5 right. right. exists (U "file-lookup.tsv"). reflexivity.
  - do 5 right. right. exists (U "aggregation-info.txt"). reflexivity.
Qed.

Lemma special_bag_file v p : bag_file v p -> special_path p.
Proof.
  intros [->|[->|(a & _ & [->| ->])]]; unfold special_path; auto.
  - right; right; right; left. apply startswith_app.
  - right; right; right; right; left. apply startswith_app.
Qed.

(** ** The bags of a split together *)

(** Whatever is in one of the bags is in the source, and the other way
    round. *)
Lemma bag_node s t m h q : wf_tree (so_tree s) -> wf_tree t -> is_dir (U "data") (so_tree s) = true ->
  exact_copies (so_tree s) t m h -> ~ special_path q -> forall n, od_get q t = Some n -> od_get q (so_tree s) = Some n.
Proof.
  intros Ws Wt Dd [E1 E2 E3 E4] S n G. destruct n as [|c]; swap 1 2.
  - assert (R : read q t = Some c) by (unfold read; rewrite G; reflexivity).
    destruct (E2 q c R) as [O|[_ O]]; [exfalso; apply S; eapply special_own; eauto|]. apply read_get in O. exact O.
  - assert (Gq : good_path q) by (eapply wf_good; [exact Wt|eapply od_get_some_key; exact G]).
    assert (Nq : q <> []) by (apply good_path_nonempty; auto).
    assert (D : is_dir q t = true) by (apply is_dir_dirp; auto).
    destruct (E4 q D) as [->|[->|[[_ ->]|(f & If & Ef & Hf)]]].
    + congruence.
    + apply is_dir_cases in Dd. destruct Dd as [Dd|Dd]; [discriminate|exact Dd].
    + exfalso. apply S. do 5 right. left. reflexivity.
    + destruct Hf as [Hf|[-> Hf]].
      * apply below_iff in Hf; auto. destruct Hf as [r Er].
        assert (I : In f (od_keys (so_tree s))).
        { unfold exists_ in Ef. apply orb_true_iff in Ef. destruct Ef as [Ef|Ef].
          - apply is_file_read in Ef. destruct Ef as [c Ef]. apply read_get in Ef. eapply od_get_some_key; eauto.
          - apply is_dir_cases in Ef. destruct Ef as [->|Ef]; [destruct q; discriminate|]. eapply od_get_some_key; exact Ef. }
        pose proof (wf_ancestor _ Ws f q r I Er) as A. apply in_dirs in A; [exact A|apply wf_nodup; auto].
      * apply is_dir_cases in Hf. destruct Hf as [Hf|Hf]; [congruence|exact Hf].
Qed.

Lemma some_bag s p (bags : dict tree) q n : wf_tree (so_tree s) -> plans_all p (so_tree s) ->
  Forall2 (fun mh bt => wf_tree (snd bt) /\ exact_copies (so_tree s) (snd bt) (fst mh) (snd mh)) (manifests p) bags ->
  ~ special_path q -> od_get q (so_tree s) = Some n -> exists bt n', In bt bags /\ od_get q (snd bt) = Some n'.
Proof.
  intros Ws P F S G.
  assert (L : exists x, (is_file x (so_tree s) = true \/ empty_dir x (so_tree s)) /\ (x = q \/ below q x = true)).
  { destruct n as [|c]; [apply has_leaf; auto|]. exists q. split; auto. left. unfold is_file. rewrite G. reflexivity. }
  destruct L as (x & Lx & Bx).
  assert (Gq : good_path q) by (eapply wf_good; [exact Ws|eapply od_get_some_key; exact G]).
  assert (Nq : q <> []) by (apply good_path_nonempty; auto).
  assert (Sx : ~ special_path x) by (destruct Bx as [->|Bx]; auto; eapply special_below; eauto).
  destruct (P x Lx Sx) as (m & Im & Ix).
  assert (Mh : exists h, In (m, h) (manifests p)).
  { unfold manifests. revert Im. generalize (p_manifests p). clear. induction l as [|a [|b l] IH]; intros I.
    - destruct I.
    - destruct I as [->|[]]. exists true. left. reflexivity.
    - change (mark_head (a :: b :: l)) with ((a, false) :: mark_head (b :: l)).
      destruct I as [->|I]; [exists false; left; reflexivity|]. destruct (IH I) as [h J]. exists h. right. exact J. }
  destruct Mh as [h Mh].
  assert (Bt : exists bt, In bt bags /\ wf_tree (snd bt) /\ exact_copies (so_tree s) (snd bt) m h).
  { clear - F Mh. induction F as [|mh bt l bs H F IH]; [destruct Mh|]. destruct Mh as [->|Mh].
    - exists bt. split; [left; auto|exact H].
    - destruct (IH Mh) as (b & I & H'). exists b. split; [right; auto|exact H']. }
  destruct Bt as (bt & Ib & Wt & [E1 E2 E3 E4]).
  assert (Nx : ~ own_file h x) by (intros O; apply Sx; eapply special_own; eauto).
  assert (Kx : exists nx, od_get x (snd bt) = Some nx).
  { destruct Lx as [Fx|[Dx _]].
    - apply is_file_read in Fx. destruct Fx as [c Fx]. pose proof (E1 x c Ix Fx Nx) as R. apply read_get in R. eauto.
    - pose proof (E3 x Ix Dx Nx) as D. apply is_dir_cases in D. destruct D as [->|D]; [|exists NDir; exact D].
      exfalso. destruct Bx as [E|Bx]; [congruence|]. apply below_iff in Bx; auto. destruct Bx as [r Er]. destruct q; discriminate. }
  destruct Kx as [nx Kx]. exists bt. destruct Bx as [->|Bx]; [eauto|].
  apply below_iff in Bx; auto. destruct Bx as [r Er].
  pose proof (wf_ancestor _ Wt x q r (od_get_some_key _ _ _ Kx) Er) as A. apply in_dirs in A; [eauto|apply wf_nodup; auto].
Qed.

Lemma first_in ts q n : first_of ts q = Some n -> exists t, In t ts /\ od_get q t = Some n.
Proof.
  induction ts as [|t ts IH]; intros X; [discriminate|]. cbn [first_of fold_right] in X.
  destruct (od_get q t) as [n1|] eqn:E; [inversion X; subst; exists t; split; [left; auto|auto]|].
  destruct (IH X) as (t0 & I & G). exists t0. split; [right; auto|auto].
Qed.

Lemma latest_all ts q n : (forall t n', In t ts -> od_get q t = Some n' -> n' = n) ->
  (exists t n', In t ts /\ od_get q t = Some n') -> latest ts q = Some n.
Proof.
  intros A (t & n' & I & G). assert (X : exists n0, latest ts q = Some n0) by (apply latest_some; eauto).
  destruct X as [n0 X]. rewrite X. f_equal. rewrite latest_first in X. apply first_in in X. destruct X as (t0 & I0 & G0).
  eapply A; [apply in_rev; exact I0|exact G0].
Qed.

(** ** C32 *)

(** A bag of a split at its place. *)
Definition placed (place : pystr -> pystr) (bt : pystr * tree) : rbag := {| rb_loc := place (fst bt); rb_tree := snd bt |}.

(** The bags of a split are an aggregation without deleted paths. *)
Lemma split_aggregation s o p it out bags v ro h place :
  opened s -> plain_opts (so_reader s) o -> od_has (U "Multibag-Head-Version") (so_info s) = false ->
  layout_ok s true ->
  (forall q, multibag_path q -> od_get q (so_tree s) = None) ->
  p_manifests p <> [] ->
  splits_into s o p it out bags -> Forall (storable (so_reader s)) (map fst bags) ->
  found v place bags -> head_of (so_reader s) bags h ->
  exists others head t tags members, bags = others ++ [(head, t)] /\ tags_of (so_reader s) t = Ok tags /\
    h = open_hb head t tags (so_reader s) /\ head_lists ro h = Ok ([], members) /\
    aggregation v h (place head) members (map (placed place) bags) /\
    Forall2 (fun mh bt => wf_tree (snd bt) /\ exact_copies (so_tree s) (snd bt) (fst mh) (snd mh)) (manifests p) bags.
Proof.
  intros Ho Hp Hh Lo Nm Np Sp St Fo Hd.
  pose proof (lo_wf _ _ Lo) as Ws.
  destruct (C26_head_and_members_partial s o p it out bags [] [] Ho Hp (not_a_head s Hh) (NoDup_nil _) Np Sp St)
    as (others & head & t & tags & members & Eb & _ & Tg & _ & Im & Nms & Ndm).
  cbn [filter app] in Nms.
  assert (Hd' : h = open_hb head t tags (so_reader s)).
  { destruct Hd as (o' & head' & t' & tags' & Eb' & Tg' & ->). rewrite Eb in Eb'. apply app_inj_tail in Eb'.
    destruct Eb' as [_ Eb']. inversion Eb'; subst. rewrite Tg in Tg'. inversion Tg'; subst. reflexivity. }
  subst h.
  (* all output bags are well-formed copies *)
  assert (Fw : Forall2 (fun mh bt => wf_tree (snd bt) /\ exact_copies (so_tree s) (snd bt) (fst mh) (snd mh)) (manifests p) bags).
  { pose proof (C25_exact_copies s o p it out bags Ws Sp) as F1.
    pose proof Sp as M. apply made_split in M. destruct M as (ms0 & lu0 & ms' & lu' & _ & M & _). apply made_each in M.
    assert (F2 : Forall2 (fun mh bt => wf_tree (snd bt)) (manifests p) bags).
    { apply (each_bag s o p bags M (fun m h bt => wf_tree (snd bt))). intros m h bt _ (ms & lu & O).
      eapply bag_wf; [|exact O]. destruct h; auto. destruct Lo. constructor; auto.
      intros x Ox. apply lo_own. inversion Ox; subst; constructor; auto. }
    clear - F1 F2. induction F1; inversion F2; subst; constructor; auto. }
  (* the head bag *)
  pose (rb := placed place).
  assert (Hl : head_lists ro (open_hb head t tags (so_reader s)) = Ok ([], members)).
  { unfold head_lists. assert (D : snd (deleted_paths false (open_hb head t tags (so_reader s))) = Ok []).
    { unfold deleted_paths. cbn [hb_del open_hb]. assert (I : iter_deleted (open_hb head t tags (so_reader s)) = Ok []).
      { unfold iter_deleted. cbn [hb_tree hb_info hb_reader open_hb].
        assert (Td : tag_dir tags = U "multibag").
        { pose proof (split_last _ _ _ _ _ _ Sp Np) as (l & m & bags1 & b & t1 & ms0' & lu0' & ms1 & lu1 & ms' & lu' & Em & Eb2 & Hi & M & M1 & O & Nd).
          rewrite Eb in Eb2. apply app_inj_tail in Eb2. destruct Eb2 as [_ Eb2]. inversion Eb2; subst b t1.
          destruct (bag_tags s o m true ms' lu' head t Ho Hp) as (d & Td & Sh & V).
          { rewrite Forall_forall in St. assert (J : In head (map fst bags)) by (rewrite Eb, map_app; apply in_app_iff; right; left; auto).
            apply St in J. destruct J as (_ & J & _). exact J. }
          { exact O. }
          rewrite Tg in Td. inversion Td; subst d.
          assert (S0 : std_tags tags (U "multibag")) by (eapply split_std; [apply (opened_info_ok s Ho)|exact V|exact Sh]).
          destruct S0 as (S0 & _). unfold tag_dir_raw in S0. unfold tag_dir. destruct (od_get T_TagDir tags) as [[x|x]|]; congruence. }
        rewrite Td. change (sjoin (U "multibag") F_deleted) with (U "multibag/deleted.txt").
        assert (G : od_get (U "multibag/deleted.txt") t = None).
        { assert (X : exists m h, exact_copies (so_tree s) t m h).
          { clear - Fw Eb. subst bags. assert (Z : forall l bs, Forall2 (fun mh bt => wf_tree (snd bt) /\ exact_copies (so_tree s) (snd bt) (fst mh) (snd mh)) l bs ->
              In (head, t) bs -> exists m h, exact_copies (so_tree s) t m h).
            { induction 1 as [|mh bt l bs [_ H] F IH]; intros I; [destruct I|]. destruct I as [->|I]; eauto. }
            eapply Z; [exact Fw|]. apply in_app_iff. right; left; auto. }
          destruct X as (m & hh & [E1 E2 E3 E4]).
          assert (Z : od_get (U "multibag/deleted.txt") (so_tree s) = None) by (apply Nm; right; exists (U "deleted.txt"); reflexivity).
          assert (On : ~ own_file hh (U "multibag/deleted.txt")).
          { intros O. remember (U "multibag/deleted.txt") as z. destruct O; discriminate. }
          destruct (od_get (U "multibag/deleted.txt") t) as [[|c]|] eqn:G; auto; exfalso; swap 1 2.
          - assert (R : read (U "multibag/deleted.txt") t = Some c) by (unfold read; rewrite G; reflexivity).
            destruct (E2 _ _ R) as [O|[_ R2]]; [auto|]. apply read_get in R2. congruence.
          - destruct (E4 (U "multibag/deleted.txt")) as [A|[A|[[_ A]|(f & If & Ef & Hf)]]]; try discriminate.
            { unfold is_dir. change (match U "multibag/deleted.txt" with [] => true | _ => match od_get (U "multibag/deleted.txt") t with Some NDir => true | _ => false end end = true). rewrite G. reflexivity. }
            assert (Mf : multibag_path f).
            { destruct Hf as [Hf|[<- _]]; right; [|exists (U "deleted.txt"); reflexivity].
              apply below_iff in Hf; [|discriminate]. destruct Hf as [r ->]. exists (U "deleted.txt" ++ SLASH :: r). reflexivity. }
            apply Nm in Mf. unfold exists_, is_file, is_dir in Ef. rewrite Mf in Ef. destruct f as [|x f]; [|discriminate].
            destruct Hf as [Hf|[Hf _]]; discriminate. }
        unfold read, exists_, is_file, is_dir. rewrite G. reflexivity. }
      rewrite I. reflexivity. }
    rewrite D. cbn [bind]. destruct ro.
    - unfold member_bags_ro. cbn [hb_mem open_hb]. rewrite Im. reflexivity.
    - unfold HeadBag.member_bags, member_bags_ro. cbn [hb_mem open_hb]. rewrite Im. reflexivity. }
  assert (Ag : aggregation v (open_hb head t tags (so_reader s)) (place head) members (map rb bags)).
  { exists (map fst others), (map rb others). split; [|split].
    - left. rewrite Nms, Eb, map_app. reflexivity.
    - assert (X : forall l, (forall bt, In bt l -> In bt bags) -> Forall2 (fun n b => e_find v n = Some b) (map fst l) (map rb l)).
      { induction l as [|[n tt] l IH]; intros I; cbn [map]; constructor.
        - apply (Fo n tt). apply I. left; auto.
        - apply IH. intros bt J. apply I. right; auto. }
      apply X. intros bt J. rewrite Eb. apply in_app_iff. auto.
    - rewrite Eb, map_app. reflexivity. }
  exists others, head, t, tags, members. split; [exact Eb|]. split; [exact Tg|]. split; [reflexivity|]. split; [exact Hl|]. split; [exact Ag|exact Fw].
Qed.

(** Splitting a bag that is not a multibag, with a plan that has everything,
    and restoring the bags into a new directory gives the bag back but for
    the special files of BagIt. Missing for C32: that the restoration
    succeeds. *)
Theorem C32_round_trip_partial : forall s o p it out bags v us bsize ro h place dest',
  opened s -> plain_opts (so_reader s) o -> od_has (U "Multibag-Head-Version") (so_info s) = false ->
  layout_ok s true -> is_dir (U "data") (so_tree s) = true ->
  (forall q, multibag_path q -> od_get q (so_tree s) = None) ->
  p_manifests p <> [] -> plans_all p (so_tree s) ->
  splits_into s o p it out bags -> Forall (storable (so_reader s)) (map fst bags) ->
  plain_algos v -> found v place bags -> head_of (so_reader s) bags h ->
  restore v us true bsize ro h (place (hb_name h)) [] = Ok dest' ->
  forall q, ~ special_path q -> od_get q dest' = od_get q (so_tree s).
Proof.
  intros s o p it out bags v us bsize ro h place dest' Ho Hp Hh Lo Dd Nm Np Pa Sp St Pv Fo Hd Re q Sq.
  pose proof (lo_wf _ _ Lo) as Ws.
  destruct (split_aggregation s o p it out bags v ro h place Ho Hp Hh Lo Nm Np Sp St Fo Hd)
    as (others & head & t & tags & members & Eb & Tg & -> & Hl & Ag & Fw).
  cbn [hb_name open_hb] in Re.
  assert (Wb : Forall (fun bt : pystr * tree => wf_tree (snd bt)) bags).
  { clear - Fw. induction Fw as [|? ? ? ? [? _]]; constructor; auto. }
  pose (rb := placed place).
  assert (Wr : Forall (fun b => wf_tree (rb_tree b) /\ rb_loc b <> e_dest v) (map rb bags)).
  { apply Forall_forall. intros b I. apply in_map_iff in I. destruct I as ([n tt] & <- & I). cbn [rb rb_tree rb_loc fst snd].
    rewrite Forall_forall in Wb. split; [exact (Wb _ I)|]. apply (Fo n tt I). }
  assert (Bq : ~ bag_file v q) by (intros B; apply Sq; eapply special_bag_file; eauto).
  assert (Mq : ~ multibag_path q) by (intros B; apply Sq; do 5 right; exact B).
  destruct (C33_combination v us true bsize ro (open_hb head t tags (so_reader s)) (place head) [] members (map rb bags) dest'
    Pv eq_refl Hl Ag Wr Re q Bq (fun _ => Mq)) as [_ Q].
  rewrite Q by (intros (x & [] & _)). rewrite map_map. cbn [rb rb_tree].
  assert (Ag1 : forall t0 n', In t0 (map snd bags) -> od_get q t0 = Some n' -> od_get q (so_tree s) = Some n').
  { intros t0 n' I G. apply in_map_iff in I. destruct I as (bt & <- & I).
    assert (X : exists m hh, wf_tree (snd bt) /\ exact_copies (so_tree s) (snd bt) m hh).
    { clear - Fw I. induction Fw as [|mh b l bs H F IH]; [destruct I|]. destruct I as [->|I]; eauto. }
    destruct X as (m & hh & W & E). eapply bag_node; eauto. }
  change (latest (map snd bags) q = od_get q (so_tree s)).
  destruct (od_get q (so_tree s)) as [n|] eqn:G.
  - apply latest_all.
    + intros t0 n' I G'. pose proof (Ag1 t0 n' I G'). congruence.
    + destruct (some_bag s p bags q n Ws Pa Fw Sq G) as (bt & n' & I & G'). exists (snd bt), n'. split; [apply in_map; auto|auto].
  - destruct (latest (map snd bags) q) as [n|] eqn:La; auto. exfalso.
    assert (X : exists n0, latest (map snd bags) q = Some n0) by eauto. apply latest_some in X. destruct X as (t0 & I & n' & G').
    pose proof (Ag1 t0 n' I G'). congruence.
Qed.
Print Assumptions C32_round_trip_partial.

(** Plans made by a splitter have everything (see C20), unless there are
    top-level files like "bagit-txt" that the splitter takes for special
    ones. *)
Theorem C32_created_plans : forall k sp b,
  wf_tree (b_tree b) -> plain_forhead sp (b_tree b) ->
  (forall x, In x (files (b_tree b)) -> special_name x = true -> ~ In SLASH x -> special_path x) ->
  plans_all (create_plan k sp b) (b_tree b).
Proof.
  intros k sp b W Hf Hs x Lx Sx. destruct (C20_plan_covers_the_bag_partial k sp b W Hf) as [_ C].
  assert (I : In x (all_contents (create_plan k sp b))).
  { apply C. destruct Lx as [Fx|Ex]; [right|left; auto].
    assert (I : In x (files (b_tree b))).
    { apply in_files; auto. apply wf_nodup; auto. }
    split; [exact I|]. destruct (special_name x) eqn:E; [|auto]. left.
    destruct (in_dec N.eq_dec SLASH x) as [Y|Y]; [exact Y|]. exfalso. apply Sx. apply Hs; auto. }
  unfold all_contents in I. apply in_flat_map in I. destruct I as (m & Im & Ix). eauto.
Qed.
Print Assumptions C32_created_plans.

Definition special_pathb (p : pystr) : bool :=
  str_in p [U "bagit.txt"; U "bag-info.txt"; U "fetch.txt"] || startswith p (U "manifest-") ||
  startswith p (U "tagmanifest-") || in_multibag p.
Definition plans_allb (p : plan) (t : tree) : bool :=
  existsb (fun q => streq (dirname q) []) (od_keys t) &&
  forallb (fun x => (negb (is_file x t) && existsb (fun q => streq (dirname q) x) (od_keys t)) ||
                    str_in x (flat_map m_contents (p_manifests p)) || special_pathb x) (od_keys t).

Lemma plans_allb_ok p t : plans_allb p t = true -> plans_all p t.
Proof.
  unfold plans_allb. rewrite andb_true_iff. intros [E F] x Lx Sx. rewrite forallb_forall in F.
  assert (C : forall d, existsb (fun q => streq (dirname q) d) (od_keys t) = true -> ~ empty_dir d t).
  { intros d Ex [_ Ne]. apply existsb_exists in Ex. destruct Ex as (q & I & Q). apply streq_eq in Q. apply (Ne q I Q). }
  assert (I : In x (od_keys t)).
  { destruct Lx as [Fx|Ex].
    - apply is_file_read in Fx. destruct Fx as [c Fx]. apply read_get in Fx. eapply od_get_some_key; eauto.
    - pose proof Ex as [Dx _]. apply is_dir_cases in Dx. destruct Dx as [->|Dx]; [|eapply od_get_some_key; exact Dx].
      exfalso. apply (C [] E Ex). }
  apply F in I. apply orb_true_iff in I. destruct I as [I|I]; [apply orb_true_iff in I; destruct I as [I|I]|].
  - apply andb_true_iff in I. destruct I as [D I]. exfalso. destruct Lx as [Fx|Ex]; [|exact (C x I Ex)].
    rewrite Fx in D. discriminate.
  - apply str_in_iff, in_flat_map in I. exact I.
  - exfalso. apply Sx. unfold special_pathb in I. rewrite !orb_true_iff in I. destruct I as [[[I|I]|I]|I].
    + apply str_in_iff in I. cbn in I. unfold special_path. intuition auto.
    + do 3 right. left. exact I.
    + do 4 right. left. exact I.
    + do 5 right. apply multibag_iff. exact I.
Qed.

(** The example of a split bag is restored. *)
Definition ex_place (n : pystr) : pystr := U "/bags/" ++ n.
Definition ex_rt_env : env :=
  {| e_algos := ex_algos; e_version := fun _ => Ok (true, true); e_danger := fun _ _ => false;
     e_hash := fun a c => a ++ dec (N.of_nat (length c)); e_dest := U "/out";
     e_find := fun n => match od_get n ex_bags with
                        | Some t => Some {| rb_loc := ex_place n; rb_tree := t |}
                        | None => None
                        end |}.
Definition ex_last : pystr * tree := last ex_bags ([], []).
Definition ex_rt_head : hb :=
  open_hb (fst ex_last) (snd ex_last) (got [] (tags_of Codecs (snd ex_last))) Codecs.
Definition ex_back : tree :=
  got [] (restore ex_rt_env true true (fun _ => U "1 kB") false ex_rt_head (ex_place (hb_name ex_rt_head)) []).

Example C32_case :
  layout_ok ex_source true /\ is_dir (U "data") ex_tree = true /\
  (forall q, multibag_path q -> od_get q ex_tree = None) /\ plans_all ex_plan ex_tree /\
  found ex_rt_env ex_place ex_bags /\ head_of Codecs ex_bags ex_rt_head /\
  restore ex_rt_env true true (fun _ => U "1 kB") false ex_rt_head (ex_place (hb_name ex_rt_head)) [] = Ok ex_back /\
  files ex_back = [U "bag-info.txt"; U "manifest-md5.txt"; U "bagit.txt"; U "tagmanifest-md5.txt"; U "meta/m"; U "data/d/b"; U "data/a"] /\
  dirs ex_back = [U "data"; U "meta"; U "data/d"; U "data/e"].
Proof.
  split; [apply layoutb_ok; vm_compute; reflexivity|]. split; [reflexivity|].
  split.
  { intros q M. destruct (od_get q ex_tree) eqn:E; auto. exfalso. apply od_get_some_key in E. apply multibag_iff in M.
    assert (X : forallb (fun q => negb (in_multibag q)) (od_keys ex_tree) = true) by (vm_compute; reflexivity).
    rewrite forallb_forall in X. apply X in E. rewrite M in E. discriminate. }
  split; [apply plans_allb_ok; vm_compute; reflexivity|].
  split.
  { intros n t I. assert (X : od_get n ex_bags = Some t) by (apply od_in_get; auto; apply nodupb_ok; vm_compute; reflexivity).
    split; [cbn [e_find ex_rt_env]; rewrite X; reflexivity|discriminate]. }
  split.
  { exists (removelast ex_bags), (fst ex_last), (snd ex_last), (got [] (tags_of Codecs (snd ex_last))).
    split; [vm_compute; reflexivity|]. split; [vm_compute; reflexivity|reflexivity]. }
  split; [vm_compute; reflexivity|]. split; vm_compute; reflexivity.
Qed.

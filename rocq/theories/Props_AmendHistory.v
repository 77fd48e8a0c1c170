(** Aggregations that were amended again and again (C112) *)
Require Import String NArith PeanoNat Bool List Lia.
From Verif Require Import PyBase PyFacts Version Tsv TsvProofs Fs FsFacts HeadBag HeadBagProofs HeadBagProofs2 HeadBagProofs3 BagIt BagItProofs Split SplitApply SplitApplyProofs SplitApplyProofs5 SplitApplyProofs7 SplitApplyProofs8 Restore RestoreProofs RestoreProofs2 RestoreProofs3 RestoreProofs6 Props_SplitApply Props_Restore Props_Restore3 Amend AmendProofs AmendProofs2 AmendProofs3 AmendProofs4 Props_Amend SingleProofs Props_Single Props_Validate2 Props_Validate5 Props_AmendRestore.
Import ListNotations.
Open Scope N_scope.

(** ** Specification *)

(** One version after the first: the bags amended with, and the bag that is to
    become the new head bag, as they were before; [rl_td] is the tag directory
    of the latter. *)
Record release := {
  rl_bags : list src;
  rl_name : pystr;
  rl_tree : tree;
  rl_td : pystr;
  rl_version : pystr
}.

(** All its bags in order, with their files. *)
Definition bags_in (x : release) : list (pystr * tree) :=
  map (fun s => (s_name s, s_tree s)) (rl_bags x) ++ [(rl_name x, rl_tree x)].

(** The head bag [n] with files [t] is opened with the reader [r], and is
    amended; the new head bag has the files [t'] afterwards. *)
Definition one_amendment (r : reader) (n : pystr) (t : tree) (x : release) (t' : tree) : Prop :=
  exists v algs bsize repr ro i j new' old',
    plain_algos v /\ (forall a, In a algs -> In a (e_algos v)) /\ plain_size bsize /\
    tags_of r t = Ok i /\ tags_of Codecs (rl_tree x) = Ok j /\
    amend_bag_with v algs bsize repr ro (open_hb n t i r) (rl_bags x) (rl_version x)
      (open_hb (rl_name x) (rl_tree x) j Codecs) = (new', Ok old') /\
    t' = hb_tree new'.

(** Any number of amendments, each of the result of the one before. [added] are
    the bags added since the first version, as they are on disk afterwards. *)
Inductive amended_by (step : pystr -> tree -> release -> tree -> Prop) (n0 : pystr) (t0 : tree) :
    list release -> pystr -> tree -> list (pystr * tree) -> Prop :=
  | First : amended_by step n0 t0 [] n0 t0 []
  | Next : forall rs n t added x t',
      amended_by step n0 t0 rs n t added -> step n t x t' ->
      amended_by step n0 t0 (rs ++ [x]) (rl_name x) t'
        (added ++ map (fun s => (s_name s, s_tree s)) (rl_bags x) ++ [(rl_name x, t')]).

(** What is required of the bags of a version: they are trees with a directory
    data or none, their names and the paths of payload files can be written to
    the lists, and the tag directory and the version are one-line values. *)
Definition listable (r : reader) (b : pystr * tree) : Prop :=
  storable r (fst b) /\ bag_files (snd b) /\
  forall p, is_payload p && is_file p (snd b) = true -> storable r p.

Definition good_release (r : reader) (x : release) : Prop :=
  Forall (listable r) (bags_in x) /\
  (exists j, tags_of Codecs (rl_tree x) = Ok j /\ tag_dir_raw j = Ok (rl_td x)) /\
  good_path (rl_td x) /\ outside_payload (rl_td x) /\ tag_value_ok Codecs (rl_td x) /\
  rl_version x <> [] /\ tag_value_ok Codecs (rl_version x).

(** The version of a bag, "1" if it has none. *)
Definition version_is (i : infod) (ov : pystr) : Prop :=
  od_get (U "Multibag-Head-Version") i = Some (IStr ov) \/
  (od_get (U "Multibag-Head-Version") i = None /\ ov = U "1").

(** What a bag answers when asked for a file: its lookup, or itself for its own
    payload files if it is a plain bag. *)
Definition answers (h : hb) (p : pystr) (x : option pystr) : Prop :=
  (is_head h = true /\ snd (lookup_file p false h) = Ok x) \/
  (is_head h = false /\ x = if is_payload p && is_file p (hb_tree h) then Some (hb_name h) else None).

(** ** One more amendment *)

Lemma storable_some r s : storable r s -> s <> [].
Proof. intros [[[(c & t & E & _) _] _] _] ->. discriminate E. Qed.

Lemma answer_head h p x : hb_lu h = None -> is_head h = true -> snd (lookup_file p false h) = Ok x -> old_answer h p = x.
Proof.
  intros L E H. unfold old_answer. rewrite E. unfold lookup_file, lookup_file_ro, cache_file_lookup in H. rewrite L in H.
  destruct (iter_file_lookup h) as [es|e]; cbn in H; [inversion H; reflexivity|].
  destruct e; cbn in H; try discriminate H. inversion H. reflexivity.
Qed.

Lemma answers_old h p x : hb_lu h = None -> answers h p x -> old_answer h p = x.
Proof.
  intros L [[E H]|[E ->]]; [apply answer_head; assumption|]. unfold old_answer. rewrite E. reflexivity.
Qed.

Lemma answers_open n t i r p x : answers (open_hb n t i r) p x -> old_answer (open_hb n t i r) p = x.
Proof. apply answers_old. reflexivity. Qed.

Lemma answer_of_old h p x : hb_lu h = None -> answer_of h p x -> old_answer h p = x.
Proof. apply answer_old. Qed.

Lemma version_old repr i ov : version_is i ov -> old_version repr i = ov.
Proof. unfold version_is, old_version. change (U "Multibag-Head-Version") with T_HeadVersion. intros [->|[-> ->]]; reflexivity. Qed.

(** The head bag [n] with files [t] and tags [i] has the members [ms], answers
    as [A], and has the history [vs] of versions, its own included. *)
Record version_at (r : reader) (n : pystr) (t : tree) (i : infod) (ms : list minfo) (A : pystr -> option pystr) (vs : list pystr) : Prop := {
  va_bag : bag_files t;
  va_name : n <> [];
  va_tags : tags_of r t = Ok i;
  va_members : members_of (open_hb n t i r) ms;
  va_answer : forall p, old_answer (open_hb n t i r) p = A p;
  va_lookup : is_head (open_hb n t i r) = true -> forall p, snd (lookup_file p false (open_hb n t i r)) = Ok (A p);
  va_past : exists ov, version_is i ov /\ tag_values i (U "Multibag-Head-Deprecates") ++ [ov] = vs;
  va_plain : Forall (tag_value_ok Codecs) vs;
  va_st_members : Forall (storable_member r) ms;
  va_st_answers : forall p x, A p = Some x -> storable r p /\ storable r x
}.

Definition members_in (x : release) : list minfo := map (fun b => plain_member (fst b)) (bags_in x).
Definition over (A : pystr -> option pystr) (bags : list (pystr * tree)) (p : pystr) : option pystr :=
  match holder bags p with Some b => Some b | None => A p end.

Lemma bags_same x : bags_in x = map bag_of (rl_bags x) ++ [(rl_name x, rl_tree x)].
Proof. reflexivity. Qed.

Lemma holder_in bags p x : holder bags p = Some x -> exists t, In (x, t) bags /\ is_payload p && is_file p t = true.
Proof.
  induction bags as [|[b t] bags IH]; cbn [holder]; [intros H; discriminate H|].
  destruct (holder bags p) as [y|].
  - intros H. destruct (IH H) as (u & I1 & I2). exists u. split; [right; exact I1|exact I2].
  - destruct (is_payload p && is_file p t) eqn:E; [|intros H; discriminate H]. intros H. injection H as <-. exists t. split; [left; reflexivity|exact E].
Qed.

Lemma amendment_of bsize repr r n t i ms A vs x j : plain_size bsize -> version_at r n t i ms A vs -> good_release r x ->
  tags_of Codecs (rl_tree x) = Ok j ->
  amendment bsize repr (open_hb n t i r) (open_hb (rl_name x) (rl_tree x) j Codecs) (rl_name x) (rl_tree x) (rl_td x) (rl_version x).
Proof.
  intros B V (Ls & (j' & Tj & Td) & Gt & Ot & Tv & Nv & Vv) J. assert (j' = j) by congruence. subst j'.
  split; [exact B|]. split; [exists j; auto|]. split.
  { apply wf_nodup. apply Forall_app in Ls. destruct Ls as [_ Ls]. inversion Ls as [|? ? (_ & [W _] & _) _]. exact W. }
  split; [exact Tv|]. split; [exact Nv|]. split; [exact Vv|].
  destruct (va_past _ _ _ _ _ _ _ V) as (ov & Hv & E). unfold deprecates. cbn [open_hb hb_info].
  rewrite (version_old repr i ov Hv). change T_HeadDeprecates with (U "Multibag-Head-Deprecates"). rewrite E. exact (va_plain _ _ _ _ _ _ _ V).
Qed.

Lemma next_version r n t i ms A vs x t' :
  version_at r n t i ms A vs -> good_release r x -> one_amendment r n t x t' ->
  NoDup (map Tsv.m_name ms ++ map fst (bags_in x)) -> (forall p y, A p = Some y -> ~ In y (map fst (bags_in x))) ->
  exists i', version_at r (rl_name x) t' i' (ms ++ members_in x) (over A (bags_in x)) (vs ++ [rl_version x]) /\
    is_head (open_hb (rl_name x) t' i' r) = true.
Proof.
  intros V G (v & algs & bsize & repr & ro & i' & j & new' & old' & Pa & Al & B & Ti & Tj & H & ->) Nd Na.
  assert (i' = i) by (pose proof (va_tags _ _ _ _ _ _ _ V); congruence). subst i'.
  pose proof (amendment_of bsize repr _ _ _ _ _ _ _ _ _ B V G Tj) as Am.
  pose proof G as (Ls & _ & Gt & Ot & Tv & Nv & Vv).
  destruct V as [Vb Vn Vt Vm Va Vl (ov & Hv & Ep) Vp Sm Sa].
  set (old := open_hb n t i r) in *. set (new := open_hb (rl_name x) (rl_tree x) j Codecs) in *.
  assert (Lb : Forall (fun s => bag_files (s_tree s) /\ s_name s <> []) (rl_bags x)).
  { apply Forall_app in Ls. destruct Ls as [Ls _]. rewrite Forall_map in Ls. revert Ls. apply Forall_impl.
    intros s (S1 & S2 & _). split; [exact S2|]. exact (storable_some _ _ S1). }
  assert (Lh : listable r (rl_name x, rl_tree x)).
  { apply Forall_app in Ls. destruct Ls as [_ Ls]. inversion Ls; assumption. }
  destruct Lh as (Sh & Bh & Ph). cbn [fst snd] in Sh, Bh, Ph.
  assert (Nn : rl_name x <> []) by exact (storable_some _ _ Sh).
  assert (Me : map entry_of (map default_bag (rl_bags x)) ++ [own_member None None [] (rl_name x)] = members_in x).
  { unfold members_in, bags_in. rewrite map_app, !map_map. reflexivity. }
  assert (Sx : Forall (storable_member r) (members_in x)).
  { apply Forall_map. revert Ls. apply Forall_impl. intros b (S1 & _). apply storable_name. exact S1. }
  assert (Smx : Forall (storable_member r) (ms ++ members_in x)) by (apply Forall_app; auto).
  (* what is read again *)
  destruct (C41_members v algs bsize repr ro old (map default_bag (rl_bags x)) (own_member None None []) SNone SNone (rl_version x) new new' old'
    (rl_name x) (rl_tree x) (rl_td x) ms Am Vm H r) as (k & Tk & Kv & Km).
  { rewrite Me. exact Smx. }
  rewrite Me in Km.
  assert (L : last_ones (ms ++ members_in x) = ms ++ members_in x).
  { apply C41_distinct. rewrite map_app. unfold members_in. rewrite map_map. exact Nd. }
  rewrite L in Km.
  destruct (C44_deprecates v algs bsize repr ro old (map default_bag (rl_bags x)) (own_member None None []) SNone SNone (rl_version x) new new' old'
    (rl_name x) (rl_tree x) (rl_td x) ov Am Hv H r) as (k' & Tk' & Kd). assert (k' = k) by congruence. subst k'.
  assert (St : all_storable r old (map bag_of (rl_bags x) ++ [(rl_name x, rl_tree x)])).
  { split.
    - intros p y X. apply (answer_of_old old p (Some y) eq_refl) in X. rewrite Va in X. exact (Sa _ _ X).
    - intros b p I0 Hp. rewrite <- bags_same in I0. rewrite Forall_forall in Ls. destruct (Ls b I0) as (S1 & _ & S3). split; [exact (S3 p Hp)|exact S1]. }
  assert (Hh : is_head old = true -> hb_lu old = None /\ exists es, iter_file_lookup old = Ok es).
  { intros Eh. split; [reflexivity|]. pose proof H as H'. unfold amend_bag_with, amend in H'. apply bindM_ok in H'. destruct H' as (o & h1 & H1 & _).
    unfold amend_lists in H1. pose proof (init_old repr false old new) as Eo. cbv zeta in Eo.
    destruct (init_multibag_info repr false old new) as [o' nw]. cbn [fst] in Eo. destruct Eo as (Eh' & _ & Ef & _ & _).
    apply bindM_ok in H1. destruct H1 as ([] & ha & _ & H1). apply bindM_ok in H1. destruct H1 as ([] & hb' & H1 & _).
    unfold init_file_lookup in H1. apply bindM_ok in H1. destruct H1 as ([] & hc & _ & H1). rewrite Eh', Eh in H1. rewrite <- Ef.
    destruct (iter_file_lookup o') as [es|e]; [eauto|discriminate H1]. }
  destruct (C42_exact v algs bsize repr ro old (rl_bags x) (rl_version x) new new' old' (rl_name x) (rl_tree x) (rl_td x) Am Gt Ot Hh Vb Vn Lb Bh Nn H r St)
    as (k' & Tk2 & Kl). assert (k' = k) by congruence. subst k'.
  rewrite <- bags_same in Kl.
  assert (Sh' : od_get T_HeadVersion k = Some (IStr (rl_version x))).
  { apply one_value; [|exact Kv]. unfold tags_of in Tk. destruct (read (U "bag-info.txt") (hb_tree new')) as [c|]; [exact (Props_Restore3.load_shape _ _ _ Tk)|].
    injection Tk as <-. discriminate Kv. }
  assert (Hd : is_head (open_hb (rl_name x) (hb_tree new') k r) = true).
  { unfold is_head, od_has. cbn [open_hb hb_info]. rewrite Sh'. reflexivity. }
  assert (Kh : forall p, lookups (old_answer old) (bags_in x) p = over A (bags_in x) p).
  { intros p. unfold over. rewrite lookups_holder.
    - rewrite Va. reflexivity.
    - revert Nd. generalize (map Tsv.m_name ms). intros l0. induction l0 as [|y l0 IH]; [tauto|]. intros D. inversion D; auto.
    - intros q y E. rewrite Va in E. exact (Na q y E). }
  exists k. split; [|exact Hd]. constructor.
  - exact (amended_bag _ _ _ _ _ _ _ _ _ _ _ _ _ _ _ _ _ Pa Al Am Gt Ot Bh H).
  - exact Nn.
  - exact Tk.
  - left. split; [exact Hd|exact Km].
  - intros p. rewrite (answer_head (open_hb (rl_name x) (hb_tree new') k r) p _ eq_refl Hd (Kl p)). apply Kh.
  - intros _ p. rewrite <- Kh. apply Kl.
  - exists (rl_version x). split; [left; exact Sh'|]. rewrite Kd. unfold old. cbn [open_hb hb_info]. rewrite Ep. reflexivity.
  - apply Forall_app. split; [exact Vp|]. constructor; [exact Vv|constructor].
  - exact Smx.
  - intros p y. unfold over. destruct (holder (bags_in x) p) as [z|] eqn:E; [|apply Sa]. intros X. injection X as <-.
    apply holder_in in E. destruct E as (u & Iu & Pu). rewrite Forall_forall in Ls. destruct (Ls _ Iu) as (S1 & _ & S3). split; [exact (S3 p Pu)|exact S1].
Qed.

(** The other files of the new head bag stay. *)
Lemma next_nodes r n t i ms A vs x t' q :
  version_at r n t i ms A vs -> good_release r x -> one_amendment r n t x t' ->
  ~ describing q -> ~ listing (rl_td x) q -> od_get q t' = od_get q (rl_tree x).
Proof.
  intros V G (v & algs & bsize & repr & ro & i' & j & new' & old' & Pa & Al & B & Ti & Tj & H & ->) Q1 Q2.
  assert (i' = i) by (pose proof (va_tags _ _ _ _ _ _ _ V); congruence). subst i'.
  pose proof (amendment_of bsize repr _ _ _ _ _ _ _ _ _ B V G Tj) as Am.
  refine (amended_nodes _ _ _ _ _ _ _ _ _ _ _ _ _ _ _ _ _ q Pa Al Am Q2 _ H). left. intros X. apply Q1, describing_saved. exact X.
Qed.

(** ** C112 *)

(** The first version: a plain bag, or a head bag with members [ms]; its
    version is [ov]. Its lists can be read and written again. *)
Record first_version (r : reader) (n : pystr) (t : tree) (i : infod) (ms : list minfo) (ov : pystr) : Prop := {
  fv_bag : bag_files t;
  fv_name : n <> [];
  fv_tags : tags_of r t = Ok i;
  fv_members : members_of (open_hb n t i r) ms;
  fv_lookup : forall p, exists x, answers (open_hb n t i r) p x;
  fv_version : version_is i ov;
  fv_plain : Forall (tag_value_ok Codecs) (tag_values i (U "Multibag-Head-Deprecates") ++ [ov]);
  fv_st_members : Forall (storable_member r) ms;
  fv_st_answers : forall p x, answers (open_hb n t i r) p (Some x) -> storable r p /\ storable r x
}.

(** No bag has the name of another one. *)
Definition all_distinct (r : reader) (n0 : pystr) (t0 : tree) (i0 : infod) (ms0 : list minfo) (rs : list release) : Prop :=
  NoDup (map Tsv.m_name ms0 ++ map fst (flat_map bags_in rs)) /\
  (forall p y, answers (open_hb n0 t0 i0 r) p (Some y) -> ~ In y (map fst (flat_map bags_in rs))).

Lemma first_at r n t i ms ov : first_version r n t i ms ov ->
  version_at r n t i ms (old_answer (open_hb n t i r)) (tag_values i (U "Multibag-Head-Deprecates") ++ [ov]).
Proof.
  intros [F1 F2 F3 F4 F5 F6 F7 F8 F9]. constructor; auto.
  - intros E p. destruct (F5 p) as (x & X). rewrite (answers_open _ _ _ _ p x X). destruct X as [[_ X]|[X _]]; [exact X|congruence].
  - exists ov. auto.
  - intros p x E. apply F9. destruct (F5 p) as (y & Y). rewrite (answers_open _ _ _ _ p y Y) in E. subst y. exact Y.
Qed.

Lemma holder_app a b p : holder (a ++ b) p = match holder b p with Some x => Some x | None => holder a p end.
Proof.
  induction a as [|[n t] a IH]; cbn [app holder]; [destruct (holder b p); reflexivity|]. rewrite IH. destruct (holder b p); reflexivity.
Qed.

Lemma NoDup_front {A} (a b : list A) : NoDup (a ++ b) -> NoDup a /\ forall x, In x a -> ~ In x b.
Proof.
  induction a as [|x a IH]; cbn [app]; intros D; [split; [constructor|intros x []]|]. inversion D as [|? ? Ni D']; subst.
  destruct (IH D') as [D1 D2]. split.
  - constructor; [|exact D1]. intros X. apply Ni, in_or_app. left. exact X.
  - intros y [<-|Y]; [|exact (D2 y Y)]. intros X. apply Ni, in_or_app. right. exact X.
Qed.

(** The bags on disk: those of the versions, where head bags got their lists. *)
Definition kept_as (rs : list release) (a b : pystr * tree) : Prop :=
  fst a = fst b /\ wf_tree (snd a) /\
  forall p, ~ describing p -> (forall x, In x rs -> ~ listing (rl_td x) p) -> od_get p (snd a) = od_get p (snd b).

Lemma history_at r n0 t0 i0 ms0 ov0 rs n t added :
  amended_by (one_amendment r) n0 t0 rs n t added -> Forall (good_release r) rs -> first_version r n0 t0 i0 ms0 ov0 ->
  all_distinct r n0 t0 i0 ms0 rs ->
  exists i, version_at r n t i (ms0 ++ map (fun b => plain_member (fst b)) (flat_map bags_in rs))
    (over (old_answer (open_hb n0 t0 i0 r)) (flat_map bags_in rs))
    (tag_values i0 (U "Multibag-Head-Deprecates") ++ [ov0] ++ map rl_version rs) /\
    Forall2 (kept_as rs) added (flat_map bags_in rs) /\ (rs <> [] -> is_head (open_hb n t i r) = true).
Proof.
  intros H. induction H as [|rs n t added x t' H IH O]; intros G F D.
  - exists i0. cbn [flat_map map]. rewrite !app_nil_r. split; [|split; [constructor|congruence]]. pose proof (first_at _ _ _ _ _ _ F) as [F1 F2 F3 F4 F5 F6 F7 F8 F9 F10].
    constructor; auto.
  - apply Forall_app in G. destruct G as [G Gx]. inversion Gx as [|? ? Gx' _]; subst. clear Gx.
    destruct D as [D1 D2]. rewrite flat_map_app in D1, D2. cbn [flat_map] in D1, D2. rewrite app_nil_r in D1, D2. rewrite map_app in D1, D2.
    destruct (IH G F) as (i & V & K & _).
    { split.
      - rewrite app_assoc in D1. apply NoDup_front in D1. exact (proj1 D1).
      - intros p y A X. apply (D2 p y A). apply in_or_app. left. exact X. }
    assert (Dx : NoDup (map Tsv.m_name (ms0 ++ map (fun b => plain_member (fst b)) (flat_map bags_in rs)) ++ map fst (bags_in x))).
    { rewrite map_app, map_map, <- app_assoc. exact D1. }
    assert (Nx : forall p y, over (old_answer (open_hb n0 t0 i0 r)) (flat_map bags_in rs) p = Some y -> ~ In y (map fst (bags_in x))).
    { intros p y E X. unfold over in E. destruct (holder (flat_map bags_in rs) p) as [z|] eqn:Ez.
      - injection E as ->. apply holder_in in Ez. destruct Ez as (u & Iu & _). rewrite app_assoc in D1. apply NoDup_front in D1.
        apply (proj2 D1 y); [|exact X]. apply in_or_app. right. apply in_map_iff. exists (y, u). auto.
      - destruct (fv_lookup _ _ _ _ _ _ F p) as (z & Z). rewrite (answers_open _ _ _ _ p z Z) in E. subst z.
        apply (D2 p y Z). apply in_or_app. right. exact X. }
    destruct (next_version _ _ _ _ _ _ _ _ _ V Gx' O Dx Nx) as (i' & V' & Hd).
    exists i'. rewrite flat_map_app. cbn [flat_map]. rewrite app_nil_r, !map_app. cbn [map]. split; [|split; [|intros _; exact Hd]].
    + rewrite !app_assoc. rewrite !app_assoc in V'. unfold members_in in V'.
      destruct V' as [W1 W2 W3 W4 W5 W6 W7 W8 W9 W10].
      assert (Eo : forall p, over (over (old_answer (open_hb n0 t0 i0 r)) (flat_map bags_in rs)) (bags_in x) p =
                             over (old_answer (open_hb n0 t0 i0 r)) (flat_map bags_in rs ++ bags_in x) p).
      { intros p. unfold over. rewrite holder_app. destruct (holder (bags_in x) p); reflexivity. }
      constructor; auto.
      * intros p. rewrite W5. apply Eo.
      * intros E p. rewrite (W6 E p), Eo. reflexivity.
      * intros p y. rewrite <- Eo. apply W10.
    + apply Forall2_app; [|].
      * clear - K. induction K as [|a b la lb (K1 & K2 & K3) _ IHK]; constructor; [|exact IHK]. split; [exact K1|]. split; [exact K2|]. intros p P1 P2. apply K3; [exact P1|].
        intros y Y. apply P2, in_or_app. left. exact Y.
      * unfold bags_in. apply Forall2_app.
        -- destruct Gx' as (Ls & _). apply Forall_app in Ls. destruct Ls as [Ls _]. rewrite Forall_map in Ls.
           clear - Ls. induction Ls as [|s l (_ & [W _] & _) _ IH]; cbn [map]; constructor; [|exact IH].
           split; [reflexivity|]. split; [exact W|]. reflexivity.
        -- constructor; [|constructor]. split; [reflexivity|]. cbn [snd]. split; [exact (proj1 (va_bag _ _ _ _ _ _ _ V'))|].
           intros p P1 P2. apply (next_nodes _ _ _ _ _ _ _ _ _ p V Gx' O P1). apply P2, in_or_app. right. left. reflexivity.
Qed.

(** After any number of amendments: the members are those of the first version
    and all bags that were added, in order; the versions deprecated and the own
    version are the whole history in order; and every file is looked up in the
    last bag that has it. *)
Theorem C112_lists : forall r n0 t0 i0 ms0 ov0 rs n t added,
  amended_by (one_amendment r) n0 t0 rs n t added -> Forall (good_release r) rs -> first_version r n0 t0 i0 ms0 ov0 ->
  all_distinct r n0 t0 i0 ms0 rs ->
  exists i, tags_of r t = Ok i /\
    members_of (open_hb n t i r) (ms0 ++ map (fun b => plain_member (fst b)) (flat_map bags_in rs)) /\
    (exists ov, version_is i ov /\
       tag_values i (U "Multibag-Head-Deprecates") ++ [ov] =
       tag_values i0 (U "Multibag-Head-Deprecates") ++ [ov0] ++ map rl_version rs) /\
    (forall p x, answers (open_hb n0 t0 i0 r) p x ->
       answers (open_hb n t i r) p (match holder (flat_map bags_in rs) p with Some b => Some b | None => x end)).
Proof.
  intros r n0 t0 i0 ms0 ov0 rs n t added H G F D. destruct (history_at _ _ _ _ _ _ _ _ _ _ H G F D) as (i & V & _).
  exists i. split; [exact (va_tags _ _ _ _ _ _ _ V)|]. split; [exact (va_members _ _ _ _ _ _ _ V)|]. split; [exact (va_past _ _ _ _ _ _ _ V)|].
  intros p x X. pose proof (answers_open _ _ _ _ p x X) as E. rewrite <- E.
  change (match holder (flat_map bags_in rs) p with Some b => Some b | None => old_answer (open_hb n0 t0 i0 r) p end)
    with (over (old_answer (open_hb n0 t0 i0 r)) (flat_map bags_in rs) p).
  destruct (is_head (open_hb n t i r)) eqn:Eh.
  - left. split; [exact Eh|]. exact (va_lookup _ _ _ _ _ _ _ V Eh p).
  - right. split; [exact Eh|]. rewrite <- (va_answer _ _ _ _ _ _ _ V p). unfold old_answer. rewrite Eh. reflexivity.
Qed.
Print Assumptions C112_lists.

Lemma head_last step n0 t0 rs n t added : amended_by step n0 t0 rs n t added -> rs <> [] -> exists before, added = before ++ [(n, t)].
Proof. intros [|rs' n' t' added' x t'' H O] E; [congruence|]. exists (added' ++ map (fun s => (s_name s, s_tree s)) (rl_bags x)). rewrite <- app_assoc. reflexivity. Qed.

(** The bag can be found, with the files that it has on disk, and is not the
    destination. *)
Definition on_shelf (w : env) (b : pystr * tree) (f : rbag) : Prop :=
  e_find w (fst b) = Some f /\ rb_tree f = snd b /\ rb_loc f <> e_dest w.

(** Restoring the last version into a new directory: at every path that does
    not describe a bag there is what is left after copying the members of the
    first version [olds] and the bags of all versions after it, in order,
    unless the last head bag deletes it. *)
Theorem C112_restored : forall r n0 t0 i0 ms0 ov0 rs n t before w olds found us rt bs ro loc i dl dest,
  amended_by (one_amendment r) n0 t0 rs n t (before ++ [(n, t)]) -> rs <> [] -> Forall (good_release r) rs -> first_version r n0 t0 i0 ms0 ov0 ->
  all_distinct r n0 t0 i0 ms0 rs ->
  plain_algos w -> Forall2 (fun m b => e_find w (Tsv.m_name m) = Some b) ms0 olds -> Forall (elsewhere w) olds ->
  Forall2 (on_shelf w) before found -> loc <> e_dest w ->
  tags_of r t = Ok i -> iter_deleted (open_hb n t i r) = Ok dl ->
  restore w us rt bs ro (open_hb n t i r) loc [] = Ok dest ->
  forall p, ~ describing p -> (forall x, In x rs -> ~ listing (rl_td x) p) -> (rt = true -> ~ multibag_path p) ->
    (deleted dl p -> od_get p dest = None) /\
    (~ deleted dl p -> od_get p dest = latest (map rb_tree olds ++ map snd (flat_map bags_in rs)) p).
Proof.
  intros r n0 t0 i0 ms0 ov0 rs n t before w olds found us rt bs ro loc i dl dest H Ne G F D Pw Fo El Fb Lo Ti Hd R p P1 P2 P3.
  destruct (history_at _ _ _ _ _ _ _ _ _ _ H G F D) as (i' & V & K & Eh).
  assert (i' = i) by (pose proof (va_tags _ _ _ _ _ _ _ V); congruence). subst i'.
  set (l := ms0 ++ map (fun b => plain_member (fst b)) (flat_map bags_in rs)) in *. set (h := open_hb n t i r) in *.
  assert (Nm : map Tsv.m_name l = (map Tsv.m_name ms0 ++ map fst before) ++ [n]).
  { unfold l. rewrite map_app, map_map, <- app_assoc. f_equal. change (map (fun x => Tsv.m_name (plain_member (fst x))) (flat_map bags_in rs)) with (map (@fst pystr tree) (flat_map bags_in rs)).
    transitivity (map fst (before ++ [(n, t)])); [|rewrite map_app; reflexivity].
    clear - K. induction K as [|a b la lb (K1 & _) _ IHK]; [reflexivity|]. cbn [map]. rewrite K1, IHK. reflexivity. }
  specialize (Eh Ne). fold h in Eh.
  assert (Im : iter_member_bags h = Ok l).
  { destruct (va_members _ _ _ _ _ _ _ V) as [[_ X]|[X _]]; [exact X|]. fold h in X. congruence. }
  assert (Hl : head_lists ro h = Ok (set_of dl, l)).
  { unfold head_lists, deleted_paths. cbn [h open_hb hb_del]. fold h. rewrite Hd. cbn [snd bind].
    assert (Em : snd (member_bags_ro false h) = Ok l) by (unfold member_bags_ro; cbn [h open_hb hb_mem]; fold h; rewrite Im; reflexivity).
    destruct ro; [rewrite Em; reflexivity|]. unfold HeadBag.member_bags. destruct (member_bags_ro false h) as [h' [x|e]]; cbn [snd] in Em; [|discriminate Em].
    injection Em as ->. reflexivity. }
  assert (Ha : aggregation w h loc l (olds ++ found ++ [{| rb_loc := loc; rb_tree := hb_tree h |}])).
  { exists (map Tsv.m_name ms0 ++ map fst before), (olds ++ found). split; [left; exact Nm|]. split.
    - apply Forall2_app.
      + clear - Fo. induction Fo; cbn [map]; constructor; auto.
      + clear - Fb. induction Fb as [|b f lb lf (X & _) _ IHF]; cbn [map]; constructor; auto.
    - rewrite <- app_assoc. reflexivity. }
  apply Forall2_app_inv_l in K. destruct K as (l1 & l2 & K1 & K2 & Ek).
  inversion K2 as [|? b2 ? ? (Kn & Kw & Ko) K3]; subst. inversion K3; subst. clear K2 K3. cbn [fst snd] in Kn, Kw, Ko.
  assert (Wb : Forall (fun b => wf_tree (rb_tree b) /\ rb_loc b <> e_dest w) (olds ++ found ++ [{| rb_loc := loc; rb_tree := hb_tree h |}])).
  { apply Forall_app. split; [exact El|]. apply Forall_app. split.
    - clear - Fb K1. revert l1 K1. induction Fb as [|b f lb lf (_ & X & Y) _ IHF]; intros l1 K; [constructor|].
      inversion K as [|? ? ? ? (_ & W & _) K']; subst. constructor; [|exact (IHF _ K')]. rewrite X. auto.
    - constructor; [|constructor]. split; [exact Kw|exact Lo]. }
  destruct (C33_combination w us rt bs ro h loc (set_of dl) l _ dest Pw eq_refl Hl Ha Wb R p) as [Q1 Q2].
  { intros X. apply P1. eapply describing_bag; exact X. }
  { exact P3. }
  rewrite deleted_set in Q1, Q2. split; [exact Q1|]. intros X. rewrite (Q2 X). apply latest_ext. rewrite Ek.
  rewrite !map_app. f_equal. cbn [map rb_tree]. f_equal.
  - rewrite !map_map. clear - Fb K1 P1 P2. revert l1 K1. induction Fb as [|b f lb lf (_ & Y & _) _ IHF]; intros l1 K; inversion K as [|? ? ? ? (_ & _ & Z) K']; subst; [reflexivity|].
    cbn [map]. rewrite Y, (Z p P1 P2), (IHF _ K'). reflexivity.
  - f_equal. exact (Ko p P1 P2).
Qed.
Print Assumptions C112_restored.

(** An example: "two" is the head bag of "one" and "two". It is amended with
    "four" and the new head bag "three", and that with the new head bag "six"
    alone, which deletes data/c. *)
Definition hi_six : tree :=
  [(U "bagit.txt", NFile ex_bagit); (U "bag-info.txt", NFile (txt [U "Contact-Name: E"; U "Multibag-Tag-Directory: mb"]));
   (U "data", NDir); (U "data/e", NFile (U "e")); (U "mb", NDir); (U "mb/deleted.txt", NFile (txt [U "data/c"]))].
Definition hi_r1 : release := {| rl_bags := [ex_four]; rl_name := U "three"; rl_tree := ex_three; rl_td := U "multibag"; rl_version := U "2" |}.
Definition hi_r2 : release := {| rl_bags := []; rl_name := U "six"; rl_tree := hi_six; rl_td := U "mb"; rl_version := U "3.0" |}.
Definition hi_open (n : pystr) (t : tree) : hb := open_hb n t (got [] (tags_of Codecs t)) Codecs.
Definition hi_step (n : pystr) (t : tree) (x : release) : tree :=
  hb_tree (fst (amend_bag_with ex_env [U "md5"] (fun _ => U "1 kB") ex_repr false (hi_open n t) (rl_bags x) (rl_version x) (hi_open (rl_name x) (rl_tree x)))).
Definition hi_t1 : tree := hi_step (U "two") ex_amendee_tree hi_r1.
Definition hi_t2 : tree := hi_step (U "three") hi_t1 hi_r2.
Definition hi_env : env :=
  {| e_algos := e_algos ex_env; e_version := e_version ex_env; e_danger := e_danger ex_env; e_hash := e_hash ex_env; e_dest := U "/out";
     e_find := fun n => if streq n (U "one") then Some (ex_place n ex_one)
                        else if streq n (U "two") then Some (ex_place n ex_amendee_tree)
                        else if streq n (U "four") then Some (ex_place n (s_tree ex_four))
                        else if streq n (U "three") then Some (ex_place n hi_t1) else None |}.
Definition hi_dest : tree :=
  got [] (restore hi_env true true (fun _ => U "1 kB") false (hi_open (U "six") hi_t2) (U "/bags/six") []).

Lemma ex_algos : plain_algos ex_env.
Proof. intros a [<-|[<-|[]]]; cbn; intuition discriminate. Qed.

Lemma hi_by : amended_by (one_amendment Codecs) (U "two") ex_amendee_tree [hi_r1; hi_r2] (U "six") hi_t2
  ([(U "four", s_tree ex_four); (U "three", hi_t1)] ++ [(U "six", hi_t2)]).
Proof.
  assert (Al : forall a, In a [U "md5"] -> In a (e_algos ex_env)) by (intros a [<-|[]]; left; reflexivity).
  change [hi_r1; hi_r2] with (([] ++ [hi_r1]) ++ [hi_r2]).
  change ([(U "four", s_tree ex_four); (U "three", hi_t1)] ++ [(U "six", hi_t2)]) with
    (([] ++ map (fun s => (s_name s, s_tree s)) (rl_bags hi_r1) ++ [(rl_name hi_r1, hi_t1)]) ++
     map (fun s => (s_name s, s_tree s)) (rl_bags hi_r2) ++ [(rl_name hi_r2, hi_t2)]).
  apply (Next _ _ _ _ (rl_name hi_r1) hi_t1).
  - apply (Next _ _ _ _ (U "two") ex_amendee_tree); [apply First|].
    exists ex_env, [U "md5"], (fun _ => U "1 kB"), ex_repr, false, (got [] (tags_of Codecs ex_amendee_tree)), (got [] (tags_of Codecs ex_three)),
      (fst (amend_bag_with ex_env [U "md5"] (fun _ => U "1 kB") ex_repr false (hi_open (U "two") ex_amendee_tree) (rl_bags hi_r1) (rl_version hi_r1) (hi_open (rl_name hi_r1) (rl_tree hi_r1)))),
      (hi_open (U "two") ex_amendee_tree).
    split; [exact ex_algos|]. split; [exact Al|]. split; [exact ex_size|]. split; [vm_compute; reflexivity|]. split; [vm_compute; reflexivity|].
    split; [vm_compute; reflexivity|reflexivity].
  - exists ex_env, [U "md5"], (fun _ => U "1 kB"), ex_repr, false, (got [] (tags_of Codecs hi_t1)), (got [] (tags_of Codecs hi_six)),
      (fst (amend_bag_with ex_env [U "md5"] (fun _ => U "1 kB") ex_repr false (hi_open (U "three") hi_t1) (rl_bags hi_r2) (rl_version hi_r2) (hi_open (rl_name hi_r2) (rl_tree hi_r2)))),
      (hi_open (U "three") hi_t1).
    split; [exact ex_algos|]. split; [exact Al|]. split; [exact ex_size|]. split; [vm_compute; reflexivity|]. split; [vm_compute; reflexivity|].
    split; [vm_compute; reflexivity|reflexivity].
Qed.

Lemma listable_ok r n t : storableb r n = true -> wf_treeb t = true -> is_file DATA t = false ->
  forallb (storableb r) (filter is_payload (files t)) = true -> listable r (n, t).
Proof.
  intros S1 W F S2. assert (W' : wf_tree t) by (apply wf_treeb_ok; exact W). split; [apply storableb_ok; exact S1|]. split; [split; assumption|].
  intros p H. apply storableb_ok. rewrite forallb_forall in S2. apply S2. apply files_entry; [apply wf_nodup; exact W'|exact H].
Qed.

Lemma hi_releases : Forall (good_release Codecs) [hi_r1; hi_r2].
Proof.
  constructor; [|constructor; [|constructor]].
  - split; [repeat (apply Forall_cons; [apply listable_ok; vm_compute; reflexivity|]); constructor|].
    split; [exists (got [] (tags_of Codecs ex_three)); split; vm_compute; reflexivity|].
    split; [apply good_pathb_ok; reflexivity|]. split; [reflexivity|]. split; [apply plain_valueb_ok; reflexivity|]. split; [discriminate|]. apply plain_valueb_ok; reflexivity.
  - split; [repeat (apply Forall_cons; [apply listable_ok; vm_compute; reflexivity|]); constructor|].
    split; [exists (got [] (tags_of Codecs hi_six)); split; vm_compute; reflexivity|].
    split; [apply good_pathb_ok; reflexivity|]. split; [reflexivity|]. split; [apply plain_valueb_ok; reflexivity|]. split; [discriminate|]. apply plain_valueb_ok; reflexivity.
Qed.

Lemma hi_answers p x : answers ex_amendee p x -> x = od_get p ex_lookup_list.
Proof.
  intros H. assert (L : hb_lu ex_amendee = None) by reflexivity. apply (answers_old _ _ _ L) in H. rewrite <- H. unfold old_answer.
  assert (E : is_head ex_amendee = true) by (vm_compute; reflexivity). rewrite E.
  assert (Ies : iter_file_lookup ex_amendee = Ok ex_lookup_list) by (vm_compute; reflexivity). rewrite Ies.
  assert (X : od_of_pairs ex_lookup_list = ex_lookup_list) by (vm_compute; reflexivity). rewrite X. reflexivity.
Qed.

Lemma hi_first : first_version Codecs (U "two") ex_amendee_tree (got [] (load_tags Codecs ex_info2)) (map plain_member [U "one"; U "two"]) (U "1").
Proof.
  constructor.
  - apply ex_bag_files; vm_compute; reflexivity.
  - discriminate.
  - vm_compute. reflexivity.
  - left. split; vm_compute; reflexivity.
  - intros p. exists (od_get p ex_lookup_list). left. split; [vm_compute; reflexivity|].
    assert (Ies : iter_file_lookup ex_amendee = Ok ex_lookup_list) by (vm_compute; reflexivity). change (snd (lookup_file p false ex_amendee) = Ok (od_get p ex_lookup_list)).
    unfold lookup_file, lookup_file_ro, cache_file_lookup. rewrite Ies. cbn [ex_amendee open_hb hb_lu set_lu snd].
    assert (X : od_of_pairs ex_lookup_list = ex_lookup_list) by (vm_compute; reflexivity). rewrite X. reflexivity.
  - left. vm_compute. reflexivity.
  - repeat (apply Forall_cons; [apply plain_valueb_ok; reflexivity|]). constructor.
  - repeat (apply Forall_cons; [apply storable_name, storableb_ok; reflexivity|]). constructor.
  - intros p x H. apply hi_answers in H. symmetry in H. apply od_get_in in H.
    assert (F : Forall (storable_entry Codecs) ex_lookup_list) by (apply wf_tableb_ok; reflexivity). rewrite Forall_forall in F. exact (F _ H).
Qed.

Lemma hi_distinct : all_distinct Codecs (U "two") ex_amendee_tree (got [] (load_tags Codecs ex_info2)) (map plain_member [U "one"; U "two"]) [hi_r1; hi_r2].
Proof.
  split; [apply nodupb_ok; vm_compute; reflexivity|]. intros p y H. apply hi_answers in H. symmetry in H. apply od_get_in in H.
  destruct H as [H|[H|[H|[]]]]; inversion H; subst; apply str_in_false; reflexivity.
Qed.

Example C112_case :
  amended_by (one_amendment Codecs) (U "two") ex_amendee_tree [hi_r1; hi_r2] (U "six") hi_t2 ([(U "four", s_tree ex_four); (U "three", hi_t1)] ++ [(U "six", hi_t2)]) /\
  Forall (good_release Codecs) [hi_r1; hi_r2] /\
  first_version Codecs (U "two") ex_amendee_tree (got [] (load_tags Codecs ex_info2)) (map plain_member [U "one"; U "two"]) (U "1") /\
  all_distinct Codecs (U "two") ex_amendee_tree (got [] (load_tags Codecs ex_info2)) (map plain_member [U "one"; U "two"]) [hi_r1; hi_r2] /\
  plain_algos hi_env /\
  Forall2 (fun m b => e_find hi_env (Tsv.m_name m) = Some b) (map plain_member [U "one"; U "two"]) [ex_place (U "one") ex_one; ex_place (U "two") ex_amendee_tree] /\
  Forall (elsewhere hi_env) [ex_place (U "one") ex_one; ex_place (U "two") ex_amendee_tree] /\
  Forall2 (on_shelf hi_env) [(U "four", s_tree ex_four); (U "three", hi_t1)] [ex_place (U "four") (s_tree ex_four); ex_place (U "three") hi_t1] /\
  iter_deleted (hi_open (U "six") hi_t2) = Ok [U "data/c"] /\
  restore hi_env true true (fun _ => U "1 kB") false (hi_open (U "six") hi_t2) (U "/bags/six") [] = Ok hi_dest /\
  map (fun p => read p hi_dest) [U "data/a"; U "data/b"; U "data/bb"; U "data/c"; U "data/e"] =
    [Some (U "newest"); Some (U "4"); Some (U "bb"); None; Some (U "e")] /\
  map (fun p => snd (lookup_file p false (hi_open (U "six") hi_t2))) [U "data/a"; U "data/b"; U "data/c"; U "data/e"] =
    [Ok (Some (U "three")); Ok (Some (U "four")); Ok (Some (U "two")); Ok (Some (U "six"))] /\
  tag_values (got [] (tags_of Codecs hi_t2)) (U "Multibag-Head-Deprecates") = [U "1"; U "2"].
Proof.
  split; [exact hi_by|]. split; [exact hi_releases|]. split; [exact hi_first|]. split; [exact hi_distinct|]. split; [exact ex_algos|].
  split; [constructor; [reflexivity|constructor; [reflexivity|constructor]]|].
  split; [repeat (apply Forall_cons; [split; [apply wf_treeb_ok; vm_compute; reflexivity|discriminate]|]); constructor|].
  split.
  { constructor; [split; [reflexivity|split; [reflexivity|discriminate]]|].
    constructor; [split; [reflexivity|split; [reflexivity|discriminate]]|constructor]. }
  split; [vm_compute; reflexivity|]. split; [vm_compute; reflexivity|]. split; [vm_compute; reflexivity|]. split; vm_compute; reflexivity.
Qed.

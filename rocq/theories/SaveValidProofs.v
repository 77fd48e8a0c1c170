(** Validity of a bag whose tag files were written again (for C109 and C110) *)
Require Import String NArith ZArith PeanoNat Bool List Lia.
From Verif Require Import PyBase PyFacts Version Tsv TsvProofs Fs FsFacts HeadBag HeadBagProofs HeadBagProofs2 HeadBagProofs3 BagIt BagItProofs BagItProofs2 Split SplitApply SplitApplyProofs SplitApplyProofs5 SplitApplyProofs7 SplitApplyProofs8 Restore RestoreProofs RestoreProofs2 RestoreProofs3 RestoreProofs4 RestoreProofs6 RestoreProofs7 RestoreProofs8 RestoreProofs10 Props_SplitApply Props_Restore Props_Restore3 Props_Restore4 BagValid BagValidProofs Props_BagValid Props_BagValid2 Props_BagValid4 Amend AmendProofs AmendProofs2 AmendProofs3 AmendProofs4.
Import ListNotations.
Open Scope N_scope.

(** ** Values of Payload-Oxum are plain *)

Lemma digit_plain c : is_digit c = true -> is_ws c = false /\ is_brk Codecs c = false.
Proof.
  unfold is_digit. intros H. apply andb_true_iff in H. destruct H as [A B]. apply N.leb_le in A, B.
  assert (X : c = 48 \/ c = 49 \/ c = 50 \/ c = 51 \/ c = 52 \/ c = 53 \/ c = 54 \/ c = 55 \/ c = 56 \/ c = 57) by lia.
  repeat (destruct X as [->|X]; [split; reflexivity|]). subst c. split; reflexivity.
Qed.

Lemma oxum_plain t s : right_oxum t s -> tag_value_ok Codecs s.
Proof.
  intros (x & y & fs & -> & _ & (Nx & Fx & _) & (Ny & Fy & _)).
  assert (Nb : no_brk Codecs (x ++ U "." ++ y)).
  { apply no_brk_b. rewrite !forallb_app. rewrite !andb_true_iff. rewrite !forallb_forall, !Forall_forall in *.
    split; [|split].
    - intros c I. apply Fx in I. apply digit_plain in I. destruct I as [_ ->]. reflexivity.
    - intros c [<-|[]]. reflexivity.
    - intros c I. apply Fy in I. apply digit_plain in I. destruct I as [_ ->]. reflexivity. }
  split; [right|exact Nb]. split.
  - destruct x as [|c x]; [congruence|]. inversion Fx; subst. exists c, (x ++ U "." ++ y). split; [reflexivity|]. apply digit_plain. assumption.
  - destruct (exists_last Ny) as (y' & c & ->). exists (x ++ U "." ++ y'), c. split; [rewrite <- !app_assoc; reflexivity|].
    apply Forall_app in Fy. destruct Fy as [_ Fy]. inversion Fy; subst. apply digit_plain. assumption.
Qed.

(** ** Steps that only touch the tag files of a head bag *)

Definition rewritten (td : pystr) (algs : list pystr) (q : pystr) : Prop :=
  q = sjoin td F_members \/ q = sjoin td F_lookup \/ q = F_baginfo \/ exists a, In a algs /\ q = man_name K_tag a.

Definition only_tags (td : pystr) (algs : list pystr) (t t' : tree) : Prop :=
  NoDup (od_keys t') /\ (forall q, ~ rewritten td algs q -> read q t' = read q t) /\
  (forall q, is_dir q t = true -> is_dir q t' = true).

Definition tag_step (td : pystr) (algs : list pystr) (s : step) : Prop :=
  forall t t', NoDup (od_keys t) -> s t = Ok t' -> only_tags td algs t t'.

Lemma only_refl td algs t : NoDup (od_keys t) -> only_tags td algs t t.
Proof. intros D. split; [exact D|]. auto. Qed.

Lemma only_trans td algs a b c : only_tags td algs a b -> only_tags td algs b c -> only_tags td algs a c.
Proof.
  intros (_ & A1 & A2) (B0 & B1 & B2). split; [exact B0|]. split; [|auto]. intros q Q. rewrite B1, A1; auto.
Qed.

Lemma run_only td algs l : Forall (tag_step td algs) l -> tag_step td algs (run_steps l).
Proof.
  induction l as [|s l IH]; intros F t t' D H.
  - cbn in H. injection H as <-. apply only_refl. exact D.
  - inversion F as [|? ? Fs Fl]; subst. rewrite run_cons in H. apply bind_ok in H. destruct H as (t1 & H1 & H2).
    pose proof (Fs _ _ D H1) as O1. apply (only_trans td algs t t1 t'); [exact O1|]. apply (IH Fl); [apply O1|exact H2].
Qed.

Lemma write_only td algs p c : rewritten td algs p -> tag_step td algs (write_file p c).
Proof.
  intros R t t' D H. apply write_file_ok2 in H. destruct H as (-> & Nd & _). split; [apply od_set_NoDup; exact D|]. split.
  - intros q Q. unfold read. rewrite od_get_set_other; [reflexivity|]. intros ->. auto.
  - intros q Q. destruct (str_eq_dec q p) as [->|E]; [congruence|]. destruct q as [|x q]; [reflexivity|].
    unfold is_dir in *. rewrite od_get_set_other; auto.
Qed.

Lemma write_fun_only td algs p (c : tree -> pystr) : rewritten td algs p -> tag_step td algs (fun t => write_file p (c t) t).
Proof. intros R t t' D H. exact (write_only td algs p (c t) R t t' D H). Qed.

Lemma ensure_only td algs : tag_step td algs (ensure_step td).
Proof.
  intros t t' D H. destruct (ensure_step_other _ _ _ H) as (A & B & C). split; [auto|]. split; [auto|].
  intros q Q. unfold ensure_step in H. destruct (exists_ td t) eqn:X; [injection H as <-; exact Q|].
  destruct (str_eq_dec q td) as [->|E].
  - unfold exists_ in X. rewrite Q, orb_true_r in X. discriminate X.
  - destruct q as [|x q]; [reflexivity|]. unfold is_dir in *. rewrite A; auto.
Qed.

Lemma remove_only td algs p : rewritten td algs p -> tag_step td algs (remove_file p).
Proof.
  intros R t t' D. unfold remove_file. destruct (is_file p t) eqn:F; [|discriminate]. intros H. injection H as <-.
  split; [apply od_del_NoDup; exact D|]. split.
  - intros q Q. unfold read. rewrite od_get_del_other; [reflexivity|]. intros ->. auto.
  - intros q Q. destruct q as [|x q]; [reflexivity|]. unfold is_dir in *. rewrite od_get_del_other; [exact Q|].
    intros E. rewrite E in Q. unfold is_file in F. destruct (od_get p t) as [[|]|]; discriminate.
Qed.

Lemma reset_only td algs : tag_step td algs (reset_step td).
Proof.
  intros t t' D. unfold reset_step. destruct (is_file _ _); intros H.
  - exact (remove_only td algs _ (or_introl eq_refl) t t' D H).
  - exact (ensure_only td algs t t' D H).
Qed.

Lemma clear_only td algs : tag_step td algs (clear_step td).
Proof.
  intros t t' D. unfold clear_step. destruct (exists_ _ _); intros H.
  - exact (remove_only td algs _ (or_intror (or_introl eq_refl)) t t' D H).
  - injection H as <-. apply only_refl. exact D.
Qed.

Lemma save_only td algs v i : Forall (tag_step td algs) (save_steps v algs i).
Proof.
  unfold save_steps. constructor.
  - apply (write_fun_only td algs F_baginfo (fun t => info_text (i t))). right; right; left. reflexivity.
  - apply Forall_forall. intros s I. apply in_map_iff in I. destruct I as (a & <- & Ia).
    apply (write_fun_only td algs (man_name K_tag a) (fun t => tagmanifest v a t)). right; right; right. exists a. auto.
Qed.

Lemma info_only td algs v bsize version pv i : Forall (tag_step td algs) (info_steps v algs bsize version pv i).
Proof. unfold info_steps. cbv zeta. apply Forall_app. split; apply save_only. Qed.

Lemma members_only td algs l : Forall (tag_step td algs) (members_steps td l).
Proof. constructor; [apply ensure_only|]. constructor; [apply write_only; left; reflexivity|constructor]. Qed.

Lemma lookup_only td algs d : Forall (tag_step td algs) (lookup_steps td d).
Proof.
  destruct d as [d|]; [|constructor]. constructor; [apply ensure_only|].
  constructor; [apply write_only; right; left; reflexivity|constructor].
Qed.

(** ** The last save *)

Lemma last_save v algs i t0 t : NoDup (od_keys t0) -> run_steps (save_steps v algs i) t0 = Ok t ->
  exists c, read F_baginfo t = Some c /\ forall a, In a algs -> read (man_name K_tag a) t = Some (tagmanifest v a t).
Proof.
  intros D H. unfold save_steps in H. rewrite run_cons in H. apply bind_ok in H. destruct H as (t1 & H1 & H2).
  rewrite run_map in H2.
  assert (Nd : forall a, In a algs -> od_get (man_name K_tag a) t1 <> Some NDir).
  { clear - H2. revert t1 H2. induction algs as [|x algs IH]; intros t1 H2 a I; [destruct I|].
    cbn [foldM] in H2. apply bind_ok in H2. destruct H2 as (t2 & H1 & H2). apply write_file_ok2 in H1. destruct H1 as (E1 & Di & _).
    destruct (str_eq_dec (man_name K_tag a) (man_name K_tag x)) as [E|E].
    - rewrite E. intros G. unfold is_dir in Di. rewrite G in Di. cbn in Di. discriminate.
    - destruct I as [->|I]; [congruence|]. pose proof (IH _ H2 a I) as X. rewrite E1, od_get_set_other in X by exact E. exact X. }
  destruct (tags_written v algs _ _ Nd H2) as (_ & Tm & Tr & To). apply write_file_ok in H1.
  exists (info_text (i t0)). split.
  - unfold read. rewrite To; [rewrite H1, od_get_set_same; reflexivity|]. intros a I E. apply (f_equal (fun l => hd 0 l)) in E. discriminate E.
  - intros a I. rewrite Tm. apply Tr. exact I.
Qed.

(** ** The bag is valid again *)

Lemma from_097_info v c vi f : read_version v c = Ok (vi, f) -> from_097 vi = true -> f = F_baginfo.
Proof.
  intros Vr V97. unfold read_version in Vr. apply bind_ok in Vr. destruct Vr as (kvs & _ & Rv). cbv zeta in Rv.
  destruct (od_get T_BagItVersion _) as [[vs|]|]; try discriminate; destruct (od_get T_Encoding _) as [enc|]; try discriminate.
  destruct (parse_version vs) as [vi'|]; [|discriminate]. destruct (tag_file_name vi') as [f'|] eqn:Tf; [|discriminate].
  destruct enc as [e|]; [|discriminate]. destruct (v_codec _ e); [|discriminate]. injection Rv as E1 E2. subst vi' f'. eapply version_097_file; eassumption.
Qed.

Lemma valid_again v w t t2 vc v1 : NoDup (e_algos v) -> good_hash v -> same_world v w ->
  NoDup (od_keys t) -> NoDup (od_keys t2) ->
  passes_plain (at_place v w (e_dest v)) t -> good_mans v (e_dest v) t ->
  read F_bagit t = Some vc -> e_version v vc = Ok (true, v1) ->
  (forall q, is_payload q = true \/ q = F_bagit \/ q = U "fetch.txt" \/ (exists a, q = man_name K_man a) -> read q t2 = read q t) ->
  (is_dir (U "data") t = true -> is_dir (U "data") t2 = true) ->
  (forall a c, In a (e_algos v) -> read (man_name K_tag a) t2 = Some c -> c = tagmanifest v a t2) ->
  names_ok v t2 ->
  (exists c j, read F_baginfo t2 = Some c /\ load_tags IoText c = Ok j /\
     forall b, open_plain (at_place v w (e_dest v)) t = Ok b -> valid_bag (at_place v w (e_dest v)) t (o_info b) (o_entries b) ->
       forall s l, tag_values j T_OXUM = s :: l -> right_oxum t s) ->
  passes_plain (at_place v w (e_dest v)) t2 /\ good_mans v (e_dest v) t2.
Proof.
  intros Na Gh Sw D D2 (b & Op & Va) G Rv Ev Rd Dd Tm Nm (ci & j & Ri & Lj & Ox).
  apply (validates_iff _ _ _ D Op) in Va. specialize (Ox b Op Va). destruct Va as [Hd Hm Hb Hf _ Hl Hs].
  destruct (open_plain_ok _ _ _ Op) as (c & f & Rc & Vr & Et & _ & _ & _ & Lm). cbn [at_place v_algos v_danger v_hash] in *.
  rewrite (sw_algos _ _ Sw) in *. pose proof (load_chars v (e_dest v) t _ IoText _ _ _ G Lm) as Ch.
  assert (Ec : c = vc) by congruence. subst c.
  pose proof (sw_version _ _ Sw vc (o_version b) f Vr) as Ev'. rewrite Ev in Ev'. injection Ev' as V97 V1. symmetry in V97.
  pose proof (from_097_info _ _ _ _ Vr V97).
  subst f.
  assert (Nt : forall p, In p (tag_files t2) -> good_name v p).
  { intros p I. apply tag_files_in in I; [|exact D2]. destruct I as (I1 & I2 & I3). apply Nm; assumption. }
  assert (Lt : forall a, manifest_lines IoText (skip_bom (tagmanifest v a t2)) = tag_list v a t2).
  { intros a. apply tagmanifest_lines; [exact Gh|]. intros p I. apply Nt in I. apply I. }
  assert (G2 : good_mans v (e_dest v) t2).
  { intros pay a cm Ia R. destruct pay; cbn [kind_of] in R.
    - rewrite Rd in R by (right; right; right; exists a; reflexivity). exact (G true a cm Ia R).
    - pose proof (Tm a cm Ia R) as ->. split; [apply tagmanifest_good; assumption|].
      intros h p I. rewrite Lt in I. unfold tag_list in I. apply in_map_iff in I. destruct I as (q & Eq & I). injection Eq as _ <-.
      apply Nt in I. apply I. }
  assert (Em : forall a p h, entry_in IoText K_man t2 a p h <-> entry_in IoText K_man t a p h).
  { intros a p h. unfold entry_in. rewrite Rd by (right; right; right; exists a; reflexivity). reflexivity. }
  destruct (load_good v (e_dest v) t2 IoText true v1 Na G2) as (es & Le & Ch2 & _).
  assert (Fb : read F_bagit t2 = Some vc) by (rewrite Rd by (right; left; reflexivity); exact Rc).
  assert (Op2 : open_plain (at_place v w (e_dest v)) t2 = Ok {| o_tree := t2; o_version := o_version b; o_info := j; o_entries := es |}).
  { unfold open_plain. rewrite Fb.
    change (read_version (at_place v w (e_dest v)) vc) with (read_version w vc). change (read_version w vc = Ok (o_version b, F_baginfo)) in Vr.
    rewrite Vr. cbn [bind].
    assert (X : exists_ F_baginfo t2 = true) by (unfold exists_; assert (Fi : is_file F_baginfo t2 = true) by (apply is_file_read; eauto); rewrite Fi; reflexivity).
    rewrite X, Ri, Lj. cbn [bind at_place v_algos v_danger]. rewrite (sw_algos _ _ Sw), V97, <- V1, Le. reflexivity. }
  split; [|exact G2]. eexists. split; [exact Op2|]. apply (validates_iff _ _ _ D2 Op2). cbn [o_info o_entries].
  assert (Rp : forall p, is_payload p = true -> read p t2 = read p t) by (intros p P; apply Rd; left; exact P).
  assert (Fp : forall p, is_payload p = true -> is_file p t2 = is_file p t).
  { intros p P. apply Rp in P. destruct (is_file p t) eqn:E.
    - apply is_file_read. apply is_file_read in E. destruct E as [x E]. exists x. congruence.
    - destruct (is_file p t2) eqn:E2; [|reflexivity]. apply is_file_read in E2. destruct E2 as [x E2]. rewrite P in E2.
      assert (Z : is_file p t = true) by (apply is_file_read; eauto). congruence. }
  assert (Pp : forall p, payload t2 p <-> payload t p).
  { intros p. unfold payload. split; intros [A B]; (split; [|exact B]); [rewrite <- (Fp p B)|rewrite (Fp p B)]; exact A. }
  constructor; cbn [at_place v_algos v_danger v_hash].
  - apply Dd. exact Hd.
  - rewrite (sw_algos _ _ Sw). destruct Hm as (a & Ia & Fa). exists a. split; [exact Ia|].
    change (U "manifest-" ++ a ++ U ".txt") with (man_name K_man a) in *. apply is_file_read in Fa. destruct Fa as [x Fa].
    apply is_file_read. exists x. rewrite Rd by (right; right; right; exists a; reflexivity). exact Fa.
  - intros c R. apply Hb. rewrite <- R. symmetry. apply Rd. right; left. reflexivity.
  - intros c line R I. apply (Hf c line); [|exact I]. rewrite <- R. symmetry. apply Rd. right; right; left. reflexivity.
  - intros s l Ts. destruct (Ox s l Ts) as (x & y & fs & Es & (Nfs & Ifs) & Dx & Dy). exists x, y, fs. split; [exact Es|].
    split; [split; [exact Nfs|]; intros p; rewrite Ifs; symmetry; apply Pp|]. split; [|exact Dy].
    assert (Es2 : map (fun f => size_of f t2) fs = map (fun f => size_of f t) fs).
    { apply map_ext_in. intros p I. apply Ifs in I. destruct I as [_ P]. unfold size_of. rewrite (Rp p P). reflexivity. }
    rewrite Es2. exact Dx.
  - intros p P. apply Pp in P. destruct (Hl p P) as (a & h & C). exists a, h. apply Ch in C. apply Ch2. destruct C as (Ia & [E|[_ E]]).
    + split; [exact Ia|]. left. apply Em. exact E.
    + exfalso. apply (entry_payload v (e_dest v) t false a p h G Ia) in E. destruct P as [_ P]. unfold is_payload in E. congruence.
  - intros a p h C. apply Ch2 in C. destruct C as (Ia & [E|[_ E]]).
    + pose proof E as E0. apply Em in E0. pose proof (entry_payload v (e_dest v) t true a p h G Ia E0) as P.
      destruct (Hs a p h) as (x & Rx & Hx); [apply Ch; auto|]. exists x. split; [rewrite Rp; assumption|exact Hx].
    + destruct E as (tx & Rt & I). pose proof (Tm a tx Ia Rt) as ->. rewrite Lt in I. unfold tag_list in I. apply in_map_iff in I.
      destruct I as (q & Eq & I). injection Eq as <- <-. apply tag_files_in in I; [|exact D2]. destruct I as (F & _).
      apply is_file_read in F. destruct F as [x F]. exists x. split; [exact F|]. rewrite F. apply (sw_hash _ _ Sw).
Qed.

Lemma tsv_last td f : In f [F_members; F_lookup] -> last (sjoin td f) 0 = 118.
Proof.
  intros I. unfold sjoin. rewrite last_app_ne by discriminate. rewrite last_app_ne; destruct I as [<-|[<-|[]]]; try discriminate; reflexivity.
Qed.

Lemma not_rewritten td algs q : (forall a, In a algs -> q <> man_name K_tag a) -> q <> F_baginfo -> last q 0 = 116 -> ~ rewritten td algs q.
Proof.
  intros A B L [E|[E|[E|(a & Ia & E)]]].
  - subst q. rewrite tsv_last in L by (left; reflexivity). discriminate L.
  - subst q. rewrite tsv_last in L by (right; left; reflexivity). discriminate L.
  - auto.
  - apply (A a Ia E).
Qed.

Lemma man_last k a : last (man_name k a) 0 = 116.
Proof. unfold man_name. rewrite !app_assoc, last_app_ne by discriminate. reflexivity. Qed.

Lemma algorithms_have v t c v1 algs a x : read F_bagit t = Some c -> e_version v c = Ok (true, v1) -> algorithms v t = Ok algs ->
  In a (e_algos v) -> read (man_name K_tag a) t = Some x -> In a algs.
Proof.
  intros R E H Ia Ra. unfold algorithms in H. rewrite R, E in H. cbn [bind] in H. injection H as <-. apply in_set_of.
  apply in_map_iff. exists (a, x). split; [reflexivity|]. apply in_bag_manifests. auto.
Qed.

(** A valid bag is valid after its member list, its lookup, its tags and its
    tag manifests were written. *)
(** The tags, as they are read when the bag is opened. *)
Lemma plain_tags v w t b vc v1 : same_world v w -> open_plain (at_place v w (e_dest v)) t = Ok b ->
  read F_bagit t = Some vc -> e_version v vc = Ok (true, v1) -> tags_of IoText t = Ok (o_info b).
Proof.
  intros Sw Op Rc Ev. destruct (open_plain_ok _ _ _ Op) as (vc' & f & Rc' & Vr & _ & _ & _ & Li & _).
  assert (Evc : Some vc' = Some vc) by exact (eq_trans (eq_sym Rc') Rc). injection Evc as ->.
  pose proof (sw_version _ _ Sw vc (o_version b) f Vr) as Ev'. rewrite Ev in Ev'. injection Ev' as V97 _. symmetry in V97.
  pose proof (from_097_info _ _ _ _ Vr V97). subst f.
  unfold tags_of. change (U "bag-info.txt") with F_baginfo. destruct (exists_ F_baginfo t) eqn:X.
  - destruct Li as (ci & Rci & Ld). rewrite Rci. exact Ld.
  - unfold exists_ in X. apply orb_false_iff in X. destruct X as [X _]. destruct (read F_baginfo t) as [x|] eqn:Rx.
    + assert (Z : is_file F_baginfo t = true) by (apply is_file_read; eauto). congruence.
    + rewrite Li. reflexivity.
Qed.

Lemma tagged_valid v w td algs t t2 pre i i0 i1 j vc v1 : NoDup (e_algos v) -> good_hash v -> same_world v w ->
  NoDup (od_keys t) -> passes_plain (at_place v w (e_dest v)) t -> good_mans v (e_dest v) t -> outside_payload td ->
  read F_bagit t = Some vc -> e_version v vc = Ok (true, v1) -> algorithms v t = Ok algs ->
  Forall (tag_step td algs) pre -> run_steps (pre ++ save_steps v algs i) t = Ok t2 ->
  names_ok v t -> Forall (good_name v) [F_baginfo; sjoin td F_members; sjoin td F_lookup] ->
  tags_of Codecs t = Ok i0 -> tags_of IoText t = Ok i1 -> tag_values i0 T_OXUM = tag_values i1 T_OXUM ->
  tags_of IoText t2 = Ok j -> tag_values j T_OXUM = map (fun x => unfold_value IoText (one_line x)) (tag_values i0 T_OXUM) ->
  passes_plain (at_place v w (e_dest v)) t2 /\ names_ok v t2 /\ NoDup (od_keys t2) /\
  (forall a, In a algs -> read (man_name K_tag a) t2 = Some (tagmanifest v a t2)) /\
  (forall a c, In a (e_algos v) -> read (man_name K_tag a) t2 = Some c -> c = tagmanifest v a t2) /\
  only_tags td algs t t2 /\ good_mans v (e_dest v) t2.
Proof.
  intros Na Gh Sw D Va G Ot Rc Ev Al Fp H Nm Gn T0 T1 Ox Tj Oj.
  pose proof (run_only td algs (pre ++ save_steps v algs i)) as RO.
  assert (O : only_tags td algs t t2).
  { apply RO; [|exact D|exact H]. apply Forall_app. split; [exact Fp|apply save_only]. }
  rewrite run_app in H. apply bind_ok in H. destruct H as (t1 & H1 & H2).
  pose proof (run_only td algs pre Fp t t1 D H1) as (D1 & _).
  destruct (last_save v algs i t1 t2 D1 H2) as (c & Ri & Tm).
  assert (O0 := O). destruct O as (D2 & Rd & Dd).
  assert (Nm2 : names_ok v t2).
  { intros p F P Q. inversion Gn as [|? ? G1 Gn1]; subst. inversion Gn1 as [|? ? G2 Gn2]; subst. inversion Gn2 as [|? ? G3 _]; subst.
    assert (X : rewritten td algs p \/ ~ rewritten td algs p).
    { destruct (str_eq_dec p (sjoin td F_members)); [left; left; assumption|]. destruct (str_eq_dec p (sjoin td F_lookup)); [left; right; left; assumption|].
      destruct (str_eq_dec p F_baginfo); [left; right; right; left; assumption|]. right. intros [?|[?|[?|(a & _ & E)]]]; auto.
      subst p. rewrite man_is_tagman in Q. discriminate Q. }
    destruct X as [[->|[->|[->|(a & _ & E)]]]|X]; auto.
    - subst p. rewrite man_is_tagman in Q. discriminate Q.
    - apply (Nm p); auto. apply is_file_read in F. destruct F as [x F]. rewrite Rd in F by exact X. apply is_file_read. eauto. }
  assert (Tm2 : forall a c, In a (e_algos v) -> read (man_name K_tag a) t2 = Some c -> c = tagmanifest v a t2).
  { intros a x Ia R. destruct (in_dec str_eq_dec a algs) as [I|I].
    - rewrite (Tm a I) in R. congruence.
    - exfalso. apply I. rewrite Rd in R.
      + exact (algorithms_have v t vc v1 algs a x Rc Ev Al Ia R).
      + apply not_rewritten; [|discriminate|apply man_last]. intros b Ib E. apply man_name_inj in E. congruence. }
  match goal with |- ?P /\ _ => assert (PG : P /\ good_mans v (e_dest v) t2) end.
  2: { destruct PG as [PP PG]. split; [exact PP|]. split; [exact Nm2|]. split; [exact D2|]. split; [exact Tm|]. split; [exact Tm2|]. split; [exact O0|exact PG]. }
  apply (valid_again v w t t2 vc v1 Na Gh Sw D D2 Va G Rc Ev).
  - intros q Q. apply Rd. destruct Q as [P|[->|[->|(a & ->)]]].
    + intros [E|[E|[E|(a & Ia & E)]]]; subst q.
      * rewrite outside_file in P; [discriminate P|exact Ot|left; reflexivity].
      * rewrite outside_file in P; [discriminate P|exact Ot|right; left; reflexivity].
      * discriminate P.
      * discriminate P.
    + apply not_rewritten; [|discriminate|reflexivity]. intros a _ E. apply (f_equal (fun l => hd 0 l)) in E. discriminate E.
    + apply not_rewritten; [|discriminate|reflexivity]. intros a _ E. apply (f_equal (fun l => hd 0 l)) in E. discriminate E.
    + apply not_rewritten; [|discriminate|apply man_last]. intros b _ E. apply (f_equal (fun l => hd 0 l)) in E. discriminate E.
  - apply Dd.
  - exact Tm2.
  - exact Nm2.
  - unfold tags_of in Tj. change (U "bag-info.txt") with F_baginfo in Tj. rewrite Ri in Tj. exists c, j. split; [exact Ri|]. split; [exact Tj|].
    intros b Op [_ _ _ _ Hx _ _] s l Es.
    pose proof (plain_tags v w t b vc v1 Sw Op Rc Ev) as T1'. assert (Ei : i1 = o_info b) by congruence.
    subst i1. rewrite Oj, Ox in Es. destruct (tag_values (o_info b) T_OXUM) as [|s0 l0] eqn:Tv; [discriminate Es|]. cbn [map] in Es. injection Es as Es _.
    pose proof (Hx s0 l0 Tv) as R0. pose proof (read_plains IoText [s0] (Forall_cons s0 (oxum_plain t s0 R0) (Forall_nil _))) as Rp.
    cbn [map] in Rp. injection Rp as Rp. rewrite Rp in Es. subst s0. exact R0.
Qed.

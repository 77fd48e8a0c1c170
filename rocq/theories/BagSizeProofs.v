(** * Lemmas on declared sizes: how the size of a bag changes when it is saved
    again with another tag *)
Require Import String NArith ZArith QArith Qabs PeanoNat Bool List Permutation Lia.
From Verif Require Import PyBase PyFacts TsvProofs Fs FsFacts HeadBag BagIt BagItProofs Split SplitProofs2 SplitApply SplitApplyProofs Restore RestoreProofs2 RestoreProofs6 Amend AmendProofs PyFloat PyFloatProofs FormatBytes FormatBytesProofs Props_Size BagSize.
Import ListNotations.
Open Scope N_scope.

Lemma utf8_app a b : utf8_len (a ++ b) = utf8_len a + utf8_len b.
Proof. induction a as [|c a IH]; [reflexivity|]. cbn [app utf8_len]. rewrite IH. lia. Qed.
Lemma utf8_ascii c : Forall (fun ch => ch < 128) c -> utf8_len c = N.of_nat (length c).
Proof.
  induction 1 as [|x c H _ IH]; [reflexivity|]. cbn [utf8_len length]. rewrite IH. unfold utf8_len1.
  rewrite (proj2 (N.ltb_lt _ _) H). lia.
Qed.

(** ** Writing a file again *)

Lemma set_file_files p c t : is_file p t = true -> files (od_set p (NFile c) t) = files t /\ dirs (od_set p (NFile c) t) = dirs t.
Proof.
  unfold is_file, files, dirs. induction t as [|[k n] t IH]; [discriminate|]. cbn [od_get od_set].
  destruct (streq p k) eqn:E.
  - apply streq_eq in E. subst k. destruct n as [|x]; [discriminate|]. intros _. split; reflexivity.
  - intros H. destruct (IH H) as [I1 I2]. cbn [filter snd]. destruct n; cbn [map fst]; rewrite I1, I2; split; reflexivity.
Qed.

Lemma set_size p c t q : size_of q (od_set p (NFile c) t) = if streq q p then utf8_len c else size_of q t.
Proof.
  unfold size_of, read. rewrite od_get_set. destruct (streq q p); reflexivity.
Qed.

Lemma filter_files_set (f : pystr -> bool) p c t : f p = false -> filter f (files (od_set p (NFile c) t)) = filter f (files t).
Proof.
  intros H. unfold files. induction t as [|[k n] t IH]; cbn [od_set filter snd map fst].
  - rewrite H. reflexivity.
  - destruct (streq p k) eqn:E.
    + apply streq_eq in E. subst k. cbn [filter snd map fst]. rewrite H. destruct n; cbn [map fst filter]; [reflexivity|]. rewrite H. reflexivity.
    + cbn [filter snd]. destruct n; cbn [map fst filter]; [exact IH|]. rewrite IH. reflexivity.
Qed.

Lemma man_skipped a : negb (streq (top_of (man_name K_tag a)) DATA) && negb (startswith (man_name K_tag a) (K_tag ++ [45])) = false.
Proof.
  apply andb_false_iff. right. apply negb_false_iff. apply startswith_iff. unfold man_name.
  eexists. rewrite <- ?app_assoc. reflexivity.
Qed.
Lemma tag_files_man a c t : tag_files (od_set (man_name K_tag a) (NFile c) t) = tag_files t.
Proof. unfold tag_files. apply filter_files_set. apply man_skipped. Qed.

(** ** Manifests of the same files have the same length *)

(** The text of a checksum is as long for all contents. *)
Definition fixed_hash (v : env) : Prop := forall a c c', utf8_len (e_hash v a c) = utf8_len (e_hash v a c').

Lemma tagman_len v a t s : fixed_hash v -> tag_files s = tag_files t -> utf8_len (tagmanifest v a s) = utf8_len (tagmanifest v a t).
Proof.
  intros F E. unfold tagmanifest. rewrite E. clear E. induction (tag_files t) as [|p l IH]; [reflexivity|].
  cbn [flat_map]. rewrite !utf8_app, IH. unfold hash_line. rewrite !utf8_app.
  rewrite (F a (match read p s with Some c => c | None => [] end) (match read p t with Some c => c | None => [] end)). reflexivity.
Qed.

Definition man_steps (v : env) (algs : list pystr) : list step := map (fun a t => write_file (man_name K_tag a) (tagmanifest v a t) t) algs.

Lemma man_bi a : man_name K_tag a <> F_baginfo.
Proof. discriminate. Qed.

(** What the first saving leaves. *)
Lemma man_steps_first v : fixed_hash v -> forall algs t t', run_steps (man_steps v algs) t = Ok t' -> NoDup (od_keys t) ->
  NoDup (od_keys t') /\ tag_files t' = tag_files t /\ read F_baginfo t' = read F_baginfo t /\
  (forall a, In a algs -> exists c, read (man_name K_tag a) t' = Some c /\ utf8_len c = utf8_len (tagmanifest v a t)) /\
  (forall a c, ~ In a algs -> read (man_name K_tag a) t = Some c -> utf8_len c = utf8_len (tagmanifest v a t) ->
     exists c', read (man_name K_tag a) t' = Some c' /\ utf8_len c' = utf8_len (tagmanifest v a t)).
Proof.
  intros F. induction algs as [|a algs IH]; intros t t' H D.
  - unfold man_steps in H. cbn in H. injection H as <-. split; [exact D|]. split; [reflexivity|]. split; [reflexivity|]. split; [intros a []|]. eauto.
  - unfold man_steps in H. cbn [map] in H. rewrite run_cons in H. apply bind_ok in H. destruct H as (s & W & H).
    apply write_file_ok in W. assert (Es : tag_files s = tag_files t) by (rewrite W; apply tag_files_man).
    destruct (IH s t' H) as (I1 & I2 & I3 & I4 & I5); [rewrite W; apply od_set_NoDup; exact D|].
    assert (L : forall b, utf8_len (tagmanifest v b s) = utf8_len (tagmanifest v b t)) by (intros b; apply tagman_len; assumption).
    assert (R : forall b, read (man_name K_tag b) s = if streq (man_name K_tag b) (man_name K_tag a) then Some (tagmanifest v a t) else read (man_name K_tag b) t).
    { intros b. rewrite W. unfold read. rewrite od_get_set. destruct (streq _ _); reflexivity. }
    split; [exact I1|]. split; [congruence|]. split.
    { rewrite I3, W. unfold read. rewrite od_get_set_other by (intros X; symmetry in X; apply (man_bi a); auto). reflexivity. }
    split.
    + intros b [<-|Ib].
      * destruct (in_dec str_eq_dec a algs) as [Ia|Ia].
        -- destruct (I4 a Ia) as (c & R1 & R2). exists c. split; [exact R1|]. rewrite R2. apply L.
        -- destruct (I5 a (tagmanifest v a t) Ia) as (c & R1 & R2); [rewrite R, streq_refl; reflexivity|symmetry; apply L|].
           exists c. split; [exact R1|]. rewrite R2. apply L.
      * destruct (I4 b Ib) as (c & R1 & R2). exists c. split; [exact R1|]. rewrite R2. apply L.
    + intros b c Nb Rb Lb. destruct (I5 b c) as (c' & R1 & R2).
      * intros X. apply Nb. right. exact X.
      * rewrite R. destruct (streq_reflect (man_name K_tag b) (man_name K_tag a)) as [E|_]; [|exact Rb].
        apply man_name_inj in E. subst b. exfalso. apply Nb. left. reflexivity.
      * rewrite Lb. symmetry. apply L.
      * exists c'. split; [exact R1|]. rewrite R2. apply L.
Qed.

(** The second saving changes no size but that of bag-info.txt. *)
Lemma man_steps_again v : fixed_hash v -> forall algs t t', run_steps (man_steps v algs) t = Ok t' ->
  (forall a, In a algs -> exists c, read (man_name K_tag a) t = Some c /\ utf8_len c = utf8_len (tagmanifest v a t)) ->
  files t' = files t /\ dirs t' = dirs t /\ (forall q, size_of q t' = size_of q t) /\ read F_baginfo t' = read F_baginfo t.
Proof.
  intros F. induction algs as [|a algs IH]; intros t t' H M.
  - unfold man_steps in H. cbn in H. injection H as <-. auto.
  - unfold man_steps in H. cbn [map] in H. rewrite run_cons in H. apply bind_ok in H. destruct H as (s & W & H).
    apply write_file_ok in W. assert (Es : tag_files s = tag_files t) by (rewrite W; apply tag_files_man).
    destruct (M a (or_introl eq_refl)) as (c0 & R0 & L0).
    destruct (set_file_files (man_name K_tag a) (tagmanifest v a t) t) as [Fs Ds]; [apply is_file_read; eauto|]. rewrite <- W in Fs, Ds.
    assert (Sz : forall q, size_of q s = size_of q t).
    { intros q. rewrite W, set_size. destruct (streq_reflect q (man_name K_tag a)) as [->|_]; [|reflexivity].
      unfold size_of. rewrite R0. symmetry. exact L0. }
    destruct (IH s t' H) as (I1 & I2 & I3 & I4).
    + intros b Ib. destruct (M b (or_intror Ib)) as (c & R & L).
      rewrite (tagman_len v b t s F Es). rewrite W. unfold read. rewrite od_get_set.
      destruct (streq_reflect (man_name K_tag b) (man_name K_tag a)) as [E|_].
      * apply man_name_inj in E. subst b. eauto.
      * unfold read in R. destruct (od_get (man_name K_tag b) t) as [[|x]|]; eauto.
    + split; [congruence|]. split; [congruence|]. split; [intros q; rewrite I3; apply Sz|].
      rewrite I4, W. unfold read. rewrite od_get_set_other by (intros X; symmetry in X; apply (man_bi a); auto). reflexivity.
Qed.

(** ** Sums *)

Lemma sum_app a b : sum_N (a ++ b) = sum_N a + sum_N b.
Proof. induction a as [|x a IH]; [reflexivity|]. cbn [app sum_N]. rewrite IH. lia. Qed.

Lemma sum_one {A} (f g : A -> N) x l : NoDup l -> In x l -> (forall y, y <> x -> f y = g y) ->
  sum_N (map f l) + g x = sum_N (map g l) + f x.
Proof.
  intros D I H. induction D as [|y l Ny D IH]; [destruct I|]. cbn [map sum_N]. destruct I as [->|I].
  - assert (E : map f l = map g l) by (apply map_ext_in; intros z Iz; apply H; intros ->; contradiction). rewrite E. lia.
  - specialize (IH I). rewrite (H y) by (intros ->; contradiction). lia.
Qed.

Definition tag_weight (kv : pystr * ival) : N := utf8_len (tags_text (items (fst kv) (map one_line (vals_of (snd kv))))).

Lemma tags_text_app a b : tags_text (a ++ b) = tags_text a ++ tags_text b.
Proof. unfold tags_text. apply flat_map_app. Qed.
Lemma pairs_weight i : utf8_len (tags_text (info_pairs i)) = sum_N (map tag_weight i).
Proof.
  induction i as [|kv i IH]; [reflexivity|]. unfold info_pairs in *. cbn [flat_map map sum_N]. rewrite tags_text_app, utf8_app, IH. reflexivity.
Qed.
Lemma sum_perm a b : Permutation a b -> sum_N a = sum_N b.
Proof. induction 1; cbn [sum_N]; lia. Qed.
Lemma info_weight i : utf8_len (info_text i) = sum_N (map tag_weight i).
Proof. rewrite info_text_pairs, pairs_weight. apply sum_perm. apply Permutation_map. apply isort_perm. Qed.

Lemma set_weight k x (i : infod) :
  sum_N (map tag_weight (od_set k x i)) + match od_get k i with Some y => tag_weight (k, y) | None => 0 end = sum_N (map tag_weight i) + tag_weight (k, x).
Proof.
  induction i as [|[k0 y] i IH]; cbn [od_set od_get map sum_N]; [lia|].
  destruct (streq k k0) eqn:E; [apply streq_eq in E; subst k0; cbn [map sum_N]; lia|]. cbn [map sum_N]. lia.
Qed.

(** ** Saving again with another size *)

Definition all_sizes (t : tree) : N := sum_N (map (fun f => size_of f t) (files t)).

Lemma save_steps_split v algs i t : run_steps (save_steps v algs i) t =
  (let? s := write_file F_baginfo (info_text (i t)) t in run_steps (man_steps v algs) s).
Proof. reflexivity. Qed.

Lemma resaved v algs i k x t t1 t2 : fixed_hash v -> NoDup (od_keys t) ->
  run_steps (save_steps v algs (fun _ => i)) t = Ok t1 ->
  run_steps (save_steps v algs (fun _ => od_set k x i)) t1 = Ok t2 ->
  NoDup (od_keys t1) /\ files t2 = files t1 /\ dirs t2 = dirs t1 /\
  read F_baginfo t1 = Some (info_text i) /\ read F_baginfo t2 = Some (info_text (od_set k x i)) /\
  all_sizes t2 + match od_get k i with Some y => tag_weight (k, y) | None => 0 end = all_sizes t1 + tag_weight (k, x).
Proof.
  intros F D H1 H2. rewrite save_steps_split in H1, H2. apply bind_ok in H1. destruct H1 as (s & W1 & H1). apply bind_ok in H2. destruct H2 as (s2 & W2 & H2).
  apply write_file_ok in W1, W2.
  destruct (man_steps_first v F algs s t1 H1) as (D1 & T1 & B1 & M1 & _); [rewrite W1; apply od_set_NoDup; exact D|].
  assert (R1 : read F_baginfo t1 = Some (info_text i)) by (rewrite B1, W1; unfold read; rewrite od_get_set_same; reflexivity).
  assert (I1 : is_file F_baginfo t1 = true) by (apply is_file_read; eauto).
  destruct (set_file_files F_baginfo (info_text (od_set k x i)) t1 I1) as [Fs Ds]. rewrite <- W2 in Fs, Ds.
  assert (T2 : tag_files s2 = tag_files s) by (unfold tag_files in *; rewrite Fs; exact T1).
  destruct (man_steps_again v F algs s2 t2 H2) as (F2 & D2 & S2 & B2).
  { intros a Ia. destruct (M1 a Ia) as (c & R & L). exists c. split; [|rewrite L; symmetry; apply tagman_len; assumption].
    rewrite W2. unfold read. rewrite od_get_set_other by apply man_bi. exact R. }
  split; [exact D1|]. split; [congruence|]. split; [congruence|]. split; [exact R1|]. split.
  { rewrite B2, W2. unfold read. rewrite od_get_set_same. reflexivity. }
  unfold all_sizes. rewrite F2, Fs.
  assert (X : sum_N (map (fun f => size_of f t2) (files t1)) + size_of F_baginfo t1 = sum_N (map (fun f => size_of f t1) (files t1)) + size_of F_baginfo t2).
  { apply (sum_one (fun f => size_of f t2) (fun f => size_of f t1)).
    - apply NoDup_files. exact D1.
    - apply in_files; assumption.
    - intros y Y. rewrite S2, W2, set_size, (proj2 (streq_neq _ _) Y). reflexivity. }
  assert (Z2 : size_of F_baginfo t2 = sum_N (map tag_weight (od_set k x i))).
  { rewrite S2, W2, set_size, streq_refl. apply info_weight. }
  assert (Z1 : size_of F_baginfo t1 = sum_N (map tag_weight i)) by (unfold size_of; rewrite R1; apply info_weight).
  pose proof (set_weight k x i). lia.
Qed.

Lemma sum_ge {A} (f : A -> N) x l : In x l -> f x <= sum_N (map f l).
Proof. induction l as [|y l IH]; [intros []|]. cbn [map sum_N]. intros [->|I]; [lia|]. specialize (IH I). lia. Qed.

(** A tag is no longer than the bag. *)
Lemma weight_le i k y t : NoDup (od_keys t) -> read F_baginfo t = Some (info_text i) -> od_get k i = Some y -> tag_weight (k, y) <= all_sizes t.
Proof.
  intros D R G. apply N.le_trans with (size_of F_baginfo t).
  - unfold size_of. rewrite R, info_weight. apply (sum_ge tag_weight). apply od_get_in. exact G.
  - apply (sum_ge (fun f => size_of f t)). apply in_files; [exact D|]. apply is_file_read. eauto.
Qed.

(** ** How long the text of a size is *)

Lemma drop_zeros_len l : (length (drop_zeros l) <= length l)%nat.
Proof. induction l as [|c l IH]; cbn [drop_zeros]; [lia|]. destruct (c =? 48); cbn [length]; lia. Qed.
Lemma strip_len s : (length (strip_dot (strip_zeros s)) <= length s)%nat.
Proof.
  assert (A : (length (strip_zeros s) <= length s)%nat).
  { unfold strip_zeros. rewrite rev_length. pose proof (drop_zeros_len (rev s)). rewrite rev_length in *. lia. }
  assert (B : forall x, (length (strip_dot x) <= length x)%nat).
  { intros x. unfold strip_dot. pose proof (rev_length x). destruct (rev x) as [|c l] eqn:E; [lia|].
    destruct (c =? DOT); [rewrite rev_length; cbn [length] in *; lia|lia]. }
  specialize (B (strip_zeros s)). lia.
Qed.

Lemma format_len p n : In p [3; 6]%nat -> n < 10 ^ 15 ->
  (3 <= length (format_bytes p n) <= p + 8)%nat /\ Forall (fun c => c < 128) (format_bytes p n).
Proof.
  intros Ip B. destruct (N.eq_dec n 0) as [->|N0].
  { destruct Ip as [<-|[<-|[]]]; (split; [vm_compute; lia|vm_compute; repeat constructor]). }
  destruct (format_number p n) as (k & E & Q).
  { destruct Ip as [<-|[<-|[]]]; lia. }
  { split; [lia|]. eapply N.lt_trans; [exact B|]. vm_compute. reflexivity. }
  cbv zeta in Q. destruct (shown p k) as (_ & NE & F); [destruct Ip as [<-|[<-|[]]]; lia|].
  rewrite E. set (unit := 10 ^ N.of_nat p) in *.
  assert (Up : 0 < unit) by (apply N.neq_0_lt_0, N.pow_nonzero; discriminate).
  assert (K : k / unit < 10 ^ 4).
  { assert (O : (order n < 5)%nat /\ n < 1000 ^ N.of_nat (S (order n))).
    { unfold order. destruct (N.ltb_spec n 1000); [cbn; split; [lia|exact H]|].
      destruct (N.ltb_spec n 1000000); [cbn; split; [lia|exact H0]|].
      destruct (N.ltb_spec n 1000000000); [cbn; split; [lia|exact H1]|].
      destruct (N.ltb_spec n 1000000000000); [cbn; split; [lia|exact H2]|]. cbn. split; [lia|]. exact B. }
    destruct O as [O1 O2]. set (o := order n) in *. clearbody o.
    assert (Uz : (0 < 10 ^ Z.of_nat p)%Z) by (apply Z.pow_pos_nonneg; lia).
    assert (Oz : (0 < 1000 ^ Z.of_nat o)%Z) by (apply Z.pow_pos_nonneg; lia).
    assert (Eu : Z.of_N unit = (10 ^ Z.of_nat p)%Z) by (unfold unit; rewrite N2Z.inj_pow; f_equal; lia).
    assert (On : (Z.of_N n < 1000 * 1000 ^ Z.of_nat o)%Z).
    { apply N2Z.inj_lt in O2. rewrite N2Z.inj_pow in O2. replace (Z.of_N (N.of_nat (S o))) with (Z.succ (Z.of_nat o)) in O2 by lia.
      rewrite Z.pow_succ_r in O2 by lia. exact O2. }
    set (u := (10 ^ Z.of_nat p)%Z) in *. set (w := (1000 ^ Z.of_nat o)%Z) in *. clearbody u w.
    assert (Kz : (Z.of_N k * w * 2000 <= Z.of_N n * 2001 * u)%Z).
    { apply Qabs_Qle_condition in Q. destruct Q as [_ Q].
      assert (Q' : (inject_Z (Z.of_N k) / inject_Z u * inject_Z w <= inject_Z (Z.of_N n) * (2001 # 2000))%Q).
      { apply (Qplus_le_l _ _ (- inject_Z (Z.of_N n))%Q). eapply Qle_trans; [exact Q|].
        apply Qle_lteq. right. field. }
      assert (Pu : (0 < inject_Z u)%Q) by (change 0%Q with (inject_Z 0); rewrite <- Zlt_Qlt; exact Uz).
      apply (Qmult_le_compat_r _ _ (inject_Z u)) in Q'; [|apply Qlt_le_weak; exact Pu].
      assert (R1 : (inject_Z (Z.of_N k) / inject_Z u * inject_Z w * inject_Z u == inject_Z (Z.of_N k * w))%Q).
      { rewrite inject_Z_mult. field. intros X. rewrite X in Pu. discriminate. }
      rewrite R1 in Q'.
      assert (R2 : (inject_Z (Z.of_N n) * (2001 # 2000) * inject_Z u == (inject_Z (Z.of_N n * 2001 * u)) * (1 # 2000))%Q).
      { rewrite !inject_Z_mult. unfold inject_Z, Qeq, Qmult. cbn [Qnum Qden]. lia. }
      rewrite R2 in Q'. unfold Qle, inject_Z, Qmult in Q'. cbn [Qnum Qden] in Q'. lia. }
    apply N2Z.inj_lt. rewrite N2Z.inj_div, Eu. change (Z.of_N (10 ^ 4)) with 10000%Z.
    apply Z.div_lt_upper_bound; [exact Uz|]. nia. }
  set (s := strip_dot (strip_zeros (decimals p k))) in *.
  assert (Ls : (length s <= p + 5)%nat).
  { unfold s. pose proof (strip_len (decimals p k)) as L. assert (Ld : (length (decimals p k) <= p + 5)%nat); [|lia].
    unfold decimals. cbv zeta. fold unit. rewrite !app_length, repeat_length. cbn [length].
    pose proof (dec_short (k / unit) 4 ltac:(lia) K).
    assert (Hp : (0 < p)%nat) by (destruct Ip as [<-|[<-|[]]]; lia).
    pose proof (dec_short (k mod unit) p Hp) as L2. specialize (L2 ltac:(apply N.mod_lt; lia)). lia. }
  assert (Ip' : In (nth (order n) prefixes []) ([] :: prefixes)) by (destruct (nth_in_or_default (order n) prefixes []) as [Y| ->]; [right; exact Y|left; reflexivity]).
  set (pre := nth (order n) prefixes []) in *.
  assert (Lp : (length pre <= 1)%nat /\ Forall (fun c => c < 128) pre).
  { clearbody pre. destruct Ip' as [<-|[<-|[<-|[<-|[<-|[<-|[]]]]]]]; (split; [cbn; lia|repeat constructor]). }
  destruct Lp as [Lp Fp]. clearbody s pre. split.
  - rewrite !app_length. change (length (U " ")) with 1%nat. change (length (U "B")) with 1%nat. destruct s; [congruence|]. cbn [length] in *. lia.
  - apply Forall_app. split.
    + eapply Forall_impl; [|exact F]. intros c [Dg| ->]; [|reflexivity]. unfold is_digit in Dg. apply andb_true_iff in Dg. rewrite !N.leb_le in Dg. lia.
    + apply Forall_app. split; [repeat constructor|]. apply Forall_app. split; [exact Fp|repeat constructor].
Qed.

(** What is made for a plan that fits *)
Require Import String NArith ZArith PeanoNat Bool List Permutation Lia.
From Verif Require Import PyBase PyFacts Fs FsFacts Split SplitApply MkData Props_MkData MkDataset MkDatasetProofs MkDatasetProofs2 SpecDataset MkDatasetProofs3.
Import ListNotations.
Open Scope Z_scope.

Definition none (_ : exn) : Prop := False.
Definition atmost (c d : Z) (add : tree) : Prop := files_in add <= c /\ dirs_in add <= d.

Lemma ascii_size c : Forall (fun ch => (ch < 128)%N) c -> Z.of_N (utf8_len c) = Z.of_nat (length c).
Proof.
  induction 1 as [|x c H _ IH]; [reflexivity|]. cbn [utf8_len length]. unfold utf8_len1. destruct (N.ltb_spec x 128); [|lia]. lia.
Qed.

Lemma files_with_counts dir l t : files_with dir l t -> bytes_in t = sum l /\ files_in t = Z.of_nat (length l) /\ dirs_in t = 0.
Proof.
  induction 1 as [|z [p v] l t (c & E & S & _) _ (I1 & I2 & I3)]; [repeat split; reflexivity|]. cbn [snd] in E. subst v.
  rewrite bytes_cons, files_cons, dirs_cons, I1, I2, I3. cbn [node_bytes node_files node_dirs sum length]. lia.
Qed.

Lemma sum_nonneg l : Forall (fun z => 0 <= z < 2 ^ 53) l -> 0 <= sum l.
Proof. induction 1; cbn [sum]; lia. Qed.

Lemma fill_sizes_exact k dir maxs maxf : (0 < k)%N -> forall l nb nf w, fit_dir dir (w_tree w) -> wf_tree (w_tree w) ->
  Forall (fun z => 0 <= z < 2 ^ 53) l -> nb + sum l <= maxs -> nf + Z.of_nat (length l) <= maxf ->
  effect k w (fill_sizes k dir maxs maxf l nb nf w)
    (fun n add => n = (nb + sum l, nf + Z.of_nat (length l)) /\ files_with dir l add) (atmost (Z.of_nat (length l)) 0) none.
Proof.
  intros K. induction l as [|sz l IH]; intros nb nf w Fd W F Bs Bf; cbn [fill_sizes sum length] in *.
  - apply effect_done; [exact W|]. split; [f_equal; lia|constructor].
  - inversion F as [|? ? Hz F']; subst. pose proof (sum_nonneg l F') as Nn.
    destruct (Z.ltb_spec maxs (nb + sz)); [lia|]. destruct (Z.leb_spec maxf nf); [lia|]. cbn [orb].
    destruct (C58_partial sz ltac:(lia)) as (c0 & Ec0 & Lc & _ & Asc).
    eapply effect_bind; [apply create_one_effect; auto| | |].
    + intros f w' add T W' (c & Ec & -> & Eg & Dn). rewrite Ec0 in Ec. injection Ec as <-. rewrite T, new_size by exact Eg.
      rewrite (ascii_size c0 Asc), Lc.
      eapply effect_weaken; [apply IH; auto; [rewrite T; apply fit_dir_grows; exact Fd|lia|lia]| | |auto].
      * intros n more [-> H2]. split; [f_equal; lia|]. cbn [app]. constructor; [|exact H2]. exists c0. cbn [fst snd]. split; [reflexivity|]. split; [rewrite ascii_size; auto|exact Dn].
      * intros more [H1 H2]. unfold atmost. cbn [app]. rewrite files_cons, dirs_cons. cbn [node_files node_dirs]. lia.
    + intros add ->. unfold atmost. cbn. lia.
    + intros e E. rewrite Ec0 in E. discriminate.
Qed.

Lemma fill_with_exact k dir s c l w : (0 < k)%N -> fit_dir dir (w_tree w) -> wf_tree (w_tree w) -> amounts s c l ->
  effect k w (fill_with_files k dir s c (Ok l) w) (fun n add => n = (s, c) /\ files_with dir l add) (atmost c 0) none.
Proof.
  intros K Fd W (S & L & F). unfold fill_with_files, on_tree. cbn [andthen].
  eapply effect_weaken; [apply fill_sizes_exact; auto; lia| | |auto].
  - intros n add [-> H]. split; [f_equal; lia|exact H].
  - intros add H. rewrite L in H. exact H.
Qed.

Lemma fill_files_exact k dir ts tc : (0 < k)%N -> forall sets lls, Forall2 ready sets lls -> forall n w, fit_dir dir (w_tree w) -> wf_tree (w_tree w) ->
  fst n + sum (map (fun x => fst (snd x)) sets) <= ts -> snd n + sum (map (fun x => snd (snd x)) sets) <= tc ->
  effect k w (fill_files k dir ts tc sets n w)
    (fun n' add => n' = (fst n + sum (map (fun x => fst (snd x)) sets), snd n + sum (map (fun x => snd (snd x)) sets)) /\ files_with dir (concat lls) add)
    (atmost (sum (map (fun x => snd (snd x)) sets)) 0) none.
Proof.
  intros K. assert (Nn : forall sets lls, Forall2 ready sets lls -> 0 <= sum (map (fun x => fst (snd x)) sets) /\ 0 <= sum (map (fun x => snd (snd x)) sets)).
  { induction 1 as [|x l sets lls (_ & _ & S & L & F) _ [I1 I2]]; cbn [map sum]; [lia|]. pose proof (sum_nonneg l F). lia. }
  induction 1 as [|[f [s c]] l sets lls (R & E & Am) FR IH]; intros n w Fd W Bs Bc; cbn [fill_files map sum concat fst snd] in *.
  - apply effect_done; [exact W|]. split; [destruct n; cbn [fst snd]; f_equal; lia|constructor].
  - destruct (Nn _ _ FR) as [N1 N2]. assert (Ns : 0 <= s /\ 0 <= c) by (destruct Am as (S & L & F); pose proof (sum_nonneg l F); lia).
    destruct (Z.ltb_spec ts (fst n)); [lia|]. destruct (Z.ltb_spec tc (snd n)); [lia|]. cbn [orb]. rewrite R, E. change (Z.to_nat 1) with 1%nat. cbn [times].
    eapply effect_bind with (D := fun n' add => n' = plus2 n (s, c) /\ files_with dir l add) (I := atmost c 0) (E := none).
    + eapply effect_bind with (D := fun n' add => n' = plus2 n (s, c) /\ files_with dir l add) (I := atmost c 0) (E := none).
      * eapply effect_bind; [apply fill_with_exact; [exact K|exact Fd|exact W|exact Am]| |auto|auto].
        intros m w' add T W' [-> HH]. cbn beta. apply effect_done; [exact W'|]. rewrite app_nil_r. auto.
      * intros n' w2 more T2 W2 [-> HH]. cbn beta. apply effect_done; [exact W2|]. rewrite app_nil_r. auto.
      * auto.
      * auto.
    + intros n' w' add T W' [-> HH]. cbn beta. eapply effect_weaken; [apply IH; [rewrite T; apply fit_dir_grows; exact Fd|exact W'|cbn; lia|cbn; lia]| | |auto].
      * intros n2 more [-> H2]. cbn [plus2 fst snd]. split; [f_equal; lia|]. apply Forall2_app; auto.
      * intros more [H1 H2]. unfold atmost. rewrite files_app, dirs_app. destruct (files_with_counts _ _ _ HH) as (_ & -> & ->). destruct Am as (_ & L & _). lia.
    + intros add [H1 H2]. unfold atmost. lia.
    + auto.
Qed.

Lemma ndirs_nonneg d : 0 <= ndirs d.
Proof.
  induction d as [s c r fs ds H] using dspec_all. cbn [ndirs]. induction H as [|d ds H1 H2 IH]; cbn [fold_right]; lia.
Qed.

Lemma F2_in {A B} (P Q : A -> B -> Prop) a b : Forall2 P a b -> (forall x y, In x a -> P x y -> Q x y) -> Forall2 Q a b.
Proof.
  induction 1 as [|x y a b H F IH]; intros G; constructor; [apply G; [left; reflexivity|exact H]|]. apply IH. intros u v J. apply G. right. exact J.
Qed.

Definition subs (ds : list dspec) : Z := fold_right (fun d n => 1 + ndirs d + n) 0 ds.
Lemma subs_nonneg ds : 0 <= subs ds.
Proof. unfold subs. induction ds as [|d ds IH]; cbn [fold_right]; [lia|]. pose proof (ndirs_nonneg d). lia. Qed.

Definition exact (d : dspec) (dir : pystr) (ts tc : Z) (n : Z * Z) (add : tree) : Prop :=
  n = (ts, tc) /\ built d dir ts tc add /\ bytes_in add = ts /\ files_in add = tc /\ dirs_in add = ndirs d.

Lemma new_dir_ok sub w w1 : w_tree w1 = w_tree w ++ [(sub, NDir)] -> wf_tree (w_tree w1) -> good_path sub -> fit_dir sub (w_tree w1).
Proof.
  intros T W G. rewrite T in *. destruct (new_dir_fits sub (w_tree w) G) as [H|(c & H)]; [exact H|]. rewrite (wf_once _ _ _ W) in H. discriminate.
Qed.

Lemma fill_subs_exact k dir ts tc : (0 < k)%N -> forall ds scs,
  Forall2 (fun d sc => d_reps d = 1 /\ 0 < fst sc /\ 0 < snd sc /\ forall dir w, fit_dir dir (w_tree w) -> wf_tree (w_tree w) ->
     effect k w (fill_dir k d dir (fst sc) (snd sc) w) (exact d dir (fst sc) (snd sc)) (atmost (snd sc) (ndirs d)) none) ds scs ->
  forall n w, fit_dir dir (w_tree w) -> wf_tree (w_tree w) ->
  fst n + sum (map fst scs) <= ts -> snd n + sum (map snd scs) <= tc ->
  effect k w (fill_subs k dir ts tc ds scs n w)
    (fun n' add => n' = (fst n + sum (map fst scs), snd n + sum (map snd scs)) /\ built_all ds dir scs add /\
                   bytes_in add = sum (map fst scs) /\ files_in add = sum (map snd scs) /\ dirs_in add = subs ds)
    (atmost (sum (map snd scs)) (subs ds)) none.
Proof.
  intros K ds scs H.
  assert (Nn : forall ds scs, Forall2 (fun d sc => d_reps d = 1 /\ 0 < fst sc /\ 0 < snd sc /\ forall dir w, fit_dir dir (w_tree w) -> wf_tree (w_tree w) ->
     effect k w (fill_dir k d dir (fst sc) (snd sc) w) (exact d dir (fst sc) (snd sc)) (atmost (snd sc) (ndirs d)) none) ds scs ->
     0 <= sum (map fst scs) /\ 0 <= sum (map snd scs)).
  { clear. induction 1 as [|d sc ds scs (_ & A & B & _) _ IH]; cbn [map sum]; lia. }
  induction H as [|d [s c] ds scs (R & Ps & Pc & Hd) HF IH]; intros n w Fd W Bs Bc; cbn [fill_subs map sum fst snd] in *.
  - apply effect_done; [exact W|]. split; [destruct n; cbn [fst snd]; f_equal; lia|]. split; [constructor|]. repeat split.
  - destruct (Nn _ _ HF) as [N1 N2]. pose proof (subs_nonneg ds) as Sn. pose proof (ndirs_nonneg d) as Dn.
    assert (Es : subs (d :: ds) = 1 + ndirs d + subs ds) by reflexivity.
    destruct (Z.ltb_spec ts (fst n)); [lia|]. destruct (Z.ltb_spec tc (snd n)); [lia|]. cbn [orb]. rewrite R. change (Z.to_nat 1) with 1%nat. cbn [times].
    set (D1 := fun (n' : Z * Z) (add : tree) => n' = plus2 n (s, c) /\ exists sub inside, add = (sub, NDir) :: inside /\ dirname sub = dir /\ exact d sub s c (s, c) inside).
    eapply effect_bind with (D := D1) (I := atmost c (1 + ndirs d)) (E := none).
    + eapply effect_bind with (D := D1) (I := atmost c (1 + ndirs d)) (E := none).
      * unfold fill_sub. destruct (Z.ltb_spec ts (fst n)); [lia|]. destruct (Z.ltb_spec tc (snd n)); [lia|]. cbn [orb].
        eapply effect_bind; [apply create_dir_effect; auto| | |intros e []].
        -- intros sub w1 add T W1 (-> & G & Dsub). cbn beta. pose proof (new_dir_ok sub w w1 T W1 G) as Fs.
           eapply effect_bind; [apply Hd; auto| | |auto].
           ++ intros m w2 add T2 W2 Ex. cbn beta. apply effect_done; [exact W2|]. rewrite app_nil_r. split; [destruct Ex as [-> _]; reflexivity|].
              exists sub, add. split; [reflexivity|]. split; [exact Dsub|]. destruct Ex as (E1 & Ex). split; [reflexivity|exact Ex].
           ++ intros add [A1 A2]. unfold atmost. cbn [app]. rewrite files_cons, dirs_cons. cbn [node_files node_dirs]. lia.
        -- intros add ->. unfold atmost. change (files_in []) with 0. change (dirs_in []) with 0. lia.
      * intros n' w2 more T2 W2 HH. cbn beta. apply effect_done; [exact W2|]. rewrite app_nil_r. exact HH.
      * auto.
      * auto.
    + intros n' w' add T W' (-> & sub & inside & -> & Ds & _ & Bt & B1 & B2 & B3). cbn beta.
      eapply effect_weaken; [apply IH; [rewrite T; apply fit_dir_grows; exact Fd|exact W'|cbn; lia|cbn; lia]| | |auto].
      * intros n2 more (-> & Ba & C1 & C2 & C3). cbn [plus2 fst snd app]. split; [f_equal; lia|]. split; [constructor; auto|].
        rewrite bytes_cons, files_cons, dirs_cons, bytes_app, files_app, dirs_app. cbn [node_bytes node_files node_dirs]. lia.
      * intros more [C1 C2]. unfold atmost. cbn [app]. rewrite files_cons, dirs_cons, files_app, dirs_app. cbn [node_files node_dirs]. lia.
    + intros add [C1 C2]. unfold atmost. lia.
    + auto.
Qed.

Lemma fill_dir_exact k : (0 < k)%N -> forall d ts tc, fits d ts tc -> forall dir w, fit_dir dir (w_tree w) -> wf_tree (w_tree w) ->
  effect k w (fill_dir k d dir ts tc w) (exact d dir ts tc) (atmost tc (ndirs d)) none.
Proof.
  intros K d ts tc Ft. induction Ft as [s0 c0 r0 fs ds ts tc Hs Hc Gf Gd Ts Tc Ag Sub IH]. intros dir w Fd W. rewrite fill_dir_eq.
  destruct (Z.leb_spec ts 0); [lia|]. destruct (Z.leb_spec tc 0); [lia|]. cbn [orb].
  destruct (distribute_ok fs ds ts tc Hs Hc Gf Gd Ts Tc Ag) as (fsc & ll & rest & rl & scs & sets & -> & H1 & H2 & H3 & H4 & S1 & S2 & lls & R & Cc & S3 & S4).
  cbn [on_tree andthen fst snd].
  assert (HF : Forall2 (fun d sc => d_reps d = 1 /\ 0 < fst sc /\ 0 < snd sc /\ forall dir w, fit_dir dir (w_tree w) -> wf_tree (w_tree w) ->
     effect k w (fill_dir k d dir (fst sc) (snd sc) w) (exact d dir (fst sc) (snd sc)) (atmost (snd sc) (ndirs d)) none) ds scs).
  { assert (All : forall d sc, In d ds -> gets ts (size_claims fs ds) (d_size d) (fst sc) /\ gets tc (count_claims fs ds) (d_count d) (snd sc) ->
        d_reps d = 1 /\ 0 < fst sc /\ 0 < snd sc /\ forall dir w, fit_dir dir (w_tree w) -> wf_tree (w_tree w) ->
          effect k w (fill_dir k d dir (fst sc) (snd sc) w) (exact d dir (fst sc) (snd sc)) (atmost (snd sc) (ndirs d)) none).
    { intros d sc J [G1 G2]. rewrite Forall_forall in Gd. split; [apply (Gd d J)|].
      pose proof (Sub d (fst sc) (snd sc) J G1 G2) as Fs. split; [inversion Fs; lia|]. split; [inversion Fs; lia|]. intros dir' w' Fd' W'. apply (IH d); auto. }
    eapply F2_in; [exact H4|]. intros d sc J G. apply (All d sc J G). }
  assert (Nc : 0 <= sum (map fst scs) /\ 0 <= sum (map snd scs)) by (clear - HF; induction HF as [|d sc ds scs (_ & A & B & _) _ IH]; cbn [map sum]; lia).
  eapply effect_bind; [apply (fill_files_exact k dir ts tc K sets lls R); [exact Fd|exact W|cbn [fst]; lia|cbn [snd]; lia]| | |auto].
  - intros n w1 add T W1 [-> Fw]. cbn beta. rewrite Cc in Fw. destruct (files_with_counts _ _ _ Fw) as (F1 & F2 & F3).
    assert (Am : sum (concat ll ++ rl) = sum (map fst fsc) + fst rest /\ Z.of_nat (length (concat ll ++ rl)) = sum (map snd fsc) + snd rest).
    { rewrite <- Cc, <- S3, <- S4. clear - R. induction R as [|x l sets lls (_ & _ & A & B & _) _ [I1 I2]]; [split; reflexivity|].
      cbn [concat map sum]. rewrite sum_concat, app_length, Nat2Z.inj_add. lia. }
    eapply effect_weaken; [apply (fill_subs_exact k dir ts tc K ds scs HF); [rewrite T; apply fit_dir_grows; exact Fd|exact W1|cbn [fst snd]; lia|cbn [fst snd]; lia]| | |auto].
    + cbn [fst snd]. intros n more (-> & Ba & C1 & C2 & C3). unfold exact. split; [f_equal; lia|]. split; [econstructor; eauto|].
      rewrite bytes_app, files_app, dirs_app. change (ndirs (DSpec s0 c0 r0 fs ds)) with (subs ds). lia.
    + intros more [C1 C2]. unfold atmost. rewrite files_app, dirs_app. change (ndirs (DSpec s0 c0 r0 fs ds)) with (subs ds). lia.
  - intros add [C1 C2]. unfold atmost. change (ndirs (DSpec s0 c0 r0 fs ds)) with (subs ds). pose proof (subs_nonneg ds). lia.
Qed.

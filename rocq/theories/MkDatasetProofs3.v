(** How sizes and numbers of files are shared out, for plans that fit *)
Require Import String NArith ZArith PeanoNat Bool List Permutation Lia.
From Verif Require Import PyBase PyFacts Fs Split SplitProofs2 MkData Props_MkData MkDataset MkDatasetProofs2 SpecDataset.
Import ListNotations.
Open Scope Z_scope.

Lemma sum_sum l : sum_Z l = sum l.
Proof. unfold sum_Z. induction l as [|x l IH]; [reflexivity|]. cbn [sum fold_right]. rewrite IH. reflexivity. Qed.
Lemma sum_total l : total l = sum l.
Proof. exact (sum_sum l). Qed.
Lemma sum_concat a b : sum (a ++ b) = sum a + sum b.
Proof. rewrite <- !sum_sum. apply sum_app. Qed.

Lemma even_evenly tz nf l : 0 <= nf -> even_split tz (Z.to_nat nf) l -> evenly tz nf l.
Proof. intros H (A & B & C). rewrite sum_total in B. split; [lia|]. auto. Qed.

Lemma F2_impl {A B} (P Q : A -> B -> Prop) a b : (forall x y, P x y -> Q x y) -> Forall2 P a b -> Forall2 Q a b.
Proof. intros H F. induction F; constructor; auto. Qed.

(** *** Equal shares *)

Lemma near_sum a l : Forall (fun s => s = a \/ s = a + 1) l ->
  a * Z.of_nat (length l) <= sum l <= (a + 1) * Z.of_nat (length l) /\
  (sum l = (a + 1) * Z.of_nat (length l) -> Forall (fun s => s = a + 1) l).
Proof.
  induction 1 as [|s l H _ [IH1 IH2]]; cbn [sum length]; [split; [lia|constructor]|]. rewrite Nat2Z.inj_succ.
  split; [lia|]. intros E. constructor; [lia|]. apply IH2. lia.
Qed.

Lemma even_shares r n l : 0 < n -> evenly r n l -> Forall (fun s => s = r / n \/ s = r / n + 1) l.
Proof.
  intros P (L & S & a & A & F). destruct (near_sum a l F) as [B1 B2]. rewrite L, S in *.
  destruct (Z.eq_dec r ((a + 1) * n)) as [E|E].
  - specialize (B2 E). rewrite E, Z.div_mul by lia. eapply Forall_impl; [|exact B2]. auto.
  - replace (r / n) with a; [exact F|]. apply (Z.div_unique r n a (r - a * n)); lia.
Qed.

Definition ones (cl : list (option Z)) : list (option Z * Z) := map (fun c => (c, 1)) cl.

Lemma claimed_ones cl : claimed (ones cl) = taken cl.
Proof.
  unfold claimed, taken, ones. rewrite sum_sum, map_map. f_equal. apply map_ext. intros [x|]; cbn [fst snd claim]; lia.
Qed.
Lemma filter_ones cl : sum_Z (map snd (filter (fun x : option Z * Z => match fst x with None => true | Some _ => false end) (ones cl))) = free cl.
Proof.
  rewrite sum_sum. induction cl as [|[x|] cl IH]; [reflexivity|exact IH|]. cbn [ones map filter fst snd sum]. unfold free. cbn [map sum is_free]. f_equal. exact IH.
Qed.
Lemma free_nonneg cl : 0 <= free cl.
Proof. unfold free. induction cl as [|[x|] cl IH]; cbn [map sum is_free]; lia. Qed.
Lemma no_free cl : free cl = 0 -> filter (fun x : option Z * Z => match fst x with None => true | Some _ => false end) (ones cl) = [].
Proof.
  induction cl as [|[x|] cl IH]; [reflexivity|exact IH|]. intros H. exfalso. unfold free in H. cbn [map sum is_free] in H. pose proof (free_nonneg cl). unfold free in *. lia.
Qed.

Lemma assign_ok (P : Z -> Prop) dflt : forall cl l, Z.of_nat (length l) = free cl -> Forall P l ->
  Forall2 (fun c x => match c with Some y => x = y | None => P x end) cl (assign (ones cl) l dflt) /\
  sum (assign (ones cl) l dflt) = taken cl + sum l.
Proof.
  induction cl as [|[y|] cl IH]; intros l L F.
  - destruct l; [|discriminate]. split; [constructor|reflexivity].
  - destruct (IH l L F) as [A B]. cbn [ones map assign]. split; [constructor; [reflexivity|exact A]|].
    cbn [sum]. fold (ones cl). rewrite B. unfold taken. cbn [map sum claim]. lia.
  - unfold free in L. cbn [map sum is_free] in L. fold (free cl) in L. pose proof (free_nonneg cl).
    destruct l as [|x l]; [cbn [length] in L; lia|]. inversion F; subst. cbn [length] in L.
    destruct (IH l ltac:(lia) H3) as [A B]. cbn [ones map assign]. split; [constructor; [exact H2|exact A]|].
    cbn [sum]. fold (ones cl). rewrite B. unfold taken. cbn [map sum claim]. lia.
Qed.

Lemma share_ok tot cl dflt : 0 <= taken cl -> taken cl + free cl <= tot -> tot < 2 ^ 50 ->
  exists ss, share tot (ones cl) dflt = Ok ss /\ Forall2 (gets tot cl) cl ss /\
    sum ss = (if free cl =? 0 then taken cl else tot).
Proof.
  intros T F B. unfold share. destruct (Z.eqb_spec (free cl) 0) as [Z|Z].
  - rewrite (no_free cl Z). destruct (assign_ok (fun _ => False) dflt cl [] ltac:(cbn; lia) ltac:(constructor)) as [A1 A2].
    eexists. split; [reflexivity|]. split; [|rewrite A2; cbn [sum]; lia]. eapply F2_impl; [|exact A1]. intros [y|] x; [auto|tauto].
  - pose proof (free_nonneg cl). destruct (filter _ (ones cl)) as [|p nd] eqn:E.
    + pose proof (filter_ones cl) as H0. rewrite E in H0. cbn in H0. lia.
    + rewrite <- E, filter_ones, claimed_ones. clear p nd E.
      destruct (C57_partial (tot - taken cl) (free cl) ltac:(lia) ltac:(lia)) as (l & -> & Ev). apply even_evenly in Ev; [|lia].
      assert (Fp : 0 < free cl) by lia. pose proof (even_shares _ _ _ Fp Ev) as Sh. destruct Ev as (L & S & _).
      destruct (assign_ok _ dflt cl l L Sh) as [A1 A2]. cbn [bind]. eexists. split; [reflexivity|]. split; [exact A1|]. lia.
Qed.

(** *** Known sizes *)

Lemma inventory_perm inv : Permutation (inventory inv) (flat_map (fun x => repeat (fst x) (Z.to_nat (snd x))) inv).
Proof. unfold inventory. apply Permutation_flat_map. rewrite <- Permutation_rev. apply isort_perm. Qed.

Lemma sum_perm a b : Permutation a b -> sum a = sum b.
Proof. induction 1; cbn [sum]; lia. Qed.

Lemma expand_sum inv : Forall (fun x => 0 <= fst x /\ 0 <= snd x) inv ->
  sum (flat_map (fun x : Z * Z => repeat (fst x) (Z.to_nat (snd x))) inv) = sum (map (fun x => fst x * snd x) inv) /\
  Z.of_nat (length (flat_map (fun x : Z * Z => repeat (fst x) (Z.to_nat (snd x))) inv)) = sum (map snd inv).
Proof.
  induction 1 as [|[z n] inv [H1 H2] _ [IH1 IH2]]; [split; reflexivity|]. cbn [flat_map map sum fst snd] in *.
  rewrite sum_concat, app_length, repeat_length, IH1, Nat2Z.inj_add, IH2. rewrite <- sum_total, total_repeat. rewrite Z2Nat.id by exact H2. split; lia.
Qed.

Lemma sum_member x l : Forall (fun z => 0 <= z) l -> In x l -> x <= sum l.
Proof.
  induction 1 as [|y l H F IH]; intros J; [destruct J|]. cbn [sum].
  assert (0 <= sum l) by (clear - F; induction F; cbn [sum]; lia). destruct J as [->|J]; [lia|]. specialize (IH J). lia.
Qed.
Lemma evenly_nonneg s c l : evenly s c l -> Forall (fun z => 0 <= z) l.
Proof. intros (_ & _ & a & A & F). eapply Forall_impl; [|exact F]. cbn beta. intros. lia. Qed.

(** Sizes that can be made, and have this sum and number. *)
Definition amounts (s c : Z) (l : list Z) : Prop := sum l = s /\ Z.of_nat (length l) = c /\ Forall (fun z => 0 <= z < 2 ^ 53) l.
Lemma nonneg_amounts s c l : s < 2 ^ 50 -> sum l = s -> Z.of_nat (length l) = c -> Forall (fun z => 0 <= z) l -> amounts s c l.
Proof.
  intros B S L F. split; [exact S|]. split; [exact L|]. apply Forall_forall. intros x J. pose proof (sum_member x l F J). rewrite Forall_forall in F. specialize (F x J). lia.
Qed.

Lemma known_claim f : good_set f -> (forall s c, file_claim f = Some (s, c) -> s < 2 ^ 50 /\ c < 2 ^ 50) ->
  check_kind f = Ok tt /\ known f = Ok (file_claim f) /\
  forall s c, file_claim f = Some (s, c) -> 0 <= s /\ 0 <= c /\ exists l, sizes_of f = Ok l /\ amounts s c l /\ set_sizes f (s, c) l.
Proof.
  intros [_ G] B. unfold check_kind, known, sizes_of, file_claim, set_sizes in *. destruct (f_kind f) as [|inv|e]; [| |destruct G].
  - destruct G as [Gs Gc]. split; [reflexivity|]. destruct (f_size f) as [s|]; [|split; [reflexivity|discriminate]].
    specialize (Gs s eq_refl). destruct (f_count f) as [c|].
    + specialize (Gc c eq_refl). destruct (B s c eq_refl) as [B1 B2].
      destruct (C57_partial s c ltac:(lia) ltac:(lia)) as (l & E & Ev). apply even_evenly in Ev; [|lia]. rewrite E.
      pose proof (evenly_nonneg _ _ _ Ev) as Nn. destruct Ev as (L & S & A). rewrite sum_sum, S, L. split; [reflexivity|].
      intros s' c' E'. injection E' as <- <-. split; [exact Gs|]. split; [lia|]. exists l. split; [reflexivity|]. split; [apply nonneg_amounts; auto|].
      split; auto.
    + unfold iterate. destruct (Z.ltb_spec s 0); [lia|]. split; [reflexivity|discriminate].
  - split; [reflexivity|]. destruct (expand_sum inv G) as [E1 E2]. pose proof (inventory_perm inv) as P.
    assert (S : sum (inventory inv) = sum (map (fun x => fst x * snd x) inv)) by (rewrite (sum_perm _ _ P); exact E1).
    assert (L : Z.of_nat (length (inventory inv)) = sum (map snd inv)) by (rewrite (Permutation_length P); exact E2).
    rewrite sum_sum, S, L. split; [reflexivity|]. intros s c E. injection E as <- <-. destruct (B _ _ eq_refl) as [B1 B2].
    assert (Nn : Forall (fun z => 0 <= z) (inventory inv)).
    { rewrite P. apply Forall_flat_map. eapply Forall_impl; [|exact G]. intros [z n] [H _]. apply Forall_forall. intros x J. apply repeat_spec in J. subst. exact H. }
    split; [|split].
    + rewrite <- S. clear - Nn. induction Nn; cbn [sum]; lia.
    + lia.
    + exists (inventory inv). split; [reflexivity|]. split; [|exact P]. apply nonneg_amounts; auto.
Qed.

Lemma mapM_map {A B} (f : A -> res B) (g : A -> B) l : (forall x, In x l -> f x = Ok (g x)) -> mapM f l = Ok (map g l).
Proof.
  induction l as [|x l IH]; intros H; [reflexivity|]. cbn [mapM map]. rewrite H by (left; reflexivity). cbn [bind]. rewrite IH by (intros; apply H; right; auto). reflexivity.
Qed.
Lemma combine_map {A B} (g : A -> B) l : combine l (map g l) = map (fun x => (x, g x)) l.
Proof. induction l as [|x l IH]; [reflexivity|]. cbn [map combine]. rewrite IH. reflexivity. Qed.

Lemma taken_member cl x : Forall (fun c => 0 <= claim c) cl -> In (Some x) cl -> x <= taken cl.
Proof.
  intros F J. apply sum_member.
  - apply Forall_map. exact F.
  - apply in_map_iff. exists (Some x). auto.
Qed.
Lemma taken_nonneg cl : Forall (fun c => 0 <= claim c) cl -> 0 <= taken cl.
Proof. unfold taken. induction 1; cbn [map sum]; lia. Qed.

Definition grantable (tot : Z) (cl : list (option Z)) : Prop :=
  Forall (fun c => 0 <= claim c) cl /\ taken cl + free cl <= tot /\ tot < 2 ^ 50.

Lemma gets_bounds tot cl c x : grantable tot cl -> In c cl -> gets tot cl c x -> 0 <= x < 2 ^ 50 + 1 /\ (c = None -> 0 < x).
Proof.
  intros (F & L & B) J G. pose proof (taken_nonneg _ F) as T. pose proof (free_nonneg cl) as Fr. destruct c as [y|]; cbn [gets] in G.
  - subst x. pose proof (taken_member _ _ F J). rewrite Forall_forall in F. specialize (F _ J). cbn [claim] in F. split; [lia|discriminate].
  - assert (P : 0 < free cl).
    { clear - J Fr. unfold free in *. induction cl as [|[y|] cl IH]; [destruct J| |]; cbn [map sum is_free] in *.
      - destruct J as [J|J]; [discriminate|]. apply IH; auto.
      - pose proof (free_nonneg cl). unfold free in *. lia. }
    assert (1 <= (tot - taken cl) / free cl) by (apply Z.div_le_lower_bound; lia).
    assert ((tot - taken cl) / free cl <= tot - taken cl) by (apply Z.div_le_upper_bound; nia).
    split; [lia|]. intros _. lia.
Qed.

(** *** The sets of files *)

Definition ready (x : fspec * (Z * Z)) (l : list Z) : Prop :=
  f_reps (fst x) = 1 /\ sizes_of (fst x) = Ok l /\ amounts (fst (snd x)) (snd (snd x)) l.

Lemma gets_top tot cl c x : grantable tot cl -> In c cl -> sum [x] <= tot -> gets tot cl c x -> 0 <= x < 2 ^ 50.
Proof. intros (F & L & B) J S G. destruct (gets_bounds tot cl c x) as [H _]; auto; [split; auto|]. cbn [sum] in S. lia. Qed.

Lemma sets_ready tS tC sc cc : grantable tS sc -> grantable tC cc -> forall fs ss cs,
  Forall good_set fs -> incl (map (fun f => option_map fst (file_claim f)) fs) sc -> incl (map (fun f => option_map snd (file_claim f)) fs) cc ->
  Forall2 (gets tS sc) (map (fun f => option_map fst (file_claim f)) fs) ss ->
  Forall2 (gets tC cc) (map (fun f => option_map snd (file_claim f)) fs) cs ->
  Forall (fun x => x < 2 ^ 50) ss -> Forall (fun x => x < 2 ^ 50) cs ->
  exists ll,
    Forall2 ready (map (fun x : fspec * option (Z * Z) * (Z * Z) => let '(f, k, sc) := x in (match k with Some _ => f | None => targeted f sc end, sc))
                       (combine (combine fs (map file_claim fs)) (combine ss cs))) ll /\
    Forall2 (fun fsc l => set_sizes (fst fsc) (snd fsc) l) (combine fs (combine ss cs)) ll.
Proof.
  intros GS GC. induction fs as [|f fs IH]; intros ss cs G IS IC HS HC BS BC; cbn [map] in HS, HC.
  - exists []. inversion HS; subst. split; constructor.
  - inversion HS as [|? s ? ss' H1 H2]; subst. inversion HC as [|? c ? cs' H3 H4]; subst. inversion G as [|? ? Gf G']; subst.
    inversion BS; subst. inversion BC; subst.
    destruct (IH ss' cs') as (ll & R1 & R2); auto; [intros x J; apply IS; right; exact J|intros x J; apply IC; right; exact J|].
    assert (I1 : In (option_map fst (file_claim f)) sc) by (apply IS; left; reflexivity).
    assert (I2 : In (option_map snd (file_claim f)) cc) by (apply IC; left; reflexivity).
    pose proof (gets_bounds _ _ _ _ GS I1 H1) as [_ Ps]. pose proof (gets_bounds _ _ _ _ GC I2 H3) as [_ Pc].
    destruct (file_claim f) as [[s0 c0]|] eqn:E; cbn [option_map fst snd gets] in *.
    + subst s c. destruct (known_claim f Gf) as (_ & _ & K).
      { intros s c E'. rewrite E in E'. injection E' as <- <-. auto. }
      destruct (K s0 c0 E) as (_ & _ & l & L1 & L2 & L3). exists (l :: ll). cbn [combine map]. rewrite E. split; constructor; auto.
      split; [apply Gf|]. split; auto.
    + specialize (Ps eq_refl). specialize (Pc eq_refl).
      assert (Ku : f_kind f = Uniform).
      { unfold file_claim in E. destruct Gf as [_ Gf]. destruct (f_kind f); [reflexivity|discriminate|destruct Gf]. }
      destruct (C57_partial s c ltac:(lia) ltac:(lia)) as (l & L & Ev). apply even_evenly in Ev; [|lia].
      exists (l :: ll). cbn [combine map]. rewrite E. split; constructor; auto.
      * split; [apply Gf|]. split.
        -- unfold sizes_of, targeted. cbn [f_kind f_size f_count fst snd]. rewrite Ku. exact L.
        -- cbn [fst snd]. pose proof (evenly_nonneg _ _ _ Ev). destruct Ev as (V1 & V2 & _). apply nonneg_amounts; auto.
      * unfold set_sizes. cbn [fst snd]. rewrite Ku. exact Ev.
Qed.

Lemma left_sum cl ss tot : length cl = length ss -> size_left tot (ones cl) ss = tot - sum ss.
Proof.
  intros L. unfold size_left. rewrite sum_sum. f_equal. revert ss L. induction cl as [|c cl IH]; intros [|s ss] L; try discriminate; [reflexivity|].
  cbn [ones map combine sum fst snd]. fold (ones cl). rewrite IH by (cbn in L; lia). lia.
Qed.
Lemma count_left_sum cl ss tot : Forall2 (gets tot cl) cl ss -> count_left tot (ones cl) ss = tot - sum ss.
Proof.
  unfold count_left. rewrite sum_sum. intros F. f_equal. remember cl as all eqn:E in F at 1. clear E.
  induction F as [|c s cl ss G F IH]; [reflexivity|]. cbn [ones map combine sum fst snd]. fold (ones cl). rewrite IH. destruct c as [y|]; cbn [gets fst snd] in *; lia.
Qed.

Lemma Forall2_app_left {A B} (P : A -> B -> Prop) a b l : Forall2 P (a ++ b) l ->
  exists x y, l = x ++ y /\ Forall2 P a x /\ Forall2 P b y /\ firstn (length a) l = x /\ skipn (length a) l = y.
Proof.
  revert l. induction a as [|u a IH]; intros l H; [exists [], l; cbn; auto using Forall2_nil|].
  inversion H as [|? v ? l' H1 H2]; subst. destruct (IH l' H2) as (x & y & -> & X & Y & Ex & Ey). exists (v :: x), y. cbn [length firstn skipn app].
  split; [reflexivity|]. split; [constructor; auto|]. split; [exact Y|]. rewrite Ex, Ey. auto.
Qed.

Lemma sum_bound l tot : Forall (fun z => 0 <= z) l -> sum l <= tot -> tot < 2 ^ 50 -> Forall (fun z => z < 2 ^ 50) l.
Proof. intros F S B. apply Forall_forall. intros x J. pose proof (sum_member x l F J). lia. Qed.

Lemma gets_nonneg tot cl : grantable tot cl -> forall a ss, incl a cl -> Forall2 (gets tot cl) a ss -> Forall (fun z => 0 <= z) ss.
Proof.
  intros G a ss Inc F. induction F as [|c s a ss H F IH]; constructor.
  - apply (gets_bounds tot cl c s G); [apply Inc; left; reflexivity|exact H].
  - apply IH. intros x J. apply Inc. right. exact J.
Qed.

Lemma fst_combine_sum (a b : list Z) : length a = length b -> sum (map fst (combine a b)) = sum a /\ sum (map snd (combine a b)) = sum b.
Proof.
  revert b. induction a as [|x a IH]; intros [|y b] L; try discriminate; [auto|]. cbn [combine map sum fst snd]. destruct (IH b) as [-> ->]; [cbn in L; lia|auto].
Qed.

Lemma F2_length {A B} (P : A -> B -> Prop) a b : Forall2 P a b -> length a = length b.
Proof. induction 1; cbn [length]; auto. Qed.

(** ** [distribute] for a plan that fits *)
Lemma distribute_ok fs ds ts tc :
  0 < ts < 2 ^ 50 -> 0 < tc < 2 ^ 50 -> Forall good_set fs -> Forall good_sub ds ->
  taken (size_claims fs ds) + free (size_claims fs ds) <= ts ->
  taken (count_claims fs ds) + free (count_claims fs ds) <= tc ->
  all_given ts tc (size_claims fs ds) (count_claims fs ds) ->
  exists fsc ll rest rl scs sets,
    distribute ts tc fs ds = Ok (sets, scs) /\
    Forall2 (fun f sc => gets ts (size_claims fs ds) (option_map fst (file_claim f)) (fst sc) /\
                         gets tc (count_claims fs ds) (option_map snd (file_claim f)) (snd sc)) fs fsc /\
    Forall2 (fun fsc l => set_sizes (fst fsc) (snd fsc) l) (combine fs fsc) ll /\
    rest_sizes rest rl /\
    Forall2 (fun d sc => gets ts (size_claims fs ds) (d_size d) (fst sc) /\
                         gets tc (count_claims fs ds) (d_count d) (snd sc)) ds scs /\
    sum (map fst fsc) + fst rest + sum (map fst scs) = ts /\
    sum (map snd fsc) + snd rest + sum (map snd scs) = tc /\
    exists lls, Forall2 ready sets lls /\ concat lls = concat ll ++ rl /\
      sum (map (fun x => fst (snd x)) sets) = sum (map fst fsc) + fst rest /\ sum (map (fun x => snd (snd x)) sets) = sum (map snd fsc) + snd rest.
Proof.
  intros Hs Hc Gf Gd Ts Tc Ag. set (SC := size_claims fs ds) in *. set (CC := count_claims fs ds) in *.
  (* claims are not negative *)
  assert (Nf : forall f, In f fs -> match file_claim f with Some sc => 0 <= fst sc /\ 0 <= snd sc | None => True end).
  { intros f J. rewrite Forall_forall in Gf. destruct (Gf f J) as [_ G]. unfold file_claim. destruct (f_kind f) as [|inv|e]; [| |destruct G].
    - destruct G as [G1 G2]. destruct (f_size f) as [s|]; [|exact I]. destruct (f_count f) as [c|]; [|exact I]. specialize (G1 s eq_refl). specialize (G2 c eq_refl). cbn [fst snd]. lia.
    - cbn [fst snd]. clear - G. induction G as [|[z n] inv [A B] _ [I1 I2]]; cbn [map sum fst snd] in *; [lia|]. nia. }
  assert (GS : grantable ts SC).
  { split; [|lia]. unfold SC, size_claims. apply Forall_app. split; apply Forall_map; apply Forall_forall.
    - intros f J. specialize (Nf f J). destruct (file_claim f) as [[s c]|]; cbn [option_map fst claim]; [apply Nf|lia].
    - intros d J. rewrite Forall_forall in Gd. destruct (Gd d J) as (_ & G & _). destruct (d_size d); cbn [claim]; [auto|lia]. }
  assert (GC : grantable tc CC).
  { split; [|lia]. unfold CC, count_claims. apply Forall_app. split; apply Forall_map; apply Forall_forall.
    - intros f J. specialize (Nf f J). destruct (file_claim f) as [[s c]|]; cbn [option_map snd claim]; [apply Nf|lia].
    - intros d J. rewrite Forall_forall in Gd. destruct (Gd d J) as (_ & _ & G). destruct (d_count d); cbn [claim]; [auto|lia]. }
  destruct (share_ok ts SC 0 (taken_nonneg _ (proj1 GS)) Ts ltac:(lia)) as (ss & Es & Ss & Sum).
  destruct (share_ok tc CC 1 (taken_nonneg _ (proj1 GC)) Tc ltac:(lia)) as (cs & Ec & Sc & Cum).
  pose proof (free_nonneg SC) as Fs0. pose proof (free_nonneg CC) as Fc0.
  assert (Kn : forall f, In f fs -> check_kind f = Ok tt /\ known f = Ok (file_claim f)).
  { intros f J. destruct (known_claim f) as (A & B & _); auto; [rewrite Forall_forall in Gf; auto|]. intros s c E. split.
    - assert (s <= taken SC); [|lia]. apply taken_member; [apply GS|]. unfold SC, size_claims. apply in_or_app. left. apply in_map_iff. exists f. rewrite E. auto.
    - assert (c <= taken CC); [|lia]. apply taken_member; [apply GC|]. unfold CC, count_claims. apply in_or_app. left. apply in_map_iff. exists f. rewrite E. auto. }
  assert (Xs : map (fun fk : fspec * option (Z * Z) => (option_map fst (snd fk), f_reps (fst fk))) (combine fs (map file_claim fs)) ++ map (fun d => (d_size d, d_reps d)) ds = ones SC).
  { unfold ones, SC, size_claims. rewrite combine_map, map_map, map_app, !map_map. f_equal; apply map_ext_in; intros x J; cbn [fst snd]; f_equal.
    - rewrite Forall_forall in Gf. apply (Gf x J).
    - rewrite Forall_forall in Gd. apply (Gd x J). }
  assert (Xc : map (fun fk : fspec * option (Z * Z) => (option_map snd (snd fk), f_reps (fst fk))) (combine fs (map file_claim fs)) ++ map (fun d => (d_count d, d_reps d)) ds = ones CC).
  { unfold ones, CC, count_claims. rewrite combine_map, map_map, map_app, !map_map. f_equal; apply map_ext_in; intros x J; cbn [fst snd]; f_equal.
    - rewrite Forall_forall in Gf. apply (Gf x J).
    - rewrite Forall_forall in Gd. apply (Gd x J). }
  pose proof Ss as Ss0. pose proof Sc as Sc0. unfold SC at 2, size_claims in Ss0. unfold CC at 2, count_claims in Sc0.
  destruct (Forall2_app_left _ _ _ _ Ss0) as (ss1 & ss2 & Ess & Ss1 & Ss2 & Fss & Kss). rewrite map_length in Fss, Kss.
  destruct (Forall2_app_left _ _ _ _ Sc0) as (cs1 & cs2 & Ecs & Sc1 & Sc2 & Fcs & Kcs). rewrite map_length in Fcs, Kcs.
  assert (Is1 : incl (map (fun f => option_map fst (file_claim f)) fs) SC) by (apply incl_appl, incl_refl).
  assert (Ic1 : incl (map (fun f => option_map snd (file_claim f)) fs) CC) by (apply incl_appl, incl_refl).
  assert (Ns : Forall (fun z => 0 <= z) ss) by (apply (gets_nonneg ts SC GS SC); [apply incl_refl|exact Ss]).
  assert (Nc : Forall (fun z => 0 <= z) cs) by (apply (gets_nonneg tc CC GC CC); [apply incl_refl|exact Sc]).
  assert (Bs : sum ss <= ts) by (rewrite Sum; destruct (free SC =? 0); lia || (destruct GS as (_ & ? & _); pose proof (free_nonneg SC); lia)).
  assert (Bc : sum cs <= tc) by (rewrite Cum; destruct (free CC =? 0); lia || (destruct GC as (_ & ? & _); pose proof (free_nonneg CC); lia)).
  pose proof (sum_bound ss ts Ns Bs ltac:(lia)) as Us. pose proof (sum_bound cs tc Nc Bc ltac:(lia)) as Uc.
  assert (Us1 : Forall (fun z => z < 2 ^ 50) ss1) by (rewrite Ess in Us; apply Forall_app in Us; apply Us).
  assert (Uc1 : Forall (fun z => z < 2 ^ 50) cs1) by (rewrite Ecs in Uc; apply Forall_app in Uc; apply Uc).
  destruct (sets_ready ts tc SC CC GS GC fs ss1 cs1 Gf Is1 Ic1 Ss1 Sc1 Us1 Uc1) as (ll & R & SZ).
  assert (L1 : length ss1 = length cs1) by (apply F2_length in Ss1; apply F2_length in Sc1; rewrite map_length in *; congruence).
  assert (L2 : length ss2 = length cs2) by (apply F2_length in Ss2; apply F2_length in Sc2; rewrite map_length in *; congruence).
  assert (Lf : length ss1 = length fs) by (apply F2_length in Ss1; rewrite map_length in *; congruence).
  assert (Dis : distribute ts tc fs ds = Ok (map (fun x : fspec * option (Z * Z) * (Z * Z) => let '(f, k, sc) := x in (match k with Some _ => f | None => targeted f sc end, sc))
                       (combine (combine fs (map file_claim fs)) (combine ss1 cs1)) ++
      (if 0 <? ts - sum ss then [({| f_size := Some (ts - sum ss); f_count := Some (if tc - sum cs <=? 0 then 1 else tc - sum cs); f_reps := 1; f_kind := Uniform |},
                                  (ts - sum ss, if tc - sum cs <=? 0 then 1 else tc - sum cs))] else []), combine ss2 cs2)).
  { unfold distribute. rewrite (mapM_map check_kind (fun _ => tt)) by (intros f J; apply (Kn f J)). cbn [bind].
    rewrite (mapM_map known file_claim) by (intros f J; apply (Kn f J)). cbn [bind]. rewrite Xs, Xc, Es. cbn [bind]. rewrite Ec. cbn [bind].
    rewrite left_sum by (apply F2_length in Ss; exact Ss). rewrite count_left_sum by exact Sc. rewrite Fss, Kss, Fcs, Kcs. reflexivity. }
  set (nb := ts - sum ss) in *. set (nf := tc - sum cs) in *.
  assert (Rest : (nb = 0 /\ nf = 0) \/ (0 < nb /\ 0 < nf)).
  { unfold nb, nf. rewrite Sum, Cum. pose proof (free_nonneg SC). pose proof (free_nonneg CC).
    destruct Ag as [[A1 A2]|(A1 & A2 & A3 & A4)]; destruct (Z.eqb_spec (free SC) 0); destruct (Z.eqb_spec (free CC) 0); lia. }
  assert (Nn : 0 <= sum ss /\ 0 <= sum cs) by (split; [clear - Ns; induction Ns|clear - Nc; induction Nc]; cbn [sum]; lia).
  assert (RS : exists rl, rest_sizes (nb, nf) rl /\ (nb = 0 -> rl = []) /\ (0 < nb -> iterate (Some nb) (Some nf) = Ok rl /\ amounts nb nf rl)).
  { destruct Rest as [[A B]|[A B]].
    - exists []. rewrite A, B. split; [left; auto|]. split; [auto|lia].
    - destruct (C57_partial nb nf) as (rl & L & Ev); [unfold nb; lia|unfold nf; lia|]. apply even_evenly in Ev; [|lia]. exists rl.
      split; [right; auto|]. split; [lia|]. intros _. split; [exact L|]. pose proof (evenly_nonneg _ _ _ Ev). destruct Ev as (V1 & V2 & _). apply nonneg_amounts; auto. unfold nb. lia. }
  destruct RS as (rl & RS1 & RS2 & RS3).
  destruct (fst_combine_sum ss1 cs1 L1) as [Q1 Q2]. destruct (fst_combine_sum ss2 cs2 L2) as [Q3 Q4].
  assert (T1 : sum ss = sum ss1 + sum ss2) by (rewrite Ess; apply sum_concat). assert (T2 : sum cs = sum cs1 + sum cs2) by (rewrite Ecs; apply sum_concat).
  exists (combine ss1 cs1), ll, (nb, nf), rl, (combine ss2 cs2). eexists. split; [exact Dis|].
  split.
  { clear - Ss1 Sc1. clearbody SC CC. revert ss1 cs1 Ss1 Sc1. induction fs as [|f fs IH]; intros ss1 cs1 A B; cbn [map] in A, B; inversion A; subst; inversion B; subst; cbn [combine]; constructor; auto. }
  split; [exact SZ|]. split; [exact RS1|]. split.
  { clear - Ss2 Sc2. clearbody SC CC. revert ss2 cs2 Ss2 Sc2. induction ds as [|d ds IH]; intros ss2 cs2 A B; cbn [map] in A, B; inversion A; subst; inversion B; subst; cbn [combine]; constructor; auto. }
  split; [cbn [fst]; unfold nb; lia|]. split; [cbn [snd]; unfold nf; lia|].
  assert (Map : map snd (map (fun x : fspec * option (Z * Z) * (Z * Z) => let '(f, k, sc) := x in (match k with Some _ => f | None => targeted f sc end, sc))
                       (combine (combine fs (map file_claim fs)) (combine ss1 cs1))) = combine ss1 cs1).
  { rewrite map_map. clear - L1 Lf. revert ss1 cs1 L1 Lf. induction fs as [|f fs IH]; intros [|s ss1] [|c cs1] L1 Lf; try discriminate; [reflexivity|].
    cbn [combine map snd]. f_equal. apply IH; cbn in *; lia. }
  destruct (Z.ltb_spec 0 nb) as [P|P].
  - destruct (RS3 P) as [It Am]. assert (Pf : 0 < nf) by lia. destruct (Z.leb_spec nf 0); [lia|]. exists (ll ++ [rl]). split.
    { apply Forall2_app; [exact R|]. constructor; [|constructor]. split; [reflexivity|]. split; [exact It|exact Am]. }
    split; [rewrite concat_app; cbn [concat]; rewrite app_nil_r; reflexivity|].
    rewrite !map_app, !sum_concat. cbn [map sum fst snd]. rewrite <- (map_map snd fst), <- (map_map snd snd), Map. lia.
  - exists ll. rewrite !app_nil_r. assert (Z0 : nb = 0) by lia. rewrite (RS2 Z0), app_nil_r. split; [exact R|]. split; [reflexivity|].
    rewrite <- (map_map snd fst), <- (map_map snd snd), Map. cbn [fst snd]. lia.
Qed.

(** Facts about MkDataset.v *)
Require Import String NArith ZArith PeanoNat Bool List Lia.
From Verif Require Import PyBase PyFacts Fs FsFacts Split SplitApply SplitApplyProofs8 RestoreProofs7 MkData MkDataset.
Import ListNotations.
Open Scope N_scope.

(** ** Names *)

Definition hex_val1 (c : N) : N := if c <? 58 then c - 48 else c - 87.
Definition hex_val (l : pystr) : N := fold_left (fun a c => 16 * a + hex_val1 c) l 0.

Lemma hex_digit_val n : n < 16 -> hex_val1 (hex_digit n) = n.
Proof.
  intros H. unfold hex_digit, hex_val1. destruct (N.ltb_spec n 10).
  - destruct (N.ltb_spec (48 + n) 58); lia.
  - destruct (N.ltb_spec (87 + n) 58); lia.
Qed.
Lemma hex_digit_range n : n < 16 -> 48 <= hex_digit n < 103.
Proof. intros H. unfold hex_digit. destruct (N.ltb_spec n 10); lia. Qed.

Lemma fold_hex l : forall a, fold_left (fun a c => 16 * a + hex_val1 c) l a = a * 16 ^ N.of_nat (length l) + hex_val l.
Proof.
  unfold hex_val. induction l as [|c l IH]; intros a; cbn [fold_left length]; [change (N.of_nat 0) with 0; rewrite N.pow_0_r; lia|].
  rewrite IH. rewrite (IH (16 * 0 + hex_val1 c)). rewrite Nat2N.inj_succ, N.pow_succ_r'. lia.
Qed.
Lemma hex_val_cons c l : hex_val (c :: l) = hex_val1 c * 16 ^ N.of_nat (length l) + hex_val l.
Proof. unfold hex_val at 1. cbn [fold_left]. rewrite fold_hex. lia. Qed.

Lemma hex_from_val f : forall n l, n < 16 ^ N.of_nat f -> hex_val (hex_from f n l) = n * 16 ^ N.of_nat (length l) + hex_val l.
Proof.
  induction f as [|f IH]; intros n l H.
  - change (N.of_nat 0) with 0 in H. rewrite N.pow_0_r in H. cbn [hex_from]. replace n with 0 by lia. lia.
  - cbn [hex_from]. pose proof (N.div_mod n 16 ltac:(discriminate)) as D. pose proof (N.mod_lt n 16 ltac:(discriminate)) as M.
    assert (E : hex_val (hex_digit (n mod 16) :: l) = (n mod 16) * 16 ^ N.of_nat (length l) + hex_val l) by (rewrite hex_val_cons, hex_digit_val; auto).
    destruct (N.eqb_spec (n / 16) 0) as [Z|Z].
    + rewrite E. rewrite Z in D. rewrite D at 2. lia.
    + rewrite IH.
      * rewrite E. cbn [length]. rewrite Nat2N.inj_succ, N.pow_succ_r'. rewrite D at 3. lia.
      * rewrite Nat2N.inj_succ, N.pow_succ_r' in H. apply N.div_lt_upper_bound; lia.
Qed.

Lemma hex_value n : hex_val (hex n) = n.
Proof.
  unfold hex. rewrite hex_from_val; [cbn [length]; change (N.of_nat 0) with 0; rewrite N.pow_0_r; cbn; lia|].
  rewrite Nat2N.inj_succ, N2Nat.id, N.pow_succ_r'.
  assert (A : n < 2 ^ N.size n) by apply N.size_gt.
  assert (B : 2 ^ N.size n <= 16 ^ N.size n) by (apply N.pow_le_mono_l; lia). lia.
Qed.

Lemma zeros_value j s : hex_val (repeat 48 j ++ s) = hex_val s.
Proof.
  induction j as [|j IH]; [reflexivity|]. cbn [repeat app]. rewrite hex_val_cons, IH. change (hex_val1 48) with 0. lia.
Qed.
Lemma hex3_inj a b : hex3 a = hex3 b -> a = b.
Proof. intros E. apply (f_equal hex_val) in E. unfold hex3 in E. rewrite !zeros_value, !hex_value in E. exact E. Qed.

Lemma hex_from_chars f : forall n l, Forall (fun c => 48 <= c < 103) l -> Forall (fun c => 48 <= c < 103) (hex_from f n l).
Proof.
  induction f as [|f IH]; intros n l H; cbn [hex_from]; auto.
  assert (H' : Forall (fun c => 48 <= c < 103) (hex_digit (n mod 16) :: l)) by (constructor; [apply hex_digit_range, N.mod_lt; discriminate|exact H]).
  destruct (n / 16 =? 0); auto.
Qed.
Lemma hex3_chars n : Forall (fun c => 48 <= c < 103) (hex3 n).
Proof.
  unfold hex3. apply Forall_app. split; [|apply hex_from_chars; constructor].
  apply Forall_forall. intros c I. apply repeat_spec in I. subst. lia.
Qed.
Lemma hex3_nonempty n : hex3 n <> [].
Proof.
  unfold hex3. intros E. apply app_eq_nil in E. destruct E as [E1 E2]. rewrite E2 in E1. discriminate.
Qed.

Definition plain_suffix (s : pystr) : Prop := ~ In SLASH s.
Lemma dir_suffix : plain_suffix (U "_d").
Proof. intros H. cbn in H. intuition discriminate. Qed.
Lemma size_suffix z : plain_suffix (U "_" ++ dec_z z).
Proof.
  intros H. apply in_app_iff in H. destruct H as [H|H]; [cbn in H; intuition discriminate|].
  assert (D : forall n, ~ In SLASH (dec n)).
  { intros n I. pose proof (dec_digits n) as F. rewrite Forall_forall in F. apply F in I. discriminate. }
  destruct z; cbn [dec_z] in H; [apply (D _ H)|apply (D _ H)|]. destruct H as [H|H]; [discriminate|apply (D _ H)].
Qed.

Lemma name_component x s : plain_suffix s -> ~ In SLASH (hex3 x ++ s) /\ good_component (hex3 x ++ s).
Proof.
  intros P. pose proof (hex3_chars x) as F. pose proof (hex3_nonempty x) as N0. split.
  - intros I. apply in_app_iff in I. destruct I as [I|I]; [|exact (P I)]. rewrite Forall_forall in F. apply F in I. unfold SLASH in I. lia.
  - destruct (hex3 x) as [|c h]; [congruence|]. inversion F; subst. unfold good_component, DOT. split; [discriminate|]. split; cbn [app]; intros E; inversion E; lia.
Qed.
Lemma name_path under x s : plain_suffix s -> under = [] \/ good_path under -> good_path (pjoin under (hex3 x ++ s)).
Proof.
  intros P U. destruct (name_component x s P) as [A B].
  assert (G : good_path (hex3 x ++ s)) by (apply good_path_single; auto).
  destruct under as [|c u]; [exact G|]. destruct U as [U|U]; [discriminate|]. cbn [pjoin]. apply (good_path_app (c :: u)). auto.
Qed.

Lemma pick_some k under s t : forall draws out l, pick k under s t draws = Some (out, l) ->
  exists_ out t = false /\ exists x, out = pjoin under (hex3 x ++ s).
Proof.
  induction draws as [|d draws IH]; intros out l H; cbn [pick] in H; [discriminate|].
  destruct (exists_ (pjoin under (hex3 (d mod k) ++ s)) t) eqn:E; [eauto|]. inversion H; subst. eauto.
Qed.
Lemma pick_app k under s t b : forall a, pick k under s t (a ++ b) =
  match pick k under s t a with Some (out, l) => Some (out, l ++ b) | None => pick k under s t b end.
Proof. induction a as [|d a IH]; [reflexivity|]. cbn [pick app]. destruct (exists_ _ t); [exact IH|reflexivity]. Qed.
Lemma pick_none k under s t : forall draws, pick k under s t draws = None ->
  forall d, In d draws -> exists_ (pjoin under (hex3 (d mod k) ++ s)) t = true.
Proof.
  induction draws as [|d0 draws IH]; intros H d I; [destruct I|]. cbn [pick] in H.
  destruct (exists_ (pjoin under (hex3 (d0 mod k) ++ s)) t) eqn:E; [|discriminate]. destruct I as [<-|I]; auto.
Qed.

(** Numbers among which each of the numbers below [k] is drawn, and [m] such
    lists one after the other. *)
Definition covers (k : N) (a : list N) : Prop := forall x, x < k -> exists d, In d a /\ d mod k = x.
Fixpoint supply (k : N) (m : nat) (draws : list N) : Prop :=
  match m with
  | O => True
  | S m => exists a b, draws = a ++ b /\ covers k a /\ supply k m b
  end.

Lemma supply_app k m a b : supply k m b -> supply k m (a ++ b).
Proof.
  destruct m as [|m]; cbn [supply]; auto. intros (x & y & -> & C & H). exists (a ++ x), y. rewrite app_assoc. split; [reflexivity|].
  split; [|exact H]. intros z L. destruct (C z L) as (d & I & E). exists d. split; [apply in_app_iff; auto|exact E].
Qed.
Lemma supply_less k m m' draws : (m' <= m)%nat -> supply k m draws -> supply k m' draws.
Proof.
  revert m' draws. induction m as [|m IH]; intros m' draws L H; [replace m' with O by lia; exact I|].
  destruct m' as [|m']; [exact I|]. destruct H as (a & b & -> & C & H). exists a, b. split; [reflexivity|]. split; [exact C|]. apply IH; [lia|exact H].
Qed.

Lemma exists_key p t : p <> [] -> exists_ p t = true -> In p (od_keys t).
Proof.
  intros Np H. unfold exists_, is_file, is_dir in H. destruct p as [|c p]; [congruence|].
  destruct (od_get (c :: p) t) eqn:E; [apply od_get_some_key in E; exact E|discriminate].
Qed.

Lemma pjoin_inj under a b : pjoin under a = pjoin under b -> a = b.
Proof. destruct under as [|c u]; cbn [pjoin]; [auto|]. intros E. apply (app_inv_head ((c :: u) ++ [SLASH])). rewrite <- !app_assoc. exact E. Qed.

Lemma covered_pick k under s t a : 0 < k -> plain_suffix s -> N.of_nat (length t) < k -> covers k a -> pick k under s t a <> None.
Proof.
  intros K P L C H. pose proof (pick_none _ _ _ _ _ H) as All.
  set (f := fun i => pjoin under (hex3 (N.of_nat i) ++ s)).
  assert (Nd : NoDup (map f (seq 0 (N.to_nat k)))).
  { apply NoDup_map_inj; [|apply seq_NoDup]. intros x y _ _ E. apply pjoin_inj, app_inv_tail, hex3_inj in E. lia. }
  assert (Inc : incl (map f (seq 0 (N.to_nat k))) (od_keys t)).
  { intros p I. apply in_map_iff in I. destruct I as (i & <- & I). apply in_seq in I. apply exists_key.
    - unfold f. pose proof (hex3_nonempty (N.of_nat i)). destruct under; cbn [pjoin app]; [|discriminate]. destruct (hex3 (N.of_nat i)); [congruence|discriminate].
    - destruct (C (N.of_nat i) ltac:(lia)) as (d & Id & Ed). pose proof (All d Id) as Hd. rewrite Ed in Hd. exact Hd. }
  apply NoDup_incl_length in Inc; auto. rewrite map_length, seq_length in Inc. unfold od_keys in Inc. rewrite map_length in Inc. lia.
Qed.

(** ** What a run makes *)

Definition world_of {A} (r : run A) : world := match r with Done _ w => w | Raise _ w => w | More w => w end.

(** A run adds entries to the tree; with enough random numbers it does not
    stop for lack of them. [D], [I] and [E] say what holds when it is done,
    when it needs more numbers, and of exceptions. *)
Definition effect {A} (k : N) (w : world) (r : run A) (D : A -> tree -> Prop) (I : tree -> Prop) (E : exn -> Prop) : Prop :=
  exists add, w_tree (world_of r) = w_tree w ++ add /\ wf_tree (w_tree (world_of r)) /\
    (forall m, N.of_nat (length (w_tree (world_of r))) < k -> supply k m (w_draws w) ->
       match r with
       | Done _ w' => supply k (m - length add) (w_draws w')
       | Raise _ _ => True
       | More _ => (m <= length add)%nat
       end) /\
    match r with Done a _ => D a add | Raise e _ => E e | More _ => I add end.

Lemma effect_done {A} k w (a : A) (D : A -> tree -> Prop) I E : wf_tree (w_tree w) -> D a [] -> effect k w (Done a w) D I E.
Proof.
  intros W H. exists []. cbn [world_of]. rewrite app_nil_r. split; [reflexivity|]. split; [exact W|]. split; [|exact H].
  intros m _ S. cbn [length]. rewrite Nat.sub_0_r. exact S.
Qed.

Lemma effect_bind {A B} k w (r : run A) (f : A -> world -> run B) D I E D' I' E' :
  effect k w r D I E ->
  (forall a w' add, w_tree w' = w_tree w ++ add -> wf_tree (w_tree w') -> D a add ->
     effect k w' (f a w') (fun b more => D' b (add ++ more)) (fun more => I' (add ++ more)) E') ->
  (forall add, I add -> I' add) -> (forall e, E e -> E' e) -> effect k w (andthen r f) D' I' E'.
Proof.
  intros (add & T & W & S & P) F HI HE. destruct r as [a w1|e w1|w1]; cbn [world_of andthen] in *.
  - destruct (F a w1 add T W P) as (more & T2 & W2 & S2 & P2). exists (add ++ more). rewrite T2, T, <- app_assoc.
    split; [reflexivity|]. split; [rewrite app_assoc, <- T, <- T2; exact W2|]. split; [|exact P2].
    intros m L Sm. rewrite app_assoc, <- T, <- T2 in L. specialize (S m). specialize (S2 (m - length add)%nat).
    assert (L1 : N.of_nat (length (w_tree w1)) < k) by (rewrite T2, app_length in L; lia).
    specialize (S L1 Sm). specialize (S2 L S). destruct (f a w1) as [b w2|e w2|w2]; [|exact Logic.I|].
    + rewrite app_length. replace (m - (length add + length more))%nat with (m - length add - length more)%nat by lia. exact S2.
    + rewrite app_length. lia.
  - exists add. auto.
  - exists add. auto 10.
Qed.

Lemma effect_weaken {A} k w (r : run A) (D D' : A -> tree -> Prop) (I I' : tree -> Prop) (E E' : exn -> Prop) :
  effect k w r D I E -> (forall a add, D a add -> D' a add) -> (forall add, I add -> I' add) -> (forall e, E e -> E' e) -> effect k w r D' I' E'.
Proof.
  intros (add & T & W & S & P) HD HI HE. exists add. split; [exact T|]. split; [exact W|]. split; [exact S|]. destruct r; auto.
Qed.

(** *** Making one file or directory *)

Definition fit_dir (under : pystr) (t : tree) : Prop := is_dir under t = true /\ (under = [] \/ good_path under).

Lemma get_app {A} p (a b : list (pystr * A)) : od_get p (a ++ b) = match od_get p a with Some x => Some x | None => od_get p b end.
Proof. induction a as [|[q x] a IH]; [reflexivity|]. cbn [od_get app]. destruct (streq p q); auto. Qed.
Lemma fit_dir_grows under t add : fit_dir under t -> fit_dir under (t ++ add).
Proof.
  intros [D G]. split; [|exact G]. unfold is_dir in *. destruct under as [|c u]; auto. rewrite get_app. destruct (od_get (c :: u) t) as [[|x]|]; auto; discriminate.
Qed.

Lemma mkfilename_effect k under s w : 0 < k -> plain_suffix s -> fit_dir under (w_tree w) -> wf_tree (w_tree w) ->
  match mkfilename k under s w with
  | Done out w' => w_tree w' = w_tree w /\ exists_ out (w_tree w) = false /\ good_path out /\ (exists x, out = pjoin under (hex3 x ++ s)) /\
      forall m, N.of_nat (length (w_tree w)) < k -> supply k m (w_draws w) -> supply k (m - 1) (w_draws w')
  | Raise _ _ => False
  | More w' => w_tree w' = w_tree w /\ forall m, N.of_nat (length (w_tree w)) < k -> supply k m (w_draws w) -> m = O
  end.
Proof.
  intros K P [Fd G] W. unfold mkfilename. destruct (pick k under s (w_tree w) (w_draws w)) as [[out l]|] eqn:E; cbn [w_tree w_draws].
  - destruct (pick_some _ _ _ _ _ _ _ E) as [Nx (x & ->)]. split; [reflexivity|]. split; [exact Nx|]. split; [apply name_path; auto|]. split; [eauto|].
    intros m L S. destruct m as [|m]; [exact I|]. destruct S as (a & b & Ed & C & S). rewrite Ed, pick_app in E.
    destruct (pick k under s (w_tree w) a) as [[o l']|] eqn:Ea; [|exfalso; revert Ea; apply covered_pick; auto].
    injection E as E1 E2. rewrite <- E2. cbn [Nat.sub]. rewrite Nat.sub_0_r. apply supply_app. exact S.
  - split; [reflexivity|]. intros m L S. destruct m as [|m]; [reflexivity|]. exfalso. destruct S as (a & b & Ed & C & S). rewrite Ed, pick_app in E.
    destruct (pick k under s (w_tree w) a) as [[o l']|] eqn:Ea; [discriminate|revert Ea; apply covered_pick; auto].
Qed.

Lemma fresh_key out t : out <> [] -> exists_ out t = false -> ~ In out (od_keys t).
Proof.
  intros N H I. apply in_map_iff in I. destruct I as ([p x] & E & I). cbn [fst] in E. subst p. unfold exists_, is_file, is_dir in H. destruct out as [|c o]; [congruence|].
  destruct (od_get (c :: o) t) as [[|y]|] eqn:G; try discriminate. apply od_get_none in G. apply G. apply in_map_iff. exists (c :: o, x). auto.
Qed.

Lemma new_entry out v t : wf_tree t -> good_path out -> exists_ out t = false -> is_dir (dirname out) t = true ->
  wf_tree (t ++ [(out, v)]) /\ od_set out v t = t ++ [(out, v)].
Proof.
  intros W G N D. assert (E : od_set out v t = t ++ [(out, v)]) by (apply od_set_fresh, fresh_key; auto; apply good_path_nonempty; auto).
  split; [|exact E]. rewrite <- E. apply wf_set; auto. right. unfold exists_ in N. apply orb_false_iff in N. apply N.
Qed.

Lemma create_dir_effect k under w : 0 < k -> fit_dir under (w_tree w) -> wf_tree (w_tree w) ->
  effect k w (create_dir k under w) (fun out add => add = [(out, NDir)] /\ good_path out /\ dirname out = under) (fun add => add = []) (fun _ => False).
Proof.
  intros K Fd W. unfold create_dir. pose proof (mkfilename_effect k under (U "_d") w K dir_suffix Fd W) as H.
  destruct (mkfilename k under (U "_d") w) as [out w'|e w'|w']; [|destruct H|].
  - destruct H as (Et & Nx & G & (x & Ex) & S). destruct (name_component x (U "_d") dir_suffix) as [Ns _].
    assert (Dn : dirname out = under) by (rewrite Ex; apply dirname_pjoin; exact Ns).
    destruct (new_entry out NDir (w_tree w) W G Nx) as [W' E']; [rewrite Dn; apply Fd|].
    assert (M : makedirs out (w_tree w') = Ok (w_tree w ++ [(out, NDir)])).
    { rewrite Et, <- E', Ex. apply makedirs_child; auto; try (rewrite <- Ex; auto); apply Fd. }
    cbn [andthen]. unfold change. rewrite M. cbn [andthen]. exists [(out, NDir)]. cbn [world_of w_tree w_draws length].
    split; [reflexivity|]. split; [exact W'|]. split; [|auto]. intros m L Sm. apply S; [|exact Sm]. rewrite app_length in L. cbn [length] in L. lia.
  - destruct H as (Et & S). cbn [andthen]. exists []. cbn [world_of]. rewrite Et, app_nil_r. split; [reflexivity|]. split; [exact W|].
    split; [|reflexivity]. intros m L Sm. rewrite (S m); auto.
Qed.

Lemma create_one_effect k size under w : 0 < k -> fit_dir under (w_tree w) -> wf_tree (w_tree w) ->
  effect k w (create_one k size under w)
    (fun out add => exists c, create_file size = Ok c /\ add = [(out, NFile c)] /\ od_get out (w_tree w) = None /\ dirname out = under)
    (fun add => add = []) (fun e => create_file size = Err e).
Proof.
  intros K Fd W. unfold create_one. pose proof (mkfilename_effect k under (U "_" ++ dec_z size) w K (size_suffix size) Fd W) as H.
  destruct (mkfilename k under (U "_" ++ dec_z size) w) as [out w'|e w'|w']; [|destruct H|].
  - destruct H as (Et & Nx & G & (x & Ex) & S). destruct (name_component x _ (size_suffix size)) as [Ns _].
    assert (Dn : dirname out = under) by (rewrite Ex; apply dirname_pjoin; exact Ns).
    cbn [andthen]. unfold change at 1. rewrite Et, (proj1 Fd). cbn [andthen w_tree w_draws]. unfold on_tree.
    assert (Np : out <> []) by (apply good_path_nonempty; exact G).
    destruct (create_file size) as [c|e] eqn:Ec; cbn [andthen].
    + destruct (new_entry out (NFile c) (w_tree w) W G Nx) as [W' E']; [rewrite Dn; apply Fd|].
      assert (M : write_file out c (w_tree w) = Ok (w_tree w ++ [(out, NFile c)])).
      { unfold write_file. pose proof Nx as Nx'. unfold exists_ in Nx'. apply orb_false_iff in Nx'. destruct Nx' as [_ ->].
        rewrite Dn, (proj1 Fd), E'. reflexivity. }
      unfold change. cbn [w_tree w_draws]. rewrite M. cbn [andthen]. exists [(out, NFile c)]. cbn [world_of w_tree w_draws length].
      split; [reflexivity|]. split; [exact W'|]. split.
      * intros m L Sm. apply S; [|exact Sm]. rewrite app_length in L. cbn [length] in L. lia.
      * exists c. split; [reflexivity|]. split; [reflexivity|]. split; [|exact Dn].
        destruct (od_get out (w_tree w)) eqn:Eg; auto. apply od_get_some_key in Eg. exfalso. revert Eg. apply fresh_key; auto.
    + exists []. cbn [world_of w_tree]. rewrite app_nil_r. auto 10.
  - destruct H as (Et & S). cbn [andthen]. exists []. cbn [world_of]. rewrite Et, app_nil_r. split; [reflexivity|]. split; [exact W|].
    split; [|reflexivity]. intros m L Sm. rewrite (S m); auto.
Qed.

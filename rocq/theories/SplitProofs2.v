(** * Proofs about sorting and the neighborly algorithm *)

Require Import String NArith PeanoNat Bool List Lia Permutation Sorted.
From Verif Require Import PyBase PyFacts Fs FsFacts Split SplitProofs.
Import ListNotations.
Open Scope N_scope.

(** ** Sorting *)

Section SortFacts.
  Context {A : Type} (le : A -> A -> bool).
  Hypothesis le_total : forall a b, le a b = true \/ le b a = true.
  Hypothesis le_trans : forall a b c, le a b = true -> le b c = true -> le a c = true.
  Hypothesis le_antisym : forall a b, le a b = true -> le b a = true -> a = b.

  Lemma insert_perm x l : Permutation (insert le x l) (x :: l).
  Proof.
    induction l as [|y l IH]; cbn; [reflexivity|]. destruct (le x y); [reflexivity|].
    rewrite IH. apply perm_swap.
  Qed.

  Lemma isort_perm l : Permutation (isort le l) l.
  Proof. induction l as [|x l IH]; cbn; [reflexivity|]. rewrite insert_perm, IH. reflexivity. Qed.

  Lemma insert_sorted x l :
    StronglySorted (fun a b => le a b = true) l -> StronglySorted (fun a b => le a b = true) (insert le x l).
  Proof.
    induction 1 as [|y l Hs IH Hy]; cbn.
    - constructor; [constructor|constructor].
    - destruct (le x y) eqn:E.
      + constructor; [constructor; assumption|]. constructor; [exact E|].
        rewrite Forall_forall in *. intros z Hz. eapply le_trans; [exact E|auto].
      + constructor; [exact IH|].
        rewrite Forall_forall in *. intros z Hz.
        apply (Permutation_in z (insert_perm x l)) in Hz. destruct Hz as [<-|Hz]; [|auto].
        destruct (le_total x y); [congruence|assumption].
  Qed.

  Lemma isort_sorted l : StronglySorted (fun a b => le a b = true) (isort le l).
  Proof. induction l as [|x l IH]; cbn; [constructor|]. apply insert_sorted, IH. Qed.

  Lemma sorted_perm_eq l : forall l',
    StronglySorted (fun a b => le a b = true) l -> StronglySorted (fun a b => le a b = true) l' ->
    Permutation l l' -> l = l'.
  Proof.
    induction l as [|x l IH]; intros l' Hs Hs' HP.
    - apply Permutation_nil in HP. auto.
    - destruct l' as [|y l']; [symmetry in HP; apply Permutation_nil in HP; discriminate|].
      inversion Hs as [|? ? Hl Hx]; inversion Hs' as [|? ? Hl' Hy]; subst.
      assert (x = y) as ->.
      { rewrite Forall_forall in *.
        assert (In x (y :: l')) as [->|Hxin] by (eapply Permutation_in; [exact HP|left; reflexivity]);
          [reflexivity|].
        assert (In y (x :: l)) as [->|Hyin]
          by (eapply Permutation_in; [symmetry; exact HP|left; reflexivity]); [reflexivity|].
        apply le_antisym; auto. }
      f_equal. apply IH; auto. eapply Permutation_cons_inv. exact HP.
  Qed.
End SortFacts.

Lemma str_le_total a b : str_le a b = true \/ str_le b a = true.
Proof.
  unfold str_le. destruct (strlt b a) eqn:E; [|auto]. right. rewrite (strlt_asym _ _ E). reflexivity.
Qed.

Lemma str_le_iff a b : str_le a b = true <-> a = b \/ strlt a b = true.
Proof.
  unfold str_le. rewrite negb_true_iff. split.
  - intros H. destruct (strlt_total a b) as [->|[K|K]]; [auto|auto|congruence].
  - intros [->|H]; [apply strlt_irrefl|apply strlt_asym, H].
Qed.

Lemma str_le_trans a b c : str_le a b = true -> str_le b c = true -> str_le a c = true.
Proof.
  rewrite !str_le_iff. intros [->|H] [->|K]; auto. right. eapply strlt_trans; eassumption.
Qed.

Lemma str_le_antisym a b : str_le a b = true -> str_le b a = true -> a = b.
Proof.
  rewrite !str_le_iff. intros [->|H] [K|K]; auto. rewrite (strlt_asym _ _ H) in K. discriminate.
Qed.

Lemma fi_le_iff a b : fi_le a b = true <->
  f_size b < f_size a \/ (f_size a = f_size b /\ str_le (f_path a) (f_path b) = true).
Proof.
  unfold fi_le, str_le. destruct (N.eqb_spec (f_size a) (f_size b)) as [E|E].
  - split; [auto|]. intros [H|[_ H]]; [lia|exact H].
  - rewrite N.ltb_lt. split; [auto|]. intros [H|[H _]]; [exact H|congruence].
Qed.

Lemma fi_le_total a b : fi_le a b = true \/ fi_le b a = true.
Proof.
  rewrite !fi_le_iff. destruct (N.lt_trichotomy (f_size a) (f_size b)) as [H|[H|H]]; auto.
  destruct (str_le_total (f_path a) (f_path b)) as [K|K]; [left|right]; right; auto.
Qed.

Lemma fi_le_trans a b c : fi_le a b = true -> fi_le b c = true -> fi_le a c = true.
Proof.
  rewrite !fi_le_iff. intros [H|[H H']] [K|[K K']]; try (left; lia).
  right. split; [congruence|]. eapply str_le_trans; eassumption.
Qed.

Lemma fi_le_antisym a b : fi_le a b = true -> fi_le b a = true -> a = b.
Proof.
  rewrite !fi_le_iff. intros [H|[H H']] [K|[K K']]; try lia.
  destruct a, b; cbn in *. f_equal; [apply str_le_antisym; assumption|assumption].
Qed.

Lemma SS_impl {A} (R Q : A -> A -> Prop) l :
  (forall a b, R a b -> Q a b) -> StronglySorted R l -> StronglySorted Q l.
Proof.
  intros H. induction 1 as [|x l Hs IH Hx]; constructor; [exact IH|].
  eapply Forall_impl; [|exact Hx]. auto.
Qed.

Lemma sorted_desc l : StronglySorted (fun a b => fi_le a b = true) l -> desc l.
Proof.
  apply SS_impl. intros a b H. apply fi_le_iff in H as [H|[H _]]; lia.
Qed.

Lemma SS_app_inv {A} (R : A -> A -> Prop) a b : StronglySorted R (a ++ b) ->
  StronglySorted R a /\ StronglySorted R b /\ (forall x y, In x a -> In y b -> R x y).
Proof.
  induction a as [|z a IH]; cbn; intros H.
  - split; [constructor|]. split; [exact H|easy].
  - inversion H as [|? ? H1 H2]; subst. destruct (IH H1) as (I1 & I2 & I3).
    apply Forall_app in H2 as [H2 H3]. split; [constructor; assumption|]. split; [exact I2|].
    intros x y [<-|Hx] Hy; [rewrite Forall_forall in H3; auto|auto].
Qed.

Lemma SS_snoc {A} (R : A -> A -> Prop) a x :
  StronglySorted R a -> (forall y, In y a -> R y x) -> StronglySorted R (a ++ [x]).
Proof.
  induction 1 as [|z a Hs IH Hz]; cbn; intros H.
  - constructor; constructor.
  - constructor; [apply IH; auto|]. apply Forall_app. split; [exact Hz|].
    constructor; [apply H; left; reflexivity|constructor].
Qed.

Lemma strict_sorted_NoDup l : StronglySorted (fun a b => strlt a b = true) l -> NoDup l.
Proof.
  induction 1 as [|x l Hs IH Hx]; constructor; [|exact IH].
  intros Hin. rewrite Forall_forall in Hx. specialize (Hx x Hin). rewrite strlt_irrefl in Hx. discriminate.
Qed.

(** ** The order of directories *)

Definition strict (l : list pystr) : Prop := StronglySorted (fun a b => strlt a b = true) l.

Lemma uniquify_gen orig : forall (acc : list pystr), orig <> [] ->
  StronglySorted (fun a b => str_le a b = true) orig ->
  exists dd x, uniquify (length orig - 1) (orig ++ acc) = x :: acc ++ dd /\
    strict (dd ++ [x]) /\ (forall d, In d (dd ++ [x]) <-> In d orig).
Proof.
  induction orig as [|d orig IH]; [congruence|]. intros acc _ Hs.
  destruct orig as [|e t].
  - exists [], d. cbn. rewrite app_nil_r. split; [reflexivity|]. split; [|tauto].
    constructor; constructor.
  - inversion Hs as [|? ? Hs' Hd]; subst.
    replace (length (d :: e :: t) - 1)%nat with (S (length (e :: t) - 1)) by (cbn; lia).
    cbn [uniquify app].
    destruct (streq_reflect d e) as [->|Hne].
    + destruct (IH acc ltac:(discriminate) Hs') as (dd & x & E & S1 & S2).
      exists dd, x. cbn [app] in E. rewrite E. split; [reflexivity|]. split; [exact S1|].
      intros z. rewrite S2. cbn. tauto.
    + destruct (IH (acc ++ [d]) ltac:(discriminate) Hs') as (dd & x & E & S1 & S2).
      exists (d :: dd), x. cbn [app] in E. rewrite <- app_assoc in E. cbn [app] in E.
      change (e :: t ++ acc ++ [d]) with (e :: (t ++ acc ++ [d])) in E.
      rewrite <- app_assoc.
      rewrite E. split; [reflexivity|]. split.
      * cbn. constructor; [exact S1|]. apply Forall_forall. intros z Hz. apply S2 in Hz.
        assert (He : strlt d e = true).
        { inversion Hd as [|? ? He _]; subst. apply str_le_iff in He as [->|He]; [congruence|exact He]. }
        assert (Hez : str_le e z = true).
        { destruct Hz as [<-|Hz]; [apply str_le_iff; auto|].
          inversion Hs' as [|? ? _ K]; subst. rewrite Forall_forall in K. auto. }
        apply str_le_iff in Hez as [->|Hez]; [exact He|]. eapply strlt_trans; eassumption.
      * intros z. cbn. rewrite S2. cbn. tauto.
Qed.

Lemma index_of_split x l : In x l ->
  l = firstn (index_of x l) l ++ x :: skipn (S (index_of x l)) l.
Proof.
  induction l as [|y l IH]; [easy|]. cbn [index_of In].
  destruct (streq_reflect x y) as [->|Hne]; [reflexivity|].
  intros [->|H]; [congruence|]. cbn [firstn skipn app]. f_equal. apply IH, H.
Qed.

Lemma rotate_split x (l : list pystr) : In x l -> exists u v,
  l = u ++ x :: v /\ skipn (index_of x l) l ++ firstn (index_of x l) l = x :: v ++ u.
Proof.
  intros H. pose proof (index_of_split x l H) as E.
  exists (firstn (index_of x l) l), (skipn (S (index_of x l)) l). split; [exact E|].
  assert (skipn (index_of x l) l = x :: skipn (S (index_of x l)) l) as ->; [|reflexivity].
  apply (app_inv_head (firstn (index_of x l) l)).
  rewrite firstn_skipn. exact E.
Qed.

Lemma dirpaths_spec f rest : exists a b,
  dirpaths_for (f :: rest) = (dirpath (f_path f) :: b) ++ a /\
  strict (a ++ dirpath (f_path f) :: b) /\
  (forall d, In d (a ++ dirpath (f_path f) :: b) <-> In d (map (fun g => dirpath (f_path g)) (f :: rest))).
Proof.
  unfold dirpaths_for.
  set (ds := map (fun g => dirpath (f_path g)) (f :: rest)).
  set (L := isort str_le ds).
  assert (HP : Permutation L ds) by apply isort_perm.
  assert (HS : StronglySorted (fun a b => str_le a b = true) L)
    by (apply isort_sorted; [exact str_le_total|exact str_le_trans]).
  assert (HN : L <> []).
  { intros E. rewrite E in HP. apply Permutation_nil in HP. discriminate. }
  destruct (uniquify_gen L [] HN HS) as (dd & x & E & S1 & S2).
  rewrite app_nil_r in E. cbn [app] in E.
  assert (HI : forall d, In d (dd ++ [x]) <-> In d ds).
  { intros d. rewrite S2. split; apply Permutation_in; [exact HP|symmetry; exact HP]. }
  set (r := dirpath (f_path f)).
  assert (Hr : In r (x :: dd)).
  { assert (In r (dd ++ [x])) as H by (apply HI; left; reflexivity).
    apply in_app_or in H as [H|[H|[]]]; [right|left]; assumption. }
  unfold pystr in *.
  rewrite E. destruct (rotate_split r (x :: dd) Hr) as (u & v & E1 & E2). unfold pystr in *. rewrite E2.
  destruct u as [|y u].
  - injection E1 as -> ->. exists v, []. rewrite app_nil_r. split; [reflexivity|]. auto.
  - injection E1 as -> ->. exists u, (v ++ [y]).
    split; [cbn; rewrite <- app_assoc; reflexivity|].
    rewrite <- app_assoc in S1, HI. cbn [app] in S1, HI. auto.
Qed.

(** ** Filling one bag *)

Section Neighborly.
Variable s : splitter.

Definition dirof (f : finfo) : pystr := dirpath (f_path f).

Definition misfit (cur : list finfo) (g : finfo) : Prop := s_max s < total cur + f_size g.

Definition zero_tail (cur L : list finfo) : Prop :=
  total cur = 0 -> Forall (fun g => f_size g = 0) L.

Lemma zero_tail_step cur pre f rest :
  zero_tail cur (pre ++ f :: rest) -> zero_tail (cur ++ [f]) (pre ++ rest).
Proof.
  unfold zero_tail. rewrite total_snoc. intros H H0. specialize (H ltac:(lia)).
  apply Forall_app in H as [Ha Hb]. inversion Hb; subst. apply Forall_app. auto.
Qed.

Lemma select_spec d : forall fs pre cur fs' m' full,
  select_from_dir s d pre fs (man_of cur) = (fs', m', full) ->
  cur <> [] -> total cur <= s_max s -> total cur <= s_target s ->
  Forall (fun g => dirof g = d -> misfit cur g) pre ->
  exists add, m' = man_of (cur ++ add) /\ Permutation (add ++ fs') (pre ++ fs) /\
    Forall (fun g => dirof g = d) add /\
    (desc (pre ++ fs) -> desc fs') /\
    (full = false -> total (cur ++ add) <= s_max s /\ total (cur ++ add) <= s_target s /\
                     Forall (fun g => dirof g = d -> misfit (cur ++ add) g) fs') /\
    (full = true -> closed_ok s (cur ++ add) /\
                    (s_max s < total (cur ++ add) \/ s_target s < total (cur ++ add))) /\
    (zero_tail cur (pre ++ fs) -> zero_tail (cur ++ add) fs' /\ (full = true -> total (cur ++ add) <= s_max s)).
Proof.
  induction fs as [|f rest IH]; intros pre cur fs' m' full H Hc Hm Ht Hpre.
  - cbn in H. injection H as <- <- <-. exists []. rewrite !app_nil_r. cbn.
    split; [reflexivity|]. split; [reflexivity|]. split; [constructor|]. split; [auto|].
    split; [auto|]. split; [discriminate|]. intros Z. split; [exact Z|discriminate].
  - cbn [select_from_dir] in H.
    assert (Skip : forall P : Prop, (dirof f = d -> misfit cur f) ->
      select_from_dir s d (pre ++ [f]) rest (man_of cur) = (fs', m', full) -> P \/ exists add,
      m' = man_of (cur ++ add) /\ Permutation (add ++ fs') (pre ++ f :: rest) /\
      Forall (fun g => dirof g = d) add /\
      (desc (pre ++ f :: rest) -> desc fs') /\
      (full = false -> total (cur ++ add) <= s_max s /\ total (cur ++ add) <= s_target s /\
                       Forall (fun g => dirof g = d -> misfit (cur ++ add) g) fs') /\
      (full = true -> closed_ok s (cur ++ add) /\
                    (s_max s < total (cur ++ add) \/ s_target s < total (cur ++ add))) /\
      (zero_tail cur (pre ++ f :: rest) ->
       zero_tail (cur ++ add) fs' /\ (full = true -> total (cur ++ add) <= s_max s))).
    { intros P Hmis H'. right. apply IH in H'; auto.
      - rewrite <- (app_assoc pre [f] rest) in H'. exact H'.
      - apply Forall_app. split; [exact Hpre|]. constructor; [exact Hmis|constructor]. }
    destruct (streq_reflect d (dirpath (f_path f))) as [Ed|Ed].
    2:{ destruct (Skip False) as [[]|K]; [|exact H|exact K]. unfold dirof. congruence. }
    change (m_total (man_of cur)) with (total cur) in H.
    destruct (s_max s <? total cur + f_size f) eqn:Emax;
      [apply N.ltb_lt in Emax | apply N.ltb_ge in Emax].
    + destruct (total cur =? 0) eqn:E0; [apply N.eqb_eq in E0 | apply N.eqb_neq in E0].
      2:{ destruct (Skip False) as [[]|K]; [|exact H|exact K]. unfold misfit. auto. }
      rewrite add_man_of in H. injection H as <- <- <-. exists [f].
      split; [reflexivity|]. split; [cbn; apply Permutation_middle|].
      split; [constructor; [unfold dirof; congruence|constructor]|].
      split; [apply desc_app_remove|]. split; [discriminate|].
      split.
      { intros _. split; [|left; rewrite total_snoc; lia].
        exists cur, f. rewrite total_snoc. repeat split; auto. right. split; [exact E0|lia]. }
      { intros Z. exfalso. specialize (Z E0). apply Forall_app in Z as [_ Z]. inversion Z; subst. lia. }
    + destruct (s_target s <? total cur + f_size f) eqn:Et;
        [apply N.ltb_lt in Et | apply N.ltb_ge in Et].
      * rewrite add_man_of in H. injection H as <- <- <-. exists [f].
        split; [reflexivity|]. split; [cbn; apply Permutation_middle|].
        split; [constructor; [unfold dirof; congruence|constructor]|].
        split; [apply desc_app_remove|]. split; [discriminate|].
        split.
        { intros _. split; [|right; rewrite total_snoc; lia].
          exists cur, f. rewrite total_snoc. repeat split; auto. }
        { intros Z. split; [apply zero_tail_step, Z|]. intros _. rewrite total_snoc. exact Emax. }
      * rewrite add_man_of in H. apply IH in H.
        2:{ intros E. destruct cur; discriminate E. }
        2,3: rewrite total_snoc; assumption.
        2:{ rewrite Forall_forall in *. intros g Hg Hdg. specialize (Hpre g Hg Hdg).
            unfold misfit in *. rewrite total_snoc. lia. }
        destruct H as (add & A1 & A2 & A3 & A4 & A5 & A6 & A7).
        exists (f :: add). rewrite <- app_assoc in A1, A5, A6, A7. cbn [app] in A1, A5, A6, A7.
        split; [exact A1|].
        split; [cbn; rewrite A2; apply Permutation_middle|].
        split; [constructor; [unfold dirof; congruence|exact A3]|].
        split; [intros D; apply A4; eapply desc_app_remove; exact D|].
        split; [exact A5|]. split; [exact A6|].
        intros Z. apply A7. apply zero_tail_step, Z.
Qed.

(** The files [c] are those of the directories [ds], one directory after the
    other (possibly none from some of them). *)
Inductive grouped : list pystr -> list finfo -> Prop :=
| grouped_nil ds : grouped ds []
| grouped_cons d ds g c : Forall (fun f => dirof f = d) g -> grouped ds c -> grouped (d :: ds) (g ++ c).

Lemma fill_spec : forall ds fs cur fs' m' (seen : list pystr),
  fill s ds fs (man_of cur) = (fs', m') ->
  cur <> [] -> total cur <= s_max s -> total cur <= s_target s ->
  Forall (fun g => In (dirof g) seen -> misfit cur g) fs ->
  exists add, m' = man_of (cur ++ add) /\ Permutation (add ++ fs') fs /\
    grouped ds add /\ (desc fs -> desc fs') /\ closed_ok s (cur ++ add) /\
    (total (cur ++ add) <= s_target s ->
      Forall (fun g => In (dirof g) (seen ++ ds) -> misfit (cur ++ add) g) fs') /\
    (zero_tail cur fs -> total (cur ++ add) <= s_max s).
Proof.
  induction ds as [|d ds IH]; intros fs cur fs' m' seen H Hc Hm Ht Hseen.
  - cbn in H. injection H as <- <-. exists []. rewrite !app_nil_r. cbn.
    split; [reflexivity|]. split; [reflexivity|]. split; [constructor|]. split; [auto|].
    split.
    { destruct (exists_last Hc) as (c' & x & ->). exists c', x. rewrite total_snoc in *.
      repeat split; [lia|lia|left; lia]. }
    split; [auto|auto].
  - cbn [fill] in H. destruct (select_from_dir s d [] fs (man_of cur)) as [[fs1 m1] full] eqn:E.
    destruct (select_spec d _ _ _ _ _ _ E Hc Hm Ht ltac:(constructor))
      as (add & A1 & A2 & A3 & A4 & A5 & A6 & A7).
    cbn [app] in A2, A4, A7.
    destruct full.
    + injection H as <- <-. exists add. specialize (A6 eq_refl). destruct A6 as [A6 A6'].
      split; [exact A1|]. split; [exact A2|].
      split. { rewrite <- (app_nil_r add). constructor; [exact A3|constructor]. }
      split; [exact A4|]. split; [exact A6|].
      split.
      { intros Hle. destruct A6' as [K|K]; [|lia]. apply Forall_forall. intros g _ _. unfold misfit. lia. }
      intros Z. apply (A7 Z). reflexivity.
    + subst m1. specialize (A5 eq_refl). destruct A5 as (B1 & B2 & B3).
      assert (Hc' : cur ++ add <> []) by (destruct cur; [congruence|discriminate]).
      destruct (IH fs1 (cur ++ add) fs' m' (seen ++ [d]) H Hc' B1 B2) as (add2 & C1 & C2 & C3 & C4 & C5 & C6 & C7).
      { rewrite Forall_forall in *. intros g Hg Hin. apply in_app_or in Hin as [Hin|[Hin|[]]].
        - assert (In g fs) as Hgf.
          { eapply Permutation_in; [exact A2|]. apply in_or_app. auto. }
          specialize (Hseen g Hgf Hin). unfold misfit in *. rewrite total_app. lia.
        - apply B3; auto. }
      exists (add ++ add2). rewrite !(app_assoc cur).
      split; [exact C1|].
      split. { rewrite <- app_assoc, C2. exact A2. }
      split; [constructor; assumption|].
      split; [auto|]. split; [exact C5|]. rewrite <- (app_assoc seen) in C6. cbn [app] in C6.
      split; [exact C6|]. intros Z. apply C7. apply (A7 Z).
Qed.

(** One bag of the neighborly split, given the unplaced files, biggest first. *)
Lemma fill_start f rest fs' m' :
  fill s (dirpaths_for (f :: rest)) (f :: rest) new_manifest = (fs', m') ->
  exists c, m' = man_of (f :: c) /\ Permutation ((f :: c) ++ fs') (f :: rest) /\
    grouped (dirpaths_for (f :: rest)) (f :: c) /\ (desc (f :: rest) -> desc fs') /\
    closed_ok s (f :: c) /\
    (total (f :: c) <= s_target s -> Forall (misfit (f :: c)) fs') /\
    (desc (f :: rest) -> small_or_single s (f :: c)).
Proof.
  intros H. destruct (dirpaths_spec f rest) as (a & b & E & S1 & S2).
  rewrite E in *. cbn [app fill select_from_dir] in H. rewrite streq_refl in H.
  change (m_total new_manifest) with 0 in H. cbn [N.eqb N.add] in H.
  rewrite new_manifest_of, add_man_of in H. cbn [app] in H.
  assert (Single : forall P Q : Prop,
     (s_max s < f_size f \/ (f_size f <= s_max s /\ s_target s < f_size f)) ->
     (rest, man_of [f]) = (fs', m') ->
     exists c, m' = man_of (f :: c) /\ Permutation ((f :: c) ++ fs') (f :: rest) /\
    grouped ((dirpath (f_path f) :: b) ++ a) (f :: c) /\ (desc (f :: rest) -> desc fs') /\
    closed_ok s (f :: c) /\
    (total (f :: c) <= s_target s -> Forall (misfit (f :: c)) fs') /\
    (desc (f :: rest) -> small_or_single s (f :: c))).
  { intros _ _ K Eq. injection Eq as <- <-. exists [].
    split; [reflexivity|]. split; [reflexivity|].
    split. { apply (grouped_cons (dirpath (f_path f)) (b ++ a) [f] []); [constructor; [reflexivity|constructor]|constructor]. }
    split. { intros D. inversion D; assumption. }
    split. { exists [], f. cbn. repeat split; lia. }
    split. { cbn. intros L. destruct K as [K|[_ K]]; [|lia]. apply Forall_forall. intros g _. unfold misfit. cbn. lia. }
    intros _. unfold small_or_single. cbn. destruct K as [K|[K _]]; [right; eauto|left; lia]. }
  destruct (s_max s <? f_size f) eqn:Emax; [apply N.ltb_lt in Emax | apply N.ltb_ge in Emax].
  { apply (Single True True); auto. }
  destruct (s_target s <? f_size f) eqn:Et; [apply N.ltb_lt in Et | apply N.ltb_ge in Et].
  { apply (Single True True); auto. }
  clear Single.
  destruct (select_from_dir s (dirpath (f_path f)) [] rest (man_of [f])) as [[fs1 m1] full] eqn:Es.
  destruct (select_spec _ _ _ _ _ _ _ Es) as (add & A1 & A2 & A3 & A4 & A5 & A6 & A7);
    [discriminate|cbn; lia|cbn; lia|constructor|]. cbn [app] in A1, A2, A4, A5, A6, A7.
  assert (Z : desc (f :: rest) -> zero_tail [f] rest).
  { intros D Z. cbn in Z. inversion D as [|? ? _ D2]; subst. rewrite Forall_forall in *.
    intros g Hg. specialize (D2 g Hg). lia. }
  destruct full.
  - injection H as <- <-. exists add. destruct (A6 eq_refl) as [A6a A6b].
    split; [exact A1|]. split; [cbn; constructor; exact A2|].
    split. { rewrite <- (app_nil_r (f :: add)).
             apply (grouped_cons (dirpath (f_path f)) (b ++ a) (f :: add) []);
               [constructor; [reflexivity|exact A3]|constructor]. }
    split. { intros D. apply A4. inversion D; assumption. }
    split; [exact A6a|].
    split. { intros L. destruct A6b as [K|K]; [|lia]. apply Forall_forall. intros g _. unfold misfit. lia. }
    intros D. left. apply (A7 (Z D)). reflexivity.
  - subst m1. destruct (A5 eq_refl) as (B1 & B2 & B3).
    destruct (fill_spec (b ++ a) fs1 (f :: add) fs' m' [dirpath (f_path f)] H) as
      (add2 & C1 & C2 & C3 & C4 & C5 & C6 & C7); [discriminate|exact B1|exact B2| |].
    { eapply Forall_impl; [|exact B3]. intros g Hg [Hi|[]]. apply Hg. auto. }
    exists (add ++ add2). cbn [app] in C1, C5, C6, C7.
    split; [exact C1|].
    split. { cbn. constructor. rewrite <- app_assoc, C2. exact A2. }
    split. { apply (grouped_cons (dirpath (f_path f)) (b ++ a) (f :: add) add2);
               [constructor; [reflexivity|exact A3]|exact C3]. }
    split. { intros D. apply C4, A4. inversion D; assumption. }
    split; [exact C5|].
    split.
    { intros L. specialize (C6 L). rewrite Forall_forall in *. intros g Hg. apply C6; [exact Hg|].
      assert (Hgr : In g (f :: rest)).
      { right. eapply Permutation_in; [exact A2|]. apply in_or_app. right.
        eapply Permutation_in; [exact C2|]. apply in_or_app. auto. }
      assert (Hd : In (dirof g) (a ++ dirpath (f_path f) :: b)).
      { apply S2. apply (in_map (fun g => dirpath (f_path g))). exact Hgr. }
      rewrite in_app_iff in Hd. cbn in Hd. cbn. rewrite in_app_iff. tauto. }
    intros D. left. apply C7. apply (A7 (Z D)).
Qed.

(** The bags [cs] made from the files [fs] in turn: the files of each bag are
    taken from the unplaced files, starting with the first of them. *)
Inductive neigh_run : list finfo -> list (list finfo) -> Prop :=
| nr_nil : neigh_run [] []
| nr_cons f rest c cs fs' :
    Permutation ((f :: c) ++ fs') (f :: rest) ->
    grouped (dirpaths_for (f :: rest)) (f :: c) ->
    (desc (f :: rest) -> desc fs') ->
    closed_ok s (f :: c) ->
    (total (f :: c) <= s_target s -> Forall (misfit (f :: c)) fs') ->
    (desc (f :: rest) -> small_or_single s (f :: c)) ->
    neigh_run fs' cs ->
    neigh_run (f :: rest) ((f :: c) :: cs).

Lemma neighborly_run : forall fuel fs, (length fs <= fuel)%nat ->
  exists cs, neighborly_in s fuel fs = Some (map man_of cs) /\ neigh_run fs cs.
Proof.
  induction fuel as [|n IH]; intros fs H.
  - destruct fs; [|cbn in H; lia]. exists []. split; [reflexivity|constructor].
  - destruct fs as [|f rest]; [exists []; split; [reflexivity|constructor]|].
    cbn [neighborly_in].
    destruct (fill s (dirpaths_for (f :: rest)) (f :: rest) new_manifest) as [fs' m'] eqn:E.
    destruct (fill_start _ _ _ _ E) as (c & A1 & A2 & A3 & A4 & A5 & A6 & A7).
    destruct (IH fs') as (cs & E2 & R).
    { apply Permutation_length in A2. rewrite app_length in A2. cbn in A2, H. lia. }
    exists ((f :: c) :: cs). rewrite E2, A1. split; [reflexivity|].
    econstructor; eassumption.
Qed.

Lemma neigh_run_perm fs cs : neigh_run fs cs -> Permutation (concat cs) fs.
Proof.
  induction 1 as [|f rest c cs fs' P _ _ _ _ _ _ IH]; [reflexivity|].
  cbn [concat]. rewrite IH. exact P.
Qed.

Lemma neigh_run_nonempty fs cs : neigh_run fs cs -> Forall (fun c => c <> []) cs.
Proof. induction 1; constructor; [discriminate|assumption]. Qed.

Lemma neigh_run_closed fs cs : neigh_run fs cs -> Forall (closed_ok s) cs.
Proof. induction 1; constructor; assumption. Qed.

Lemma neigh_run_single fs cs : neigh_run fs cs -> desc fs -> Forall (small_or_single s) cs.
Proof. induction 1; intros D; constructor; auto. Qed.

Lemma neigh_run_tight fs cs : neigh_run fs cs -> tight s cs [].
Proof.
  induction 1 as [|f rest c cs fs' P _ _ _ T _ R IH]; cbn [tight]; [exact I|].
  split; [|exact IH]. intros L. rewrite app_nil_r.
  specialize (T L). rewrite Forall_forall in *. intros g Hg. apply T.
  eapply Permutation_in; [exact (neigh_run_perm _ _ R)|exact Hg].
Qed.

Lemma neighborly_spec fs :
  (forall fuel, (length fs <= fuel)%nat -> neighborly_in s fuel fs = Some (neighborly s fs)) /\
  exists cs, neighborly s fs = map man_of cs /\ neigh_run fs cs.
Proof.
  destruct (neighborly_run (length fs) fs (le_n _)) as (cs & E & R).
  assert (HE : neighborly s fs = map man_of cs) by (unfold neighborly; rewrite E; reflexivity).
  split; [|exists cs; auto]. rewrite HE.
  assert (Mono : forall n fs0 ms, neighborly_in s n fs0 = Some ms ->
                 forall m, (n <= m)%nat -> neighborly_in s m fs0 = Some ms).
  { induction n as [|n IHn]; intros fs0 ms Hn m Hm.
    - destruct fs0; [|discriminate]. destruct m; exact Hn.
    - destruct m as [|m]; [lia|]. destruct fs0 as [|g gs]; [exact Hn|]. cbn [neighborly_in] in *.
      destruct (fill s (dirpaths_for (g :: gs)) (g :: gs) new_manifest) as [fs1 m1].
      destruct (neighborly_in s n fs1) as [ms1|] eqn:E1; [|discriminate].
      rewrite (IHn _ _ E1 m) by lia. exact Hn. }
  intros fuel Hf. eapply Mono; [exact E|exact Hf].
Qed.

End Neighborly.

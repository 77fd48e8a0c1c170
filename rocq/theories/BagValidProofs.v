(** * Facts about opening and validating plain bags *)

Require Import String NArith ZArith PeanoNat Bool List Lia.
From Verif Require Import PyBase PyFacts Version Fs FsFacts HeadBag BagIt BagItProofs SplitApply Validate BagValid.
Import ListNotations.
Open Scope N_scope.

Lemma andthen_pass a b : andthen a b = VPass <-> a = VPass /\ b = VPass.
Proof. destruct a; cbn [andthen]; split; try tauto; try (intros [X _]; discriminate); discriminate. Qed.

(** ** Tags and checksums as they are loaded *)

Definition no_empty_list (d : infod) : Prop := forall k, od_get k d <> Some (IList []).

Lemma add_tag_no_empty d kv : no_empty_list d -> no_empty_list (add_tag d kv).
Proof.
  intros H k. unfold add_tag. destruct (od_get (fst kv) d) as [[s|l]|]; rewrite od_get_set;
    destruct (streq_reflect k (fst kv)); try discriminate; try apply H.
  destruct l; discriminate.
Qed.

Lemma fold_tags_no_empty kvs : forall d, no_empty_list d -> no_empty_list (fold_left add_tag kvs d).
Proof. induction kvs as [|kv kvs IH]; intros d H; cbn [fold_left]; auto. apply IH, add_tag_no_empty, H. Qed.

Lemma load_tags_no_empty r c d : load_tags r c = Ok d -> no_empty_list d.
Proof.
  unfold load_tags. intros H. apply bind_ok in H. destruct H as (kvs & _ & H). injection H as <-.
  apply fold_tags_no_empty. intros k. discriminate.
Qed.

Definition clean (e : entries) : Prop :=
  NoDup (od_keys e) /\ forall p d, In (p, d) e -> d <> [] /\ NoDup (od_keys d).

Lemma od_set_nonempty {V} k (v : V) d : od_set k v d <> [].
Proof. destruct d as [|[k0 v0] d]; cbn [od_set]; [discriminate|]. destruct (streq k k0); discriminate. Qed.

Lemma in_od_set {V} k (v : V) d p x : In (p, x) (od_set k v d) -> (p, x) = (k, v) \/ In (p, x) d.
Proof.
  induction d as [|[k0 v0] d IH]; cbn [od_set]; [intros [H|[]]; auto|].
  destruct (streq_reflect k k0) as [->|X]; intros [H|H]; [left; congruence|right; right; exact H|right; left; exact H|].
  destruct (IH H); [left; assumption|right; right; assumption].
Qed.

Lemma add_entry_clean dg v1 alg e hp e' : clean e -> add_entry dg v1 alg e hp = Ok e' -> clean e'.
Proof.
  intros [N1 C] H. destruct hp as [h p]. unfold add_entry in H. destruct (dg p); [discriminate|].
  set (d := match od_get p e with Some d => d | None => [] end) in *.
  assert (D : NoDup (od_keys d)).
  { unfold d. destruct (od_get p e) as [d0|] eqn:G; [|constructor]. apply od_get_in in G. apply (C _ _ G). }
  assert (E : e' = od_set p (od_set alg h d) e).
  { destruct (od_get alg d) as [h'|]; [destruct (streq h' h); [destruct v1|]|]; congruence. }
  subst e'. split; [apply od_set_NoDup; exact N1|]. intros q x I. apply in_od_set in I. destruct I as [E|I]; [|apply (C _ _ I)].
  injection E as -> ->. split; [apply od_set_nonempty|apply od_set_NoDup; exact D].
Qed.

Lemma foldM_keeps {A S} (P : S -> Prop) (f : S -> A -> res S) l : (forall s x s', P s -> f s x = Ok s' -> P s') ->
  forall s s', P s -> foldM f l s = Ok s' -> P s'.
Proof.
  intros K. induction l as [|x l IH]; intros s s' Ps H; cbn [foldM] in H; [congruence|].
  apply bind_ok in H. destruct H as (s1 & H1 & H2). eauto.
Qed.

Lemma load_manifests_clean dg v1 r ms e : load_manifests dg v1 r ms = Ok e -> clean e.
Proof.
  unfold load_manifests. apply (foldM_keeps clean).
  - intros s x s' Cs. unfold load_one. apply (foldM_keeps clean); [|exact Cs]. intros a y a'. apply add_entry_clean.
  - split; [constructor|intros p d []].
Qed.

Lemma open_plain_ok v t b : open_plain v t = Ok b ->
  exists c f, read F_bagit t = Some c /\ read_version v c = Ok (o_version b, f) /\ o_tree b = t /\
    no_empty_list (o_info b) /\ clean (o_entries b) /\
    (if exists_ f t then exists ci, read f t = Some ci /\ load_tags IoText ci = Ok (o_info b) else o_info b = []) /\
    load_manifests (v_danger v) (from_1 (o_version b)) IoText (bag_manifests (v_algos v) (from_097 (o_version b)) t) = Ok (o_entries b).
Proof.
  unfold open_plain. destruct (read F_bagit t) as [c|]; [|discriminate]. intros H.
  apply bind_ok in H. destruct H as ([vi f] & Hv & H). apply bind_ok in H. destruct H as (i & Hi & H).
  apply bind_ok in H. destruct H as (e & He & H). injection H as <-. cbn [o_tree o_version o_info o_entries].
  exists c, f. split; [reflexivity|]. split; [exact Hv|]. split; [reflexivity|].
  assert (X : no_empty_list i /\ (if exists_ f t then exists ci, read f t = Some ci /\ load_tags IoText ci = Ok i else i = [])).
  { destruct (exists_ f t); [|injection Hi as <-; split; [intros k; discriminate|reflexivity]].
    destruct (read f t) as [ci|]; [|discriminate]. split; [eapply load_tags_no_empty; exact Hi|eauto]. }
  split; [apply X|]. split; [eapply load_manifests_clean; exact He|]. split; [apply X|exact He].
Qed.

(** ** Three fields *)

Lemma span_not_spec p s a b : span_not p s = (a, b) ->
  s = a ++ b /\ Forall (fun c => p c = false) a /\ (b = [] \/ exists c t, b = c :: t /\ p c = true).
Proof.
  revert a b. induction s as [|c s IH]; intros a b H; cbn [span_not] in H; [injection H as <- <-; auto|].
  destruct (p c) eqn:Pc; [injection H as <- <-; split; [reflexivity|split; [constructor|right; eauto]]|].
  destruct (span_not p s) as [a' b'] eqn:E. injection H as <- <-. destruct (IH _ _ eq_refl) as (-> & F & B).
  split; [reflexivity|]. split; [constructor; assumption|exact B].
Qed.

Lemma lstrip_spec p s : exists w, s = w ++ lstrip_if p s /\ Forall (fun c => p c = true) w /\
  (lstrip_if p s = [] \/ exists c t, lstrip_if p s = c :: t /\ p c = false).
Proof.
  induction s as [|c s (w & E & F & L)]; [exists []; auto|]. cbn [lstrip_if]. destruct (p c) eqn:Pc.
  - exists (c :: w). cbn [app]. rewrite <- E. split; [reflexivity|]. split; [constructor; assumption|exact L].
  - exists []. split; [reflexivity|]. split; [constructor|right; eauto].
Qed.

Lemma lstrip_app_ws p w s : Forall (fun c => p c = true) w -> (s = [] \/ exists c t, s = c :: t /\ p c = false) ->
  lstrip_if p (w ++ s) = s.
Proof.
  intros F Hs. induction F as [|c w Pc F IH]; cbn [app lstrip_if]; [|rewrite Pc; exact IH].
  destruct Hs as [->|(c & t & -> & Pc)]; cbn [lstrip_if]; [reflexivity|rewrite Pc; reflexivity].
Qed.

Lemma span_not_app p a b : Forall (fun c => p c = false) a -> (b = [] \/ exists c t, b = c :: t /\ p c = true) ->
  span_not p (a ++ b) = (a, b).
Proof.
  intros F Hb. induction F as [|c a Pc F IH]; cbn [app span_not]; [|rewrite Pc, IH; reflexivity].
  destruct Hb as [->|(c & t & -> & Pc)]; cbn [span_not]; [reflexivity|rewrite Pc; reflexivity].
Qed.

Definition word (w : pystr) : Prop := w <> [] /\ Forall (fun c => is_ws c = false) w.
Definition blanks (w : pystr) : Prop := w <> [] /\ Forall (fun c => is_ws c = true) w.
Definition starts_word (s : pystr) : Prop := exists c t, s = c :: t /\ is_ws c = false.

Lemma split_ws1_two s a b : split_ws1 s = [a; b] <->
  exists l w, s = l ++ a ++ w ++ b /\ Forall (fun c => is_ws c = true) l /\ word a /\ blanks w /\ starts_word b.
Proof.
  unfold split_ws1. split.
  - intros H. destruct (lstrip_spec is_ws s) as (l & E & Fl & L).
    destruct (lstrip_if is_ws s) as [|c s'] eqn:Es; [discriminate|]. destruct L as [L|(c' & t' & L & Lc)]; [discriminate|]. injection L as <- <-.
    destruct (span_not is_ws (c :: s')) as [a' b'] eqn:Sp. pose proof (span_not_spec _ _ _ _ Sp) as (Eab & Fa & B).
    destruct (lstrip_spec is_ws b') as (w & Eb & Fw & Lb). destruct (lstrip_if is_ws b') as [|x y] eqn:Eb'; [discriminate|].
    injection H as <- <-. exists l, w. rewrite E, Eab, Eb. split; [reflexivity|]. split; [exact Fl|].
    destruct Lb as [Lb|(x' & y' & Lb & Lx)]; [discriminate|]. injection Lb as <- <-.
    split; [split; [|exact Fa]|split; [split; [|exact Fw]|exists x, y; auto]].
    + intros ->. cbn [app] in Eab. destruct B as [->|(c0 & t0 & -> & Pc)]; [discriminate|]. congruence.
    + intros ->. cbn [app] in Eb. destruct B as [B|(c0 & t0 & B & Pc)]; rewrite B in Eb; [discriminate|]. injection Eb as -> ->. congruence.
  - intros (l & w & -> & Fl & [Na Fa] & [Nw Fw] & (x & y & -> & Px)).
    destruct a as [|ca a]; [congruence|]. inversion Fa as [|? ? Pa Fa']; subst.
    rewrite lstrip_app_ws; [|exact Fl|right; exists ca, (a ++ w ++ x :: y); auto].
    change ((ca :: a) ++ w ++ x :: y) with (ca :: a ++ w ++ x :: y). cbv iota.
    change (ca :: a ++ w ++ x :: y) with ((ca :: a) ++ w ++ x :: y).
    destruct w as [|cw w]; [congruence|]. inversion Fw as [|? ? Pw Fw']; subst.
    rewrite span_not_app; [|exact Fa|right; exists cw, (w ++ x :: y); auto].
    rewrite lstrip_app_ws; [reflexivity|exact Fw|right; exists x, y; auto].
Qed.

Lemma split_ws2_three s a b c : split_ws2 s = [a; b; c] <->
  exists l w1 w2, s = l ++ a ++ w1 ++ b ++ w2 ++ c /\ Forall (fun c => is_ws c = true) l /\
    word a /\ blanks w1 /\ word b /\ blanks w2 /\ starts_word c.
Proof.
  unfold split_ws2. split.
  - intros H. destruct (split_ws1 s) as [|a' [|b' [|? ?]]] eqn:E; try discriminate.
    + injection H as <- H. apply split_ws1_two in E. destruct E as (l & w1 & -> & Fl & Wa & Bw & Sb).
      apply split_ws1_two in H. destruct H as (l2 & w2 & -> & Fl2 & Wb & Bw2 & Sc).
      assert (l2 = []) as ->. { destruct Sb as (x & y & Es & Px). destruct l2 as [|z l2]; [reflexivity|]. cbn [app] in Es.
        injection Es as -> _. inversion Fl2; congruence. }
      exists l, w1, w2. cbn [app]. auto 10.
    + exfalso. clear H. revert E. unfold split_ws1. destruct (lstrip_if is_ws s) as [|n0 p0]; [intros E; discriminate E|].
      destruct (span_not is_ws (n0 :: p0)) as [x y]. destruct (lstrip_if is_ws y); intros E; discriminate E.
  - intros (l & w1 & w2 & -> & Fl & Wa & B1 & Wb & B2 & Sc).
    assert (E : split_ws1 (l ++ a ++ w1 ++ b ++ w2 ++ c) = [a; b ++ w2 ++ c]).
    { apply split_ws1_two. exists l, w1. split; [reflexivity|]. split; [exact Fl|]. split; [exact Wa|]. split; [exact B1|].
      destruct Wb as [Nb Fb]. destruct b as [|x b]; [congruence|]. inversion Fb; subst. exists x, (b ++ w2 ++ c). auto. }
    rewrite E. assert (E2 : split_ws1 (b ++ w2 ++ c) = [b; c]).
    { apply split_ws1_two. exists [], w2. auto 10. }
    rewrite E2. reflexivity.
Qed.

(** ** Numbers *)

(** [s] is the number [n] in decimal notation. *)
Definition decimal (s : pystr) (n : N) : Prop :=
  s <> [] /\ Forall (fun c => is_digit c = true) s /\ fold_left (fun a c => 10 * a + (c - 48)) s 0 = n.

Lemma digits_val_fold s : forall acc prev, Forall (fun c => is_digit c = true) s -> (s <> [] \/ prev = true) ->
  digits_val acc prev s = Some (fold_left (fun a c => 10 * a + (c - 48)) s acc).
Proof.
  induction s as [|c s IH]; intros acc prev F Q.
  - destruct Q as [Q| ->]; [congruence|reflexivity].
  - inversion F as [|? ? Pc F']; subst. cbn [digits_val fold_left]. rewrite Pc. apply IH; auto.
Qed.

Lemma digit_neq c : is_digit c = true -> c <> 45 /\ c <> 43 /\ c <> 95 /\ c <> DOT.
Proof. unfold is_digit, DOT. rewrite andb_true_iff, !N.leb_le. lia. Qed.

Lemma strip_plain s : Forall (fun c => is_ws c = false) s -> strip s = s.
Proof.
  intros F. unfold strip. assert (L : lstrip_if is_ws s = s) by (destruct F as [|c s Pc F]; [reflexivity|apply lstrip_if_head; exact Pc]).
  rewrite L. clear L. induction s as [|c s _] using rev_ind; [reflexivity|]. apply Forall_app in F. destruct F as [_ F].
  inversion F; subst. apply rstrip_if_last. assumption.
Qed.

Lemma strip_digits s : Forall (fun c => is_digit c = true) s -> strip s = s.
Proof.
  intros F. apply strip_plain. eapply Forall_impl; [|exact F]. apply is_digit_not_ws.
Qed.

Lemma py_int_decimal s n : decimal s n -> py_int s = Some (Z.of_N n).
Proof.
  intros (Ns & F & E). unfold py_int. rewrite strip_digits by exact F. destruct s as [|c s]; [congruence|].
  inversion F as [|? ? Pc F']; subst. destruct (digit_neq c Pc) as (N1 & N2 & _).
  rewrite (proj2 (N.eqb_neq c 45) N1), (proj2 (N.eqb_neq c 43) N2).
  rewrite digits_val_fold; [reflexivity|exact F|left; discriminate].
Qed.

(** A string of digits (in the sense of [isdigit]) that [int] accepts. *)
Lemma super_not_ws c : (c =? 178) || (c =? 179) || (c =? 185) = true -> is_ws c = false /\ is_digit c = false /\ c <> 95.
Proof.
  rewrite !orb_true_iff, !N.eqb_eq. intros [[->| ->]| ->]; split; try reflexivity; split; try reflexivity; discriminate.
Qed.

Lemma digits_val_digits s : forall acc prev n, digits_val acc prev s = Some n ->
  forallb (fun c => is_digit c || (c =? 178) || (c =? 179) || (c =? 185)) s = true -> Forall (fun c => is_digit c = true) s.
Proof.
  induction s as [|c s IH]; intros acc prev n H F; [constructor|]. cbn [forallb] in F. apply andb_true_iff in F. destruct F as [Fc F].
  cbn [digits_val] in H. destruct (is_digit c) eqn:D; [constructor; [exact D|eapply IH; eassumption]|].
  cbn [orb] in Fc. destruct (super_not_ws c Fc) as (_ & _ & N95). rewrite (proj2 (N.eqb_neq c 95) N95) in H. discriminate.
Qed.

Lemma isdigit_int s z : isdigit s = true -> py_int s = Some z -> exists n, z = Z.of_N n /\ decimal s n.
Proof.
  intros I H. unfold isdigit in I. destruct s as [|c s]; [discriminate|]. assert (W : strip (c :: s) = c :: s).
  { apply strip_plain. apply Forall_forall. intros x Ix. rewrite forallb_forall in I. apply I in Ix.
    destruct (is_digit x) eqn:D; [apply is_digit_not_ws; exact D|]. cbn [orb] in Ix. apply super_not_ws in Ix. apply Ix. }
  unfold py_int in H. rewrite W in H.
  assert (N1 : c =? 45 = false /\ c =? 43 = false).
  { cbn [forallb] in I. apply andb_true_iff in I. destruct I as [I _]. rewrite !orb_true_iff, !N.eqb_eq in I.
    rewrite !N.eqb_neq. destruct I as [[[I|I]|I]|I]; try (subst c; split; discriminate). apply digit_neq in I. tauto. }
  rewrite (proj1 N1), (proj2 N1) in H. destruct (digits_val 0 false (c :: s)) as [n|] eqn:D; [|discriminate]. cbn [option_map] in H. injection H as <-.
  pose proof (digits_val_digits _ _ _ _ D I) as F. exists n. split; [reflexivity|]. split; [discriminate|]. split; [exact F|].
  rewrite digits_val_fold in D; [congruence|exact F|left; discriminate].
Qed.

Lemma decimal_isdigit s n : decimal s n -> isdigit s = true.
Proof.
  intros (Ns & F & _). destruct s as [|c s]; [congruence|]. unfold isdigit. apply forallb_forall. intros x Ix.
  rewrite Forall_forall in F. rewrite (F x Ix). reflexivity.
Qed.

Lemma split1_iff c s a b : split1 c s = Some (a, b) <-> s = a ++ c :: b /\ ~ In c a.
Proof.
  revert a b. induction s as [|x s IH]; intros a b; cbn [split1].
  - split; [discriminate|]. intros [E _]. destruct a; discriminate.
  - destruct (N.eqb_spec x c) as [->|X].
    + split; [intros H; injection H as <- <-; auto|]. intros [E I]. destruct a as [|y a]; cbn [app] in E; [injection E as ->; reflexivity|].
      injection E as E1 _. subst y. exfalso. apply I. left; reflexivity.
    + destruct (split1 c s) as [[a' b']|] eqn:Sp.
      * destruct (proj1 (IH a' b') eq_refl) as [E' I']. split.
        -- intros H. injection H as <- <-. split; [cbn [app]; rewrite E'; reflexivity|]. intros [Q|Q]; [exact (X Q)|exact (I' Q)].
        -- intros [E I]. destruct a as [|y a]; cbn [app] in E; injection E as -> E; [congruence|].
           assert (Y : Some (a', b') = Some (a, b)) by (apply IH; split; [exact E|intros Q; apply I; right; exact Q]). injection Y as -> ->. reflexivity.
      * split; [discriminate|]. intros [E I]. destruct a as [|y a]; cbn [app] in E; injection E as -> E; [congruence|].
        exfalso. assert (Y : None = Some (a, b)) by (apply IH; split; [exact E|intros Q; apply I; right; exact Q]). discriminate.
Qed.

(** ** Checksums *)

Lemma checksum_in e a p h : clean e -> (checksum e a p = Some h <-> exists d, In (p, d) e /\ In (a, h) d).
Proof.
  intros [N1 C]. unfold checksum. split.
  - destruct (od_get p e) as [d|] eqn:G; [|discriminate]. intros H. exists d. split; apply od_get_in; assumption.
  - intros (d & I & J). rewrite (od_in_get _ _ _ N1 I). apply od_in_get; [apply (C _ _ I)|exact J].
Qed.

Lemma key_has_sum (e : entries) p : clean e -> (In p (od_keys e) <-> exists a h, checksum e a p = Some h).
Proof.
  intros C. split.
  - intros I. unfold od_keys in I. apply in_map_iff in I. destruct I as ([q d] & E & I). cbn in E. subst q.
    destruct (proj2 C _ _ I) as [Nd _]. destruct d as [|[a h] d]; [congruence|]. exists a, h. apply checksum_in; [exact C|].
    exists ((a, h) :: d). split; [exact I|left; reflexivity].
  - intros (a & h & H). apply checksum_in in H; [|exact C]. destruct H as (d & I & _). unfold od_keys. apply in_map_iff. exists (p, d). auto.
Qed.

Lemma check_entries_pass v b : clean (o_entries b) -> (check_entries v b = VPass <->
  forall a f h, checksum (o_entries b) a f = Some h -> exists c, read f (o_tree b) = Some c /\ lower h = v_hash v a c).
Proof.
  intros Cl. unfold check_entries. split.
  - intros H a f h Cs. apply checksum_in in Cs; [|exact Cl]. destruct Cs as (d & Id & Ih).
    destruct (mapM (mismatches v (o_tree b)) (o_entries b)) as [ll|] eqn:M; [|discriminate].
    destruct (concat ll) as [|? ?] eqn:Cc; [|discriminate]. clear H.
    assert (X : exists y, In y ll /\ mismatches v (o_tree b) (f, d) = Ok y).
    { clear Cc. revert ll M Id. generalize (o_entries b). intros l. induction l as [|z l IH]; intros ll M Id; [destruct Id|]. destruct Id as [->|Id]; cbn [mapM] in M;
        apply bind_ok in M; destruct M as (y & My & M); apply bind_ok in M; destruct M as (ys & Mys & M); injection M as <-.
      - exists y. split; [left; reflexivity|exact My].
      - destruct (IH _ Mys Id) as (y' & I' & E'). exists y'. split; [right; exact I'|exact E']. }
    destruct X as (y & Iy & My). assert (y = []) as ->.
    { destruct y as [|z y]; [reflexivity|]. exfalso. assert (I : In z (concat ll)) by (apply in_concat; exists (z :: y); split; [exact Iy|left; reflexivity]).
      rewrite Cc in I. destruct I. }
    unfold mismatches in My. cbn [fst snd] in My. destruct (read f (o_tree b)) as [c|]; [|discriminate]. injection My as My.
    exists c. split; [reflexivity|]. apply map_eq_nil in My.
    destruct (streq (lower h) (v_hash v a c)) eqn:S1; [apply streq_eq; exact S1|]. exfalso.
    assert (I : In (a, h) (filter (fun ah => negb (streq (lower (snd ah)) (v_hash v (fst ah) c))) d)).
    { apply filter_In. split; [exact Ih|]. cbn [fst snd]. rewrite S1. reflexivity. }
    rewrite My in I. destruct I.
  - intros H.
    assert (X : forall p d, In (p, d) (o_entries b) -> mismatches v (o_tree b) (p, d) = Ok []).
    { intros p d I. destruct (proj1 (key_has_sum _ p Cl)) as (a0 & h0 & C0); [unfold od_keys; apply in_map_iff; exists (p, d); auto|].
      destruct (H _ _ _ C0) as (c & Rc & _). unfold mismatches. cbn [fst snd]. rewrite Rc. f_equal.
      assert (F : filter (fun ah => negb (streq (lower (snd ah)) (v_hash v (fst ah) c))) d = []).
      { destruct (filter _ d) as [|[a h] l] eqn:Fi; [reflexivity|]. exfalso.
        assert (J : In (a, h) (filter (fun ah => negb (streq (lower (snd ah)) (v_hash v (fst ah) c))) d)) by (rewrite Fi; left; reflexivity).
        apply filter_In in J. destruct J as [J Q]. cbn [fst snd] in Q.
        assert (Cs : checksum (o_entries b) a p = Some h) by (apply checksum_in; [exact Cl|eauto]).
        destruct (H _ _ _ Cs) as (c' & Rc' & E'). assert (c' = c) by congruence. subst c'. rewrite E', streq_refl in Q. discriminate. }
      rewrite F. reflexivity. }
    rewrite (mapM_ok_map _ (fun _ => [])) by (intros [p d] I; apply X; exact I).
    assert (F : forall l : entries, concat (map (fun _ => @nil pystr) l) = []).
    { induction l as [|z l IH]; [reflexivity|exact IH]. }
    rewrite F. reflexivity.
Qed.

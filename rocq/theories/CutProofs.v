(** Proofs about lists that were not saved to the end *)
Require Import String NArith PeanoNat Bool List Lia.
From Verif Require Import PyBase PyFacts Version Tsv TsvProofs Fs FsFacts HeadBag HeadBagProofs HeadBagProofs2 HandlesProofs2 Cut SpecCut.
Import ListNotations.
Open Scope nat_scope.

(** The beginning of a text of lines: some lines, and the beginning of the
    next one. *)
Lemma cut_lines {A} (f : A -> pystr) l : forall n,
  exists k part, k <= length l /\
    firstn n (flat_map (fun x => f x ++ [LF]) l) = flat_map (fun x => f x ++ [LF]) (firstn k l) ++ part /\
    (part = [] \/ exists x s, nth_error l k = Some x /\ f x = part ++ s /\ part <> []).
Proof.
  induction l as [|x l IH]; intros n.
  - exists 0, []. rewrite firstn_nil. simpl. auto.
  - cbn [flat_map]. destruct (Nat.le_gt_cases n (length (f x))) as [G|G].
    + exists 0, (firstn n (f x)). split; [lia|]. split.
      * cbn [firstn flat_map app]. rewrite firstn_app, firstn_app.
        replace (n - length (f x)) with 0 by lia. rewrite firstn_O, app_nil_r.
        replace (n - length (f x ++ [LF])) with 0 by (rewrite app_length; simpl; lia). rewrite firstn_O, app_nil_r. reflexivity.
      * destruct (firstn n (f x)) as [|c t] eqn:E; [left; reflexivity|right].
        exists x, (skipn n (f x)). split; [reflexivity|]. split; [|discriminate]. rewrite <- E. symmetry. apply firstn_skipn.
    + destruct (IH (n - length (f x ++ [LF]))) as (k & part & Lk & E & P).
      exists (S k), part. split; [simpl; lia|]. split; [|exact P].
      rewrite firstn_app, E. rewrite firstn_all2 by (rewrite app_length; simpl; lia).
      cbn [firstn flat_map]. rewrite app_assoc. reflexivity.
Qed.

Lemma pylines_part r part : part <> [] -> no_brk r part -> pylines r part = [part].
Proof.
  intros NE B. induction B as [|c t Bc B IH]; [congruence|]. cbn [pylines]. rewrite Bc.
  destruct t as [|d t]; [reflexivity|]. rewrite IH by discriminate. reflexivity.
Qed.

Lemma pylines_cut {A} r (f : A -> pystr) l part : (forall x, In x l -> no_brk r (f x)) -> no_brk r part ->
  pylines r (flat_map (fun x => f x ++ [LF]) l ++ part) =
  map (fun x => f x ++ [LF]) l ++ (match part with [] => [] | _ => [part] end).
Proof.
  intros B Bp. induction l as [|x l IH]; cbn [flat_map map app].
  - destruct part as [|c t]; [reflexivity|]. apply pylines_part; [discriminate|exact Bp].
  - rewrite <- !app_assoc. cbn [app]. rewrite pylines_app by (apply B; left; reflexivity).
    f_equal. apply IH. intros y Iy. apply B. right; auto.
Qed.

Lemma part_head s t part : trimmed s -> s = part ++ t -> part <> [] -> exists c p, part = c :: p /\ is_ws c = false.
Proof.
  intros [(c & u & E & W) _] E' NE. destruct part as [|d p]; [congruence|]. exists d, p. split; auto.
  rewrite E in E'. injection E' as -> _. exact W.
Qed.

Lemma strip_head c p : is_ws c = false -> exists q, strip (c :: p) = c :: q.
Proof.
  intros W. unfold strip. rewrite lstrip_if_head by auto.
  destruct (rstrip_if_split is_ws (c :: p)) as (w & E & F).
  destruct (rstrip_if is_ws (c :: p)) as [|d q] eqn:R.
  - exfalso. simpl in E. rewrite <- E in F. inversion F; congruence.
  - injection E as -> _. exists q. reflexivity.
Qed.

Lemma nonblank_head c p : is_ws c = false -> nonblank (c :: p) = true.
Proof. intros W. unfold nonblank. destruct (strip_head c p W) as (q & ->). reflexivity. Qed.

(** Reading the beginning of a text: the lines that are whole, then whatever
    the parser makes of the rest. *)
Lemma parse_cut {A B} r (parse : pystr -> res B) (f : A -> pystr) (g : A -> B) l n :
  (forall x, In x l -> trimmed (f x) /\ no_brk r (f x) /\ parse (f x ++ [LF]) = Ok (g x)) ->
  exists k, k <= length l /\
    (parse_file r parse (firstn n (flat_map (fun x => f x ++ [LF]) l)) = Ok (map g (firstn k l)) \/
     exists x part s, nth_error l k = Some x /\ f x = part ++ s /\ part <> [] /\
       parse_file r parse (firstn n (flat_map (fun x => f x ++ [LF]) l)) =
       match parse part with Ok y => Ok (map g (firstn k l) ++ [y]) | Err e => Err e end).
Proof.
  intros H. destruct (cut_lines f l n) as (k & part & Lk & E & P). exists k. split; [exact Lk|]. rewrite E.
  assert (Hk : forall x, In x (firstn k l) -> trimmed (f x) /\ no_brk r (f x) /\ parse (f x ++ [LF]) = Ok (g x)).
  { intros x Ix. apply H. rewrite <- (firstn_skipn k l). apply in_or_app. left; auto. }
  destruct P as [->|(x & s & Nx & Ex & NE)].
  - left. rewrite app_nil_r. apply (parse_file_lines r parse f g). exact Hk.
  - right. exists x, part, s. repeat (split; [assumption|]).
    pose proof (H x (nth_error_In _ _ Nx)) as (Tx & Bx & _).
    assert (Bp : no_brk r part) by (rewrite Ex in Bx; apply no_brk_app in Bx as [Bx _]; exact Bx).
    destruct (part_head (f x) s part Tx Ex NE) as (c & p & -> & W).
    unfold parse_file. rewrite pylines_cut; auto; [|intros y Iy; apply Hk; auto].
    rewrite filter_app. cbn [filter]. rewrite nonblank_head by auto.
    pose proof (parse_file_lines r parse f g (firstn k l) Hk) as PF. unfold parse_file in PF.
    rewrite pylines_flat_map in PF by (intros y Iy; apply Hk; auto).
    assert (MA : forall l1 x, mapM parse (l1 ++ [x]) = match mapM parse l1 with
       | Ok ys => match parse x with Ok y => Ok (ys ++ [y]) | Err e => Err e end | Err e => Err e end).
    { clear. induction l1 as [|z l1 IH]; intros x; cbn [mapM app bind].
      - destruct (parse x); reflexivity.
      - destruct (parse z); cbn [bind]; [|reflexivity]. rewrite IH. destruct (mapM parse l1); cbn [bind]; [|reflexivity].
        destruct (parse x); reflexivity. }
    exact (eq_trans (MA _ (c :: p)) (f_equal (fun z => match z with
       | Ok ys => match parse (c :: p) with Ok y => Ok (ys ++ [y]) | Err e => Err e end | Err e => Err e end) PF)).
Qed.

Lemma app_split_cases {A} (a b c d : list A) : a ++ b = c ++ d ->
  (exists e, a = c ++ e /\ d = e ++ b) \/ (exists e, c = a ++ e /\ b = e ++ d).
Proof.
  revert c. induction a as [|x a IH]; intros c E.
  - right. exists c. auto.
  - destruct c as [|y c]; [left; exists (x :: a); simpl in *; auto|]. injection E as -> E.
    destruct (IH c E) as [(e & -> & ->)|(e & -> & ->)]; [left|right]; exists e; auto.
Qed.

(** ** The table *)

Lemma parse_lookup_cut p b part s : legal_name p -> legal_name b -> p ++ [TAB] ++ b = part ++ s -> part <> [] ->
  parse_lookup_03 part = Err EMultibag \/
  exists b', parse_lookup_03 part = Ok (p, strip b') /\ b' <> [] /\ exists s', b = b' ++ s'.
Proof.
  intros [Tp Np] [Tb Nb] E NE. unfold parse_lookup_03.
  assert (NT : forall q, (exists s', p = q ++ s') -> parse_lookup_03 q = Err EMultibag).
  { intros q [s' ->]. unfold parse_lookup_03. rewrite split_on_none; [reflexivity|].
    intros It. apply Np. apply in_or_app. left.
    clear -It. unfold strip in It.
    destruct (rstrip_if_split is_ws (lstrip_if is_ws q)) as (w & E1 & _).
    destruct (lstrip_if_split is_ws q) as (w' & E2 & _). rewrite E2. apply in_or_app. right.
    rewrite E1. apply in_or_app. left. exact It. }
  destruct (app_split_cases p ([TAB] ++ b) part s E) as [(e & Ep & _)|(e & Ep & Eb)].
  - left. apply NT. eauto.
  - destruct e as [|c e]; [left; apply NT; exists []; rewrite !app_nil_r in *; congruence|].
    cbn [app] in Eb. injection Eb as <- Eb. destruct e as [|c e].
    + left. subst part. rewrite strip_app_ws by (repeat constructor). apply (NT p). exists []. symmetry; apply app_nil_r.
    + right. exists (c :: e). split; [|split; [discriminate|exists s; exact Eb]].
      destruct (part_head b s (c :: e) Tb Eb) as (c0 & e0 & E0 & W); [discriminate|]. injection E0 as <- <-.
      assert (Es : strip part = p ++ TAB :: strip (c :: e)).
      { subst part. destruct Tp as [(c1 & t1 & Ec & W1) _]. unfold strip. rewrite Ec at 1. cbn [app].
        rewrite (lstrip_if_head is_ws c1) by auto. change (c1 :: t1 ++ TAB :: c :: e) with ((c1 :: t1) ++ TAB :: c :: e).
        rewrite <- Ec. rewrite (lstrip_if_head is_ws c) by auto.
        destruct (strip_head c e W) as (q & Eq). unfold strip in Eq. rewrite lstrip_if_head in Eq by auto.
        rewrite (rstrip_if_app_neq is_ws p); [|].
        - f_equal. change (TAB :: c :: e) with ([TAB] ++ c :: e). rewrite rstrip_if_app_neq by (rewrite Eq; discriminate). reflexivity.
        - change (TAB :: c :: e) with ([TAB] ++ c :: e). rewrite rstrip_if_app_neq by (rewrite Eq; discriminate). discriminate. }
      rewrite Es, split_on_app by auto. rewrite split_on_none; [reflexivity|].
      intros It. apply Nb. rewrite Eb. apply in_or_app. left.
      unfold strip in It. rewrite lstrip_if_head in It by auto.
      destruct (rstrip_if_split is_ws (c :: e)) as (w & E1 & _). rewrite E1. apply in_or_app. left. exact It.
Qed.

Lemma strip_tab c a d e : is_ws c = false -> is_ws d = false ->
  strip ((c :: a) ++ TAB :: d :: e) = (c :: a) ++ TAB :: strip (d :: e).
Proof.
  intros W W'. destruct (strip_head d e W') as (q & Eq). unfold strip in *. cbn [app].
  rewrite (lstrip_if_head is_ws c) by auto. rewrite (lstrip_if_head is_ws d) in * by auto.
  change (c :: a ++ TAB :: d :: e) with ((c :: a) ++ [TAB] ++ d :: e).
  assert (R : rstrip_if is_ws ([TAB] ++ d :: e) = [TAB] ++ rstrip_if is_ws (d :: e))
    by (apply rstrip_if_app_neq; rewrite Eq; discriminate).
  rewrite rstrip_if_app_neq by (rewrite R; discriminate). rewrite R. reflexivity.
Qed.

Lemma in_strip x s : In x (strip s) -> In x s.
Proof.
  intros It. unfold strip in It.
  destruct (rstrip_if_split is_ws (lstrip_if is_ws s)) as (w & E1 & _).
  destruct (lstrip_if_split is_ws s) as (w' & E2 & _). rewrite E2. apply in_or_app. right.
  rewrite E1. apply in_or_app. left. exact It.
Qed.

(** ** Member bags *)

Lemma parse_plain q : strip q <> [] -> ~ In TAB q ->
  parse_member_03 q = Ok {| m_name := strip q; m_uri := None; m_comment := None; m_info := [] |}.
Proof.
  intros NE NT. unfold parse_member_03. rewrite split_on_none by (intros It; apply NT, in_strip; exact It).
  destruct (strip q); [congruence|reflexivity].
Qed.

(** A name and one more field. *)
Lemma parse_one c a d e : is_ws c = false -> is_ws d = false -> ~ In TAB (c :: a) -> ~ In TAB (d :: e) ->
  parse_member_03 ((c :: a) ++ TAB :: d :: e) =
  Ok {| m_name := c :: a;
        m_uri := if (d =? HASH)%N then None else Some (strip (d :: e));
        m_comment := if (d =? HASH)%N then Some (strip (lstrip_if (N.eqb HASH) (strip (d :: e)))) else None;
        m_info := [] |}.
Proof.
  intros W W' N1 N2. unfold parse_member_03. rewrite strip_tab by auto. rewrite split_on_app by auto.
  rewrite split_on_none by (intros It; apply N2, in_strip; exact It).
  destruct (strip_head d e W') as (q & Eq). rewrite Eq. cbn [unsnoc startswith].
  assert (SW : startswith q [] = true) by (destruct q; reflexivity). rewrite SW, andb_true_r, (N.eqb_sym d HASH).
  destruct (HASH =? d)%N; reflexivity.
Qed.

Lemma parse_member_cut r m part s : legal_member r m -> member_body m = part ++ s -> part <> [] ->
  exists m', parse_member_03 part = Ok m' /\ member_rest m m'.
Proof.
  intros L E NE. destruct m as [n u c i]. unfold legal_member, member_body, member_rest, beginning in *. cbn [m_name m_uri m_comment m_info] in *.
  destruct L as ([[Tn Nn] _] & [Hu Su] & Hc & ->).
  pose proof Tn as [(cn & an & En & Wn) _].
  set (ru := match u with Some u => [TAB] ++ u | None => [] end) in *.
  set (rc := match c with Some c => [TAB; HASH; SP] ++ c | None => [] end) in *.
  assert (PN : forall q s', n = q ++ s' -> q <> [] -> exists m', parse_member_03 q = Ok m' /\
     ((exists n0, (n0 <> [] /\ exists t, n = n0 ++ t) /\ m' = {| m_name := strip n0; m_uri := None; m_comment := None; m_info := [] |}) \/
      (m_name m' = n /\ m_info m' = [] /\ (m_uri m' = None \/ exists u0 u', u = Some u0 /\ (u' <> [] /\ exists t, u0 = u' ++ t) /\ m_uri m' = Some (strip u'))))).
  { intros q s' Eq Nq. eexists. split; [apply parse_plain|].
    - destruct (part_head n s' q Tn Eq Nq) as (c1 & p1 & -> & W1). destruct (strip_head c1 p1 W1) as (z & ->). discriminate.
    - intros It. apply Nn. rewrite Eq. apply in_or_app. auto.
    - left. exists q. split; [split; eauto|reflexivity]. }
  destruct (app_split_cases n (ru ++ rc) part s E) as [(e & Ep & _)|(e & Ep & Er)]; [eapply PN; eauto|].
  destruct e as [|t e].
  { rewrite app_nil_r in Ep. subst part. apply (PN n []); auto. symmetry; apply app_nil_r. }
  assert (Et : t = TAB).
  { destruct u as [u|]; [unfold ru in Er; cbn [app] in Er; congruence|].
    destruct c as [c|]; [unfold ru, rc in Er; cbn [app] in Er; congruence|]. discriminate Er. }
  subst t. destruct e as [|d e].
  { (* the name and a tab *)
    exists {| m_name := n; m_uri := None; m_comment := None; m_info := [] |}. split; [|right; cbn; auto].
    subst part. unfold parse_member_03. rewrite strip_app_ws by (repeat constructor).
    rewrite strip_trimmed by auto. rewrite split_on_none by auto. rewrite En. reflexivity. }
  assert (NT1 : ~ In TAB (cn :: an)) by (rewrite <- En; exact Nn).
  (* one more field, begun by [d] *)
  assert (ONE : forall x, is_ws d = false -> ~ In TAB (d :: e) -> (d = HASH \/ (u = Some x /\ exists s', x = (d :: e) ++ s')) ->
     exists m', parse_member_03 part = Ok m' /\
     ((exists n0, (n0 <> [] /\ exists t, n = n0 ++ t) /\ m' = {| m_name := strip n0; m_uri := None; m_comment := None; m_info := [] |}) \/
      (m_name m' = n /\ m_info m' = [] /\ (m_uri m' = None \/ exists u0 u', u = Some u0 /\ (u' <> [] /\ exists t, u0 = u' ++ t) /\ m_uri m' = Some (strip u'))))).
  { intros x W NT O. eexists. split; [rewrite Ep, En; apply parse_one; auto|]. right. cbn [m_name m_info m_uri].
    split; [auto|]. split; [reflexivity|]. destruct (N.eqb_spec d HASH) as [Ed|Nd]; [left; reflexivity|right].
    destruct O as [O|(Ou & s' & Ox)]; [congruence|]. exists x, (d :: e). split; auto. split; auto. split; [discriminate|eauto]. }
  assert (HW : is_ws HASH = false) by reflexivity.
  destruct u as [u|].
  - unfold ru in Er. cbn [app] in Er. injection Er as Er. destruct Hu as [[Tu Nu] _].
    destruct (app_split_cases u rc (d :: e) s Er) as [(e2 & Eu & _)|(e2 & Eu & Ec)].
    + destruct (part_head u e2 (d :: e) Tu Eu) as (d0 & e0 & E0 & W); [discriminate|]. injection E0 as <- <-.
      apply (ONE u W); [|right; eauto]. intros It. apply Nu. rewrite Eu. apply in_or_app; auto.
    + destruct (part_head u [] u Tu) as (d0 & e0 & E0 & W); [symmetry; apply app_nil_r|apply trimmed_nonempty; auto|].
      assert (Ed : d = d0) by (rewrite E0 in Eu; cbn [app] in Eu; injection Eu; auto).
      assert (UU : exists s', u = u ++ s') by (exists []; symmetry; apply app_nil_r).
      destruct e2 as [|t e2].
      { rewrite app_nil_r in Eu. apply (ONE u); [rewrite Ed; exact W|rewrite Eu; exact Nu|right; split; auto; rewrite Eu; exact UU]. }
      destruct c as [c|]; [|discriminate Ec]. unfold rc in Ec. cbn [app] in Ec. injection Ec as <- Ec.
      destruct Hc as [[Tc Nc] _].
      destruct e2 as [|h e2].
      { (* name, URI and a tab *)
        assert (Es : strip part = n ++ TAB :: u).
        { rewrite Ep, Eu. change (n ++ TAB :: u ++ [TAB]) with (n ++ [TAB] ++ u ++ [TAB]). rewrite !app_assoc.
          rewrite strip_app_ws by (repeat constructor). rewrite <- app_assoc. apply strip_trimmed.
          apply (trimmed_app n [TAB] u); auto. }
        unfold parse_member_03. rewrite Es, split_on_app by auto. rewrite split_on_none by auto.
        rewrite En. cbn [unsnoc].
        destruct (startswith u [HASH]); (eexists; split; [reflexivity|]; right; cbn [m_name m_info m_uri]; split; auto; split; auto).
        right. exists u, u. rewrite strip_trimmed by auto. split; auto. split; auto. split; auto. apply trimmed_nonempty; auto. }
      injection Ec as <- Ec.
      assert (NTc : ~ In TAB (HASH :: e2)).
      { intros [It|It]; [discriminate It|]. assert (It' : In TAB (SP :: c)) by (rewrite Ec; apply in_or_app; auto).
        destruct It' as [It'|It']; [discriminate It'|auto]. }
      assert (Es : strip part = n ++ TAB :: u ++ TAB :: strip (HASH :: e2)).
      { rewrite Ep, Eu. rewrite En. rewrite E0. cbn [app]. 
        change (cn :: an ++ TAB :: d0 :: e0 ++ TAB :: HASH :: e2) with ((cn :: an) ++ TAB :: d0 :: (e0 ++ TAB :: HASH :: e2)).
        rewrite strip_tab by auto. change (d0 :: e0 ++ TAB :: HASH :: e2) with ((d0 :: e0) ++ TAB :: HASH :: e2).
        rewrite strip_tab by auto. reflexivity. }
      unfold parse_member_03. rewrite Es, split_on_app by auto. rewrite split_on_app by auto.
      rewrite split_on_none by (intros It; apply NTc, in_strip; exact It).
      destruct (strip_head HASH e2 HW) as (q & Eq). rewrite Eq, En. cbn [unsnoc startswith]. rewrite N.eqb_refl.
      assert (SW : startswith q [] = true) by (destruct q; reflexivity). rewrite SW. cbn [andb].
      eexists. split; [reflexivity|]. right. cbn [m_name m_info m_uri]. split; auto. split; auto. right.
      exists u, u. rewrite strip_trimmed by auto. split; auto. split; auto. split; auto. apply trimmed_nonempty; auto.
  - unfold ru in Er. destruct c as [c|]; [|discriminate Er]. unfold rc in Er. cbn [app] in Er.
    injection Er as <- Er. destruct Hc as [[Tc Nc] _]. apply (ONE []); auto.
    intros [It|It]; [discriminate It|]. assert (It' : In TAB (SP :: c)) by (rewrite Er; apply in_or_app; auto).
    destruct It' as [It'|It']; [discriminate It'|auto].
Qed.

(** ** What is read after a save that was cut *)

Lemma no_bom_firstn r s n : no_bom r s -> no_bom r (firstn n s).
Proof. destruct r, s, n; simpl; auto. Qed.

Lemma list_rest_members r L n : Forall (storable_member r) L ->
  exists L', parse_file r parse_member_03 (decode r (firstn n (fst (members_prefix L)))) = Ok L' /\
             list_rest member_rest L L'.
Proof.
  intros F. assert (FL : Forall (legal_member r) L) by (eapply Forall_impl; [|exact F]; intros m K; apply K).
  rewrite (members_prefix_text r L FL). cbn [fst].
  rewrite decode_id by (apply no_bom_firstn, members_text_no_bom; exact F).
  rewrite Forall_forall in FL.
  destruct (parse_cut r parse_member_03 member_body (fun m => m) L n) as (k & Lk & [E|(x & part & s & Nx & Ex & NE & E)]).
  - intros m Im. apply FL in Im. split; [eapply member_body_trimmed; eauto|].
    split; [eapply member_body_no_brk; eauto|eapply parse_member_body; eauto].
  - rewrite map_id in E. exists (firstn k L). split; [exact E|]. exists k. auto.
  - rewrite map_id in E. destruct (parse_member_cut r x part s (FL x (nth_error_In _ _ Nx)) Ex NE) as (m' & P & R).
    rewrite P in E. exists (firstn k L ++ [m']). split; [exact E|]. exists k. split; auto. right. exists x, m'. auto.
Qed.

Lemma list_rest_lookup r D n : Forall (storable_entry r) D ->
  parse_file r parse_lookup_03 (decode r (firstn n (lookup_text D))) = Err EMultibag \/
  exists D', parse_file r parse_lookup_03 (decode r (firstn n (lookup_text D))) = Ok D' /\ list_rest entry_rest D D'.
Proof.
  intros F. rewrite decode_id by (apply no_bom_firstn, lookup_text_no_bom; exact F).
  pose proof (Forall_storable_legal r D F) as FL. rewrite Forall_forall in FL.
  unfold lookup_text. rewrite (flat_map_ext_in' _ (fun kv => (fst kv ++ [TAB] ++ snd kv) ++ [LF])) by (intros; apply format_lookup_line).
  destruct (parse_cut r parse_lookup_03 (fun kv => fst kv ++ [TAB] ++ snd kv) (fun kv => kv) D n)
    as (k & Lk & [E|(x & part & s & Nx & Ex & NE & E)]).
  - intros [p b] H. apply FL in H as [[[T1 N1] B1] [[T2 N2] B2]]. simpl fst in *; simpl snd in *.
    split; [apply (trimmed_app p [TAB] b); auto|]. split.
    + rewrite !no_brk_app. repeat split; auto. constructor; [apply tab_not_brk|constructor].
    + pose proof (parse_format_lookup (p, b)) as K. rewrite format_lookup_line in K. apply K; split; auto.
  - rewrite map_id in E. right. exists (firstn k D). split; [exact E|]. exists k. auto.
  - rewrite map_id in E. destruct (FL x (nth_error_In _ _ Nx)) as [[L1 _] [L2 _]].
    destruct (parse_lookup_cut (fst x) (snd x) part s L1 L2 Ex NE) as [P|(b' & P & NE' & s' & Eb)]; rewrite P in E.
    + left. exact E.
    + right. eexists. split; [exact E|]. exists k. split; auto. right. exists x, (fst x, strip b').
      split; auto. split; [|reflexivity]. split; [reflexivity|]. exists b'. split; [split; eauto|reflexivity].
Qed.

Lemma mapM_total {A B} (f : A -> B) l : mapM (fun x => Ok (f x)) l = Ok (map f l).
Proof. induction l as [|x l IH]; cbn [mapM map]; [reflexivity|]. rewrite IH. reflexivity. Qed.

Lemma list_rest_deleted r X n : Forall (storable_path r) X ->
  list_rest path_rest X (map parse_deleted_04 (filter nonblank (pylines r (decode r (firstn n (deleted_text X)))))).
Proof.
  intros F. rewrite decode_id by (apply no_bom_firstn, deleted_text_no_bom'; exact F).
  rewrite Forall_forall in F.
  destruct (parse_cut r (fun l => Ok (parse_deleted_04 l)) (fun p => p) (fun p => p) X n)
    as (k & Lk & [E|(x & part & s & Nx & Ex & NE & E)]).
  - intros p Ip. destruct (F p Ip) as (T & B & _). split; auto. split; auto. f_equal. unfold parse_deleted_04. apply strip_line; auto.
  - rewrite map_id in E. unfold parse_file in E. rewrite mapM_total in E. injection E as E.
    exists k. split; auto.
  - rewrite map_id in E. unfold parse_file in E. rewrite mapM_total in E. injection E as E.
    exists k. split; auto. right. exists x, (parse_deleted_04 part). split; auto. split; [|exact E].
    exists part. split; [split; eauto|reflexivity].
Qed.

(** Between any two lines. *)
Lemma cut_at {A} (f : A -> pystr) l k : k <= length l ->
  exists n, firstn n (flat_map (fun x => f x ++ [LF]) l) = flat_map (fun x => f x ++ [LF]) (firstn k l).
Proof.
  intros _. exists (length (flat_map (fun x => f x ++ [LF]) (firstn k l))).
  rewrite <- (firstn_skipn k l) at 2. rewrite flat_map_app.
  rewrite firstn_app, Nat.sub_diag, firstn_O, app_nil_r. apply firstn_all.
Qed.

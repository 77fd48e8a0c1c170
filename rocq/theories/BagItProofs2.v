(** * Lemmas on tags that were read from a file

    Whatever [parse_tags] gives can be written again: the names are names,
    and the values are folded values. *)

Require Import String NArith PeanoNat Bool List Lia.
From Verif Require Import PyBase PyFacts Tsv TsvProofs Fs HeadBag BagIt BagItProofs.
Import ListNotations.
Open Scope N_scope.

(** ** Lines *)

Definition term (r : reader) (e : pystr) : Prop :=
  (exists c, e = [c] /\ is_brk r c = true) \/ e = [13; 10].

(** A line; [b]: it has a terminator for sure. *)
Definition wline (r : reader) (b : bool) (l : pystr) : Prop :=
  exists body e, l = body ++ e /\ no_brk r body /\ (term r e \/ (b = false /\ e = [])).

Fixpoint lw (r : reader) (ls : list pystr) : Prop :=
  match ls with
  | [] => True
  | l :: t => (match t with [] => wline r false l | _ => wline r true l end) /\ lw r t
  end.

Lemma brk_cr r : is_brk r 13 = true.
Proof. destruct r; reflexivity. Qed.

Lemma wline_weaken r b l : wline r true l -> wline r b l.
Proof. intros (body & e & E & H & [T|[F _]]); [|discriminate]. exists body, e. auto. Qed.

Lemma wline_cons r b c l : is_brk r c = false -> wline r b l -> wline r b (c :: l).
Proof.
  intros Hc (body & e & -> & H & T). exists (c :: body), e. repeat split; auto. constructor; auto.
Qed.

Lemma pylines_lw r s : lw r (pylines r s).
Proof.
  remember (length s) as n. assert (L : (length s <= n)%nat) by lia. clear Heqn. revert s L.
  induction n as [|n IH]; intros s L.
  - destruct s; [exact I|cbn in L; lia].
  - destruct s as [|c t]; [exact I|]. cbn in L. cbn [pylines]. destruct (is_brk r c) eqn:Bc.
    + assert (W : forall b, wline r b [c]).
      { intros b. exists [], [c]. split; [reflexivity|]. split; [constructor|]. left. left. eauto. }
      destruct t as [|d t'].
      * cbn. auto.
      * cbn in L. destruct ((c =? 13) && (d =? 10)) eqn:E.
        -- apply andb_true_iff in E. destruct E as [E1 E2]. apply N.eqb_eq in E1, E2. subst.
           assert (W2 : forall b, wline r b [13; 10]).
           { intros b. exists [], [13; 10]. split; [reflexivity|]. split; [constructor|]. left. right. reflexivity. }
           pose proof (IH t' ltac:(lia)) as K. cbn [lw]. split; [|exact K]. destruct (pylines r t'); auto.
        -- pose proof (IH (d :: t') ltac:(cbn; lia)) as K. cbn [lw]. split; [|exact K].
           destruct (pylines r (d :: t')); auto.
    + pose proof (IH t ltac:(lia)) as K. destruct (pylines r t) as [|l ls].
      * cbn. split; auto. exists [c], []. split; [reflexivity|]. split; [repeat constructor; auto|auto].
      * cbn [lw] in *. destruct K as [K1 K2]. split; auto. destruct ls; apply wline_cons; auto.
Qed.

Lemma pylines_line r body e rest : no_brk r body -> term r e -> (forall t, rest <> LF :: t) ->
  pylines r ((body ++ e) ++ rest) = (body ++ e) :: pylines r rest.
Proof.
  intros H T N1. induction H as [|c body Hc _ IH].
  - destruct T as [(c & -> & B)| ->].
    + cbn [app pylines]. rewrite B. destruct rest as [|d rest]; [reflexivity|].
      destruct ((c =? 13) && (d =? 10)) eqn:E; [|reflexivity]. apply andb_true_iff in E. destruct E as [_ E].
      apply N.eqb_eq in E. subst. exfalso. apply (N1 rest). reflexivity.
    + cbn [app pylines]. rewrite brk_cr. reflexivity.
  - cbn [app pylines]. rewrite Hc. rewrite IH. reflexivity.
Qed.

Definition starts_plain (r : reader) (l : pystr) : Prop := exists c t, l = c :: t /\ is_brk r c = false.

Lemma starts_plain_lf r l x : starts_plain r l -> forall t, l ++ x <> LF :: t.
Proof.
  intros (c & t & -> & B) t' E. inversion E; subst. destruct r; discriminate.
Qed.

Lemma reline r ls last : Forall (fun l => wline r true l /\ starts_plain r l) ls ->
  no_brk r last -> starts_plain r last ->
  pylines r (concat ls ++ last ++ [LF]) = ls ++ [last ++ [LF]].
Proof.
  intros F Hn Hs. induction F as [|l ls [W S] F IH].
  - cbn [concat app]. apply pylines_plain; auto.
  - cbn [concat]. rewrite <- app_assoc. destruct W as (body & e & -> & Hb & [T|[Fa _]]); [|discriminate].
    rewrite pylines_line; auto.
    + rewrite IH. reflexivity.
    + destruct ls as [|l2 ls].
      * cbn [concat app]. apply (starts_plain_lf r); auto.
      * inversion F as [|? ? [_ S2] _]; subst. cbn [concat]. rewrite <- app_assoc. apply (starts_plain_lf r); auto.
Qed.

(** ** Blanks *)

Lemma blank_app a b : blank (a ++ b) = blank a && blank b.
Proof. apply forallb_app. Qed.

Lemma blank_all s : blank s = true <-> Forall (fun c => is_ws c = true) s.
Proof. unfold blank. rewrite forallb_forall, Forall_forall. tauto. Qed.

Lemma lstrip_nb a x : blank a = false -> lstrip_if is_ws (a ++ x) = lstrip_if is_ws a ++ x.
Proof.
  induction a as [|c a IH]; [discriminate|]. cbn [blank forallb]. intros H. cbn [app lstrip_if].
  destruct (is_ws c); [apply IH; exact H|reflexivity].
Qed.

Lemma rstrip_blank a : blank a = false -> rstrip_if is_ws a <> [].
Proof.
  intros H E. destruct (rstrip_if_split is_ws a) as (w & E1 & F). rewrite E in E1. cbn in E1. subst.
  apply blank_all in F. congruence.
Qed.

Lemma rstrip_nb a x : blank x = false -> rstrip_if is_ws (a ++ x) = a ++ rstrip_if is_ws x.
Proof. intros H. apply rstrip_if_app_neq. apply rstrip_blank; auto. Qed.

Lemma term_blank r e : term r e \/ e = [] -> Forall (fun c => is_ws c = true) e.
Proof.
  intros [[(c & -> & B)| ->]| ->]; [|repeat constructor|constructor].
  constructor; [|constructor]. eapply is_brk_ws; eauto.
Qed.

Lemma wline_body r b l : wline r b l -> blank l = false ->
  exists body e, l = body ++ e /\ no_brk r body /\ blank body = false /\
    Forall (fun c => is_ws c = true) e /\ (term r e \/ (b = false /\ e = [])).
Proof.
  intros (body & e & -> & H & T) B. exists body, e.
  assert (F : Forall (fun c => is_ws c = true) e) by (apply (term_blank r); tauto).
  rewrite blank_app in B. apply blank_all in F as F'. rewrite F', andb_true_r in B. auto.
Qed.

Lemma body_starts r body e : no_brk r body -> blank body = false -> starts_plain r (body ++ e).
Proof.
  intros H B. destruct body as [|c t]; [discriminate|]. inversion H; subst. exists c, (t ++ e). auto.
Qed.

Lemma no_brk_sub r a b c : no_brk r (a ++ b ++ c) -> no_brk r b.
Proof. intros H. apply no_brk_app in H. destruct H as [_ H]. apply no_brk_app in H. tauto. Qed.

Lemma strip_no_brk r s : no_brk r s -> no_brk r (strip s).
Proof.
  intros H. unfold strip. destruct (lstrip_if_split is_ws s) as (w & E & _).
  destruct (rstrip_if_split is_ws (lstrip_if is_ws s)) as (w' & E' & _).
  apply (no_brk_sub r w _ w'). rewrite <- E'. rewrite <- E. exact H.
Qed.

Lemma plain_is_folded r v : no_brk r v -> folded r v.
Proof. intros H. unfold folded. rewrite pylines_plain by auto. constructor. Qed.

(** ** Values *)

Definition cont (r : reader) (b : bool) (l : pystr) : Prop :=
  starts_ws l = true /\ blank l = false /\ wline r b l.

Lemma chain_folded r w0 init last :
  no_brk r w0 -> Forall (cont r true) init -> cont r false last ->
  folded r (strip (w0 ++ concat init ++ last)).
Proof.
  intros H0 F (Sl & Bl & Wl). destruct (wline_body _ _ _ Wl Bl) as (bl & el & El & Nl & Bb & Fl & _).
  assert (Rl : rstrip_if is_ws last = rstrip_if is_ws bl) by (rewrite El; apply rstrip_if_app; auto).
  destruct (rstrip_if_split is_ws bl) as (wl & E1 & F1).
  assert (Nrl : no_brk r (rstrip_if is_ws bl)).
  { apply (no_brk_sub r [] _ wl). cbn [app]. rewrite <- E1. exact Nl. }
  destruct init as [|l1 init].
  - cbn [concat app]. rewrite El. rewrite app_assoc, strip_app_ws by auto.
    apply plain_is_folded, strip_no_brk. apply no_brk_app; auto.
  - inversion F as [|? ? (S1 & B1 & W1) F']; subst x l. clear F.
    destruct (wline_body _ _ _ W1 B1) as (b1 & e1 & E1' & N1 & Bb1 & Fe1 & T1).
    destruct T1 as [T1|[X _]]; [|discriminate].
    cbn [concat].
    replace (w0 ++ (l1 ++ concat init) ++ last) with (((w0 ++ b1) ++ e1) ++ concat init ++ last)
      by (rewrite E1', <- !app_assoc; reflexivity).
    assert (Bw : blank (w0 ++ b1) = false) by (rewrite blank_app, Bb1, andb_false_r; reflexivity).
    unfold strip. rewrite <- (app_assoc (w0 ++ b1) e1). rewrite lstrip_nb by exact Bw. set (x := lstrip_if is_ws (w0 ++ b1)).
    assert (Nx : no_brk r x).
    { destruct (lstrip_if_split is_ws (w0 ++ b1)) as (w & E & _). apply (no_brk_sub r w _ []).
      rewrite app_nil_r. unfold x. rewrite <- E. apply no_brk_app; auto. }
    assert (Bx : blank x = false).
    { destruct (lstrip_if_split is_ws (w0 ++ b1)) as (w & E & Fw). fold x in E. apply blank_all in Fw.
      rewrite E, blank_app, Fw in Bw. exact Bw. }
    rewrite !app_assoc. rewrite rstrip_nb by exact Bl. rewrite Rl.
    unfold folded. rewrite <- !app_assoc.
    assert (Srl : exists c t, rstrip_if is_ws bl = c :: t /\ is_ws c = true /\ blank t = false).
    { destruct bl as [|c t]; [discriminate|]. rewrite El in Sl. cbn in Sl.
      cbn [blank forallb] in Bb. rewrite Sl in Bb. cbn in Bb.
      change (c :: t) with ([c] ++ t). rewrite rstrip_nb by exact Bb. exists c, (rstrip_if is_ws t).
      split; [reflexivity|]. split; [exact Sl|]. destruct (blank (rstrip_if is_ws t)) eqn:E; auto.
      destruct (rstrip_if_split is_ws t) as (w & Ew & Fw). apply blank_all in Fw.
      pose proof (f_equal blank Ew) as Q. rewrite blank_app, E, Fw in Q. unfold blank in Q at 1. cbn in Q. congruence. }
    destruct Srl as (c & tl & Ec & Wc & Bt).
    replace (x ++ e1 ++ concat init ++ rstrip_if is_ws bl ++ [LF])
      with (concat ((x ++ e1) :: init) ++ rstrip_if is_ws bl ++ [LF])
      by (cbn [concat]; rewrite <- !app_assoc; reflexivity).
    rewrite reline.
    + cbn [app]. apply Forall_app. split.
      * eapply Forall_impl; [|exact F']. intros l (A & B & _). auto.
      * constructor; [|constructor]. rewrite Ec. split; [exact Wc|]. cbn [app blank forallb]. rewrite Wc. cbn [andb].
        fold (blank (tl ++ [LF])). rewrite blank_app, Bt. reflexivity.
    + constructor.
      * split; [exists x, e1; auto|apply body_starts; auto].
      * eapply Forall_impl; [|exact F']. intros l (A & B & W).
        destruct (wline_body _ _ _ W B) as (b2 & e2 & -> & N2 & B2 & _). split; [exact W|apply body_starts; auto].
    + exact Nrl.
    + rewrite Ec. inversion Nrl as [Hx|y z Hy _ Hz].
      * rewrite <- Hx in Ec. discriminate.
      * rewrite <- Hz in Ec. inversion Ec; subst. exists c, tl. auto.
Qed.

(** The tag that is being read. *)
Definition cur_ok (r : reader) (b : bool) (cur : option (pystr * pystr)) : Prop :=
  match cur with
  | None => True
  | Some (k, v) =>
      (k = [] \/ tag_name_ok r k) /\
      ((no_brk r v) \/
       exists w0 init last, v = w0 ++ concat init ++ last /\ no_brk r w0 /\
         Forall (cont r true) init /\ cont r b last)
  end.

Definition read_ok (r : reader) (kv : pystr * pystr) : Prop := tag_name_ok r (fst kv) /\ folded r (snd kv).

Lemma cont_weaken r b l : cont r true l -> cont r b l.
Proof. intros (A & B & W). repeat split; auto. apply wline_weaken; auto. Qed.

Lemma flush_ok r b cur : cur_ok r b cur -> Forall (read_ok r) (flush_tag cur).
Proof.
  destruct cur as [[k v]|]; cbn; [|constructor]. intros [Hk Hv].
  destruct k as [|x k]; [constructor|]. destruct Hk as [Hk|Hk]; [discriminate|].
  constructor; [|constructor]. split; [exact Hk|]. cbn [snd].
  destruct Hv as [Hv|(w0 & init & last & -> & H0 & F & L)].
  - apply plain_is_folded, strip_no_brk; auto.
  - apply chain_folded; auto. destruct L as (A & B & W). repeat split; auto.
    destruct b; [apply wline_weaken|]; exact W.
Qed.

Lemma parse_read_ok r : forall ls cur kvs, lw r ls ->
  cur_ok r (match ls with [] => false | _ => true end) cur ->
  parse_tag_lines cur ls = Ok kvs -> Forall (read_ok r) kvs.
Proof.
  induction ls as [|l ls IH]; intros cur kvs L C H.
  - cbn in H. inversion H; subst. eapply flush_ok; eauto.
  - cbn [lw] in L. destruct L as [Wl L].
    assert (Wf : wline r (match ls with [] => false | _ => true end) l) by (destruct ls; exact Wl).
    cbn [parse_tag_lines] in H. destruct (blank l) eqn:Bl.
    + apply (IH cur); auto. destruct cur as [[k v]|]; [|exact I]. destruct C as [Ck Cv]. split; [exact Ck|].
      destruct Cv as [Cv|(w0 & init & last & E & H0 & F & La)]; [auto|]. right. exists w0, init, last.
      repeat split; auto; try apply La. destruct ls; [apply wline_weaken|]; apply La.
    + assert (New : match split1 COLON (strip l) with
                    | None => Err EBag
                    | Some (k, v) => let? rest := parse_tag_lines (Some (strip k, v)) ls in
                                     Ok (flush_tag cur ++ rest)
                    end = Ok kvs -> Forall (read_ok r) kvs).
      { clear H. intros H. destruct (split1 COLON (strip l)) as [[k v]|] eqn:Es; [|discriminate].
        apply bind_ok in H. destruct H as (rest & H1 & H2). inversion H2; subst.
        apply Forall_app. split; [eapply flush_ok; exact C|].
        apply split1_some in Es. destruct Es as [Es Nk].
        assert (Ns : no_brk r (strip l)).
        { destruct Wf as (body & e & -> & Hb & T). rewrite strip_app_ws by (apply (term_blank r); tauto).
          apply strip_no_brk; auto. }
        rewrite Es in Ns. apply no_brk_app in Ns. destruct Ns as [Ns1 Ns2]. inversion Ns2; subst.
        eapply IH; [exact L| |exact H1]. cbn [cur_ok]. split; [|left; assumption].
        destruct (strip_is_trimmed k) as [Z|T]; [auto|]. right. split; [exact T|]. split; [|apply strip_no_brk; auto].
        intros I. apply Nk. unfold strip in I. destruct (lstrip_if_split is_ws k) as (w & E & _).
        destruct (rstrip_if_split is_ws (lstrip_if is_ws k)) as (w' & E' & _).
        rewrite E, E'. apply in_or_app. right. apply in_or_app. left. exact I. }
      destruct (starts_ws l) eqn:Sw; [|exact (New H)].
      destruct cur as [[k v]|]; [|exact (New H)].
      apply (IH (Some (k, v ++ l))); auto. destruct C as [Ck Cv]. split; [exact Ck|]. right.
      assert (Cl : cont r (match ls with [] => false | _ => true end) l) by (repeat split; auto).
      destruct Cv as [Cv|(w0 & init & last & -> & H0 & F & La)].
      * exists v, [], l. cbn [concat app]. repeat split; auto.
      * exists w0, (init ++ [last]), l. rewrite concat_app. cbn [concat]. rewrite app_nil_r, <- !app_assoc.
        repeat split; auto; try apply Cl. apply Forall_app. split; [exact F|]. constructor; [exact La|constructor].
Qed.

Lemma parse_tags_read_ok r text kvs : parse_tags r text = Ok kvs -> Forall (read_ok r) kvs.
Proof.
  intros H. eapply parse_read_ok; [apply pylines_lw| |exact H]. exact I.
Qed.

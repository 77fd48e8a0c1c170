Require Import String NArith Bool List Lia.
From Verif Require Import PyBase PyFacts Tsv.
Import ListNotations.
Open Scope N_scope.

(** Specification of the profile's name rule
    (docs/multibag-profile-spec.md): no TAB, no leading or trailing
    whitespace, not empty. *)
Definition legal_name (s : pystr) : Prop := trimmed s /\ ~ In TAB s.

(** No character at which the reader [r] ends a line. *)
Definition no_brk (r : reader) (s : pystr) : Prop := Forall (fun c => is_brk r c = false) s.

Definition legal_entry (r : reader) (kv : pystr * pystr) : Prop :=
  (legal_name (fst kv) /\ no_brk r (fst kv)) /\ (legal_name (snd kv) /\ no_brk r (snd kv)).

Lemma tab_not_brk r : is_brk r TAB = false.
Proof. destruct r; reflexivity. Qed.

Lemma no_brk_app r a b : no_brk r (a ++ b) <-> no_brk r a /\ no_brk r b.
Proof. apply Forall_app. Qed.

Lemma no_brk_no_lf r s : no_brk r s -> ~ In LF s.
Proof. unfold no_brk. rewrite Forall_forall. intros H I. apply H in I. destruct r; discriminate. Qed.

Lemma lf_ws : Forall (fun c => is_ws c = true) [LF].
Proof. repeat constructor. Qed.

Lemma strip_line s : trimmed s -> strip (s ++ [LF]) = s.
Proof. intros H. rewrite strip_app_ws by apply lf_ws. apply strip_trimmed; auto. Qed.

Lemma nonblank_line s : trimmed s -> nonblank (s ++ [LF]) = true.
Proof.
  intros H. unfold nonblank. rewrite strip_line by auto. destruct s; auto.
  apply trimmed_nonempty in H; congruence.
Qed.

(** General codec lemma: a file whose lines are trimmed and free of line
    breaks is parsed line by line. *)
Lemma parse_file_lines {A B} r (parse : pystr -> res B) (f : A -> pystr) (g : A -> B) l :
  (forall x, In x l -> trimmed (f x) /\ no_brk r (f x) /\ parse (f x ++ [LF]) = Ok (g x)) ->
  parse_file r parse (flat_map (fun x => f x ++ [LF]) l) = Ok (map g l).
Proof.
  intros H. unfold parse_file. rewrite pylines_flat_map by (intros x I; apply H; auto).
  replace (filter nonblank (map (fun x => f x ++ [LF]) l)) with (map (fun x => f x ++ [LF]) l).
  - induction l as [|x l IH]; simpl; auto.
    destruct (H x (or_introl eq_refl)) as (_ & _ & ->). simpl.
    rewrite IH; auto. intros y Hy. apply H; right; auto.
  - symmetry. induction l as [|x l IH]; simpl; auto.
    destruct (H x (or_introl eq_refl)) as (T & _ & _).
    rewrite nonblank_line by auto. f_equal. apply IH. intros y Hy. apply H; right; auto.
Qed.

Lemma format_lookup_line kv : format_lookup kv = (fst kv ++ [TAB] ++ snd kv) ++ [LF].
Proof. unfold format_lookup. rewrite <- !app_assoc. reflexivity. Qed.

Lemma flat_map_ext_in' {A B} (f g : A -> list B) l :
  (forall x, f x = g x) -> flat_map f l = flat_map g l.
Proof. intros H; induction l; simpl; auto. rewrite H, IHl; reflexivity. Qed.

Lemma parse_format_lookup kv :
  legal_name (fst kv) -> legal_name (snd kv) -> parse_lookup_03 (format_lookup kv) = Ok kv.
Proof.
  intros [T1 N1] [T2 N2]. destruct kv as [p b]; simpl in *.
  rewrite format_lookup_line. unfold parse_lookup_03. simpl fst; simpl snd.
  rewrite strip_line by (apply trimmed_app; auto).
  simpl. rewrite split_on_app by auto. rewrite split_on_none by auto. reflexivity.
Qed.

Lemma lookup_roundtrip r d :
  Forall (legal_entry r) d -> parse_file r parse_lookup_03 (lookup_text d) = Ok d.
Proof.
  intros F. rewrite Forall_forall in F. unfold lookup_text.
  rewrite (flat_map_ext_in' _ (fun kv => (fst kv ++ [TAB] ++ snd kv) ++ [LF]))
    by apply format_lookup_line.
  rewrite (parse_file_lines r parse_lookup_03 (fun kv => fst kv ++ [TAB] ++ snd kv) (fun kv => kv)).
  - rewrite map_id. reflexivity.
  - intros [p b] H. apply F in H as [[[T1 N1] B1] [[T2 N2] B2]]. simpl fst in *; simpl snd in *.
    repeat split.
    + apply (trimmed_app p [TAB] b); auto.
    + apply (trimmed_app p [TAB] b); auto.
    + rewrite !no_brk_app. repeat split; auto. constructor; [apply tab_not_brk|constructor].
    + pose proof (parse_format_lookup (p, b)) as K. rewrite format_lookup_line in K.
      apply K; split; auto.
Qed.

(** deleted.txt *)
Lemma deleted_roundtrip r l :
  Forall (fun p => trimmed p /\ no_brk r p) l ->
  map parse_deleted_04 (filter nonblank (pylines r (deleted_text l))) = l.
Proof.
  intros F. rewrite Forall_forall in F. unfold deleted_text.
  rewrite pylines_flat_map by (intros x I; apply F; auto).
  assert (FF : filter nonblank (map (fun x => x ++ [LF]) l) = map (fun x => x ++ [LF]) l).
  { clear -F. induction l as [|x l IH]; simpl; auto. rewrite nonblank_line by (apply F; simpl; auto).
    f_equal. apply IH. intros; apply F; simpl; auto. }
  rewrite FF, map_map. rewrite <- (map_id l) at 2. apply map_ext_in. intros x I.
  unfold parse_deleted_04. apply strip_line, F; auto.
Qed.

(** ** Member lines *)

Definition opt_legal (r : reader) (o : option pystr) : Prop :=
  match o with
  | None => True
  | Some u => legal_name u /\ no_brk r u
  end.

(** A member description that can be written and read: name, URI and comment
    are legal, a URI not followed by a comment does not start with '#', and
    there is no extra information. *)
Definition legal_member (r : reader) (m : minfo) : Prop :=
  (legal_name (m_name m) /\ no_brk r (m_name m)) /\
  (opt_legal r (m_uri m) /\
   (m_comment m = None -> forall u, m_uri m = Some u -> startswith u [HASH] = false)) /\
  opt_legal r (m_comment m) /\
  m_info m = [].

(** The line without its terminator. *)
Definition member_body (m : minfo) : pystr :=
  m_name m ++ (match m_uri m with Some u => [TAB] ++ u | None => [] end)
           ++ (match m_comment m with Some c => [TAB; HASH; SP] ++ c | None => [] end).

Lemma truthy_some u : u <> [] -> truthy (Some u) = true.
Proof. destruct u; [congruence|reflexivity]. Qed.

Lemma format_member_body r m : legal_member r m -> format_member m = Ok (member_body m ++ [LF]).
Proof.
  destruct m as [n u c i]. unfold legal_member, format_member, member_body; simpl.
  intros (_ & [Hu _] & Hc & ->).
  destruct u as [u|], c as [c|]; simpl in *;
  repeat match goal with
  | H : legal_name ?x /\ _ |- _ => destruct H as [[H _] _]; apply trimmed_nonempty in H
  end;
  repeat match goal with
  | H : ?x <> [] |- _ => destruct x; [congruence|]; clear H; simpl
  end; repeat (rewrite <- ?app_assoc; simpl); rewrite ?app_nil_r; reflexivity.
Qed.

Lemma trimmed_hash c : trimmed c -> trimmed ([HASH; SP] ++ c).
Proof.
  intros [_ (t & x & -> & H)]. split.
  - exists HASH, ([SP] ++ t ++ [x]); auto.
  - exists ([HASH; SP] ++ t), x; split; auto.
Qed.

Lemma trimmed_suffix a b : trimmed a -> (b = [] \/ trimmed b \/ exists b', b = [TAB] ++ b' /\ trimmed b') -> trimmed (a ++ b).
Proof.
  intros Ha [->|[Hb|(b' & -> & Hb)]].
  - rewrite app_nil_r; auto.
  - apply (trimmed_app a [] b); auto.
  - apply (trimmed_app a [TAB] b'); auto.
Qed.

Lemma member_body_trimmed r m : legal_member r m -> trimmed (member_body m).
Proof.
  intros ([[Tn _] _] & [Hu _] & Hc & _). unfold member_body.
  rewrite app_assoc. apply trimmed_suffix; [apply trimmed_suffix; auto|].
  - destruct (m_uri m) as [u|]; auto. right; right. exists u. destruct Hu as [[T _] _]. auto.
  - destruct (m_comment m) as [c|]; auto. right; right. exists ([HASH; SP] ++ c).
    split; auto. apply trimmed_hash. destruct Hc as [[T _] _]; auto.
Qed.

Lemma member_body_no_brk r m : legal_member r m -> no_brk r (member_body m).
Proof.
  intros ([_ Bn] & [Hu _] & Hc & _). unfold member_body.
  assert (B : forall x, In x [TAB; HASH; SP] -> is_brk r x = false).
  { intros x [<-|[<-|[<-|[]]]]; destruct r; reflexivity. }
  rewrite !no_brk_app. repeat split; auto.
  - destruct (m_uri m) as [u|]; [|constructor]. constructor; [apply B; simpl; auto|]. apply Hu.
  - destruct (m_comment m) as [c|]; [|constructor].
    repeat (constructor; [apply B; simpl; auto|]). apply Hc.
Qed.

Lemma strip_space_trimmed c : trimmed c -> strip ([SP] ++ c) = c.
Proof. intros H. rewrite strip_ws_app by (repeat constructor). apply strip_trimmed; auto. Qed.

Lemma parse_member_body r m :
  legal_member r m -> parse_member_03 (member_body m ++ [LF]) = Ok m.
Proof.
  intros L. pose proof (member_body_trimmed r m L) as T.
  unfold parse_member_03. rewrite strip_line by auto. clear T.
  destruct m as [n u c i]. unfold legal_member, member_body in *; simpl in *.
  destruct L as ([[Tn Nn] _] & [Hu Su] & Hc & ->).
  pose proof (trimmed_nonempty _ Tn) as NE.
  assert (NH : forall c, ~ In TAB c -> ~ In TAB (HASH :: SP :: c)).
  { simpl. intros x Hx [H|[H|H]]; try discriminate; auto. }
  destruct u as [u|], c as [c|]; simpl in *; rewrite ?app_nil_r.
  - destruct Hu as [[Tu Nu] _], Hc as [[Tc Nc] _].
    rewrite split_on_app by auto. rewrite split_on_app by auto.
    rewrite split_on_none by (apply NH; auto).
    destruct n; [congruence|]. cbn [unsnoc startswith]. rewrite N.eqb_refl. simpl.
    change (SP :: c) with ([SP] ++ c).
    rewrite strip_space_trimmed by auto. reflexivity.
  - destruct Hu as [[Tu Nu] _].
    rewrite split_on_app by auto. rewrite split_on_none by auto.
    destruct n; [congruence|]. cbn [unsnoc]. rewrite Su by auto. reflexivity.
  - destruct Hc as [[Tc Nc] _].
    rewrite split_on_app by auto. rewrite split_on_none by (apply NH; auto).
    destruct n; [congruence|]. cbn [unsnoc startswith]. rewrite N.eqb_refl. simpl.
    change (SP :: c) with ([SP] ++ c).
    rewrite strip_space_trimmed by auto. reflexivity.
  - rewrite split_on_none by auto. destruct n; [congruence|]. reflexivity.
Qed.

Lemma members_text_body r l :
  Forall (legal_member r) l -> members_text l = Ok (flat_map (fun m => member_body m ++ [LF]) l).
Proof.
  intros F. unfold members_text. rewrite (mapM_ok_map _ (fun m => member_body m ++ [LF])).
  - simpl. rewrite flat_map_concat_map. reflexivity.
  - intros m H. rewrite Forall_forall in F. eapply format_member_body; eauto.
Qed.

Lemma members_roundtrip r l :
  Forall (legal_member r) l ->
  exists t, members_text l = Ok t /\ parse_file r parse_member_03 t = Ok l.
Proof.
  intros F. eexists; split; [apply members_text_body with (r := r); auto|].
  rewrite (parse_file_lines r parse_member_03 member_body (fun m => m)).
  - rewrite map_id; reflexivity.
  - rewrite Forall_forall in F. intros m H. apply F in H. split; [|split].
    + eapply member_body_trimmed; eauto.
    + eapply member_body_no_brk; eauto.
    + eapply parse_member_body; eauto.
Qed.

(** Padding around the TAB stays part of the fields. *)
Lemma lookup_padding_kept p b k j :
  legal_name p -> legal_name b ->
  parse_lookup_03 (p ++ repeat SP k ++ [TAB] ++ repeat SP j ++ b ++ [LF])
  = Ok (p ++ repeat SP k, repeat SP j ++ b).
Proof.
  intros [Tp Np] [Tb Nb]. unfold parse_lookup_03.
  replace (p ++ repeat SP k ++ [TAB] ++ repeat SP j ++ b ++ [LF])
    with ((p ++ (repeat SP k ++ [TAB] ++ repeat SP j) ++ b) ++ [LF])
    by (rewrite <- !app_assoc; reflexivity).
  rewrite strip_line by (apply trimmed_app; auto).
  rewrite <- !app_assoc, app_assoc. simpl.
  assert (R : forall n, ~ In TAB (repeat SP n)).
  { intros n H. apply repeat_spec in H. discriminate. }
  rewrite split_on_app by (rewrite in_app_iff; intros [H|H]; [auto|eapply R; eauto]).
  rewrite split_on_none by (rewrite in_app_iff; intros [H|H]; [eapply R; eauto|auto]).
  reflexivity.
Qed.

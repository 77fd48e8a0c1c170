(** * Lemmas on restoring: fetch.txt *)

Require Import String NArith PeanoNat Bool List Lia.
From Verif Require Import PyBase PyFacts Tsv TsvProofs Fs FsFacts HeadBag BagIt BagItProofs Split SplitProofs2 SplitApply SplitApplyProofs SplitApplyProofs2 SplitApplyProofs8 Restore RestoreProofs RestoreProofs2 RestoreProofs3.
Import ListNotations.
Open Scope N_scope.

Definition word (w : pystr) : Prop := w <> [] /\ Forall (fun c => is_ws c = false) w.
Definition blanks (w : pystr) : Prop := w <> [] /\ Forall (fun c => c = SP \/ c = TAB) w.

(** A line of fetch.txt: URL, LENGTH and FILENAME (without blanks). *)
Definition names_path (line p : pystr) : Prop :=
  exists url s1 len s2, line = url ++ s1 ++ len ++ s2 ++ p ++ [LF] /\
    word url /\ blanks s1 /\ word len /\ blanks s2 /\ word p.

Lemma word_trimmed w : word w -> trimmed w.
Proof. intros [A B]. apply trimmed_no_ws; auto. Qed.

Lemma blanks_ws w : blanks w -> w <> [] /\ Forall (fun c => is_ws c = true) w.
Proof. intros [A B]. split; auto. eapply Forall_impl; [|exact B]. intros c [-> | ->]; reflexivity. Qed.

Lemma rsplit_word x s w : trimmed x -> s <> [] -> Forall (fun c => is_ws c = true) s -> word w ->
  rsplit_ws1 (x ++ s ++ w) = [x; w].
Proof.
  intros [_ (t & c & Ex & Wc)] Sn Sw [Wn Ww]. unfold rsplit_ws1. rewrite !rev_app_distr, <- app_assoc.
  assert (R : split_ws1 (rev w ++ rev s ++ rev x) = [rev w; rev x]); [|rewrite R; cbn [map rev app]; rewrite !rev_involutive; reflexivity].
  assert (Ww' : Forall (fun c => is_ws c = false) (rev w)) by (apply Forall_rev; auto).
  assert (Sw' : Forall (fun c => is_ws c = true) (rev s)) by (apply Forall_rev; auto).
  destruct (rev w) as [|w0 w1] eqn:Ew; [exfalso; apply Wn; rewrite <- (rev_involutive w), Ew; reflexivity|].
  destruct (rev s) as [|s0 s1] eqn:Es; [exfalso; apply Sn; rewrite <- (rev_involutive s), Es; reflexivity|].
  assert (Exr : rev x = c :: rev t) by (rewrite Ex, rev_app_distr; reflexivity). rewrite Exr.
  unfold split_ws1. inversion Ww' as [|? ? W0 W1]; subst. inversion Sw' as [|? ? S0 S1]; subst.
  cbn [app]. rewrite lstrip_if_head by auto.
  change (w0 :: w1 ++ s0 :: s1 ++ c :: rev t) with ((w0 :: w1) ++ s0 :: (s1 ++ c :: rev t)).
  rewrite span_not_app by auto. change (s0 :: s1 ++ c :: rev t) with ((s0 :: s1) ++ c :: rev t).
  rewrite lstrip_if_app by auto. rewrite lstrip_if_head by auto. reflexivity.
Qed.

Lemma trimmed_three a s b : trimmed a -> trimmed b -> trimmed (a ++ s ++ b).
Proof.
  intros [(c & t & -> & Wc) _] [_ (t' & c' & -> & Wc')]. split.
  - exists c, (t ++ s ++ t' ++ [c']). auto.
  - exists ((c :: t) ++ s ++ t'), c'. split; auto. rewrite <- !app_assoc. reflexivity.
Qed.

Lemma names_fetch line p d : names_path line p -> fetch_line d line = od_set p line d.
Proof.
  intros (url & s1 & len & s2 & E & Wu & B1 & Wl & B2 & Wp). unfold fetch_line.
  assert (E' : line = ((url ++ s1 ++ len) ++ s2 ++ p) ++ [LF]) by (rewrite E, <- !app_assoc; reflexivity).
  assert (T1 : trimmed (url ++ s1 ++ len)) by (apply trimmed_three; apply word_trimmed; auto).
  apply blanks_ws in B2. destruct B2 as [B3 B4].
  rewrite E' at 1. rewrite strip_line by (apply trimmed_three; auto; apply word_trimmed; auto).
  rewrite rsplit_word by auto. destruct Wp as [Wp _]. destruct p; [congruence|reflexivity].
Qed.

Lemma names_fun line p q : names_path line p -> names_path line q -> p = q.
Proof.
  intros A B. pose proof (names_fetch line p [] A) as X. rewrite (names_fetch line q [] B) in X. cbn [od_set] in X. congruence.
Qed.

Lemma names_line line p : names_path line p -> exists b, line = b ++ [LF] /\ no_brk IoText b.
Proof.
  intros (url & s1 & len & s2 & -> & [_ Wu] & [_ B1] & [_ Wl] & [_ B2] & [_ Wp]).
  exists (url ++ s1 ++ len ++ s2 ++ p). split; [rewrite <- !app_assoc; reflexivity|].
  assert (X : forall w, Forall (fun c => is_ws c = false) w -> no_brk IoText w).
  { intros w F. eapply Forall_impl; [|exact F]. intros c Hc. destruct (is_brk IoText c) eqn:E; auto. apply is_brk_ws in E. congruence. }
  assert (Y : forall w, Forall (fun c => c = SP \/ c = TAB) w -> no_brk IoText w).
  { intros w F. eapply Forall_impl; [|exact F]. intros c [-> | ->]; reflexivity. }
  unfold no_brk in *. rewrite !Forall_app. auto 10.
Qed.

Lemma pylines_lines ls : Forall (fun l => exists b, l = b ++ [LF] /\ no_brk IoText b) ls -> pylines IoText (concat ls) = ls.
Proof.
  induction 1 as [|l ls (b & -> & Hb) _ IH]; [reflexivity|]. cbn [concat]. rewrite <- app_assoc. cbn [app].
  rewrite pylines_app by exact Hb. rewrite IH. reflexivity.
Qed.

(** ** Merging *)

Definition fetch_lines (t : tree) : list pystr :=
  match read F_fetch t with Some c => pylines IoText c | None => [] end.

Lemma fetch_of_bags v dest names : forall bs d d',
  Forall2 (fun n b => e_find v n = Some b) names bs -> Forall (fun b => rb_loc b <> e_dest v) bs ->
  foldM (fetch_of v dest) names d = Ok d' ->
  d' = fold_left fetch_line (flat_map (fun b => fetch_lines (rb_tree b)) bs) d.
Proof.
  induction names as [|n names IH]; intros bs d d' F L H; inversion F as [|? b ? bs' Hn Hs]; subst; cbn [foldM] in H.
  - inversion H; subst. reflexivity.
  - apply bind_ok in H. destruct H as (d1 & H1 & H2). inversion L as [|? ? Lb Ls]; subst.
    cbn [flat_map]. rewrite fold_left_app. rewrite (IH bs' d1 d' Hs Ls H2). f_equal.
    unfold fetch_of in H1. rewrite Hn in H1. destruct (streq_reflect (rb_loc b) (e_dest v)); [congruence|].
    apply bind_ok in H1. destruct H1 as (_ & _ & H1). unfold fetch_lines, F_fetch in *. cbn [decode] in H1.
    destruct (read (U "fetch.txt") (rb_tree b)); inversion H1; subst; reflexivity.
Qed.

(** [line] is the last line in [ls] for [p]. *)
Definition last_for (ls : list pystr) (p line : pystr) : Prop :=
  exists l1 l2, ls = l1 ++ line :: l2 /\ names_path line p /\ forall l, In l l2 -> ~ names_path l p.

Lemma last_for_snoc ls l p line : last_for (ls ++ [l]) p line <->
  (names_path l p /\ line = l) \/ (~ names_path l p /\ last_for ls p line).
Proof.
  split.
  - intros (l1 & l2 & E & Hn & Ha). destruct l2 as [|x l2] using rev_ind.
    + apply app_inj_tail in E. destruct E as [-> ->]. auto.
    + clear IHl2. rewrite app_comm_cons, app_assoc in E. apply app_inj_tail in E. destruct E as [-> ->].
      right. split; [apply Ha; apply in_or_app; right; left; auto|]. exists l1, l2. repeat split; auto.
      intros l I. apply Ha. apply in_or_app. auto.
  - intros [[Hn ->]|[Hn (l1 & l2 & -> & Hl & Ha)]].
    + exists ls, []. repeat split; auto.
    + exists l1, (l2 ++ [l]). split; [rewrite <- app_assoc; reflexivity|]. split; auto.
      intros x I. apply in_app_iff in I. destruct I as [I|[<-|[]]]; auto.
Qed.

Lemma last_for_app a b p line : last_for (a ++ b) p line <->
  last_for b p line \/ ((forall l, In l b -> ~ names_path l p) /\ last_for a p line).
Proof.
  revert line. induction b as [|l b IH] using rev_ind; intros line.
  - rewrite app_nil_r. split; [right; split; [intros l []|auto]|]. intros [(l1 & l2 & E & _)|[_ H]]; auto. destruct l1; discriminate.
  - rewrite app_assoc, !last_for_snoc, IH. split.
    + intros [H|[H [H2|[H2 H3]]]]; auto. right. split; auto. intros x I. apply in_app_iff in I. destruct I as [I|[<-|[]]]; auto.
    + intros [[H|[H H2]]|[H H2]]; auto. right. split; [apply H; apply in_or_app; right; left; auto|].
      right. split; auto. intros x I. apply H. apply in_or_app. auto.
Qed.

Lemma merged ls : (forall l, In l ls -> exists p, names_path l p) ->
  NoDup (od_keys (fold_left fetch_line ls [])) /\
  forall p line, od_get p (fold_left fetch_line ls []) = Some line <-> last_for ls p line.
Proof.
  induction ls as [|l ls IH] using rev_ind; intros P.
  - split; [constructor|]. intros p line. cbn. split; [discriminate|]. intros (l1 & l2 & E & _). destruct l1; discriminate.
  - destruct IH as [ND G]. { intros x I. apply P. apply in_or_app. auto. }
    rewrite fold_left_app. cbn [fold_left]. destruct (P l) as [q Hq]; [apply in_or_app; right; left; auto|].
    rewrite (names_fetch l q _ Hq). split; [apply od_set_NoDup; auto|]. intros p line.
    rewrite od_get_set, last_for_snoc. destruct (streq_reflect p q) as [->|D].
    + split; [intros E; inversion E; subst; auto|]. intros [[_ ->]|[X _]]; auto. contradiction.
    + rewrite G. split; [|intros [[X _]|[_ X]]; auto; exfalso; apply D; eapply names_fun; eauto].
      intros X. right. split; auto. intros Y. apply D. eapply names_fun; eauto.
Qed.

Lemma map_snd_get (d : dict pystr) line : NoDup (od_keys d) -> (In line (map snd d) <-> exists p, od_get p d = Some line).
Proof.
  intros ND. rewrite in_map_iff. split.
  - intros ([p x] & E & I). cbn [snd] in E. subst. exists p. apply od_in_get; auto.
  - intros (p & E). exists (p, line). split; auto. clear ND. induction d as [|[k x] d IH]; [discriminate|]. cbn [od_get] in E.
    destruct (streq_reflect p k) as [Epk|]; [inversion E; subst; left; reflexivity|right; auto].
Qed.

(** No path has two lines. *)
Definition one_each (ls : list pystr) : Prop :=
  forall a l1 b l2 c p, ls = a ++ l1 :: b ++ l2 :: c -> names_path l1 p -> ~ names_path l2 p.

Lemma one_each_snoc ls l : one_each ls -> (forall p x, In x ls -> names_path x p -> ~ names_path l p) -> one_each (ls ++ [l]).
Proof.
  intros H N a l1 b l2 c p E H1. destruct c as [|x c] using rev_ind.
  - assert (E' : ls ++ [l] = (a ++ l1 :: b) ++ [l2]) by (rewrite E, <- app_assoc; reflexivity).
    apply app_inj_tail in E'. destruct E' as [-> ->]. apply (N p l1); auto. apply in_or_app. right; left; auto.
  - clear IHc. assert (E' : ls ++ [l] = (a ++ l1 :: b ++ l2 :: c) ++ [x]).
    { rewrite E. rewrite <- !app_assoc. cbn [app]. rewrite <- !app_assoc. reflexivity. }
    apply app_inj_tail in E'. destruct E' as [E' _]. exact (H a l1 b l2 c p E' H1).
Qed.

Lemma one_each_dict (d : dict pystr) : NoDup (od_keys d) -> (forall p line, In (p, line) d -> names_path line p) -> one_each (map snd d).
Proof.
  induction d as [|[k x] d IH] using rev_ind; intros ND H.
  - intros a l1 b l2 c p E. destruct a; discriminate.
  - rewrite map_app. cbn [map snd]. unfold od_keys in *. rewrite map_app in ND. cbn [map fst] in ND.
    apply one_each_snoc.
    + apply IH; [apply NoDup_remove_1 in ND; rewrite app_nil_r in ND; auto|]. intros p line I. apply H. apply in_or_app. auto.
    + intros p y I Hy Hx. apply in_map_iff in I. destruct I as ([k' y'] & E & I). cbn [snd] in E. subst y'.
      assert (k' = p) by (eapply names_fun; [|exact Hy]; apply H; apply in_or_app; auto).
      assert (k = p) by (eapply names_fun; [|exact Hx]; apply H; apply in_or_app; right; left; auto). subst k k'.
      apply NoDup_remove_2 in ND. apply ND. rewrite app_nil_r. apply in_map_iff. exists (p, y). auto.
Qed.

Lemma restore_fetch_lines v names bs dest dest' :
  Forall2 (fun n b => e_find v n = Some b) names bs -> Forall (fun b => rb_loc b <> e_dest v) bs ->
  (forall b l, In b bs -> In l (fetch_lines (rb_tree b)) -> exists p, names_path l p) ->
  restore_fetch v names dest = Ok dest' ->
  let ls := flat_map (fun b => fetch_lines (rb_tree b)) bs in
  (ls = [] -> dest' = dest) /\
  (ls <> [] -> (forall line, In line (fetch_lines dest') <-> exists p, last_for ls p line) /\ one_each (fetch_lines dest')).
Proof.
  intros F L P H ls. unfold restore_fetch in H. apply bind_ok in H. destruct H as (d & Hd & H).
  apply (fetch_of_bags v dest names bs [] d F L) in Hd. fold ls in Hd.
  assert (Pl : forall l, In l ls -> exists p, names_path l p).
  { intros l I. apply in_flat_map in I. destruct I as (b & Ib & Il). eauto. }
  destruct (merged ls Pl) as [ND G]. rewrite <- Hd in *. split.
  - intros ->. cbn in Hd. subst d. inversion H; auto.
  - intros Ln. assert (Dn : d <> []).
    { intros ->. destruct ls as [|l ls'] using rev_ind; [congruence|]. destruct (Pl l) as [p Hp]; [apply in_or_app; right; left; auto|].
      assert (X : od_get p ([] : dict pystr) = Some l) by (apply G; apply last_for_snoc; auto). discriminate. }
    assert (W : write_file F_fetch (flat_map snd d) dest = Ok dest') by (destruct d; [congruence|exact H]).
    apply write_file_ok in W.
    assert (Lp : forall p line, In (p, line) d -> names_path line p).
    { intros p line I. apply od_in_get in I; auto. apply G in I. destruct I as (_ & _ & _ & I & _). exact I. }
    assert (E : fetch_lines dest' = map snd d).
    { unfold fetch_lines, read. rewrite W, od_get_set_same. rewrite flat_map_concat_map. apply pylines_lines.
      apply Forall_forall. intros l I. apply in_map_iff in I. destruct I as ([p x] & Ex & I). cbn [snd] in Ex. subst x.
      apply names_line with p. auto. }
    rewrite E. split; [|apply one_each_dict; auto]. intros line. rewrite map_snd_get by auto.
    split; intros (p & X); exists p; apply G; auto.
Qed.

(** * Lemmas on applying a split plan: bag-info.txt *)

Require Import String NArith PeanoNat Bool List Lia Permutation.
From Verif Require Import PyBase PyFacts Tsv TsvProofs Fs FsFacts HeadBag HeadBagProofs HeadBagProofs3 BagIt BagItProofs BagItProofs2 Split SplitApply SplitApplyProofs SplitApplyProofs2 SplitApplyProofs3.
Import ListNotations.
Open Scope N_scope.

(** ** Tags that were loaded from a file *)

(** A value as the reader gives it: no blanks at its ends, and folded. *)
Definition value_ok (r : reader) (v : pystr) : Prop := (v = [] \/ trimmed v) /\ folded r v.

Lemma flush_trim cur : Forall (fun kv => snd kv = [] \/ trimmed (snd kv)) (flush_tag cur).
Proof.
  destruct cur as [[k v]|]; [|constructor]. cbn. destruct k; [constructor|]. apply Forall_cons; [|constructor]. cbn [snd]. apply strip_is_trimmed.
Qed.

Lemma parse_trim ls : forall cur kvs, parse_tag_lines cur ls = Ok kvs ->
  Forall (fun kv => snd kv = [] \/ trimmed (snd kv)) kvs.
Proof.
  induction ls as [|l ls IH]; intros cur kvs H; cbn [parse_tag_lines] in H.
  - inversion H; subst. apply flush_trim.
  - destruct (blank l); [eauto|]. destruct (if starts_ws l then cur else None) as [[k v]|]; [eauto|].
    destruct (split1 COLON (strip l)) as [[k v]|]; [|discriminate]. apply bind_ok in H.
    destruct H as (rest & H1 & H2). inversion H2; subst. apply Forall_app. split; [apply flush_trim|eauto].
Qed.

Lemma parse_tags_value_ok r text kvs : parse_tags r text = Ok kvs ->
  Forall (fun kv => tag_name_ok r (fst kv) /\ value_ok r (snd kv)) kvs.
Proof.
  intros H. pose proof (parse_tags_read_ok r text kvs H) as A. pose proof (parse_trim _ _ _ H) as B.
  rewrite Forall_forall in *. intros kv I. destruct (A kv I). split; auto. split; auto.
Qed.

Definition info_ok (r : reader) (i : infod) : Prop :=
  NoDup (od_keys i) /\
  forall k v, In (k, v) i -> tag_name_ok r k /\ vals_of v <> [] /\ Forall (value_ok r) (vals_of v).

Lemma add_tag_ok r d kv : info_ok r d -> tag_name_ok r (fst kv) -> value_ok r (snd kv) -> info_ok r (add_tag d kv).
Proof.
  intros [N D] Hk Hv. destruct kv as [k v]. cbn [fst snd] in *. unfold add_tag. cbn [fst snd].
  assert (G : forall x, vals_of x <> [] -> Forall (value_ok r) (vals_of x) -> info_ok r (od_set k x d)).
  { intros x Hx Fx. split; [apply od_set_NoDup; auto|]. intros k' v' I.
    assert (O : Forall (fun kv => tag_name_ok r (fst kv) /\ vals_of (snd kv) <> [] /\ Forall (value_ok r) (vals_of (snd kv)))
                  (od_set k x d)).
    { apply od_set_Forall.
      - intros k1 E1. apply streq_eq in E1. subst. cbn. auto.
      - apply Forall_forall. intros [a b] Ia. cbn. auto. }
    rewrite Forall_forall in O. exact (O _ I). }
  destruct (od_get k d) as [[s|l]|] eqn:E.
  - apply od_get_in in E. apply D in E. destruct E as (_ & _ & E). inversion E; subst.
    apply G; cbn; [discriminate|]. apply Forall_cons; [|apply Forall_cons]; auto.
  - apply od_get_in in E. apply D in E. destruct E as (_ & Ne & E). apply G; cbn in *.
    + destruct l; discriminate.
    + apply Forall_app. split; auto.
  - apply G; cbn; [discriminate|]. apply Forall_cons; auto.
Qed.

Lemma load_tags_ok r text i : load_tags r text = Ok i -> info_ok r i.
Proof.
  unfold load_tags. intros H. apply bind_ok in H. destruct H as (kvs & H1 & H2). inversion H2; subst. clear H2.
  apply parse_tags_value_ok in H1.
  assert (G : forall kvs d, info_ok r d -> Forall (fun kv => tag_name_ok r (fst kv) /\ value_ok r (snd kv)) kvs ->
              info_ok r (fold_left add_tag kvs d)).
  { clear. induction kvs as [|kv kvs IH]; intros d D F; [exact D|]. inversion F as [|? ? [A B] F']; subst. cbn [fold_left].
    apply IH; auto. apply add_tag_ok; auto. }
  apply G; auto. split; [constructor|intros k v []].
Qed.

(** ** What is written *)

Lemma no_brk_b r s : forallb (fun c => negb (is_brk r c)) s = true -> no_brk r s.
Proof.
  intros H. apply Forall_forall. intros c I. rewrite forallb_forall in H. apply H in I.
  apply negb_true_iff in I. exact I.
Qed.

Lemma pylines_tail r v : (exists t c, v = t ++ [c] /\ is_brk r c = false) ->
  exists init l, l <> [] /\ forall y, no_brk r y -> pylines r (v ++ y ++ [LF]) = init ++ [l ++ y ++ [LF]].
Proof.
  remember (length v) as n. assert (L : (length v <= n)%nat) by lia. clear Heqn. revert v L.
  induction n as [|n IH]; intros v L (t & c & -> & B).
  - rewrite app_length in L. cbn in L. lia.
  - destruct t as [|x t].
    + exists [], [c]. split; [discriminate|]. intros y Hy. cbn [app]. change (c :: y ++ [LF]) with ((c :: y) ++ [LF]).
      apply pylines_plain. constructor; auto.
    + cbn [app] in L. cbn in L.
      assert (Lt : (length (t ++ [c]) <= n)%nat) by lia.
      destruct (IH (t ++ [c]) Lt) as (init & l & Hl & H); [eauto|].
      destruct (is_brk r x) eqn:Bx.
      * destruct t as [|d t'].
        -- exists ([x] :: init), l. split; auto. intros y Hy. cbn [app pylines]. rewrite Bx.
           assert (Ec : (x =? 13) && (c =? 10) = false).
           { destruct (N.eqb_spec c 10) as [->|]; [|apply andb_false_r]. destruct r; discriminate. }
           rewrite Ec. specialize (H y Hy). cbn [app pylines] in H. rewrite H. reflexivity.
        -- destruct ((x =? 13) && (d =? 10)) eqn:E.
           ++ destruct (IH (t' ++ [c])) as (init' & l' & Hl' & H'); [cbn in L; lia|eauto|].
              exists ([x; d] :: init'), l'. split; auto. intros y Hy. cbn [app pylines]. rewrite Bx, E.
              rewrite (H' y Hy). reflexivity.
           ++ exists ([x] :: init), l. split; auto. intros y Hy. cbn [app]. cbn [pylines]. rewrite Bx, E.
              specialize (H y Hy). cbn [app pylines] in H. rewrite H. reflexivity.
      * destruct init as [|i0 init].
        -- exists [], (x :: l). split; [discriminate|]. intros y Hy. cbn [app pylines]. rewrite Bx. rewrite (H y Hy). reflexivity.
        -- exists ((x :: i0) :: init), l. split; auto. intros y Hy. cbn [app pylines]. rewrite Bx. rewrite (H y Hy). reflexivity.
Qed.

Lemma ws_not_brk r c : is_ws c = false -> is_brk r c = false.
Proof. intros H. destruct (is_brk r c) eqn:E; auto. apply is_brk_ws in E. congruence. Qed.

Lemma folded_app r v x : value_ok r v -> no_brk r x -> folded r (v ++ x).
Proof.
  intros [[->|T] F] Hx; [apply plain_is_folded; exact Hx|].
  destruct T as [_ (t & c & -> & W)].
  destruct (pylines_tail r (t ++ [c])) as (init & l & Hl & H).
  { exists t, c. split; auto. apply ws_not_brk; auto. }
  unfold folded in *. rewrite <- app_assoc. rewrite (H x Hx). pose proof (H [] (Forall_nil _)) as H0.
  cbn [app] in H0. rewrite H0 in F. destruct init as [|i0 init]; [constructor|].
  cbn [app] in *. apply Forall_app in F. destruct F as [F1 F2]. apply Forall_app. split; [exact F1|].
  inversion F2 as [|? ? [S B] _]; subst. constructor; [|constructor]. destruct l as [|c0 l]; [congruence|].
  cbn [app starts_ws] in *. split; [exact S|]. change (c0 :: l ++ x ++ [LF]) with ((c0 :: l) ++ x ++ [LF]).
  change (c0 :: l ++ [LF]) with ((c0 :: l) ++ [LF]) in B. rewrite !blank_app in *.
  assert (Bl : blank [LF] = true) by reflexivity. rewrite Bl, andb_true_r in B. rewrite B. reflexivity.
Qed.

Lemma tag_name_lit r k : trimmed k -> forallb (fun c => negb (c =? COLON)) k = true ->
  forallb (fun c => negb (is_brk r c)) k = true -> tag_name_ok r k.
Proof.
  intros T C B. split; [exact T|]. split; [|apply no_brk_b; exact B]. intros I.
  rewrite forallb_forall in C. apply C in I. rewrite N.eqb_refl in I. discriminate.
Qed.

Lemma source_name r k : tag_name_ok r k -> tag_name_ok r (P_SOURCE ++ k).
Proof.
  intros (T & C & B). split; [|split].
  - apply (trimmed_app P_SOURCE [] k); auto. apply trimmedb_ok. reflexivity.
  - rewrite in_app_iff. intros [I|I]; auto. cbn in I. intuition discriminate.
  - apply no_brk_app. split; auto. apply no_brk_b. destruct r; reflexivity.
Qed.

Definition write_ok (r : reader) (kv : pystr * pystr) : Prop := tag_name_ok r (fst kv) /\ folded r (snd kv).

Lemma items_ok r k vs : tag_name_ok r k -> Forall (folded r) vs -> Forall (write_ok r) (items k vs).
Proof.
  intros Hk F. unfold items. apply Forall_forall. intros kv I. apply in_map_iff in I. destruct I as (v & <- & I).
  rewrite Forall_forall in F. split; cbn; auto.
Qed.

Lemma value_folded r vs : Forall (value_ok r) vs -> Forall (folded r) vs.
Proof. apply Forall_impl. intros v [_ H]. exact H. Qed.

Lemma dec_no_brk r n : no_brk r (dec n).
Proof. eapply Forall_impl; [|apply dec_digits]. intros c H. apply ws_not_brk, is_digit_not_ws. exact H. Qed.

Lemma oxum_no_brk r s m : no_brk r (oxum_text s m).
Proof.
  unfold oxum_text. apply no_brk_app. split; [apply dec_no_brk|]. apply no_brk_app. split; [|apply dec_no_brk].
  repeat constructor. destruct r; reflexivity.
Qed.

Lemma desc_folded r : folded r SPLIT_DESC.
Proof. unfold folded. destruct r; vm_compute; repeat constructor. Qed.

Lemma tag_items_ok r b np ox kv : tag_name_ok r (fst kv) -> Forall (value_ok r) (vals_of (snd kv)) ->
  no_brk r b -> no_brk r ox -> Forall (write_ok r) (tag_items b np ox kv).
Proof.
  intros Hk Hv Hb Ho. destruct kv as [k v]. cbn [fst snd] in *. unfold tag_items. cbn [fst snd].
  assert (Fb : folded r b) by (apply plain_is_folded; auto).
  assert (Fo : folded r ox) by (apply plain_is_folded; auto).
  pose proof (value_folded r _ Hv) as Fv. pose proof (source_name r k Hk) as Hs.
  destruct (startswith k (U "Multibag-")); [constructor|]. destruct (str_in k np); [constructor|].
  destruct (streq k T_ISI); [apply Forall_app; split; apply items_ok; auto|].
  destruct (streq k T_ISD).
  { apply Forall_app; split; apply items_ok; auto. constructor; [apply desc_folded|constructor]. }
  destruct (streq k T_EXT).
  { apply Forall_app; split; [apply items_ok; auto|]. apply Forall_app; split.
    - apply items_ok; auto. destruct (vals_of v) as [|v0 vs]; [constructor|]. constructor; [|constructor].
      inversion Hv; subst. apply folded_app; auto. apply no_brk_app. split; auto. apply no_brk_b. destruct r; reflexivity.
    - apply items_ok; auto. apply tag_name_lit; [apply trimmedb_ok; reflexivity|reflexivity|destruct r; reflexivity]. }
  destruct (streq k T_BagSize); [apply items_ok; auto|].
  destruct (streq k T_OXUM); apply items_ok; auto.
Qed.

(** The head's own tags can be written. *)
Definition opts_ok (r : reader) (o : apply_opts) : Prop := Forall (fun kv => folded r (snd kv)) (head_items o).

Lemma info_items_ok r s o b m h : info_ok r (so_info s) -> no_brk r b -> opts_ok r o ->
  Forall (write_ok r) (info_items s o b m h).
Proof.
  intros [_ Hi] Hb Ho. unfold info_items.
  apply Forall_app; split.
  { apply items_ok; [apply tag_name_lit; [apply trimmedb_ok; reflexivity|reflexivity|destruct r; reflexivity]|].
    constructor; [|constructor]. apply plain_is_folded, no_brk_b. destruct r; reflexivity. }
  apply Forall_app; split.
  { apply Forall_forall. intros kv I. apply in_flat_map in I. destruct I as ([k v] & I & J).
    destruct (Hi k v I) as (A & _ & B).
    pose proof (tag_items_ok r b (ao_nopass o) (oxum_text s m) (k, v) A B Hb (oxum_no_brk r s m)) as F.
    rewrite Forall_forall in F. auto. }
  apply Forall_app; split.
  { apply items_ok; [apply tag_name_lit; [apply trimmedb_ok; reflexivity|reflexivity|destruct r; reflexivity]|].
    constructor; [|constructor]. apply plain_is_folded, no_brk_b. destruct r; reflexivity. }
  destruct h; [|constructor]. apply Forall_forall. intros kv I. unfold opts_ok in Ho. rewrite Forall_forall in Ho.
  split; [|apply Ho; auto]. unfold head_items in I. apply in_app_iff in I.
  destruct I as [I|I]; unfold items in I; apply in_map_iff in I; destruct I as (v & <- & _); cbn [fst];
    (apply tag_name_lit; [apply trimmedb_ok; reflexivity|reflexivity|destruct r; reflexivity]).
Qed.

(** Reading it back. *)
Lemma info_read_back r s o b m h : info_ok r (so_info s) -> no_brk r b -> opts_ok r o ->
  exists d, load_tags r (tags_text (info_items s o b m h)) = Ok d /\
    forall k, tag_values d k = map (unfold_value r) (values_of k (info_items s o b m h)).
Proof.
  intros Hi Hb Ho. pose proof (info_items_ok r s o b m h Hi Hb Ho) as F.
  assert (D : decode r (tags_text (info_items s o b m h)) = tags_text (info_items s o b m h)).
  { destruct r; [reflexivity|]. unfold info_items. reflexivity. }
  unfold load_tags. rewrite D. rewrite parse_tags_folded by exact F. cbn [bind]. eexists. split; [reflexivity|].
  intros k. rewrite fold_add_tag_values. cbn [tag_values od_get]. cbn [app]. generalize (info_items s o b m h). clear.
  unfold values_of. induction l as [|[k' v] l IH]; [reflexivity|]. cbn [map filter fst snd].
  destruct (streq k' k); cbn [map snd]; rewrite IH; reflexivity.
Qed.

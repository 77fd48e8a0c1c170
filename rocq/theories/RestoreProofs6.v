(** * Lemmas on restoring: bag-info.txt *)

Require Import String NArith PeanoNat Bool List Lia Permutation Sorted.
From Verif Require Import PyBase PyFacts Tsv TsvProofs Fs FsFacts HeadBag HeadBagProofs HeadBagProofs3 BagIt BagItProofs BagItProofs2 Split SplitProofs2 SplitApply SplitApplyProofs SplitApplyProofs2 SplitApplyProofs5 SplitApplyProofs8 Restore RestoreProofs RestoreProofs2 RestoreProofs3.
Import ListNotations.
Open Scope N_scope.

(** ** Values without line breaks *)

Definition goodl (l : pystr) : Prop := starts_ws l = true /\ blank l = false.

Lemma one_line_cons c s : one_line (c :: s) = if (c =? LF) || (c =? CR) then one_line s else c :: one_line s.
Proof. unfold one_line. cbn [filter]. destruct ((c =? LF) || (c =? CR)); reflexivity. Qed.

Lemma brk_blank r c : is_brk r c = true -> blank [c] = true.
Proof. intros H. apply is_brk_ws in H. cbn. rewrite H. reflexivity. Qed.

Lemma one_line_lines r s : exists l ls l' ls',
  pylines r (s ++ [LF]) = l :: ls /\ pylines r (one_line s ++ [LF]) = l' :: ls' /\
  (Forall goodl ls -> Forall goodl ls' /\ (blank l = false -> blank l' = false) /\ (goodl l -> goodl l')).
Proof.
  remember (length s) as n. assert (L : (length s <= n)%nat) by lia. clear Heqn. revert s L.
  induction n as [|n IH]; intros s L.
  - destruct s; [|cbn in L; lia]. exists [LF], [], [LF], []. destruct r; cbn; (split; [reflexivity|split; [reflexivity|auto]]).
  - destruct s as [|c s]; [exists [LF], [], [LF], []; destruct r; cbn; (split; [reflexivity|split; [reflexivity|auto]])|].
    cbn [length] in L. destruct (IH s ltac:(lia)) as (l & ls & l' & ls' & E & E' & H). rewrite one_line_cons.
    destruct (is_brk r c) eqn:B.
    + assert (Bb : blank [c] = true) by (eapply brk_blank; eauto).
      destruct ((c =? LF) || (c =? CR)) eqn:K.
      * cbn [app]. cbn [pylines]. rewrite B.
        destruct (s ++ [LF]) as [|d t] eqn:Es; [destruct s; discriminate|].
        destruct ((c =? 13) && (d =? 10)) eqn:P.
        -- destruct s as [|d' s'].
           ++ cbn in Es. inversion Es; subst. exists [c; LF], [], [LF], [].
              split; [reflexivity|]. split; [destruct r; reflexivity|]. intros _. split; [constructor|].
              apply is_brk_ws in B. assert (X : blank [c; LF] = true) by (cbn; rewrite B; reflexivity).
              split; [congruence|]. intros [_ Y]. congruence.
           ++ cbn [app] in Es. inversion Es; subst. apply andb_true_iff in P. destruct P as [P1 P2].
              apply N.eqb_eq in P2. subst d. cbn [length] in L.
              destruct (IH s' ltac:(lia)) as (l2 & ls2 & l2' & ls2' & F & F' & H2).
              assert (E0 : one_line (10 :: s') = one_line s') by reflexivity.
              exists [c; 10], (l2 :: ls2), l2', ls2'. rewrite F. split; [reflexivity|]. rewrite E0. split; [exact F'|].
              intros G. inversion G as [|? ? G1 G2]; subst. destruct (H2 G2) as (A1 & A2 & A3). split; auto.
              apply is_brk_ws in B. assert (X : blank [c; 10] = true) by (cbn; rewrite B; reflexivity).
              split; [congruence|]. intros [_ Y]. congruence.
        -- rewrite E. exists [c], (l :: ls), l', ls'. split; [reflexivity|]. split; [exact E'|].
           intros G. inversion G as [|? ? G1 G2]; subst. destruct (H G2) as (A1 & A2 & A3). split; auto.
           split; [congruence|]. intros [_ Y]. congruence.
      * assert (P : forall d, (c =? 13) && (d =? 10) = false).
        { intros d. apply orb_false_iff in K. destruct K as [_ K]. change CR with 13 in K. rewrite K. reflexivity. }
        exists [c], (l :: ls), [c], (l' :: ls'). cbn [app]. cbn [pylines]. rewrite B.
        split; [|split].
        -- destruct (s ++ [LF]) as [|d t] eqn:Es; [destruct s; discriminate|]. rewrite P. rewrite E. reflexivity.
        -- destruct (one_line s ++ [LF]) as [|d t] eqn:Es; [destruct (one_line s); discriminate|]. rewrite P. rewrite E'. reflexivity.
        -- intros G. inversion G as [|? ? G1 G2]; subst. destruct (H G2) as (A1 & A2 & A3). split; [constructor; auto|]. auto.
    + assert (K : (c =? LF) || (c =? CR) = false).
      { destruct (c =? LF) eqn:X; [apply N.eqb_eq in X; subst; destruct r; discriminate|].
        destruct (c =? CR) eqn:Y; [apply N.eqb_eq in Y; subst; destruct r; discriminate|]. reflexivity. }
      rewrite K. exists (c :: l), ls, (c :: l'), ls'. cbn [app]. cbn [pylines]. rewrite B, E, E'.
      split; [reflexivity|]. split; [reflexivity|]. intros G. destruct (H G) as (A1 & A2 & A3). split; auto.
      assert (X : blank (c :: l) = false -> blank (c :: l') = false).
      { change (c :: l) with ([c] ++ l). change (c :: l') with ([c] ++ l'). rewrite !blank_app.
        destruct (blank [c]); cbn [andb]; auto. }
      split; auto. intros [Y1 Y2]. split; auto.
Qed.

Lemma folded_one_line r s : folded r s -> folded r (one_line s).
Proof.
  unfold folded. destruct (one_line_lines r s) as (l & ls & l' & ls' & -> & -> & H). intros F. apply H. exact F.
Qed.

Lemma one_line_iotext s : no_brk IoText (one_line s).
Proof.
  unfold one_line. apply Forall_forall. intros c I. apply filter_In in I. destruct I as [_ I].
  apply negb_true_iff in I. exact I.
Qed.

Lemma no_brk_any r s : no_brk Codecs s -> no_brk r s.
Proof.
  intros H. destruct r; [|exact H]. eapply Forall_impl; [|exact H]. intros c B. exact (is_brk_iotext Codecs c B).
Qed.

Lemma folded_any r s : folded Codecs s -> folded r (one_line s).
Proof. intros H. destruct r; [apply plain_is_folded, one_line_iotext|apply folded_one_line; auto]. Qed.

Lemma tag_name_any r k : tag_name_ok Codecs k -> tag_name_ok r k.
Proof. intros (A & B & C). split; auto. split; auto. apply no_brk_any; auto. Qed.

(** ** Values keep their characters *)

Definition dense (s : pystr) : pystr := filter (fun c => negb (is_ws c)) s.

Lemma dense_app a b : dense (a ++ b) = dense a ++ dense b.
Proof. apply filter_app. Qed.

Lemma dense_ws c s : is_ws c = true -> dense (c :: s) = dense s.
Proof. intros W. unfold dense. cbn [filter]. rewrite W. reflexivity. Qed.

Lemma dense_lstrip s : dense (lstrip_if is_ws s) = dense s.
Proof.
  induction s as [|c s IH]; [reflexivity|]. cbn [lstrip_if].
  destruct (is_ws c) eqn:W; [|reflexivity]. rewrite IH, dense_ws; auto.
Qed.

Lemma dense_rstrip s : dense (rstrip_if is_ws s) = dense s.
Proof.
  induction s as [|c s IH]; [reflexivity|]. cbn [rstrip_if]. destruct (rstrip_if is_ws s) as [|d t] eqn:E.
  - destruct (is_ws c) eqn:W; unfold dense in *; cbn [filter] in *; rewrite W; cbn [negb]; rewrite <- IH; reflexivity.
  - unfold dense in *. cbn [filter] in *. rewrite <- IH. reflexivity.
Qed.

Lemma dense_strip s : dense (strip s) = dense s.
Proof. unfold strip. rewrite dense_rstrip. apply dense_lstrip. Qed.

Lemma dense_unfold r v : dense (unfold_value r v) = dense v.
Proof.
  unfold unfold_value. pose proof (pylines_concat r (v ++ [LF])) as K. destruct (pylines r (v ++ [LF])) as [|l ls].
  - destruct v; discriminate.
  - cbn [concat] in K. rewrite dense_strip, dense_app, dense_rstrip. rewrite dense_ws by reflexivity.
    rewrite <- dense_app, K, dense_app. cbn. apply app_nil_r.
Qed.

Lemma dense_one_line v : dense (one_line v) = dense v.
Proof.
  induction v as [|c v IH]; [reflexivity|]. rewrite one_line_cons. destruct ((c =? LF) || (c =? CR)) eqn:K.
  - rewrite IH. symmetry. apply dense_ws. apply orb_true_iff in K. destruct K as [K|K]; apply N.eqb_eq in K; subst; reflexivity.
  - unfold dense in *. cbn [filter]. destruct (negb (is_ws c)); congruence.
Qed.

Lemma one_line_plain s : no_brk IoText s -> one_line s = s.
Proof.
  induction 1 as [|c s B _ IH]; [reflexivity|]. rewrite one_line_cons. cbn in B. change LF with 10. change CR with 13.
  rewrite B. congruence.
Qed.

(** ** Writing and reading tags *)

Definition info_pairs (i : infod) : list (pystr * pystr) :=
  flat_map (fun kv => items (fst kv) (map one_line (vals_of (snd kv)))) i.

Lemma values_items k k' vs : values_of k (items k' vs) = if streq k' k then vs else [].
Proof.
  unfold values_of, items. induction vs as [|x vs IH]; cbn [map filter fst]; [destruct (streq k' k); reflexivity|].
  destruct (streq k' k) eqn:E; cbn [map snd]; rewrite IH; reflexivity.
Qed.

Lemma values_app k a b : values_of k (a ++ b) = values_of k a ++ values_of k b.
Proof. unfold values_of. rewrite filter_app, map_app. reflexivity. Qed.

Lemma values_none i k : od_get k i = None -> values_of k (info_pairs i) = [].
Proof.
  induction i as [|[k' v] i IH]; [reflexivity|]. cbn [od_get]. intros H. unfold info_pairs. cbn [flat_map fst snd].
  rewrite values_app, values_items, streq_sym. destruct (streq k k') eqn:E; [discriminate|]. apply IH. exact H.
Qed.

Lemma values_pairs i k : NoDup (od_keys i) -> values_of k (info_pairs i) = map one_line (tag_values i k).
Proof.
  induction i as [|[k' v] i IH]; intros D; [reflexivity|]. inversion D as [|? ? Ni D']; subst.
  unfold info_pairs. cbn [flat_map fst snd]. rewrite values_app, values_items, streq_sym. unfold tag_values. cbn [od_get].
  destruct (streq k k') eqn:E.
  - apply streq_eq in E. subst k'. change (flat_map _ i) with (info_pairs i). rewrite values_none.
    + rewrite app_nil_r. destruct v; reflexivity.
    + destruct (od_get k i) eqn:G; auto. exfalso. apply Ni. apply od_get_in in G. exact (in_map fst _ _ G).
  - apply IH; auto.
Qed.

Lemma get_perm (i j : infod) k : NoDup (od_keys i) -> Permutation i j -> od_get k i = od_get k j.
Proof.
  intros D P. assert (Dj : NoDup (od_keys j)).
  { eapply Permutation_NoDup; [|exact D]. apply Permutation_map. exact P. }
  destruct (od_get k i) as [v|] eqn:E.
  - symmetry. apply od_in_get; auto. eapply Permutation_in; [exact P|]. apply od_get_in. auto.
  - destruct (od_get k j) as [v|] eqn:F; auto. apply od_get_in in F.
    apply (Permutation_in _ (Permutation_sym P)) in F. apply od_in_get in F; auto. congruence.
Qed.

Definition key_le (a b : pystr * ival) : bool := str_le (fst a) (fst b).

Lemma info_text_pairs i : info_text i = tags_text (info_pairs (isort key_le i)).
Proof. reflexivity. Qed.

Lemma sorted_first i k v : info_ok Codecs i -> In (k, v) i -> hd 0 k < BOM ->
  match isort key_le i with [] => False | (k', _) :: _ => hd 0 k' <> BOM end.
Proof.
  intros [_ O] I L. pose proof (isort_perm key_le i) as P.
  assert (S : StronglySorted (fun a b => key_le a b = true) (isort key_le i)).
  { apply isort_sorted; unfold key_le; intros; [apply str_le_total|eapply str_le_trans; eauto]. }
  apply (Permutation_in _ (Permutation_sym P)) in I. destruct (isort key_le i) as [|[k' v'] l] eqn:E; [destruct I|].
  intros B. assert (Le : str_le k' k = true).
  { destruct I as [I|I]; [inversion I; subst; destruct (str_le_total k k); auto|].
    inversion S as [|? ? _ F]; subst. rewrite Forall_forall in F. apply (F _ I). }
  assert (Ok' : In (k', v') i) by (eapply Permutation_in; [exact P|left; auto]).
  apply O in Ok'. destruct Ok' as ((((x & t & Ek & _) & _) & _) & _).
  assert (Ik : In (k, v) i) by (eapply Permutation_in; [exact P|exact I]).
  apply O in Ik. destruct Ik as ((((y & u & Eu & _) & _) & _) & _). subst k k'. cbn [hd] in *. subst x.
  unfold str_le in Le. cbn [strlt] in Le. destruct (N.ltb_spec y BOM); [discriminate|lia].
Qed.

Lemma info_read r i k0 v0 : info_ok Codecs i -> In (k0, v0) i -> hd 0 k0 < BOM ->
  exists d, load_tags r (info_text i) = Ok d /\
    forall k, tag_values d k = map (fun x => unfold_value r (one_line x)) (tag_values i k).
Proof.
  intros O I0 L. pose proof (sorted_first i k0 v0 O I0 L) as Hf. destruct O as [D O].
  pose proof (isort_perm key_le i) as P. rewrite info_text_pairs.
  assert (F : Forall (fun kv => tag_name_ok r (fst kv) /\ folded r (snd kv)) (info_pairs (isort key_le i))).
  { apply Forall_forall. intros kv I. apply in_flat_map in I. destruct I as ([k v] & I & J). cbn [fst snd] in J.
    apply (Permutation_in _ P) in I. apply O in I. destruct I as (A & _ & B).
    unfold items in J. apply in_map_iff in J. destruct J as (x & <- & J). apply in_map_iff in J. destruct J as (y & <- & J).
    cbn [fst snd]. rewrite Forall_forall in B. apply B in J. destruct J as [_ J]. split; [apply tag_name_any; auto|apply folded_any; auto]. }
  assert (Dc : decode r (tags_text (info_pairs (isort key_le i))) = tags_text (info_pairs (isort key_le i))).
  { destruct r; [reflexivity|]. destruct (isort key_le i) as [|[k' v'] l] eqn:E; [destruct Hf|].
    assert (Ok' : In (k', v') i) by (eapply Permutation_in; [exact P|left; auto]).
    apply O in Ok'. destruct Ok' as ((((y & u & Eu & _) & _) & _) & Ne & _). subst k'. cbn [hd] in Hf.
    unfold info_pairs. cbn [flat_map fst snd]. destruct (vals_of v') as [|w ws]; [congruence|]. cbn [map items].
    unfold items. cbn [map app tags_text flat_map]. unfold tags_text. cbn [app flat_map]. unfold tag_line at 1 3. cbn [app fst].
    cbn [decode]. destruct (N.eqb_spec y BOM); [congruence|]. reflexivity. }
  unfold load_tags. rewrite Dc, parse_tags_folded by exact F. cbn [bind]. eexists. split; [reflexivity|].
  intros k. rewrite fold_add_tag_values. cbn [tag_values od_get app].
  assert (V : forall l, values_of k (map (fun kv => (fst kv, unfold_value r (snd kv))) l) = map (unfold_value r) (values_of k l)).
  { clear. unfold values_of. induction l as [|[k' v] l IH]; [reflexivity|]. cbn [map filter fst snd].
    destruct (streq k' k); cbn [map snd]; rewrite IH; reflexivity. }
  rewrite V, values_pairs.
  - unfold tag_values at 1. rewrite (get_perm (isort key_le i) i); [|eapply Permutation_NoDup; [|exact D]; apply Permutation_map, Permutation_sym, P|exact P].
    rewrite map_map. reflexivity.
  - eapply Permutation_NoDup; [|exact D]. apply Permutation_map, Permutation_sym, P.
Qed.

(** ** Changing tags *)

Lemma info_ok_set r k x i : info_ok r i -> tag_name_ok r k -> folded r x -> (x = [] \/ trimmed x) ->
  info_ok r (od_set k (IStr x) i).
Proof.
  intros [D O] Hk Hf Ht. split; [apply od_set_NoDup; auto|]. intros k' v' I.
  assert (G : Forall (fun kv => tag_name_ok r (fst kv) /\ vals_of (snd kv) <> [] /\ Forall (value_ok r) (vals_of (snd kv)))
                (od_set k (IStr x) i)).
  { apply od_set_Forall.
    - intros k1 E1. apply streq_eq in E1. subst. cbn. split; auto. split; [discriminate|]. constructor; [split; auto|constructor].
    - apply Forall_forall. intros [a b] Ia. cbn. auto. }
  rewrite Forall_forall in G. exact (G _ I).
Qed.

Lemma info_ok_del r k i : info_ok r i -> info_ok r (od_del k i).
Proof.
  intros [D O]. split; [apply od_del_NoDup; auto|]. intros k' v' I. apply O. eapply od_del_incl; eauto.
Qed.

Lemma get_del_same {V} k (d : dict V) : NoDup (od_keys d) -> od_get k (od_del k d) = None.
Proof.
  intros H. apply od_get_none. induction d as [|[k0 v0] d IH]; [auto|]. cbn [od_del]. inversion H as [|? ? Ni D]; subst.
  destruct (streq_reflect k k0) as [->|E]; [exact Ni|]. cbn [od_keys map fst]. intros [I|I]; [congruence|]. apply IH; auto.
Qed.

Definition drop_tags (ks : list pystr) (i : infod) : infod := fold_left (fun i k => od_del k i) ks i.

Lemma drop_tags_ok r ks : forall i, info_ok r i -> info_ok r (drop_tags ks i).
Proof. induction ks as [|k ks IH]; intros i H; [exact H|]. cbn. apply IH, info_ok_del; auto. Qed.

Lemma drop_tags_get ks : forall i k, NoDup (od_keys i) ->
  od_get k (drop_tags ks i) = if str_in k ks then None else od_get k i.
Proof.
  induction ks as [|x ks IH]; intros i k D; [reflexivity|]. cbn [drop_tags fold_left]. change (fold_left _ ks ?y) with (drop_tags ks y).
  rewrite IH by (apply od_del_NoDup; auto). cbn [str_in existsb]. destruct (streq_reflect k x) as [->|E].
  - rewrite get_del_same by auto. destruct (str_in x ks); reflexivity.
  - rewrite od_get_del_other by auto. reflexivity.
Qed.

(** ** The end of the restoration *)

Lemma save_info v algs i t t' : save v algs i t = Ok t' -> read F_baginfo t' = Some (info_text i).
Proof.
  unfold save. intros H. apply bind_ok in H. destruct H as (t1 & H1 & H). apply bind_ok in H. destruct H as (t2 & H2 & H).
  apply bind_ok in H. destruct H as (_ & _ & H). inversion H; subst. clear H. apply write_file_ok in H1.
  assert (R : read F_baginfo t1 = Some (info_text i)) by (subst t1; unfold read; rewrite od_get_set_same; reflexivity).
  clear H1. revert t1 R H2. induction algs as [|a algs IH]; intros t1 R H; cbn [foldM] in H.
  - inversion H; subst. auto.
  - apply bind_ok in H. destruct H as (t2 & H1 & H2). apply (IH t2); auto. apply write_file_ok in H1. subst t2.
    unfold read. rewrite od_get_set_other; [exact R|discriminate].
Qed.

Lemma set_payload p c t : is_payload p = false -> p <> DATA -> calc_oxum (od_set p (NFile c) t) = calc_oxum t.
Proof.
  intros H D. unfold calc_oxum. assert (E1 : is_dir DATA (od_set p (NFile c) t) = is_dir DATA t).
  { change (match od_get DATA (od_set p (NFile c) t) with Some NDir => true | _ => false end =
            match od_get DATA t with Some NDir => true | _ => false end).
    rewrite od_get_set_other by congruence. reflexivity. }
  rewrite E1. assert (E2 : filter is_payload (files (od_set p (NFile c) t)) = filter is_payload (files t)).
  { clear E1. unfold files. induction t as [|[k n] t IH]; cbn [od_set filter map fst snd].
    - rewrite H. reflexivity.
    - destruct (streq_reflect p k) as [<-|E]; cbn [od_set filter map fst snd].
      + rewrite H. destruct n; cbn [map filter fst]; try rewrite H; reflexivity.
      + destruct n; cbn [map filter fst]; try exact IH. destruct (is_payload k); congruence. }
  rewrite E2. assert (E3 : map (fun f => size_of f (od_set p (NFile c) t)) (filter is_payload (files t)) =
                           map (fun f => size_of f t) (filter is_payload (files t))).
  { apply map_ext_in. intros f I. apply filter_In in I. destruct I as [_ I]. unfold size_of, read.
    rewrite od_get_set_other; [reflexivity|]. intros ->. congruence. }
  rewrite E3. reflexivity.
Qed.

Lemma save_oxum v algs i t t' : save v algs i t = Ok t' -> calc_oxum t' = calc_oxum t.
Proof.
  unfold save. intros H. apply bind_ok in H. destruct H as (t1 & H1 & H). apply bind_ok in H. destruct H as (t2 & H2 & H).
  apply bind_ok in H. destruct H as (_ & _ & H). inversion H; subst. clear H. apply write_file_ok in H1.
  transitivity (calc_oxum t1); [|subst t1; apply set_payload; [reflexivity|discriminate]]. clear H1 t.
  revert t1 H2. induction algs as [|a algs IH]; intros t1 H; cbn [foldM] in H.
  - inversion H; subst. auto.
  - apply bind_ok in H. destruct H as (t2 & H1 & H2). rewrite (IH t2) by auto. apply write_file_ok in H1. subst t2.
    apply set_payload; [reflexivity|discriminate].
Qed.

Definition oxum_value (sn : N * N) : pystr := dec (fst sn) ++ [DOT] ++ dec (snd sn).

(** The tags of the restored bag. *)
Lemma finish_info v us rt bsize dest dest' : finish v us rt bsize dest = Ok dest' ->
  exists info es, open_bag v Codecs (e_dest v) dest = Ok (info, es) /\
  let i1 := if rt then drop_tags mb_keys info else info in
  if us then exists sn t, calc_oxum dest' = Ok sn /\
             read F_baginfo dest' = Some (info_text (od_set T_BagSize (IStr (bsize t)) (od_set T_OXUM (IStr (oxum_value sn)) i1)))
  else rt = true -> read F_baginfo dest' = Some (info_text i1).
Proof.
  unfold finish. intros H. apply bind_ok in H. destruct H as ([info es] & Ho & H).
  apply bind_ok in H. destruct H as (algs & _ & H). apply bind_ok in H. destruct H as ([i t] & H1 & H).
  exists info, es. split; [exact Ho|]. cbv zeta.
  assert (E : i = (if rt then drop_tags mb_keys info else info) /\ (rt = true -> read F_baginfo t = Some (info_text i))).
  { destruct rt.
    - apply bind_ok in H1. destruct H1 as (t1 & _ & H1). cbv zeta in H1. apply bind_ok in H1. destruct H1 as (t2 & R & H1).
      inversion H1; subst. split; [reflexivity|]. intros _. eapply save_info; eauto.
    - inversion H1; subst. split; [reflexivity|discriminate]. }
  destruct E as [E R]. destruct us.
  - apply bind_ok in H. destruct H as ([sz n] & C & H). cbv zeta in H. apply bind_ok in H. destruct H as (t1 & R1 & R2).
    exists (sz, n), t1. split; [rewrite (save_oxum _ _ _ _ _ R2), (save_oxum _ _ _ _ _ R1); exact C|].
    rewrite (save_info _ _ _ _ _ R2), E. reflexivity.
  - inversion H; subst dest'. intros X. rewrite (R X), E. reflexivity.
Qed.

Lemma open_info_ok v r loc t info es : open_bag v r loc t = Ok (info, es) -> info_ok r info.
Proof.
  unfold open_bag. destruct (read F_bagit t); [|discriminate]. intros H. apply bind_ok in H. destruct H as ([v97 v1] & _ & H).
  apply bind_ok in H. destruct H as (i & H1 & H). apply bind_ok in H. destruct H as (e & _ & H). inversion H; subst.
  destruct (read F_baginfo t); [eapply load_tags_ok; eauto|]. inversion H1; subst. split; [constructor|intros ? ? []].
Qed.

Lemma oxum_value_no_brk r sn : no_brk r (oxum_value sn).
Proof.
  unfold oxum_value. apply no_brk_app. split; [apply dec_no_brk|]. apply no_brk_app. split; [|apply dec_no_brk].
  repeat constructor. destruct r; reflexivity.
Qed.

(** With the default options: the tags as they are read again. *)
Lemma finish_tags v bsize dest dest' :
  (forall t, no_brk Codecs (bsize t) /\ (bsize t = [] \/ trimmed (bsize t))) ->
  finish v true true bsize dest = Ok dest' ->
  exists info es sn t text, open_bag v Codecs (e_dest v) dest = Ok (info, es) /\
    calc_oxum dest' = Ok sn /\ read F_baginfo dest' = Some text /\
    forall r, exists d, load_tags r text = Ok d /\
      tag_values d T_OXUM = [oxum_value sn] /\ tag_values d T_BagSize = [bsize t] /\
      forall k, k <> T_OXUM -> k <> T_BagSize ->
        tag_values d k = if str_in k mb_keys then [] else map (fun x => unfold_value r (one_line x)) (tag_values info k).
Proof.
  intros B H. destruct (finish_info _ _ _ _ _ _ H) as (info & es & Ho & sn & t & C & R).
  exists info, es, sn, t. eexists. split; [exact Ho|]. split; [exact C|]. split; [exact R|]. intros r.
  destruct (B t) as [Bb Bt]. pose proof (open_info_ok _ _ _ _ _ _ Ho) as Oi.
  set (i1 := drop_tags mb_keys info). assert (O1 : info_ok Codecs i1) by (apply drop_tags_ok; auto).
  set (i2 := od_set T_OXUM (IStr (oxum_value sn)) i1).
  assert (Tx : trimmed (oxum_value sn)) by (unfold oxum_value; apply trimmed_app; apply dec_trimmed).
  assert (O2 : info_ok Codecs i2).
  { apply info_ok_set; auto; [|apply plain_is_folded, oxum_value_no_brk].
    apply tag_name_lit; [apply trimmedb_ok; reflexivity|reflexivity|reflexivity]. }
  set (i3 := od_set T_BagSize (IStr (bsize t)) i2).
  assert (O3 : info_ok Codecs i3).
  { apply info_ok_set; auto; [|apply plain_is_folded; auto].
    apply tag_name_lit; [apply trimmedb_ok; reflexivity|reflexivity|reflexivity]. }
  destruct (info_read r i3 T_BagSize (IStr (bsize t)) O3) as (d & L & V).
  { apply od_get_in. apply od_get_set_same. }
  { reflexivity. }
  exists d. split; [exact L|].
  assert (P : forall x, no_brk Codecs x -> (x = [] \/ trimmed x) -> unfold_value r (one_line x) = x).
  { intros x Nx Tx'. rewrite one_line_plain by (apply no_brk_any; auto). apply plain_folded. split; [exact Tx'|]. apply no_brk_any; auto. }
  split; [|split].
  - rewrite V. unfold tag_values, i3, i2. rewrite od_get_set_other by discriminate. rewrite od_get_set_same. cbn [map].
    rewrite P; auto. apply oxum_value_no_brk.
  - rewrite V. unfold tag_values, i3. rewrite od_get_set_same. cbn [map]. rewrite P; auto.
  - intros k K1 K2. rewrite V. unfold tag_values, i3, i2. rewrite !od_get_set_other by auto.
    unfold i1. rewrite drop_tags_get by apply Oi. destruct (str_in k mb_keys); reflexivity.
Qed.

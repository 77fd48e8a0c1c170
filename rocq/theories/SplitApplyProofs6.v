(** * Lemmas on applying a split plan: all the bags *)

Require Import String NArith PeanoNat Bool List Lia Permutation.
From Verif Require Import PyBase PyFacts Tsv TsvProofs Fs FsFacts HeadBag HeadBagProofs HeadBagProofs2 HeadBagProofs3 BagIt BagItProofs BagItProofs2 Split SplitApply SplitApplyProofs SplitApplyProofs2 SplitApplyProofs3 SplitApplyProofs4 SplitApplyProofs5.
Import ListNotations.
Open Scope N_scope.

(** The names of the bags: from the iterator as long as it has names, then
    those of the plan. *)
Fixpoint names_for (it : list pystr) (ms : list manifest) : list (option pystr) :=
  match ms, it with
  | [], _ => []
  | _ :: ms, x :: it => Some x :: names_for it ms
  | m :: ms, [] => m_name m :: names_for [] ms
  end.

Definition names_of (n : option naming) : list pystr :=
  match n with Some it => nm_names it | None => [] end.
Definition usable (n : option naming) : Prop :=
  match n with Some it => nm_next it = true | None => True end.

Definition one_bag (s : source) (o : apply_opts) (m : manifest) (h : bool) (ms : list pystr) (lu : dict pystr)
    (b : pystr) (t : tree) : Prop :=
  exists c, read F_bagit (so_tree s) = Some c /\ run_ops (bag_list s o b m h ms lu c) [] = Ok t /\
            (h = true -> read F_baginfo (so_tree s) <> None).

(** The bags [bts] were made for [mhs]; the member list and the lookup went
    from [ms], [lu] to [ms'], [lu']. *)
Fixpoint made (s : source) (o : apply_opts) (mhs : list (manifest * bool)) (bts : dict tree)
    (ms : list pystr) (lu : dict pystr) (ms' : list pystr) (lu' : dict pystr) : Prop :=
  match mhs, bts with
  | [], [] => ms' = ms /\ lu' = lu
  | (m, h) :: mhs, (b, t) :: bts =>
      let ms1 := push_member b ms in
      let lu1 := fold_left (add_lookup b) (plan_files s m) lu in
      one_bag s o m h ms1 lu1 b t /\ made s o mhs bts ms1 lu1 ms' lu'
  | _, _ => False
  end.

Lemma next_name_ok m n x n' : next_name m n = Ok (x, n') ->
  usable n /\ usable n' /\
  forall ms, names_for (names_of n) (m :: ms) = x :: names_for (names_of n') ms.
Proof.
  unfold next_name. destruct n as [[nx nms]|]; cbn [nm_next nm_names].
  - destruct nx; [|discriminate]. destruct nms as [|y t]; intros H; inversion H; subst; cbn; auto.
  - intros H; inversion H; subst; cbn; auto.
Qed.

Lemma apply_fold s o mhs : forall a a', foldM (apply_one s o) mhs a = Ok a' ->
  exists bts, a_out a' = a_out a ++ bts /\
    made s o mhs bts (a_members a) (a_lookup a) (a_members a') (a_lookup a') /\
    NoDup (map fst bts) /\ (forall b, In b (map fst bts) -> ~ In b (od_keys (a_out a))) /\
    map Some (map fst bts) = names_for (names_of (a_naming a)) (map fst mhs).
Proof.
  induction mhs as [|[m h] mhs IH]; intros a a' H; cbn [foldM] in H.
  - inversion H; subst. exists []. rewrite app_nil_r. cbn. repeat split; auto. constructor.
  - apply bind_ok in H. destruct H as (a1 & H1 & H2). unfold apply_one in H1.
    apply bind_ok in H1. destruct H1 as ([name it] & Hn & H1). apply next_name_ok in Hn.
    destruct Hn as (_ & _ & Hn). destruct name as [b|]; [|discriminate].
    destruct (od_has b (a_out a)) eqn:Hb; [discriminate|].
    destruct (bag_ops s o b m h (push_member b (a_members a))
                (fold_left (add_lookup b) (plan_files s m) (a_lookup a))) as [ops fin] eqn:Eo.
    apply bind_ok in H1. destruct H1 as (t & Ht & H1). apply bind_ok in H1. destruct H1 as ([] & Ef & H1).
    subst fin. apply bag_ops_ok in Eo. destruct Eo as (c & Rc & -> & Hi).
    inversion H1; subst a1; clear H1. apply IH in H2. cbn [a_out a_members a_lookup a_naming] in H2.
    destruct H2 as (bts & E1 & M1 & N1 & F1 & L1).
    apply od_has_false in Hb. apply od_get_none in Hb.
    exists ((b, t) :: bts). split; [|split; [|split; [|split]]].
    + rewrite E1, od_set_fresh by exact Hb. rewrite <- app_assoc. reflexivity.
    + cbn [made]. split; [|exact M1]. exists c. auto.
    + cbn [map fst]. constructor; auto. intros I. apply F1 in I. apply I.
      rewrite od_set_fresh by exact Hb. unfold od_keys. rewrite map_app, in_app_iff. right; left; reflexivity.
    + cbn [map fst]. intros x [<-|I]; auto. apply F1 in I. intros J. apply I.
      rewrite od_set_fresh by exact Hb. unfold od_keys. rewrite map_app, in_app_iff. left; exact J.
    + cbn [map fst]. rewrite Hn, L1. reflexivity.
Qed.

Lemma apply_plan_ok s o p it out a : apply_plan s o p it out = Ok a ->
  exists ms0 lu0 bts, initial_lists s = Ok (ms0, lu0) /\ a_out a = out ++ bts /\
    made s o (manifests p) bts ms0 lu0 (a_members a) (a_lookup a) /\
    NoDup (map fst bts) /\ (forall b, In b (map fst bts) -> ~ In b (od_keys out)) /\
    map Some (map fst bts) = names_for (names_of it) (p_manifests p).
Proof.
  unfold apply_plan. intros H. apply bind_ok in H. destruct H as ([ms0 lu0] & Hi & H).
  apply apply_fold in H. cbn [a_out a_members a_lookup a_naming] in H. destruct H as (bts & E & M & N1 & F & L).
  exists ms0, lu0, bts. repeat split; auto.
  rewrite L. f_equal. unfold manifests. clear. induction (p_manifests p) as [|m [|m' l] IH]; [reflexivity|reflexivity|].
  change (mark_head (m :: m' :: l)) with ((m, false) :: mark_head (m' :: l)). cbn [map fst]. rewrite IH. reflexivity.
Qed.

Lemma layout_false s : layout_ok s true -> layout_ok s false.
Proof.
  intros [A B C D E F]. constructor; auto; try congruence. intros p O. apply D.
  destruct O; try discriminate; constructor.
Qed.

Lemma apply_fold_runs s o mhs : layout_ok s true -> read F_bagit (so_tree s) <> None ->
  ((exists m, In (m, true) mhs) -> read F_baginfo (so_tree s) <> None) ->
  forall a ns, usable (a_naming a) -> map Some ns = names_for (names_of (a_naming a)) (map fst mhs) ->
    NoDup (od_keys (a_out a) ++ ns) ->
  exists a', foldM (apply_one s o) mhs a = Ok a'.
Proof.
  intros L Hb Hi. induction mhs as [|[m h] mhs IH]; intros a ns Hu Hn Hd; [eexists; reflexivity|].
  cbn [foldM map fst] in *. unfold apply_one at 1.
  assert (Hx : exists x n', next_name m (a_naming a) = Ok (x, n')).
  { unfold next_name. destruct (a_naming a) as [[nx nms]|]; cbn in *; [subst nx|]; eauto.
    destruct nms; eauto. }
  destruct Hx as (x & n' & Ex). rewrite Ex. cbn [bind]. apply next_name_ok in Ex. destruct Ex as (_ & Hu' & Hx).
  rewrite Hx in Hn. destruct ns as [|b ns]; [discriminate|]. cbn [map] in Hn. inversion Hn; subst x. clear Hn.
  assert (Nb : ~ In b (od_keys (a_out a))).
  { intros I. apply NoDup_remove_2 in Hd. apply Hd. apply in_app_iff. auto. }
  assert (Ob : od_has b (a_out a) = false) by (apply od_has_false, od_get_none; exact Nb).
  rewrite Ob.
  destruct (read F_bagit (so_tree s)) as [c|] eqn:Rc; [|congruence].
  unfold bag_ops. rewrite Rc.
  assert (Lh : layout_ok s h) by (destruct h; auto using layout_false).
  destruct (bag_list_runs s h Lh o b m (push_member b (a_members a))
              (fold_left (add_lookup b) (plan_files s m) (a_lookup a)) c) as [t Ht].
  unfold bag_list in Ht. rewrite Ht. cbn [bind].
  assert (Hf : (if h then match read F_baginfo (so_tree s) with Some _ => Ok tt | None => Err EOS end else Ok tt) = Ok tt).
  { destruct h; auto. destruct (read F_baginfo (so_tree s)) eqn:Ri; auto.
    exfalso. apply (Hi (ex_intro _ m (or_introl eq_refl))). reflexivity. }
  rewrite Hf. cbn [bind]. eapply IH.
  - intros [m' I]. apply Hi. exists m'. right. exact I.
  - exact Hu'.
  - cbn [a_naming]. eassumption.
  - cbn [a_out]. rewrite od_keys_set_fresh by exact Nb. rewrite <- app_assoc. exact Hd.
Qed.

(** ** The last bag *)

Lemma mark_head_last l m : mark_head (l ++ [m]) = map (fun x => (x, false)) l ++ [(m, true)].
Proof.
  induction l as [|x l IH]; [reflexivity|]. cbn [app map]. rewrite <- IH.
  destruct l; reflexivity.
Qed.

Lemma made_each s o mhs : forall bts ms lu ms' lu', made s o mhs bts ms lu ms' lu' ->
  Forall2 (fun mh bt => exists ms lu, one_bag s o (fst mh) (snd mh) ms lu (fst bt) (snd bt)) mhs bts.
Proof.
  induction mhs as [|[m h] mhs IH]; intros [|[b t] bts] ms lu ms' lu' H; cbn [made] in H; try contradiction.
  - constructor.
  - destruct H as [H1 H2]. constructor; [|eauto]. cbn [fst snd]. eauto.
Qed.

Lemma made_snoc s o l m h : forall bts ms lu ms' lu', made s o (l ++ [(m, h)]) bts ms lu ms' lu' ->
  exists bts1 b t ms1 lu1, bts = bts1 ++ [(b, t)] /\ made s o l bts1 ms lu ms1 lu1 /\
    ms' = push_member b ms1 /\ lu' = fold_left (add_lookup b) (plan_files s m) lu1 /\
    one_bag s o m h ms' lu' b t.
Proof.
  induction l as [|[m0 h0] l IH]; intros [|[b t] bts] ms lu ms' lu' H; cbn [app made] in H; try contradiction.
  - destruct H as [H1 H2]. destruct bts as [|bt bts]; cbn [made] in H2; [|contradiction]. destruct H2 as [-> ->].
    exists [], b, t, ms, lu. cbn. auto.
  - destruct H as [H1 H2]. apply IH in H2. destruct H2 as (bts1 & b1 & t1 & ms1 & lu1 & -> & M & E1 & E2 & O).
    exists ((b, t) :: bts1), b1, t1, ms1, lu1. cbn [app made]. repeat split; auto.
Qed.

Lemma made_members s o mhs : forall bts ms lu ms' lu', made s o mhs bts ms lu ms' lu' ->
  ms' = fold_left (fun l b => push_member b l) (map fst bts) ms.
Proof.
  induction mhs as [|[m h] mhs IH]; intros [|[b t] bts] ms lu ms' lu' H; cbn [made] in H; try contradiction.
  - destruct H as [-> _]. reflexivity.
  - destruct H as [_ H]. apply IH in H. exact H.
Qed.

Lemma made_lookup s o mhs : forall bts ms lu ms' lu', made s o mhs bts ms lu ms' lu' ->
  lu' = fold_left (fun d x => fold_left (add_lookup (fst (snd x))) (plan_files s (fst (fst x))) d)
          (combine mhs bts) lu.
Proof.
  induction mhs as [|[m h] mhs IH]; intros [|[b t] bts] ms lu ms' lu' H; cbn [made] in H; try contradiction.
  - destruct H as [_ ->]. reflexivity.
  - destruct H as [_ H]. apply IH in H. exact H.
Qed.

Lemma filter_all {A} (f : A -> bool) l : (forall x, In x l -> f x = true) -> filter f l = l.
Proof. induction l as [|x l IH]; intros H; cbn; auto. rewrite (H x) by (left; auto). rewrite IH; auto. intros; apply H; right; auto. Qed.

Lemma push_member_spec b ms : NoDup ms -> push_member b ms = filter (fun x => negb (streq x b)) ms ++ [b].
Proof.
  intros Hd. unfold push_member. destruct (str_in b ms) eqn:E.
  - f_equal. clear E. induction Hd as [|x l Nx Hd IH]; [reflexivity|]. cbn [filter].
    destruct (streq_reflect x b) as [->|D]; cbn [negb].
    + symmetry. apply filter_all. intros y I. apply negb_true_iff, streq_neq. congruence.
    + rewrite IH. reflexivity.
  - apply str_in_false in E. rewrite filter_all; auto. intros x I. apply negb_true_iff, streq_neq. congruence.
Qed.

Lemma push_members outs : forall ms, NoDup ms -> NoDup outs ->
  fold_left (fun l b => push_member b l) outs ms = filter (fun x => negb (str_in x outs)) ms ++ outs.
Proof.
  induction outs as [|b outs IH]; intros ms Hm Ho; cbn [fold_left].
  - rewrite app_nil_r. symmetry. apply filter_all. reflexivity.
  - inversion Ho as [|? ? Nb Ho']; subst. rewrite push_member_spec by exact Hm. rewrite IH; auto.
    + rewrite filter_app. cbn [filter]. apply str_in_false in Nb. rewrite Nb. cbn [negb].
      rewrite <- app_assoc. cbn [app]. f_equal. clear. induction ms as [|x ms IH]; [reflexivity|]. cbn [filter].
      cbn [str_in]. destruct (streq x b) eqn:E; cbn [negb orb filter].
      * exact IH.
      * rewrite IH. reflexivity.
    + apply NoDup_snoc; [apply NoDup_filter; auto|]. rewrite filter_In. intros [_ E]. rewrite streq_refl in E. discriminate.
Qed.

(** The bag that the lookup gives for [f]: the last one that it is planned for. *)
Lemma get_add_lookup f b fs : forall d,
  od_get f (fold_left (add_lookup b) fs d) = if str_in f fs then Some b else od_get f d.
Proof.
  induction fs as [|g fs IH]; intros d; [reflexivity|]. cbn [fold_left]. rewrite IH. unfold add_lookup.
  rewrite od_get_set. cbn [str_in]. destruct (streq f g); cbn [orb]; [|reflexivity].
  destruct (str_in f fs); reflexivity.
Qed.

Lemma lookup_last s o mhs : forall bts ms lu ms' lu' f, made s o mhs bts ms lu ms' lu' ->
  (exists m h b t c1 c2 d1 d2, mhs = c1 ++ (m, h) :: c2 /\ bts = d1 ++ (b, t) :: d2 /\ length c1 = length d1 /\
     In f (plan_files s m) /\ (forall m' h', In (m', h') c2 -> ~ In f (plan_files s m')) /\ od_get f lu' = Some b) \/
  ((forall m h, In (m, h) mhs -> ~ In f (plan_files s m)) /\ od_get f lu' = od_get f lu).
Proof.
  induction mhs as [|[m h] mhs IH]; intros [|[b t] bts] ms lu ms' lu' f H; cbn [made] in H; try contradiction.
  - destruct H as [_ ->]. right. split; auto; intros ? ? [].
  - destruct H as [_ H]. apply IH with (f := f) in H.
    destruct H as [(m1 & h1 & b1 & t1 & c1 & c2 & d1 & d2 & -> & -> & El & If & Nf & G)|[Nf G]].
    + left. exists m1, h1, b1, t1, ((m, h) :: c1), c2, ((b, t) :: d1), d2. cbn [app length]. repeat split; auto.
    + rewrite get_add_lookup in G. destruct (str_in f (plan_files s m)) eqn:E.
      * left. exists m, h, b, t, [], mhs, [], bts. apply str_in_iff in E. cbn. repeat split; auto.
      * right. split; auto. intros m' h' [I|I]; [inversion I; subst; apply str_in_false; auto|eauto].
Qed.

Lemma lookup_nodup s o mhs : forall bts ms lu ms' lu', made s o mhs bts ms lu ms' lu' ->
  NoDup (od_keys lu) -> NoDup (od_keys lu').
Proof.
  induction mhs as [|[m h] mhs IH]; intros [|[b t] bts] ms lu ms' lu' H Hd; cbn [made] in H; try contradiction.
  - destruct H as [_ ->]. exact Hd.
  - destruct H as [_ H]. eapply IH; [exact H|]. revert lu Hd H. generalize (plan_files s m).
    intros l lu Hd _. revert lu Hd. induction l as [|g l IHl]; intros lu Hd; cbn; auto. apply IHl. apply od_set_NoDup. exact Hd.
Qed.

(** A planned file is there, whatever is written over it. *)
Lemma eff_some p ops : forall x, x <> None -> fold_left (eff p) ops x <> None.
Proof.
  induction ops as [|o ops IH]; intros x H; cbn [fold_left]; auto. apply IH.
  destruct o; cbn [eff]; auto; destruct (streq p p0); auto; discriminate.
Qed.

Lemma touched_some p ops : forall x, Exists (touches p) ops -> fold_left (eff p) ops x <> None.
Proof.
  induction ops as [|o ops IH]; intros x H; [inversion H|]. cbn [fold_left]. inversion H; subst; [|apply IH; auto].
  apply eff_some. destruct o; cbn [touches] in *; try contradiction; subst; cbn [eff]; rewrite streq_refl; discriminate.
Qed.

Lemma planned_there s o b m h ms lu t f : one_bag s o m h ms lu b t -> In f (plan_files s m) -> is_file f t = true.
Proof.
  intros (c & Rc & R & _) I. unfold plan_files in I. apply filter_In in I. destruct I as [I F].
  destruct (read f t) eqn:E; [apply is_file_read; eauto|]. exfalso.
  rewrite (run_ops_read f _ _ _ R) in E. revert E. apply touched_some. apply copy_touched; auto.
Qed.

(** ** Tags of the head bag *)

Lemma members_out_text ns : members_text (map (fun n => {| Tsv.m_name := n; m_uri := None; m_comment := None; m_info := [] |}) ns)
  = Ok (members_out ns).
Proof.
  unfold members_text. assert (E : mapM format_member (map (fun n => {| Tsv.m_name := n; m_uri := None; m_comment := None; m_info := [] |}) ns)
    = Ok (map (fun n => n ++ [LF]) ns)).
  { induction ns as [|n ns IH]; [reflexivity|]. cbn [map mapM]. unfold format_member at 1. cbn. rewrite IH. reflexivity. }
  rewrite E. cbn [bind]. unfold members_out. rewrite flat_map_concat_map. reflexivity.
Qed.

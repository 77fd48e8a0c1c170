(** * Lemmas on applying a split plan: the output trees, hard links *)

Require Import String NArith PeanoNat Bool List Lia Permutation.
From Verif Require Import PyBase PyFacts Tsv TsvProofs Fs FsFacts HeadBag HeadBagProofs3 BagIt BagItProofs Split SplitProofs3 SplitApply SplitApplyProofs SplitApplyProofs2 SplitApplyProofs3 SplitApplyProofs4 SplitApplyProofs5 SplitApplyProofs6.
Import ListNotations.
Open Scope N_scope.

(** ** Output trees are well formed *)

Definition op_good (o : op) : Prop :=
  match o with
  | OMkdir p | OWrite p _ | OAppend p _ | OCopy p _ => good_path p
  | OMakedirs p => p = [] \/ good_path p
  end.

Lemma wf_nil : wf_tree [].
Proof. constructor; [constructor|constructor|intros p []]. Qed.

Lemma is_dir_mono q v t p : (v = NDir \/ is_dir q t = false) -> is_dir p t = true -> is_dir p (od_set q v t) = true.
Proof.
  intros H D. apply is_dir_cases in D. apply is_dir_cases. destruct D as [->|D]; auto. right.
  unfold dirp in *. rewrite od_get_set. destruct (streq_reflect p q) as [->|]; auto.
  destruct H as [->|H]; auto. exfalso. unfold is_dir in H. destruct q; [discriminate|]. rewrite D in H. discriminate.
Qed.

Lemma wf_set q v t : wf_tree t -> good_path q -> (v = NDir \/ is_dir q t = false) -> is_dir (dirname q) t = true ->
  wf_tree (od_set q v t).
Proof.
  intros [A B C] G H D. constructor.
  - apply od_set_NoDup. exact A.
  - apply Forall_forall. intros p I. apply in_od_keys_set in I. destruct I as [->|I]; auto.
    rewrite Forall_forall in B. auto.
  - intros p I. apply in_od_keys_set in I. apply is_dir_mono; auto. destruct I as [->|I]; auto.
Qed.

Lemma run_op_wf t o t' : op_good o -> wf_tree t -> run_op t o = Ok t' -> wf_tree t'.
Proof.
  intros G W H.
  assert (Wf : forall p c t', good_path p -> write_file p c t = Ok t' -> wf_tree t').
  { intros p c t1 Gp E. apply write_file_ok2 in E. destruct E as (-> & E1 & E2). apply wf_set; auto. }
  destruct o as [p|p|p c|p c|p c]; cbn [op_good run_op] in *; eauto.
  - apply mkdir_ok2 in H. destruct H as (-> & _ & E). apply wf_set; auto.
  - unfold makedirs in H. destruct G as [->|G]; [cbn in H; inversion H; subst; auto|].
    assert (Gq : forall q, In q (prefixes p) -> good_path q).
    { intros q I. apply in_prefixes in I; auto. destruct I as [Nq [->|B]]; auto. eapply below_good; eauto. }
    revert t W Wf H Gq. generalize (prefixes p). induction l as [|q l IH]; intros t W _ H Gq; cbn [foldM] in H.
    + inversion H; subst; auto.
    + apply bind_ok in H. destruct H as (t1 & H1 & H2). eapply (IH t1); [| |exact H2|intros; apply Gq; right; auto].
      * destruct (exists_ q t); [inversion H1; subst; auto|]. apply mkdir_ok2 in H1. destruct H1 as (-> & _ & E).
        apply wf_set; auto. apply Gq. left; auto.
      * intros p0 c t'0 Gp E. assert (W1 : wf_tree t1).
        { destruct (exists_ q t); [inversion H1; subst; auto|]. apply mkdir_ok2 in H1. destruct H1 as (-> & _ & E').
          apply wf_set; auto. apply Gq. left; auto. }
        apply write_file_ok2 in E. destruct E as (-> & E1 & E2). apply wf_set; auto.
  - destruct (write_file p c t) eqn:E; inversion H; subst. eauto.
Qed.

Lemma run_ops_wf ops : forall t t', Forall op_good ops -> wf_tree t -> run_ops ops t = Ok t' -> wf_tree t'.
Proof.
  unfold run_ops. induction ops as [|o ops IH]; intros t t' F W H; cbn [foldM] in H.
  - inversion H; subst; auto.
  - inversion F as [|? ? Fo Fs]; subst. apply bind_ok in H. destruct H as (t1 & R1 & R2). eapply IH; [| |exact R2]; auto.
    eapply run_op_wf; eauto.
Qed.

Lemma man_good k a : In k [K_man; K_tag] -> ~ In SLASH a -> good_path (man_name k a).
Proof.
  intros Ik Na. apply good_path_single.
  - unfold man_name. destruct Ik as [<-|[<-|[]]]; rewrite !in_app_iff; cbn; intuition discriminate.
  - unfold good_component, man_name. destruct Ik as [<-|[<-|[]]]; repeat split; discriminate.
Qed.

Lemma file_good p t : wf_tree t -> is_file p t = true -> good_path p.
Proof.
  intros W F. eapply wf_good; eauto. apply is_file_read in F. destruct F as [c F]. apply read_get in F.
  eapply od_get_some_key; eauto.
Qed.

Lemma bag_ops_good s o b m h ms lu c : layout_ok s h -> Forall op_good (bag_list s o b m h ms lu c).
Proof.
  intros L. pose proof (lo_wf _ _ L) as W. unfold bag_list.
  assert (Ga : forall a, In a (so_algos s) -> forall k, In k [K_man; K_tag] -> good_path (man_name k a)).
  { intros a Ia k Ik. apply man_good; auto. pose proof (lo_algos _ _ L) as F. rewrite Forall_forall in F. auto. }
  assert (Lit : forall p, good_pathb p = true -> good_path p) by (intros; apply good_pathb_ok; auto).
  rewrite !Forall_app. repeat split.
  - apply Forall_forall. intros x I. apply in_start_ops in I. destruct I as [->|(a & -> & Ia & _)]; cbn [op_good].
    + apply Lit. reflexivity.
    + apply Ga; cbn; auto.
  - constructor; [|constructor]. apply Lit. reflexivity.
  - apply Forall_forall. intros x I. apply in_flat_map in I. destruct I as (f & _ & I). apply in_path_ops in I.
    destruct I as [(cc & Rf & [->|[->|I]])|(_ & D & ->)]; cbn [op_good].
    + apply good_path_dirname. eapply file_good; eauto. apply is_file_read; eauto.
    + eapply file_good; eauto. apply is_file_read; eauto.
    + apply in_hash_ops in I. destruct I as (a & hh & -> & d & E & I). cbn [op_good]. apply Ga.
      * eapply (lo_entries _ _ L); eauto.
      * destruct (is_payload f); cbn; auto.
    + apply is_dir_cases in D. destruct D as [->|D]; auto. right. eapply wf_good; eauto. eapply od_get_some_key; eauto.
  - constructor; [|constructor]. apply Lit. reflexivity.
  - destruct h; [|constructor]. unfold multibag_ops. 
    assert (G : forall l, (forall x, In x l -> op_good x) -> Forall op_good l) by (intros l; apply Forall_forall).
    apply G. intros x [<-|[<-|[<-|[<-|[]]]]]; cbn [op_good]; [right| | |]; apply Lit; reflexivity.
Qed.

Lemma bag_wf s o b m h ms lu t : layout_ok s h -> one_bag s o m h ms lu b t -> wf_tree t.
Proof. intros L (c & _ & R & _). eapply run_ops_wf; [|apply wf_nil|exact R]. apply bag_ops_good. exact L. Qed.

(** A weaker fact that needs no hypotheses. *)
Lemma run_op_nodup t o t' : NoDup (od_keys t) -> run_op t o = Ok t' -> NoDup (od_keys t').
Proof.
  intros Nd H.
  assert (Wf : forall p c t', write_file p c t = Ok t' -> NoDup (od_keys t')).
  { intros p c t1 E. apply write_file_ok2 in E. destruct E as (-> & _). apply od_set_NoDup. exact Nd. }
  destruct o as [p|p|p c|p c|p c]; cbn [run_op] in *; eauto.
  - apply mkdir_ok2 in H. destruct H as (-> & _). apply od_set_NoDup. exact Nd.
  - unfold makedirs in H. clear Wf. revert t Nd H. generalize (prefixes p).
    induction l as [|q l IH]; intros t Nd H; cbn [foldM] in H; [inversion H; subst; auto|].
    apply bind_ok in H. destruct H as (t1 & H1 & H2). eapply (IH t1); [|exact H2].
    destruct (exists_ q t); [inversion H1; subst; auto|]. apply mkdir_ok2 in H1. destruct H1 as (-> & _).
    apply od_set_NoDup. exact Nd.
  - destruct (write_file p c t) eqn:E; inversion H; subst. eauto.
Qed.

Lemma run_ops_nodup ops : forall t t', NoDup (od_keys t) -> run_ops ops t = Ok t' -> NoDup (od_keys t').
Proof.
  unfold run_ops. induction ops as [|o ops IH]; intros t t' W H; cbn [foldM] in H.
  - inversion H; subst; auto.
  - apply bind_ok in H. destruct H as (t1 & H1 & H2). eapply IH; [|exact H2]. eapply run_op_nodup; eauto.
Qed.

(** ** Hard links *)

Section Links.
  Variable src : tree.
  Variable L : pystr -> Prop.
  Definition link_ok (o : op) : Prop :=
    match o with
    | OWrite p _ | OAppend p _ => ~ L p
    | OCopy p c => L p /\ read p src = Some c
    | _ => True
    end.

  Lemma od_set_id p v (t : tree) : od_get p t = Some v -> od_set p v t = t.
  Proof.
    induction t as [|[k x] t IH]; cbn; [discriminate|]. destruct (streq_reflect p k) as [->|D]; intros H.
    - inversion H; subst. reflexivity.
    - rewrite IH; auto.
  Qed.

  Lemma run_linked_one o t lk : link_ok o -> (forall p, In p lk -> L p) ->
    match run_op t o with
    | Ok t' => exists lk', run_linked {| l_src := src; l_out := t; l_links := lk |} o =
                           Ok {| l_src := src; l_out := t'; l_links := lk' |} /\ forall p, In p lk' -> L p
    | Err e => run_linked {| l_src := src; l_out := t; l_links := lk |} o = Err e
    end.
  Proof.
    intros Ho Hl.
    assert (W : forall p c, ~ L p ->
      match write_file p c t with
      | Ok t' => linked_write p c {| l_src := src; l_out := t; l_links := lk |} =
                 Ok {| l_src := src; l_out := t'; l_links := lk |}
      | Err e => linked_write p c {| l_src := src; l_out := t; l_links := lk |} = Err e
      end).
    { intros p c Np. unfold linked_write. cbn [l_out l_src l_links].
      destruct (write_file p c t); cbn [bind]; [|reflexivity].
      destruct (str_in p lk) eqn:E; [|reflexivity]. apply str_in_iff in E. exfalso. auto. }
    destruct o as [p|p|p c|p c|p c]; cbn [run_op run_linked link_ok l_out l_src l_links] in *.
    - destruct (mkdir p t); cbn [bind]; eauto.
    - destruct (makedirs p t); cbn [bind]; eauto.
    - specialize (W p c Ho). destruct (write_file p c t); eauto.
    - specialize (W p (match read p t with Some c0 => c0 ++ c | None => c end) Ho). destruct (write_file p _ t); eauto.
    - destruct Ho as [Lp Rp]. destruct (exists_ p t).
      + unfold linked_write. cbn [l_out l_src l_links]. destruct (write_file p c t); cbn [bind]; [|reflexivity].
        exists lk. split; auto. destruct (str_in p lk); auto. rewrite od_set_id; auto. apply read_get. exact Rp.
      + destruct (write_file p c t); [|reflexivity]. exists (p :: lk). split; auto. intros q [<-|I]; auto.
  Qed.

  Lemma run_linked_all ops : forall t lk, Forall link_ok ops -> (forall p, In p lk -> L p) ->
    match run_ops ops t with
    | Ok t' => exists lk', foldM run_linked ops {| l_src := src; l_out := t; l_links := lk |} =
                           Ok {| l_src := src; l_out := t'; l_links := lk' |}
    | Err e => foldM run_linked ops {| l_src := src; l_out := t; l_links := lk |} = Err e
    end.
  Proof.
    unfold run_ops. induction ops as [|o ops IH]; intros t lk F Hl; cbn [foldM]; [eauto|].
    inversion F; subst. pose proof (run_linked_one o t lk ltac:(assumption) Hl) as R.
    destruct (run_op t o) as [t1|e]; cbn [bind].
    - destruct R as (lk' & -> & Hl'). cbn [bind]. apply IH; auto.
    - rewrite R. reflexivity.
  Qed.
End Links.

Lemma with_tree_id s : with_tree s (so_tree s) = s.
Proof. destruct s. reflexivity. Qed.

Definition no_own (m : manifest) (h : bool) : Prop := forall f, In f (m_contents m) -> ~ own_file h f.

Lemma bag_links s o b m h ms lu : no_own m h ->
  Forall (link_ok (so_tree s) (fun p => p = F_bagit \/ ~ own_file h p)) (fst (bag_ops s o b m h ms lu)).
Proof.
  intros Hno. set (L := fun p => p = F_bagit \/ ~ own_file h p).
  assert (Ho : forall p, own_file h p -> streq p F_bagit = false -> ~ L p).
  { intros p O D [E|E]; auto. subst. discriminate. }
  assert (Hs : Forall (link_ok (so_tree s) L) (start_ops s)).
  { apply Forall_forall. intros x I. apply in_start_ops in I. destruct I as [->|(a & -> & _)]; cbn [link_ok]; auto.
    apply Ho; [apply man_own|reflexivity]. }
  unfold bag_ops. destruct (read F_bagit (so_tree s)) as [c|] eqn:Rc; cbn [fst]; [|exact Hs].
  rewrite !Forall_app. repeat split; auto.
  - constructor; [|constructor]. cbn [link_ok]. split; auto. left; reflexivity.
  - apply Forall_forall. intros x I. apply in_flat_map in I. destruct I as (f & If & I). apply in_path_ops in I.
    destruct I as [(cc & Rf & [->|[->|I]])|(_ & D & ->)]; cbn [link_ok]; auto.
    + split; auto. right. apply Hno. exact If.
    + apply in_hash_ops in I. destruct I as (a & hh & -> & _). cbn [link_ok]. destruct (is_payload f).
      * apply Ho; [apply man_own|reflexivity].
      * apply Ho; [apply tag_own|reflexivity].
  - constructor; [|constructor]. apply Ho; [apply own_info|reflexivity].
  - destruct h; [|constructor]. unfold multibag_ops.
    repeat apply Forall_cons; try apply Forall_nil; cbn [link_ok]; auto; (apply Ho; [|reflexivity]);
      [apply own_members|apply own_lookup|apply own_agg]; reflexivity.
Qed.

Lemma apply_linked s o mhs : Forall (fun mh => no_own (fst mh) (snd mh)) mhs ->
  forall a, foldM (apply_one_linked s o) mhs (a, so_tree s) =
            let? a' := foldM (apply_one s o) mhs a in Ok (a', so_tree s).
Proof.
  induction 1 as [|[m h] mhs Hm F IH]; intros a; [reflexivity|]. cbn [foldM fst snd] in *.
  unfold apply_one_linked at 1, apply_one at 1. rewrite with_tree_id.
  destruct (next_name m (a_naming a)) as [[name it]|e]; cbn [bind]; [|reflexivity].
  destruct name as [b|]; cbn [bind]; [|reflexivity].
  destruct (od_has b (a_out a)); cbn [bind]; [reflexivity|].
  set (ms := push_member b (a_members a)). set (lu := fold_left (add_lookup b) (plan_files s m) (a_lookup a)).
  pose proof (bag_links s o b m h ms lu Hm) as Fl.
  destruct (bag_ops s o b m h ms lu) as [ops fin] eqn:Eo. cbn [fst] in Fl.
  pose proof (run_linked_all (so_tree s) _ ops [] [] Fl ltac:(intros ? [])) as R. unfold run_linked_ops.
  destruct (run_ops ops []) as [t|e]; cbn [bind].
  - destruct R as (lk & ->). cbn [bind]. destruct fin as [[]|e]; cbn [bind]; [|reflexivity]. cbn [l_src l_out].
    apply IH.
  - rewrite R. reflexivity.
Qed.

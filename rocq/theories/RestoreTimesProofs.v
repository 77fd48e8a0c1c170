(** Proofs about modification times. *)
Require Import String NArith ZArith PeanoNat Bool List Lia.
From Verif Require Import PyBase PyFacts Tsv Fs FsFacts HeadBag BagIt BagItProofs Split SplitApply SplitApplyProofs SplitApplyProofs2 SplitApplyProofs8 Props_SplitApply Restore RestoreProofs RestoreProofs2 RestoreProofs3 RestoreTimes.
Import ListNotations.
Open Scope N_scope.

(** ** The trees are those of the model without times *)

(** If all times are known, both models end in the same way; in any case the
    one with times only adds errors. *)
Definition sim {A B} (known : Prop) (f : A -> B) (r : res A) (r' : res B) : Prop :=
  match r with
  | Ok a => r' = Ok (f a)
  | Err e => r' = Err e \/ ~ known
  end.

Lemma sim_bind {A B A' B'} (k : Prop) (f : A -> A') (g : B -> B') r r' (h : A -> res B) h' :
  sim k f r r' -> (forall a, r = Ok a -> sim k g (h a) (h' (f a))) -> sim k g (bind r h) (bind r' h').
Proof.
  intros S H. destruct r as [a|e]; cbn [sim bind] in *.
  - rewrite S. cbn [bind]. apply H. reflexivity.
  - destruct S as [->|S]; [left; reflexivity|right; exact S].
Qed.

Lemma sim_foldM {A A' X} (k : Prop) (f : A -> A') (h : A -> X -> res A) h' l :
  (forall a x, In x l -> sim k f (h a x) (h' (f a) x)) -> forall a, sim k f (foldM h l a) (foldM h' l (f a)).
Proof.
  induction l as [|x l IH]; intros H a; cbn [foldM]; [reflexivity|].
  eapply sim_bind; [apply H; left; reflexivity|]. intros b _. apply IH. intros. apply H. right; auto.
Qed.

Lemma sim_same {A} (k : Prop) (r : res A) : sim k (fun x => x) r r.
Proof. destruct r; [reflexivity|left; reflexivity]. Qed.

Section Times.
Variable clock : nat -> Z.
Variable mt : pystr -> pystr -> option Z.

Definition two (s : world * list pystr) : tree * list pystr := (w_tree (fst s), snd s).

Lemma sim_write k p c w : sim k w_tree (t_write clock p c w) (write_file p c (w_tree w)).
Proof. unfold t_write. destruct (write_file p c (w_tree w)); [reflexivity|left; reflexivity]. Qed.

Definition known (src : tree) (st : pystr -> option Z) : Prop := forall p, od_get p src <> None -> st p <> None.

Lemma sim_file ow src st d s f : od_get (pjoin d f) src <> None ->
  sim (known src st) two (t_file clock ow src st d s f) (restore_item ow src (two s) (IFile d f)).
Proof.
  intros E. destruct s as [w u]. unfold t_file, two. cbn [restore_item fst snd].
  apply sim_bind with (f := w_tree).
  - destruct (ow && exists_ (pjoin d f) (w_tree w)); [|reflexivity]. destruct (remove_file _ _); [reflexivity|left; reflexivity].
  - intros w1 _. destruct (exists_ (pjoin d f) (w_tree w1)); [reflexivity|].
    destruct (replicate_ro CopyDone src (w_tree w1) (pjoin d f)) as [t [x|e]]; [|left; reflexivity].
    destruct (st (pjoin d f)) eqn:Es; [reflexivity|]. right. intros K. exact (K _ E Es).
Qed.

Lemma sim_dir ow src st d s f : od_get (pjoin d f) src <> None ->
  sim (known src st) two (t_dir clock st d s f) (restore_item ow src (two s) (IDir d f)).
Proof.
  intros E. destruct s as [w u]. unfold t_dir, two. cbn [restore_item fst snd].
  destruct (exists_ (pjoin d f) (w_tree w)); [reflexivity|]. destruct (makedirs _ _) as [t|e]; [|left; reflexivity]. cbn [bind].
  destruct (st (pjoin d f)) eqn:Es; [reflexivity|]. right. intros K. exact (K _ E Es).
Qed.

Lemma foldM_map {A X Y} (g : X -> Y) (h : A -> Y -> res A) l : forall a, foldM h (map g l) a = foldM (fun a x => h a (g x)) l a.
Proof. induction l as [|x l IH]; intros a; cbn [map foldM]; [reflexivity|]. destruct (h a (g x)); cbn [bind]; auto. Qed.

Lemma foldM_flat {A X Y} (g : X -> list Y) (h : A -> Y -> res A) l : forall a, foldM h (flat_map g l) a = foldM (fun a x => foldM h (g x) a) l a.
Proof. induction l as [|x l IH]; intros a; cbn [flat_map foldM]; [reflexivity|]. rewrite foldM_app. destruct (foldM h (g x) a); cbn [bind]; auto. Qed.

(** The steps in one directory. *)
Definition t_item (ow : bool) (src : tree) (st : pystr -> option Z) (s : world * list pystr) (i : item) : res (world * list pystr) :=
  match i with
  | IRoot _ => Ok s
  | IFile d f => t_file clock ow src st d s f
  | IDir d f => t_dir clock st d s f
  end.

Definition t_end (rm : Z) (d : pystr) (w : world) : world := if Z.eqb rm 0 then w else set_mtime d rm w.

Lemma t_block_items ow skip src st s d :
  t_block clock ow skip src st s (d, subdirs_in d src, files_in d src) =
  if skipped_root skip d then Ok s
  else if exists_ d (w_tree (fst s)) then
    let? (w, u) := foldM (t_item ow src st) (dir_items skip src d) s in Ok (t_end (w_mtime (fst s) d) d w, u)
  else Err EOS.
Proof.
  unfold t_block. destruct (skipped_root skip d); [reflexivity|]. destruct (exists_ d _); [|reflexivity].
  unfold dir_items. rewrite foldM_app, foldM_map. cbn [t_item].
  change (fun a x => t_file clock ow src st d a x) with (t_file clock ow src st d).
  destruct (foldM _ (filter _ (files_in d src)) s) as [s1|e]; [|reflexivity]. cbn [bind]. rewrite foldM_map. reflexivity.
Qed.

Lemma sim_item ow src st s i : fits src i -> sim (known src st) two (t_item ow src st s i) (restore_item ow src (two s) i).
Proof.
  intros (_ & _ & Hs & _). destruct i as [d|d f|d f]; [destruct Hs| |]; cbn [t_item path_of] in *.
  - apply sim_file. congruence.
  - apply sim_dir. congruence.
Qed.

Lemma sim_copy ow skip src st w : wf_tree src ->
  sim (known src st) two (t_copy clock ow skip src st w) (copy_items ow skip src (w_tree w)).
Proof.
  intros Ws. unfold t_copy, copy_items. rewrite items_blocks, foldM_flat. unfold bf_walk. rewrite foldM_map.
  change (w_tree w, @nil pystr) with (two (w, [])). apply sim_foldM. intros s d _. rewrite t_block_items. unfold block.
  destruct (skipped_root skip d); [reflexivity|]. destruct s as [w0 u0]. cbn [foldM]. unfold two at 2. cbn [restore_item fst snd].
  destruct (exists_ d (w_tree w0)); [|left; reflexivity]. cbn [bind]. change (w_tree w0, u0) with (two (w0, u0)).
  assert (Q : forall r r', sim (known src st) two r r' -> sim (known src st) two
       (let? (w1, u) := r in Ok (t_end (w_mtime w0 d) d w1, u)) r').
  { intros [[w1 u1]|e] r' H; cbn [bind sim] in *; [|exact H]. rewrite H. unfold two, t_end. cbn [fst snd]. destruct (Z.eqb _ 0); reflexivity. }
  apply Q. apply sim_foldM. intros a i Ii. apply sim_item. pose proof (dir_items_fits skip src d Ws) as F. rewrite Forall_forall in F. apply (F i Ii).
Qed.

(** ** Times while copying *)

(** What copying may do to times: [ex] is the directory that is being filled. *)
Definition held (ex : pystr -> Prop) (st : pystr -> option Z) (w w' : world) : Prop :=
  more (w_tree w) (w_tree w') /\
  forall q, q <> [] ->
    (forall c, od_get q (w_tree w) = Some (NFile c) -> w_mtime w' q = w_mtime w q) /\
    (od_get q (w_tree w) = Some NDir -> ~ ex q -> w_mtime w q <> 0%Z -> w_mtime w' q = w_mtime w q) /\
    (forall n m, od_get q (w_tree w) = None -> od_get q (w_tree w') = Some n -> ~ ex q -> st q = Some m ->
       n <> NDir \/ m <> 0%Z -> w_mtime w' q = m).

Lemma held_refl ex st w : held ex st w w.
Proof. split; [intros q n E; exact E|]. intros q _. split; [auto|]. split; [auto|]. intros n m E1 E2. congruence. Qed.

Lemma held_trans ex st a b c : held ex st a b -> held ex st b c -> held ex st a c.
Proof.
  intros [M1 H1] [M2 H2]. split; [intros q n E; apply M2, M1, E|]. intros q Q.
  destruct (H1 q Q) as (A1 & A2 & A3). destruct (H2 q Q) as (B1 & B2 & B3). split; [|split].
  - intros x E. rewrite (B1 x (M1 _ _ E)). apply (A1 x E).
  - intros E X Z. rewrite <- (A2 E X Z). apply B2; auto. rewrite (A2 E X Z). exact Z.
  - intros n m E1 E2 X S K. destruct (od_get q (w_tree b)) as [n'|] eqn:Eb.
    + assert (n' = n) by (pose proof (M2 _ _ Eb); congruence). subst n'. pose proof (A3 n m E1 eq_refl X S K) as T.
      destruct n as [|x].
      * rewrite B2; auto. rewrite T. destruct K; congruence.
      * rewrite (B1 x eq_refl). exact T.
    + apply (B3 n m); auto.
Qed.

Lemma item_held src st d i w u w' u' : wf_tree src -> wf_tree (w_tree w) -> fits src i -> in_dir d i -> exists_ d (w_tree w) = true ->
  t_item false src st (w, u) i = Ok (w', u') -> held (eq d) st w w' /\ wf_tree (w_tree w') /\ exists_ d (w_tree w') = true.
Proof.
  intros Ws Wd F Di Ed H. pose proof (sim_item false src st (w, u) i F) as S. rewrite H in S. cbn [sim] in S.
  unfold two in S. cbn [fst snd] in S.
  assert (Dn : dirname (path_of i) = d).
  { destruct F as (_ & Dn & _). destruct i; cbn [in_dir] in Di; [destruct Di| |]; congruence. }
  destruct (step_ok _ _ _ _ _ _ Ws Wd F (eq_ind_r (fun x => exists_ x (w_tree w) = true) Ed Dn) S) as (A & W' & _).
  pose proof (adds_more _ _ _ _ A) as M. split; [|split; [exact W'|eapply more_exists; eauto]].
  destruct F as (G & _ & Hs & _). pose proof (good_path_nonempty _ G) as Ne.
  assert (K : w' = w \/ od_get (path_of i) (w_tree w) = None /\ exists m, st (path_of i) = Some m /\
            forall q, w_mtime w' q = if streq q (path_of i) then m else if streq q d then w_mtime w' q else w_mtime w q).
  { destruct i as [e|e f|e f]; [destruct Di| |]; cbn [t_item path_of in_dir] in *; subst e.
    - unfold t_file in H. cbn [andb bind] in H. destruct (exists_ (pjoin d f) (w_tree w)) eqn:E; [inversion H; subst; left; reflexivity|].
      right. split; [apply exists_get_false; auto|]. destruct (replicate_ro CopyDone src (w_tree w) (pjoin d f)) as [t [x|e]]; [|discriminate H].
      destruct (st (pjoin d f)) as [m|]; [|discriminate H]. exists m. split; [reflexivity|]. inversion H; subst w' u'. intros q. cbn [set_mtime stamp with_tree w_mtime].
      rewrite Dn. destruct (streq q (pjoin d f)), (streq q d); reflexivity.
    - unfold t_dir in H. destruct (exists_ (pjoin d f) (w_tree w)) eqn:E; [inversion H; subst; left; reflexivity|].
      right. split; [apply exists_get_false; auto|]. destruct (makedirs (pjoin d f) (w_tree w)) as [t|e]; [|discriminate H]. cbn [bind] in H.
      destruct (st (pjoin d f)) as [m|]; [|discriminate H]. exists m. split; [reflexivity|]. inversion H; subst w' u'. intros q. cbn [set_mtime stamp with_tree w_mtime].
      rewrite Dn. destruct (streq q (pjoin d f)), (streq q d); reflexivity. }
  destruct K as [->|(En & m & Em & Tm)]; [apply held_refl|]. split; [exact M|]. intros q Q.
  assert (Pd : forall c, d <> [] -> od_get d (w_tree w) <> Some (NFile c)).
  { intros c Nd E. assert (P : od_get (path_of i) (w_tree w') = Some (node_of src i)) by (rewrite (A (path_of i)), En, streq_refl; reflexivity).
    apply (get_parent _ _ _ W') in P. rewrite Dn in P. unfold is_dir in P. destruct d as [|x d]; [congruence|]. rewrite (M _ _ E) in P. discriminate P. }
  rewrite (Tm q). destruct (streq_reflect q (path_of i)) as [->|Np].
  - split; [intros c E; congruence|]. split; [intros E; congruence|]. intros n m' _ _ _ Em' _. congruence.
  - destruct (streq_reflect q d) as [->|Nd].
    + split; [intros c E; exfalso; exact (Pd c Q E)|]. split; [intros _ X; exfalso; apply X; reflexivity|]. intros n m' _ _ X. exfalso; apply X; reflexivity.
    + split; [auto|]. split; [auto|]. intros n m' E E'. rewrite (A q), E in E'. destruct (streq_reflect q (path_of i)); [congruence|discriminate E'].
Qed.

Lemma items_held src st d l : forall w u w' u', wf_tree src -> wf_tree (w_tree w) -> Forall (fun i => fits src i /\ in_dir d i) l ->
  exists_ d (w_tree w) = true -> foldM (t_item false src st) l (w, u) = Ok (w', u') ->
  held (eq d) st w w' /\ wf_tree (w_tree w').
Proof.
  induction l as [|i l IH]; intros w u w' u' Ws Wd F Ed H; cbn [foldM] in H.
  - inversion H; subst. split; [apply held_refl|exact Wd].
  - apply bind_ok in H. destruct H as ([w1 u1] & H1 & H2). inversion F as [|? ? [Fi Di] Fl]; subst.
    destruct (item_held _ _ _ _ _ _ _ _ Ws Wd Fi Di Ed H1) as (A & W1 & E1).
    destruct (IH _ _ _ _ Ws W1 Fl E1 H2) as (B & W2). split; [eapply held_trans; eauto|exact W2].
Qed.

Lemma copy_held skip src st w w' u : wf_tree src -> wf_tree (w_tree w) -> t_copy clock false skip src st w = Ok (w', u) ->
  held (fun _ => False) st w w' /\ wf_tree (w_tree w').
Proof.
  intros Ws. unfold t_copy, bf_walk. rewrite foldM_map. generalize ([] :: bf_dirs src) as ds. intros ds. generalize (@nil pystr) as u0.
  revert w w' u. induction ds as [|d ds IH]; intros w w' u u0 Wd H; cbn [foldM] in H.
  - inversion H; subst. split; [apply held_refl|exact Wd].
  - apply bind_ok in H. destruct H as ([w1 u1] & H1 & H2). rewrite t_block_items in H1. cbn [fst] in H1.
    assert (B : held (fun _ => False) st w w1 /\ wf_tree (w_tree w1)).
    { destruct (skipped_root skip d); [inversion H1; subst; split; [apply held_refl|exact Wd]|].
      destruct (exists_ d (w_tree w)) eqn:Ed; [|discriminate H1]. apply bind_ok in H1. destruct H1 as ([w2 u2] & H0 & H1). inversion H1; subst w1 u1. clear H1.
      destruct (items_held _ _ _ _ _ _ _ _ Ws Wd (dir_items_fits skip src d Ws) Ed H0) as [[M A] W2].
      assert (Et : w_tree (t_end (w_mtime w d) d w2) = w_tree w2) by (unfold t_end; destruct (Z.eqb _ 0); reflexivity). rewrite Et.
      split; [|exact W2]. split; [rewrite Et; exact M|]. rewrite Et. intros q Q. destruct (A q Q) as (A1 & A2 & A3).
      assert (Tm : q <> d -> w_mtime (t_end (w_mtime w d) d w2) q = w_mtime w2 q).
      { intros Nq. unfold t_end. destruct (Z.eqb _ 0); [reflexivity|]. cbn [set_mtime w_mtime]. destruct (streq_reflect q d); congruence. }
      destruct (streq_reflect q d) as [->|Nq].
      - assert (Ex : od_get d (w_tree w) <> None) by (apply exists_get; auto).
        assert (Td : w_mtime (t_end (w_mtime w d) d w2) d = if Z.eqb (w_mtime w d) 0 then w_mtime w2 d else w_mtime w d).
        { unfold t_end. destruct (Z.eqb _ 0); [reflexivity|]. cbn [set_mtime w_mtime]. rewrite streq_refl. reflexivity. }
        rewrite Td. split; [|split].
        + intros c E. rewrite (A1 c E). destruct (Z.eqb _ 0); reflexivity.
        + intros E _ Z. destruct (Z.eqb_spec (w_mtime w d) 0); congruence.
        + intros n m E. congruence.
      - rewrite (Tm Nq). split; [exact A1|]. split; [intros E _ Z; apply A2; auto|]. intros n m E1 E2 _ S K. apply (A3 n m); auto. }
    destruct B as [B W1]. destruct (IH _ _ _ _ W1 H2) as [C W']. split; [eapply held_trans; eauto|exact W'].
Qed.

(** ** Times while writing tag files *)

(** Nothing but the root and tag files gets a new time. *)
Definition calm (v : env) (w w' : world) : Prop := forall q, q <> [] -> ~ touched v q -> w_mtime w' q = w_mtime w q.

Lemma calm_refl v w : calm v w w.
Proof. intros q _ _. reflexivity. Qed.

Lemma calm_trans v a b c : calm v a b -> calm v b c -> calm v a c.
Proof. intros A B q Q T. rewrite (B q Q T). apply A; auto. Qed.

Lemma foldM_calm v {X} (f : world -> X -> res world) l : (forall w x w', In x l -> f w x = Ok w' -> calm v w w') ->
  forall w w', foldM f l w = Ok w' -> calm v w w'.
Proof.
  induction l as [|x l IH]; intros F w w' H; cbn [foldM] in H; [inversion H; subst; apply calm_refl|].
  apply bind_ok in H. destruct H as (w1 & H1 & H2). eapply calm_trans; [eapply F; [left; reflexivity|exact H1]|].
  apply IH; auto. intros. eapply F; eauto. right; auto.
Qed.

Lemma write_calm v p c w w' : touched v p -> dirname p = [] -> t_write clock p c w = Ok w' -> calm v w w'.
Proof.
  intros T D H. unfold t_write in H. apply bind_ok in H. destruct H as (t & _ & H). inversion H; subst w'. intros q Q Tq.
  cbn [stamp with_tree w_mtime]. destruct (streq_reflect q p) as [->|]; [contradiction|].
  destruct (exists_ p (w_tree w)); [reflexivity|]. cbn [stamp w_mtime]. rewrite D. destruct (streq_reflect q []); [contradiction|reflexivity].
Qed.

Lemma man_root v k a : sane v -> In k [K_man; K_tag] -> In a (e_algos v) -> touched v (man_name k a) /\ dirname (man_name k a) = [].
Proof.
  intros S K A. split; [left; exists k, a; auto|]. apply man_name_root; [|apply S; exact A].
  destruct K as [<-|[<-|[]]]; cbn; intuition discriminate.
Qed.

Lemma write_manifest_calm v k a d w w' : sane v -> In k [K_man; K_tag] -> In a (e_algos v) -> t_write_manifest clock k a d w = Ok w' -> calm v w w'.
Proof.
  intros S K A H. unfold t_write_manifest in H. destruct d; [inversion H; subst; apply calm_refl|].
  destruct (man_root v k a S K A) as [T D]. eapply write_calm; eauto.
Qed.

Lemma update_calm v es us w w' : sane v -> inner_nodup es -> (forall a p, checksum es a p <> None -> In a (e_algos v)) ->
  t_update_manifests clock v es us w = Ok w' -> calm v w w'.
Proof.
  intros S I Al H. unfold t_update_manifests in H. apply bind_ok in H. destruct H as ([info des] & _ & H).
  apply bind_ok in H. destruct H as (m & Hk & H).
  destruct (recorded_lk es us [] I) as (_ & A2 & _). destruct (kept_lk _ _ _ Hk) as (_ & _ & B3 & _). cbv zeta in *.
  revert H. apply foldM_calm. intros w0 [a d] w1 Im H.
  assert (Ka : In a (e_algos v)).
  { assert (X : In a (od_keys m)) by (apply in_map_iff; exists (a, d); auto). apply B3, A2 in X. destruct X as [(p & _ & C)|[]]. eauto. }
  unfold t_write_manifests in H. apply bind_ok in H. destruct H as (w2 & H1 & H2). cbn [fst snd] in *.
  eapply calm_trans; [eapply write_manifest_calm; [exact S| |exact Ka|exact H1]|eapply write_manifest_calm; [exact S| |exact Ka|exact H2]]; cbn; auto.
Qed.

Lemma sim_update k v es us w : sim k w_tree (t_update_manifests clock v es us w) (update_manifests v es us (w_tree w)).
Proof.
  unfold t_update_manifests, update_manifests. apply sim_bind with (f := fun x => x); [apply sim_same|]. intros [info des] _.
  apply sim_bind with (f := fun x => x); [apply sim_same|]. intros m _. apply sim_foldM. intros w0 [a d] _.
  unfold t_write_manifests, write_manifests. cbn [fst snd].
  assert (Q : forall kd d' w1, sim k w_tree (t_write_manifest clock kd a d' w1) (write_manifest kd a d' (w_tree w1))).
  { intros kd d' w1. unfold t_write_manifest, write_manifest. destruct d'; [reflexivity|apply sim_write]. }
  apply sim_bind with (f := w_tree); [apply Q|]. intros w1 _. apply Q.
Qed.

(** ** Whole bags *)

Lemma sim_from ow v skip b w : wf_tree (rb_tree b) ->
  sim (known (rb_tree b) (mt (rb_loc b))) w_tree (t_restore_from clock mt v ow skip b w) (restore_from v ow skip b (w_tree w)).
Proof.
  intros Wb. unfold t_restore_from, restore_from. destruct (streq (rb_loc b) (e_dest v)); [reflexivity|].
  apply sim_bind with (f := fun x => x); [apply sim_same|]. intros [info es] _.
  apply sim_bind with (f := two); [apply sim_copy; auto|]. intros [w1 u1] _. unfold two. cbn [fst snd].
  destruct u1; [reflexivity|apply sim_update].
Qed.

(** What the times are after one bag. *)
Definition kept_times (v : env) (st : pystr -> option Z) (w w' : world) : Prop :=
  forall q, q <> [] -> ~ touched v q ->
    (forall n, od_get q (w_tree w) = Some n -> n <> NDir \/ w_mtime w q <> 0%Z -> w_mtime w' q = w_mtime w q) /\
    (forall n m, od_get q (w_tree w) = None -> od_get q (w_tree w') = Some n -> st q = Some m ->
       n <> NDir \/ m <> 0%Z -> w_mtime w' q = m).

Lemma held_kept v st w w' : held (fun _ => False) st w w' -> kept_times v st w w'.
Proof.
  intros [M H] q Q _. destruct (H q Q) as (A1 & A2 & A3). split.
  - intros [|c] E K; [apply A2; auto; destruct K; congruence|apply (A1 c E)].
  - intros n m E1 E2 S K. apply (A3 n m); auto.
Qed.

Lemma from_times v skip b w w' : sane v -> wf_tree (rb_tree b) -> wf_tree (w_tree w) ->
  t_restore_from clock mt v false skip b w = Ok w' -> kept_times v (mt (rb_loc b)) w w'.
Proof.
  intros S Wb Wd H. pose proof (sim_from false v skip b w Wb) as Sm. rewrite H in Sm. cbn [sim] in Sm.
  unfold t_restore_from in H. destruct (streq (rb_loc b) (e_dest v)).
  { inversion H; subst. apply held_kept, held_refl. }
  apply bind_ok in H. destruct H as ([info es] & Ho & H). apply bind_ok in H. destruct H as ([w1 u] & Hc & H).
  destruct (copy_held _ _ _ _ _ _ Wb Wd Hc) as [Hh W1]. destruct u as [|x u]; [inversion H; subst; apply held_kept; auto|].
  assert (Al : forall a p, checksum es a p <> None -> In a (e_algos v)) by (intros; eapply open_algs; eauto).
  assert (I : inner_nodup es). { apply open_bag_ok in Ho. destruct Ho as (? & ? & ? & _ & _ & _ & Ho). eapply load_inner; eauto. }
  pose proof (update_calm v es _ _ _ S I Al H) as C.
  pose proof (sim_update True v es (x :: u) w1) as Su. rewrite H in Su. cbn [sim] in Su.
  destruct (update_manifests_ok v es _ _ _ S W1 I Al Su) as (_ & F & _).
  intros q Q Tq. destruct (held_kept v _ _ _ Hh q Q Tq) as [A B]. rewrite (C q Q Tq).
  rewrite (F q) by (intros X; apply Tq; left; exact X). split; auto.
Qed.

Lemma bags_times v skip bs : forall w w', sane v -> ~ In [] skip -> Forall (fun b => wf_tree (rb_tree b)) bs -> wf_tree (w_tree w) ->
  foldM (fun w b => t_restore_from clock mt v false skip b w) bs w = Ok w' ->
  forall q, q <> [] -> ~ touched v q ->
    (forall n, od_get q (w_tree w) = Some n -> n <> NDir \/ w_mtime w q <> 0%Z -> w_mtime w' q = w_mtime w q) /\
    (forall n before b after m, od_get q (w_tree w) = None -> od_get q (w_tree w') = Some n -> bs = before ++ b :: after ->
       Forall (fun x => od_get q (contrib v x) = None) before -> od_get q (contrib v b) <> None ->
       mt (rb_loc b) q = Some m -> n <> NDir \/ m <> 0%Z -> w_mtime w' q = m).
Proof.
  induction bs as [|b0 bs IH]; intros w w' S N0 Wb Wd H q Q Tq; cbn [foldM] in H.
  - inversion H; subst. split; [auto|]. intros n before b after m _ _ E. destruct before; discriminate E.
  - apply bind_ok in H. destruct H as (w1 & H1 & H2). inversion Wb as [|? ? Wb0 Wbs]; subst.
    assert (Tq' : ~ special v q) by (intros X; apply Tq; left; exact X).
    pose proof (sim_from false v skip b0 w Wb0) as Sm. rewrite H1 in Sm. cbn [sim] in Sm.
    destruct (restore_from_nodes v skip b0 _ _ S N0 Wb0 Wd Sm) as [W1 F1].
    destruct (from_times v skip b0 w w1 S Wb0 Wd H1 q Q Tq) as [A B].
    destruct (IH w1 w' S N0 Wbs W1 H2 q Q Tq) as [C D].
    assert (Sg : foldM (fun d b => restore_from v false skip b d) bs (w_tree w1) = Ok (w_tree w')).
    { assert (Sx : sim (forall b, In b bs -> known (rb_tree b) (mt (rb_loc b))) w_tree (foldM (fun w b => t_restore_from clock mt v false skip b w) bs w1)
         (foldM (fun d b => restore_from v false skip b d) bs (w_tree w1))).
      { apply sim_foldM. intros a x Ix. rewrite Forall_forall in Wbs. pose proof (sim_from false v skip x a (Wbs x Ix)) as Y.
        destruct (t_restore_from clock mt v false skip x a); cbn [sim] in *; [exact Y|]. destruct Y as [Y|Y]; auto. }
      rewrite H2 in Sx. exact Sx. }
    destruct (restore_bags_nodes v skip bs _ _ S N0 Wbs W1 Sg) as [_ F2].
    split.
    + intros n E K. rewrite <- (A n E K). apply (C n).
      * rewrite (F1 q Tq'), E. reflexivity.
      * destruct K as [K|K]; [left; exact K|right; rewrite (A n E); auto].
    + intros n before b after m E E' Eb Fb Gb Em K. destruct before as [|x before]; cbn [app] in Eb; inversion Eb; subst.
      * pose proof (F1 q Tq') as Eq. rewrite E in Eq. rewrite (F2 q Tq'), Eq in E'. destruct (gone skip q).
        { discriminate E'. }
        destruct (od_get q (contrib v b)) as [n0|] eqn:Ec; [|contradiction]. inversion E'; subst n0.
        rewrite <- (B n m E Eq Em K). apply (C n Eq). destruct K as [K|K]; [left; exact K|right; rewrite (B n m E Eq Em (or_intror K)); exact K].
      * inversion Fb as [|? ? Fx Fb']; subst. apply (D n before b after m); auto. rewrite (F1 q Tq'), E, Fx. destruct (gone skip q); reflexivity.
Qed.

Lemma baginfo_root v : touched v F_baginfo /\ dirname F_baginfo = [].
Proof. split; [right; left; reflexivity|reflexivity]. Qed.

Lemma start_calm v h w w' : t_start_info clock h w = Ok w' -> calm v w w'.
Proof.
  intros H. unfold t_start_info in H. destruct (read _ (hb_tree h)); [|inversion H; subst; apply calm_refl].
  destruct (baginfo_root v). eapply write_calm; eauto.
Qed.

Lemma fetch_calm v ns w w' : t_restore_fetch clock v ns w = Ok w' -> calm v w w'.
Proof.
  intros H. unfold t_restore_fetch in H. apply bind_ok in H. destruct H as (d & _ & H). destruct d; [inversion H; subst; apply calm_refl|].
  eapply write_calm; [| |exact H]; [right; right; reflexivity|reflexivity].
Qed.

Lemma save_calm v algs i w w' : sane v -> (forall a, In a algs -> In a (e_algos v)) -> t_save clock v algs i w = Ok w' -> calm v w w'.
Proof.
  intros S A H. unfold t_save in H. apply bind_ok in H. destruct H as (w1 & H1 & H). apply bind_ok in H. destruct H as (w2 & H2 & H).
  apply bind_ok in H. destruct H as (x & _ & H). inversion H; subst. destruct (baginfo_root v).
  eapply calm_trans; [eapply write_calm; eauto|]. revert H2. apply foldM_calm. intros w0 a w3 Ia Hx.
  destruct (man_root v K_tag a S (or_intror (or_introl eq_refl)) (A a Ia)) as [T D]. eapply write_calm; eauto.
Qed.

Lemma finish_calm v us rt bsize w w' : sane v -> t_finish clock v us rt bsize w = Ok w' -> calm v w w'.
Proof.
  intros S H. unfold t_finish in H. apply bind_ok in H. destruct H as ([info es] & _ & H). apply bind_ok in H. destruct H as (algs & Ha & H).
  pose proof (algorithms_in _ _ _ Ha) as A. apply bind_ok in H. destruct H as ([i w1] & H1 & H).
  assert (C : calm v w w1).
  { destruct rt; [|inversion H1; subst; apply calm_refl]. apply bind_ok in H1. destruct H1 as (t & _ & H1). apply bind_ok in H1. destruct H1 as (w2 & H2 & H1).
    inversion H1; subst. apply (save_calm v algs _ _ _ S A) in H2. intros q Q T. rewrite (H2 q Q T). cbn [stamp with_tree w_mtime].
    destruct (streq_reflect q []); [contradiction|reflexivity]. }
  destruct us; [|inversion H; subst; exact C]. apply bind_ok in H. destruct H as ([sz n] & _ & H). apply bind_ok in H. destruct H as (w2 & H2 & H).
  eapply calm_trans; [exact C|]. eapply calm_trans; eapply save_calm; eauto.
Qed.

Lemma sim_weak {A B} (k k' : Prop) (f : A -> B) r r' : (k' -> k) -> sim k f r r' -> sim k' f r r'.
Proof. intros H. destruct r; cbn [sim]; [auto|]. intros [X|X]; auto. Qed.

Lemma sim_fetch k v ns w : sim k w_tree (t_restore_fetch clock v ns w) (restore_fetch v ns (w_tree w)).
Proof.
  unfold t_restore_fetch, restore_fetch. apply sim_bind with (f := fun x => x); [apply sim_same|]. intros d _. destruct d; [reflexivity|apply sim_write].
Qed.

Lemma sim_start k h w : sim k w_tree (t_start_info clock h w) (start_info h (w_tree w)).
Proof. unfold t_start_info, start_info. destruct (read _ (hb_tree h)); [apply sim_write|reflexivity]. Qed.

Lemma sim_save k v algs i w : sim k w_tree (t_save clock v algs i w) (save v algs i (w_tree w)).
Proof.
  unfold t_save, save. apply sim_bind with (f := w_tree); [apply sim_write|]. intros w1 _.
  apply sim_bind with (f := w_tree); [apply sim_foldM; intros a x _; apply sim_write|]. intros w2 _.
  apply sim_bind with (f := fun x => x); [apply sim_same|]. intros _ _. reflexivity.
Qed.

Lemma sim_finish k v us rt bsize w : sim k w_tree (t_finish clock v us rt bsize w) (finish v us rt bsize (w_tree w)).
Proof.
  unfold t_finish, finish. apply sim_bind with (f := fun x => x); [apply sim_same|]. intros [info es] _.
  apply sim_bind with (f := fun x => x); [apply sim_same|]. intros algs _.
  apply sim_bind with (f := fun x : infod * world => (fst x, w_tree (snd x))).
  - destruct rt; [|reflexivity]. apply sim_bind with (f := fun x => x); [apply sim_same|]. intros t _.
    apply sim_bind with (f := w_tree); [apply (sim_save k v algs _ (stamp clock [] (with_tree t w)))|]. intros w1 _. reflexivity.
  - intros [i w1] _. cbn [fst snd]. destruct us; [|reflexivity].
    apply sim_bind with (f := fun x => x); [apply sim_same|]. intros [sz n] _.
    apply sim_bind with (f := w_tree); [apply sim_save|]. intros w2 _. apply sim_save.
Qed.

(** Restoring with times is restoring. *)
Lemma sim_restore (k : Prop) v us rt bsize ro h loc skip ms bs w :
  head_lists ro h = Ok (skip, ms) -> Forall2 (fun n b => e_find v n = Some b) (others h ms) bs ->
  Forall (fun b => wf_tree (rb_tree b) /\ (k -> known (rb_tree b) (mt (rb_loc b)))) (head_bag h loc :: bs) ->
  sim k w_tree (t_gather clock mt v ro h loc w) (gather v ro h loc (w_tree w)) /\
  sim k w_tree (t_restore clock mt v us rt bsize ro h loc w) (restore v us rt bsize ro h loc (w_tree w)).
Proof.
  intros Hl F2 K.
  assert (G : sim k w_tree (t_gather clock mt v ro h loc w) (gather v ro h loc (w_tree w))).
  { unfold t_gather, gather. rewrite Hl. cbn [bind]. inversion K as [|? ? [Wh Kh] Kb]; subst.
    apply sim_bind with (f := w_tree); [apply sim_start|]. intros w1 _.
    apply sim_bind with (f := w_tree); [exact (sim_weak _ _ _ _ _ Kh (sim_from false v skip (head_bag h loc) w1 Wh))|]. intros w2 _.
    apply sim_foldM. intros a n In'. unfold t_restore_member, restore_member. destruct (e_find v n) as [b|] eqn:En; [|left; reflexivity].
    assert (Ib : In b bs).
    { clear - F2 In' En. induction F2 as [|x y l l' Hx _ IH]; [destruct In'|]. destruct In' as [->|In']; [left; congruence|right; auto]. }
    rewrite Forall_forall in Kb. destruct (Kb b Ib) as [Wb Kn]. exact (sim_weak _ _ _ _ _ Kn (sim_from false v skip b a Wb)). }
  split; [exact G|]. unfold t_restore, restore. rewrite Hl. cbn [bind].
  apply sim_bind with (f := w_tree); [exact G|]. intros w1 _.
  apply sim_bind with (f := w_tree); [destruct (others h ms); [reflexivity|apply sim_fetch]|]. intros w2 _. apply sim_finish.
Qed.

Lemma t_members_bags v skip names : forall bs w, Forall2 (fun n b => e_find v n = Some b) names bs ->
  foldM (t_restore_member clock mt v false skip) names w = foldM (fun w b => t_restore_from clock mt v false skip b w) bs w.
Proof.
  induction names as [|n names IH]; intros bs w F; inversion F as [|? b ? bs' Hn Hs]; subst; [reflexivity|].
  cbn [foldM]. unfold t_restore_member at 1. rewrite Hn. destruct (t_restore_from clock mt v false skip b w); cbn [bind]; auto.
Qed.

Lemma restore_times v us rt bsize ro h loc skip ms bs w w' : sane v -> ~ In [] skip ->
  head_lists ro h = Ok (skip, ms) -> Forall2 (fun n b => e_find v n = Some b) (others h ms) bs ->
  wf_tree (hb_tree h) -> Forall (fun b => wf_tree (rb_tree b)) bs -> wf_tree (w_tree w) ->
  t_restore clock mt v us rt bsize ro h loc w = Ok w' ->
  restore v us rt bsize ro h loc (w_tree w) = Ok (w_tree w') /\
  forall q, q <> [] -> ~ touched v q -> rt && in_multibag q = false ->
    (forall n, od_get q (w_tree w) = Some n -> n <> NDir \/ w_mtime w q <> 0%Z -> w_mtime w' q = w_mtime w q) /\
    (forall n before b after m, od_get q (w_tree w) = None -> od_get q (w_tree w') = Some n -> head_bag h loc :: bs = before ++ b :: after ->
       Forall (fun x => od_get q (contrib v x) = None) before -> od_get q (contrib v b) <> None ->
       mt (rb_loc b) q = Some m -> n <> NDir \/ m <> 0%Z -> w_mtime w' q = m).
Proof.
  intros S N0 Hl F2 Wh Wb Wd H.
  destruct (sim_restore False v us rt bsize ro h loc skip ms bs w Hl F2) as [Sg Sr].
  { constructor; [split; [exact Wh|intros []]|]. eapply Forall_impl; [|exact Wb]. cbn beta. intros b Q. split; [exact Q|intros []]. }
  rewrite H in Sr. cbn [sim] in Sr. split; [exact Sr|]. intros q Q Tq Mq.
  destruct (restore_nodes v us rt bsize ro h loc skip ms bs _ _ S N0 Hl F2 Wh Wb Wd Sr) as [_ Nr].
  unfold t_restore in H. rewrite Hl in H. cbn [bind] in H. apply bind_ok in H. destruct H as (w1 & H1 & H). apply bind_ok in H. destruct H as (w2 & H2 & H3).
  rewrite H1 in Sg. cbn [sim] in Sg.
  destruct (gather_nodes v ro h loc skip ms bs _ _ S N0 Hl F2 Wh Wb Wd Sg) as [_ Ng].
  assert (C : calm v w1 w').
  { eapply calm_trans; [|eapply finish_calm; eauto]. destruct (others h ms); [inversion H2; subst; apply calm_refl|eapply fetch_calm; eauto]. }
  assert (Eq : od_get q (w_tree w') = od_get q (w_tree w1)).
  { rewrite (Nr q Tq), (Ng q), Mq; [reflexivity|intros X; apply Tq; left; exact X|intros X; apply Tq; right; left; exact X]. }
  unfold t_gather in H1. rewrite Hl in H1. cbn [bind] in H1. apply bind_ok in H1. destruct H1 as (w3 & H4 & H1). apply bind_ok in H1. destruct H1 as (w4 & H5 & H1).
  rewrite (t_members_bags v skip _ bs _ F2) in H1.
  assert (H6 : foldM (fun w b => t_restore_from clock mt v false skip b w) (head_bag h loc :: bs) w3 = Ok w1) by (cbn [foldM]; unfold head_bag; rewrite H5; exact H1).
  pose proof (start_calm v _ _ _ H4) as Cs. pose proof (sim_start True h w) as Ss. rewrite H4 in Ss. cbn [sim] in Ss.
  destruct (start_info_nodes h _ _ Wd Ss) as [W3 N3].
  destruct (bags_times v skip _ w3 w1 S N0 (Forall_cons (head_bag h loc) Wh Wb) W3 H6 q Q Tq) as [A B].
  assert (E3 : od_get q (w_tree w3) = od_get q (w_tree w)) by (apply N3; intros X; apply Tq; right; left; exact X).
  rewrite (C q Q Tq), Eq. rewrite E3, (Cs q Q Tq) in A. rewrite E3 in B. split; [exact A|exact B].
Qed.

End Times.

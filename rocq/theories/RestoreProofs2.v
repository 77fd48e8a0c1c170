(** * Lemmas on restoring: manifests, fetch.txt, saving *)

Require Import String NArith PeanoNat Bool List Lia Permutation.
From Verif Require Import PyBase PyFacts Tsv TsvProofs Fs FsFacts HeadBag BagIt BagItProofs Split SplitProofs2 SplitApply SplitApplyProofs SplitApplyProofs2 SplitApplyProofs8 Restore RestoreProofs.
Import ListNotations.
Open Scope N_scope.

(** ** Loading checksums *)

Lemma open_bag_ok v r loc t info es : open_bag v r loc t = Ok (info, es) ->
  exists c v97 v1, read F_bagit t = Some c /\ e_version v c = Ok (v97, v1) /\
    match read F_baginfo t with Some c => load_tags r c | None => Ok [] end = Ok info /\
    load_manifests (e_danger v loc) v1 r (bag_manifests (e_algos v) v97 t) = Ok es.
Proof.
  unfold open_bag. destruct (read F_bagit t) as [c|]; [|discriminate]. intros H.
  apply bind_ok in H. destruct H as ([v97 v1] & H1 & H). apply bind_ok in H. destruct H as (i & H2 & H).
  apply bind_ok in H. destruct H as (e & H3 & H). inversion H; subst. exists c, v97, v1. auto.
Qed.

Lemma in_filter_some {A} (l : list (option A)) x : In x (filter_some l) <-> In (Some x) l.
Proof.
  induction l as [|[a|] l IH]; cbn; [tauto| |].
  - rewrite IH. split; intros [H|H]; auto; left; congruence.
  - rewrite IH. split; auto. intros [H|H]; [discriminate|auto].
Qed.

Lemma in_bag_manifests algos v97 t a c : In (a, c) (bag_manifests algos v97 t) <->
  In a algos /\ (read (man_name K_man a) t = Some c \/ (v97 = true /\ read (man_name K_tag a) t = Some c)).
Proof.
  assert (K : forall k, In (a, c) (filter_some (map (fun a => match read (man_name k a) t with
      Some c => Some (a, c) | None => None end) algos)) <-> In a algos /\ read (man_name k a) t = Some c).
  { intros k. rewrite in_filter_some, in_map_iff. split.
    - intros (x & E & I). destruct (read (man_name k x) t) eqn:R; inversion E; subst. auto.
    - intros (I & R). exists a. rewrite R. auto. }
  unfold bag_manifests. rewrite in_app_iff, K. destruct v97.
  - rewrite K. tauto.
  - cbn [In]. split; [intros [|[]]; tauto|]. intros (I & [R|[X _]]); [auto|discriminate].
Qed.

Lemma load_algs d v1 r ms es a p : load_manifests d v1 r ms = Ok es -> checksum es a p <> None ->
  exists c, In (a, c) ms.
Proof.
  unfold load_manifests. rewrite load_flat. intros H C. apply load_ok in H. destruct H as (H & _).
  apply H in C. destruct C as [C|[h I]]; [cbn in C; congruence|]. apply listing_iff in I.
  destruct I as (text & _ & I & _). eauto.
Qed.

Lemma open_algs v r loc t info es a p : open_bag v r loc t = Ok (info, es) -> checksum es a p <> None -> In a (e_algos v).
Proof.
  intros H C. apply open_bag_ok in H. destruct H as (c & v97 & v1 & _ & _ & _ & H).
  destruct (load_algs _ _ _ _ _ _ _ H C) as [x I]. apply in_bag_manifests in I. tauto.
Qed.

(** Every path has each algorithm once. *)
Definition inner_nodup (es : entries) : Prop := forall p hs, od_get p es = Some hs -> NoDup (od_keys hs).

Lemma load_inner d v1 r ms es : load_manifests d v1 r ms = Ok es -> inner_nodup es /\ NoDup (od_keys es).
Proof.
  unfold load_manifests. rewrite load_flat.
  enough (G : forall l e e', inner_nodup e -> NoDup (od_keys e) -> foldM (add1 d v1) l e = Ok e' ->
            inner_nodup e' /\ NoDup (od_keys e')).
  { apply G; [intros p hs; discriminate|constructor]. }
  induction l as [|[a [h p]] l IH]; intros e e' I ND H; cbn [foldM] in H.
  - inversion H; subst; auto.
  - apply bind_ok in H. destruct H as (e1 & H1 & H2).
    assert (S : e1 = od_set p (od_set a h (match od_get p e with Some d => d | None => [] end)) e).
    { unfold add1, add_entry in H1. cbn [fst snd] in H1. destruct (d p); [discriminate|].
      unfold entries in *. destruct (od_get a _) as [h'|].
      - destruct (streq h' h); [|discriminate]. destruct v1; inversion H1; reflexivity.
      - inversion H1; reflexivity. }
    apply (IH e1 e'); auto; subst e1.
    + intros q hs. rewrite od_get_set. destruct (streq q p); [|apply I].
      intros [= <-]. apply od_set_NoDup. destruct (od_get p e) as [hs|] eqn:E; [eapply I; eauto|constructor].
    + apply od_set_NoDup. auto.
Qed.

(** ** Checksums by algorithm *)

Definition lk (m : by_alg) (a p : pystr) : option pystr :=
  match od_get a m with Some d => od_get p d | None => None end.

Lemma lk_alg_set a p h m a' p' : lk (alg_set a p h m) a' p' = if streq a' a && streq p' p then Some h else lk m a' p'.
Proof.
  unfold lk, alg_set. rewrite od_get_set. destruct (streq_reflect a' a) as [->|D]; cbn [andb]; auto.
  rewrite od_get_set. destruct (streq p' p); auto. unfold by_alg, dict in *. destruct (od_get a m); reflexivity.
Qed.

Lemma keys_alg_set a p h m x : In x (od_keys (alg_set a p h m)) <-> x = a \/ In x (od_keys m).
Proof. apply in_od_keys_set. Qed.

Definition tidy (m : by_alg) : Prop :=
  NoDup (od_keys m) /\ forall a d, od_get a m = Some d -> NoDup (od_keys d) /\ d <> [].

Lemma od_set_not_nil {V} k v (d : dict V) : od_set k v d <> [].
Proof. destruct d as [|[k' v'] d]; cbn; [discriminate|]. destruct (streq k k'); discriminate. Qed.

Lemma tidy_alg_set a p h m : tidy m -> tidy (alg_set a p h m).
Proof.
  intros [N1 N2]. split; [apply od_set_NoDup; auto|]. intros x d. unfold alg_set. rewrite od_get_set.
  destruct (streq x a); [|apply N2]. intros [= <-]. split; [|apply od_set_not_nil]. apply od_set_NoDup.
  destruct (od_get a m) eqn:E; [eapply N2; eauto|constructor].
Qed.

Lemma fold_alg_set p (hs : dict pystr) : forall m, NoDup (od_keys hs) -> let m' := fold_left (fun m ah => alg_set (fst ah) p (snd ah) m) hs m in
  (forall a q, lk m' a q = if streq q p then match od_get a hs with Some h => Some h | None => lk m a q end else lk m a q) /\
  (forall a, In a (od_keys m') <-> In a (od_keys hs) \/ In a (od_keys m)) /\ (tidy m -> tidy m').
Proof.
  induction hs as [|[a0 h0] hs IH]; intros m ND; cbn [fold_left].
  - split; [|split]; [intros a q; destruct (streq q p); reflexivity| |auto]. intros a. cbn. tauto.
  - cbn [od_keys map fst] in ND. inversion ND as [|? ? NI ND']; subst. cbn [fst snd].
    destruct (IH (alg_set a0 p h0 m) ND') as (I1 & I2 & I3). split; [|split].
    + intros a q. cbv zeta in I1. rewrite I1, lk_alg_set. cbn [od_get]. destruct (streq_reflect q p) as [->|D]; cbn [andb].
      * destruct (streq_reflect a a0) as [->|Da]; cbn [andb].
        -- apply od_get_none in NI. unfold dict in *. rewrite NI. reflexivity.
        -- reflexivity.
      * rewrite andb_false_r. reflexivity.
    + intros a. cbv zeta in I2. rewrite I2, keys_alg_set. cbn [od_keys map fst In]. unfold od_keys. intuition congruence.
    + intros T. apply I3. apply tidy_alg_set. auto.
Qed.

Lemma record_updated_lk es m p : inner_nodup es -> 
  (forall a q, lk (record_updated es m p) a q =
     if streq q p then match checksum es a p with Some h => Some h | None => lk m a q end else lk m a q) /\
  (forall a, In a (od_keys (record_updated es m p)) <-> checksum es a p <> None \/ In a (od_keys m)) /\
  (tidy m -> tidy (record_updated es m p)).
Proof.
  intros I. unfold record_updated, checksum. destruct (od_get p es) as [hs|] eqn:E.
  - destruct (fold_alg_set p hs m (I _ _ E)) as (A & B & C). split; [exact A|]. split; [|exact C].
    intros a. rewrite B. unfold entries, dict in *. pose proof (od_get_none a hs) as X.
    destruct (od_get a hs) eqn:G.
    + apply od_get_some_key in G. split; intros [Y|Y]; auto. left. discriminate.
    + split; intros [Y|Y]; auto; [|congruence]. exfalso. apply X; auto.
  - split; [intros; destruct (streq q p); reflexivity|]. split; [|auto]. intros. intuition congruence.
Qed.

Lemma recorded_lk es us : forall m, inner_nodup es -> let m' := fold_left (record_updated es) us m in
  (forall a q, lk m' a q = if str_in q us then match checksum es a q with Some h => Some h | None => lk m a q end else lk m a q) /\
  (forall a, In a (od_keys m') <-> (exists p, In p us /\ checksum es a p <> None) \/ In a (od_keys m)) /\
  (tidy m -> tidy m').
Proof.
  induction us as [|p us IH]; intros m I; cbn [fold_left].
  - split; [reflexivity|]. split; [|auto]. intros a. split; auto. intros [(p & [] & _)|]; auto.
  - destruct (record_updated_lk es m p I) as (A & B & C). destruct (IH (record_updated es m p) I) as (A' & B' & C').
    cbv zeta in *. split; [|split].
    + intros a q. rewrite A', A. change (str_in q (p :: us)) with (streq q p || str_in q us).
      destruct (streq_reflect q p) as [->|D]; cbn [orb].
      * destruct (str_in p us); destruct (checksum es a p); reflexivity.
      * reflexivity.
    + intros a. rewrite B', B. split.
      * intros [(x & X & Y)|[Y|Y]]; [left; exists x; split; [right|]; auto|left; exists p; split; [left|]; auto|auto].
      * intros [(x & [<-|X] & Y)|Y]; [auto|left; eauto|auto].
    + auto.
Qed.

Lemma keep_entry_lk ph l : forall m m',
  foldM (fun m alg =>
           match od_get alg m with
           | None => Ok m
           | Some d =>
               if od_has (fst ph) d then Ok m
               else match od_get alg (snd ph) with
                    | None => Err EKey
                    | Some h => Ok (alg_set alg (fst ph) h m)
                    end
           end) l m = Ok m' ->
  (forall a, In a l -> In a (od_keys m)) ->
  (forall a q, lk m' a q = match lk m a q with
                           | Some h => Some h
                           | None => if str_in a l && streq q (fst ph) then od_get a (snd ph) else None
                           end) /\
  (forall a, In a l -> lk m' a (fst ph) <> None) /\
  (forall a, In a (od_keys m') <-> In a (od_keys m)) /\ (tidy m -> tidy m').
Proof.
  induction l as [|a0 l IH]; intros m m' H K; cbn [foldM] in H.
  - inversion H; subst. split; [|split; [intros a []|split; tauto]].
    intros a q. destruct (lk m' a q); auto.
  - apply bind_ok in H. destruct H as (m1 & H1 & H2).
    assert (S : (forall a q, lk m1 a q = match lk m a q with Some h => Some h | None =>
                 if streq a a0 && streq q (fst ph) then od_get a (snd ph) else None end) /\
                lk m1 a0 (fst ph) <> None /\
                (forall a, In a (od_keys m1) <-> In a (od_keys m)) /\ (tidy m -> tidy m1)).
    { assert (Ka : In a0 (od_keys m)) by (apply K; left; auto). apply od_key_some in Ka. destruct Ka as [d Ka].
      unfold by_alg in *. rewrite Ka in H1. destruct (od_has (fst ph) d) eqn:Hh.
      - inversion H1; subst m1. apply od_has_iff in Hh. apply od_key_some in Hh. destruct Hh as [h Hh].
        assert (X : lk m a0 (fst ph) = Some h) by (unfold lk, by_alg in *; rewrite Ka; exact Hh). split.
        + intros a q. destruct (lk m a q) eqn:E; auto. destruct (streq_reflect a a0) as [->|]; cbn [andb]; auto.
          destruct (streq_reflect q (fst ph)) as [->|]; auto. congruence.
        + split; [congruence|]. split; tauto.
      - apply od_has_false in Hh. assert (X : lk m a0 (fst ph) = None) by (unfold lk, by_alg in *; rewrite Ka; exact Hh).
        destruct (od_get a0 (snd ph)) as [h|] eqn:E; [|discriminate]. inversion H1; subst m1. split; [|split; [|split]].
        + intros a q. rewrite lk_alg_set. destruct (streq_reflect a a0) as [->|Da]; cbn [andb].
          * destruct (streq_reflect q (fst ph)) as [->|Dq]; [rewrite X; auto|]. destruct (lk m a0 q); auto.
          * destruct (lk m a q); auto.
        + rewrite lk_alg_set, !streq_refl. discriminate.
        + intros a. rewrite keys_alg_set. split; [intros [->|]; auto|auto]. eapply od_get_some_key; eauto.
        + apply tidy_alg_set. }
    destruct S as (S1 & S2 & S3 & S4). destruct (IH _ _ H2) as (I1 & I2 & I3 & I4).
    { intros a Ia. apply S3. apply K. right; auto. }
    split; [|split; [|split]].
    + intros a q. rewrite I1, S1. change (str_in a (a0 :: l)) with (streq a a0 || str_in a l).
      destruct (lk m a q) eqn:E; auto. destruct (streq_reflect a a0) as [->|Da]; cbn [orb andb]; auto.
      destruct (streq_reflect q (fst ph)) as [->|Dq].
      * destruct (od_get a0 (snd ph)) eqn:G; auto. destruct (str_in a0 l); auto.
      * rewrite andb_false_r. reflexivity.
    + intros a [<-|Ia]; auto. rewrite I1. destruct (lk m1 a0 (fst ph)); [discriminate|congruence].
    + intros a. rewrite I3, S3. tauto.
    + auto.
Qed.

Lemma kept_lk (des : entries) : forall m m', foldM keep_entry des m = Ok m' ->
  (forall a q, lk m' a q = match lk m a q with
                           | Some h => Some h
                           | None => if str_in a (od_keys m) then checksum des a q else None
                           end) /\
  (forall a q, In a (od_keys m) -> In q (od_keys des) -> lk m' a q <> None) /\
  (forall a, In a (od_keys m') <-> In a (od_keys m)) /\ (tidy m -> tidy m').
Proof.
  induction des as [|[p hs] des IH]; intros m m' H; cbn [foldM] in H.
  - inversion H; subst. split; [|split; [intros a q _ []|split; tauto]].
    intros a q. destruct (lk m' a q); auto. destruct (str_in a (od_keys m')); reflexivity.
  - apply bind_ok in H. destruct H as (m1 & H1 & H2). unfold keep_entry in H1.
    apply keep_entry_lk in H1; [|auto]. destruct H1 as (A1 & A2 & A3 & A4). cbn [fst snd] in *.
    destruct (IH _ _ H2) as (B1 & B2 & B3 & B4). split; [|split; [|split]].
    + intros a q. rewrite B1, A1.
      assert (K : str_in a (od_keys m1) = str_in a (od_keys m)) by (apply eq_true_iff_eq; rewrite !str_in_iff; apply A3).
      rewrite K. unfold checksum at 2. cbn [od_get].
      destruct (lk m a q) eqn:E; auto. destruct (str_in a (od_keys m)) eqn:Ka; cbn [andb]; auto.
      destruct (streq_reflect q p) as [->|Dq]; [|reflexivity].
      assert (X : lk m1 a p <> None) by (apply A2; apply str_in_iff; auto).
      rewrite A1, E, Ka, streq_refl in X. cbn [andb] in X. destruct (od_get a hs); [reflexivity|congruence].
    + intros a q Ka [<-|Kq]; cbn [fst] in *.
      * rewrite B1. pose proof (A2 a Ka). destruct (lk m1 a p); [discriminate|congruence].
      * apply B2; auto. apply A3; auto.
    + intros a. rewrite B3, A3. tauto.
    + auto.
Qed.

(** ** The manifests that get written *)

Definition special (v : env) (p : pystr) : Prop :=
  exists k a, In k [K_man; K_tag] /\ In a (e_algos v) /\ p = man_name k a.

Definition sane (v : env) : Prop := forall a, In a (e_algos v) -> ~ In SLASH a.

Lemma write_manifest_ok k a d t t' : write_manifest k a d t = Ok t' ->
  t' = match d with [] => t | _ => od_set (man_name k a) (NFile (flat_map (fun ph => hash_line (snd ph) (fst ph)) d)) t end.
Proof.
  unfold write_manifest. destruct d as [|x d]; [intros [= <-]; auto|]. intros H. apply write_file_ok in H. exact H.
Qed.

Lemma write_manifest_wf v k a d t t' : sane v -> In a (e_algos v) -> In k [K_man; K_tag] -> wf_tree t ->
  write_manifest k a d t = Ok t' -> wf_tree t'.
Proof.
  intros S Ia Ik W H. unfold write_manifest in H. destruct d as [|x d]; [inversion H; subst; auto|].
  eapply (run_op_wf t (OWrite _ _)); [|auto|exact H]. apply man_good; auto.
Qed.

Definition man_text (pay : bool) (d : dict pystr) : pystr :=
  flat_map (fun ph => hash_line (snd ph) (fst ph)) (filter (fun ph => Bool.eqb (is_payload (fst ph)) pay) d).

Lemma write_manifests_ok v (m : by_alg) : forall t t', sane v -> (forall a, In a (od_keys m) -> In a (e_algos v)) ->
  NoDup (od_keys m) -> wf_tree t ->
  foldM write_manifests m t = Ok t' ->
  wf_tree t' /\
  (forall q, (forall k a, In k [K_man; K_tag] -> In a (od_keys m) -> q <> man_name k a) -> od_get q t' = od_get q t) /\
  (forall a d, od_get a m = Some d ->
     (forall b : bool, let k := if b then K_man else K_tag in
       od_get (man_name k a) t' = match filter (fun ph => Bool.eqb (is_payload (fst ph)) b) d with
                                  | [] => od_get (man_name k a) t
                                  | _ => Some (NFile (man_text b d))
                                  end)).
Proof.
  induction m as [|[a d] m IH]; intros t t' S K ND W H; cbn [foldM] in H.
  - inversion H; subst. split; auto. split; auto. intros a d; discriminate.
  - apply bind_ok in H. destruct H as (t1 & H1 & H2). unfold write_manifests in H1. cbn [fst snd] in H1.
    apply bind_ok in H1. destruct H1 as (t0 & H0 & H1).
    cbn [od_keys map fst] in ND. inversion ND as [|? ? NI ND']; subst.
    assert (Ia : In a (e_algos v)) by (apply K; left; auto).
    pose proof (write_manifest_wf v _ _ _ _ _ S Ia (or_introl eq_refl) W H0) as W0.
    pose proof (write_manifest_wf v _ _ _ _ _ S Ia (or_intror (or_introl eq_refl)) W0 H1) as W1.
    assert (K' : forall x, In x (od_keys m) -> In x (e_algos v)) by (intros; apply K; right; auto).
    destruct (IH _ _ S K' ND' W1 H2) as (W2 & F & G).
    apply write_manifest_ok in H0. apply write_manifest_ok in H1.
    assert (P1 : filter (fun ph : pystr * pystr => is_payload (fst ph)) d = filter (fun ph => Bool.eqb (is_payload (fst ph)) true) d).
    { apply filter_ext. intros x. destruct (is_payload (fst x)); reflexivity. }
    assert (P2 : filter (fun ph : pystr * pystr => negb (is_payload (fst ph))) d = filter (fun ph => Bool.eqb (is_payload (fst ph)) false) d).
    { apply filter_ext. intros x. destruct (is_payload (fst x)); reflexivity. }
    rewrite P1 in H0. rewrite P2 in H1.
    assert (Fa : forall q, (forall k, In k [K_man; K_tag] -> q <> man_name k a) -> od_get q t1 = od_get q t).
    { intros q Dq. assert (od_get q t1 = od_get q t0).
      { rewrite H1. destruct (filter (fun ph => Bool.eqb (is_payload (fst ph)) false) d); auto.
        apply od_get_set_other. apply Dq. right; left; auto. }
      rewrite H. rewrite H0. destruct (filter (fun ph => Bool.eqb (is_payload (fst ph)) true) d); auto.
      apply od_get_set_other. apply Dq. left; auto. }
    split; auto. split.
    + intros q Dq. rewrite F; [apply Fa|]; intros; apply Dq; auto; cbn [od_keys map fst In]; auto.
    + intros a' d' E b. cbn [od_get] in E. destruct (streq_reflect a' a) as [->|Da].
      * inversion E; subst d'. cbv zeta.
        rewrite F.
        2:{ intros k x Ik Ix X. destruct b; destruct Ik as [<-|[<-|[]]]; try discriminate; apply man_name_inj in X; subst x; contradiction. }
        destruct b; unfold man_text.
        -- assert (X : forall n, od_get (man_name K_man a) (od_set (man_name K_tag a) n t0) = od_get (man_name K_man a) t0).
           { intros. apply od_get_set_other. discriminate. }
           assert (Y : od_get (man_name K_man a) t1 = od_get (man_name K_man a) t0).
           { rewrite H1. destruct (filter (fun ph => Bool.eqb (is_payload (fst ph)) false) d); auto. }
           rewrite Y, H0. destruct (filter (fun ph => Bool.eqb (is_payload (fst ph)) true) d); auto. apply od_get_set_same.
        -- rewrite H1. destruct (filter (fun ph => Bool.eqb (is_payload (fst ph)) false) d); [|apply od_get_set_same].
           rewrite H0. destruct (filter (fun ph => Bool.eqb (is_payload (fst ph)) true) d); auto.
           apply od_get_set_other. discriminate.
      * cbv zeta. specialize (G a' d' E b). cbv zeta in G. rewrite G, Fa; auto.
        intros k Ik X. destruct b; destruct Ik as [<-|[<-|[]]]; try discriminate; apply man_name_inj in X; congruence.
Qed.

(** What [_update_manifests] does. *)
Lemma update_manifests_ok v es us dest dest' : sane v -> wf_tree dest -> inner_nodup es ->
  (forall a p, checksum es a p <> None -> In a (e_algos v)) ->
  update_manifests v es us dest = Ok dest' ->
  wf_tree dest' /\
  (forall q, ~ special v q -> od_get q dest' = od_get q dest) /\
  exists info des (m : by_alg), open_bag v IoText (e_dest v) dest = Ok (info, des) /\ tidy m /\
    (forall a, In a (od_keys m) <-> exists p, In p us /\ checksum es a p <> None) /\
    (forall a q, lk m a q = if str_in a (od_keys m) then
                              if str_in q us then match checksum es a q with Some h => Some h | None => checksum des a q end
                              else checksum des a q
                            else None) /\
    (forall a q, In a (od_keys m) -> In q (od_keys des) -> lk m a q <> None) /\
    (forall k a, In k [K_man; K_tag] -> ~ In a (od_keys m) -> od_get (man_name k a) dest' = od_get (man_name k a) dest) /\
    (forall a d, od_get a m = Some d ->
     (forall b : bool, let k := if b then K_man else K_tag in
       od_get (man_name k a) dest' = match filter (fun ph => Bool.eqb (is_payload (fst ph)) b) d with
                                     | [] => od_get (man_name k a) dest
                                     | _ => Some (NFile (man_text b d))
                                     end)).
Proof.
  intros S W I Al H. unfold update_manifests in H. apply bind_ok in H. destruct H as ([info des] & Ho & H).
  apply bind_ok in H. destruct H as (m & Hk & H).
  destruct (recorded_lk es us [] I) as (A1 & A2 & A3). destruct (kept_lk _ _ _ Hk) as (B1 & B2 & B3 & B4). cbv zeta in *.
  assert (T : tidy m). { apply B4. apply A3. split; [constructor|intros a d; discriminate]. }
  assert (Km : forall a, In a (od_keys m) <-> exists p, In p us /\ checksum es a p <> None).
  { intros a. rewrite B3, A2. split; [intros [|[]]; auto|auto]. }
  assert (Ka : forall a, In a (od_keys m) -> In a (e_algos v)).
  { intros a Ia. apply Km in Ia. destruct Ia as (p & _ & C). eauto. }
  destruct (write_manifests_ok v m _ _ S Ka (proj1 T) W H) as (W' & F & G).
  split; auto. split.
  { intros q Sq. apply F. intros k a Ik Ia ->. apply Sq. exists k, a. auto. }
  exists info, des, m. split; auto. split; auto. split; auto. split; [|split; [|split; [|exact G]]].
  - intros a q. rewrite B1, A1.
    assert (K : str_in a (od_keys (fold_left (record_updated es) us [])) = str_in a (od_keys m)).
    { apply eq_true_iff_eq; rewrite !str_in_iff. symmetry. apply B3. }
    rewrite K. change (lk [] a q) with (@None pystr). destruct (str_in q us) eqn:Uq; auto.
    destruct (checksum es a q) eqn:C; auto.
    assert (X : str_in a (od_keys m) = true).
    { apply str_in_iff. apply Km. exists q. apply str_in_iff in Uq. split; auto. congruence. }
    rewrite X. reflexivity.
  - intros a q Ia Iq. apply B2; auto. apply B3. auto.
  - intros k a Ik Na. apply F. intros k' a' Ik' Ia' X. destruct Ik as [<-|[<-|[]]]; destruct Ik' as [<-|[<-|[]]]; try discriminate;
      apply man_name_inj in X; subst; contradiction.
Qed.

(** * Lemmas on a split that stops *)
Require Import String NArith PeanoNat Bool List Lia.
From Verif Require Import PyBase PyFacts Tsv TsvProofs Fs FsFacts HeadBag HeadBagProofs HeadBagProofs2 HeadBagProofs3 BagIt BagItProofs BagItProofs2 Split SplitProofs3 SplitApply SplitApplyProofs SplitApplyProofs2 SplitApplyProofs3 SplitApplyProofs4 SplitApplyProofs5 SplitApplyProofs6 Props_SplitApply Props_SplitApply3 SplitStop SpecSplitStop.
Import ListNotations.
Open Scope nat_scope.

(** ** One bag *)

Lemma fold_const p v ops : (forall x, In x ops -> touches p x -> x = OWrite p v \/ x = OCopy p v) ->
  forall acc, fold_left (eff p) ops acc = acc \/ fold_left (eff p) ops acc = Some v.
Proof.
  induction ops as [|x ops IH]; intros H acc; [left; reflexivity|]. cbn [fold_left].
  assert (H' : forall y, In y ops -> touches p y -> y = OWrite p v \/ y = OCopy p v) by (intros y Iy; apply H; right; exact Iy).
  destruct (touches_dec p x) as [T|T].
  - assert (E : eff p acc x = Some v) by (destruct (H x (or_introl eq_refl) T) as [->| ->]; cbn [eff]; rewrite streq_refl; reflexivity).
    rewrite E. destruct (IH H' (Some v)) as [->| ->]; right; reflexivity.
  - rewrite eff_untouched by exact T. apply IH. exact H'.
Qed.

Lemma fold_kept p v ops : (forall x, In x ops -> touches p x -> x = OWrite p v \/ x = OCopy p v) ->
  fold_left (eff p) ops (Some v) = Some v.
Proof. intros H. destruct (fold_const p v ops H (Some v)); assumption. Qed.

Lemma run_ops_dirs d ops : forall t t', run_ops ops t = Ok t' -> is_dir d t = true -> is_dir d t' = true.
Proof.
  unfold run_ops. induction ops as [|x ops IH]; intros t t' H D; cbn [foldM] in H; [injection H as <-; exact D|].
  apply bind_ok in H. destruct H as (t1 & H1 & H). apply (IH t1 t' H). clear IH H.
  destruct d as [|c d]; [reflexivity|]. unfold is_dir in *. destruct (od_get (c :: d) t) as [[|f]|] eqn:E; try discriminate D.
  - destruct (run_op_dirp (c :: d) t x t1 H1) as [_ K]. unfold dirp in K. rewrite (K E). reflexivity.
Qed.

(** Whether a path is that of a manifest. *)
Lemma wrap_dec (a b p : pystr) : (exists x, p = a ++ x ++ b) \/ (forall x, p <> a ++ x ++ b).
Proof.
  destruct (startswith p a) eqn:E.
  - apply startswith_iff in E. destruct E as [r ->]. destruct (endswith r b) eqn:F.
    + apply endswith_iff in F. destruct F as [x ->]. left. exists x. reflexivity.
    + right. intros x Q. apply app_inv_head in Q. assert (F' : endswith r b = true) by (apply endswith_iff; exists x; exact Q). rewrite F in F'. discriminate F'.
  - right. intros x ->. assert (E' : startswith (a ++ x ++ b) a = true) by (apply startswith_iff; exists (x ++ b); reflexivity). rewrite E in E'. discriminate E'.
Qed.

Lemma man_dec p : (exists k a, (k = K_man \/ k = K_tag) /\ p = man_name k a) \/ (forall a, p <> man_name K_man a /\ p <> man_name K_tag a).
Proof.
  destruct (wrap_dec (U "manifest-") (U ".txt") p) as [[a E]|N1]; [left; exists K_man, a; split; [left; reflexivity|exact E]|].
  destruct (wrap_dec (U "tagmanifest-") (U ".txt") p) as [[a E]|N2]; [left; exists K_tag, a; split; [right; reflexivity|exact E]|].
  right. intros a. split; [exact (N1 a)|exact (N2 a)].
Qed.

Section Bag.
  Variables (s : source) (o : apply_opts) (b : pystr) (m : manifest) (h : bool) (ms : list pystr) (lu : dict pystr) (c : pystr).
  Let ops := bag_list s o b m h ms lu c.
  Hypothesis Hown : forall f, In f (m_contents m) -> ~ own_file true f.

  Definition is_man (p : pystr) : Prop := exists k a, p = man_name k a /\ (k = K_man \/ k = K_tag).

  Lemma not_planned p : own_file true p -> ~ In p (m_contents m).
  Proof. intros H I. exact (Hown p I H). Qed.

  (** The value that a path gets, if it is not a manifest. *)
  Lemma const_value p : (forall a, p <> man_name K_man a /\ p <> man_name K_tag a) ->
    exists v, forall x, In x ops -> touches p x -> x = OWrite p v \/ x = OCopy p v.
  Proof.
    intros Nm.
    exists (if streq p F_bagit then c else if streq p F_baginfo then tags_text (info_items s o b m h)
            else if streq p (pjoin MULTIBAG F_members) then if str_in p (m_contents m) then match read p (so_tree s) with Some x => x | None => [] end else members_out ms
            else if streq p (pjoin MULTIBAG F_lookup) then if str_in p (m_contents m) then match read p (so_tree s) with Some x => x | None => [] end else lookup_text lu
            else if streq p (pjoin MULTIBAG F_agginfo) then if str_in p (m_contents m) then match read p (so_tree s) with Some x => x | None => [] end else
                   match read F_baginfo (so_tree s) with Some c => decode (so_reader s) c | None => [] end
            else match read p (so_tree s) with Some x => x | None => [] end).
    intros x I T. unfold ops, bag_list in I. rewrite !in_app_iff in I. destruct I as [I|[I|[I|[I|I]]]].
    - apply in_start_ops in I. destruct I as [->|(a & -> & _)]; cbn [touches] in T; [contradiction|]. destruct (Nm a) as [N1 _]. contradiction.
    - destruct I as [<-|[]]. cbn [touches] in T. subst p. right. rewrite streq_refl. reflexivity.
    - apply in_flat_map in I. destruct I as (f & If & I). apply in_path_ops in I.
      destruct I as [(cc & R & [->|[->|I]])|(_ & _ & ->)]; cbn [touches] in T; try contradiction.
      + subst f. right. pose proof (Hown p If) as Np. assert (S : str_in p (m_contents m) = true) by (apply str_in_iff; exact If). rewrite S, R.
        destruct (streq_reflect p F_bagit) as [->|_]; [exfalso; apply Np; constructor|].
        destruct (streq_reflect p F_baginfo) as [->|_]; [exfalso; apply Np; constructor|].
        destruct (streq p (pjoin MULTIBAG F_members)); [reflexivity|]. destruct (streq p (pjoin MULTIBAG F_lookup)); [reflexivity|].
        destruct (streq p (pjoin MULTIBAG F_agginfo)); reflexivity.
      + apply in_hash_ops in I. destruct I as (a & x0 & -> & _). cbn [touches] in T. destruct (Nm a) as [N1 N2]. destruct (is_payload f); contradiction.
    - destruct I as [<-|[]]. cbn [touches] in T. subst p. left. reflexivity.
    - destruct h; [|destruct I]. cbn [multibag_ops In] in I. destruct I as [<-|[<-|[<-|[<-|[]]]]]; cbn [touches] in T; try contradiction; subst p; left.
      + rewrite (proj2 (str_in_false _ _) (not_planned (pjoin MULTIBAG F_members) (own_members true eq_refl))). reflexivity.
      + rewrite (proj2 (str_in_false _ _) (not_planned (pjoin MULTIBAG F_lookup) (own_lookup true eq_refl))). reflexivity.
      + rewrite (proj2 (str_in_false _ _) (not_planned (pjoin MULTIBAG F_agginfo) (own_agg true eq_refl))). reflexivity.
  Qed.

  (** A manifest is emptied at the start, and then lines are appended. *)
  Lemma man_start p : forall x, In x (start_ops s) -> touches p x -> x = OWrite p [] \/ x = OCopy p [].
  Proof.
    intros x I T. apply in_start_ops in I. destruct I as [->|(a & -> & _)]; cbn [touches] in T; [contradiction|]. subst p. left. reflexivity.
  Qed.

  Let rest := [OCopy F_bagit c] ++ flat_map (path_ops s) (m_contents m) ++ [OWrite F_baginfo (tags_text (info_items s o b m h))] ++ (if h then multibag_ops s ms lu else []).

  Lemma man_rest k a : k = K_man \/ k = K_tag -> forall x, In x rest -> touches (man_name k a) x -> exists y, x = OAppend (man_name k a) y.
  Proof.
    intros Hk x I T. assert (O : own_file true (man_name k a)) by (destruct Hk as [->| ->]; [apply man_own|apply tag_own]).
    unfold rest in I. rewrite !in_app_iff in I. destruct I as [I|[I|[I|I]]].
    - destruct I as [<-|[]]. cbn [touches] in T. destruct Hk as [->| ->]; discriminate T.
    - apply in_flat_map in I. destruct I as (f & If & I). apply in_path_ops in I.
      destruct I as [(cc & R & [->|[->|I]])|(_ & _ & ->)]; cbn [touches] in T; try contradiction.
      + subst f. exfalso. exact (Hown _ If O).
      + apply in_hash_ops in I. destruct I as (a0 & x0 & -> & _). cbn [touches] in T. rewrite T. eexists. reflexivity.
    - destruct I as [<-|[]]. cbn [touches] in T. destruct Hk as [->| ->]; discriminate T.
    - destruct h; [|destruct I]. cbn [multibag_ops In] in I. destruct I as [<-|[<-|[<-|[<-|[]]]]]; cbn [touches] in T; try contradiction; destruct Hk as [->| ->]; discriminate T.
  Qed.

  Lemma firstn_in {A} k (l : list A) x : In x (firstn k l) -> In x l.
  Proof. intros I. rewrite <- (firstn_skipn k l). apply in_app_iff. left. exact I. Qed.
  Lemma skipn_in {A} k (l : list A) x : In x (skipn k l) -> In x l.
  Proof. intros I. rewrite <- (firstn_skipn k l). apply in_app_iff. right. exact I. Qed.

  Lemma fold_append_some p l v : (forall x, In x l -> touches p x -> exists y, x = OAppend p y) ->
    exists more, fold_left (eff p) l (Some v) = Some (v ++ more).
  Proof. intros H. rewrite (fold_appends p l (Some v) H). eexists. reflexivity. Qed.

  Lemma stop_unfinished t k : run_ops ops [] = Ok t -> unfinished (run_until (firstn k ops) []) t.
  Proof.
    intros R. destruct (run_prefix ops k [] t R) as (u & R1 & R2). rewrite (run_until_ok _ _ _ R1). split.
    - intros p. apply (run_ops_dirs p _ _ _ R2).
    - intros p v Hv. rewrite (run_ops_read p _ _ _ R2), Hv. rewrite (run_ops_read p _ _ _ R1) in Hv. cbn [read od_get] in Hv.
      assert (D : (exists k0 a, (k0 = K_man \/ k0 = K_tag) /\ p = man_name k0 a) \/ (forall a, p <> man_name K_man a /\ p <> man_name K_tag a)).
      { destruct (man_dec p) as [X|X]; [left|right]; assumption. }
      destruct D as [(k0 & a & Hk & ->)|Nm].
      + assert (Eo : ops = start_ops s ++ rest) by reflexivity.
        destruct (Nat.le_gt_cases k (length (start_ops s))) as [L|L].
        * rewrite Eo, firstn_app in Hv. replace (k - length (start_ops s)) with 0 in Hv by lia. cbn [firstn] in Hv. rewrite app_nil_r in Hv.
          destruct (fold_const (man_name k0 a) [] (firstn k (start_ops s))) with (acc := @None pystr) as [X|X];
            [intros x I; apply man_start; exact (firstn_in _ _ _ I)|rewrite X in Hv; discriminate Hv|].
          rewrite X in Hv. injection Hv as <-. rewrite Eo, skipn_app. replace (k - length (start_ops s)) with 0 by lia. cbn [skipn]. rewrite fold_left_app.
          rewrite fold_kept by (intros x I; apply man_start; exact (skipn_in _ _ _ I)).
          destruct (fold_append_some (man_name k0 a) rest [] (man_rest k0 a Hk)) as [more ->]. exists more. split; [reflexivity|].
          intros Q. exfalso. destruct (Q a) as [Q1 Q2]. destruct Hk as [->| ->]; [apply Q1|apply Q2]; reflexivity.
        * rewrite Eo, skipn_app. rewrite skipn_all2 by lia. cbn [app].
          destruct (fold_append_some (man_name k0 a) (skipn (k - length (start_ops s)) rest) v) as [more ->];
            [intros x I; apply (man_rest k0 a Hk); exact (skipn_in _ _ _ I)|]. exists more. split; [reflexivity|].
          intros Q. exfalso. destruct (Q a) as [Q1 Q2]. destruct Hk as [->| ->]; [apply Q1|apply Q2]; reflexivity.
      + destruct (const_value p Nm) as [w Hw].
        destruct (fold_const p w (firstn k ops)) with (acc := @None pystr) as [X|X]; [intros x I; apply Hw; exact (firstn_in _ _ _ I)|rewrite X in Hv; discriminate Hv|].
        rewrite X in Hv. injection Hv as <-. exists []. rewrite app_nil_r. split; [|reflexivity].
        apply fold_kept. intros x I. apply Hw. exact (skipn_in _ _ _ I).
  Qed.

  (** Once bag-info.txt is there, only the lists may be missing. *)
  Lemma stop_but_lists t k : run_ops ops [] = Ok t -> read (U "bag-info.txt") (run_until (firstn k ops) []) <> None ->
    but_lists (run_until (firstn k ops) []) t.
  Proof.
    intros R Hi. destruct (run_prefix ops k [] t R) as (u & R1 & R2). rewrite (run_until_ok _ _ _ R1) in *.
    set (A := start_ops s ++ [OCopy F_bagit c] ++ flat_map (path_ops s) (m_contents m)).
    assert (Es : ops = A ++ OWrite F_baginfo (tags_text (info_items s o b m h)) :: (if h then multibag_ops s ms lu else [])).
    { unfold ops, bag_list, A. rewrite <- !app_assoc. reflexivity. }
    destruct (Nat.le_gt_cases k (length A)) as [L|L].
    - exfalso. apply Hi. rewrite (run_ops_read _ _ _ _ R1). cbn [read od_get]. apply fold_untouched. intros x I.
      assert (I' : In x A).
      { rewrite Es, firstn_app in I. replace (k - length A) with 0 in I by lia. cbn [firstn] in I. rewrite app_nil_r in I. exact (firstn_in _ _ _ I). }
      unfold A in I'. rewrite !in_app_iff in I'. destruct I' as [I'|[[<-|[]]|I']].
      + apply in_start_ops in I'. destruct I' as [->|(a & -> & _)]; cbn [touches]; [tauto|]. discriminate.
      + discriminate.
      + apply (info_untouched s (m_contents m)); [|exact I']. apply not_planned. constructor.
    - split.
      { intros p Np. destruct (is_dir p t) eqn:Dt.
        - destruct p as [|x p]; [reflexivity|]. destruct (run_ops_dirp (x :: p) _ _ _ R2) as [Dm _].
          destruct Dm as [Ex|Du]; [unfold dirp; unfold is_dir in Dt; destruct (od_get (x :: p) t) as [[|f]|]; [reflexivity|discriminate Dt|discriminate Dt]| |unfold is_dir; unfold dirp in Du; rewrite Du; reflexivity].
          exfalso. apply Exists_exists in Ex. destruct Ex as (y & Iy & My).
          rewrite Es, skipn_app, skipn_all2 in Iy by lia. cbn [app] in Iy. replace (k - length A) with (S (k - length A - 1)) in Iy by lia. cbn [skipn] in Iy.
          apply skipn_in in Iy. destruct h; [|destruct Iy]. cbn [multibag_ops In] in Iy.
          destruct Iy as [<-|[<-|[<-|[<-|[]]]]]; try exact My. apply Np. destruct My as [My|[]]. symmetry. exact My.
        - destruct (is_dir p u) eqn:Du; [|reflexivity]. rewrite (run_ops_dirs p _ _ _ R2 Du) in Dt. discriminate Dt. }
      intros p N1 N2 N3. rewrite (run_ops_read p _ _ _ R2). symmetry. apply fold_untouched. intros x I T.
      rewrite Es, skipn_app, skipn_all2 in I by lia. cbn [app] in I. replace (k - length A) with (S (k - length A - 1)) in I by lia. cbn [skipn] in I.
      apply skipn_in in I. destruct h; [|destruct I]. cbn [multibag_ops In] in I.
      destruct I as [<-|[<-|[<-|[<-|[]]]]]; cbn [touches] in T; [contradiction|apply N1; exact T|apply N2; exact T|apply N3; exact T].
  Qed.
End Bag.

(** * Lemmas on applying a split plan *)

Require Import String NArith PeanoNat Bool List Lia Permutation.
From Verif Require Import PyBase PyFacts Tsv TsvProofs Fs FsFacts HeadBag BagIt BagItProofs Split SplitApply.
Import ListNotations.
Open Scope N_scope.

(** ** Effect of operations on file contents *)

Definition eff (p : pystr) (acc : option pystr) (o : op) : option pystr :=
  match o with
  | OMkdir _ | OMakedirs _ => acc
  | OWrite q c | OCopy q c => if streq p q then Some c else acc
  | OAppend q c => if streq p q then Some (match acc with Some c0 => c0 ++ c | None => c end) else acc
  end.

Lemma write_file_ok2 p c t t' : write_file p c t = Ok t' ->
  t' = od_set p (NFile c) t /\ is_dir p t = false /\ is_dir (dirname p) t = true.
Proof.
  unfold write_file. destruct (is_dir p t) eqn:E; [discriminate|].
  destruct (is_dir (dirname p) t) eqn:E2; [|discriminate]. intros [= <-]. auto.
Qed.

Lemma mkdir_ok2 p t t' : mkdir p t = Ok t' ->
  t' = od_set p NDir t /\ exists_ p t = false /\ is_dir (dirname p) t = true.
Proof.
  unfold mkdir. destruct (exists_ p t) eqn:E; [discriminate|].
  destruct (is_dir (dirname p) t) eqn:E2; [|discriminate]. intros [= <-]. auto.
Qed.

Lemma not_exists p t : exists_ p t = false -> p <> [] /\ od_get p t = None.
Proof.
  unfold exists_, is_file, is_dir. intros H. apply orb_false_iff in H. destruct H as [H1 H2].
  destruct p; [discriminate|]. split; [discriminate|].
  destruct (od_get _ t) as [[|]|]; try discriminate; auto.
Qed.

Lemma mkdir_read p q t t' : mkdir q t = Ok t' -> read p t' = read p t.
Proof.
  intros H. apply mkdir_ok2 in H. destruct H as (-> & E & _). apply not_exists in E. destruct E as [_ E].
  unfold read. rewrite od_get_set. destruct (streq_reflect p q) as [->|D]; [rewrite E; reflexivity|reflexivity].
Qed.

Lemma makedirs_read p q t t' : makedirs q t = Ok t' -> read p t' = read p t.
Proof.
  unfold makedirs. generalize (prefixes q). intros l. revert t. induction l as [|x l IH]; intros t H.
  - inversion H; reflexivity.
  - cbn [foldM] in H. apply bind_ok in H. destruct H as (t1 & H1 & H2). rewrite (IH _ H2).
    destruct (exists_ x t); [inversion H1; reflexivity|]. eapply mkdir_read; eauto.
Qed.

Lemma run_op_read p t o t' : run_op t o = Ok t' -> read p t' = eff p (read p t) o.
Proof.
  destruct o as [q|q|q c|q c|q c]; cbn [run_op eff]; intros H.
  - eapply mkdir_read; eauto.
  - eapply makedirs_read; eauto.
  - apply write_file_ok in H. subst. apply read_set.
  - apply write_file_ok in H. subst. rewrite read_set.
    destruct (streq_reflect p q) as [->|D]; reflexivity.
  - destruct (write_file q c t) eqn:E; [|discriminate]. inversion H; subst.
    apply write_file_ok in E. subst. apply read_set.
Qed.

Lemma run_ops_read p ops : forall t t', run_ops ops t = Ok t' ->
  read p t' = fold_left (eff p) ops (read p t).
Proof.
  unfold run_ops. induction ops as [|o ops IH]; intros t t' H; cbn [foldM fold_left] in *.
  - inversion H; reflexivity.
  - apply bind_ok in H. destruct H as (t1 & H1 & H2). rewrite (IH _ _ H2).
    f_equal. apply run_op_read; auto.
Qed.

(** ** Effect on directories *)

Definition makes (d : pystr) (o : op) : Prop :=
  match o with OMkdir q => d = q | OMakedirs q => In d (prefixes q) | _ => False end.

Definition dirp (d : pystr) (t : tree) : Prop := od_get d t = Some NDir.

Lemma dirp_set_file d q c t : is_dir q t = false -> (dirp d (od_set q (NFile c) t) <-> dirp d t).
Proof.
  intros H. unfold dirp. rewrite od_get_set. destruct (streq_reflect d q) as [->|D]; [|tauto].
  split; [discriminate|]. intros E. unfold is_dir in H. destruct q; [discriminate|].
  rewrite E in H. discriminate.
Qed.

Lemma mkdir_dirp d q t t' : mkdir q t = Ok t' -> (dirp d t' <-> d = q \/ dirp d t).
Proof.
  intros H. apply mkdir_ok2 in H. destruct H as (-> & E & _). apply not_exists in E. destruct E as [_ E].
  unfold dirp. rewrite od_get_set. destruct (streq_reflect d q) as [->|D].
  - rewrite E. intuition.
  - intuition.
Qed.

Definition mkall (l : list pystr) (t : tree) : res tree :=
  foldM (fun t q => if exists_ q t then Ok t else mkdir q t) l t.

Lemma mkdir_exists d q t t' : mkdir q t = Ok t' -> (exists_ d t' = true <-> d = q \/ exists_ d t = true).
Proof.
  intros H. apply mkdir_ok2 in H. destruct H as (-> & E & _). pose proof (not_exists _ _ E) as [E1 E2].
  unfold exists_, is_file, is_dir. rewrite od_get_set. destruct (streq_reflect d q) as [->|D].
  - destruct q; [congruence|]. intuition.
  - intuition.
Qed.

Lemma mkall_spec d l : forall t t', mkall l t = Ok t' ->
  (dirp d t' -> In d l \/ dirp d t) /\ (dirp d t -> dirp d t') /\
  (exists_ d t' = true <-> In d l \/ exists_ d t = true).
Proof.
  unfold mkall. induction l as [|x l IH]; intros t t' H.
  - inversion H; subst. cbn. intuition.
  - cbn [foldM] in H. apply bind_ok in H. destruct H as (t1 & H1 & H2). destruct (IH _ _ H2) as (I1 & I2 & I3).
    destruct (exists_ x t) eqn:Ex.
    + inversion H1; subst. cbn [In]. split; [intuition|]. split; [auto|]. rewrite I3.
      split; [intuition|]. intros [[->|K]|K]; auto.
    + pose proof (mkdir_dirp d x t t1 H1) as M. pose proof (mkdir_exists d x t t1 H1) as M'. cbn [In].
      split; [|split].
      * intros D. apply I1 in D. rewrite M in D. intuition.
      * intros D. apply I2. apply M. auto.
      * rewrite I3, M'. intuition.
Qed.

Lemma run_op_dirp d t o t' : run_op t o = Ok t' ->
  (dirp d t' -> makes d o \/ dirp d t) /\ (dirp d t -> dirp d t').
Proof.
  destruct o as [q|q|q c|q c|q c]; cbn [run_op makes]; intros H.
  - pose proof (mkdir_dirp d q t t' H). tauto.
  - destruct (mkall_spec d _ _ _ H) as (A & B & _). auto.
  - apply write_file_ok2 in H. destruct H as (-> & H & _). pose proof (dirp_set_file d q c t H). tauto.
  - apply write_file_ok2 in H. destruct H as (-> & H & _).
    pose proof (dirp_set_file d q (match read q t with Some c0 => c0 ++ c | None => c end) t H). tauto.
  - destruct (write_file q c t) eqn:E; [|discriminate]. inversion H; subst.
    apply write_file_ok2 in E. destruct E as (-> & E & _). pose proof (dirp_set_file d q c t E). tauto.
Qed.

Lemma run_op_exists d t o t' : run_op t o = Ok t' ->
  (exists_ d t = true \/ makes d o -> exists_ d t' = true).
Proof.
  destruct o as [q|q|q c|q c|q c]; cbn [run_op makes]; intros H.
  - pose proof (mkdir_exists d q t t' H). tauto.
  - destruct (mkall_spec d _ _ _ H) as (_ & _ & A). tauto.
  - apply write_file_ok in H. subst. intros [E|[]]. revert E. unfold exists_, is_file, is_dir.
    rewrite od_get_set. destruct (streq d q); auto.
  - apply write_file_ok in H. subst. intros [E|[]]. revert E. unfold exists_, is_file, is_dir.
    rewrite od_get_set. destruct (streq d q); auto.
  - destruct (write_file q c t) eqn:E; [|discriminate]. inversion H; subst.
    apply write_file_ok in E. subst. intros [E|[]]. revert E. unfold exists_, is_file, is_dir.
    rewrite od_get_set. destruct (streq d q); auto.
Qed.

Lemma run_ops_dirp d ops : forall t t', run_ops ops t = Ok t' ->
  (dirp d t' -> Exists (makes d) ops \/ dirp d t) /\ (dirp d t -> dirp d t') /\
  (exists_ d t = true \/ Exists (makes d) ops -> exists_ d t' = true).
Proof.
  unfold run_ops. induction ops as [|o ops IH]; intros t t' H; cbn [foldM] in *.
  - inversion H; subst. split; [auto|]. split; [auto|]. intros [E|E]; auto. inversion E.
  - apply bind_ok in H. destruct H as (t1 & H1 & H2). destruct (IH _ _ H2) as (I1 & I2 & I3).
    destruct (run_op_dirp d _ _ _ H1) as (J1 & J2). pose proof (run_op_exists d _ _ _ H1) as J3.
    split; [|split].
    + intros D. apply I1 in D. destruct D as [D|D]; [left; apply Exists_cons_tl; auto|].
      apply J1 in D. destruct D; auto.
    + auto.
    + intros [E|E]; [apply I3; left; auto|]. inversion E; subst; apply I3; auto.
Qed.

(** ** Prefixes *)

Lemma prefixes_of_spec cs : forall d p, (d = [] \/ good_path d) -> Forall good_component cs ->
  (forall c, In c cs -> ~ In SLASH c) ->
  In p (prefixes_of d cs) <->
  exists k, (1 <= k <= length cs)%nat /\ p = fold_left pjoin (firstn k cs) d.
Proof.
  induction cs as [|c cs IH]; intros d p Hd F Hs.
  - cbn. split; [tauto|]. intros (k & Hk & _). lia.
  - inversion F; subst. cbn [prefixes_of In]. rewrite IH; auto.
    + split.
      * intros [<-|(k & Hk & ->)]; [exists 1%nat; cbn; split; [lia|reflexivity]|].
        exists (S k). cbn. split; [lia|reflexivity].
      * intros (k & Hk & ->). destruct k as [|k]; [lia|]. cbn [firstn fold_left].
        destruct k; [left; reflexivity|right]. exists (S k). cbn in Hk. split; [lia|reflexivity].
    + right. unfold pjoin. destruct d; [|apply good_path_app; split].
      * apply good_path_single; auto. apply Hs; left; auto.
      * destruct Hd; [discriminate|auto].
      * apply good_path_single; auto. apply Hs; left; auto.
    + intros c' I. apply Hs. right; auto.
Qed.

Lemma prefixes_of_app d cs c : prefixes_of d (cs ++ [c]) = prefixes_of d cs ++ [fold_left pjoin (cs ++ [c]) d].
Proof.
  revert d. induction cs as [|x cs IH]; intros d; [reflexivity|]. cbn [app prefixes_of fold_left].
  rewrite IH. reflexivity.
Qed.

Lemma fold_pjoin_split p : good_path p -> fold_left pjoin (split_on SLASH p) [] = p.
Proof.
  remember (length p) as n. assert (L : (length p <= n)%nat) by lia. clear Heqn. revert p L.
  induction n as [|n IH]; intros p L G.
  - destruct p; [apply good_path_nonempty in G; congruence|cbn in L; lia].
  - destruct (path_cases p G) as [(N1 & _ & _)|(d & b & -> & Nb & Gd & Gb & _ & _)].
    + rewrite split_on_none by auto. reflexivity.
    + rewrite split_on_app_gen, fold_left_app, IH; auto.
      * rewrite (split_on_none SLASH b) by auto. cbn. unfold pjoin. destruct d; [|reflexivity].
        apply good_path_nonempty in Gd. congruence.
      * rewrite app_length in L. cbn in L. lia.
Qed.

(** The prefixes of a good path are its ancestors and the path itself. *)
Lemma prefixes_cons d b : good_path (d ++ SLASH :: b) -> ~ In SLASH b ->
  prefixes (d ++ SLASH :: b) = prefixes d ++ [d ++ SLASH :: b].
Proof.
  intros G Nb. pose proof G as G'. apply good_path_app in G'. destruct G' as [Gd Gb].
  assert (Dn : d <> []) by (apply good_path_nonempty; auto).
  unfold prefixes. destruct (d ++ SLASH :: b) as [|x y] eqn:E; [destruct d; discriminate|]. rewrite <- E.
  destruct d as [|x' d']; [congruence|]. set (d := x' :: d') in *.
  rewrite split_on_app_gen. rewrite (split_on_none SLASH b) by auto.
  rewrite prefixes_of_app. f_equal. f_equal. rewrite fold_left_app. rewrite fold_pjoin_split by auto. reflexivity.
Qed.

Lemma prefixes_single b : good_path b -> ~ In SLASH b -> prefixes b = [b].
Proof.
  intros G Nb. unfold prefixes. destruct b as [|x y] eqn:E; [apply good_path_nonempty in G; congruence|]. rewrite <- E in *.
  rewrite split_on_none by auto. reflexivity.
Qed.

Lemma in_prefixes p : forall d, good_path p -> In d (prefixes p) <-> d <> [] /\ (d = p \/ below d p = true).
Proof.
  remember (length p) as n. assert (L : (length p <= n)%nat) by lia. clear Heqn. revert p L.
  induction n as [|n IH]; intros p L d G.
  - destruct p; [apply good_path_nonempty in G; congruence|cbn in L; lia].
  - destruct (path_cases p G) as [(N1 & E1 & _)|(a & b & -> & Nb & Gd & Gb & E1 & _)].
    + rewrite prefixes_single by auto. cbn [In]. split.
      * intros [<-|[]]. split; [apply good_path_nonempty; auto|auto].
      * intros (Nd & [->|B]); [auto|]. apply below_iff in B; auto. destruct B as (r & ->). exfalso.
        apply N1. apply in_or_app. right; left; reflexivity.
    + rewrite prefixes_cons by auto. rewrite in_app_iff. rewrite IH by (auto; rewrite app_length in L; cbn in L; lia).
      cbn [In]. split.
      * intros [(Nd & [->|B])|[<-|[]]].
        -- split; auto. right. apply below_iff; auto. exists b. reflexivity.
        -- split; auto. right. apply below_dirname; auto. rewrite E1. auto.
        -- split; [apply good_path_nonempty; auto|auto].
      * intros (Nd & [->|B]); [auto|]. apply below_dirname in B; auto. rewrite E1 in B.
        left. split; auto. destruct B as [B|B]; auto.
Qed.

Lemma prefixes_nil : prefixes [] = [].
Proof. reflexivity. Qed.

Lemma below_good d p : d <> [] -> below d p = true -> good_path p -> good_path d.
Proof.
  intros Nd B G. apply below_iff in B; auto. destruct B as (r & ->). apply good_path_app in G. tauto.
Qed.

(** ** What touches a file *)

Definition touches (p : pystr) (o : op) : Prop :=
  match o with OWrite q _ | OAppend q _ | OCopy q _ => p = q | _ => False end.

Lemma eff_untouched p acc o : ~ touches p o -> eff p acc o = acc.
Proof.
  destruct o as [q|q|q c|q c|q c]; cbn [eff touches]; intros H; auto;
    destruct (streq_reflect p q); auto; contradiction.
Qed.

Lemma fold_untouched p ops : forall acc, (forall o, In o ops -> ~ touches p o) ->
  fold_left (eff p) ops acc = acc.
Proof.
  induction ops as [|o ops IH]; intros acc H; [reflexivity|]. cbn [fold_left].
  rewrite eff_untouched by (apply H; left; auto). apply IH. intros; apply H; right; auto.
Qed.

Lemma touches_dec p o : {touches p o} + {~ touches p o}.
Proof. destruct o; cbn; try (right; tauto); apply str_eq_dec. Qed.

Lemma fold_copies p c ops : forall acc,
  (forall o, In o ops -> touches p o -> o = OCopy p c) ->
  (Exists (touches p) ops -> fold_left (eff p) ops acc = Some c) /\
  (~ Exists (touches p) ops -> fold_left (eff p) ops acc = acc).
Proof.
  induction ops as [|o ops IH]; intros acc H.
  - split; [intros E; inversion E|reflexivity].
  - cbn [fold_left]. assert (H' : forall o, In o ops -> touches p o -> o = OCopy p c) by (intros; apply H; auto; right; auto).
    split.
    + intros E. destruct (Exists_dec (touches p) ops (touches_dec p)) as [D|D].
      * apply IH; auto.
      * destruct (IH (eff p acc o) H') as [_ IH2]. rewrite IH2 by auto. inversion E; subst; [|contradiction].
        rewrite (H o (or_introl eq_refl) H1). cbn. rewrite streq_refl. reflexivity.
    + intros E. rewrite eff_untouched by (intros T; apply E; left; auto).
      apply IH; auto.
Qed.

Definition appended (p : pystr) (ops : list op) : pystr :=
  flat_map (fun o => match o with OAppend q c => if streq p q then c else [] | _ => [] end) ops.

Lemma fold_appends p ops : forall acc,
  (forall o, In o ops -> touches p o -> exists c, o = OAppend p c) ->
  fold_left (eff p) ops acc =
    match acc with
    | Some c0 => Some (c0 ++ appended p ops)
    | None => if Exists_dec (touches p) ops (touches_dec p) then Some (appended p ops) else None
    end.
Proof.
  induction ops as [|o ops IH]; intros acc H.
  - cbn. destruct acc; [rewrite app_nil_r; reflexivity|].
    destruct (Exists_dec (touches p) [] (touches_dec p)) as [D|D]; [inversion D|reflexivity].
  - assert (H' : forall o, In o ops -> touches p o -> exists c, o = OAppend p c) by (intros; apply H; auto; right; auto).
    cbn [fold_left]. rewrite IH by auto. destruct (touches_dec p o) as [T|T].
    + destruct (H o (or_introl eq_refl) T) as [c ->]. cbn [eff]. rewrite streq_refl. unfold appended at 1 2 3. cbn [flat_map].
      rewrite streq_refl. fold (appended p ops). destruct acc; [rewrite app_assoc; reflexivity|].
      destruct (Exists_dec (touches p) (OAppend p c :: ops) (touches_dec p)) as [D|D]; [reflexivity|]. exfalso. apply D. left. reflexivity.
    + rewrite eff_untouched by auto.
      assert (E : appended p (o :: ops) = appended p ops).
      { unfold appended. cbn [flat_map]. destruct o; try reflexivity. destruct (streq_reflect p p0); [|reflexivity].
        exfalso. apply T. cbn. auto. }
      rewrite E. destruct acc; [reflexivity|].
      destruct (Exists_dec (touches p) ops (touches_dec p)) as [D|D], (Exists_dec (touches p) (o :: ops) (touches_dec p)) as [D'|D']; try reflexivity.
      * exfalso. apply D'. right; auto.
      * exfalso. inversion D'; subst; contradiction.
Qed.

(** ** The paths that the code writes itself *)

Inductive own_file (ishead : bool) : pystr -> Prop :=
| own_bagit : own_file ishead (U "bagit.txt")
| own_info : own_file ishead (U "bag-info.txt")
| own_man a : own_file ishead (U "manifest-" ++ a ++ U ".txt")
| own_tag a : own_file ishead (U "tagmanifest-" ++ a ++ U ".txt")
| own_members : ishead = true -> own_file ishead (U "multibag/member-bags.tsv")
| own_lookup : ishead = true -> own_file ishead (U "multibag/file-lookup.tsv")
| own_agg : ishead = true -> own_file ishead (U "multibag/aggregation-info.txt").

Lemma man_own ishead a : own_file ishead (man_name K_man a).
Proof. exact (own_man ishead a). Qed.
Lemma tag_own ishead a : own_file ishead (man_name K_tag a).
Proof. exact (own_tag ishead a). Qed.

Lemma man_tag_differ a b : man_name K_man a <> man_name K_tag b.
Proof. intros H. discriminate. Qed.

Lemma man_name_inj k a b : man_name k a = man_name k b -> a = b.
Proof.
  unfold man_name. intros H. apply app_inv_head in H. inversion H. apply app_inv_tail in H1. exact H1.
Qed.

Lemma in_start_ops s o : In o (start_ops s) ->
  o = OMkdir DATA \/ exists a, o = OWrite (man_name K_man a) [] /\ In a (so_algos s) /\
                               is_file (man_name K_man a) (so_tree s) = true.
Proof.
  unfold start_ops, manifest_files. intros [<-|I]; [auto|]. right.
  apply in_map_iff in I. destruct I as (f & <- & I). apply filter_In in I. destruct I as [I F].
  apply in_map_iff in I. destruct I as (a & <- & I). eauto.
Qed.

Lemma in_hash_ops s f o : In o (hash_ops s f) ->
  exists a h, o = OAppend (man_name (if is_payload f then K_man else K_tag) a) (hash_line h f) /\
              exists d, od_get f (so_entries s) = Some d /\ In (a, h) d.
Proof.
  unfold hash_ops. destruct (od_get f (so_entries s)) as [d|]; [|intros []].
  intros I. apply in_map_iff in I. destruct I as ([a h] & <- & I). exists a, h. eauto.
Qed.

Lemma in_path_ops s f o : In o (path_ops s f) ->
  (exists c, read f (so_tree s) = Some c /\
     (o = OMakedirs (dirname f) \/ o = OCopy f c \/ In o (hash_ops s f))) \/
  (read f (so_tree s) = None /\ is_dir f (so_tree s) = true /\ o = OMakedirs f).
Proof.
  unfold path_ops. destruct (read f (so_tree s)) as [c|] eqn:R.
  - intros I. left. exists c. split; auto. cbn in I. intuition congruence.
  - destruct (is_dir f (so_tree s)) eqn:D; [|intros []]. intros [<-|[]]. auto.
Qed.

Definition bag_list (s : source) (o : apply_opts) (b : pystr) (m : manifest) (ishead : bool)
    (members : list pystr) (lookup : dict pystr) (c : pystr) : list op :=
  start_ops s ++ [OCopy F_bagit c] ++
  flat_map (path_ops s) (m_contents m) ++
  [OWrite F_baginfo (tags_text (info_items s o b m ishead))] ++
  (if ishead then multibag_ops s members lookup else []).

Lemma bag_ops_ok s o b m ishead members lookup ops :
  bag_ops s o b m ishead members lookup = (ops, Ok tt) ->
  exists c, read F_bagit (so_tree s) = Some c /\ ops = bag_list s o b m ishead members lookup c /\
            (ishead = true -> read F_baginfo (so_tree s) <> None).
Proof.
  unfold bag_ops. destruct (read F_bagit (so_tree s)) as [c|]; [|discriminate]. intros H.
  exists c. inversion H. split; [reflexivity|]. split; [reflexivity|]. intros ->.
  destruct (read F_baginfo (so_tree s)); [discriminate|]. discriminate.
Qed.

Section Bag.
  Variables (s : source) (o : apply_opts) (b : pystr) (m : manifest) (ishead : bool)
            (members : list pystr) (lookup : dict pystr) (c : pystr).
  Let ops := bag_list s o b m ishead members lookup c.

  Lemma touch_own p x : In x ops -> touches p x ->
    own_file ishead p \/ (In p (m_contents m) /\ exists cc, read p (so_tree s) = Some cc /\ x = OCopy p cc).
  Proof.
    unfold ops, bag_list. rewrite !in_app_iff. intros [I|[I|[I|[I|I]]]] T.
    - apply in_start_ops in I. destruct I as [->|(a & -> & _)]; cbn in T; [contradiction|]. subst. left. apply man_own.
    - destruct I as [<-|[]]. cbn in T. subst. left. apply own_bagit.
    - apply in_flat_map in I. destruct I as (f & If & I). apply in_path_ops in I.
      destruct I as [(cc & R & [->|[->|I]])|(_ & _ & ->)]; cbn in T; try contradiction.
      + subst f. right. eauto.
      + apply in_hash_ops in I. destruct I as (a & h & -> & _). cbn in T. subst. left.
        destruct (is_payload f); [apply man_own|apply tag_own].
    - destruct I as [<-|[]]. cbn in T. subst. left. apply own_info.
    - destruct ishead eqn:Eh; [|destruct I]. cbn in I.
      destruct I as [<-|[<-|[<-|[<-|[]]]]]; cbn in T; try contradiction; subst; left.
      + apply own_members; auto.
      + apply own_lookup; auto.
      + apply own_agg; auto.
  Qed.

  Lemma copy_touched p : In p (m_contents m) -> is_file p (so_tree s) = true -> Exists (touches p) ops.
  Proof.
    intros I F. apply is_file_read in F. destruct F as [cc R]. apply Exists_exists.
    exists (OCopy p cc). split; [|reflexivity]. unfold ops, bag_list. rewrite !in_app_iff. right; right; left.
    apply in_flat_map. exists p. split; auto. unfold path_ops. rewrite R. right; left; reflexivity.
  Qed.

  Lemma bag_reads t p : run_ops ops [] = Ok t -> ~ own_file ishead p ->
    read p t = if str_in p (m_contents m) then read p (so_tree s) else None.
  Proof.
    intros H Hp. rewrite (run_ops_read p _ _ _ H). cbn [read od_get].
    destruct (str_in p (m_contents m)) eqn:I.
    - apply str_in_iff in I. destruct (read p (so_tree s)) as [cc|] eqn:R.
      + destruct (fold_copies p cc ops None) as [A _].
        * intros x Ix T. destruct (touch_own p x Ix T) as [|(_ & c' & R' & ->)]; [contradiction|]. congruence.
        * apply A. apply copy_touched; auto. apply is_file_read. eauto.
      + apply fold_untouched. intros x Ix T. destruct (touch_own p x Ix T) as [|(_ & c' & R' & ->)]; [contradiction|congruence].
    - apply str_in_false in I. apply fold_untouched. intros x Ix T.
      destruct (touch_own p x Ix T) as [|(J & _)]; contradiction.
  Qed.

  (** Directories *)

  Lemma bag_makes d : Exists (makes d) ops <->
    d = DATA \/ (ishead = true /\ d = MULTIBAG) \/
    exists f, In f (m_contents m) /\
      ((is_file f (so_tree s) = true /\ In d (prefixes (dirname f))) \/
       (is_dir f (so_tree s) = true /\ is_file f (so_tree s) = false /\ In d (prefixes f))).
  Proof.
    rewrite Exists_exists. unfold ops, bag_list. split.
    - intros (x & I & M). rewrite !in_app_iff in I. destruct I as [I|[I|[I|[I|I]]]].
      + apply in_start_ops in I. destruct I as [->|(a & -> & _)]; cbn in M; [auto|contradiction].
      + destruct I as [<-|[]]. destruct M.
      + apply in_flat_map in I. destruct I as (f & If & I). apply in_path_ops in I. right; right. exists f. split; auto.
        destruct I as [(cc & R & [->|[->|I]])|(R & D & ->)]; cbn in M; try contradiction.
        * left. split; auto. apply is_file_read. eauto.
        * apply in_hash_ops in I. destruct I as (a & h & -> & _). destruct M.
        * right. split; auto. split; auto. destruct (is_file f (so_tree s)) eqn:E; auto.
          apply is_file_read in E. destruct E. congruence.
      + destruct I as [<-|[]]. destruct M.
      + destruct ishead; [|destruct I]. cbn in I.
        destruct I as [<-|[<-|[<-|[<-|[]]]]]; cbn in M; try contradiction. destruct M as [<-|[]]. auto.
    - intros [->|[(E & ->)|(f & If & K)]].
      + exists (OMkdir DATA). split; [|reflexivity]. apply in_or_app. left. left; reflexivity.
      + exists (OMakedirs MULTIBAG). rewrite E. split; [|left; reflexivity]. rewrite !in_app_iff. do 4 right. left; reflexivity.
      + destruct K as [(F & K)|(D & F & K)].
        * apply is_file_read in F. destruct F as [cc F].
          exists (OMakedirs (dirname f)). split; [|exact K]. rewrite !in_app_iff. right; right; left.
          apply in_flat_map. exists f. split; auto. unfold path_ops. rewrite F. left; reflexivity.
        * exists (OMakedirs f). split; [|exact K]. rewrite !in_app_iff. right; right; left.
          apply in_flat_map. exists f. split; auto. unfold path_ops.
          assert (R : read f (so_tree s) = None).
          { destruct (read f (so_tree s)) eqn:R; auto. exfalso.
            assert (is_file f (so_tree s) = true) by (apply is_file_read; eauto). congruence. }
          rewrite R, D. left; reflexivity.
  Qed.
End Bag.

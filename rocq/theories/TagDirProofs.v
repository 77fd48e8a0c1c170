(** Facts about changing the name of the tag directory *)
Require Import String NArith PeanoNat Wf_nat Bool List Lia.
From Verif Require Import PyBase PyFacts Version Tsv Fs FsFacts HeadBag HeadBagProofs SplitApply SplitApplyProofs SplitApplyProofs8 RestoreProofs TagDir.
Import ListNotations.
Open Scope N_scope.

(** ** Names *)

Lemma ends_slash_good p : good_path p -> ends_slash p = false.
Proof.
  intros G. unfold ends_slash. destruct (rev p) as [|c l] eqn:E; [reflexivity|]. apply N.eqb_neq. intros ->.
  assert (P : p = rev l ++ SLASH :: []) by (rewrite <- (rev_involutive p), E; reflexivity).
  rewrite P in G. apply good_path_app in G. apply (good_path_nonempty []); [apply G|reflexivity].
Qed.

Lemma os_join_good a b : good_path a -> os_join a b = a ++ [SLASH] ++ b.
Proof. intros G. unfold os_join. destruct a; [destruct (good_path_nonempty _ G); reflexivity|]. rewrite ends_slash_good by exact G. reflexivity. Qed.

Lemma fold_join l : forall a, good_path a -> Forall good_component l -> Forall (fun w => ~ In SLASH w) l ->
  fold_left os_join l a = join [SLASH] (a :: l).
Proof.
  induction l as [|b l IH]; intros a G F NS; [reflexivity|]. apply Forall_cons_iff in F. apply Forall_cons_iff in NS. cbn [fold_left].
  rewrite os_join_good by exact G. rewrite IH; [| |apply F|apply NS].
  - cbn [join]. destruct l; [reflexivity|]. cbn [join]. rewrite <- !app_assoc. reflexivity.
  - apply good_path_app. split; [exact G|]. apply good_path_single; [apply NS|apply F].
Qed.

Lemma plain_good d : good_path d -> plain_dir d = d.
Proof.
  intros G. unfold plain_dir. pose proof (join_split SLASH d) as J. pose proof (split_on_no_sep SLASH d) as NS. unfold good_path in G.
  destruct (split_on SLASH d) as [|a l]; [exact J|]. apply Forall_cons_iff in G. apply Forall_cons_iff in NS.
  rewrite fold_join; [exact J| |apply G|apply NS]. apply good_path_single; [apply NS|apply G].
Qed.

(** ** Renaming *)

Section Rename.
Variables old new : pystr.
Hypothesis Go : good_path old.
Hypothesis Gn : good_path new.

(** [q] is the directory or in it. *)
Definition under (d q : pystr) : Prop := exists r, (r = [] \/ exists s, r = SLASH :: s) /\ q = d ++ r.

Lemma under_iff d q : d <> [] -> under d q <-> q = d \/ below d q = true.
Proof.
  intros D. split.
  - intros (r & [-> | (s & ->)] & ->); [left; apply app_nil_r|right]. apply below_iff; [exact D|]. eauto.
  - intros [-> | B]; [exists []; split; [auto|symmetry; apply app_nil_r]|]. apply below_iff in B; [|exact D]. destruct B as (r & ->). exists (SLASH :: r). split; eauto.
Qed.

Lemma under_dec d q : d <> [] -> under d q \/ ~ under d q.
Proof.
  intros D. destruct (streq_reflect q d) as [->|Ne]; [left; apply under_iff; auto|].
  destruct (below d q) eqn:B; [left; apply under_iff; auto|right]. intros X. apply under_iff in X; [|exact D]. destruct X; congruence.
Qed.

Lemma moved_under r : (r = [] \/ exists s, r = SLASH :: s) -> moved old new (old ++ r) = new ++ r.
Proof.
  intros [-> | (s & ->)]; unfold moved.
  - rewrite !app_nil_r. rewrite streq_refl. reflexivity.
  - destruct (streq_reflect (old ++ SLASH :: s) old) as [E|_]; [exfalso; apply (f_equal (@length N)) in E; rewrite app_length in E; cbn in E; lia|].
    assert (B : below old (old ++ SLASH :: s) = true) by (apply below_iff; [apply good_path_nonempty, Go|eauto]). rewrite B.
    rewrite skipn_app, skipn_all, Nat.sub_diag. reflexivity.
Qed.

Lemma moved_other q : ~ under old q -> moved old new q = q.
Proof.
  intros X. unfold moved. destruct (streq_reflect q old) as [->|_]; [destruct X; apply under_iff; auto using good_path_nonempty|].
  destruct (below old q) eqn:B; [|reflexivity]. destruct X. apply under_iff; auto using good_path_nonempty.
Qed.

Definition renamed (t : tree) : tree := map (fun e => (moved old new (fst e), snd e)) t.

Lemma get_renamed q q0 : forall t, (forall k, In k (od_keys t) -> moved old new k = q <-> k = q0) ->
  od_get q (renamed t) = od_get q0 t.
Proof.
  induction t as [|[k n] t IH]; intros H; [reflexivity|]. cbn [renamed map od_get fst snd].
  destruct (H k) as [A B]; [left; reflexivity|].
  destruct (streq_reflect q (moved old new k)) as [E|E].
  - rewrite (A (eq_sym E)), streq_refl. reflexivity.
  - destruct (streq_reflect q0 k) as [<-|_]; [destruct E; symmetry; auto|]. apply IH. intros k' I. apply H. right. exact I.
Qed.

Lemma get_renamed_none q : forall t, (forall k, In k (od_keys t) -> moved old new k <> q) -> od_get q (renamed t) = None.
Proof.
  induction t as [|[k n] t IH]; intros H; [reflexivity|]. cbn [renamed map od_get fst snd].
  destruct (streq_reflect q (moved old new k)) as [E|E]; [destruct (H k); [left; reflexivity|auto]|]. apply IH. intros k' I. apply H. right. exact I.
Qed.

(** Nothing is at or below the new path. *)
Hypothesis Nb : below old new = false.
Hypothesis Ne : new <> old.

Definition free (t : tree) : Prop := forall k, In k (od_keys t) -> ~ under new k.

Lemma app_inj_under (a r1 r2 : pystr) : a ++ r1 = a ++ r2 -> r1 = r2.
Proof. apply app_inv_head. Qed.

Lemma renamed_new t r : free t -> (r = [] \/ exists s, r = SLASH :: s) -> od_get (new ++ r) (renamed t) = od_get (old ++ r) t.
Proof.
  intros F R. apply get_renamed. intros k I. split.
  - intros E. destruct (under_dec old k (good_path_nonempty _ Go)) as [(s & Hs & ->)|X].
    + rewrite moved_under in E by exact Hs. apply app_inv_head in E. subst. reflexivity.
    + rewrite moved_other in E by exact X. subst k. destruct (F _ I). exists r. auto.
  - intros ->. apply moved_under. exact R.
Qed.

Lemma renamed_old t q : free t -> under old q -> od_get q (renamed t) = None.
Proof.
  intros F Uq. apply get_renamed_none. intros k I E. destruct (under_dec old k (good_path_nonempty _ Go)) as [(s & Hs & ->)|X].
  - rewrite moved_under in E by exact Hs. subst q. destruct Uq as (r & Hr & E).
    (* new ++ s = old ++ r: one is above the other *)
    assert (X : under old new \/ under new old).
    { assert (C : exists z, new = old ++ z \/ old = new ++ z).
      { clear - E. revert old r E. induction new as [|c l IH]; intros o r E; [exists o; right; reflexivity|]. destruct o as [|c' o]; [exists (c :: l); left; reflexivity|].
        injection E as -> E. destruct (IH _ _ E) as [z [-> | ->]]; [exists z; left; reflexivity|exists z; right; reflexivity]. }
      destruct C as [z [Ez|Ez]].
      - left. exists z. split; [|exact Ez]. rewrite Ez in E. rewrite <- app_assoc in E. apply app_inv_head in E. subst r.
        destruct z as [|c z]; [auto|]. destruct Hr as [Hr|(s' & Hr)]; [discriminate|]. injection Hr as -> _. eauto.
      - right. exists z. split; [|exact Ez]. rewrite Ez in E. rewrite <- app_assoc in E. apply app_inv_head in E. subst s.
        destruct z as [|c z]; [auto|]. destruct Hs as [Hs|(s' & Hs)]; [discriminate|]. injection Hs as -> _. eauto. }
    destruct X as [X|X].
    + apply under_iff in X; [|apply good_path_nonempty, Go]. destruct X; congruence.
    + apply (F _ I). destruct X as (z & Hz & Ez). exists (z ++ s). split; [|rewrite Ez, <- app_assoc; reflexivity].
      destruct Hz as [-> | (z' & ->)]; [exact Hs|]. right. cbn. eauto.
  - rewrite moved_other in E by exact X. subst k. contradiction.
Qed.

Lemma renamed_other t q : ~ under old q -> ~ under new q -> od_get q (renamed t) = od_get q t.
Proof.
  intros Uo Un. apply get_renamed. intros k I. split.
  - intros E. destruct (under_dec old k (good_path_nonempty _ Go)) as [(s & Hs & ->)|X].
    + rewrite moved_under in E by exact Hs. destruct Un. exists s. auto.
    + rewrite moved_other in E; auto.
  - intros ->. apply moved_other. exact Uo.
Qed.

Lemma renamed_nodup t : free t -> NoDup (od_keys t) -> NoDup (od_keys (renamed t)).
Proof.
  intros F D. assert (E : od_keys (renamed t) = map (moved old new) (od_keys t)) by (unfold renamed, od_keys; rewrite !map_map; reflexivity). rewrite E. clear E.
  unfold free in F. revert F. induction (od_keys t) as [|k l IH]; intros F; [constructor|]. apply NoDup_cons_iff in D. cbn [map]. constructor.
  - intros I. apply in_map_iff in I. destruct I as (k' & E & I). apply D. enough (k' = k) by (subst; exact I).
    destruct (under_dec old k (good_path_nonempty _ Go)) as [(s & Hs & ->)|X], (under_dec old k' (good_path_nonempty _ Go)) as [(s' & Hs' & ->)|X'].
    + rewrite !moved_under in E by assumption. apply app_inv_head in E. subst. reflexivity.
    + rewrite moved_under, moved_other in E by assumption. subst k'. destruct (F (new ++ s)); [right; exact I|]. exists s. auto.
    + rewrite moved_under, moved_other in E by assumption. subst k. destruct (F (new ++ s')); [left; reflexivity|]. exists s'. auto.
    + rewrite !moved_other in E by assumption. exact E.
  - apply IH; [apply D|]. intros k' I. apply F. right. exact I.
Qed.

End Rename.

(** ** Removing empty directories *)

Lemma removedirs_nodes n : forall d t, NoDup (od_keys t) -> d = [] \/ good_path d ->
  forall q, q <> [] -> od_get q (removedirs n d t) = od_get q t \/
            ((q = d \/ below q d = true) /\ od_get q t = Some NDir /\ od_get q (removedirs n d t) = None).
Proof.
  induction n as [|n IH]; intros d t D G q Q0; cbn [removedirs]; [auto|].
  destruct d as [|c l]; [auto|]. set (d := c :: l) in *. destruct G as [G|G]; [discriminate|].
  destruct (empty_dir d t) eqn:E; [|auto]. unfold empty_dir in E. apply andb_prop in E. destruct E as [Ed _].
  assert (Gd : od_get d t = Some NDir). { unfold is_dir in Ed. subst d. destruct (od_get (c :: l) t) as [[|]|]; congruence. }
  destruct (IH (dirname d) (od_del d t) (od_del_NoDup _ _ D) (good_path_dirname _ G) q Q0) as [Q|(Uq & Q1 & Q2)].
  - destruct (streq_reflect q d) as [->|Nq].
    + right. split; [auto|]. split; [exact Gd|]. rewrite Q, od_get_del_same by exact D. reflexivity.
    + left. rewrite Q. apply od_get_del_other. exact Nq.
  - right. split; [right; apply (below_dirname q d Q0 G); destruct Uq; auto|]. split; [|exact Q2].
    rewrite <- Q1. symmetry. apply od_get_del_other. intros ->. rewrite od_get_del_same in Q1 by exact D. discriminate.
Qed.

(** ** Everything that [os.renames] does *)

Lemma makedirs_wf d t t' : wf_tree t -> good_path d -> makedirs d t = Ok t' -> wf_tree t'.
Proof.
  intros W G. unfold makedirs. assert (F : Forall good_path (prefixes d)).
  { apply Forall_forall. intros q I. apply in_prefixes in I; [|exact G]. destruct I as [Q [->|B]]; [exact G|]. eapply below_good; eauto. }
  revert t W. induction (prefixes d) as [|q l IH]; intros t W H; cbn [foldM] in H; [injection H as <-; exact W|].
  apply Forall_cons_iff in F. apply bind_ok in H. destruct H as (t1 & H1 & H). apply (IH (proj2 F) t1); [|exact H].
  destruct (exists_ q t); [injection H1 as <-; exact W|]. apply mkdir_ok2 in H1. destruct H1 as (-> & _ & Dq). apply wf_set; auto. apply F.
Qed.

Lemma below_trans a b c : a <> [] -> b <> [] -> below a b = true -> below b c = true -> below a c = true.
Proof.
  intros A B. rewrite !below_iff by assumption. intros (r & ->) (s & ->). exists (r ++ SLASH :: s). rewrite <- app_assoc. reflexivity.
Qed.

Lemma prefix_exists t p q : wf_tree t -> q <> [] -> In p (od_keys t) -> below q p = true -> od_get q t = Some NDir.
Proof.
  intros W Q. remember (length p) as k eqn:K. revert p K. induction k as [k IH] using lt_wf_ind. intros p -> I B.
  assert (G : good_path p) by (pose proof (wf_paths t W) as F; rewrite Forall_forall in F; apply F, I).
  pose proof (wf_parents t W p I) as D. apply (below_dirname q p Q G) in B.
  assert (N : dirname p <> [] -> od_get (dirname p) t = Some NDir).
  { intros X. unfold is_dir in D. destruct (dirname p); [congruence|]. destruct (od_get (n :: p0) t) as [[|]|]; congruence. }
  destruct B as [<-|B]; [apply N, Q|].
  assert (X : dirname p <> []) by (intros X; rewrite X in B; apply below_iff in B; [|exact Q]; destruct B as (r & B); destruct q; discriminate).
  apply (IH (length (dirname p))) with (p := dirname p); auto.
  - apply dirname_shorter, good_path_nonempty, G.
  - specialize (N X). apply od_get_in in N. exact (in_map fst _ _ N).
Qed.

(** What is in the tree afterwards: the directory with its contents is at
    the new path, and other files are where they were; directories above the
    new path get made, empty ones above the old path removed. *)
Definition renamed_tree (old new : pystr) (t t' : tree) : Prop :=
  (forall r, r = [] \/ (exists s, r = SLASH :: s) -> od_get (new ++ r) t' = od_get (old ++ r) t) /\
  (forall q, under old q -> od_get q t' = None) /\
  (forall q, q <> [] -> ~ under old q -> ~ under new q ->
     od_get q t' = od_get q t \/
     (below q new = true /\ od_get q t = None /\ od_get q t' = Some NDir) \/
     (below q old = true /\ od_get q t = Some NDir /\ od_get q t' = None)).

Lemma renames_ok old new t t' : wf_tree t -> good_path old -> good_path new -> od_get new t = None ->
  od_get old t <> None -> renames old new t = (t', Ok tt) -> renamed_tree old new t t'.
Proof.
  intros W Go Gn Nn Eo H. unfold renames in H.
  destruct (if exists_ (dirname new) t then Ok t else makedirs (dirname new) t) as [t1|e] eqn:Em; [|discriminate H].
  assert (N0 : new <> []) by (apply good_path_nonempty, Gn). assert (O0 : old <> []) by (apply good_path_nonempty, Go).
  assert (A : wf_tree t1 /\ forall q, q <> [] -> od_get q t1 = od_get q t \/ (below q new = true /\ od_get q t = None /\ od_get q t1 = Some NDir)).
  { destruct (exists_ (dirname new) t) eqn:E; [injection Em as <-; auto|].
    assert (D : dirname new <> []) by (intros X; rewrite X in E; unfold exists_ in E; cbn [is_dir] in E; rewrite orb_true_r in E; discriminate E).
    assert (Gd : good_path (dirname new)) by (destruct (good_path_dirname new Gn); [contradiction|assumption]).
    split; [eapply makedirs_wf; eauto|]. intros q Q0. unfold makedirs in Em.
    rewrite (makedirs_get _ _ _ Em); [|intros x I; apply in_prefixes in I; [apply I|exact Gd]].
    destruct (od_get q t) eqn:Eq; [auto|]. destruct (str_in q (prefixes (dirname new))) eqn:Sq; [|auto]. right. split; [|auto].
    apply str_in_iff in Sq. apply in_prefixes in Sq; [|exact Gd]. apply (below_dirname q new Q0 Gn). destruct Sq as [_ [->|B]]; auto. }
  destruct A as [W1 A].
  assert (Fr : free new t1).
  { intros k I X. apply under_iff in X; [|exact N0]. destruct X as [->|B].
    - destruct (A new N0) as [X|(B & _)]; [|rewrite below_irrefl in B by exact N0; discriminate].
      rewrite Nn in X. apply in_map_iff in I. destruct I as ([k n] & <- & I). apply (od_in_get _ _ _ (wf_nodup _ W1)) in I; cbn [fst] in X; congruence.
    - pose proof (prefix_exists t1 k new W1 N0 I B) as X. destruct (A new N0) as [Y|(B' & _)]; [congruence|]. rewrite below_irrefl in B' by exact N0. discriminate. }
  destruct (rename old new t1) as [t2|e] eqn:Er; [|discriminate]. injection H as <-. unfold rename in Er.
  destruct (below old new) eqn:Bn; [discriminate|]. destruct (is_dir (dirname new) t1) eqn:Dn; [|discriminate]. injection Er as <-.
  change (map (fun e => (moved old new (fst e), snd e)) t1) with (renamed old new t1).
  assert (Ne : new <> old) by congruence.
  assert (Bo : below new old = false).
  { destruct (below new old) eqn:B; [|reflexivity]. exfalso. destruct (od_get old t) as [n|] eqn:Eo'; [|congruence]. apply od_get_in in Eo'.
    pose proof (prefix_exists t old new W N0 (in_map fst _ _ Eo') B). congruence. }
  pose proof (renamed_nodup old new Go t1 Fr (wf_nodup t1 W1)) as ND.
  pose proof (removedirs_nodes (length old) (dirname old) (renamed old new t1) ND (good_path_dirname old Go)) as R.
  (* the directories removed are above the old path *)
  assert (R' : forall q, q <> [] -> od_get q (removedirs (length old) (dirname old) (renamed old new t1)) = od_get q (renamed old new t1) \/
     (below q old = true /\ od_get q (renamed old new t1) = Some NDir /\ od_get q (removedirs (length old) (dirname old) (renamed old new t1)) = None)).
  { intros q Q0. destruct (R q Q0) as [X|(X & Y)]; [left; exact X|right]. split; [|exact Y]. apply (below_dirname q old Q0 Go). destruct X; auto. }
  clear R. set (t3 := removedirs _ _ _) in *. split; [|split].
  - intros r Hr. assert (Q0 : new ++ r <> []) by (destruct new; [congruence|discriminate]).
    destruct (R' _ Q0) as [X|(B & _)].
    + rewrite X, renamed_new by assumption. destruct (A (old ++ r)) as [Y|(B & _)]; [destruct old; [congruence|discriminate]|exact Y|].
      exfalso. assert (Z : below old new = true); [|congruence].
      destruct Hr as [-> | (s & ->)]; [rewrite app_nil_r in B; exact B|].
      apply (below_trans old (old ++ SLASH :: s) new); auto; [destruct old; [congruence|discriminate]|]. apply below_iff; eauto.
    + exfalso. assert (Z : below new old = true); [|congruence].
      destruct Hr as [-> | (s & ->)]; [rewrite app_nil_r in B; exact B|].
      apply (below_trans new (new ++ SLASH :: s) old); auto. apply below_iff; eauto.
  - intros q Uq. assert (Q0 : q <> []) by (destruct Uq as (r & _ & ->); destruct old; [congruence|discriminate]).
    destruct (R' q Q0) as [X|(B & X & _)]; [rewrite X|]; [apply renamed_old; assumption|]. rewrite renamed_old in X by assumption. discriminate.
  - intros q Q0 Uo Un. specialize (R' q Q0). rewrite (renamed_other old new Go t1 q Uo Un) in R'.
    destruct R' as [X|(B & X & Y)]; [rewrite X; destruct (A q Q0) as [Z|Z]; auto|].
    destruct (A q Q0) as [Z|(B' & Z & _)]; [right; right; split; [exact B|split; [congruence|exact Y]]|]. left. congruence.
Qed.

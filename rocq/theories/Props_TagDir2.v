(** C105, continued: the directories of a bag whose tag directory is renamed.
    The theorems of Props_TagDir.v are about files. *)

Require Import String NArith PeanoNat Bool List Lia.
From Verif Require Import PyBase PyFacts Version Tsv Fs FsFacts HeadBag HeadBagProofs SplitApply SplitApplyProofs SplitApplyProofs8
  HeadBagProofs3 RestoreProofs TagDir TagDirProofs Props_TagDir.
Import ListNotations.
Open Scope N_scope.

Lemma is_dir_get q t : q <> [] -> is_dir q t = true <-> od_get q t = Some NDir.
Proof.
  intros Q. unfold is_dir. destruct q; [congruence|]. destruct (od_get (n :: q) t) as [[|]|]; split; congruence.
Qed.

Lemma dirname_below p : good_path p -> dirname p <> [] -> below (dirname p) p = true.
Proof. intros G D. apply (below_dirname (dirname p) p D G). left. reflexivity. Qed.

Lemma dirname_under old p : good_path old -> good_path p -> below old p = true -> under old (dirname p).
Proof.
  intros Go Gp B. apply under_iff; [apply good_path_nonempty, Go|].
  apply (below_dirname old p (good_path_nonempty _ Go) Gp) in B. destruct B; auto.
Qed.

(** The parent of a moved entry is the moved parent. *)
Lemma dirname_moved new s : good_path (new ++ SLASH :: s) ->
  exists r, (r = [] \/ exists s', r = SLASH :: s') /\
    forall a, good_path a -> dirname (a ++ SLASH :: s) = a ++ r.
Proof.
  intros G. apply good_path_app in G. destruct G as [_ Gs].
  destruct (path_cases s Gs) as [(Ns & _)|(d & b & -> & Nb & _)].
  - exists []. split; [auto|]. intros a _. rewrite app_nil_r. apply dirname_app. exact Ns.
  - exists (SLASH :: d). split; [eauto|]. intros a _.
    replace (a ++ SLASH :: d ++ SLASH :: b) with ((a ++ SLASH :: d) ++ SLASH :: b) by (rewrite <- app_assoc; reflexivity).
    apply dirname_app. exact Nb.
Qed.

Lemma renamed_wf old new t : good_path old -> good_path new -> below old new = false -> new <> old ->
  wf_tree t -> free new t -> is_dir (dirname new) t = true -> wf_tree (renamed old new t).
Proof.
  intros Go Gn Nb Ne W F Dn.
  assert (O0 : old <> []) by (apply good_path_nonempty, Go). assert (N0 : new <> []) by (apply good_path_nonempty, Gn).
  assert (Keys : od_keys (renamed old new t) = map (moved old new) (od_keys t)) by (unfold renamed, od_keys; rewrite !map_map; reflexivity).
  pose proof (wf_paths t W) as P. rewrite Forall_forall in P.
  constructor.
  - apply renamed_nodup; [exact Go|exact F|apply wf_nodup, W].
  - rewrite Keys. apply Forall_forall. intros q I. apply in_map_iff in I. destruct I as (k & <- & I).
    destruct (under_dec old k O0) as [(r & Hr & ->)|X].
    + rewrite moved_under by assumption. destruct Hr as [-> | (s & ->)]; [rewrite app_nil_r; exact Gn|].
      apply good_path_app. split; [exact Gn|]. specialize (P _ I). apply good_path_app in P. apply P.
    + rewrite moved_other by assumption. apply P, I.
  - rewrite Keys. intros q I. apply in_map_iff in I. destruct I as (k & <- & I).
    destruct (under_dec old k O0) as [(r & Hr & ->)|X].
    + rewrite moved_under by assumption. destruct Hr as [-> | (s & ->)].
      * rewrite app_nil_r. destruct (dirname new) as [|c l] eqn:E; [reflexivity|].
        assert (D0 : dirname new <> []) by (rewrite E; discriminate). rewrite <- E in *.
        apply is_dir_get; [exact D0|]. apply is_dir_get in Dn; [|exact D0].
        assert (B : below (dirname new) new = true) by (apply dirname_below; assumption).
        rewrite renamed_other; [exact Dn|exact Go| |].
        -- intros U0. apply under_iff in U0; [|exact O0]. destruct U0 as [U0|U0]; [rewrite U0 in B; congruence|].
           rewrite (below_trans old (dirname new) new O0 D0 U0 B) in Nb. discriminate.
        -- apply od_get_some_key in Dn. apply F. exact Dn.
      * assert (Gk : good_path (old ++ SLASH :: s)) by (apply P, I).
        destruct (dirname_moved old s Gk) as (r & Hr & E). rewrite (E new Gn).
        assert (Q : new ++ r <> []) by (destruct new; [congruence|discriminate]).
        assert (Q' : old ++ r <> []) by (destruct old; [congruence|discriminate]).
        apply is_dir_get; [exact Q|]. rewrite renamed_new by assumption.
        pose proof (wf_parents t W _ I) as D. rewrite (E old Go) in D. apply is_dir_get in D; assumption.
    + rewrite moved_other by assumption. pose proof (wf_parents t W _ I) as D.
      destruct (dirname k) as [|c l] eqn:E; [reflexivity|].
      assert (D0 : dirname k <> []) by (rewrite E; discriminate). rewrite <- E in *.
      apply is_dir_get; [exact D0|]. apply is_dir_get in D; [|exact D0].
      assert (B : below (dirname k) k = true) by (apply dirname_below; [apply P, I|exact D0]).
      rewrite renamed_other; [exact D|exact Go| |].
      * intros U0. apply X. apply under_iff; [exact O0|]. right. apply under_iff in U0; [|exact O0].
        destruct U0 as [U0|U0]; [rewrite U0 in B; exact B|]. exact (below_trans old (dirname k) k O0 D0 U0 B).
      * apply od_get_some_key in D. apply F. exact D.
Qed.

Lemma del_wf d t : good_path d -> wf_tree t -> empty_dir d t = true -> wf_tree (od_del d t).
Proof.
  intros G W E. unfold empty_dir in E. apply andb_prop in E. destruct E as [_ E]. rewrite negb_true_iff in E.
  assert (Sub : forall k, In k (od_keys (od_del d t)) -> In k (od_keys t) /\ k <> d).
  { intros k I. destruct (od_get k (od_del d t)) as [n|] eqn:X; [|exfalso; apply od_get_none in X; contradiction].
    assert (Ne : k <> d) by (intros ->; rewrite od_get_del_same in X by (apply wf_nodup, W); discriminate).
    rewrite od_get_del_other in X by exact Ne. split; [apply od_get_some_key in X; exact X|exact Ne]. }
  pose proof (wf_paths t W) as P. rewrite Forall_forall in P.
  constructor.
  - apply od_del_NoDup, wf_nodup, W.
  - apply Forall_forall. intros k I. apply P. apply Sub. exact I.
  - intros k I. destruct (Sub k I) as [I' Ne]. pose proof (wf_parents t W k I') as D.
    destruct (dirname k) as [|c l] eqn:Ek; [reflexivity|].
    assert (D0 : dirname k <> []) by (rewrite Ek; discriminate). rewrite <- Ek in *.
    apply is_dir_get in D; [|exact D0]. apply is_dir_get; [exact D0|]. rewrite od_get_del_other; [exact D|].
    intros X. assert (B : existsb (below d) (od_keys t) = true); [|congruence].
    apply existsb_exists. exists k. split; [exact I'|]. rewrite <- X. apply dirname_below; [apply P, I'|exact D0].
Qed.

Lemma removedirs_wf n : forall d t, d = [] \/ good_path d -> wf_tree t -> wf_tree (removedirs n d t).
Proof.
  induction n as [|n IH]; intros d t G W; cbn [removedirs]; [exact W|]. destruct d as [|c l]; [exact W|].
  set (d := c :: l) in *. destruct G as [G|G]; [discriminate|].
  destruct (empty_dir d t) eqn:E; [|exact W]. apply IH; [apply good_path_dirname, G|]. apply del_wf; assumption.
Qed.

(** No directory stays behind empty. *)
Lemma removedirs_left n : forall d t, (length d <= n)%nat -> d = [] \/ good_path d -> wf_tree t -> is_dir d t = true ->
  forall q, q <> [] -> q = d \/ below q d = true -> empty_dir q (removedirs n d t) = false.
Proof.
  induction n as [|n IH]; intros d t L G W D q Q0 H; cbn [removedirs].
  { destruct d; [|cbn in L; lia]. destruct H as [->|B]; [congruence|]. apply below_iff in B; [|exact Q0]. destruct B as (r & B). destruct q; discriminate. }
  destruct d as [|c l].
  { destruct H as [->|B]; [congruence|]. apply below_iff in B; [|exact Q0]. destruct B as (r & B). destruct q; discriminate. }
  set (d := c :: l) in *. destruct G as [G|G]; [discriminate|].
  assert (D0 : d <> []) by discriminate.
  pose proof (proj1 (is_dir_get d t D0) D) as Gd. pose proof (od_get_some_key _ _ _ Gd) as Kd.
  destruct (empty_dir d t) eqn:E.
  - pose proof (del_wf d t G W E) as W'.
    assert (Dd : is_dir (dirname d) (od_del d t) = true).
    { pose proof (wf_parents t W d Kd) as Dd. destruct (dirname d) as [|c' l'] eqn:Ed; [reflexivity|].
      assert (X0 : dirname d <> []) by (rewrite Ed; discriminate). rewrite <- Ed in *.
      apply is_dir_get in Dd; [|exact X0]. apply is_dir_get; [exact X0|]. rewrite od_get_del_other; [exact Dd|].
      intros X. pose proof (dirname_below d G X0) as B. rewrite X, below_irrefl in B by exact D0. discriminate. }
    destruct H as [->|B].
    + destruct (removedirs_nodes n (dirname d) (od_del d t) (wf_nodup _ W') (good_path_dirname d G) d D0) as [X|(_ & X & _)].
      * unfold empty_dir. replace (is_dir d (removedirs n (dirname d) (od_del d t))) with false; [reflexivity|].
        symmetry. destruct (is_dir d (removedirs n (dirname d) (od_del d t))) eqn:Y; [|reflexivity]. apply is_dir_get in Y; [|exact D0].
        rewrite X, od_get_del_same in Y by (apply wf_nodup, W). discriminate.
      * rewrite od_get_del_same in X by (apply wf_nodup, W). discriminate.
    + apply IH; auto; [|apply good_path_dirname, G|].
      * pose proof (dirname_shorter d (good_path_nonempty _ G)). lia.
      * apply (below_dirname q d Q0 G) in B. destruct B; auto.
  - destruct H as [->|B]; [exact E|]. unfold empty_dir.
    assert (X : existsb (below q) (od_keys t) = true) by (apply existsb_exists; exists d; split; assumption).
    rewrite X. apply andb_false_r.
Qed.

(** What the three steps of os.renames work on. *)
Lemma renames_steps old new t r : wf_tree t -> good_path old -> good_path new -> od_get new t = None ->
  is_dir old t = true \/ is_file old t = true -> renames old new t = r ->
  wf_tree (fst r) /\
  (snd r = Ok tt -> new <> old -> forall q, q <> [] -> below q old = true -> empty_dir q (fst r) = false).
Proof.
  intros W Go Gn Nn Ex <-. unfold renames.
  assert (N0 : new <> []) by (apply good_path_nonempty, Gn). assert (O0 : old <> []) by (apply good_path_nonempty, Go).
  destruct (if exists_ (dirname new) t then Ok t else makedirs (dirname new) t) as [t1|e] eqn:Em.
  2: { cbn [fst snd]. split; [exact W|discriminate]. }
  assert (A : wf_tree t1 /\ forall q, q <> [] -> od_get q t1 = od_get q t \/ (below q new = true /\ od_get q t = None /\ od_get q t1 = Some NDir)).
  { destruct (exists_ (dirname new) t) eqn:E; [injection Em as <-; auto|].
    assert (D : dirname new <> []) by (intros X; rewrite X in E; unfold exists_ in E; cbn [is_dir] in E; rewrite orb_true_r in E; discriminate E).
    assert (Gd : good_path (dirname new)) by (destruct (good_path_dirname new Gn); [contradiction|assumption]).
    split; [eapply makedirs_wf; eauto|]. intros q Q0. unfold makedirs in Em.
    rewrite (makedirs_get _ _ _ Em); [|intros x I; apply in_prefixes in I; [apply I|exact Gd]].
    destruct (od_get q t) eqn:Eq; [auto|]. destruct (str_in q (prefixes (dirname new))) eqn:Sq; [|auto]. right. split; [|auto].
    apply str_in_iff in Sq. apply in_prefixes in Sq; [|exact Gd]. apply (below_dirname q new Q0 Gn). destruct Sq as [_ [->|B]]; auto. }
  destruct A as [W1 A].
  assert (Fr : free new t1).
  { intros k I X. apply under_iff in X; [|exact N0]. destruct X as [->|B].
    - destruct (A new N0) as [X|(B & _)]; [|rewrite below_irrefl in B by exact N0; discriminate].
      rewrite Nn in X. apply od_get_none in X. contradiction.
    - pose proof (prefix_exists t1 k new W1 N0 I B) as X. destruct (A new N0) as [Y|(B' & _)]; [congruence|]. rewrite below_irrefl in B' by exact N0. discriminate. }
  assert (Eo : od_get old t <> None).
  { intros X. destruct Ex as [Y|Y]; [apply is_dir_get in Y; [congruence|exact O0]|]. unfold is_file in Y. rewrite X in Y. discriminate. }
  assert (Ne : new <> old) by congruence.
  unfold rename. destruct (below old new) eqn:Bn; [cbn [fst snd]; split; [exact W1|discriminate]|].
  destruct (is_dir (dirname new) t1) eqn:Dn; [|cbn [fst snd]; split; [exact W1|discriminate]]. cbn [fst snd].
  change (map (fun e => (moved old new (fst e), snd e)) t1) with (renamed old new t1).
  pose proof (renamed_wf old new t1 Go Gn Bn Ne W1 Fr Dn) as W2.
  split; [apply removedirs_wf; [apply good_path_dirname, Go|exact W2]|].
  intros _ _ q Q0 B. apply removedirs_left; auto.
  - pose proof (dirname_shorter old O0). lia.
  - apply good_path_dirname, Go.
  - assert (K1 : In old (od_keys t1)).
    { destruct (A old O0) as [X|(_ & X & _)]; [|contradiction]. destruct (od_get old t1) as [n|] eqn:Y; [apply od_get_some_key in Y; exact Y|congruence]. }
    pose proof (wf_parents t1 W1 old K1) as D. destruct (dirname old) as [|c l] eqn:Ed; [reflexivity|].
    assert (X0 : dirname old <> []) by (rewrite Ed; discriminate). rewrite <- Ed in *.
    apply is_dir_get in D; [|exact X0]. apply is_dir_get; [exact X0|]. rewrite renamed_other; [exact D|exact Go| |].
    + intros U0. apply under_iff in U0; [|exact O0]. pose proof (dirname_below old Go X0) as Bo.
      destruct U0 as [U0|U0]; [rewrite U0, below_irrefl in Bo by exact O0; discriminate|].
      pose proof (below_trans old (dirname old) old O0 X0 U0 Bo) as Z. rewrite below_irrefl in Z by exact O0. discriminate.
    + apply Fr. apply od_get_some_key in D. exact D.
  - apply (below_dirname q old Q0 Go) in B. destruct B; auto.
Qed.

(** ** The theorem *)

(** However the call ends, every file and directory of the bag is in a
    directory of the bag. If the tag directory was moved, no directory that
    it was in is left empty. *)
Theorem C105_directories : forall h h' td d migrate r,
  wf_tree (hb_tree h) -> tag_dir (hb_info h) = td -> good_path td -> good_path d ->
  set_multibag_tag_dir d migrate h = (h', r) ->
  wf_tree (hb_tree h') /\
  (migrate = true -> r = Ok tt -> d <> td -> exists_ td (hb_tree h) = true ->
   forall q, q <> [] -> below q td = true -> is_dir q (hb_tree h') = true ->
   exists k, In k (od_keys (hb_tree h')) /\ below q k = true).
Proof.
  intros h h' td d migrate r W R Gt Gd H. unfold set_multibag_tag_dir in H. rewrite (plain_good d Gd), R in H.
  assert (D0 : d <> []) by (apply good_path_nonempty, Gd).
  destruct (streq_reflect d td) as [->|Ne]; [injection H as <- _; split; [exact W|congruence]|].
  destruct migrate; [|injection H as <- _; split; [exact W|discriminate]].
  destruct (exists_ d (hb_tree h)) eqn:Ed; [injection H as <- <-; split; [exact W|discriminate]|].
  apply exists_get_false in Ed; [|exact D0].
  destruct (exists_ td (hb_tree h)) eqn:Et; [|injection H as <- _; split; [exact W|discriminate]].
  assert (Ex : is_dir td (hb_tree h) = true \/ is_file td (hb_tree h) = true).
  { unfold exists_ in Et. apply orb_prop in Et. tauto. }
  destruct (renames_steps td d (hb_tree h) _ W Gt Gd Ed Ex eq_refl) as [W' L].
  destruct (renames td d (hb_tree h)) as [t' [[]|e]]; cbn [fst snd] in W', L; injection H as <- <-; cbn [hb_tree set_info set_tree].
  - split; [exact W'|]. intros _ _ Dn _ q Q0 B Dq. pose proof (L eq_refl Dn q Q0 B) as X. unfold empty_dir in X. rewrite Dq in X. cbn [andb] in X.
    rewrite negb_false_iff in X. apply existsb_exists in X. exact X.
  - split; [exact W'|discriminate].
Qed.

(** A case: the tag directory goes from x/y/tags to multibag; y is removed, x
    has another file and stays. *)
Definition ex_deep : hb :=
  open_hb (U "b") [(U "bagit.txt", NFile []); (U "data", NDir); (U "x", NDir); (U "x/note", NFile []); (U "x/y", NDir); (U "x/y/tags", NDir);
    (U "x/y/tags/member-bags.tsv", NFile (U "b" ++ [10]))] [(T_TagDir, IStr (U "x/y/tags"))] Codecs.
Example C105_directories_case :
  wf_tree (hb_tree ex_deep) /\ tag_dir (hb_info ex_deep) = U "x/y/tags" /\ good_path (U "x/y/tags") /\ good_path (U "multibag") /\
  match set_multibag_tag_dir (U "multibag") true ex_deep with
  | (h, Ok _) => is_dir (U "x") (hb_tree h) = true /\ exists_ (U "x/y") (hb_tree h) = false /\
                 read (U "multibag/member-bags.tsv") (hb_tree h) = Some (U "b" ++ [10])
  | (_, Err _) => False
  end.
Proof.
  split; [apply wf_treeb_ok; vm_compute; reflexivity|]. split; [vm_compute; reflexivity|].
  split; [apply good_pathb_ok; reflexivity|]. split; [apply good_pathb_ok; reflexivity|]. vm_compute. repeat split; reflexivity.
Qed.

Print Assumptions C105_directories.

(** * Splitting a bag with one call (C122)

    What a call of [split] returns and leaves behind, what the bags are called
    if no name is given, and what happens when several bags are split into the
    same directory. *)

Require Import String NArith ZArith PeanoNat Bool List Lia.
From Verif Require Import PyBase PyFacts Version Tsv TsvProofs Fs FsFacts HeadBag HeadBagProofs HeadBagProofs3 BagIt BagItProofs BagItProofs2 Split SplitProofs2 SplitProofs3 Props_Split SplitApply SplitApplyProofs SplitApplyProofs2 SplitApplyProofs4 SplitApplyProofs5 SplitApplyProofs6 SplitApplyProofs8 SplitApplyProofs9 Props_SplitApply Props_SplitApply2 Restore RestoreProofs RestoreProofs2 RestoreProofs3 Props_Restore RestoreProofs8 RestoreProofs9 RestoreProofs10 Props_RoundTrip SplitRestoreProofs Props_RoundTrip2 Props_Restore4 Validate Props_Validate3 Props_Validate BagValid BagValidProofs Props_BagValid Props_BagValid2 Props_BagValid3 Props_BagValid4 Props_EndToEnd Props_AmendTotal2 Props_InPlace SplitCall.
Import ListNotations.
Open Scope N_scope.

(** ** The names *)

(** [n] is [st] with an extension: the text from the last dot on, where
    something other than dots is before it. *)
Definition extended (n st : pystr) : Prop :=
  exists e, n = st ++ DOT :: e /\ ~ In DOT e /\ exists c, In c st /\ c <> DOT.

(** The stem of a name: without the extension, if it has one. *)
Definition stem (n st : pystr) : Prop := extended n st \/ st = n /\ forall st', ~ extended n st'.

(** The last part of a path. *)
Definition last_part (path n : pystr) : Prop := ~ In SLASH n /\ (path = n \/ exists d, path = d ++ SLASH :: n).

Lemma last_eq (c : N) a x b y : a ++ c :: x = b ++ c :: y -> ~ In c x -> ~ In c y -> a = b /\ x = y.
Proof.
  revert b. induction a as [|z a IH]; intros [|z' b] E Nx Ny; cbn [app] in E.
  - injection E as <-. auto.
  - injection E as -> E. exfalso. apply Nx. rewrite E. apply in_app_iff. right. left. reflexivity.
  - injection E as -> E. exfalso. apply Ny. rewrite <- E. apply in_app_iff. right. left. reflexivity.
  - injection E as -> E. destruct (IH b E Nx Ny) as [-> ->]. auto.
Qed.

Lemma rsplit_dot_some p a b : rsplit_dot p = Some (a, b) <-> p = a ++ DOT :: b /\ ~ In DOT b.
Proof.
  assert (F : forall p, match rsplit_dot p with Some (a, b) => p = a ++ DOT :: b /\ ~ In DOT b | None => ~ In DOT p end).
  { clear. induction p as [|c p IH]; cbn [rsplit_dot]; [intros []|]. destruct (rsplit_dot p) as [[x y]|].
    - destruct IH as [-> H]. auto.
    - destruct (c =? DOT) eqn:E; [apply N.eqb_eq in E; subst c; auto|]. apply N.eqb_neq in E. intros [H|H]; [exact (E H)|exact (IH H)]. }
  specialize (F p). destruct (rsplit_dot p) as [[x y]|].
  - destruct F as [-> Ny]. split.
    + intros E. injection E as -> ->. auto.
    + intros [E Nb]. destruct (last_eq _ _ _ _ _ E Ny Nb) as [-> ->]. reflexivity.
  - split; [discriminate|]. intros [-> _]. exfalso. apply F. apply in_app_iff. right. left. reflexivity.
Qed.

Lemma dots_only a : forallb (fun c => c =? DOT) a = false <-> exists c, In c a /\ c <> DOT.
Proof.
  induction a as [|x a IH]; cbn [forallb]; [split; [discriminate|intros (c & [] & _)]|]. rewrite andb_false_iff, IH, N.eqb_neq. split.
  - intros [H|(c & H & H')]; [exists x|exists c]; cbn [In]; auto.
  - intros (c & [->|H] & H'); [left; exact H'|right; eauto].
Qed.

Lemma splitext_stem n : stem n (fst (splitext n)).
Proof.
  unfold splitext. destruct (rsplit_dot n) as [[a b]|] eqn:E.
  - destruct (forallb (fun c => c =? DOT) a) eqn:D; cbn [fst].
    + right. split; [reflexivity|]. intros st (e & -> & Ne & X). apply rsplit_dot_some in E. destruct E as [E Nb].
      destruct (last_eq _ _ _ _ _ E Ne Nb) as [-> _]. apply dots_only in X. congruence.
    + left. apply rsplit_dot_some in E. destruct E as [-> Nb]. exists b. split; [reflexivity|]. split; [exact Nb|]. apply dots_only. exact D.
  - right. split; [reflexivity|]. intros st (e & -> & Ne & _). assert (X : rsplit_dot (st ++ DOT :: e) = Some (st, e)) by (apply rsplit_dot_some; auto). congruence.
Qed.

Lemma stem_unique n a b : stem n a -> stem n b -> a = b.
Proof.
  intros [A|[-> A]] [B|[-> B]]; [| |destruct (A _ B)|reflexivity].
  - destruct A as (e & -> & Ne & _), B as (e' & E & Ne' & _). apply (last_eq _ _ _ _ _ E Ne Ne').
  - destruct (B _ A).
Qed.

Lemma last_part_base path n : last_part path n -> basename path = n.
Proof.
  intros [Ns [->|(d & ->)]]; unfold basename.
  - rewrite (proj2 (rsplit_slash_none n) Ns). reflexivity.
  - rewrite (proj2 (rsplit_slash_some (d ++ SLASH :: n) d n)); [reflexivity|auto].
Qed.

(** The base of the names: the one that is given, and the stem of the last part
    of the path if it is none or empty. *)
Theorem C122_names : forall basis path n st, last_part path n ->
  (base_name basis path = st <->
   match basis with Some (c :: b) => st = c :: b | _ => stem n st end).
Proof.
  intros basis path n st L. pose proof (last_part_base path n L) as E. pose proof (splitext_stem n) as X.
  assert (D : fst (splitext (basename path)) = st <-> stem n st).
  { rewrite E. split; [intros <-; exact X|]. intros Y. exact (stem_unique n _ _ X Y). }
  destruct basis as [[|c b]|]; cbn [base_name]; [exact D| |exact D]. split; congruence.
Qed.
Print Assumptions C122_names.

Example C122_names_case :
  last_part (U "/bags/samples.v1.2") (U "samples.v1.2") /\ base_name None (U "/bags/samples.v1.2") = U "samples.v1" /\
  base_name None (U "bag") = U "bag" /\ base_name (Some []) (U "a.b/c") = U "c" /\ base_name None (U "/x/.hidden") = U ".hidden" /\
  base_name None (U "/x/..a.b") = U "..a" /\ base_name (Some (U "mine.v1")) (U "/bags/samples") = U "mine.v1".
Proof.
  split; [split; [cbn; intuition discriminate|right; exists (U "/bags"); reflexivity]|].
  repeat (split; [vm_compute; reflexivity|]). vm_compute. reflexivity.
Qed.

(** ** One call *)

Definition base_of (j : job) : pystr := base_name (j_basis j) (j_path j).

(** A call that can be expected to work. *)
Record good_job (w : benv) (j : job) (b : obag) : Prop := {
  gj_source : ordinary w (j_source j) b;
  gj_head : plain_forhead (j_splitter j) (so_tree (j_source j));
  gj_base : storable IoText (base_of j) /\ ~ In SLASH (base_of j);
  gj_opts : plain_opts IoText (j_opts j);
  gj_version : ao_version (j_opts j) <> [];
  gj_older : forall i, older_versions (j_opts j) (nth_name (base_of j) i)
}.

(** A directory, written without a slash at its end. *)
Definition plain_outdir (d : pystr) : Prop := d <> [] /\ forall x, d <> x ++ [SLASH].

Definition inside (d : pystr) (names : list pystr) : list pystr := map (fun n => d ++ [SLASH] ++ n) names.

(** The bags are valid multibags: the last one a head bag and the others
    members. *)
Definition valid_split (u : pystr -> res (pystr * pystr)) (w : benv) (want : N) (bags : dict tree) : Prop :=
  Forall (fun bt => passes_plain w (snd bt)) bags /\
  forall others head t, bags = others ++ [(head, t)] ->
    head_passes u w head t want /\ forall n tn, In (n, tn) others -> member_passes w n tn want false.

Definition plan_of (j : job) : plan := planned (j_kind j) (j_splitter j) (base_of j) (j_source j) (j_dirsize j).

Lemma mark_names {B} (g : manifest -> B) ms : map (fun mh => g (fst mh)) (mark_head ms) = map g ms.
Proof.
  induction ms as [|m [|m' ms] IH]; [reflexivity|reflexivity|].
  change (mark_head (m :: m' :: ms)) with ((m, false) :: mark_head (m' :: ms)). cbn [map fst]. rewrite IH. reflexivity.
Qed.

Lemma split_call_eq outdir j out : split_call outdir j out =
  let? a := apply_plan (j_source j) (j_opts j) (plan_of j) None out in
  Ok (map (fun i => os_join outdir (nth_name (base_of j) i)) (seq 1 (length (p_manifests (plan_of j)))), a_out a).
Proof.
  pose proof (C23_output_bags_get_distinct_names (j_kind j) (j_splitter j) (base_of j) (j_bag j)) as H.
  unfold split_call, plan_of, planned. change (bag_of (j_source j) (j_dirsize j)) with (j_bag j).
  change (base_name (j_basis j) (j_path j)) with (base_of j).
  destruct (splitter_plan (j_kind j) (j_splitter j) (base_of j) (j_bag j)) as [r p]. destruct H as (-> & Nm & _). cbn [snd bind].
  destruct (apply_plan (j_source j) (j_opts j) p None out) as [a|e]; [|reflexivity]. cbn [bind]. f_equal. f_equal.
  unfold manifests. rewrite (mark_names (fun m => os_join outdir (match m_name m with Some n => n | None => [] end))).
  rewrite <- (map_map m_name (fun o => os_join outdir (match o with Some n => n | None => [] end))), Nm, map_map. reflexivity.
Qed.

Lemma name_no_slash base i : ~ In SLASH base -> startswith (nth_name base i) [SLASH] = false.
Proof.
  intros Ns. unfold nth_name. destruct base as [|c base]; [reflexivity|]. cbn [app startswith].
  destruct (SLASH =? c) eqn:E; [|reflexivity]. apply N.eqb_eq in E. exfalso. apply Ns. left. symmetry. exact E.
Qed.

Lemma join_plain d n : plain_outdir d -> startswith n [SLASH] = false -> os_join d n = d ++ [SLASH] ++ n.
Proof.
  intros [Nd Ne] Hn. unfold os_join. rewrite Hn. destruct d as [|c d]; [contradiction|].
  destruct (endswith (c :: d) [SLASH]) eqn:E; [|reflexivity]. apply endswith_iff in E. destruct E as [x E]. destruct (Ne x E).
Qed.

Lemma names_len s o p out bags : splits_into s o p None out bags -> length bags = length (p_manifests p).
Proof.
  intros Sp. destruct (made_split _ _ _ _ _ _ Sp) as (_ & _ & _ & _ & _ & _ & _ & _ & Nm). cbn [names_of] in Nm. rewrite names_drawn in Nm.
  apply (f_equal (@length _)) in Nm. rewrite !map_length in Nm. exact Nm.
Qed.

Lemma one_call u w j b outdir out want :
  (forall x, exists scheme host, u x = Ok (scheme, host)) -> good_job w j b -> plain_outdir outdir ->
  NoDup (od_keys out) -> (forall i, ~ In (nth_name (base_of j) i) (od_keys out)) -> ~ asks want REC ->
  exists bags, split_call outdir j out = Ok (inside outdir (map fst bags), out ++ bags) /\ bags <> [] /\
    map fst bags = map (nth_name (base_of j)) (seq 1 (length bags)) /\ valid_split u w want bags /\
    splits_into (j_source j) (j_opts j) (plan_of j) None out bags.
Proof.
  intros Hu [O Hf [Sb Ns] Po Nv Ov] Pd No Nn Nr.
  destruct (C100_split_works u w (j_source j) b (j_kind j) (j_splitter j) (base_of j) (j_dirsize j) (j_opts j) out want Hu O Hf Sb Po Nv Ov No Nn Nr)
    as (bags & Sp & Nb & Eb & Vb & Hb).
  exists bags. split; [|split; [exact Nb|split; [exact Eb|split; [split; assumption|exact Sp]]]].
  pose proof (names_len _ _ _ _ _ Sp) as Ln. fold (plan_of j) in Ln. rewrite split_call_eq. destruct Sp as (a & Ea & Eo). unfold plan_of at 1. rewrite Ea. cbn [bind]. rewrite Eo.
  f_equal. f_equal. unfold inside. rewrite Eb, map_map, Ln. apply map_ext. intros i. apply join_plain; [exact Pd|apply name_no_slash; exact Ns].
Qed.

(** A call of [split] on an ordinary bag returns. The result is the paths of
    the new bags, in order: base_1.mbag, base_2.mbag and so on in the output
    directory. It has these and what it had before, and they are valid
    multibags. *)
Theorem C122_one_call : forall u w j b outdir out want,
  (forall x, exists scheme host, u x = Ok (scheme, host)) -> good_job w j b -> plain_outdir outdir ->
  NoDup (od_keys out) -> (forall i, ~ In (nth_name (base_of j) i) (od_keys out)) -> ~ asks want REC ->
  exists bags, split_call outdir j out = Ok (inside outdir (map fst bags), out ++ bags) /\ bags <> [] /\
    map fst bags = map (nth_name (base_of j)) (seq 1 (length bags)) /\ valid_split u w want bags.
Proof.
  intros u w j b outdir out want Hu G Pd No Nn Nr. destruct (one_call u w j b outdir out want Hu G Pd No Nn Nr) as (bags & H & Nb & Eb & Vb & _). eauto.
Qed.
Print Assumptions C122_one_call.

(** ** Several calls *)

Lemma names_apart b1 b2 i k : nth_name b1 i = nth_name b2 k -> b1 = b2.
Proof.
  unfold nth_name. intros E.
  assert (D : forall m, ~ In 95 (dec m)).
  { intros m H. pose proof (dec_digits m) as F. rewrite Forall_forall in F. apply F in H. discriminate H. }
  change (b1 ++ 95 :: (dec (N.of_nat i) ++ U ".mbag") = b2 ++ 95 :: (dec (N.of_nat k) ++ U ".mbag")) in E.
  assert (X : forall m, ~ In 95 (dec m ++ U ".mbag")).
  { intros m H. apply in_app_iff in H. destruct H as [H|H]; [exact (D m H)|]. cbn in H. intuition discriminate. }
  apply (last_eq _ _ _ _ _ E); apply X.
Qed.

Lemma keys_app (a b : dict tree) : od_keys (a ++ b) = od_keys a ++ map fst b.
Proof. unfold od_keys. apply map_app. Qed.

Section Many.
  Variables (u : pystr -> res (pystr * pystr)) (W : job -> benv) (B : job -> obag) (outdir : pystr) (want : N).
  Hypothesis Hu : forall x, exists scheme host, u x = Ok (scheme, host).
  Hypothesis Pd : plain_outdir outdir.
  Hypothesis Nr : ~ asks want REC.

  Lemma many_calls js : Forall (fun j => good_job (W j) j (B j)) js -> NoDup (map base_of js) -> forall out, NoDup (od_keys out) ->
    (forall j i, In j js -> ~ In (nth_name (base_of j) i) (od_keys out)) ->
    exists parts, split_calls outdir js out = Ok (map (fun bags => inside outdir (map fst bags)) parts, out ++ concat parts) /\
      NoDup (od_keys (out ++ concat parts)) /\
      Forall2 (fun j bags => bags <> [] /\ map fst bags = map (nth_name (base_of j)) (seq 1 (length bags)) /\ valid_split u (W j) want bags /\
        exists before, splits_into (j_source j) (j_opts j) (plan_of j) None before bags) js parts.
  Proof.
    induction js as [|j js IH]; intros G Nd out No Nn.
    - exists []. cbn [split_calls map concat]. rewrite app_nil_r. auto.
    - inversion G as [|? ? Gj Gs]; subst. cbn [map] in Nd. inversion Nd as [|? ? Nj Ns]; subst.
      destruct (one_call u (W j) j (B j) outdir out want Hu Gj Pd No (fun i => Nn j i (or_introl eq_refl)) Nr) as (bags & H & Nb & Eb & Vb & Sp).
      assert (No' : NoDup (od_keys (out ++ bags))).
      { rewrite keys_app, Eb. apply nodup_names; [exact No|]. intros i. apply Nn. left. reflexivity. }
      destruct (IH Gs Ns (out ++ bags) No') as (parts & H' & Np & F).
      { intros k i Ik. rewrite keys_app, in_app_iff. intros [X|X]; [exact (Nn k i (or_intror Ik) X)|].
        rewrite Eb in X. apply in_map_iff in X. destruct X as (i' & E & _). apply names_apart in E. apply Nj. rewrite E. apply in_map. exact Ik. }
      exists (bags :: parts). cbn [split_calls]. rewrite H. cbn [bind]. rewrite H'. cbn [bind map concat]. rewrite app_assoc.
      split; [reflexivity|]. split; [exact Np|]. constructor; [|exact F]. split; [exact Nb|]. split; [exact Eb|]. split; [exact Vb|]. exists out. exact Sp.
  Qed.
End Many.

(** Bags with different bases can be split into the same directory, one after
    the other. All calls return, and the directory has the valid multibags of
    all of them. *)
Theorem C122_many : forall u W B outdir want js out,
  (forall x, exists scheme host, u x = Ok (scheme, host)) -> plain_outdir outdir -> ~ asks want REC ->
  Forall (fun j => good_job (W j) j (B j)) js -> NoDup (map base_of js) -> NoDup (od_keys out) ->
  (forall j i, In j js -> ~ In (nth_name (base_of j) i) (od_keys out)) ->
  exists parts, split_calls outdir js out = Ok (map (fun bags => inside outdir (map fst bags)) parts, out ++ concat parts) /\
    NoDup (od_keys (out ++ concat parts)) /\
    Forall2 (fun j bags => bags <> [] /\ map fst bags = map (nth_name (base_of j)) (seq 1 (length bags)) /\ valid_split u (W j) want bags) js parts.
Proof.
  intros u W B outdir want js out Hu Pd Nr G Nd No Nn.
  destruct (many_calls u W B outdir want Hu Pd Nr js G Nd out No Nn) as (parts & H & Np & F). exists parts. split; [exact H|]. split; [exact Np|].
  clear -F. induction F as [|j bags js parts (X1 & X2 & X3 & _) F IH]; constructor; auto.
Qed.
Print Assumptions C122_many.

(** From a directory with the parts of many bags each of them can be restored:
    every job has its bags there, the last of which is the head bag, and a
    restoration that finds the bags of the directory gives the bag back that
    was split. *)
Theorem C122_archive : forall W B outdir js out paths out', plain_outdir outdir ->
  Forall (fun j => good_job (W j) j (B j)) js -> NoDup (map base_of js) -> NoDup (od_keys out) ->
  (forall j i, In j js -> ~ In (nth_name (base_of j) i) (od_keys out)) ->
  split_calls outdir js out = Ok (paths, out') ->
  forall j, In j js -> exists bags, incl bags out' /\ bags <> [] /\ map fst bags = map (nth_name (base_of j)) (seq 1 (length bags)) /\
    forall v w A src bsize ro h place,
    W j = at_place v w src -> restorable v A (j_source j) -> same_world v w ->
    incl A (e_algos v) -> good_hash v -> plain_text bsize ->
    found v place out' -> safe_places v place out' (so_tree (j_source j)) -> head_of IoText bags h ->
    exists dest', restore v true true bsize ro h (place (hb_name h)) [] = Ok dest' /\
      passes_plain (at_place v w (e_dest v)) dest' /\
      forall q, ~ special_path q -> od_get q dest' = od_get q (so_tree (j_source j)).
Proof.
  intros W B outdir js out paths out' Pd G Nd No Nn H j Ij.
  destruct (many_calls (fun _ => Ok ([], [])) W B outdir PROB (fun _ => ex_intro _ _ (ex_intro _ _ eq_refl)) Pd (fun H => H eq_refl) js G Nd out No Nn) as (parts & H' & _ & F).
  assert (Eo : out' = out ++ concat parts) by congruence. subst out'. clear H H'.
  assert (X : exists bags, In bags parts /\ bags <> [] /\ map fst bags = map (nth_name (base_of j)) (seq 1 (length bags)) /\
    exists before, splits_into (j_source j) (j_opts j) (plan_of j) None before bags).
  { clear -F Ij. induction F as [|k bags js parts (X1 & X2 & _ & X4) F IH]; [destruct Ij|]. destruct Ij as [<-|Ij].
    - exists bags. split; [left; reflexivity|]. auto.
    - destruct (IH Ij) as (bs & Ib & R). exists bs. split; [right; exact Ib|exact R]. }
  destruct X as (bags & Ib & Nb & Eb & before & Sp). assert (Ii : incl bags (out ++ concat parts)).
  { intros x Ix. apply in_app_iff. right. apply in_concat. exists bags. auto. }
  exists bags. split; [exact Ii|]. split; [exact Nb|]. split; [exact Eb|].
  intros v w A src bsize ro h place Ew RS Sw Ia Gh Pt Fo Sf Hd. rewrite Forall_forall in G. destruct (G j Ij) as [O Hf [Sb _] Po _ _]. rewrite Ew in O.
  apply (C100_there_and_back v w A (j_source j) (B j) (j_kind j) (j_splitter j) (base_of j) (j_dirsize j) (j_opts j) before bags bsize ro h place src); try assumption.
  - intros n t Hn. apply Fo, Ii, Hn.
  - intros n f Hn Hf'. apply Sf; [|exact Hf']. apply in_map_iff in Hn. destruct Hn as (x & E & Hx). apply in_map_iff. exists x. auto.
Qed.
Print Assumptions C122_archive.

(** ** Refuted: that the default names keep bags apart *)

(** A bag whose base was used before in the same directory cannot be split
    there: the first directory to be made exists. *)
Theorem C122_base_used : forall w1 w2 b1 b2 outdir j1 j2 out paths out',
  ordinary w1 (j_source j1) b1 -> plain_forhead (j_splitter j1) (so_tree (j_source j1)) ->
  ordinary w2 (j_source j2) b2 -> plain_forhead (j_splitter j2) (so_tree (j_source j2)) ->
  split_call outdir j1 out = Ok (paths, out') -> base_of j1 = base_of j2 ->
  split_call outdir j2 out' = Err EOS.
Proof.
  intros w1 w2 b1 b2 outdir j1 j2 out paths out' O1 H1 O2 H2 E Eb. rewrite split_call_eq in E.
  pose proof (planned_some w1 _ b1 O1 (j_kind j1) (j_splitter j1) (base_of j1) (j_dirsize j1) H1) as N1.
  pose proof (planned_some w2 _ b2 O2 (j_kind j2) (j_splitter j2) (base_of j2) (j_dirsize j2) H2) as N2.
  destruct (planned_eq (j_source j1) (j_kind j1) (j_splitter j1) (base_of j1) (j_dirsize j1)) as [_ M1].
  destruct (planned_eq (j_source j2) (j_kind j2) (j_splitter j2) (base_of j2) (j_dirsize j2)) as [_ M2].
  change (p_manifests (plan_of j1) <> []) in N1. change (p_manifests (plan_of j2) <> []) in N2.
  destruct (apply_plan (j_source j1) (j_opts j1) (plan_of j1) None out) as [a|e] eqn:Ea; [|discriminate E]. cbn [bind] in E. injection E as _ Eo.
  assert (Ha : od_has (nth_name (base_of j2) 1) out' = true).
  { apply apply_plan_ok in Ea. destruct Ea as (ms0 & lu0 & bts & _ & Ea & _ & _ & _ & Nm). cbn [names_of] in Nm. rewrite names_drawn in Nm.
    unfold plan_of in N1, Nm. rewrite M1 in Nm. rewrite <- Eo, Ea. apply od_has_iff. rewrite keys_app. apply in_app_iff. right.
    destruct (p_manifests (planned (j_kind j1) (j_splitter j1) (base_of j1) (j_source j1) (j_dirsize j1))) as [|m ms]; [contradiction|].
    cbn [length seq map] in Nm. destruct bts as [|x bts]; [discriminate Nm|]. cbn [map] in Nm |- *. injection Nm as Nm _. left. rewrite Nm, Eb. reflexivity. }
  rewrite split_call_eq. unfold plan_of, apply_plan, manifests in *.
  assert (I0 : initial_lists (j_source j2) = Ok ([], [])) by (unfold initial_lists; change T_HeadVersion with (U "Multibag-Head-Version"); rewrite (proj1 (or_single _ _ _ O2)); reflexivity).
  rewrite I0. cbn [bind].
  destruct (p_manifests (planned (j_kind j2) (j_splitter j2) (base_of j2) (j_source j2) (j_dirsize j2))) as [|m ms]; [contradiction|].
  cbn [length seq map] in M2. injection M2 as M2 _.
  assert (Eh : exists h tl, mark_head (m :: ms) = (m, h) :: tl) by (destruct ms as [|m' ms]; [exists true, []; reflexivity|exists false, (mark_head (m' :: ms)); reflexivity]).
  destruct Eh as (h & tl & ->). cbn [foldM]. unfold apply_one at 1. cbn [next_name a_naming a_out bind]. rewrite M2, Ha. reflexivity.
Qed.
Print Assumptions C122_base_used.

(** So it is for two bags whose names differ in the extension only, and for any
    two whose paths are written with a slash at the end. *)
Theorem C122_extensions_refuted : forall d st e1 e2, ~ In SLASH (st ++ e1 ++ e2) -> ~ In DOT (e1 ++ e2) ->
  (exists c, In c st /\ c <> DOT) ->
  base_name None (d ++ SLASH :: st ++ DOT :: e1) = st /\ base_name None (d ++ SLASH :: st ++ DOT :: e2) = st.
Proof.
  intros d st e1 e2 Ns Nd Hc. rewrite !in_app_iff in Ns; rewrite !in_app_iff in Nd.
  assert (X : forall e, (In SLASH e -> False) -> (In DOT e -> False) -> base_name None (d ++ SLASH :: st ++ DOT :: e) = st).
  { intros e Xs Xd. apply (C122_names None _ (st ++ DOT :: e)).
    - split; [|right; exists d; reflexivity]. rewrite in_app_iff. intros [Y|[Y|Y]]; [tauto|discriminate|tauto].
    - left. exists e. auto. }
  split; apply X; tauto.
Qed.
Print Assumptions C122_extensions_refuted.

Theorem C122_slash_refuted : forall d, base_name None (d ++ [SLASH]) = [] /\ base_name (Some []) (d ++ [SLASH]) = [].
Proof.
  intros d. assert (L : last_part (d ++ [SLASH]) []) by (split; [intros []|right; exists d; reflexivity]).
  assert (S0 : stem [] []).
  { right. split; [reflexivity|]. intros st (e & E & _). destruct st; discriminate. }
  split; [apply (C122_names None _ [] [] L)|apply (C122_names (Some []) _ [] [] L)]; exact S0.
Qed.
Print Assumptions C122_slash_refuted.

(** ** A case *)

Definition a_job (path : pystr) : job :=
  {| j_path := path; j_source := va_source; j_dirsize := fun _ => 0; j_kind := WellPacked;
     j_splitter := fst (new_splitter 5 None None); j_basis := None; j_opts := Props_SplitApply.ex_opts |}.

Lemma a_job_good path n : base_name None path = n -> storable IoText n -> ~ In SLASH n ->
  good_job (at_place va_env va_world (U "/src")) (a_job path) va_open.
Proof.
  intros E St Ns. destruct C100_case as (A1 & _ & _ & A4 & _ & A6 & A7 & _).
  constructor; cbn [a_job j_source j_splitter j_opts j_basis j_path]; try assumption.
  - unfold base_of. cbn [a_job j_basis j_path]. rewrite E. split; assumption.
  - intros i x [].
Qed.

(** Two copies of the bag of [C100_case] in directories with different names
    give six bags. If the names differ in the extension only, the second call
    fails. *)
Example C122_case : let w := at_place va_env va_world (U "/src") in
  let j1 := a_job (U "/in/one.bag") in let j2 := a_job (U "/in/two.bag") in let j3 := a_job (U "/in/one.copy") in
  good_job w j1 va_open /\ good_job w j2 va_open /\ good_job w j3 va_open /\ plain_outdir (U "/out") /\
  NoDup (map base_of [j1; j2]) /\ ~ asks PROB REC /\
  match split_calls (U "/out") [j1; j2] [] with
  | Ok (paths, out) => paths = [[U "/out/one_1.mbag"; U "/out/one_2.mbag"; U "/out/one_3.mbag"]; [U "/out/two_1.mbag"; U "/out/two_2.mbag"; U "/out/two_3.mbag"]] /\
                       length out = 6%nat
  | Err _ => False
  end /\
  split_calls (U "/out") [j1; j3] [] = Err EOS.
Proof.
  cbv zeta. split; [|split; [|split]].
  - apply (a_job_good _ (U "one")); [vm_compute; reflexivity|apply storableb_ok; vm_compute; reflexivity|cbn; intuition discriminate].
  - apply (a_job_good _ (U "two")); [vm_compute; reflexivity|apply storableb_ok; vm_compute; reflexivity|cbn; intuition discriminate].
  - apply (a_job_good _ (U "one")); [vm_compute; reflexivity|apply storableb_ok; vm_compute; reflexivity|cbn; intuition discriminate].
  - split; [|split; [|split; [|split]]].
    + split; [discriminate|]. intros x E. apply (f_equal (@rev N)) in E. rewrite rev_app_distr in E. discriminate E.
    + assert (E : map base_of [a_job (U "/in/one.bag"); a_job (U "/in/two.bag")] = [U "one"; U "two"]) by (vm_compute; reflexivity).
      rewrite E. constructor; [intros [H|[]]; discriminate H|]. constructor; [intros []|constructor].
    + intros H; apply H; reflexivity.
    + vm_compute. split; reflexivity.
    + vm_compute. reflexivity.
Qed.

(** Bags are found in the directory by their names. *)
Definition stored (place : pystr -> pystr) (out : dict tree) (n : pystr) : option rbag :=
  match od_get n out with Some t => Some {| rb_loc := place n; rb_tree := t |} | None => None end.

(** The hypotheses of [C122_archive] about the restoration are met for these
    jobs, whatever else the directory has. *)
Example C122_archive_case : forall path out', NoDup (od_keys out') ->
  let place := fun n => U "/store/" ++ n in let v := searching va_env (stored place out') in
  at_place va_env va_world (U "/src") = at_place v va_world (U "/src") /\ restorable v ex_algos (j_source (a_job path)) /\ same_world v va_world /\
  incl ex_algos (e_algos v) /\ good_hash v /\ plain_text (fun _ => U "1 kB") /\
  found v place out' /\ safe_places v place out' (so_tree (j_source (a_job path))).
Proof.
  intros path out' Nd. cbv zeta.
  destruct C95_case as (A1 & _ & _ & _ & _ & _ & _ & _ & _ & A10 & A11 & A12 & _ & _ & _ & A16 & _).
  split; [reflexivity|]. split; [apply searching_restorable; exact A1|]. split; [destruct A16; constructor; assumption|].
  split; [exact A10|]. split; [exact A11|]. split; [exact A12|]. split; [|intros n f _ _; reflexivity].
  intros n t H. split; [|discriminate]. cbn [searching e_find]. unfold stored. rewrite (od_in_get _ _ _ Nd H). reflexivity.
Qed.

(** * Sharper statements for C20, C60, C61, C64, C88 and C106 *)

Require Import String NArith PeanoNat Bool List Lia.
From Verif Require Import PyBase PyFacts Fs FsFacts HeadBag HeadBagProofs3 Split SplitProofs3 SplitApply SplitApplyProofs Props_SplitApply3 Validate ValidateText BagValid Access.
Import ListNotations.
Open Scope N_scope.

(** ** C20: the names that splitting leaves out *)

Definition word_characters : pystr := U "ABCDEFGHIJKLMNOPQRSTUVWXYZabcdefghijklmnopqrstuvwxyz0123456789_".

(** What comes before ".txt" in the name of a BagIt file. *)
Definition bagit_stem (s : pystr) : Prop :=
  s = U "bagit" \/ s = U "bag-info" \/ s = U "fetch" \/
  exists alg, alg <> [] /\ Forall (fun c => In c word_characters) alg /\ (s = U "manifest-" ++ alg \/ s = U "tagmanifest-" ++ alg).

(** The dots of the patterns are not escaped, and their ends let a line feed
    through. *)
Definition left_out (f : pystr) : Prop :=
  exists stem c nl, bagit_stem stem /\ c <> 10 /\ (nl = [] \/ nl = [10]) /\ f = stem ++ [c] ++ U "txt" ++ nl.

Lemma is_word_iff c : is_word c = true <-> In c word_characters.
Proof.
  split.
  - intros H. assert (K : forallb (fun i => implb (is_word (N.of_nat i)) (existsb (N.eqb (N.of_nat i)) word_characters)) (seq 0 128) = true) by (vm_compute; reflexivity).
    rewrite forallb_forall in K. assert (L : c < 128).
    { unfold is_word, is_digit in H. rewrite !orb_true_iff, !andb_true_iff, !N.leb_le, N.eqb_eq in H. lia. }
    specialize (K (N.to_nat c)). rewrite N2Nat.id in K. assert (Il : In (N.to_nat c) (seq 0 128)) by (apply in_seq; lia).
    apply K in Il. rewrite H in Il. cbn [implb] in Il. apply existsb_exists in Il. destruct Il as (x & Ix & E). apply N.eqb_eq in E. subst x. exact Ix.
  - intros H. assert (K : forallb is_word word_characters = true) by (vm_compute; reflexivity). rewrite forallb_forall in K. exact (K c H).
Qed.

Lemma dot_txt_iff s : re_dot_txt s = true <-> exists c nl, c <> 10 /\ (nl = [] \/ nl = [10]) /\ s = [c] ++ U "txt" ++ nl.
Proof.
  split.
  - destruct s as [|c t]; cbn [re_dot_txt]; intros H; [discriminate H|]. apply andb_true_iff in H. destruct H as [H1 H2]. apply negb_true_iff, N.eqb_neq in H1.
    apply orb_true_iff in H2. destruct H2 as [H2|H2]; apply streq_eq in H2; subst t; [exists c, []|exists c, [10]]; auto.
  - intros (c & nl & Hc & Hn & ->). cbn [app re_dot_txt]. apply andb_true_iff. split; [apply negb_true_iff, N.eqb_neq; exact Hc|].
    apply orb_true_iff. destruct Hn as [-> | ->]; [left|right]; reflexivity.
Qed.

Lemma word_txt_iff s : forall seen, re_word_txt seen s = true <->
  exists alg c nl, (alg <> [] \/ seen = true) /\ Forall (fun x => In x word_characters) alg /\ c <> 10 /\ (nl = [] \/ nl = [10]) /\ s = alg ++ [c] ++ U "txt" ++ nl.
Proof.
  induction s as [|x s IH]; intros seen; cbn [re_word_txt].
  - split.
    + intros H. apply orb_true_iff in H. destruct H as [H|H]; [|discriminate H]. apply andb_true_iff in H. destruct H as [_ H]. discriminate H.
    + intros (alg & c & nl & _ & _ & _ & _ & E). destruct alg; discriminate E.
  - rewrite orb_true_iff, !andb_true_iff, dot_txt_iff, IH, is_word_iff. split.
    + intros [[-> (c & nl & Hc & Hn & E)]|[Hx (alg & c & nl & _ & Ha & Hc & Hn & E)]].
      * exists [], c, nl. auto 6.
      * exists (x :: alg), c, nl. split; [left; discriminate|]. split; [constructor; assumption|]. split; [exact Hc|]. split; [exact Hn|]. rewrite E. reflexivity.
    + intros (alg & c & nl & Hs & Ha & Hc & Hn & E). destruct alg as [|a alg].
      * left. destruct Hs as [Hs|Hs]; [congruence|]. split; [exact Hs|]. exists c, nl. auto.
      * right. inversion Ha as [|? ? A1 A2]; subst. inversion E; subst. split; [exact A1|]. exists alg, c, nl. auto 6.
Qed.

Lemma after_prefix pre s (P : pystr -> Prop) : startswith s pre = true /\ P (skipn (length pre) s) <-> exists r, P r /\ s = pre ++ r.
Proof.
  split.
  - intros [H1 H2]. exists (skipn (length pre) s). split; [exact H2|]. apply startswith_skipn. exact H1.
  - intros (r & H & ->). split; [apply startswith_iff; exists r; reflexivity|]. rewrite skipn_app, skipn_all, Nat.sub_diag. exact H.
Qed.

Theorem C20_left_out : forall f, special_name f = true <-> left_out f.
Proof.
  assert (Pre : forall pre f, re_pre_txt pre f = true <-> exists c nl, c <> 10 /\ (nl = [] \/ nl = [10]) /\ f = pre ++ [c] ++ U "txt" ++ nl).
  { intros pre f. unfold re_pre_txt. rewrite andb_true_iff. rewrite (after_prefix pre f (fun r => re_dot_txt r = true)). split.
    - intros (r & H & ->). apply dot_txt_iff in H. destruct H as (c & nl & Hc & Hn & ->). exists c, nl. auto.
    - intros (c & nl & Hc & Hn & ->). eexists. split; [|reflexivity]. apply dot_txt_iff. exists c, nl. auto. }
  assert (Man : forall pre n f, n = length pre -> (startswith f pre && re_word_txt false (skipn n f) = true <->
    exists alg c nl, alg <> [] /\ Forall (fun x => In x word_characters) alg /\ c <> 10 /\ (nl = [] \/ nl = [10]) /\ f = (pre ++ alg) ++ [c] ++ U "txt" ++ nl)).
  { intros pre n f ->. rewrite andb_true_iff. rewrite (after_prefix pre f (fun r => re_word_txt false r = true)). split.
    - intros (r & H & ->). apply word_txt_iff in H. destruct H as (alg & c & nl & Ha & Hw & Hc & Hn & ->). exists alg, c, nl.
      destruct Ha as [Ha|Ha]; [|discriminate Ha]. rewrite <- app_assoc. auto 6.
    - intros (alg & c & nl & Ha & Hw & Hc & Hn & ->). exists (alg ++ [c] ++ U "txt" ++ nl). rewrite <- app_assoc. split; [|reflexivity].
      apply word_txt_iff. exists alg, c, nl. auto 6. }
  intros f. unfold special_name, re_manifest. rewrite !orb_true_iff, !Pre. rewrite (Man (U "manifest-") 9%nat) by reflexivity. rewrite (Man (U "tagmanifest-") 12%nat) by reflexivity.
  unfold left_out, bagit_stem. split.
  - intros [[[H|H]|H]|[H|H]].
    + destruct H as (c & nl & H). exists (U "bagit"), c, nl. tauto.
    + destruct H as (c & nl & H). exists (U "bag-info"), c, nl. tauto.
    + destruct H as (c & nl & H). exists (U "fetch"), c, nl. tauto.
    + destruct H as (alg & c & nl & Ha & Hw & H). exists (U "manifest-" ++ alg), c, nl. split; [|exact H]. right. right. right. exists alg. auto.
    + destruct H as (alg & c & nl & Ha & Hw & H). exists (U "tagmanifest-" ++ alg), c, nl. split; [|exact H]. right. right. right. exists alg. auto.
  - intros (stem & c & nl & Hs & Hc & Hn & E). destruct Hs as [-> |[-> |[-> |(alg & Ha & Hw & [-> | ->])]]].
    + left. left. left. exists c, nl. auto.
    + left. left. right. exists c, nl. auto.
    + left. right. exists c, nl. auto.
    + right. left. exists alg, c, nl. auto 6.
    + right. right. exists alg, c, nl. auto 6.
Qed.
Print Assumptions C20_left_out.

Theorem C20_left_out_path : forall p, is_special p = true <-> exists f, p = U "/" ++ f /\ left_out f.
Proof.
  intros p. split.
  - destruct p as [|c t]; cbn [is_special]; intros H; [discriminate H|]. apply andb_true_iff in H. destruct H as [H1 H2]. apply N.eqb_eq in H1. subst c.
    exists t. split; [reflexivity|]. apply C20_left_out. exact H2.
  - intros (f & -> & H). apply C20_left_out in H. change (is_special (U "/" ++ f)) with ((SLASH =? SLASH) && special_name f). rewrite H. reflexivity.
Qed.
Print Assumptions C20_left_out_path.

Example C20_left_out_case :
  special_name (U "tagmanifest-sha256.txt") = true /\ special_name (U "manifest-Z_a.txt") = true /\ special_name (U "bagitXtxt") = true /\
  special_name (U "manifest-.txt") = false /\ special_name (U "bagit.txt.gz") = false /\ is_special (U "/fetch.txt") = true /\ is_special (U "xfetch.txt") = false.
Proof. vm_compute. repeat split. Qed.

(** ** C60: the types of a test *)

(** A test can be made exactly if its type is that of an error, a warning or a
    recommendation, and has then the attributes it was made with. *)
Theorem C60_construct : forall label ty spec p comments ver,
  (ty = 1 \/ ty = 2 \/ ty = 4 -> exists i, construct [AStr label; AInt ty; AStr spec; ABool p; AList comments; AStr ver] = Ok i /\
     i_label i = label /\ i_type i = ty /\ i_spec i = spec /\ i_passed i = p /\ i_comments i = comments /\ i_pver i = ver) /\
  (~ (ty = 1 \/ ty = 2 \/ ty = 4) -> construct [AStr label; AInt ty; AStr spec; ABool p; AList comments; AStr ver] = Err EType).
Proof.
  intros label ty spec p comments ver. cbn [construct]. split.
  - intros [-> |[-> | ->]]; eexists; (split; [reflexivity|]); cbn; auto 6.
  - intros H. change ERROR with 1. change WARN with 2. change REC with 4. destruct (N.eqb_spec ty 1); [tauto|]. destruct (N.eqb_spec ty 2); [tauto|].
    destruct (N.eqb_spec ty 4); [tauto|]. reflexivity.
Qed.
Print Assumptions C60_construct.

(** ** C61: making a head bag *)

Theorem C61_new : forall isdir h,
  (isdir = false -> new_headbag isdir h = Err EValue) /\
  (isdir = true -> forall e, h = Err e -> new_headbag isdir h = Err e) /\
  (isdir = true -> forall b, h = Ok b -> exists b', new_headbag isdir h = Ok (CHead, b') /\ hb_tree b' = hb_tree b /\ hb_name b' = hb_name b /\ hb_info b' = hb_info b).
Proof.
  intros isdir h. split; [intros ->; reflexivity|]. split; [intros -> e ->; reflexivity|]. intros -> b ->. eexists. split; [reflexivity|]. cbn. auto.
Qed.
Print Assumptions C61_new.

(** ** C64: replicating with a logger *)

(** If the call returns, the destination has the content, also if there is a
    file in the place of the directory to write to. *)
Theorem C64_replicate_logged_partial : forall hardlink can_link cp src dst p dst', wf_tree dst -> good_path p ->
  (is_dir p src = true \/ is_dir p dst = false) ->
  replicate hardlink can_link true cp src dst p = (dst', Ok tt) -> replicated src dst' p.
Proof.
  intros hardlink can_link cp src dst p dst' W G Hd H. destruct (is_file (dirname p) dst) eqn:F; [|eapply C64_replicate_with_logger_partial; eauto].
  destruct (is_dir p src) eqn:Ds.
  { destruct (is_dir p dst) eqn:Dd.
    - unfold replicate in H. destruct (exists_ p src); cbn [negb] in H; [|discriminate H]. rewrite Ds, Dd in H. inversion H; subst.
      split; [|auto]. intros c R. apply read_not_dir in R; [congruence|apply good_path_nonempty; exact G].
    - unfold replicate in H. destruct (exists_ p src); cbn [negb] in H; [|discriminate H]. rewrite Ds, Dd in H. destruct (exists_ p dst) eqn:Ex; [discriminate H|].
      destruct (makedirs p dst) as [t|e] eqn:M; [|discriminate H]. inversion H; subst. split; [|intros _; eapply dir_made; eauto].
      intros c R. apply read_not_dir in R; [congruence|apply good_path_nonempty; exact G]. }
  destruct Hd as [Hd|Hd]; [discriminate Hd|]. exfalso. unfold replicate in H. destruct (exists_ p src); cbn [negb] in H; [|discriminate H]. rewrite Ds in H.
  assert (Ex : exists_ (dirname p) dst = true) by (unfold exists_; rewrite F; reflexivity). rewrite Ex in H.
  assert (Dn : is_dir (dirname p) dst = false).
  { unfold is_file in F. unfold is_dir. destruct (dirname p) as [|a d] eqn:E; [exfalso|destruct (od_get (a :: d) dst) as [[|]|]; congruence].
    destruct (od_get [] dst) as [n|] eqn:O; [|discriminate F]. apply od_get_some_key in O. exact (good_path_nonempty [] (wf_good _ W [] O) eq_refl). }
  unfold write_file in H. rewrite ?Hd, ?Dn in H. rewrite ?Hd, ?Dn in H. destruct (hardlink && can_link && negb (exists_ p dst)); destruct hardlink; cbn [andb] in H; try discriminate H.
  all: destruct cp as [|[l|]]; cbn [fst] in H; discriminate H.
Qed.
Print Assumptions C64_replicate_logged_partial.

Example C64_logged_case :
  wf_tree [(U "data", NFile [])] /\ replicate true true true CopyDone [(U "data", NDir); (U "data/a", NFile (U "x"))] [(U "data", NFile [])] (U "data/a") =
    ([(U "data", NFile [])], Err EAttribute) /\
  replicate true true true CopyDone [(U "data", NDir); (U "data/a", NFile (U "x"))] [] (U "data/a") = ([(U "data", NDir); (U "data/a", NFile (U "x"))], Ok tt).
Proof. split; [apply wf_treeb_ok; reflexivity|]. split; vm_compute; reflexivity. Qed.

(** ** C88: checksums may be written in capitals *)

Definition capital (c : N) : N := if (97 <=? c) && (c <=? 122) then c - 32 else c.

Theorem C88_capitals : forall h, Forall (fun c => ~ In c (U "ABCDEFGHIJKLMNOPQRSTUVWXYZ")) h -> lower (map capital h) = h /\ lower h = h.
Proof.
  induction 1 as [|c h Hc _ IH]; [split; reflexivity|]. destruct IH as [I1 I2]. unfold lower in *. cbn [map]. rewrite I1, I2.
  assert (K : (65 <=? c) && (c <=? 90) = false).
  { destruct ((65 <=? c) && (c <=? 90)) eqn:E; [exfalso|reflexivity]. apply andb_true_iff in E. rewrite !N.leb_le in E. apply Hc.
    assert (L : forallb (fun i => existsb (N.eqb (N.of_nat i)) (U "ABCDEFGHIJKLMNOPQRSTUVWXYZ")) (seq 65 26) = true) by (vm_compute; reflexivity).
    rewrite forallb_forall in L. specialize (L (N.to_nat c)). rewrite N2Nat.id in L. assert (Il : In (N.to_nat c) (seq 65 26)) by (apply in_seq; lia).
    apply L in Il. apply existsb_exists in Il. destruct Il as (x & Ix & E2). apply N.eqb_eq in E2. subst x. exact Ix. }
  rewrite K. split; [|reflexivity]. f_equal. unfold capital. destruct ((97 <=? c) && (c <=? 122)) eqn:E; [|rewrite K; reflexivity].
  apply andb_true_iff in E. rewrite !N.leb_le in E. assert (X : (65 <=? c - 32) && (c - 32 <=? 90) = true) by (apply andb_true_iff; rewrite !N.leb_le; lia).
  rewrite X. lia.
Qed.
Print Assumptions C88_capitals.

(** ** C106: the remaining texts *)

Theorem C106_nothing_failed : forall r, count_failed ALL r = 0%nat -> error_text r = U "Unknown Multibag validation failure".
Proof.
  intros r H. unfold error_text, error_message, count_failed in *. destruct (failed ALL r); [reflexivity|discriminate H].
Qed.
Print Assumptions C106_nothing_failed.

(** The text of a test: with its first remark in parentheses. *)
Theorem C106_issue_text : forall i,
  let head := (if i_passed i then U "PASSED" else if i_type i =? 1 then U "ERROR" else if i_type i =? 2 then U "WARNING" else U "RECOMMENDATION")
    ++ U ": multibag " ++ i_pver i ++ U " " ++ i_label i ++ (if streq (i_spec i) [] then [] else U ": " ++ i_spec i) in
  summary i = head /\
  (i_comments i = [] -> issue_str i = head /\ description i = head) /\
  (forall c l, i_comments i = c :: l -> c <> [] -> issue_str i = head ++ U " (" ++ c ++ U ")") /\
  (forall c l, i_comments i = c :: l -> description i = head ++ concat (map (fun x => [10] ++ U "   " ++ x) (c :: l))).
Proof.
  intros i head. assert (Sm : summary i = head).
  { unfold summary, head, ValidateText.type_label. destruct (i_spec i); reflexivity. }
  split; [exact Sm|]. unfold issue_str, description. rewrite Sm. split; [intros ->; rewrite app_nil_r; auto|]. split.
  - intros c l -> Nc. destruct c; [congruence|reflexivity].
  - intros c l ->. f_equal. revert c. induction l as [|d l IH]; intros c; [cbn [join map concat]; rewrite app_nil_r; reflexivity|].
    change (join LFPAD (c :: d :: l)) with (c ++ LFPAD ++ join LFPAD (d :: l)). rewrite IH. cbn [map concat]. unfold LFPAD. rewrite <- !app_assoc. reflexivity.
Qed.
Print Assumptions C106_issue_text.

(** The head bags that the package makes, under validation *)
Require Import String NArith PeanoNat Bool List Lia.
From Verif Require Import PyBase PyFacts Version Tsv TsvProofs Fs FsFacts HeadBag HeadBagProofs HeadBagProofs2 HeadBagProofs3 BagIt BagItProofs Split SplitApply SplitApplyProofs SplitApplyProofs5 SplitApplyProofs7 SplitApplyProofs8 Restore RestoreProofs RestoreProofs2 RestoreProofs3 RestoreProofs6 Props_SplitApply Props_Restore Props_Restore3 Amend AmendProofs AmendProofs2 AmendProofs3 AmendProofs4 Props_Amend SingleProofs Props_Single Validate ValidateProofs Props_Validate Props_Validate2 Props_Validate3 ValidateProofs2.
Import ListNotations.
Open Scope N_scope.

(** The bag with this name and these files, opened; its tags are read by one
    of the two readers, and the bagit library has nothing to say against it. *)
Definition opened (b : vbag) (name : pystr) (t : tree) : Prop :=
  b_name b = name /\ b_tree b = t /\ b_plain b = Ok None /\ exists r, tags_of r t = Ok (b_info b).

(** Validation ends without a problem of the types asked for. *)
Definition passes (u : pystr -> res (pystr * pystr)) (b : vbag) (want : N) : Prop :=
  forall target, exists r, head_validate u b target want = Ok r /\ ok r = true.

(** An ordinary value: not empty, trimmed and on one line. *)
Definition ordinary (s : pystr) : Prop := s <> [] /\ tag_value_ok Codecs s.
(** The tags of the bag that becomes a head bag: the recommended elements have
    ordinary values, if any. *)
Definition ordinary_tags (i : infod) (want : N) : Prop :=
  forall el, In el ["Internal-Sender-Identifier"; "Internal-Sender-Description"; "Bag-Group-Identifier"]%string ->
    Forall ordinary (tag_values i (U el)) /\
    (asks want REC -> el <> "Internal-Sender-Description"%string -> tag_values i (U el) <> []).

(** ** What stays in place *)

Definition leaves_at (q : pystr) (s : step) : Prop := forall t t', s t = Ok t' -> od_get q t' = od_get q t.
Lemma run_leaves l q : Forall (leaves_at q) l -> forall t t', run_steps l t = Ok t' -> od_get q t' = od_get q t.
Proof.
  induction 1 as [|s l Hs _ IH]; intros t t' H; [cbn in H; inversion H; reflexivity|].
  rewrite run_cons in H. apply bind_ok in H. destruct H as (t1 & H1 & H2). rewrite (IH _ _ H2). apply Hs. exact H1.
Qed.
Lemma write_leaves p c q : q <> p -> leaves_at q (write_file p c).
Proof. intros Q t t' H. apply write_file_ok in H. subst t'. apply od_get_set_other. auto. Qed.

Lemma list_leaves td l d q : q <> td -> q <> sjoin td F_members -> q <> sjoin td F_lookup ->
  Forall (leaves_at q) ([reset_step td; clear_step td] ++ members_steps td l ++ lookup_steps td d).
Proof.
  intros Q Q1 Q2.
  assert (E : leaves_at q (ensure_step td)) by (intros t t' H; apply (ensure_step_other _ _ _ H); auto).
  assert (D : forall p, q <> p -> leaves_at q (remove_file p)).
  { intros p P t t' H. unfold remove_file in H. destruct (is_file p t); [|discriminate]. inversion H; subst t'. apply od_get_del_other. auto. }
  apply Forall_app. split; [|apply Forall_app; split].
  - constructor; [|constructor; [|constructor]]; intros t t' H.
    + unfold reset_step in H. destruct (is_file _ _); [exact (D _ Q1 _ _ H)|exact (E _ _ H)].
    + unfold clear_step in H. destruct (exists_ _ _); [exact (D _ Q2 _ _ H)|inversion H; reflexivity].
  - unfold members_steps. constructor; [exact E|]. constructor; [|constructor]. apply write_leaves. exact Q1.
  - unfold lookup_steps. destruct d as [d|]; [|constructor]. constructor; [exact E|]. constructor; [|constructor]. apply write_leaves. exact Q2.
Qed.

Lemma info_leaves v algs bsize version profver i q : plain_algos v -> (forall a, In a algs -> In a (e_algos v)) -> In SLASH q ->
  Forall (leaves_at q) (info_steps v algs bsize version profver i).
Proof.
  intros Pa Al Q.
  assert (S : forall f, Forall (leaves_at q) (save_steps v algs f)).
  { intros f. unfold save_steps. constructor.
    - intros t t' H. apply (write_leaves F_baginfo _ q) in H; [exact H|]. intros ->. vm_compute in Q. intuition discriminate.
    - apply Forall_forall. intros s I. apply in_map_iff in I. destruct I as (a & <- & I). intros t t' H.
      apply (write_leaves _ _ q) in H; [exact H|]. intros ->. unfold man_name in Q. apply in_app_or in Q. destruct Q as [Q|Q].
      + vm_compute in Q. intuition discriminate.
      + apply in_app_or in Q. destruct Q as [Q|Q]; [vm_compute in Q; intuition discriminate|].
        apply in_app_or in Q. destruct Q as [Q|Q]; [exact (Pa a (Al a I) Q)|]. vm_compute in Q. intuition discriminate. }
  unfold info_steps. apply Forall_app. split; apply S.
Qed.

Definition F_aggregation : pystr := U "aggregation-info.txt".
Lemma other_name td f g : f <> g -> sjoin td f <> sjoin td g.
Proof. intros E H. unfold sjoin in H. apply app_inv_head in H. apply app_inv_head in H. auto. Qed.
Lemma not_own_dir td f : f <> [] -> sjoin td f <> td.
Proof. intros Nf E. apply (f_equal (@length _)) in E. unfold sjoin in E. rewrite !app_length in E. destruct f; [congruence|]. cbn in E. lia. Qed.

Lemma steps_aggregation v algs bsize version i i2 l d t t' : plain_algos v -> (forall a, In a algs -> In a (e_algos v)) ->
  run_steps (single_steps v algs bsize version i i2 l d) t = Ok t' ->
  od_get (sjoin (tag_dir i2) F_aggregation) t' = od_get (sjoin (tag_dir i2) F_aggregation) t.
Proof.
  intros Pa Al. unfold single_steps. cbv zeta. set (td := tag_dir i2).
  assert (Q : In SLASH (sjoin td F_aggregation)) by (unfold sjoin; apply in_or_app; right; left; reflexivity).
  assert (X : Forall (leaves_at (sjoin td F_aggregation)) ([reset_step td; clear_step td] ++ members_steps td l ++ lookup_steps td d)).
  { apply list_leaves; [apply not_own_dir; discriminate| |]; apply other_name; discriminate. }
  apply Forall_app in X. destruct X as [X1 X]. apply Forall_app in X. destruct X as [X2 X3].
  apply run_leaves. apply Forall_app. split; [|apply Forall_app; split; [exact X2|apply Forall_app; split; [|apply Forall_app; split; [exact X3|]]]].
  - destruct (info_truthy T_Version i); [constructor|apply info_leaves; auto].
  - inversion X1; subst. assumption.
  - apply info_leaves; auto.
Qed.

(** ** The recommended elements *)

Lemma plain_not_empty l : Forall ordinary l -> ~ In [] l.
Proof. intros F I. rewrite Forall_forall in F. destruct (F _ I) as [T _]. apply T. reflexivity. Qed.
Lemma read_ordinary r l : Forall ordinary l -> map (fun x => unfold_value r (one_line x)) l = l.
Proof. intros F. apply read_plains. eapply Forall_impl; [|exact F]. intros x X. apply X. Qed.
Lemma last_value_some i k : tag_values i (U k) <> [] -> exists s, last_value i k = Some s /\ In s (tag_values i (U k)).
Proof.
  intros H. unfold last_value. destruct (rev (tag_values i (U k))) as [|s l] eqn:E.
  - apply (f_equal (@rev _)) in E. rewrite rev_involutive in E. contradiction.
  - exists s. split; [reflexivity|]. apply in_rev. rewrite E. left. reflexivity.
Qed.
Lemma about_plain l : Forall ordinary l -> Forall ordinary (with_about l).
Proof.
  intros F. unfold with_about. destruct (existsb _ _); [exact F|]. apply Forall_app. split; [exact F|]. constructor; [|constructor].
  split; [discriminate|]. apply plain_valueb_ok. vm_compute. reflexivity.
Qed.
Lemma about_some l : with_about l <> [].
Proof. unfold with_about. destruct (existsb (substr_in about_morsel) l) eqn:E; [destruct l; [discriminate|discriminate]|destruct l; discriminate]. Qed.

Lemma made_recommended r i j want :
  ordinary_tags i want -> tag_values j T_ISD = map (fun x => unfold_value r (one_line x)) (with_about (tag_values i T_ISD)) ->
  (forall k, ~ In k info_keys -> k <> T_HeadDeprecates -> tag_values j k = map (fun x => unfold_value r (one_line x)) (tag_values i k)) ->
  forall el, In el ["Internal-Sender-Identifier"; "Internal-Sender-Description"; "Bag-Group-Identifier"]%string ->
     (forall s, last_value j el = Some s -> s <> [] -> ~ In [] (tag_values j (U el))) /\
     (asks want REC -> exists s, last_value j el = Some s /\ s <> []).
Proof.
  intros O Jd Jk el I.
  assert (X : Forall ordinary (tag_values j (U el)) /\ (asks want REC -> tag_values j (U el) <> [])).
  { destruct (O el I) as [F N0]. destruct I as [<-|[<-|[<-|[]]]].
    - rewrite Jk by (try (cbn; intuition discriminate); discriminate). rewrite read_ordinary by exact F. split; [exact F|]. intros W. apply (N0 W). discriminate.
    - change (U "Internal-Sender-Description") with T_ISD in *. rewrite Jd, read_ordinary by (apply about_plain; exact F).
      split; [apply about_plain; exact F|]. intros _. apply about_some.
    - rewrite Jk by (try (cbn; intuition discriminate); discriminate). rewrite read_ordinary by exact F. split; [exact F|]. intros W. apply (N0 W). discriminate. }
  destruct X as [F N0]. split.
  - intros s _ _. apply plain_not_empty. exact F.
  - intros W. destruct (last_value_some j el (N0 W)) as (s & L & Is). exists s. split; [exact L|]. intros ->. exact (plain_not_empty _ F Is).
Qed.

(** ** C83: a single multibag passes *)

Theorem C83_single_partial : forall u v bsize bagdir name t td version pid t' b want,
  url_parser u -> plain_algos v -> plain_size bsize -> convertible t td ->
  (forall i, tags_of Codecs t = Ok i -> ordinary_tags i want /\ tag_values i (U "Multibag-Head-Deprecates") = []) ->
  (* the name, the identifier and the payload *)
  ~ In SLASH name -> bagdir = name \/ (exists d, bagdir = d ++ SLASH :: name) ->
  storable_member IoText {| Tsv.m_name := name; m_uri := pid; m_comment := None; m_info := [] |} ->
  (forall w, pid = Some w -> exists scheme, u w = Ok (scheme, []) /\ scheme <> []) ->
  version <> [] -> tag_value_ok Codecs version ->
  (exists p, is_payload p && is_file p t = true) ->
  (forall p, is_payload p && is_file p t = true -> storable_entry IoText (p, name)) ->
  (* the file that validation reads and the conversion leaves alone *)
  is_dir (td ++ U "/aggregation-info.txt") t = false ->
  (forall text, read (td ++ U "/aggregation-info.txt") t = Some text -> exists tags, load_tags IoText text = Ok tags) ->
  make_single_multibag v bsize bagdir t version pid = Ok t' ->
  opened b name t' -> passes u b want.
Proof.
  intros u v bsize bagdir name t td version pid t' b want Hu Pa B (W & i & Ti & Td & Ov & Tv & Gt & Ot) Tg Ns Hb Sm Pid Nv Vv [q Q] Se Ad Ag H (Bn & Bt & Bp & rd & Bi) target.
  assert (N0 : name <> []) by (destruct Sm as [((T & _) & _) _]; exact (trimmed_nonempty _ (proj1 T))).
  destruct (name_at_path bagdir name N0 Ns Hb) as [Eb En].
  unfold make_single_multibag in H. apply bind_ok in H. destruct H as ([i' es] & Ho & H). apply bind_ok in H. destruct H as (algs & Ha & H).
  assert (i' = i).
  { unfold open_bag in Ho. destruct (read F_bagit t) as [c|]; [|discriminate]. apply bind_ok in Ho. destruct Ho as ([v97 v1] & _ & Ho).
    apply bind_ok in Ho. destruct Ho as (i0 & Hi & Ho). apply bind_ok in Ho. destruct Ho as (e0 & _ & Ho). injection Ho as -> _.
    unfold tags_of in Ti. change (U "bag-info.txt") with F_baginfo in Ti. destruct (read F_baginfo t); congruence. }
  subst i'. rewrite En in H. destruct (convert v algs bsize bagdir version pid (open_hb name t i Codecs)) as [h' [[]|e]] eqn:C; [|discriminate].
  injection H as <-. destruct (Tg i Ti) as [Or Dp]. clear Tg.
  destruct (convert_run v algs bsize bagdir version pid name t i h' td Pa (algorithms_in _ _ _ Ha) B Ti Td Ov Tv Gt Ot Nv Vv W N0 C)
    as (i2 & lu & d & [E2 _] & Rs & K & G & D & L & Rm & Rl & T).
  cbv zeta in Rm, Rs. rewrite Eb in Rm, Rs. destruct (K W) as [W' Kp]. destruct (T rd) as (j & Tj & Sj & Vj & Jv & Jr & Jt & Jd & Jk).
  assert (Ej : b_info b = j) by congruence.
  assert (Sd : Forall (legal_entry IoText) d).
  { apply Forall_storable_legal. apply Forall_forall. intros [p x] I. pose proof (od_in_get p x d D I) as E. rewrite G in E. unfold holds in E.
    destruct (is_payload p && is_file p t) eqn:P; [|discriminate]. injection E as <-. apply Se; exact P. }
  assert (lu = Some d).
  { destruct L as [L|[_ ->]]; [exact L|]. specialize (G q). unfold holds in G. rewrite Q in G. discriminate. }
  subst lu.
  assert (Fp : forall p, is_payload p = true -> is_file p (b_tree b) = is_file p t) by (intros p P; unfold is_file; rewrite Bt, (Kp p P); reflexivity).
  pose proof (steps_aggregation _ _ _ _ _ _ _ _ _ _ Pa (algorithms_in _ _ _ Ha) Rs) as Sa. rewrite E2 in Sa.
  change (sjoin td F_aggregation) with (td ++ U "/aggregation-info.txt") in Sa.
  assert (Nm : td <> []) by (apply good_path_nonempty; exact Gt).
  assert (Key : forall p, is_file p (hb_tree h') = true -> In p (od_keys (hb_tree h'))).
  { intros p F. unfold is_file in F. destruct (od_get p (hb_tree h')) as [n|] eqn:E; [|discriminate]. apply od_get_in in E. exact (in_map fst _ _ E). }
  assert (Anc : forall p a r, is_file p (hb_tree h') = true -> p = a ++ SLASH :: r -> a <> [] -> is_dir a (hb_tree h') = true).
  { intros p a r F E Na. pose proof (wf_ancestor _ (proj1 W') p a r (Key p F) E) as I. apply in_dirs in I; [|apply W'].
    unfold is_dir. destruct a; [congruence|]. rewrite I. reflexivity. }
  apply (made_passes u b target want td version [{| Tsv.m_name := name; m_uri := pid; m_comment := None; m_info := [] |}] d);
    rewrite ?Bn; auto.
  - rewrite Bt. apply W'.
  - rewrite Ej. unfold tags_of in Tj. destruct (read (U "bag-info.txt") (hb_tree h')) as [c|]; [exact (loaded_read_tags _ _ _ Tj)|]. injection Tj as <-. discriminate Vj.
  - unfold made_tags, values. rewrite Ej. split; [exact Jv|]. split; [exact Jr|]. split.
    { exact Jt. }
    split; [exact Nm|]. split; [exact Vj|]. split; [exact Nv|]. split.
    { intros x I. exfalso. change (U "Multibag-Head-Deprecates") with T_HeadDeprecates in *. rewrite Jk, Dp in I by (cbn; intuition discriminate). exact I. }
    apply (made_recommended rd i); auto.
  - rewrite Bt. apply andb_true_iff in Q. destruct Q as [Qp Qf]. pose proof (Fp q Qp) as Fq. rewrite Bt, Qf in Fq.
    unfold is_payload in Qp. apply startswith_iff in Qp. destruct Qp as [r ->]. apply (Anc _ (U "data") r Fq); [reflexivity|discriminate].
  - rewrite Bt. apply (Anc (sjoin td F_members) td F_members); [|reflexivity|exact Nm]. apply is_file_read. eauto.
  - rewrite Bt. unfold is_dir in *. rewrite Sa. exact Ad.
  - intros text. rewrite Bt. unfold read in *. rewrite Sa. apply Ag.
  - rewrite Bt. exact Rm.
  - constructor; [apply Sm|constructor].
  - cbn [map Tsv.m_name]. constructor; [intros []|constructor].
  - exists []. reflexivity.
  - constructor; [|constructor]. unfold accepted_url. cbn [m_uri m_comment]. destruct pid as [w|]; [apply Pid; reflexivity|reflexivity].
  - rewrite Bt. exact Rl.
  - intros p E. rewrite G in E. unfold holds in E. destruct (is_payload p && is_file p t) eqn:P; [|discriminate]. apply andb_true_iff in P. rewrite Fp; apply P.
  - intros _ p F P. rewrite G. unfold holds. rewrite Fp in F by exact P. rewrite P, F. discriminate.
Qed.
Print Assumptions C83_single_partial.

Definition seen (name : pystr) (t : tree) : vbag :=
  {| b_name := name; b_info := got [] (tags_of IoText t); b_tree := t; b_plain := Ok None |}.
Lemma seen_opened name t : match tags_of IoText t with Ok _ => True | Err _ => False end -> opened (seen name t) name t.
Proof. intros H. split; [reflexivity|]. split; [reflexivity|]. split; [reflexivity|]. exists IoText. unfold seen, got. cbn [b_info]. destruct (tags_of IoText t); [reflexivity|destruct H]. Qed.

Lemma ex_url_parser : url_parser ex_urlparse.
Proof.
  split.
  - intros w. unfold ex_urlparse. destruct (split_on 58 w) as [|s [|s' l]]; eauto.
  - exists (U "https"), (U "github.com"). split; [vm_compute; reflexivity|]. split; discriminate.
Qed.

Definition ex_sent : tree :=
  [(U "bagit.txt", NFile ex_bagit);
   (U "bag-info.txt", NFile (txt [U "Internal-Sender-Description: first"; U "Bag-Group-Identifier: g"; U "Internal-Sender-Identifier: s"]));
   (U "data", NDir); (U "data/a", NFile (U "aa")); (U "data/s", NDir); (U "data/s/b", NFile (U "bb"));
   (U "manifest-md5.txt", NFile (txt [U "1 data/a"; U "2 data/s/b"]));
   (U "multibag", NDir); (U "multibag/aggregation-info.txt", NFile (txt [U "Size: 1"]))].
Definition ex_sent_head : tree := got [] (ex_single (U "/bags/mine") ex_sent).

Lemma ex_convertible t : match tags_of Codecs t with Ok _ => true | _ => false end && wf_treeb t && negb (is_file DATA t) &&
  (match tag_dir_raw (got [] (tags_of Codecs t)) with Ok d => streq d (U "multibag") | _ => false end) &&
  negb (older_than_03 (profile_version (got [] (tags_of Codecs t)))) = true -> convertible t (U "multibag").
Proof.
  intros H. apply andb_true_iff in H. destruct H as [H A5]. apply andb_true_iff in H. destruct H as [H A4]. apply andb_true_iff in H. destruct H as [H A3].
  apply andb_true_iff in H. destruct H as [A1 A2]. split; [split; [apply wf_treeb_ok; exact A2|apply negb_true_iff; exact A3]|].
  exists (got [] (tags_of Codecs t)). split; [unfold got; destruct (tags_of Codecs t); [reflexivity|discriminate]|].
  split; [destruct (tag_dir_raw _) as [d|]; [apply streq_eq in A4; rewrite A4; reflexivity|discriminate]|]. split; [apply negb_true_iff; exact A5|].
  split; [apply plain_valueb_ok; reflexivity|]. split; [apply good_pathb_ok; reflexivity|]. vm_compute. reflexivity.
Qed.

Lemma ordinary_ok i want : forallb (fun el => forallb (fun s => nonempty s && plain_valueb s) (tag_values i (U el)) && nonempty (concat (tag_values i (U el)) ++ (if String.eqb el "Internal-Sender-Description" then [SP] else [])))
  ["Internal-Sender-Identifier"; "Internal-Sender-Description"; "Bag-Group-Identifier"]%string = true -> ordinary_tags i want.
Proof.
  intros H el I. rewrite forallb_forall in H. specialize (H el I). apply andb_true_iff in H. destruct H as [H1 H2]. split.
  - apply Forall_forall. intros s Is. rewrite forallb_forall in H1. specialize (H1 s Is). apply andb_true_iff in H1. destruct H1 as [A1 A2].
    split; [intros ->; discriminate|apply plain_valueb_ok; exact A2].
  - intros _ Ne E. rewrite E in H2. destruct (String.eqb_spec el "Internal-Sender-Description"); [contradiction|discriminate].
Qed.

Lemma ex_member_ok : storable_member IoText {| Tsv.m_name := U "mine"; m_uri := Some (U "ark:/1"); m_comment := None; m_info := [] |}.
Proof.
  split; [|apply storableb_ok; reflexivity]. destruct (storableb_ok IoText (U "mine") eq_refl) as (L1 & L2 & _).
  destruct (storableb_ok IoText (U "ark:/1") eq_refl) as (L3 & L4 & _).
  split; [split; auto|]. split; [split; [split; auto|]|split; [exact I|reflexivity]]. intros _ u E. injection E as <-. reflexivity.
Qed.

(** The hypotheses, for a bag with all of the recommended elements. *)
Example C83_single_case :
  url_parser ex_urlparse /\ convertible ex_sent (U "multibag") /\
  (forall i, tags_of Codecs ex_sent = Ok i -> ordinary_tags i ALL /\ tag_values i (U "Multibag-Head-Deprecates") = []) /\
  storable_member IoText {| Tsv.m_name := U "mine"; m_uri := Some (U "ark:/1"); m_comment := None; m_info := [] |} /\
  ex_urlparse (U "ark:/1") = Ok (U "ark", []) /\
  (exists p, is_payload p && is_file p ex_sent = true) /\
  (forall p, is_payload p && is_file p ex_sent = true -> storable_entry IoText (p, U "mine")) /\
  is_dir (U "multibag" ++ U "/aggregation-info.txt") ex_sent = false /\
  (exists text tags, read (U "multibag" ++ U "/aggregation-info.txt") ex_sent = Some text /\ load_tags IoText text = Ok tags) /\
  ex_single (U "/bags/mine") ex_sent = Ok ex_sent_head /\ opened (seen (U "mine") ex_sent_head) (U "mine") ex_sent_head /\
  is_valid (head_validate ex_urlparse (seen (U "mine") ex_sent_head) (U "mine")) ALL = Ok true.
Proof.
  split; [exact ex_url_parser|]. split; [apply ex_convertible; vm_compute; reflexivity|]. split.
  { intros i E. assert (i = got [] (tags_of Codecs ex_sent)) by (rewrite E; reflexivity). subst i. split; [apply ordinary_ok; vm_compute; reflexivity|vm_compute; reflexivity]. }
  split; [exact ex_member_ok|]. split; [vm_compute; reflexivity|]. split; [exists (U "data/a"); vm_compute; reflexivity|]. split.
  { intros p P. apply files_entry in P; [|apply (wf_treeb_ok ex_sent); vm_compute; reflexivity].
    assert (E : filter is_payload (files ex_sent) = [U "data/a"; U "data/s/b"]) by (vm_compute; reflexivity). rewrite E in P.
    destruct P as [<-|[<-|[]]]; split; apply storableb_ok; reflexivity. }
  split; [vm_compute; reflexivity|]. split; [eexists _, _; split; vm_compute; reflexivity|]. split; [vm_compute; reflexivity|].
  split; [apply seen_opened; vm_compute; exact I|]. vm_compute. reflexivity.
Qed.

(** Without them: an empty description stays, beside the one that is added; an
    identifier with a host is not accepted; without payload there is no lookup. *)
Definition ex_undescribed : tree :=
  [(U "bagit.txt", NFile ex_bagit); (U "bag-info.txt", NFile (txt [U "Internal-Sender-Description:"]));
   (U "data", NDir); (U "data/a", NFile (U "aa"))].
Definition ex_undescribed_head : tree := got [] (ex_single (U "/bags/mine") ex_undescribed).
Definition ex_hosted_head : tree := got [] (make_single_multibag ex_env (fun _ => U "1 kB") (U "/bags/mine") ex_plain (U "7") (Some (U "https://host/bag"))).

Theorem C83_refuted :
  (exists t t', convertible t (U "multibag") /\ ex_single (U "/bags/mine") t = Ok t' /\
     opened (seen (U "mine") t') (U "mine") t' /\
     is_valid (head_validate ex_urlparse (seen (U "mine") t') (U "mine")) ERROR = Ok false /\
     tag_values (got [] (tags_of Codecs t)) (U "Internal-Sender-Description") = [[]]) /\
  (exists t t' pid, convertible t (U "multibag") /\ make_single_multibag ex_env (fun _ => U "1 kB") (U "/bags/mine") t (U "7") (Some pid) = Ok t' /\
     opened (seen (U "mine") t') (U "mine") t' /\ ex_urlparse pid = Ok (U "https", U "host") /\
     is_valid (head_validate ex_urlparse (seen (U "mine") t') (U "mine")) ERROR = Ok false) /\
  (exists t t', convertible t (U "multibag") /\ ex_single (U "/bags/mine") t = Ok t' /\
     opened (seen (U "mine") t') (U "mine") t' /\ filter is_payload (files t) = [] /\
     is_valid (head_validate ex_urlparse (seen (U "mine") t') (U "mine")) ERROR = Ok false).
Proof.
  split; [exists ex_undescribed, ex_undescribed_head|split; [exists ex_plain, ex_hosted_head, (U "https://host/bag")|exists ex_empty, ex_empty_head]];
    (split; [apply ex_convertible; vm_compute; reflexivity|]); (split; [vm_compute; reflexivity|]);
    (split; [apply seen_opened; vm_compute; exact I|]); split; vm_compute; reflexivity.
Qed.
Print Assumptions C83_refuted.

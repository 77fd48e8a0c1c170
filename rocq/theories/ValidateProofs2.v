(** Head bags as the package writes them, under validation *)
Require Import String NArith PeanoNat Bool List Lia.
From Verif Require Import PyBase PyFacts Version Tsv TsvProofs Fs FsFacts HeadBag HeadBagProofs HeadBagProofs2 HeadBagProofs3 BagIt BagItProofs Split SplitApply Validate ValidateProofs Props_Validate Props_Validate2 Props_Validate3.
Import ListNotations.
Open Scope N_scope.

(** ** Lines as they are written *)

Lemma text_lines_made {A} (f : A -> pystr) l : (forall x, In x l -> trimmed (f x) /\ no_brk IoText (f x)) ->
  text_lines (flat_map (fun x => f x ++ [LF]) l) = map (fun x => f x ++ [LF]) l.
Proof.
  intros H. unfold text_lines. rewrite pylines_flat_map by (intros x I; apply H; exact I).
  induction l as [|x l IH]; [reflexivity|]. cbn [map filter]. rewrite nonblank_line by (apply H; left; reflexivity).
  rewrite IH; [reflexivity|]. intros y I. apply H. right. exact I.
Qed.

Lemma tab_hash c : ~ In TAB c -> ~ In TAB ([HASH; SP] ++ c).
Proof. intros H [X|[X|X]]; [discriminate|discriminate|exact (H X)]. Qed.

Lemma columns_made m : legal_member IoText m ->
  columns false (member_body m ++ [LF]) =
    Tsv.m_name m :: (match m_uri m with Some w => [w] | None => [] end) ++ (match m_comment m with Some c => [[HASH; SP] ++ c] | None => [] end).
Proof.
  intros L. unfold columns. rewrite strip_line by (eapply member_body_trimmed; exact L).
  destruct L as (((Tn & Bn) & _) & (Lu & _) & Lc & _). unfold member_body.
  destruct (m_uri m) as [w|], (m_comment m) as [c|]; cbn [opt_legal] in Lu, Lc.
  - destruct Lu as [[Tw Bw] _], Lc as [[Tc Bc] _].
    change (Tsv.m_name m ++ ([TAB] ++ w) ++ [TAB; HASH; SP] ++ c) with (Tsv.m_name m ++ TAB :: (w ++ TAB :: ([HASH; SP] ++ c))).
    rewrite split_on_app, split_on_app, split_on_none by (auto using tab_hash). cbn [map app]. rewrite !strip_trimmed by (auto; apply (trimmed_hash c Tc)). reflexivity.
  - destruct Lu as [[Tw Bw] _]. rewrite app_nil_r. change (Tsv.m_name m ++ [TAB] ++ w) with (Tsv.m_name m ++ TAB :: w).
    rewrite split_on_app, split_on_none by auto. cbn [map app]. rewrite !strip_trimmed by auto. reflexivity.
  - destruct Lc as [[Tc Bc] _]. change (Tsv.m_name m ++ [] ++ [TAB; HASH; SP] ++ c) with (Tsv.m_name m ++ TAB :: ([HASH; SP] ++ c)).
    rewrite split_on_app, split_on_none by (auto using tab_hash). cbn [map app]. rewrite !strip_trimmed by (auto; apply (trimmed_hash c Tc)). reflexivity.
  - rewrite !app_nil_r. rewrite split_on_none by auto. cbn [map app]. rewrite strip_trimmed by auto. reflexivity.
Qed.

Lemma lookup_columns_made p b : legal_name p -> legal_name b -> lookup_columns false ((p ++ [TAB] ++ b) ++ [LF]) = [p; b].
Proof.
  intros [Tp Np] [Tb Nb]. unfold lookup_columns.
  replace ((p ++ [TAB] ++ b) ++ [LF]) with (p ++ TAB :: (b ++ [LF])) by (rewrite <- !app_assoc; reflexivity).
  rewrite split_on_app by auto. rewrite split_on_none.
  - cbn [map]. rewrite strip_line, strip_trimmed by auto. reflexivity.
  - intros I. apply in_app_or in I. destruct I as [I|[I|[]]]; [auto|discriminate].
Qed.

(** ** The rules *)

(** A URL that validation accepts: none at all, and then no comment, or one
    without a host. *)
Definition accepted_url (u : pystr -> res (pystr * pystr)) (m : minfo) : Prop :=
  match m_uri m with
  | Some w => exists scheme, u w = Ok (scheme, []) /\ scheme <> []
  | None => m_comment m = None
  end.

Lemma made_members u b want md ms :
  old_profile b = false -> read (md ++ U "/" ++ U "member-bags.tsv") (b_tree b) = Some (fst (members_prefix ms)) ->
  Forall (legal_member IoText) ms -> NoDup (map Tsv.m_name ms) -> (exists l, map Tsv.m_name ms = l ++ [b_name b]) ->
  Forall (accepted_url u) ms -> member_rules u b want md.
Proof.
  intros Op R Lm Nd Own Ur. unfold member_rules. rewrite Op. cbv zeta. rewrite R. rewrite (members_prefix_text _ _ Lm). cbn [fst].
  split; [eauto|]. intros text E. injection E as <-.
  rewrite Forall_forall in Lm, Ur.
  assert (X : text_lines (flat_map (fun m => member_body m ++ [LF]) ms) = map (fun m => member_body m ++ [LF]) ms).
  { apply text_lines_made. intros m I. split; [eapply member_body_trimmed|eapply member_body_no_brk]; apply Lm; exact I. }
  assert (Y : names_listed false (flat_map (fun m => member_body m ++ [LF]) ms) = map Tsv.m_name ms).
  { unfold names_listed. rewrite X, map_map. apply map_ext_in. intros m I. rewrite columns_made by (apply Lm; exact I). reflexivity. }
  rewrite X, Y. split; [intros _; split; [discriminate|split; [|exact Own]]|intros _; exact Nd].
  intros line I. apply in_map_iff in I. destruct I as (m & <- & I). rewrite columns_made by (apply Lm; exact I).
  specialize (Ur m I). unfold accepted_url in Ur. destruct (m_uri m) as [w|]; cbn [cell nth app].
  - intros _. exact Ur.
  - rewrite Ur. cbn [nth cell app]. congruence.
Qed.

Lemma made_lookup b want md d :
  old_profile b = false -> read (md ++ U "/" ++ U "file-lookup.tsv") (b_tree b) = Some (lookup_text d) ->
  Forall (legal_entry IoText) d -> NoDup (od_keys d) ->
  (forall p, od_get p d = Some (b_name b) -> is_file p (b_tree b) = true) ->
  (asks want REC -> forall p, is_file p (b_tree b) = true -> is_payload p = true -> od_get p d <> None) ->
  lookup_rules b want md.
Proof.
  intros Op R Ld Nd Own All. unfold lookup_rules. rewrite Op. cbv zeta. rewrite R. split; [eauto|]. intros text E. injection E as <-.
  rewrite Forall_forall in Ld. unfold lookup_text.
  rewrite (flat_map_ext_in' _ (fun kv => (fst kv ++ [TAB] ++ snd kv) ++ [LF])) by apply format_lookup_line.
  assert (X : text_lines (flat_map (fun kv => (fst kv ++ [TAB] ++ snd kv) ++ [LF]) d) = map (fun kv => (fst kv ++ [TAB] ++ snd kv) ++ [LF]) d).
  { apply text_lines_made. intros kv I. destruct (Ld kv I) as [[[T1 _] B1] [[T2 _] B2]]. split; [apply trimmed_app; auto|].
    rewrite !no_brk_app. split; [exact B1|]. split; [|exact B2]. constructor; [apply tab_not_brk|constructor]. }
  assert (C : forall kv, In kv d -> lookup_columns false ((fst kv ++ [TAB] ++ snd kv) ++ [LF]) = [fst kv; snd kv]).
  { intros kv I. destruct (Ld kv I) as [[L1 _] [L2 _]]. apply lookup_columns_made; auto. }
  assert (Y : paths_listed false (flat_map (fun kv => (fst kv ++ [TAB] ++ snd kv) ++ [LF]) d) = od_keys d).
  { unfold paths_listed. rewrite X, map_map. apply map_ext_in. intros kv I. rewrite C by exact I. reflexivity. }
  rewrite X, Y. split; [intros _; split|split; [intros _; exact Nd|]].
  - intros line I. apply in_map_iff in I. destruct I as (kv & <- & I). rewrite C by exact I. reflexivity.
  - intros line I. apply in_map_iff in I. destruct I as (kv & <- & I). rewrite C by exact I. cbn [cell nth]. intros E. apply Own.
    rewrite <- E. apply od_in_get; [exact Nd|]. destruct kv; exact I.
  - intros W p F P _. specialize (All W p F P). destruct (od_get p d) as [x|] eqn:G; [|congruence]. apply od_get_in in G. exact (in_map fst _ _ G).
Qed.

(** ** All of it *)

Definition url_parser (u : pystr -> res (pystr * pystr)) : Prop :=
  (forall w, exists scheme host, u w = Ok (scheme, host)) /\
  exists scheme host, u CURRENT_REFERENCE = Ok (scheme, host) /\ scheme <> [] /\ host <> [].

Definition made_tags (b : vbag) (want : N) (md version : pystr) : Prop :=
  values b "Multibag-Version" = [CURRENT_VERSION] /\ values b "Multibag-Reference" = [CURRENT_REFERENCE] /\
  values b "Multibag-Tag-Directory" = [md] /\ md <> [] /\ values b "Multibag-Head-Version" = [version] /\ version <> [] /\
  (forall v, In v (values b "Multibag-Head-Deprecates") -> v <> [] /\ (length (split_on 44 v) <= 2)%nat /\ ~ deprecates_own b v) /\
  (forall el, In el ["Internal-Sender-Identifier"; "Internal-Sender-Description"; "Bag-Group-Identifier"]%string ->
     (forall s, last_value (b_info b) el = Some s -> s <> [] -> ~ In [] (values b el)) /\
     (asks want REC -> exists s, last_value (b_info b) el = Some s /\ s <> [])).

Lemma last_single i k v : tag_values i (U k) = [v] -> last_value i k = Some v.
Proof. intros E. unfold last_value. rewrite E. reflexivity. Qed.

Lemma made_passes u b target want md version ms d :
  url_parser u -> b_plain b = Ok None -> NoDup (od_keys (b_tree b)) -> read_tags (b_info b) -> made_tags b want md version ->
  is_dir (U "data") (b_tree b) = true -> is_dir md (b_tree b) = true ->
  is_dir (md ++ U "/aggregation-info.txt") (b_tree b) = false ->
  (forall text, read (md ++ U "/aggregation-info.txt") (b_tree b) = Some text -> exists tags, load_tags IoText text = Ok tags) ->
  read (md ++ U "/" ++ U "member-bags.tsv") (b_tree b) = Some (fst (members_prefix ms)) ->
  Forall (legal_member IoText) ms -> NoDup (map Tsv.m_name ms) -> (exists l, map Tsv.m_name ms = l ++ [b_name b]) -> Forall (accepted_url u) ms ->
  read (md ++ U "/" ++ U "file-lookup.tsv") (b_tree b) = Some (lookup_text d) ->
  Forall (legal_entry IoText) d -> NoDup (od_keys d) ->
  (forall p, od_get p d = Some (b_name b) -> is_file p (b_tree b) = true) ->
  (asks want REC -> forall p, is_file p (b_tree b) = true -> is_payload p = true -> od_get p d <> None) ->
  exists r, head_validate u b target want = Ok r /\ ok r = true.
Proof.
  intros [Hu (rs & rh & Hr & Nrs & Nrh)] Pl Nd T (Tv & Tr & Tt & Nm & Th & Nv & Td & Te) Da Dm Ad Ag Rm Lm Ndm Own Ur Rl Ld Ndd Of Al.
  unfold values in Tv, Tr, Tt, Th.
  assert (Va : validatable u b md).
  { split; [eauto|]. split; [exact Hu|]. split; [exists version; split; [apply last_single; exact Th|exact Nv]|].
    split; [right; split; [apply last_single; exact Tt|exact Nm]|]. split; [exact Da|exact Ad]. }
  destruct (C77_partial u b target want md Va) as (r & H). exists r. split; [exact H|].
  assert (Md : multibag_directory b md) by (right; split; [apply last_single; exact Tt|exact Nm]).
  assert (Op : old_profile b = false) by (unfold old_profile; rewrite (last_single _ _ _ Tv); reflexivity).
  apply (C81_decides u b target want r md Nd T Md H). split; [auto|]. split; [|split].
  - split; [|split].
    + intros _. split; [exists CURRENT_VERSION; split; [exact Tv|discriminate]|]. split.
      { right. right. exists CURRENT_REFERENCE, rs, rh. split; [apply last_single; exact Tr|]. split; [discriminate|]. auto. }
      split; [right; exists md; auto|]. split; [exact Dm|]. split.
      { intros first rest E _ v I. rewrite <- E in I. apply (Td v I). }
      intros el I s E. apply (proj1 (Te el I) s E).
    + intros _. split; [unfold values; rewrite Tv; cbn; lia|]. split; [exists version; auto|].
      intros first rest E. split; [apply (Td first); rewrite E; left; reflexivity|]. intros v I. rewrite <- E in I. apply (Td v I).
    + intros W. split; [unfold values; rewrite Tr; discriminate|]. split; [unfold values; rewrite Tr; vm_compute; discriminate|]. intros el I. exact (proj2 (Te el I) W).
  - intros _. split; [eapply made_members; eauto|eapply made_lookup; eauto].
  - intros _ _ _. exact Ag.
Qed.

(** Restoring one member (C102, C103) and more about fetch.txt (C39) *)
Require Import String NArith PeanoNat Bool List Lia Permutation.
From Verif Require Import PyBase PyFacts Tsv TsvProofs Fs FsFacts HeadBag HeadBagProofs HeadBagProofs3 BagIt BagItProofs Split SplitProofs2 SplitApply SplitApplyProofs SplitApplyProofs2 SplitApplyProofs8 Props_SplitApply Restore RestoreProofs RestoreProofs2 RestoreProofs3 RestoreProofs5 RestoreMember Props_Restore Props_Restore2 AmendProofs4.
Import ListNotations.
Open Scope N_scope.

(** ** Copying with overwriting *)

(** The node of the source, where a file wins over what is there and a
    directory does not. *)
Definition laid (s d : option node) : option node :=
  match s, d with
  | Some (NFile c), _ => Some (NFile c)
  | _, Some n => Some n
  | _, None => s
  end.

Lemma laid_idem s d : laid s (laid s d) = laid s d.
Proof. destruct s as [[|c]|], d as [[|c']|]; reflexivity. Qed.

Lemma exists_del d p t : d <> p -> exists_ d (od_del p t) = exists_ d t.
Proof.
  intros N. unfold exists_, is_file, is_dir. rewrite od_get_del_other by auto. reflexivity.
Qed.

Lemma dirname_other p : good_path p -> dirname p <> p.
Proof.
  intros G E. destruct (path_cases p G) as [(_ & H & _)|(d & b & H & _ & _ & _ & D & _)].
  - rewrite H in E. apply (good_path_nonempty p G). auto.
  - rewrite D in E. rewrite E in H. apply (f_equal (@length _)) in H. rewrite app_length in H. cbn [length] in H. lia.
Qed.

Lemma step_over src i dest u dest' u' : wf_tree src -> wf_tree dest -> fits src i ->
  exists_ (dirname (path_of i)) dest = true ->
  restore_item true src (dest, u) i = Ok (dest', u') ->
  wf_tree dest' /\ forall q, od_get q dest' = if streq q (path_of i) then laid (od_get q src) (od_get q dest) else od_get q dest.
Proof.
  intros Ws Wd F Ed H. pose proof F as (G & Dn & Hs & Hf). pose proof (dirname_other _ G) as Np. pose proof (good_path_nonempty _ G) as Ne.
  destruct i as [d|d f|d f]; [destruct Hs| |]; cbn [path_of node_of] in *.
  - assert (X : exists t, wf_tree t /\ exists_ (dirname (pjoin d f)) t = true /\ od_get (pjoin d f) t = None /\
        (forall q, q <> pjoin d f -> od_get q t = od_get q dest) /\ restore_item false src (t, u) (IFile d f) = Ok (dest', u')).
    { cbn [restore_item andb] in H. destruct (exists_ (pjoin d f) dest) eqn:E.
      - unfold remove_file in H. destruct (is_file (pjoin d f) dest) eqn:Fd; [|discriminate]. cbn [bind] in H.
        exists (od_del (pjoin d f) dest). split; [apply wf_del; auto|]. split; [rewrite exists_del; auto|].
        split; [apply od_get_del_same, wf_nodup; auto|]. split; [intros q Q; apply od_get_del_other; auto|]. exact H.
      - exists dest. split; [auto|]. split; [auto|]. split; [apply exists_get_false; auto|]. split; [auto|]. cbn [restore_item andb bind] in H |- *. rewrite E in *. exact H. }
    destruct X as (t & Wt & Et & En & Eo & Hr).
    destruct (step_ok src (IFile d f) t u dest' u' Ws Wt F Et Hr) as (A & W' & _). split; [exact W'|].
    intros q. rewrite (A q). cbn [path_of node_of]. destruct (streq_reflect q (pjoin d f)) as [->|Nq].
    + rewrite En, Hs. unfold is_file in Hf. rewrite Hs in Hf. destruct (od_get (pjoin d f) src) as [[|c]|]; [discriminate| |discriminate]. reflexivity.
    + rewrite Eo by auto. destruct (od_get q dest); reflexivity.
  - assert (Hr : restore_item false src (dest, u) (IDir d f) = Ok (dest', u')) by exact H.
    destruct (step_ok src (IDir d f) dest u dest' u' Ws Wd F Ed Hr) as (A & W' & _). split; [exact W'|].
    intros q. rewrite (A q). cbn [path_of node_of]. destruct (streq_reflect q (pjoin d f)) as [->|Nq].
    + rewrite Hs. destruct (od_get (pjoin d f) dest) as [[|]|]; reflexivity.
    + destruct (od_get q dest); reflexivity.
Qed.

Lemma steps_over src d l : forall dest u dest' u', wf_tree src -> wf_tree dest ->
  Forall (fun i => fits src i /\ in_dir d i) l -> exists_ d dest = true ->
  foldM (restore_item true src) l (dest, u) = Ok (dest', u') ->
  wf_tree dest' /\ (forall q, od_get q dest' = if str_in q (map path_of l) then laid (od_get q src) (od_get q dest) else od_get q dest).
Proof.
  induction l as [|i l IH]; intros dest u dest' u' Ws Wd F Ed H; cbn [foldM] in H.
  - inversion H; subst. split; auto.
  - apply bind_ok in H. destruct H as ([t1 u1] & H1 & H2). inversion F as [|? ? [Fi Di] Fl]; subst.
    assert (Dn : dirname (path_of i) = d).
    { destruct Fi as (_ & Dn & _). destruct i; cbn [in_dir] in Di; [destruct Di| |]; congruence. }
    destruct (step_over _ _ _ _ _ _ Ws Wd Fi (eq_ind_r (fun x => exists_ x dest = true) Ed Dn) H1) as (W1 & A).
    assert (E1 : exists_ d t1 = true).
    { unfold exists_, is_file, is_dir in *. rewrite (A d), (proj2 (streq_neq d (path_of i))); [exact Ed|].
      rewrite <- Dn. apply dirname_other. apply Fi. }
    destruct (IH _ _ _ _ Ws W1 Fl E1 H2) as (W' & B). split; [exact W'|]. intros q. rewrite (B q), (A q).
    cbn [map]. change (str_in q (path_of i :: map path_of l)) with (streq q (path_of i) || str_in q (map path_of l)).
    destruct (streq q (path_of i)); cbn [orb]; destruct (str_in q (map path_of l)); auto. apply laid_idem.
Qed.

Lemma blocks_over skip src ds : forall dest u dest' u', wf_tree src -> wf_tree dest ->
  foldM (restore_item true src) (flat_map (block skip src) ds) (dest, u) = Ok (dest', u') ->
  wf_tree dest' /\ forall q, (chosen skip src ds q -> od_get q dest' = laid (od_get q src) (od_get q dest)) /\
                             (~ chosen skip src ds q -> od_get q dest' = od_get q dest).
Proof.
  induction ds as [|d ds IH]; intros dest u dest' u' Ws Wd H; cbn [flat_map] in H.
  - cbn [foldM] in H. inversion H; subst. split; auto. intros q. split; auto. intros (_ & [] & _).
  - rewrite foldM_app in H. apply bind_ok in H. destruct H as ([t1 u1] & H1 & H2).
    assert (B : wf_tree t1 /\ forall q, (chosen skip src [d] q -> od_get q t1 = laid (od_get q src) (od_get q dest)) /\
                             (~ chosen skip src [d] q -> od_get q t1 = od_get q dest)).
    { unfold block in H1. destruct (skipped_root skip d) eqn:S.
      - cbn [foldM] in H1. inversion H1; subst. split; auto. intros q. split; auto. intros (_ & [<-|[]] & X & _). congruence.
      - cbn [foldM] in H1. apply bind_ok in H1. destruct H1 as ([t0 u0] & H0 & H1). cbn [restore_item] in H0.
        destruct (exists_ d dest) eqn:Ed; [|discriminate]. inversion H0; subst t0 u0.
        destruct (steps_over _ d _ _ _ _ _ Ws Wd (dir_items_fits skip src d Ws) Ed H1) as (W1 & F). split; [exact W1|].
        assert (P : forall q, In q (map path_of (dir_items skip src d)) <-> chosen skip src [d] q).
        { intros q. rewrite (dir_items_paths skip src d Ws). unfold chosen. cbn [In].
          split; [intros (X & <- & Y); auto|intros (X & [<-|[]] & Y & Z); auto]. }
        intros q. rewrite (F q). destruct (str_in q (map path_of (dir_items skip src d))) eqn:E.
        + apply str_in_iff in E. apply P in E. tauto.
        + apply str_in_false in E. rewrite P in E. tauto. }
    destruct B as [W1 F1]. destruct (IH _ _ _ _ Ws W1 H2) as [W2 F2]. split; [exact W2|]. intros q.
    destruct (F1 q) as [A1 A2]. destruct (F2 q) as [B1 B2].
    assert (C : chosen skip src (d :: ds) q <-> chosen skip src [d] q \/ chosen skip src ds q) by (unfold chosen; cbn [In]; tauto).
    rewrite C. destruct (chosen_dec skip src [d] q) as [X|X], (chosen_dec skip src ds q) as [Y|Y]; split; intros Z; try tauto.
    + rewrite (B1 Y), (A1 X). apply laid_idem.
    + rewrite (B2 Y). apply A1. exact X.
    + rewrite (B1 Y), (A2 X). reflexivity.
    + rewrite (B2 Y). apply A2. exact X.
Qed.

Lemma copy_over skip src dest dest' u : ~ In [] skip -> wf_tree src -> wf_tree dest ->
  copy_items true skip src dest = Ok (dest', u) ->
  wf_tree dest' /\
  forall q, od_get q dest' = if gone skip q then od_get q dest else laid (od_get q src) (od_get q dest).
Proof.
  intros N0 Ws Wd H. unfold copy_items in H. rewrite items_blocks in H.
  destruct (blocks_over _ _ _ _ _ _ _ Ws Wd H) as [W F]. split; auto. intros q. destruct (F q) as (F1 & F2).
  destruct (od_get q src) as [n|] eqn:Es.
  - pose proof (get_good _ _ _ Ws Es) as G. rewrite gone_dirname by auto.
    destruct (skipped_root skip (dirname q)) eqn:S1; cbn [orb].
    + apply F2. intros (_ & _ & X & _). congruence.
    + destruct (str_in q skip) eqn:S2.
      * apply F2; auto. intros (_ & _ & _ & X). congruence.
      * apply F1. repeat split; auto; [congruence|].
        pose proof (wf_parent_dir _ Ws _ (od_get_some_key _ _ _ Es)) as [X|X].
        -- rewrite X. left; reflexivity.
        -- right. apply bf_dirs_in. exact X.
  - rewrite F2 by (intros (X & _); congruence). destruct (gone skip q); [reflexivity|]. destruct (od_get q dest) as [[|]|]; reflexivity.
Qed.

(** ** C102 *)

(** Restoring one member: without overwriting, files and directories that are
    in the way stay; with overwriting, files of the member replace what is
    there. Paths in [skip] are left out, with what is below them. The
    manifests are another matter. *)
Theorem C102_content : forall v overwrite skip b name dest dest',
  plain_algos v -> ~ In [] skip -> e_find v name = Some b -> rb_loc b <> e_dest v ->
  wf_tree (rb_tree b) -> wf_tree dest ->
  restore_member v overwrite skip dest name = Ok dest' ->
  forall p, ~ bag_file v p ->
    (deleted skip p -> od_get p dest' = od_get p dest) /\
    (~ deleted skip p -> forall n, od_get p (rb_tree b) = Some n ->
       od_get p dest' = match od_get p dest, overwrite, n with
                        | None, _, _ => Some n
                        | Some _, true, NFile c => Some (NFile c)
                        | Some old, _, _ => Some old
                        end) /\
    (od_get p (rb_tree b) = None -> od_get p dest' = od_get p dest).
Proof.
  intros v overwrite skip b name dest dest' S N0 Hn Lo Wb Wd H p Bp.
  assert (Sp : ~ special v p) by (intros X; apply Bp; apply bag_file_iff; left; exact X).
  unfold restore_member in H. rewrite Hn in H. rewrite !deleted_iff.
  assert (Q : od_get p dest' = if gone skip p then od_get p dest else if overwrite then laid (od_get p (rb_tree b)) (od_get p dest)
               else match od_get p dest with Some n => Some n | None => od_get p (rb_tree b) end).
  { destruct overwrite.
    - unfold restore_from in H. destruct (streq_reflect (rb_loc b) (e_dest v)); [congruence|].
      apply bind_ok in H. destruct H as ([info es] & Ho & H). apply bind_ok in H. destruct H as ([t u] & Hc & H).
      destruct (copy_over _ _ _ _ _ N0 Wb Wd Hc) as [Wt Q]. destruct u as [|x u].
      + inversion H; subst. apply Q.
      + assert (Al : forall a p, checksum es a p <> None -> In a (e_algos v)) by (intros; eapply open_algs; eauto).
        assert (I : inner_nodup es). { apply open_bag_ok in Ho. destruct Ho as (? & ? & ? & _ & _ & _ & Ho). eapply load_inner; eauto. }
        destruct (update_manifests_ok v es _ _ _ S Wt I Al H) as (W' & F & _). rewrite (F p Sp). apply Q.
    - destruct (restore_from_nodes v skip b dest dest' S N0 Wb Wd H) as [_ Q]. rewrite (Q p Sp). unfold contrib.
      destruct (streq_reflect (rb_loc b) (e_dest v)); [congruence|]. destruct (od_get p dest); [|destruct (gone skip p)]; destruct (gone skip p); reflexivity. }
  rewrite Q. split; [|split].
  - intros ->. reflexivity.
  - intros G n ->. destruct (gone skip p); [congruence|]. destruct overwrite, (od_get p dest) as [[|]|], n; reflexivity.
  - intros ->. destruct (gone skip p); [reflexivity|]. destruct overwrite, (od_get p dest) as [[|]|]; reflexivity.
Qed.
Print Assumptions C102_content.

(** The example of C33, with the first member restored again over it. *)
Definition ex_again : tree := got [] (restore_member ex_env true [] ex_restored (U "one")).

Example C102_case :
  plain_algos ex_env /\ e_find ex_env (U "one") = Some {| rb_loc := U "/bags/one"; rb_tree := ex_one |} /\
  wf_tree ex_one /\ wf_tree ex_restored /\
  restore_member ex_env true [] ex_restored (U "one") = Ok ex_again /\
  map (fun p => read p ex_restored) [U "data/a"; U "data/b"; U "data/c"] = [Some (U "new"); None; Some (U "c")] /\
  map (fun p => read p ex_again) [U "data/a"; U "data/b"; U "data/c"] = [Some (U "old"); Some (U "b"); Some (U "c")].
Proof.
  split; [intros a [<-|[<-|[]]]; cbn; intuition discriminate|]. split; [reflexivity|].
  split; [apply wf_treeb_ok; vm_compute; reflexivity|]. split; [apply wf_treeb_ok; vm_compute; reflexivity|].
  split; [vm_compute; reflexivity|]. split; vm_compute; reflexivity.
Qed.

(** Overwriting also replaces the manifests of the destination with those of
    the member: files of other members are not listed any more. *)
Theorem C102_manifests_refuted : exists v name b dest dest' a h p c c',
  plain_algos v /\ e_find v name = Some b /\ rb_loc b <> e_dest v /\ wf_tree (rb_tree b) /\ wf_tree dest /\
  restore_member v true [] dest name = Ok dest' /\
  od_get p (rb_tree b) = None /\ read p dest' = read p dest /\ read p dest <> None /\
  read (U "manifest-" ++ a ++ U ".txt") dest = Some c /\ In (h, p) (manifest_lines Codecs c) /\
  read (U "manifest-" ++ a ++ U ".txt") dest' = Some c' /\ ~ exists h', In (h', p) (manifest_lines Codecs c').
Proof.
  exists ex_env, (U "one"), {| rb_loc := U "/bags/one"; rb_tree := ex_one |}, ex_restored, ex_again, (U "md5"), (U "t2"), (U "data/c"),
    (match read (U "manifest-" ++ U "md5" ++ U ".txt") ex_restored with Some c => c | None => [] end),
    (match read (U "manifest-" ++ U "md5" ++ U ".txt") ex_again with Some c => c | None => [] end).
  destruct C102_case as (A1 & A2 & A3 & A4 & A5 & _). split; [exact A1|]. split; [exact A2|]. split; [discriminate|].
  split; [exact A3|]. split; [exact A4|]. split; [exact A5|]. clear.
  split; [vm_compute; reflexivity|]. split; [vm_compute; reflexivity|]. split; [vm_compute; discriminate|].
  split; [vm_compute; reflexivity|]. split; [vm_compute; tauto|]. split; [vm_compute; reflexivity|].
  intros [h I].
  assert (X : str_in (U "data/c") (map snd (manifest_lines Codecs
    (match read (U "manifest-" ++ U "md5" ++ U ".txt") ex_again with Some c => c | None => [] end))) = false) by (vm_compute; reflexivity).
  apply str_in_false in X. apply X. exact (in_map snd _ _ I).
Qed.
Print Assumptions C102_manifests_refuted.

(** ** C103 *)

(** A line of fetch.txt is noted under its URL and length. *)
Lemma note_names d line p : names_path line p -> exists k, (exists x c y, k = x ++ c :: y /\ is_ws c = true) /\
  note_line d line = Ok (if od_has k d then d else od_set k line d).
Proof.
  intros (url & s1 & len & s2 & E & Wu & B1 & Wl & B2 & Wp). unfold note_line. exists (url ++ s1 ++ len). split.
  { apply blanks_ws in B1. destruct B1 as [N B]. destruct s1 as [|c s1]; [congruence|]. inversion B; subst. exists url, c, (s1 ++ len). auto. }
  assert (E' : line = ((url ++ s1 ++ len) ++ s2 ++ p) ++ [LF]) by (rewrite E, <- !app_assoc; reflexivity).
  assert (T1 : trimmed (url ++ s1 ++ len)) by (apply trimmed_three; apply word_trimmed; auto).
  apply blanks_ws in B2. destruct B2 as [B3 B4].
  rewrite E' at 1. rewrite strip_line by (apply trimmed_three; auto; apply word_trimmed; auto).
  rewrite rsplit_word by auto. reflexivity.
Qed.

(** No file is ever found in the dictionary under its name. *)
Theorem C103_refuted : forall v overwrite skip fetch dest name b dest' fetch',
  e_find v name = Some b -> rb_loc b <> e_dest v ->
  (forall l, In l (fetch_lines (rb_tree b)) -> exists p, names_path l p) ->
  restore_member_fetch v overwrite skip fetch dest name = Ok (dest', fetch') ->
  forall l p, In l (fetch_lines (rb_tree b)) -> names_path l p -> od_get p fetch' = od_get p fetch.
Proof.
  intros v overwrite skip fetch dest name b dest' fetch' Hn Lo Fl H l p Il Hp. unfold restore_member_fetch in H. rewrite Hn in H.
  apply bind_ok in H. destruct H as (t & _ & H). destruct (streq_reflect (rb_loc b) (e_dest v)); [congruence|].
  apply bind_ok in H. destruct H as (_ & _ & H). unfold fetch_lines in *. destruct (read F_fetch (rb_tree b)) as [c|]; [|destruct Il].
  cbn [decode] in H. apply bind_ok in H. destruct H as (d & H & E). inversion E; subst. clear E Il Hn Lo.
  destruct Hp as (_ & _ & _ & _ & _ & _ & _ & _ & _ & [_ Wp]). revert fetch H. induction (pylines IoText c) as [|x ls IH]; intros d H; cbn [foldM] in H.
  - inversion H; subst. reflexivity.
  - apply bind_ok in H. destruct H as (d1 & H1 & H2). rewrite (IH (fun l I => Fl l (or_intror I)) d1 H2).
    destruct (Fl x (or_introl eq_refl)) as (q & Hq). destruct (note_names d x q Hq) as (k & (u & c' & y & -> & Wc) & E). rewrite E in H1. inversion H1; subst d1.
    destruct (od_has _ d); [reflexivity|]. apply od_get_set_other. intros ->. rewrite Forall_app in Wp. destruct Wp as [_ Wp]. inversion Wp; subst. congruence.
Qed.
Print Assumptions C103_refuted.

(** Two files with the same URL and length: the second one is dropped. An
    example that meets the assumptions. *)
Definition ex_fetched : tree * dict pystr :=
  got ([], []) (restore_member_fetch (ex_fenv [f_x1; f_y] []) false [] [] (ex_f []) (U "one")).
Example C103_case :
  (forall l, In l (fetch_lines (ex_f [f_x1; f_y])) -> exists p, names_path l p) /\
  restore_member_fetch (ex_fenv [f_x1; f_y] []) false [] [] (ex_f []) (U "one") = Ok ex_fetched /\
  snd ex_fetched = [(U "http://s/1 10", f_x1 ++ [LF]); (U "http://s/3 30", f_y ++ [LF])].
Proof.
  split; [|split; vm_compute; reflexivity].
  assert (L : fetch_lines (ex_f [f_x1; f_y]) = [f_x1 ++ [LF]; f_y ++ [LF]]) by (vm_compute; reflexivity). rewrite L.
  intros l [<-|[<-|[]]]; eexists; [apply f_x1_names|apply f_y_names].
Qed.

(** Apart from the dictionary, the argument changes nothing: the destination is
    the same, and without a fetch.txt so is the dictionary. *)
Theorem C103_same : forall v overwrite skip fetch dest name b,
  e_find v name = Some b -> rb_loc b <> e_dest v ->
  (forall dest' fetch', restore_member_fetch v overwrite skip fetch dest name = Ok (dest', fetch') ->
     restore_member v overwrite skip dest name = Ok dest') /\
  (forall dest' i, restore_member v overwrite skip dest name = Ok dest' -> open_bag v IoText (rb_loc b) (rb_tree b) = Ok i ->
     read (U "fetch.txt") (rb_tree b) = None -> restore_member_fetch v overwrite skip fetch dest name = Ok (dest', fetch)).
Proof.
  intros v overwrite skip fetch dest name b Hn Lo. unfold restore_member_fetch, restore_member. rewrite Hn.
  destruct (streq_reflect (rb_loc b) (e_dest v)) as [E|_]; [congruence|]. split.
  - intros dest' fetch' H. apply bind_ok in H. destruct H as (t & H1 & H). apply bind_ok in H. destruct H as (_ & _ & H).
    destruct (read F_fetch (rb_tree b)) as [c|]; [|congruence]. apply bind_ok in H. destruct H as (d & _ & H). congruence.
  - intros dest' i H1 H2 R. rewrite H1. cbn [bind]. rewrite H2. cbn [bind]. change (U "fetch.txt") with F_fetch in R. rewrite R. reflexivity.
Qed.
Print Assumptions C103_same.

(** A blank line raises IndexError. *)
Theorem C103_blank_refuted : exists v name dest, 
  (exists dest', restore_member v false [] dest name = Ok dest') /\
  restore_member_fetch v false [] [] dest name = Err EIndex.
Proof.
  exists (ex_fenv [f_x1; []] []), (U "one"), (ex_f []). split; [|vm_compute; reflexivity].
  exists (got [] (restore_member (ex_fenv [f_x1; []] []) false [] (ex_f []) (U "one"))). vm_compute. reflexivity.
Qed.
Print Assumptions C103_blank_refuted.

(** ** C39: a last line without a line break *)

(** The lines of two members are written one after the other as they are: if
    the last line of the one read first has no line break, the next line is
    lost in it. *)
Definition ex_open_env : env :=
  let t := [(U "fetch.txt", NFile f_y)] in
  {| e_algos := [U "md5"]; e_version := fun _ => Ok (true, true); e_danger := fun _ _ => false;
     e_hash := fun a c => a ++ dec (N.of_nat (length c)); e_dest := U "/out";
     e_find := fun n => if streq n (U "one") then Some {| rb_loc := U "/bags/one"; rb_tree := ex_f [f_x1] |}
                        else if streq n (U "mid") then Some {| rb_loc := U "/bags/mid"; rb_tree := ex_f [] ++ t |}
                        else None |}.
Theorem C39_newline_refuted : exists v h loc skip ms bags dest' p line,
  plain_algos v /\ hb_del h = None /\ head_lists false h = Ok (skip, ms) /\ aggregation v h loc ms bags /\
  Forall (fun b => wf_tree (rb_tree b) /\ rb_loc b <> e_dest v) bags /\
  restore v true true (fun _ => U "1 kB") false h loc [] = Ok dest' /\
  (exists b, In b bags /\ In line (fetch_lines (rb_tree b))) /\ names_path line p /\
  (forall b l, In b bags -> In l (fetch_lines (rb_tree b)) -> names_path l p -> l = line) /\
  ~ In line (fetch_lines dest').
Proof.
  set (bags := [{| rb_loc := U "/bags/one"; rb_tree := ex_f [f_x1] |};
     {| rb_loc := U "/bags/mid"; rb_tree := ex_f [] ++ [(U "fetch.txt", NFile f_y)] |}] ++ [{| rb_loc := U "/bags/two"; rb_tree := ex_fh [] [] |}]).
  exists ex_open_env, (ex_fhead [] []), (U "/bags/two"), [], (ex_fmembers [] []), bags,
    (got [] (restore ex_open_env true true (fun _ => U "1 kB") false (ex_fhead [] []) (U "/bags/two") [])), (U "data/x"), (f_x1 ++ [LF]).
  assert (L1 : fetch_lines (ex_f [f_x1]) = [f_x1 ++ [LF]]) by (vm_compute; reflexivity).
  assert (L2 : fetch_lines (ex_f [] ++ [(U "fetch.txt", NFile f_y)]) = [f_y]) by (vm_compute; reflexivity).
  assert (L3 : fetch_lines (ex_fh [] []) = []) by (vm_compute; reflexivity).
  split; [intros a [<-|[]]; cbn; intuition discriminate|]. split; [reflexivity|]. split; [vm_compute; reflexivity|].
  split.
  { exists [U "one"; U "mid"], (firstn 2 bags). split; [left; vm_compute; reflexivity|].
    split; [constructor; [reflexivity|constructor; [reflexivity|constructor]]|reflexivity]. }
  split; [constructor; [|constructor; [|constructor; [|constructor]]]; (split; [apply wf_treeb_ok; vm_compute; reflexivity|discriminate])|].
  split; [vm_compute; reflexivity|].
  split; [exists {| rb_loc := U "/bags/one"; rb_tree := ex_f [f_x1] |}; split; [left; reflexivity|]; cbn [rb_tree]; rewrite L1; left; reflexivity|].
  split; [apply f_x1_names|]. split.
  { intros b l [<-|[<-|[<-|[]]]] I; cbn [rb_tree] in I; [rewrite L1 in I|rewrite L2 in I|rewrite L3 in I]; destruct I as [<-|[]] || destruct I; auto.
    intros (url & s1 & len & s2 & E & _). exfalso. rewrite !app_assoc in E. apply (f_equal (fun x => last x 0)) in E. rewrite last_last in E. discriminate E. }
  assert (X : str_in (f_x1 ++ [LF]) (fetch_lines (got [] (restore ex_open_env true true (fun _ => U "1 kB") false (ex_fhead [] []) (U "/bags/two") []))) = false)
    by (vm_compute; reflexivity).
  apply str_in_false in X. exact X.
Qed.
Print Assumptions C39_newline_refuted.

(** * Properties of the multibag tag files and of head bags (C02-C11, C63, C65, C66)

    Specifications used in the statements: [legal_name] (the profile's name
    rule), [no_brk] (no line break for a reader), [storable], [std_tags],
    [selected], [add_names], [lops_spec]; [cur_table h = Ok d] says that [d]
    is the lookup table the handle [h] shows. *)
Require Import String NArith Bool List.
From Verif Require Import PyBase PyFacts Version Tsv TsvProofs Fs FsFacts HeadBag
  HeadBagProofs HeadBagProofs2 HeadBagProofs3.
Import ListNotations.
Open Scope N_scope.

(** ** Concrete bags used by the examples *)
Definition ex_info : infod :=
  [(T_Version, IStr (U "0.4")); (T_TagDir, IStr (U "multibag")); (T_HeadVersion, IStr (U "1.0"))].
Definition lf (s : string) : pystr := U s ++ [LF].
Definition tabline (a b : string) : pystr := U a ++ [TAB] ++ U b ++ [LF].
Definition ex_tree : tree :=
  [(U "multibag", NDir);
   (U "multibag/member-bags.tsv", NFile (lf "a" ++ lf "b" ++ lf "head"));
   (U "multibag/file-lookup.tsv", NFile (tabline "data/x" "a" ++ tabline "data/y" "b" ++ tabline "data/z" "a"));
   (U "multibag/deleted.txt", NFile (lf "data/old"));
   (U "data", NDir);
   (U "data/p", NDir); (U "data/p/q", NDir); (U "data/p/q/deep.txt", NFile (U "deep"));
   (U "data/p/f1", NFile (U "one")); (U "data/f2", NFile (U "two"))].
Definition ex_hb : hb := open_hb (U "head") ex_tree ex_info Codecs.
Definition mb (s : string) : minfo := {| m_name := U s; m_uri := None; m_comment := None; m_info := [] |}.

(** ** C02 *)

(** Saved lookup tables read back unchanged, in either access mode [r]. *)
Theorem C02_saved_lookup_reads_back : forall r h h' td d p,
  hb_lu h = Some d -> NoDup (od_keys d) -> Forall (storable_entry r) d ->
  std_tags (hb_info h) td -> std_tags (hb_dinfo h) td ->
  save_file_lookup h = (h', Ok tt) ->
  iter_file_lookup (reopen r h') = Ok d /\
  snd (lookup_file p false (reopen r h')) = snd (lookup_file p false h) /\
  snd (lookup_file_ro p false (reopen r h')) = snd (lookup_file p false h).
Proof. exact lookup_persist. Qed.
Print Assumptions C02_saved_lookup_reads_back.

Definition ex_table : dict pystr := [(U "data/a b", U "bag 1"); (U "data/c", U "bag2")].
Example C02_ex : exists h',
  hb_lu (set_lu ex_hb (Some ex_table)) = Some ex_table /\
  std_tags (hb_info ex_hb) (U "multibag") /\ Forall (storable_entry Codecs) ex_table /\
  save_file_lookup (set_lu ex_hb (Some ex_table)) = (h', Ok tt) /\
  snd (lookup_file (U "data/a b") false (reopen Codecs h')) = Ok (Some (U "bag 1")).
Proof.
  eexists. split; [reflexivity|]. split; [split; reflexivity|]. split.
  { apply wf_tableb_ok. vm_compute. reflexivity. }
  split; [vm_compute; reflexivity|vm_compute; reflexivity].
Qed.

(** Saving does succeed whenever the tag directory can be written. *)
Theorem C02_save_succeeds : forall h d,
  hb_lu h = Some d -> tagdir_ok (hb_tree h) (tag_dir (hb_info h)) ->
  exists h', save_file_lookup h = (h', Ok tt).
Proof.
  intros h d L T. unfold save_file_lookup. rewrite L.
  destruct (ensure_put_succeeds F_lookup (lookup_text d) h) as (t' & E & _); eauto.
  simpl; auto.
Qed.
Print Assumptions C02_save_succeeds.

(** ** C03 *)

(** A name with U+2028 obeys the profile's rules, but after saving it the
    whole table cannot be read any more from a directory bag. *)
Theorem C03_legal_names_refuted : exists h h' p,
  legal_name p /\ ~ In LF p /\ ~ In CR p /\ std_tags (hb_info h) (U "multibag") /\
  (add_file_lookup p (U "b") ;; save_file_lookup) h = (h', Ok tt) /\
  snd (lookup_file p false h') = Ok (Some (U "b")) /\
  snd (lookup_file p false (reopen Codecs h')) = Err EMultibag /\
  snd (lookup_file (U "data/x") false (reopen Codecs h')) = Err EMultibag.
Proof.
  exists ex_hb. eexists. exists (U "data/" ++ [8232] ++ U "f").
  split. { apply legal_nameb_ok. vm_compute. reflexivity. }
  split; [vm_compute; intuition discriminate|]. split; [vm_compute; intuition discriminate|].
  split; [split; reflexivity|].
  split; [vm_compute; reflexivity|]. repeat split; vm_compute; reflexivity.
Qed.
Print Assumptions C03_legal_names_refuted.

(** In read-only mode every legal name without CR and LF survives. Missing
    for the full C03: directory bags, where further characters break lines
    (and a leading U+FEFF is dropped). *)
Theorem C03_legal_names_partial : forall h h' td d p,
  hb_lu h = Some d -> NoDup (od_keys d) ->
  Forall (fun kv => (legal_name (fst kv) /\ ~ In LF (fst kv) /\ ~ In CR (fst kv)) /\
                    (legal_name (snd kv) /\ ~ In LF (snd kv) /\ ~ In CR (snd kv))) d ->
  std_tags (hb_info h) td -> std_tags (hb_dinfo h) td ->
  save_file_lookup h = (h', Ok tt) ->
  snd (lookup_file_ro p false (reopen IoText h')) = Ok (od_get p d).
Proof.
  intros h h' td d p L ND F S S' H.
  destruct (lookup_persist IoText h h' td d p L ND) as (_ & _ & E); auto.
  - eapply Forall_impl; [|exact F]. intros [a b] [(A & B & C) (D & E & G)]. simpl in *.
    assert (K : forall s, ~ In LF s -> ~ In CR s -> no_brk IoText s).
    { intros s N1 N2. apply Forall_forall. intros c Ic. unfold is_brk.
      destruct (N.eqb_spec c 10) as [->|]; [contradiction|].
      destruct (N.eqb_spec c 13) as [->|]; [contradiction|]. reflexivity. }
    split; (split; [auto|split; [auto|exact I]]).
  - rewrite E. apply lookup_cur_table. unfold cur_table. rewrite L. reflexivity.
Qed.
Print Assumptions C03_legal_names_partial.

(** ** C04 *)

(** A list of legal member descriptions without extra fields is formatted,
    and the text parses to the same list. *)
Theorem C04_members_roundtrip_partial : forall r l,
  Forall (legal_member r) l ->
  exists text, members_text l = Ok text /\ parse_file r parse_member_03 text = Ok l.
Proof. exact members_roundtrip. Qed.
Print Assumptions C04_members_roundtrip_partial.

Example C04_ex : legal_member Codecs
  {| m_name := U "my bag"; m_uri := Some (U "https://ex.org/b"); m_comment := Some (U "first part"); m_info := [] |}.
Proof.
  destruct (storableb_ok Codecs (U "my bag")) as (A & B & _); [vm_compute; reflexivity|].
  destruct (storableb_ok Codecs (U "https://ex.org/b")) as (A' & B' & _); [vm_compute; reflexivity|].
  destruct (storableb_ok Codecs (U "first part")) as (A2 & B2 & _); [vm_compute; reflexivity|].
  split; [split; auto|]. split; [split; [split; auto|discriminate]|]. split; [split; auto|reflexivity].
Qed.

(** With extra information, formatting raises a NameError. *)
Theorem C04_info_refuted : forall n u c i is,
  format_member {| m_name := n; m_uri := u; m_comment := c; m_info := i :: is |} = Err EName.
Proof. reflexivity. Qed.
Print Assumptions C04_info_refuted.

(** A URI that starts with '#' (and has no comment after it) is read back as
    a comment. *)
Theorem C04_hash_uri_refuted : exists m line m',
  m_info m = [] /\ m_uri m = Some (U "#frag") /\ m_comment m = None /\
  format_member m = Ok line /\ parse_member_03 line = Ok m' /\
  m_uri m' = None /\ m_comment m' = Some (U "frag").
Proof.
  exists {| m_name := U "b"; m_uri := Some (U "#frag"); m_comment := None; m_info := [] |}.
  eexists. eexists. repeat split; reflexivity.
Qed.
Print Assumptions C04_hash_uri_refuted.

(** ** C05 *)

(** Blanks around the TAB are kept as part of path and bag name. *)
Theorem C05_padding_refuted : forall p b k j,
  legal_name p -> legal_name b ->
  parse_lookup_03 (p ++ repeat SP k ++ [TAB] ++ repeat SP j ++ b ++ [LF])
  = Ok (p ++ repeat SP k, repeat SP j ++ b).
Proof. exact lookup_padding_kept. Qed.
Print Assumptions C05_padding_refuted.

Theorem C05_member_padding_refuted : exists line m,
  line = U "bag " ++ [TAB] ++ U "http://x.org/" ++ [LF] /\
  parse_member_03 line = Ok m /\ m_name m = U "bag ".
Proof. eexists. eexists. split; [reflexivity|]. split; reflexivity. Qed.
Print Assumptions C05_member_padding_refuted.

(** Only padding at the two ends of the line is ignored. *)
Theorem C05_padding_partial : forall p b w1 w2,
  legal_name p -> legal_name b ->
  Forall (fun c => is_ws c = true) w1 -> Forall (fun c => is_ws c = true) w2 ->
  parse_lookup_03 (w1 ++ p ++ [TAB] ++ b ++ w2) = Ok (p, b).
Proof. exact lookup_outer_padding. Qed.
Print Assumptions C05_padding_partial.

Example C05_ex : legal_name (U "data/my file") /\ Forall (fun c => is_ws c = true) [SP; SP].
Proof. split; [apply legal_nameb_ok; vm_compute; reflexivity|repeat constructor]. Qed.

(** ** C06 *)

(** [lops_spec] is the specification: a finite map, initially what the file
    on disk says. Every answer of a history of additions, removals, lookups,
    saves and clears is that of the map. *)
Theorem C06_lookup_is_a_map : forall td l h d,
  hb_lu h = None -> std_tags (hb_info h) td -> tagdir_ok (hb_tree h) td ->
  NoDup (od_keys (hb_tree h)) -> disk_lookup h = Ok d -> wf_table (hb_reader h) d ->
  Forall (lop_legal (hb_reader h)) l ->
  exists h', lops_run l h = (h', Ok (lops_spec l (fun p => od_get p d))).
Proof. exact lookup_histories. Qed.
Print Assumptions C06_lookup_is_a_map.

(** After the history and a save, the bag opened again shows the final map. *)
Theorem C06_history_saved : forall td l h d,
  hb_lu h = None -> std_tags (hb_info h) td -> std_tags (hb_dinfo h) td ->
  tagdir_ok (hb_tree h) td ->
  NoDup (od_keys (hb_tree h)) -> disk_lookup h = Ok d -> wf_table (hb_reader h) d ->
  Forall (lop_legal (hb_reader h)) l ->
  exists h', lops_run (l ++ [LSave]) h = (h', Ok (lops_spec l (fun p => od_get p d))) /\
    forall p, snd (lookup_file p false (reopen (hb_reader h) h'))
              = Ok (lops_final l (fun p => od_get p d) p).
Proof. exact lookup_history_saved. Qed.
Print Assumptions C06_history_saved.

Example C06_ex :
  snd (lops_run [LGet (U "data/x"); LAdd (U "data/x") (U "b"); LSave; LRemove (U "data/y");
                 LGet (U "data/x"); LGet (U "data/y"); LClear; LGet (U "data/x")] ex_hb)
  = Ok [Some (U "a"); Some (U "b"); None; None]
  /\ hb_lu ex_hb = None /\ std_tags (hb_info ex_hb) (U "multibag") /\ NoDup (od_keys (hb_tree ex_hb))
  /\ tagdir_ok (hb_tree ex_hb) (U "multibag").
Proof.
  split; [vm_compute; reflexivity|]. split; [reflexivity|]. split; [split; reflexivity|].
  split; [apply nodupb_ok; vm_compute; reflexivity|]. split; [left; reflexivity|].
  intros f [<-|[<-|[<-|[]]]]; reflexivity.
Qed.

(** ** C07 *)

(** [add_names l ns]: each added name is removed from where it was and put at
    the end. After any sequence of additions the member list is that. *)
Theorem C07_member_list : forall ms h l d,
  cur_members h = Ok l -> cur_table h = Ok d -> NoDup (od_keys d) -> nonempty_keys d ->
  exists h' l', forM ms (fun m => add_member_bag m true) h = (h', Ok tt) /\
    cur_members h' = Ok l' /\ names l' = add_names (names l) (map m_name ms) /\ same_disk h h'.
Proof. exact add_members_effect. Qed.
Print Assumptions C07_member_list.

Theorem C07_no_repeats : forall ns l, NoDup l -> NoDup (add_names l ns).
Proof. exact add_names_NoDup. Qed.
Print Assumptions C07_no_repeats.

Theorem C07_last_is_last : forall ns n l, exists l', add_names l (ns ++ [n]) = l' ++ [n].
Proof. exact add_names_last. Qed.
Print Assumptions C07_last_is_last.

Theorem C07_others_keep_order : forall ns l,
  filter (fun x => negb (str_in x ns)) (add_names l ns) = filter (fun x => negb (str_in x ns)) l.
Proof. exact add_names_others. Qed.
Print Assumptions C07_others_keep_order.

(** And this is what is read back after saving. *)
Theorem C07_saved : forall r ms h h' td l d,
  ms <> [] ->
  cur_members h = Ok l -> cur_table h = Ok d -> NoDup (od_keys d) -> nonempty_keys d ->
  Forall (storable_member r) (l ++ ms) ->
  std_tags (hb_info h) td -> std_tags (hb_dinfo h) td ->
  (forM ms (fun m => add_member_bag m true) ;; save_member_bags) h = (h', Ok tt) ->
  exists l', iter_member_bags (reopen r h') = Ok l' /\
             names l' = add_names (names l) (map m_name ms).
Proof. exact add_members_saved. Qed.
Print Assumptions C07_saved.

(** A bag that was just opened meets the table conditions. *)
Theorem C07_opened_ok : forall n t i r d,
  disk_lookup (open_hb n t i r) = Ok d ->
  cur_table (open_hb n t i r) = Ok d /\ NoDup (od_keys d) /\ nonempty_keys d.
Proof. intros n t i r d H. split; [exact H|apply (disk_lookup_keys _ _ H)]. Qed.
Print Assumptions C07_opened_ok.

Example C07_ex : exists h' l',
  forM [mb "c"; mb "a"] (fun m => add_member_bag m true) ex_hb = (h', Ok tt) /\
  cur_members h' = Ok l' /\ names l' = [U "b"; U "head"; U "c"; U "a"].
Proof. eexists. eexists. vm_compute. repeat split. Qed.

(** ** C08 *)

(** If the members were not read before, the removed bag stays in the member
    list, and the deleted list is emptied. *)
Theorem C08_remove_member_refuted : exists h' l,
  hb_mem ex_hb = None /\
  (remove_member_bag (U "a") ;; save_member_bags ;; save_file_lookup ;; save_deleted) ex_hb = (h', Ok tt) /\
  iter_member_bags (reopen Codecs h') = Ok l /\ In (U "a") (names l).
Proof.
  eexists. eexists. split; [reflexivity|]. split; [vm_compute; reflexivity|].
  split; [vm_compute; reflexivity|]. left; reflexivity.
Qed.
Print Assumptions C08_remove_member_refuted.

(** If they were read before, the removal is complete and touches nothing
    else. Missing for the full C08: handles that did not read the members. *)
Theorem C08_remove_member_partial : forall r h h' td l d b,
  hb_mem h = Some l -> cur_table h = Ok d -> wf_table r d -> Forall (storable_member r) l ->
  std_tags (hb_info h) td -> std_tags (hb_dinfo h) td -> NoDup (od_keys (hb_tree h)) ->
  hb_reader h = r ->
  (remove_member_bag b ;; save_member_bags ;; save_file_lookup ;; save_deleted) h = (h', Ok tt) ->
  iter_member_bags (reopen r h') = Ok (filter (fun m => negb (streq (m_name m) b)) l) /\
  disk_lookup (reopen r h') = Ok (filter (fun kv => negb (streq (snd kv) b)) d).
Proof. exact remove_member_saved. Qed.
Print Assumptions C08_remove_member_partial.

Example C08_ex : exists h',
  (member_bags false ;; remove_member_bag (U "a") ;; save_member_bags ;; save_file_lookup ;; save_deleted) ex_hb
  = (h', Ok tt) /\
  iter_member_bags (reopen Codecs h') = Ok [mb "b"; mb "head"] /\
  disk_lookup (reopen Codecs h') = Ok [(U "data/y", U "b")].
Proof. eexists. split; [vm_compute; reflexivity|]. split; vm_compute; reflexivity. Qed.

(** ** C09 *)

(** If the deleted list was not read before, marking a path forgets the
    earlier marks, and so does removing a member with files. *)
Theorem C09_set_deleted_refuted : exists h' l,
  iter_deleted ex_hb = Ok [U "data/old"] /\
  (set_deleted (U "data/x") ;; save_deleted) ex_hb = (h', Ok tt) /\
  iter_deleted (reopen Codecs h') = Ok l /\ l = [U "data/x"].
Proof.
  eexists. eexists. split; [vm_compute; reflexivity|]. split; [vm_compute; reflexivity|].
  split; [vm_compute; reflexivity|reflexivity].
Qed.
Print Assumptions C09_set_deleted_refuted.

Theorem C09_unset_deleted_refuted : exists h',
  iter_deleted ex_hb = Ok [U "data/old"] /\
  (unset_deleted (U "data/x") ;; save_deleted) ex_hb = (h', Ok tt) /\
  iter_deleted (reopen Codecs h') = Ok [].
Proof. eexists. split; [vm_compute; reflexivity|]. split; vm_compute; reflexivity. Qed.
Print Assumptions C09_unset_deleted_refuted.

Theorem C09_remove_member_refuted : exists h',
  (remove_member_bag (U "a") ;; save_deleted) ex_hb = (h', Ok tt) /\
  iter_deleted (reopen Codecs h') = Ok [].
Proof. eexists. split; vm_compute; reflexivity. Qed.
Print Assumptions C09_remove_member_refuted.

(** With a deleted list that was read (or set) before, both are right. *)
Theorem C09_set_deleted_partial : forall r h h' l p,
  hb_del h = Some l -> Forall (storable_path r) (p :: l) ->
  tag_dir (hb_dinfo h) = tag_dir (hb_info h) -> NoDup (od_keys (hb_tree h)) ->
  (set_deleted p ;; save_deleted) h = (h', Ok tt) ->
  exists l', iter_deleted (reopen r h') = Ok l' /\ forall q, In q l' <-> q = p \/ In q l.
Proof. exact set_deleted_saved. Qed.
Print Assumptions C09_set_deleted_partial.

Theorem C09_unset_deleted_partial : forall r h h' l p,
  hb_del h = Some l -> Forall (storable_path r) l ->
  tag_dir (hb_dinfo h) = tag_dir (hb_info h) -> NoDup (od_keys (hb_tree h)) ->
  (unset_deleted p ;; save_deleted) h = (h', Ok tt) ->
  exists l', iter_deleted (reopen r h') = Ok l' /\ forall q, In q l' <-> q <> p /\ In q l.
Proof. exact unset_deleted_saved. Qed.
Print Assumptions C09_unset_deleted_partial.

(** Calling deleted_paths() first is enough. *)
Theorem C09_after_read_partial : forall r h h' l p,
  hb_del h = None -> iter_deleted h = Ok l -> Forall (storable_path r) (p :: l) ->
  tag_dir (hb_dinfo h) = tag_dir (hb_info h) -> NoDup (od_keys (hb_tree h)) ->
  (deleted_paths false ;; set_deleted p ;; save_deleted) h = (h', Ok tt) ->
  exists l', iter_deleted (reopen r h') = Ok l' /\ forall q, In q l' <-> q = p \/ In q l.
Proof. exact set_deleted_after_read. Qed.
Print Assumptions C09_after_read_partial.

Example C09_ex : exists h',
  (deleted_paths false ;; set_deleted (U "data/x") ;; save_deleted) ex_hb = (h', Ok tt) /\
  iter_deleted (reopen Codecs h') = Ok [U "data/old"; U "data/x"].
Proof. eexists. split; vm_compute; reflexivity. Qed.

(** ** C10 *)

Theorem C10_files_in_member : forall b h d,
  cur_table h = Ok d -> NoDup (od_keys d) ->
  exists h' fs, files_in_member b h = (h', Ok fs) /\ NoDup fs /\
    (forall p, In p fs <-> snd (lookup_file p false h) = Ok (Some b)) /\
    (* in lookup order *)
    fs = filter (fun p => match od_get p d with Some x => streq x b | None => false end) (od_keys d).
Proof.
  intros b h d C ND. destruct (files_in_member_effect b h d C) as (h' & R & _).
  exists h', (files_of_member b d). split; auto. split; [|split].
  - rewrite files_of_member_keys by auto. apply NoDup_filter; auto.
  - intros p. rewrite (lookup_cur_table _ _ _ C), files_of_member_iff by auto.
    split; congruence.
  - apply files_of_member_keys; auto.
Qed.
Print Assumptions C10_files_in_member.

Example C10_ex : snd (files_in_member (U "a") ex_hb) = Ok [U "data/x"; U "data/z"]
  /\ cur_table ex_hb = Ok [(U "data/x", U "a"); (U "data/y", U "b"); (U "data/z", U "a")].
Proof. split; vm_compute; reflexivity. Qed.

(** ** C11 *)

(** [selected] is the specification. For directory bags with any exclude
    list, and for read-only bags whose excluded directories have no deeper
    files, the selected files point at the bag; all other entries stay,
    except that with [make_member] entries of an earlier state of the same
    bag are dropped first. *)
Theorem C11_update_for_member_partial : forall s include excl mk name h d l,
  wf_tree (s_tree s) -> Forall good_path (incl_of include) ->
  s_name s <> [] ->
  (s_ro s = false \/ flat_exclusions (s_tree s) excl) ->
  cur_table h = Ok d -> NoDup (od_keys d) -> nonempty_keys d -> cur_members h = Ok l ->
  let nm := if truthy name then oget name else s_name s in
  exists h', update_for_member s include (SList excl) mk name h = (h', Ok tt) /\
    (forall p, selected (s_tree s) (incl_of include) excl p -> snd (lookup_file p false h') = Ok (Some nm)) /\
    (forall p, ~ selected (s_tree s) (incl_of include) excl p ->
       snd (lookup_file p false h') =
         if mk then (if match od_get p d with Some b => streq b nm | None => false end
                     then Ok None else Ok (od_get p d))
         else Ok (od_get p d)) /\
    (if mk then exists l', cur_members h' = Ok l' /\ names l' = add_names (names l) [nm]
     else cur_members h' = Ok l) /\
    same_disk h h'.
Proof. exact update_for_member_ok. Qed.
Print Assumptions C11_update_for_member_partial.

Definition ex_src (ro : bool) : src := {| s_name := U "m"; s_tree := ex_tree; s_ro := ro |}.

Example C11_ex : exists h',
  update_for_member (ex_src false) SNone (SList [U "data/p"]) true None ex_hb = (h', Ok tt) /\
  cur_table h' = Ok [(U "data/x", U "a"); (U "data/y", U "b"); (U "data/z", U "a"); (U "data/f2", U "m")].
Proof. eexists. split; vm_compute; reflexivity. Qed.

(** The same call with the same bag opened read-only also registers a file
    below the excluded directory. *)
Theorem C11_readonly_refuted : exists h1 h2,
  update_for_member (ex_src false) SNone (SList [U "data/p"]) true None ex_hb = (h1, Ok tt) /\
  update_for_member (ex_src true) SNone (SList [U "data/p"]) true None ex_hb = (h2, Ok tt) /\
  snd (lookup_file (U "data/p/q/deep.txt") false h1) = Ok None /\
  snd (lookup_file (U "data/p/q/deep.txt") false h2) = Ok (Some (U "m")).
Proof. eexists. eexists. split; [|split]; [vm_compute; reflexivity..|]. split; vm_compute; reflexivity. Qed.
Print Assumptions C11_readonly_refuted.

(** An exclude given as a string takes the place of the include argument:
    here nothing at all is registered. *)
Theorem C11_string_exclude_refuted : forall s include x mk name h,
  update_for_member s include (SStr x) mk name h =
  (if mk then add_member_bag {| m_name := if truthy name then oget name else s_name s;
                                m_uri := None; m_comment := None; m_info := [] |} true h
   else (h, Ok tt)).
Proof.
  intros s include x mk name h. unfold update_for_member. cbn [forM].
  assert (E : substr_in x x = true).
  { destruct x as [|c x]; [reflexivity|]. cbn [substr_in]. rewrite startswith_refl. reflexivity. }
  rewrite E. unfold bindM, retM. destruct mk; [|reflexivity].
  destruct (add_member_bag _ true h) as [h1 [[]|e]]; reflexivity.
Qed.
Print Assumptions C11_string_exclude_refuted.

(** ** C63 *)

(** A bag that declares version 0.2: what is saved is not read back. *)
Definition ex_info_02 : infod := od_set T_Version (IStr (U "0.2")) ex_info.
Theorem C63_old_version_refuted : exists h h',
  profile_version (hb_info h) = U "0.2" /\
  (add_member_bag (mb "b") true ;; save_member_bags ;;
   add_file_lookup (U "data/x") (U "b") ;; save_file_lookup) h = (h', Ok tt) /\
  snd (member_bags false h') = Ok [mb "b"] /\
  snd (member_bags false (reopen Codecs h')) = Ok [] /\
  snd (lookup_file (U "data/x") false (reopen Codecs h')) = Ok None.
Proof.
  exists (open_hb (U "head") [(U "multibag", NDir)] ex_info_02 Codecs). eexists.
  split; [reflexivity|]. split; [vm_compute; reflexivity|]. repeat split; vm_compute; reflexivity.
Qed.
Print Assumptions C63_old_version_refuted.

(** With version 0.3 or later (part of [std_tags]) it is. *)
Theorem C63_members_partial : forall r h h' td l,
  hb_mem h = Some l -> Forall (storable_member r) l ->
  std_tags (hb_info h) td -> std_tags (hb_dinfo h) td ->
  save_member_bags h = (h', Ok tt) ->
  iter_member_bags (reopen r h') = Ok l.
Proof. exact members_saved_read_back. Qed.
Print Assumptions C63_members_partial.

Theorem C63_lookup_partial : forall r h h' td d,
  hb_lu h = Some d -> Forall (storable_entry r) d ->
  std_tags (hb_info h) td -> std_tags (hb_dinfo h) td ->
  save_file_lookup h = (h', Ok tt) ->
  iter_file_lookup (reopen r h') = Ok d.
Proof. exact lookup_saved_read_back. Qed.
Print Assumptions C63_lookup_partial.

(** ** C65 *)

(** The answer of a re-reading call is what is on disk ... *)
Theorem C65_reread_members : forall h,
  snd (member_bags true h) =
  match iter_member_bags h with Ok l => Ok l | Err EMissingFile => Ok [] | Err e => Err e end.
Proof. exact member_bags_reread. Qed.
Print Assumptions C65_reread_members.

Theorem C65_reread_lookup : forall p h,
  snd (lookup_file p true h) =
  match disk_lookup h with Ok d => Ok (od_get p d) | Err e => Err e end.
Proof. exact lookup_reread. Qed.
Print Assumptions C65_reread_lookup.

(** ... but with no file on disk the unsaved state is still there
    afterwards. *)
Theorem C65_discard_refuted : exists h,
  let h1 := fst (add_member_bag (mb "b") true h) in
  let h2 := fst (member_bags true h1) in
  snd (member_bags true h1) = Ok [] /\ snd (member_bags false h2) = Ok [mb "b"].
Proof.
  exists (open_hb (U "head") [(U "multibag", NDir)] ex_info Codecs). split; vm_compute; reflexivity.
Qed.
Print Assumptions C65_discard_refuted.

Theorem C65_discard_members_partial : forall h l,
  iter_member_bags h = Ok l ->
  snd (member_bags false (fst (member_bags true h))) = Ok l.
Proof. exact member_bags_discard. Qed.
Print Assumptions C65_discard_members_partial.

Theorem C65_discard_lookup_partial : forall p q h d,
  iter_file_lookup h = Ok d ->
  snd (lookup_file q false (fst (lookup_file p true h))) = Ok (od_get q (od_of_pairs d)).
Proof. exact lookup_discard. Qed.
Print Assumptions C65_discard_lookup_partial.

(** ** C66 *)

(** A repeated Multibag-Tag-Directory makes every read raise TypeError. *)
Theorem C66_repeated_tag_refuted : forall n t i r l,
  od_get T_TagDir i = Some (IList l) ->
  iter_member_bags (open_hb n t i r) = Err EType /\
  iter_file_lookup (open_hb n t i r) = Err EType.
Proof.
  intros n t i r l H. unfold iter_member_bags, iter_file_lookup, tag_dir_raw. simpl. rewrite H. auto.
Qed.
Print Assumptions C66_repeated_tag_refuted.

Example C66_ex : od_get T_TagDir [(T_TagDir, IList [U "multibag"; U "multibag"])]
                 = Some (IList [U "multibag"; U "multibag"]).
Proof. reflexivity. Qed.

(** The hypotheses of C08 and C11 hold of the example bag. *)
Example C11_ex_hyps :
  wf_tree (s_tree (ex_src false)) /\ Forall good_path (incl_of SNone) /\
  flat_exclusions ex_tree [U "data/p/q"] /\
  wf_table Codecs [(U "data/x", U "a"); (U "data/y", U "b"); (U "data/z", U "a")].
Proof.
  split; [apply wf_treeb_ok; vm_compute; reflexivity|].
  split; [constructor; [apply good_pathb_ok; vm_compute; reflexivity|constructor]|].
  split.
  - intros a p [<-|[]] F B. apply in_files in F; [|apply nodupb_ok; vm_compute; reflexivity].
    vm_compute in F. repeat (destruct F as [<-|F]; [vm_compute in B |- *; congruence|]). destruct F.
  - split; [apply nodupb_ok; vm_compute; reflexivity|apply wf_tableb_ok; vm_compute; reflexivity].
Qed.

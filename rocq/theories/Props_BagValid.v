(** * Properties of validating plain bags: C88, C89

    The library checks a plain bag (a bag as the BagIt standard has it)
    before it looks for multibag data; see [BagValid.v]. *)

Require Import String NArith ZArith PeanoNat Bool List Lia.
From Verif Require Import PyBase PyFacts Version Fs FsFacts HeadBag HeadBagProofs3 BagIt BagItProofs SplitApply Validate BagValid BagValidProofs.
Import ListNotations.
Open Scope N_scope.

(** ** What a valid bag is *)

(** A line of fetch.txt: a URL, a size and a name, with blanks between. *)
Definition three_fields (line url size name : pystr) : Prop :=
  exists w1 w2, line = url ++ w1 ++ size ++ w2 ++ name /\ word url /\ blanks w1 /\ word size /\ blanks w2 /\ starts_word name.

Definition good_fetch_line (v : benv) (line : pystr) : Prop :=
  exists url size name scheme host,
    three_fields (strip line) url size name /\ v_danger v name = false /\
    v_url v url = Ok (scheme, host) /\ scheme <> [] /\ host <> [].

Definition payload (t : tree) (f : pystr) : Prop := is_file f t = true /\ startswith f (U "data/") = true.

Definition payload_list (t : tree) (fs : list pystr) : Prop := NoDup fs /\ forall f, In f fs <-> payload t f.

(** [x.y], where [x] is the number of bytes of the payload and [y] that of
    its files. *)
Definition right_oxum (t : tree) (s : pystr) : Prop :=
  exists x y fs, s = x ++ U "." ++ y /\ payload_list t fs /\
    decimal x (sum_N (map (fun f => size_of f t) fs)) /\ decimal y (N.of_nat (length fs)).

Record valid_bag (v : benv) (t : tree) (info : infod) (sums : entries) : Prop := {
  vb_data : is_dir (U "data") t = true;
  vb_manifest : exists a, In a (v_algos v) /\ is_file (U "manifest-" ++ a ++ U ".txt") t = true;
  vb_no_bom : forall c, read (U "bagit.txt") t = Some c -> hd 0 c <> 65279;
  vb_fetch : forall c line, read (U "fetch.txt") t = Some c -> In line (pylines IoText c) -> good_fetch_line v line;
  vb_oxum : forall s l, tag_values info (U "Payload-Oxum") = s :: l -> right_oxum t s;
  vb_listed : forall f, payload t f -> exists a h, checksum sums a f = Some h;
  vb_sums : forall a f h, checksum sums a f = Some h -> exists c, read f t = Some c /\ lower h = v_hash v a c
}.

(** ** The steps *)

Lemma strip_starts s l a b : strip s = l ++ a ++ b -> Forall (fun c => is_ws c = true) l -> word a -> l = [].
Proof.
  intros E Fl [Na Fa]. destruct l as [|x l]; [reflexivity|]. exfalso. inversion Fl as [|? ? Px _]; subst.
  unfold strip in E. destruct (lstrip_spec is_ws s) as (w & _ & _ & L). destruct L as [L|(c & t & L & Pc)]; rewrite L in E.
  - discriminate.
  - destruct (rstrip_if_split is_ws (c :: t)) as (w2 & E2 & _). rewrite E in E2. cbn [app] in E2. injection E2 as -> _. congruence.
Qed.

Lemma nonempty_neq (s : pystr) : nonempty s = true <-> s <> [].
Proof. destruct s; cbn; split; congruence. Qed.

Lemma fetch_line_pass v line : check_fetch_line v line = VPass <-> good_fetch_line v line.
Proof.
  unfold check_fetch_line, good_fetch_line. split.
  - destruct (split_ws2 (strip line)) as [|url [|size [|name [|? ?]]]] eqn:E; try discriminate.
    apply split_ws2_three in E. destruct E as (l & w1 & w2 & E & Fl & Wa & B1 & Wb & B2 & Sc).
    pose proof (strip_starts _ _ _ _ E Fl Wa) as ->. cbn [app] in E.
    destruct (v_danger v name) eqn:D; [discriminate|]. destruct (v_url v url) as [[sc ho]|e] eqn:Ur; [|discriminate].
    destruct (nonempty sc && nonempty ho) eqn:Ne; [|discriminate]. intros _. apply andb_true_iff in Ne. rewrite !nonempty_neq in Ne.
    exists url, size, name, sc, ho. split; [|tauto]. exists w1, w2. auto 10.
  - intros (url & size & name & sc & ho & (w1 & w2 & E & Wa & B1 & Wb & B2 & Sc) & D & Ur & Ns & Nh).
    assert (S3 : split_ws2 (strip line) = [url; size; name]).
    { apply split_ws2_three. exists [], w1, w2. auto 10. }
    rewrite S3, D, Ur. apply nonempty_neq in Ns, Nh. rewrite Ns, Nh. reflexivity.
Qed.

Lemma fold_andthen {A} (f : A -> verdict) l : forall a, fold_left (fun a x => andthen a (f x)) l a = VPass <-> a = VPass /\ Forall (fun x => f x = VPass) l.
Proof.
  induction l as [|x l IH]; intros a; cbn [fold_left]; [split; [auto|tauto]|]. rewrite IH, andthen_pass, Forall_cons_iff. tauto.
Qed.

Lemma fetch_pass v b : check_fetch v b = VPass <->
  (forall c line, read (U "fetch.txt") (o_tree b) = Some c -> In line (pylines IoText c) -> good_fetch_line v line).
Proof.
  unfold check_fetch, F_fetch. destruct (read (U "fetch.txt") (o_tree b)) as [c|]; [|split; [discriminate|reflexivity]].
  rewrite fold_andthen, Forall_forall. split.
  - intros [_ H] c' line E I. injection E as <-. apply fetch_line_pass, H, I.
  - intros H. split; [reflexivity|]. intros line I. apply fetch_line_pass. eapply H; [reflexivity|exact I].
Qed.

Lemma on_disk_iff t f : NoDup (od_keys t) -> (In f (on_disk t) <-> payload t f).
Proof. intros ND. unfold on_disk, payload, is_payload. rewrite filter_In, in_files by exact ND. reflexivity. Qed.

Lemma on_disk_list t : NoDup (od_keys t) -> payload_list t (on_disk t).
Proof. intros ND. split; [apply NoDup_filter, NoDup_files, ND|]. intros f. apply on_disk_iff, ND. Qed.

Lemma sum_N_perm l l' : Permutation.Permutation l l' -> sum_N l = sum_N l'.
Proof.
  intros P. unfold sum_N. induction P; cbn [fold_right]; [reflexivity|lia|lia|congruence].
Qed.

Lemma payload_list_same t fs fs' : payload_list t fs -> payload_list t fs' -> Permutation.Permutation fs fs'.
Proof. intros [N1 H1] [N2 H2]. apply Permutation.NoDup_Permutation; auto. intros f. rewrite H1, H2. reflexivity. Qed.

Lemma oxum_value_pass t s : NoDup (od_keys t) -> (check_oxum_value t s = VPass <-> right_oxum t s).
Proof.
  intros ND. unfold check_oxum_value, right_oxum. split.
  - destruct (split1 DOT s) as [[x y]|] eqn:Sp; [|discriminate]. apply split1_iff in Sp. destruct Sp as [-> _].
    destruct (isdigit x) eqn:Dx; [|discriminate]. destruct (isdigit y) eqn:Dy; [|discriminate]. cbn [negb orb].
    destruct (py_int x) as [zx|] eqn:Ix; [|discriminate]. destruct (py_int y) as [zy|] eqn:Iy; [|discriminate].
    destruct (isdigit_int _ _ Dx Ix) as (nx & -> & Hx). destruct (isdigit_int _ _ Dy Iy) as (ny & -> & Hy).
    destruct ((Z.of_nat (length (on_disk t)) =? Z.of_N ny)%Z) eqn:E1; [|discriminate].
    destruct ((Z.of_N (sum_N (map (fun f => size_of f t) (on_disk t))) =? Z.of_N nx)%Z) eqn:E2; [|discriminate]. intros _.
    apply Z.eqb_eq in E1, E2. exists x, y, (on_disk t). split; [reflexivity|]. split; [apply on_disk_list, ND|].
    replace (sum_N (map (fun f => size_of f t) (on_disk t))) with nx by lia. replace (N.of_nat (length (on_disk t))) with ny by lia. auto.
  - intros (x & y & fs & -> & L & Hx & Hy). pose proof (payload_list_same _ _ _ L (on_disk_list t ND)) as P.
    assert (Sp : split1 DOT (x ++ U "." ++ y) = Some (x, y)).
    { apply split1_iff. split; [reflexivity|]. intros I. destruct Hx as (_ & F & _). rewrite Forall_forall in F. apply F, digit_neq in I. tauto. }
    rewrite Sp, (decimal_isdigit _ _ Hx), (decimal_isdigit _ _ Hy). cbn [negb orb].
    rewrite (py_int_decimal _ _ Hx), (py_int_decimal _ _ Hy).
    rewrite (sum_N_perm _ _ (Permutation.Permutation_map (fun f => size_of f t) P)), (Permutation.Permutation_length P).
    rewrite nat_N_Z, !Z.eqb_refl. reflexivity.
Qed.

Lemma oxum_pass b : NoDup (od_keys (o_tree b)) -> no_empty_list (o_info b) -> (check_oxum b = VPass <->
  forall s l, tag_values (o_info b) (U "Payload-Oxum") = s :: l -> right_oxum (o_tree b) s).
Proof.
  intros ND NE. unfold check_oxum, tag_values. specialize (NE (U "Payload-Oxum")). change T_OXUM with (U "Payload-Oxum").
  destruct (od_get (U "Payload-Oxum") (o_info b)) as [[s|[|s l]]|]; [| |rewrite oxum_value_pass by exact ND|].
  - rewrite oxum_value_pass by exact ND. split; [intros H s' l' E; injection E as <- <-; exact H|intros H; apply (H s []); reflexivity].
  - congruence.
  - split; [intros H s' l' E; injection E as <- <-; exact H|intros H; apply (H s l); reflexivity].
  - split; [intros _ s l E; discriminate E|reflexivity].
Qed.

Lemma structure_pass v b : is_file (U "bagit.txt") (o_tree b) = true -> (check_structure v b = VPass <->
  is_dir (U "data") (o_tree b) = true /\
  exists a, In a (v_algos v) /\ is_file (U "manifest-" ++ a ++ U ".txt") (o_tree b) = true).
Proof.
  intros Fb. unfold check_structure. change DATA with (U "data"). destruct (is_dir (U "data") (o_tree b)); cbn [negb]; [|split; [discriminate|intros [X _]; discriminate]].
  assert (Ex : exists_ F_bagit (o_tree b) = true).
  { unfold exists_, F_bagit. rewrite Fb. reflexivity. }
  rewrite Ex. unfold manifest_files.
  assert (X : forall l, filter (fun f => is_file f (o_tree b)) (map (man_name K_man) l) <> [] <->
            exists a, In a l /\ is_file (U "manifest-" ++ a ++ U ".txt") (o_tree b) = true).
  { induction l as [|a l IH]; cbn [map filter]; [split; [congruence|intros (a & [] & _)]|].
    change (man_name K_man a) with (U "manifest-" ++ a ++ U ".txt").
    destruct (is_file (U "manifest-" ++ a ++ U ".txt") (o_tree b)) eqn:E.
    - split; [intros _; exists a; split; [left; reflexivity|exact E]|discriminate].
    - rewrite IH. split; intros (a' & I & F); exists a'; (split; [|exact F]); [right; exact I|]. destruct I as [->|I]; [congruence|exact I]. }
  specialize (X (v_algos v)). destruct (filter _ _) as [|z l].
  - split; [discriminate|]. intros [_ Q]. apply X in Q. congruence.
  - split; [|reflexivity]. intros _. split; [reflexivity|]. apply X. discriminate.
Qed.

Lemma bom_pass b : is_file (U "bagit.txt") (o_tree b) = true -> (check_bagittxt b = VPass <->
  forall c, read (U "bagit.txt") (o_tree b) = Some c -> hd 0 c <> 65279).
Proof.
  intros F. apply is_file_read in F. destruct F as (c & R). unfold check_bagittxt, F_bagit. rewrite R. destruct c as [|x c].
  - split; [|reflexivity]. intros _ c E. injection E as <-. discriminate.
  - unfold BOM. destruct (N.eqb_spec x 65279) as [->|X].
    + split; [discriminate|]. intros H. exfalso. apply (H _ eq_refl). reflexivity.
    + split; [|reflexivity]. intros _ c' E. injection E as <-. exact X.
Qed.

Lemma filter_nil {A} (p : A -> bool) l : filter p l = [] <-> forall x, In x l -> p x = false.
Proof.
  split.
  - intros H x I. destruct (p x) eqn:E; [|reflexivity]. assert (J : In x (filter p l)) by (apply filter_In; auto). rewrite H in J. destruct J.
  - intros H. induction l as [|x l IH]; [reflexivity|]. cbn [filter]. rewrite (H x) by (left; reflexivity). apply IH. intros y I. apply H. right; exact I.
Qed.

Lemma completeness_pass b : check_completeness b = VPass <-> only_in_manifests b = [] /\ only_on_disk b = [].
Proof.
  unfold check_completeness. split.
  - destruct (only_in_manifests b ++ only_on_disk b) as [|? ?] eqn:E; [|discriminate]. intros _. apply app_eq_nil, E.
  - intros [-> ->]. reflexivity.
Qed.

(** ** C88: what passes, and what does not *)

Lemma validates_iff : forall v t b, NoDup (od_keys t) -> open_plain v t = Ok b ->
  (validate_plain v b = VPass <-> valid_bag v t (o_info b) (o_entries b)).
Proof.
  intros v t b ND H.
  destruct (open_plain_ok _ _ _ H) as (c & f & Rc & _ & Et & Ne & Cl & _).
  assert (Fb : is_file (U "bagit.txt") (o_tree b) = true) by (rewrite Et; apply is_file_read; eauto).
  unfold validate_plain. rewrite !andthen_pass, structure_pass, bom_pass, fetch_pass, oxum_pass, completeness_pass, check_entries_pass by (first [assumption|rewrite Et; assumption]).
  rewrite Et. split.
  - intros ((Hd & Hm) & Hb & Hf & Ho & (_ & H2) & He). constructor; auto.
    intros g P. apply key_has_sum; [exact Cl|]. unfold only_on_disk in H2. rewrite filter_nil in H2. rewrite Et in H2.
    apply od_has_iff. apply on_disk_iff in P; [|exact ND]. apply H2 in P. apply negb_false_iff in P. exact P.
  - intros [Hd Hm Hb Hf Ho Hl Hs]. split; [auto|]. split; [exact Hb|]. split; [exact Hf|]. split; [exact Ho|]. split; [|exact Hs].
    split; [unfold only_in_manifests|unfold only_on_disk]; apply filter_nil; rewrite ?Et; intros g I.
    + apply key_has_sum in I; [|exact Cl]. destruct I as (a & h & Cs). destruct (Hs _ _ _ Cs) as (cg & Rg & _).
      assert (Fg : is_file g t = true) by (apply is_file_read; eauto). rewrite Fg. destruct (is_payload g) eqn:Pg.
      * apply negb_false_iff, str_in_iff, on_disk_iff; [exact ND|]. split; assumption.
      * apply andb_false_r.
    + apply on_disk_iff in I; [|exact ND]. apply negb_false_iff, od_has_iff, key_has_sum; [exact Cl|]. apply Hl, I.
Qed.

(** A bag passes if and only if it is valid in the above sense. *)
Theorem C88_validates : forall v t b, wf_tree t -> open_plain v t = Ok b ->
  (validate_plain v b = VPass <-> valid_bag v t (o_info b) (o_entries b)).
Proof. intros v t b W. apply validates_iff, (wf_nodup _ W). Qed.

(** The manifests of [t'] are those of [t], as are bagit.txt's contents. *)
Definition same_manifests (t t' : tree) : Prop :=
  read (U "bagit.txt") t' = read (U "bagit.txt") t /\
  forall a, read (U "manifest-" ++ a ++ U ".txt") t' = read (U "manifest-" ++ a ++ U ".txt") t /\
            read (U "tagmanifest-" ++ a ++ U ".txt") t' = read (U "tagmanifest-" ++ a ++ U ".txt") t.

Lemma same_entries v t t' b b' : same_manifests t t' -> open_plain v t = Ok b -> open_plain v t' = Ok b' -> o_entries b' = o_entries b.
Proof.
  intros [Sb Sm] H H'. destruct (open_plain_ok _ _ _ H) as (c & f & Rc & Rv & _ & _ & _ & _ & L).
  destruct (open_plain_ok _ _ _ H') as (c' & f' & Rc' & Rv' & _ & _ & _ & _ & L'). unfold F_bagit in *.
  assert (c' = c) by congruence. subst c'. assert (Ev : o_version b' = o_version b) by congruence. rewrite Ev in L'.
  assert (E : bag_manifests (v_algos v) (from_097 (o_version b)) t' = bag_manifests (v_algos v) (from_097 (o_version b)) t).
  { unfold bag_manifests. cbv zeta. assert (X : forall k l, (k = K_man \/ k = K_tag) ->
      map (fun a => match read (man_name k a) t' with Some c => Some (a, c) | None => None end) l =
      map (fun a => match read (man_name k a) t with Some c => Some (a, c) | None => None end) l).
    { intros k l K. apply map_ext. intros a. assert (Y : read (man_name k a) t' = read (man_name k a) t) by (destruct K as [->| ->]; apply Sm).
      rewrite Y. reflexivity. }
    rewrite !X by auto. reflexivity. }
  rewrite E in L'. congruence.
Qed.

(** Once a bag passes, it does not any longer if a recorded file goes or gets
    contents with another checksum, or if a payload file is added, the
    manifests being the same. *)
Theorem C88_tampering : forall v t t' b b', wf_tree t -> wf_tree t' -> same_manifests t t' ->
  open_plain v t = Ok b -> validate_plain v b = VPass -> open_plain v t' = Ok b' ->
  (forall a f h c, checksum (o_entries b) a f = Some h -> read f t = Some c ->
     match read f t' with Some c' => v_hash v a c' <> v_hash v a c | None => True end ->
     validate_plain v b' <> VPass) /\
  (forall f, payload t' f -> ~ payload t f -> validate_plain v b' <> VPass).
Proof.
  intros v t t' b b' W W' Sm H P H'. pose proof (same_entries _ _ _ _ _ Sm H H') as E.
  rewrite (C88_validates _ _ _ W H) in P. split.
  - intros a f h c Cs Rf D P'. rewrite (C88_validates _ _ _ W' H') in P'. destruct P' as [_ _ _ _ _ _ Hs']. rewrite E in Hs'.
    destruct (Hs' _ _ _ Cs) as (c' & Rc' & E'). rewrite Rc' in D. destruct (vb_sums _ _ _ _ P _ _ _ Cs) as (c2 & Rc2 & E2).
    assert (c2 = c) by congruence. subst c2. apply D. congruence.
  - intros f Pf Nf P'. rewrite (C88_validates _ _ _ W' H') in P'. destruct (vb_listed _ _ _ _ P' _ Pf) as (a & h & Cs). rewrite E in Cs.
    destruct (vb_sums _ _ _ _ P _ _ _ Cs) as (c & Rc & _). apply Nf. split; [apply is_file_read; eauto|apply Pf].
Qed.

Definition ex_env : benv :=
  {| v_algos := [U "md5"; U "sha256"]; v_danger := fun _ => false; v_codec := fun e => streq e (U "UTF-8");
     v_url := fun u => if startswith u (U "http://a/") then Ok (U "http", U "a") else Ok ([], []);
     v_hash := fun a c => U "0a" ++ map (fun x => x mod 128) (if streq a (U "md5") then rev c else c) |}.

Definition ln (s : string) : pystr := U s ++ [LF].

Definition ex_bagit : pystr := ln "BagIt-Version: 0.97" ++ ln "Tag-File-Character-Encoding: UTF-8".
Definition ex_bag (oxum : string) (fetch f2 : pystr) : tree :=
  [(U "bagit.txt", NFile ex_bagit);
   (U "bag-info.txt", NFile (ln "Contact-Name: A" ++ U "Payload-Oxum: " ++ ln oxum));
   (U "fetch.txt", NFile fetch);
   (U "manifest-md5.txt", NFile (ln "0acba  data/one" ++ ln "0Aed  data/d/two"));
   (U "tagmanifest-sha256.txt", NFile (ln "0acba  about.txt"));
   (U "about.txt", NFile (U "cba"));
   (U "data", NDir); (U "data/one", NFile (U "abc")); (U "data/d", NDir); (U "data/d/two", NFile f2)].

Definition verdict_of (v : benv) (t : tree) : res verdict := let? b := open_plain v t in Ok (validate_plain v b).

Example C88_case :
  let good := ex_bag "5.2" (ln "http://a/x - data/y") (U "de") in
  let wrong := ex_bag "5.2" (ln "http://a/x - data/y") (U "dx") in
  wf_tree good /\ wf_tree wrong /\ same_manifests good wrong /\
  verdict_of ex_env good = Ok VPass /\ verdict_of ex_env wrong = Ok (VInvalid (U "Bag validation failed") [U "data/d/two"]) /\
  match open_plain ex_env good with
  | Ok b => checksum (o_entries b) (U "md5") (U "data/d/two") = Some (U "0Aed") /\
            tag_values (o_info b) (U "Payload-Oxum") = [U "5.2"]
  | Err _ => False
  end.
Proof.
  cbv zeta. split; [apply wf_treeb_ok; vm_compute; reflexivity|]. split; [apply wf_treeb_ok; vm_compute; reflexivity|].
  split; [|split; [vm_compute; reflexivity|split; [vm_compute; reflexivity|vm_compute; auto]]].
  split; [reflexivity|]. intros a. unfold read, ex_bag. cbn [od_get].
  assert (X : forall k, k = U "manifest-" ++ a ++ U ".txt" \/ k = U "tagmanifest-" ++ a ++ U ".txt" -> streq k (U "data/d/two") = false).
  { intros k [->| ->]; reflexivity. }
  rewrite !X by auto. split; reflexivity.
Qed.

Print Assumptions C88_validates.
Print Assumptions C88_tampering.

(** ** C89: validation ends with a verdict *)

(** The verdict is one that the validator of the library reports: valid, or
    not valid with a list of complaints. *)
Definition reported (x : verdict) : Prop := exists r, caught x = Ok r.

(** True of bags of version 0.97 or later whose fetch.txt and Payload-Oxum
    are well-formed. Missing for C89: other bags; see below. *)
Theorem C89_ends_partial : forall v t b, wf_tree t -> open_plain v t = Ok b -> from_097 (o_version b) = true ->
  (forall c line, read (U "fetch.txt") t = Some c -> In line (pylines IoText c) -> good_fetch_line v line) ->
  (forall s l, tag_values (o_info b) (U "Payload-Oxum") = s :: l -> exists x y n m, s = x ++ U "." ++ y /\ decimal x n /\ decimal y m) ->
  reported (validate_plain v b).
Proof.
  intros v t b W H V Hf Ho. pose proof (wf_nodup _ W) as ND.
  destruct (open_plain_ok _ _ _ H) as (c & f & Rc & _ & Et & Ne & Cl & _). rewrite <- Et in *.
  assert (Q : forall x y, reported x -> (x = VPass -> reported y) -> reported (andthen x y)).
  { intros x y X Y. destruct x; cbn [andthen]; auto. }
  unfold validate_plain. apply Q; [|intros _; apply Q; [|intros _; apply Q; [|intros _; apply Q; [|intros _; apply Q; [|intros Hc]]]]].
  - unfold check_structure. destruct (negb _); [eexists; reflexivity|]. destruct (manifest_files _ _); [eexists; reflexivity|].
    destruct (exists_ _ _); eexists; reflexivity.
  - unfold check_bagittxt. rewrite Rc. destruct c as [|x c]; [eexists; reflexivity|]. destruct (x =? BOM); eexists; reflexivity.
  - apply fetch_pass in Hf. rewrite Hf. eexists; reflexivity.
  - unfold check_oxum. unfold tag_values in Ho. change T_OXUM with (U "Payload-Oxum"). specialize (Ne (U "Payload-Oxum")).
    assert (X : forall s, (exists x y n m, s = x ++ U "." ++ y /\ decimal x n /\ decimal y m) -> reported (check_oxum_value (o_tree b) s)).
    { intros s (x & y & n & m & -> & Dx & Dy). unfold check_oxum_value.
      assert (Sp : split1 DOT (x ++ U "." ++ y) = Some (x, y)).
      { apply split1_iff. split; [reflexivity|]. intros I. destruct Dx as (_ & F & _). rewrite Forall_forall in F. apply F, digit_neq in I. tauto. }
      rewrite Sp, (decimal_isdigit _ _ Dx), (decimal_isdigit _ _ Dy), (py_int_decimal _ _ Dx), (py_int_decimal _ _ Dy). cbn [negb orb].
      destruct (_ && _); eexists; reflexivity. }
    destruct (od_get (U "Payload-Oxum") (o_info b)) as [[s|[|s l]]|]; [apply X, (Ho s []); reflexivity|congruence|apply X, (Ho s l); reflexivity|eexists; reflexivity].
  - unfold check_completeness. destruct (_ ++ _); eexists; reflexivity.
  - apply completeness_pass in Hc. destruct Hc as [Hc _]. unfold only_in_manifests in Hc. rewrite filter_nil in Hc.
    assert (X : forall l, incl l (o_entries b) -> exists ll, mapM (mismatches v (o_tree b)) l = Ok ll).
    { induction l as [|[p d] l IH]; intros I; [eexists; reflexivity|]. cbn [mapM]. destruct IH as [ll IH]; [intros z Iz; apply I; right; exact Iz|].
      rewrite IH. unfold mismatches at 1. cbn [fst snd].
      assert (Ip : In p (od_keys (o_entries b))) by (unfold od_keys; apply in_map_iff; exists (p, d); split; [reflexivity|apply I; left; reflexivity]).
      apply Hc in Ip. assert (Fp : is_file p (o_tree b) = true).
      { destruct (is_payload p).
        - apply negb_false_iff, str_in_iff, on_disk_iff in Ip; [apply Ip|exact ND].
        - rewrite V in Ip. cbn [andb] in Ip. apply negb_false_iff in Ip. exact Ip. }
      apply is_file_read in Fp. destruct Fp as (cp & Rp). rewrite Rp. cbn [bind]. eexists; reflexivity. }
    destruct (X (o_entries b)) as (ll & E); [apply incl_refl|]. unfold check_entries. rewrite E. destruct (concat ll); eexists; reflexivity.
Qed.

Example C89_case :
  let t := ex_bag "6.2" (ln "http://a/x - data/y") (U "de") in
  wf_tree t /\ verdict_of ex_env t = Ok (VInvalid (U "Payload-Oxum validation failed.") []) /\
  match open_plain ex_env t with
  | Ok b => from_097 (o_version b) = true /\ tag_values (o_info b) (U "Payload-Oxum") = [U "6.2"]
  | Err _ => False
  end.
Proof. cbv zeta. split; [apply wf_treeb_ok; vm_compute; reflexivity|]. split; [vm_compute; reflexivity|vm_compute; auto]. Qed.

(** A Payload-Oxum without a dot, one that is not made of numbers, a blank
    line in fetch.txt: in each case the validator raises something else than
    its report. The same in a bag of version 0.96 whose manifest lists a tag
    file that is not there. *)
Theorem C89_refuted :
  let old := [(U "bagit.txt", NFile (ln "BagIt-Version: 0.96" ++ ln "Tag-File-Character-Encoding: UTF-8"));
              (U "manifest-md5.txt", NFile (ln "0acba  about.txt")); (U "data", NDir)] in
  Forall (fun te => wf_tree (fst te) /\ exists b, open_plain ex_env (fst te) = Ok b /\ caught (validate_plain ex_env b) = Err (snd te))
    [(ex_bag "5" (ln "http://a/x - data/y") (U "de"), EValue);
     (ex_bag "5.x" (ln "http://a/x - data/y") (U "de"), EAttribute);
     (ex_bag "5.2" (ln "http://a/x - data/y" ++ [LF]) (U "de"), EValue);
     (ex_bag "5.2" (ln "x - data/y") (U "de"), EAttribute);
     (old, EOS)].
Proof.
  cbv zeta.
  assert (X : forall t e, match open_plain ex_env t with Ok b => caught (validate_plain ex_env b) = Err e | Err _ => False end ->
    exists b, open_plain ex_env t = Ok b /\ caught (validate_plain ex_env b) = Err e).
  { intros t e H. destruct (open_plain ex_env t) as [b|]; [eauto|destruct H]. }
  repeat (constructor; [cbn [fst snd]; split; [apply wf_treeb_ok; vm_compute; reflexivity|apply X; vm_compute; reflexivity]|]). constructor.
Qed.

(** Opening: a repeated BagIt-Version raises AttributeError, not BagError. *)
Theorem C89_open_refuted : exists v t, wf_tree t /\ open_plain v t = Err EAttribute /\
  read (U "bagit.txt") t = Some (ln "BagIt-Version: 0.97" ++ ln "BagIt-Version: 0.97" ++ ln "Tag-File-Character-Encoding: UTF-8").
Proof.
  exists ex_env, [(U "bagit.txt", NFile (ln "BagIt-Version: 0.97" ++ ln "BagIt-Version: 0.97" ++ ln "Tag-File-Character-Encoding: UTF-8"))].
  split; [apply wf_treeb_ok; vm_compute; reflexivity|]. split; vm_compute; reflexivity.
Qed.

Print Assumptions C89_ends_partial.
Print Assumptions C89_refuted.
Print Assumptions C89_open_refuted.

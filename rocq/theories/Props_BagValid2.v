(** * Properties of validating plain bags: C90

    Continues Props_BagValid.v: the bags made by splitting a valid bag. *)

Require Import String NArith ZArith PeanoNat Bool List Lia.
From Verif Require Import PyBase PyFacts Version Tsv TsvProofs Fs FsFacts HeadBag HeadBagProofs HeadBagProofs2 HeadBagProofs3 BagIt BagItProofs BagItProofs2 Split SplitProofs3 SplitApply SplitApplyProofs SplitApplyProofs2 SplitApplyProofs3 SplitApplyProofs4 SplitApplyProofs5 SplitApplyProofs6 SplitApplyProofs7 SplitApplyProofs8 SplitApplyProofs9 Props_SplitApply Props_SplitApply2 Props_SplitApply3 Validate BagValid BagValidProofs Props_BagValid.
Import ListNotations.
Open Scope N_scope.

Lemma decimal_dec n : decimal (dec n) n.
Proof.
  split; [|split].
  - apply dec_nonempty.
  - apply Forall_forall. intros c I. apply (proj1 (Forall_forall _ _) (dec_digits n) c I).
  - pose proof (py_int_dec n) as H. pose proof (dec_digits n) as D. pose proof (dec_nonempty n) as Ne.
    assert (X : decimal (dec n) (fold_left (fun a c => 10 * a + (c - 48)) (dec n) 0)) by (split; [exact Ne|split; [exact D|reflexivity]]).
    apply py_int_decimal in X. rewrite X in H. apply N2Z.inj. congruence.
Qed.

Lemma lower_bom h : hd 0 h = BOM -> hd 0 (lower h) = BOM.
Proof. destruct h as [|x h]; cbn [hd lower map]; [auto|]. intros ->. reflexivity. Qed.

(** The source was opened as a plain bag and is valid. *)
Record valid_source (v : benv) (s : source) (b : obag) : Prop := {
  vs_wf : wf_tree (so_tree s);
  vs_reader : so_reader s = IoText;
  vs_algos : so_algos s = v_algos v;
  vs_open : open_plain v (so_tree s) = Ok b;
  vs_info : so_info s = o_info b;
  vs_sums : so_entries s = o_entries b;
  vs_version : from_097 (o_version b) = true;
  vs_valid : validate_plain v b = VPass
}.

(** What the plan may list: not the files that the split writes itself, no
    fetch.txt, nothing outside of the bag, and no path that a manifest cannot
    express. *)
Record plain_plan (v : benv) (s : source) (p : plan) : Prop := {
  pp_once : Forall (fun m => NoDup (m_contents m)) (p_manifests p);
  pp_own : forall m f, In m (p_manifests p) -> In f (m_contents m) -> ~ own_file true f;
  pp_fetch : forall m, In m (p_manifests p) -> ~ In (U "fetch.txt") (m_contents m);
  pp_safe : forall m f, In m (p_manifests p) -> In f (m_contents m) -> v_danger v f = false;
  pp_path : forall m f, In m (p_manifests p) -> In f (m_contents m) ->
    (exists a, checksum (so_entries s) a f <> None) -> manifest_path IoText f
}.

Lemma version_097_file vi f : from_097 vi = true -> tag_file_name vi = Some f -> f = F_baginfo.
Proof.
  unfold tag_file_name, from_097. intros V. destruct (zs_le [0; 93]%Z vi && zs_le vi [0; 95]%Z) eqn:E.
  - exfalso. apply andb_true_iff in E. destruct E as [_ E]. unfold zs_le in *. destruct vi as [|a [|b vi]]; cbn [zs_lt zs_eq] in V, E.
    + discriminate.
    + rewrite !andb_false_r, !orb_false_r in *. destruct (Z.eqb_spec 0 a); [discriminate|]. destruct (Z.eqb_spec a 0); [lia|]. lia.
    + destruct (Z.eqb_spec 0 a), (Z.eqb_spec a 0); cbn [andb] in V, E; rewrite ?orb_false_r in *; try lia.
      destruct (Z.eqb_spec 97 b), (Z.eqb_spec b 95); cbn [andb] in V, E; rewrite ?orb_false_r in *; try lia.
  - destruct (zs_le _ _ && zs_lt _ _); [|discriminate]. intros H. injection H as <-. reflexivity.
Qed.

(** ** C90: the bags made by splitting a valid bag are valid *)

(** The bag was opened and passes the validation of plain bags. *)
Definition passes_plain (v : benv) (t : tree) : Prop :=
  exists b, open_plain v t = Ok b /\ validate_plain v b = VPass.

Lemma split_opens v s b o p it out bags :
  valid_source v s b -> NoDup (v_algos v) ->
  (forall a c x, In x (v_hash v a c) -> x < 128) ->
  plain_opts IoText o -> plain_plan v s p ->
  splits_into s o p it out bags -> Forall (fun n => no_brk IoText n) (map fst bags) ->
  opened s /\
  Forall (fun bt => exists b', open_plain v (snd bt) = Ok b' /\ validate_plain v b' = VPass /\
                               tags_of IoText (snd bt) = Ok (o_info b') /\ o_tree b' = snd bt) bags.
Proof.
  intros VS Na Hx Po PP Hs Fn. destruct VS as [W Er Ea Op Ei Ee V Va].
  pose proof (open_plain_ok _ _ _ Op) as (c & fi & Rc & Rv & Et & _ & Cl & Li & Lm). rewrite V in Lm.
  rewrite (C88_validates _ _ _ W Op) in Va.
  assert (Fi : fi = F_baginfo).
  { unfold read_version in Rv. apply bind_ok in Rv. destruct Rv as (kvs & _ & Rv). cbv zeta in Rv.
    destruct (od_get T_BagItVersion _) as [[vs|]|]; try discriminate; destruct (od_get T_Encoding _) as [enc|]; try discriminate.
    destruct (parse_version vs) as [vi|]; [|discriminate]. destruct (tag_file_name vi) as [f|] eqn:Tf; [|discriminate].
    destruct enc as [e|]; [|discriminate]. destruct (v_codec v e); [|discriminate]. injection Rv as E1 E2. rewrite E1 in Tf. rewrite E2 in Tf. eapply version_097_file; eassumption. }
  subst fi.
  assert (Ho : opened s).
  { unfold opened, tags_of. rewrite Er, Ei. unfold F_baginfo in Li. unfold exists_ in Li.
    destruct (read (U "bag-info.txt") (so_tree s)) as [ci|] eqn:Ri.
    - assert (F : is_file (U "bag-info.txt") (so_tree s) = true) by (apply is_file_read; eauto). rewrite F in Li. cbn [orb] in Li.
      destruct Li as (ci' & E & L). injection E as <-. exact L.
    - destruct (_ || _); [destruct Li as (ci' & E & _); discriminate|]. rewrite Li. reflexivity. }
  split; [exact Ho|].
  assert (Lo : checksums_loaded s).
  { exists (v_danger v), (from_1 (o_version b)). rewrite Er, Ea, Ee. exact Lm. }
  assert (Hb : forall a f h, checksum (so_entries s) a f = Some h -> hd 0 h <> BOM).
  { intros a f h C B. rewrite Ee in C. destruct (vb_sums _ _ _ _ Va _ _ _ C) as (cf & _ & E). apply lower_bom in B. rewrite E in B.
    specialize (Hx a cf). destruct (v_hash v a cf) as [|x l]; [discriminate|]. cbn [hd] in B. subst x. specialize (Hx BOM (or_introl eq_refl)). unfold BOM in Hx. lia. }
  assert (Na' : NoDup (so_algos s)) by (rewrite Ea; exact Na).
  assert (C28 := C28_checksums_partial s o p it out bags Na' Lo Hb Hs).
  assert (Hf' : forall m f, In m (p_manifests p) -> In f (m_contents m) ->
     (forall a, f <> U "manifest-" ++ a ++ U ".txt" /\ f <> U "tagmanifest-" ++ a ++ U ".txt") /\
     ((exists a, checksum (so_entries s) a f <> None) -> manifest_path (so_reader s) f)).
  { intros m f Im If. split; [|rewrite Er; apply (pp_path _ _ _ PP m f Im If)].
    intros a. split; intros ->; apply (pp_own _ _ _ PP m _ Im If); constructor. }
  specialize (C28 Hf').
  pose proof (C25_exact_copies s o p it out bags W Hs) as C25.
  assert (C29 := C29_oxum s o p it out bags Ho). rewrite Er in C29. specialize (C29 Po Hs Fn (pp_once _ _ _ PP)).
  apply made_split in Hs. destruct Hs as (ms0 & lu0 & ms' & lu' & _ & M & _). apply made_each in M.
  assert (Im : Forall (fun mh => In (fst mh) (p_manifests p)) (manifests p)).
  { apply Forall_forall. intros mh I. rewrite <- manifests_fst. apply in_map. exact I. }
  clear Fn Hf'. revert C28 C25 C29 M Im. generalize (manifests p). intros mhs C28.
  induction C28 as [|[m h] [bn t] mhs bts C C28 IH]; intros C25 C29 M Im; constructor.
  2:{ inversion C25; inversion C29; inversion M; inversion Im; subst. apply IH; auto. }
  clear IH. inversion C25 as [|? ? ? ? X _]; subst. inversion M as [|? ? ? ? (ms & lu & O) _]; subst. inversion Im as [|? ? I0 _]; subst.
  inversion C29 as [|? ? (d & Td & Vd) _]; subst.
  clear C25 M Im C28 C29. cbn [fst snd] in *.
  destruct O as (c' & Rc' & R & Rh). assert (c' = c) by congruence. subst c'.
  assert (Nt : NoDup (od_keys t)) by (eapply run_ops_nodup; [|exact R]; constructor).
  assert (Nown : forall f, In f (m_contents m) -> ~ own_file h f).
  { intros f If Ow. apply (pp_own _ _ _ PP m f I0 If). destruct Ow; constructor; auto. }
  destruct (C (v_danger v) (from_1 (o_version b))) as (e & Le & Ce).
  { intros _. apply (proj1 (Forall_forall _ _) (pp_once _ _ _ PP) m I0). }
  { intros f If. apply (pp_safe _ _ _ PP m f I0 If). }
  rewrite Er, Ea in Le.
  assert (Rb : read F_bagit t = Some c).
  { apply (read_bagit_gen s o bn m h ms lu c t R).
    - exact Rc. }
  assert (Fx : exists_ F_baginfo t = true /\ exists ci, read F_baginfo t = Some ci /\ load_tags IoText ci = Ok d).
  { pose proof R as R'. apply read_baginfo in R'. unfold tags_of in Td. change (U "bag-info.txt") with F_baginfo in *. rewrite R' in Td.
    split; [|eauto]. unfold exists_. assert (F : is_file F_baginfo t = true) by (apply is_file_read; eauto). rewrite F. reflexivity. }
  assert (Op' : open_plain v t = Ok {| o_tree := t; o_version := o_version b; o_info := d; o_entries := e |}).
  { unfold open_plain. rewrite Rb, Rv. cbn [bind]. destruct Fx as (-> & ci & -> & ->). cbn [bind]. rewrite V, Le. reflexivity. }
  eexists. split; [exact Op'|]. split; [|split; [exact Td|reflexivity]]. apply (validates_iff _ _ _ Nt Op'). cbn [o_info o_entries].
  destruct Va as [Hd Hm Hbm _ _ Hl Hsm]. constructor.
  - assert (Ex : exists_ (U "data") t = true).
    { apply (run_ops_dirp (U "data") _ _ _ R). right. apply Exists_exists. exists (OMkdir DATA). split; [left; reflexivity|reflexivity]. }
    unfold exists_ in Ex. apply orb_true_iff in Ex. destruct Ex as [Ex|Ex]; [|exact Ex]. exfalso. apply is_file_read in Ex. destruct Ex as (cd & Rd).
    destruct (ec_only _ _ _ _ X _ _ Rd) as [Ow|[_ R1]]; [inversion Ow|]. unfold is_dir in Hd. unfold read in R1.
    change (match od_get (U "data") (so_tree s) with Some NDir => true | _ => false end = true) in Hd.
    destruct (od_get (U "data") (so_tree s)) as [[|]|]; discriminate.
  - destruct Hm as (a & Ia & Fa). exists a. split; [exact Ia|].
    destruct (read (U "manifest-" ++ a ++ U ".txt") t) as [x|] eqn:Rx; [apply is_file_read; eauto|]. exfalso.
    rewrite (run_ops_read _ _ _ _ R) in Rx. revert Rx. apply touched_some. apply Exists_exists.
    exists (OWrite (man_name K_man a) []). split; [|reflexivity]. unfold bag_list. apply in_app_iff. left.
    unfold start_ops. right. apply (in_map (fun f => OWrite f [])). unfold manifest_files. rewrite Ea. apply filter_In. split; [apply in_map; exact Ia|exact Fa].
  - intros x Rx. apply Hbm. change (U "bagit.txt") with F_bagit in *. congruence.
  - intros x line Rx. exfalso. destruct (ec_only _ _ _ _ X _ _ Rx) as [Ow|[If _]]; [inversion Ow|]. apply (pp_fetch _ _ _ PP m I0 If).
  - intros x l Vx. rewrite Vd in Vx. destruct (_ && _); [|discriminate]. injection Vx as <- _. unfold oxum.
    exists (dec (sum_N (map (fun f => size_of f t) (payload_files t)))), (dec (N.of_nat (length (payload_files t)))), (payload_files t).
    split; [reflexivity|]. split; [apply (on_disk_list t Nt)|]. split; apply decimal_dec.
  - intros f [Ff Pf]. apply is_file_read in Ff. destruct Ff as (cf & Rf). destruct (ec_only _ _ _ _ X _ _ Rf) as [Ow|[If Rs]].
    + apply own_not_payload in Ow. unfold is_payload in Ow. congruence.
    + assert (Fs : is_file f (so_tree s) = true) by (apply is_file_read; eauto). destruct (Hl f) as (a & x & Cx); [split; assumption|].
      exists a, x. rewrite Ce, Fs. apply str_in_iff in If. rewrite If, Ee. exact Cx.
  - intros a f x Cx. rewrite Ce in Cx. destruct (str_in f (m_contents m) && is_file f (so_tree s)) eqn:Ef; [|discriminate].
    apply andb_true_iff in Ef. destruct Ef as [E1 _]. apply str_in_iff in E1. rewrite Ee in Cx.
    destruct (Hsm a f x Cx) as (cf & Rf & Hh). exists cf. split; [|exact Hh]. apply (ec_planned _ _ _ _ X); auto.
Qed.

(** Missing for C90: sources of a version before 0.97, and plans that are not
    plain (the split of a head bag is an example: see C72). *)
Theorem C90_split_valid_partial : forall v s b o p it out bags,
  valid_source v s b -> NoDup (v_algos v) ->
  (forall a c x, In x (v_hash v a c) -> x < 128) ->
  plain_opts IoText o -> plain_plan v s p ->
  splits_into s o p it out bags -> Forall (fun n => no_brk IoText n) (map fst bags) ->
  Forall (fun bt => passes_plain v (snd bt)) bags.
Proof.
  intros v s b o p it out bags VS Na Hx Po PP Hs Fn. destruct (split_opens v s b o p it out bags VS Na Hx Po PP Hs Fn) as [_ F].
  eapply Forall_impl; [|exact F]. intros bt (b' & H1 & H2 & _). exists b'. auto.
Qed.

(** A valid bag that is split in two. *)
Definition vs_tree : tree := ex_bag "5.2" [] (U "de").
Definition vs_bag : obag :=
  match open_plain ex_env vs_tree with
  | Ok b => b
  | Err _ => {| o_tree := []; o_version := []; o_info := []; o_entries := [] |}
  end.
Definition vs_source : source :=
  {| so_name := U "src"; so_tree := vs_tree; so_info := o_info vs_bag; so_algos := v_algos ex_env;
     so_entries := o_entries vs_bag; so_reader := IoText |}.
Definition vs_plan : plan :=
  {| p_bag := {| Split.b_name := U "src"; Split.b_tree := vs_tree; b_dirsize := fun _ => 0 |};
     p_manifests :=
       [{| m_name := Some (U "one"); m_contents := [U "data/one"; U "about.txt"]; m_total := 6 |};
        {| m_name := Some (U "two"); m_contents := [U "data/d/two"]; m_total := 2 |}] |}.
Definition vs_bags : dict tree :=
  match apply_plan vs_source ex_opts vs_plan None [] with Ok a => a_out a | Err _ => [] end.

Example C90_case :
  valid_source ex_env vs_source vs_bag /\ NoDup (v_algos ex_env) /\
  (forall a c x, In x (v_hash ex_env a c) -> x < 128) /\
  plain_opts IoText ex_opts /\ plain_plan ex_env vs_source vs_plan /\
  splits_into vs_source ex_opts vs_plan None [] vs_bags /\ map fst vs_bags = [U "one"; U "two"] /\
  Forall (fun n => no_brk IoText n) (map fst vs_bags) /\
  map (fun bt : pystr * tree => tag_values (got [] (tags_of IoText (snd bt))) (U "Payload-Oxum")) vs_bags = [[U "3.1"]; [U "2.1"]].
Proof.
  assert (L : forall m f, In m (p_manifests vs_plan) -> In f (m_contents m) -> In f [U "data/one"; U "about.txt"; U "data/d/two"]).
  { intros m f Im If. destruct Im as [<-|[<-|[]]]; cbn [m_contents] in If; cbn [In] in *; tauto. }
  assert (N3 : map fst vs_bags = [U "one"; U "two"]) by (vm_compute; reflexivity).
  split; [|split; [|split; [|split; [|split; [|split; [|split; [exact N3|split]]]]]]].
  - constructor; try reflexivity. apply wf_treeb_ok. vm_compute. reflexivity.
  - constructor; [intros [E|[]]; discriminate|]. constructor; [intros []|constructor].
  - intros a c x I. cbn [v_hash ex_env] in I. apply in_app_iff in I. destruct I as [[<-|[<-|[]]]|I]; [reflexivity|reflexivity|].
    apply in_map_iff in I. destruct I as (y & <- & _). apply N.mod_lt. discriminate.
  - split; [|constructor]. split; [right; apply trimmedb_ok; reflexivity|]. apply no_brk_b. reflexivity.
  - constructor.
    + repeat constructor; cbn [In]; intuition discriminate.
    + intros m f Im If Ow. apply (L m f Im) in If. destruct If as [<-|[<-|[<-|[]]]]; inversion Ow.
    + intros m Im If. apply (L m _ Im) in If. destruct If as [E|[E|[E|[]]]]; discriminate.
    + reflexivity.
    + intros m f Im If _. apply (L m f Im) in If. destruct If as [<-|[<-|[<-|[]]]]; constructor; try reflexivity;
        first [apply trimmedb_ok; reflexivity|apply no_brk_b; reflexivity|apply good_pathb_ok; reflexivity].
  - unfold vs_bags. destruct (apply_plan vs_source ex_opts vs_plan None []) as [a|e] eqn:E; [exists a; auto|vm_compute in E; discriminate].
  - rewrite N3. repeat constructor.
  - vm_compute. reflexivity.
Qed.

Print Assumptions C90_split_valid_partial.

(** C141: keeping the lists of a head bag changes nothing outside of the bag. *)

Require Import String NArith PeanoNat Bool List Lia.
From Verif Require Import PyBase PyFacts Tsv TsvProofs Fs FsFacts HeadBag HeadBagProofs3 BagIt BagItProofs
  Props_BagIt Query Props_Query Props_RestoreSetup SaveWhere.
From Verif Require TagDir.
Import ListNotations.
Open Scope N_scope.

(** ** Specification *)

(** Where a tag directory named [td] is, for a bag at [dir]. *)
Definition leads_to (dir : loc) (td : pystr) : loc :=
  if startswith td [SLASH] then resolve [] td else resolve dir td.

(** [l] is in the directory at [dir], or is that directory. *)
Definition within (dir l : loc) : Prop := exists rest, l = dir ++ rest.

Definition list_files : list pystr := [U "member-bags.tsv"; U "file-lookup.tsv"; U "deleted.txt"].

(** ** Proofs *)

Lemma names_normpath_abs p : abs_path p -> names (normpath p) = resolve [] p.
Proof.
  intros A. rewrite normpath_abs by exact A. apply names_join_abs.
  - apply resolve_names. constructor.
  - apply initial_slashes_cases. exact A.
Qed.

Lemma resolve_join bag td : abs_path bag ->
  resolve [] (os_join bag td) = leads_to (resolve [] bag) td.
Proof.
  intros A. unfold leads_to. destruct (startswith td [SLASH]) eqn:E.
  - unfold os_join. rewrite E. reflexivity.
  - rewrite <- names_normpath_abs by (apply os_join_absolute; exact A).
    rewrite normpath_join_abs by auto. apply names_join_abs.
    + apply resolve_names, resolve_names. constructor.
    + apply initial_slashes_cases. exact A.
Qed.

Lemma tagdir_leads bag dir td : at_dir bag dir -> tagdir_at bag td = leads_to dir td.
Proof.
  intros [A <-]. unfold tagdir_at. rewrite names_normpath_abs by (apply os_join_absolute; exact A).
  apply resolve_join. exact A.
Qed.

Lemma tagfile_leads bag dir td f : at_dir bag dir -> In f list_files ->
  tagfile_at bag td f = leads_to dir td ++ [f].
Proof.
  intros [A <-] F. unfold tagfile_at.
  rewrite names_normpath_abs by (apply os_join_absolute, os_join_absolute; exact A).
  rewrite resolve_join by (apply os_join_absolute; exact A). rewrite resolve_join by exact A.
  destruct F as [<-|[<-|[<-|[]]]]; reflexivity.
Qed.

Lemma put_same dk l n : put dk l n l = n.
Proof. unfold put. destruct (loc_eq_dec l l); congruence. Qed.
Lemma put_other dk l n l' : l' <> l -> put dk l n l' = dk l'.
Proof. unfold put. destruct (loc_eq_dec l' l); congruence. Qed.

Lemma mkdir_other l dk l' : l' <> l -> fst (mkdir l dk) l' = dk l'.
Proof.
  intros D. unfold mkdir. destruct (dk l); [reflexivity|].
  destruct (dk (removelast l)) as [[|]|]; cbn [fst]; auto using put_other.
Qed.
Lemma write_other l t dk l' : l' <> l -> fst (write l t dk) l' = dk l'.
Proof.
  intros D. unfold write. destruct (dk l) as [[|]|]; [reflexivity| |];
    destruct (dk (removelast l)) as [[|]|]; cbn [fst]; auto using put_other.
Qed.
Lemma remove_other l dk l' : l' <> l -> fst (remove l dk) l' = dk l'.
Proof. intros D. unfold remove. destruct (dk l) as [[|]|]; cbn [fst]; auto using put_other. Qed.

Lemma ensure_other bag td dk l' : l' <> tagdir_at bag td -> fst (ensure_tagdir bag td dk) l' = dk l'.
Proof. intros D. unfold ensure_tagdir. destruct (dk (tagdir_at bag td)); [reflexivity|apply mkdir_other; exact D]. Qed.

Lemma next_other (d : done) k l n : fst d l = n -> (forall dk, dk l = n -> fst (k dk) l = n) -> fst (next d k) l = n.
Proof. destruct d as [dk [e|]]; cbn [next fst]; auto. Qed.

Lemma run_other bag dir td c dk l : at_dir bag dir ->
  l <> leads_to dir td -> (forall f, In f list_files -> l <> leads_to dir td ++ [f]) ->
  fst (run bag td c dk) l = dk l.
Proof.
  intros A D F.
  assert (D' : l <> tagdir_at bag td) by (rewrite (tagdir_leads bag dir td A); exact D).
  assert (F' : forall f, In f list_files -> l <> tagfile_at bag td f).
  { intros f Hf. rewrite (tagfile_leads bag dir td f A Hf). apply F. exact Hf. }
  assert (M : l <> tagfile_at bag td f_members) by (apply F'; left; reflexivity).
  assert (L : l <> tagfile_at bag td f_lookup) by (apply F'; right; left; reflexivity).
  assert (X : l <> tagfile_at bag td f_deleted) by (apply F'; right; right; left; reflexivity).
  destruct c as [t|t|e t|]; unfold run.
  - apply next_other; [apply ensure_other; exact D'|]. intros dk1 <-. apply write_other. exact M.
  - apply next_other; [apply ensure_other; exact D'|]. intros dk1 <-. apply write_other. exact L.
  - apply next_other.
    + destruct (e && _); [apply remove_other; exact X|reflexivity].
    + intros dk1 E1. apply next_other; [rewrite <- E1; apply ensure_other; exact D'|].
      intros dk2 <-. apply write_other. exact X.
  - destruct (dk (tagfile_at bag td f_lookup)); [apply remove_other; exact L|reflexivity].
Qed.

(** ** The theorems *)

(** Whatever the tag directory is called and however the calls end, only
    that directory and the three lists in it change. *)
Theorem C141_only_lists : forall bag dir td calls dk l,
  at_dir bag dir -> l <> leads_to dir td -> (forall f, In f list_files -> l <> leads_to dir td ++ [f]) ->
  run_all bag td calls dk l = dk l.
Proof.
  intros bag dir td calls dk l A D F. unfold run_all. revert dk.
  induction calls as [|c cs IH]; intros dk; [reflexivity|]. cbn [fold_left].
  rewrite IH. apply (run_other bag dir td c dk l A D F).
Qed.

(** So nothing outside of the bag changes if the name leads into it. *)
Theorem C141_confined_partial : forall bag dir td calls dk l,
  at_dir bag dir -> within dir (leads_to dir td) -> ~ within dir l ->
  run_all bag td calls dk l = dk l.
Proof.
  intros bag dir td calls dk l A [rest E] O. apply (C141_only_lists bag dir td calls dk l A).
  - intros ->. apply O. exists rest. exact E.
  - intros f _ ->. apply O. exists (rest ++ [f]). rewrite E, <- app_assoc. reflexivity.
Qed.

(** A name that leads elsewhere is followed there: every directory of the
    system can be named, and its files of these names are replaced. *)
Theorem C141_followed : forall bag dir td text dk,
  at_dir bag dir -> dk (leads_to dir td) = Some NDir ->
  dk (leads_to dir td ++ [U "member-bags.tsv"]) <> Some NDir ->
  run bag td (SaveMembers text) dk = (put dk (leads_to dir td ++ [U "member-bags.tsv"]) (Some (NFile text)), None).
Proof.
  intros bag dir td text dk A D N0. unfold run, ensure_tagdir. rewrite (tagdir_leads bag dir td A), D. cbn [next].
  unfold f_members. rewrite (tagfile_leads bag dir td _ A) by (left; reflexivity).
  unfold write. rewrite removelast_last, D.
  destruct (dk (leads_to dir td ++ [U "member-bags.tsv"])) as [[|]|]; [exfalso; apply N0; reflexivity|reflexivity|reflexivity].
Qed.

(** Absolute names reach every directory at all, whatever the bag. *)
Theorem C141_any_directory : forall dir target, Forall name_ok target ->
  (forall w, In w target -> w <> [DOT] /\ w <> [DOT; DOT]) ->
  exists td, leads_to dir td = target.
Proof.
  intros dir target Ok Pl. exists ([SLASH] ++ join [SLASH] target).
  unfold leads_to.
  replace (startswith ([SLASH] ++ join [SLASH] target) [SLASH]) with true
    by (cbn [app startswith]; rewrite N.eqb_refl; destruct (join [SLASH] target); reflexivity).
  unfold resolve. cbn [app split_on]. rewrite N.eqb_refl. cbn [fold_left].
  change (step_into [] []) with (@nil pystr).
  destruct target as [|a target]; [reflexivity|].
  rewrite split_join; [|discriminate|].
  - assert (K : forall l acc, Forall name_ok l -> (forall w, In w l -> w <> [DOT] /\ w <> [DOT; DOT]) ->
        fold_left step_into l acc = acc ++ l).
    { induction l as [|w l IH]; intros acc O P; [rewrite app_nil_r; reflexivity|]. cbn [fold_left].
      inversion O as [|? ? [O1 _] O2]; subst. destruct (P w (or_introl eq_refl)) as [P1 P2].
      unfold step_into at 2. destruct (streq_reflect w []); [contradiction|].
      destruct (streq_reflect w [DOT]); [contradiction|]. destruct (streq_reflect w [DOT; DOT]); [contradiction|].
      cbn [orb]. rewrite IH by (auto; intros w' H; apply P; right; exact H).
      rewrite <- app_assoc. reflexivity. }
    apply (K (a :: target) []); assumption.
  - eapply Forall_impl; [|exact Ok]. intros b [_ Hb]. exact Hb.
Qed.

Lemma asked_leads dir td f : td <> [] -> startswith td [SLASH] = false -> In f list_files ->
  startswith (asked td f) [SLASH] = false /\ resolve dir (asked td f) = resolve dir td ++ [f].
Proof.
  intros Ne R F. unfold asked. cbn [join app]. split.
  - destruct td as [|c td]; [congruence|]. revert R. cbn [app startswith].
    destruct (SLASH =? c); cbn [andb]; [destruct td; discriminate|auto].
  - unfold resolve.
    rewrite split_on_app_gen, fold_left_app.
    destruct F as [<-|[<-|[<-|[]]]]; reflexivity.
Qed.

(** What is saved into the bag is what is then read from it. *)
Theorem C141_read_back : forall bag dir td text dk dk',
  at_dir bag dir -> dir <> [] -> td <> [] -> startswith td [SLASH] = false -> within dir (leads_to dir td) ->
  (run bag td (SaveMembers text) dk = (dk', None) -> dir_open dk' bag (asked td (U "member-bags.tsv")) = Ok text) /\
  (run bag td (SaveLookup text) dk = (dk', None) -> dir_open dk' bag (asked td (U "file-lookup.tsv")) = Ok text) /\
  (forall e, run bag td (SaveDeleted e text) dk = (dk', None) -> dir_open dk' bag (asked td (U "deleted.txt")) = Ok text).
Proof.
  intros bag dir td text dk dk' A Nd Nt R [rest E]. unfold leads_to in E. rewrite R in E.
  assert (W : forall l dk1 dk2, write l text dk1 = (dk2, None) -> dk2 l = Some (NFile text)).
  { intros l dk1 dk2. unfold write. destruct (dk1 l) as [[|]|]; [discriminate| |];
      (destruct (dk1 (removelast l)) as [[|]|]; try discriminate; intros H; injection H as <-; apply put_same). }
  assert (O : forall f, In f list_files -> dk' (tagfile_at bag td f) = Some (NFile text) ->
     dir_open dk' bag (asked td f) = Ok text).
  { intros f F H. destruct (asked_leads dir td f Nt R F) as [A1 A2].
    destruct (canon_inside bag dir (asked td f) A Nd A1) as (q & Q1 & Q2).
    - exists (rest ++ [f]). rewrite A2, E, <- app_assoc. reflexivity.
    - unfold dir_open. rewrite Q1, Q2, A2. rewrite (tagfile_leads bag dir td f A F) in H.
      unfold leads_to in H. rewrite R in H. rewrite H. reflexivity. }
  assert (K : forall f dk1, next (ensure_tagdir bag td dk1) (write (tagfile_at bag td f) text) = (dk', None) ->
     dk' (tagfile_at bag td f) = Some (NFile text)).
  { intros f dk1. destruct (ensure_tagdir bag td dk1) as [dk2 [x|]]; cbn [next]; [discriminate|]. apply W. }
  repeat split.
  - intros H. apply O; [left; reflexivity|]. apply (K f_members dk). exact H.
  - intros H. apply O; [right; left; reflexivity|]. apply (K f_lookup dk). exact H.
  - intros e H. apply O; [right; right; left; reflexivity|]. unfold run in H.
    destruct (e && _).
    + destruct (remove (tagfile_at bag td f_deleted) dk) as [dk1 [x|]]; cbn [next] in H; [discriminate|].
      apply (K f_deleted dk1). exact H.
    + cbn [next] in H. apply (K f_deleted dk). exact H.
Qed.

(** What is saved elsewhere is not: the reading methods refuse the path,
    whatever is there, unless it is in a directory beside the bag whose name
    begins with the name of the bag (see C54). *)
Theorem C141_not_found : forall bag D d td f dk,
  at_dir bag (D ++ [d]) -> td <> [] -> startswith td [SLASH] = false -> In f list_files ->
  (forall x rest, leads_to (D ++ [d]) td ++ [f] <> D ++ (d ++ x) :: rest) ->
  dir_isfile dk bag (asked td f) = false /\ dir_exists dk bag (asked td f) = false.
Proof.
  intros bag D d td f dk [A R] Nt Rl F O. unfold leads_to in O. rewrite Rl in O.
  destruct (asked_leads (D ++ [d]) td f Nt Rl F) as [A1 A2].
  assert (K : canon_path bag (asked td f) = None).
  { destruct (canon_path bag (asked td f)) as [q|] eqn:Q; [|reflexivity]. exfalso.
    destruct (proj1 (canon_spec bag (asked td f) D d A R A1)) as (x & rest & H).
    - rewrite Q. discriminate.
    - rewrite A2 in H. exact (O x rest H). }
  unfold dir_isfile, dir_exists, dir_find. rewrite K. split; reflexivity.
Qed.

(** The property itself fails: bag-info.txt of a head bag that came from
    elsewhere names a directory of another bag, and the lists of that bag are
    replaced and removed. *)
Definition w_bag := U "/data/bags/got".
Definition w_td := U "../mine/multibag".
Definition w_disk : disk := fun l =>
  if loc_eq_dec l [U "data"; U "bags"; U "mine"; U "multibag"] then Some NDir
  else if loc_eq_dec l [U "data"; U "bags"; U "mine"; U "multibag"; U "member-bags.tsv"] then Some (NFile (U "mine.mbag0"))
  else if loc_eq_dec l [U "data"; U "bags"; U "mine"; U "multibag"; U "file-lookup.tsv"] then Some (NFile (U "data/x"))
  else None.

Theorem C141_refuted : exists bag dir td dk l l',
  at_dir bag dir /\ dir <> [] /\ ~ within dir l /\ ~ within dir l' /\
  dk l = Some (NFile (U "mine.mbag0")) /\ dk l' = Some (NFile (U "data/x")) /\
  run_all bag td [SaveMembers (U "got"); ClearLookup] dk l = Some (NFile (U "got")) /\
  run_all bag td [SaveMembers (U "got"); ClearLookup] dk l' = None.
Proof.
  exists w_bag, [U "data"; U "bags"; U "got"], w_td, w_disk,
    [U "data"; U "bags"; U "mine"; U "multibag"; U "member-bags.tsv"],
    [U "data"; U "bags"; U "mine"; U "multibag"; U "file-lookup.tsv"].
  split; [split; reflexivity|]. split; [discriminate|].
  split; [intros [r H]; discriminate H|]. split; [intros [r H]; discriminate H|].
  repeat split; vm_compute; reflexivity.
Qed.

(** With an empty name the lists are saved in the bag but looked for at the
    root of the file system. *)
Theorem C141_empty_name : forall bag dir text dk, at_dir bag dir ->
  dk dir = Some NDir -> dk (dir ++ [U "member-bags.tsv"]) <> Some NDir ->
  run bag [] (SaveMembers text) dk = (put dk (dir ++ [U "member-bags.tsv"]) (Some (NFile text)), None) /\
  asked [] (U "member-bags.tsv") = U "/member-bags.tsv".
Proof.
  intros bag dir text dk A D N0. split; [|reflexivity].
  apply (C141_followed bag dir [] text dk A D N0).
Qed.

(** A case for the hypotheses: a tag directory two levels down. *)
Example C141_case :
  at_dir w_bag [U "data"; U "bags"; U "got"] /\
  within [U "data"; U "bags"; U "got"] (leads_to [U "data"; U "bags"; U "got"] (U "meta/./multibag")) /\
  (let dk := put (put (fun _ => None) [U "data"; U "bags"; U "got"] (Some NDir))
                 [U "data"; U "bags"; U "got"; U "meta"] (Some NDir) in
   snd (run w_bag (U "meta/./multibag") (SaveMembers (U "b0")) dk) = None /\
   dir_open (run_all w_bag (U "meta/./multibag") [SaveMembers (U "b0")] dk) w_bag (U "meta/./multibag/member-bags.tsv") = Ok (U "b0")) /\
  (forall x rest, leads_to ([U "data"; U "bags"] ++ [U "got"]) w_td ++ [U "deleted.txt"] <> [U "data"; U "bags"] ++ (U "got" ++ x) :: rest) /\
  dir_isfile (run_all w_bag w_td [SaveMembers (U "got")] w_disk) w_bag (asked w_td (U "member-bags.tsv")) = false.
Proof.
  split; [split; reflexivity|]. split; [exists [U "meta"; U "multibag"]; reflexivity|].
  split; [split; vm_compute; reflexivity|]. split; [|vm_compute; reflexivity].
  intros x rest H. discriminate H.
Qed.

Print Assumptions C141_only_lists.
Print Assumptions C141_confined_partial.
Print Assumptions C141_followed.
Print Assumptions C141_any_directory.
Print Assumptions C141_read_back.
Print Assumptions C141_not_found.
Print Assumptions C141_refuted.
Print Assumptions C141_empty_name.

(** Names given to set_multibag_tag_dir (model: TagDir.v) are never absolute
    once they are set, and lead into the bag unless they have a "..". *)
Lemma step_join dir a b : ~ In SLASH b -> startswith a [SLASH] = false ->
  startswith (TagDir.os_join a b) [SLASH] = false /\ resolve dir (TagDir.os_join a b) = step_into (resolve dir a) b.
Proof.
  intros Nb Ra.
  assert (One : forall d, resolve d b = step_into d b).
  { intros d. unfold resolve. rewrite split_on_none by exact Nb. reflexivity. }
  assert (Two : forall a', resolve dir (a' ++ SLASH :: b) = step_into (resolve dir a') b).
  { intros a'. unfold resolve. rewrite split_on_app_gen, fold_left_app. fold (resolve dir a'). apply One. }
  destruct a as [|c a]; unfold TagDir.os_join.
  - split; [|apply One]. destruct b as [|c b]; [reflexivity|]. cbn [startswith].
    destruct (N.eqb_spec SLASH c) as [<-|Dc]; [exfalso; apply Nb; left; reflexivity|reflexivity].
  - assert (Hd : forall x, startswith ((c :: a) ++ x) [SLASH] = false).
    { intros x. revert Ra. cbn [app startswith].
      destruct (SLASH =? c); cbn [andb]; [destruct a; discriminate|auto]. }
    unfold TagDir.ends_slash. destruct (rev (c :: a)) as [|e r] eqn:E.
    + split; [apply Hd|]. apply (Two (c :: a)).
    + destruct (N.eqb_spec e SLASH) as [->|De]; (split; [apply Hd|]); [|apply (Two (c :: a))].
      assert (Ea : c :: a = rev r ++ [SLASH]).
      { rewrite <- (rev_involutive (c :: a)), E. reflexivity. }
      rewrite Ea, <- app_assoc. cbn [app]. rewrite Two, resolve_snoc. reflexivity.
Qed.

Theorem C141_set_name : forall dir d,
  startswith (TagDir.plain_dir d) [SLASH] = false /\
  (~ In [DOT; DOT] (split_on SLASH d) -> within dir (leads_to dir (TagDir.plain_dir d))).
Proof.
  intros dir d. unfold TagDir.plain_dir. pose proof (split_on_no_sep SLASH d) as H.
  destruct (split_on SLASH d) as [|a l]; [split; [reflexivity|intros _; exists []; symmetry; apply app_nil_r]|].
  inversion H as [|? ? Ha Hl]; subst. clear H.
  assert (R0 : startswith a [SLASH] = false).
  { destruct a as [|c a]; [reflexivity|]. cbn [startswith].
    destruct (N.eqb_spec SLASH c) as [<-|Dc]; [exfalso; apply Ha; left; reflexivity|reflexivity]. }
  assert (K : forall l acc, Forall (fun w => ~ In SLASH w) l -> startswith acc [SLASH] = false ->
     startswith (fold_left TagDir.os_join l acc) [SLASH] = false /\
     resolve dir (fold_left TagDir.os_join l acc) = fold_left step_into l (resolve dir acc)).
  { clear. induction l as [|b l IH]; intros acc F R; [split; [exact R|reflexivity]|]. cbn [fold_left].
    inversion F as [|? ? Fb Fl]; subst. destruct (step_join dir acc b Fb R) as [R1 E1].
    destruct (IH _ Fl R1) as [R2 E2]. split; [exact R2|]. rewrite E2, E1. reflexivity. }
  destruct (K l a Hl R0) as [K1 K2]. split; [exact K1|]. intros Nd. unfold leads_to. rewrite K1, K2.
  assert (W : forall cs acc, ~ In [DOT; DOT] cs -> within dir acc -> within dir (fold_left step_into cs acc)).
  { clear. induction cs as [|c cs IH]; intros acc N0 Hw; [exact Hw|]. cbn [fold_left]. apply IH.
    - intros X. apply N0. right. exact X.
    - unfold step_into. destruct (streq c [] || streq c [DOT]); [exact Hw|].
      destruct (streq_reflect c [DOT; DOT]) as [->|_]; [exfalso; apply N0; left; reflexivity|].
      destruct Hw as [r ->]. exists (r ++ [c]). rewrite app_assoc. reflexivity. }
  apply (W l); [intros X; apply Nd; right; exact X|].
  change (resolve dir a) with (fold_left step_into (split_on SLASH a) dir).
  rewrite split_on_none by exact Ha. apply (W [a]); [|exists []; symmetry; apply app_nil_r].
  intros [X|[]]. apply Nd. left. exact X.
Qed.

Example C141_set_name_case : TagDir.plain_dir (U "/etc//multibag") = U "etc/multibag" /\
  ~ In [DOT; DOT] (split_on SLASH (U "/etc//multibag")) /\
  leads_to [U "data"; U "got"] (TagDir.plain_dir (U "../mine/multibag")) = [U "data"; U "mine"; U "multibag"].
Proof.
  split; [vm_compute; reflexivity|]. split; [|vm_compute; reflexivity].
  vm_compute. intros [X|[X|[X|[X|[]]]]]; discriminate X.
Qed.

Print Assumptions C141_set_name.

(** The whole of the head bag validator: a bag passes exactly if it keeps the
    rules *)
Require Import String NArith PeanoNat Bool List Lia.
From Verif Require Import PyBase PyFacts Version Tsv TsvProofs Fs FsFacts HeadBag HeadBagProofs HeadBagProofs2 HeadBagProofs3 BagIt BagItProofs Split SplitApply Props_Restore3 Validate ValidateProofs Props_Validate.
Import ListNotations.
Open Scope N_scope.

(** ** C81: what it takes to pass *)

(** The values of an element of bag-info.txt. *)
Definition values (b : vbag) (k : string) : list pystr := tag_values (b_info b) (U k).
(** Tags as they are read from a file: lists have two values or more. *)
Definition read_tags (i : infod) : Prop := forall k l, od_get k i = Some (IList l) -> (2 <= length l)%nat.
(** Tests of type [ty] are asked for. *)
Definition asks (want ty : N) : Prop := N.land ty want <> 0.

(** The version of a deprecated head bag, and its name if it is given. *)
Definition deprecated (v : pystr) : pystr * option pystr :=
  match map strip (split_on 44 v) with
  | x :: y :: _ => (x, Some y)
  | [x] => (x, None)
  | [] => ([], None)
  end.
(** As the validator takes it: the same version or the same name. *)
Definition deprecates_own (b : vbag) (v : pystr) : Prop :=
  Some (fst (deprecated v)) = last_value (b_info b) "Multibag-Head-Version" \/ snd (deprecated v) = Some (b_name b).

Definition info_rules (u : pystr -> res (pystr * pystr)) (b : vbag) (want : N) (md : pystr) : Prop :=
  (asks want ERROR ->
     (exists v, values b "Multibag-Version" = [v] /\ v <> []) /\
     (values b "Multibag-Reference" = [] \/ values b "Multibag-Reference" = [[]] \/
      exists url scheme host, last_value (b_info b) "Multibag-Reference" = Some url /\ url <> [] /\ u url = Ok (scheme, host) /\ scheme <> [] /\ host <> []) /\
     (values b "Multibag-Tag-Directory" = [] \/ exists d, values b "Multibag-Tag-Directory" = [d] /\ d <> []) /\
     is_dir md (b_tree b) = true /\
     (forall first rest, values b "Multibag-Head-Deprecates" = first :: rest -> first <> [] ->
        forall v, In v (first :: rest) -> (length (split_on 44 v) <= 2)%nat) /\
     (forall el, In el ["Internal-Sender-Identifier"; "Internal-Sender-Description"; "Bag-Group-Identifier"]%string ->
        forall s, last_value (b_info b) el = Some s -> s <> [] -> ~ In [] (values b el))) /\
  (asks want WARN ->
     (length (values b "Multibag-Version") <= 1)%nat /\
     (exists v, values b "Multibag-Head-Version" = [v] /\ v <> []) /\
     (forall first rest, values b "Multibag-Head-Deprecates" = first :: rest -> first <> [] /\ forall v, In v (first :: rest) -> ~ deprecates_own b v)) /\
  (asks want REC ->
     values b "Multibag-Reference" <> [] /\ values b "Multibag-Reference" <> [[]] /\
     (forall el, In el ["Internal-Sender-Identifier"; "Internal-Sender-Description"; "Bag-Group-Identifier"]%string ->
        exists s, last_value (b_info b) el = Some s /\ s <> [])).

(** ** Passing so far *)

Definition passing (want : N) (r : vres) : Prop := forall i, In i (applied ALL r) -> asks want (i_type i) -> i_passed i = true.

Lemma passing_add want i ty p c r r' : add_issue i ty p c r = Ok r' -> (passing want r' <-> passing want r /\ (asks want ty -> p = true)).
Proof.
  intros H. unfold passing.
  assert (X : exists j, (forall x, In x (applied ALL r') <-> In x (applied ALL r) \/ x = j) /\ i_type j = ty /\ i_passed j = p).
  { unfold add_issue in H. eexists {| i_label := i_label i; i_type := ty; i_spec := i_spec i; i_passed := p; i_comments := i_comments i ++ c; i_pver := i_pver i |}.
    split; [|split; reflexivity]. intros x. rewrite !applied_all.
    destruct (ty =? ERROR); [|destruct (ty =? WARN); [|destruct (ty =? REC); [|discriminate]]]; inversion H; subst r'; cbn [vr_error vr_warn vr_rec]; rewrite !in_app_iff; cbn [In]; intuition. }
  destruct X as (j & X & Tj & Pj). split.
  - intros A. split; [intros x I; apply A; apply X; auto|]. intros W. rewrite <- Pj. apply A; [apply X; auto|rewrite Tj; exact W].
  - intros [A B] x I. apply X in I. destruct I as [I| ->]; [apply A; exact I|]. rewrite Tj, Pj. exact B.
Qed.
Lemma passing_rec want ty lab spec p c r r' : rec_issue ty lab spec p c r = Ok r' -> (passing want r' <-> passing want r /\ (asks want ty -> p = true)).
Proof. apply passing_add. Qed.

Lemma passing_bag b want r r' : bag_validate b want r = Ok r' -> (passing want r' <-> passing want r /\ (asks want ERROR -> b_plain b = Ok None)).
Proof.
  unfold bag_validate, has_bits, asks. rewrite (N.land_comm want). destruct (N.land ERROR want =? 0) eqn:E; cbn [negb]; intros H.
  - injection H as <-. apply N.eqb_eq in E. tauto.
  - apply bind_ok in H. destruct H as (c & Hc & H). apply (passing_add want) in H. rewrite H, Hc. unfold asks. destruct c; [|tauto].
    split; intros [A B]; (split; [exact A|]); intros C; specialize (B C); discriminate.
Qed.

Lemma ne_nonempty (s : pystr) : nonempty s = true <-> s <> [].
Proof. destruct s; cbn; split; congruence. Qed.

Lemma read_list b k l : read_tags (b_info b) -> od_get (U k) (b_info b) = Some (IList l) -> exists x y t, l = x :: y :: t.
Proof. intros T E. apply T in E. destruct l as [|x [|y t]]; cbn [length] in E; [lia..|eauto]. Qed.

Lemma values_get b k : values b k = match od_get (U k) (b_info b) with Some x => vals x | None => [] end.
Proof. unfold values, tag_values. destruct (od_get (U k) (b_info b)) as [[s|l]|]; reflexivity. Qed.

Lemma passing_version b ver want r r' : read_tags (b_info b) -> ver = version_of (b_info b) -> validate_version b ver r = Ok r' ->
  (passing want r' <-> passing want r /\ (asks want ERROR -> exists v, values b "Multibag-Version" = [v] /\ v <> []) /\
     (asks want WARN -> (length (values b "Multibag-Version") <= 1)%nat)).
Proof.
  intros T -> H. unfold validate_version, version_of in H. change T_Version with (U "Multibag-Version") in H. rewrite values_get.
  destruct (od_get (U "Multibag-Version") (b_info b)) as [x|] eqn:E.
  - apply bind_ok in H. destruct H as (r1 & H1 & H). apply (passing_rec want) in H1. destruct x as [s|l].
    + destruct s as [|c s]; cbn [truthy_val vals] in *.
      * injection H as <-. rewrite H1. split; [intros [A B]; split; [exact A|]; split; [intros C; specialize (B C); discriminate|cbn; lia]|].
        intros (A & B & C). split; [exact A|]. intros D. destruct (B D) as (v & Ev & Nv). congruence.
      * apply bind_ok in H. destruct H as (r2 & H2 & H). apply (passing_rec want) in H2. cbn [is_list] in *. apply (passing_add want) in H.
        unfold last_of in H. cbn [rev app] in H. rewrite streq_refl in H. rewrite H, H2, H1. cbn [negb length].
        split; [intros [[[A _] _] _]; split; [exact A|]; split; [intros _; exists (c :: s); split; [reflexivity|discriminate]|lia]|]. tauto.
    + destruct (read_list _ _ _ T E) as (a & a' & t & ->). cbn [truthy_val] in *. apply bind_ok in H. destruct H as (r2 & H2 & H). apply (passing_rec want) in H2. cbn [is_list] in *.
      apply (passing_add want) in H. rewrite H, H2, H1. cbn [negb vals length]. split.
      * intros [[[A _] B] C]. split; [exact A|]. split; [intros D; specialize (C D); discriminate|intros D; specialize (B D); discriminate].
      * intros (A & B & C). split; [split; [split; [exact A|reflexivity]|]|].
        -- intros D. specialize (C D). lia.
        -- intros D. destruct (B D) as (v & Ev & _). discriminate.
  - apply bind_ok in H. destruct H as (r1 & H1 & H). apply (passing_rec want) in H1. injection H as <-. rewrite H1. cbn [truthy_val length]. split.
    + intros [A B]. split; [exact A|]. split; [intros C; specialize (B C); discriminate|lia].
    + intros (A & B & C). split; [exact A|]. intros D. destruct (B D) as (v & Ev & _). discriminate.
Qed.

Lemma last_of_cons x l : exists y, last_of (x :: l) = Some y.
Proof.
  unfold last_of. destruct (rev (x :: l)) as [|y t] eqn:E; [|eauto]. apply (f_equal (@length _)) in E. rewrite rev_length in E. discriminate.
Qed.

Lemma last_value_get b k : last_value (b_info b) k = match od_get (U k) (b_info b) with Some x => last_of (vals x) | None => None end.
Proof. destruct (od_get (U k) (b_info b)) eqn:E; [apply last_value_vals; exact E|]. unfold last_value, tag_values. rewrite E. reflexivity. Qed.

Lemma passing_reference u b want r r' : read_tags (b_info b) -> validate_reference u b r = Ok r' ->
  (passing want r' <-> passing want r /\
     (asks want ERROR -> values b "Multibag-Reference" = [] \/ values b "Multibag-Reference" = [[]] \/
        exists url scheme host, last_value (b_info b) "Multibag-Reference" = Some url /\ url <> [] /\ u url = Ok (scheme, host) /\ scheme <> [] /\ host <> []) /\
     (asks want REC -> values b "Multibag-Reference" <> [] /\ values b "Multibag-Reference" <> [[]])).
Proof.
  intros T H. unfold validate_reference in H. change T_Reference with (U "Multibag-Reference") in H. rewrite values_get, last_value_get.
  destruct (od_get (U "Multibag-Reference") (b_info b)) as [x|] eqn:E.
  - apply bind_ok in H. destruct H as (r1 & H1 & H). apply (passing_rec want) in H1.
    assert (Tr : truthy_val (Some x) = true /\ (exists y, last_of (vals x) = Some y) /\ vals x <> [] /\ vals x <> [[]] \/ x = IStr []).
    { destruct x as [[|c s]|l]; [right; reflexivity| |].
      - left. split; [reflexivity|]. split; [apply last_of_cons|]. split; discriminate.
      - destruct (read_list _ _ _ T E) as (a & a' & t & ->). left. split; [reflexivity|]. split; [apply last_of_cons|]. split; discriminate. }
    destruct Tr as [(Tr & (y & Ly) & N1 & N2)| ->].
    + rewrite Tr in H, H1. rewrite Ly in H |- *. apply bind_ok in H. destruct H as (r2 & H2 & H). apply (passing_rec want) in H2. apply bind_ok in H. destruct H as ([sc ne] & Hu & H).
      apply (passing_rec want) in H. rewrite H, H2, H1. split.
      * intros [[[A _] B] C]. split; [exact A|]. split; [|tauto]. intros D. right. right. exists y, sc, ne. specialize (B D). specialize (C D).
        apply ne_nonempty in B. apply andb_prop in C. destruct C as [C1 C2]. apply ne_nonempty in C1, C2. auto.
      * intros (A & B & C). split; [split; [tauto|]|]; intros D; destruct (B D) as [X|[X|(url & sc' & h & E1 & E2 & E3 & E4 & E5)]]; try contradiction.
        -- injection E1 as ->. apply ne_nonempty. exact E2.
        -- injection E1 as ->. rewrite Hu in E3. injection E3 as -> ->. apply andb_true_intro. split; apply ne_nonempty; assumption.
    + cbn [truthy_val vals] in *. injection H as <-. rewrite H1. split.
      * intros [A B]. split; [exact A|]. split; [auto|]. intros D. specialize (B D). discriminate.
      * intros (A & _ & C). split; [exact A|]. intros D. destruct (C D) as [X1 X2]. exfalso. first [apply X1; reflexivity|apply X2; reflexivity].
  - apply bind_ok in H. destruct H as (r1 & H1 & H). apply (passing_rec want) in H1. injection H as <-. rewrite H1. cbn [truthy_val]. split.
    + intros [A B]. split; [exact A|]. split; [auto|]. intros D. specialize (B D). discriminate.
    + intros (A & _ & C). split; [exact A|]. intros D. destruct (C D) as [X1 X2]. exfalso. first [apply X1; reflexivity|apply X2; reflexivity].
Qed.

Lemma passing_tagdir b md want r r' : read_tags (b_info b) -> multibag_directory b md -> validate_tag_directory b r = Ok r' ->
  (passing want r' <-> passing want r /\
     (asks want ERROR -> (values b "Multibag-Tag-Directory" = [] \/ exists d, values b "Multibag-Tag-Directory" = [d] /\ d <> []) /\ is_dir md (b_tree b) = true)).
Proof.
  intros T Md H. unfold validate_tag_directory in H. change T_TagDir with (U "Multibag-Tag-Directory") in H.
  unfold multibag_directory in Md. fold (values b "Multibag-Tag-Directory") in Md. rewrite last_value_get in Md. rewrite values_get in *.
  destruct (od_get (U "Multibag-Tag-Directory") (b_info b)) as [x|] eqn:E.
  - apply bind_ok in H. destruct H as (r1 & H1 & H). apply (passing_rec want) in H1. unfold last_nonempty in *. destruct x as [s|l].
    + unfold last_of in *. cbn [vals rev app] in *. destruct s as [|c s]; cbn [nonempty] in *.
      * injection H as <-. rewrite H1. split; [intros [A B]; split; [exact A|]; intros D; specialize (B D); discriminate|].
        intros [A B]. split; [exact A|]. intros D. destruct (B D) as [[X|(d & X & Nd)] _]; [discriminate|]. congruence.
      * destruct Md as [[[X|X] _]|[X _]]; try discriminate. injection X as <-.
        apply bind_ok in H. destruct H as (r2 & H2 & H). apply (passing_rec want) in H2. apply (passing_rec want) in H. rewrite H, H2, H1. cbn [length Nat.eqb]. split.
        -- intros [[[A _] _] B]. split; [exact A|]. intros D. split; [right; exists (c :: s); split; [reflexivity|discriminate]|auto].
        -- intros [A B]. split; [tauto|]. intros D. destruct (B D). assumption.
    + destruct (read_list _ _ _ T E) as (a & a' & t & ->). cbn [vals] in *. destruct (last_of_cons a (a' :: t)) as (y & Ly). rewrite Ly in H, H1. destruct (nonempty y).
      * apply bind_ok in H. destruct H as (r2 & H2 & H). apply (passing_rec want) in H2. apply (passing_rec want) in H. rewrite H, H2, H1. cbn [length Nat.eqb]. split.
        -- intros [[[A _] B] _]. split; [exact A|]. intros D. specialize (B D). discriminate.
        -- intros [A B]. split; [split; [tauto|]|]; intros D; destruct (B D) as [[X|(d & X & _)] _]; discriminate.
      * injection H as <-. rewrite H1. split; [intros [A B]; split; [exact A|]; intros D; specialize (B D); discriminate|].
        intros [A B]. split; [exact A|]. intros D. destruct (B D) as [[X|(d & X & _)] _]; discriminate.
  - destruct Md as [[_ ->]|[X _]]; [|discriminate]. apply (passing_rec want) in H. rewrite H. split; intros [A B]; (split; [exact A|]); intros D; [split; [auto|auto]|apply B; exact D].
Qed.

Lemma passing_headversion b want r r' : read_tags (b_info b) -> od_has T_HeadVersion (b_info b) = true -> validate_head_version b r = Ok r' ->
  (passing want r' <-> passing want r /\ (asks want WARN -> exists v, values b "Multibag-Head-Version" = [v] /\ v <> [])).
Proof.
  intros T Hh H. unfold validate_head_version, od_has in *. change T_HeadVersion with (U "Multibag-Head-Version") in *. rewrite values_get.
  destruct (od_get (U "Multibag-Head-Version") (b_info b)) as [x|] eqn:E; [|discriminate].
  apply bind_ok in H. destruct H as (r1 & H1 & H). apply (passing_rec want) in H1. destruct x as [s|l]; cbn [vals] in *.
  - apply (passing_rec want) in H. rewrite H, H1. unfold last_nonempty, last_of. cbn [rev app length Nat.eqb]. rewrite ne_nonempty. split.
    + intros [[A B] _]. split; [exact A|]. intros D. exists s. auto.
    + intros [A B]. split; [split; [exact A|]|reflexivity]. intros D. destruct (B D) as (v & X & Nv). injection X as ->. exact Nv.
  - destruct (read_list _ _ _ T E) as (a & a' & t & ->). apply (passing_rec want) in H. rewrite H, H1. cbn [length Nat.eqb]. split.
    + intros [[A _] B]. split; [exact A|]. intros D. specialize (B D). discriminate.
    + intros [A B]. split; [split; [exact A|]|]; intros D; destruct (B D) as (v & X & Nv); discriminate.
Qed.

Lemma parts_length v : length (deprecated_parts v) = length (split_on 44 v).
Proof. unfold deprecated_parts. apply map_length. Qed.

Lemma self_iff b v h : last_value (b_info b) "Multibag-Head-Version" = Some h -> (deprecates_self b h v = true <-> deprecates_own b v).
Proof.
  intros L. unfold deprecates_self, deprecates_own, deprecated. rewrite L. change (deprecated_parts v) with (map strip (split_on 44 v)). destruct (map strip (split_on 44 v)) as [|x [|y t]] eqn:E; cbn [fst snd].
  - apply map_eq_nil in E. destruct (split_on_ne _ _ E).
  - rewrite streq_eq. split; [intros ->; left; reflexivity|]. intros [X|X]; [congruence|discriminate].
  - rewrite orb_true_iff, !streq_eq. split; (intros [X|X]; [left|right]); congruence.
Qed.

Lemma passing_deprecates b want r r' : read_tags (b_info b) -> validate_head_deprecates b r = Ok r' ->
  (passing want r' <-> passing want r /\
     (asks want ERROR -> forall first rest, values b "Multibag-Head-Deprecates" = first :: rest -> first <> [] ->
        forall v, In v (first :: rest) -> (length (split_on 44 v) <= 2)%nat) /\
     (asks want WARN -> forall first rest, values b "Multibag-Head-Deprecates" = first :: rest -> first <> [] /\ forall v, In v (first :: rest) -> ~ deprecates_own b v)).
Proof.
  intros T H. unfold validate_head_deprecates in H. change T_HeadDeprecates with (U "Multibag-Head-Deprecates") in *. rewrite values_get.
  destruct (od_get (U "Multibag-Head-Deprecates") (b_info b)) as [x|] eqn:E.
  2:{ injection H as <-. split; [intros A; split; [exact A|]; split; intros; discriminate|tauto]. }
  cbv zeta in H. destruct (nonempty _) eqn:Hn in H; [|discriminate].
  assert (Hv : exists h, last_value (b_info b) "Multibag-Head-Version" = Some h /\ (match od_get T_HeadVersion (b_info b) with
        | Some x => match last_of (vals x) with Some s => s | None => [] end | None => [] end) = h).
  { rewrite last_value_get. change T_HeadVersion with (U "Multibag-Head-Version") in *. destruct (od_get (U "Multibag-Head-Version") (b_info b)) as [y|]; [|discriminate].
    destruct (last_of (vals y)); [eauto|discriminate]. }
  destruct Hv as (h & Lh & Eh). rewrite Eh in H. clear Eh Hn.
  assert (V : exists first rest, vals x = first :: rest).
  { destruct x as [s|l]; [cbn [vals]; eauto|]. destruct (read_list _ _ _ T E) as (a & a' & t & ->). cbn [vals]. eauto. }
  destruct V as (first & rest & V). rewrite V in *. apply bind_ok in H. destruct H as (r1 & H1 & H). apply (passing_rec want) in H1.
  destruct (nonempty first) eqn:Nf.
  - apply bind_ok in H. destruct H as (r2 & H2 & H). apply (passing_rec want) in H2. apply bind_ok in H. destruct H as (r3 & H3 & H). apply (passing_rec want) in H3. apply (passing_rec want) in H.
    rewrite H, H3, H2, H1.
    assert (X1 : Nat.eqb (length (filter (fun val => Nat.ltb 2 (length (deprecated_parts val))) (first :: rest))) 0 = true <-> forall v, In v (first :: rest) -> (length (split_on 44 v) <= 2)%nat).
    { rewrite Nat.eqb_eq, length_zero_iff_nil. clear - b. split.
      - intros F v I. destruct (Nat.ltb 2 (length (split_on 44 v))) eqn:L; [|apply Nat.ltb_ge in L; exact L]. exfalso.
        assert (J : In v (filter (fun val => Nat.ltb 2 (length (deprecated_parts val))) (first :: rest))) by (apply filter_In; rewrite parts_length; auto). rewrite F in J. destruct J.
      - intros F. destruct (filter _ _) as [|v t] eqn:Q; [reflexivity|]. exfalso. assert (J : In v (v :: t)) by (left; reflexivity). rewrite <- Q in J.
        apply filter_In in J. destruct J as [J L]. apply F in J. rewrite parts_length in L. apply Nat.ltb_lt in L. lia. }
    assert (X2 : existsb nonempty (first :: rest) = true) by (cbn [existsb]; rewrite Nf; reflexivity).
    assert (X3 : negb (existsb (deprecates_self b h) (first :: rest)) = true <-> forall v, In v (first :: rest) -> ~ deprecates_own b v).
    { rewrite negb_true_iff. split.
      - intros F v I D. apply (self_iff _ _ _ Lh) in D. assert (J : existsb (deprecates_self b h) (first :: rest) = true) by (apply existsb_exists; eauto). congruence.
      - intros F. destruct (existsb (deprecates_self b h) (first :: rest)) eqn:Q; [|reflexivity]. apply existsb_exists in Q. destruct Q as (v & I & D). apply (self_iff _ _ _ Lh) in D. destruct (F v I D). }
    rewrite X1, X2, X3. apply ne_nonempty in Nf. split.
    + intros [[[[A _] B] _] C]. split; [exact A|]. split; intros D f t Q; injection Q as <- <-; auto.
    + intros (A & B & C). split; [split; [split; [tauto|]|reflexivity]|]; intros D.
      * apply (B D first rest); [reflexivity|exact Nf].
      * apply (C D first rest). reflexivity.
  - injection H as <-. rewrite H1. split.
    + intros [A B]. split; [exact A|]. split; intros D f t Q; injection Q as <- <-.
      * intros X. apply ne_nonempty in X. congruence.
      * specialize (B D). discriminate.
    + intros (A & _ & C). split; [exact A|]. intros D. destruct (C D first rest eq_refl) as [X _]. apply ne_nonempty in X. congruence.
Qed.

Lemma passing_recommended b el want r r' : read_tags (b_info b) -> recommended b el r = Ok r' ->
  (passing want r' <-> passing want r /\
     (asks want ERROR -> forall s, last_value (b_info b) el = Some s -> s <> [] -> ~ In [] (values b el)) /\
     (asks want REC -> exists s, last_value (b_info b) el = Some s /\ s <> [])).
Proof.
  intros T H. unfold recommended in H. cbv zeta in H. rewrite values_get, last_value_get. apply bind_ok in H. destruct H as (r1 & H1 & H). apply (passing_add want) in H1.
  destruct (od_get (U el) (b_info b)) as [[s|l]|] eqn:E.
  - cbn [vals]. unfold last_of. cbn [rev app]. destruct s as [|c s]; cbn [nonempty] in *.
    + injection H as <-. rewrite H1. split; [intros [A B]; split; [exact A|]; split; [intros _ s X; injection X as <-; congruence|intros D; specialize (B D); discriminate]|].
      intros (A & _ & C). split; [exact A|]. intros D. destruct (C D) as (s & X & Ns). injection X as <-. congruence.
    + apply (passing_add want) in H. rewrite H, H1. split.
      * intros [[A _] _]. split; [exact A|]. split; [intros _ s' _ _ [X|[]]; discriminate|]. intros _. exists (c :: s). split; [reflexivity|discriminate].
      * tauto.
  - destruct (read_list _ _ _ T E) as (a & a' & t & ->). cbn [vals]. unfold last_nonempty in *. destruct (last_of_cons a (a' :: t)) as (y & Ly). rewrite Ly in *. destruct (nonempty y) eqn:Ny.
    + apply (passing_add want) in H. rewrite H, H1. apply ne_nonempty in Ny.
      assert (X : forallb nonempty (a :: a' :: t) = true <-> ~ In [] (a :: a' :: t)).
      { rewrite forallb_forall. split; [intros F I; apply F in I; discriminate|]. intros F x I. apply ne_nonempty. intros ->. contradiction. }
      rewrite X. split.
      * intros [[A _] B]. split; [exact A|]. split; [intros D s _ _; apply B; exact D|]. intros _. exists y. auto.
      * intros (A & B & _). split; [tauto|]. intros D. apply (B D y eq_refl Ny).
    + injection H as <-. rewrite H1. split.
      * intros [A B]. split; [exact A|]. split; [intros _ s X Ns; injection X as <-; apply ne_nonempty in Ns; congruence|intros D; specialize (B D); discriminate].
      * intros (A & _ & C). split; [exact A|]. intros D. destruct (C D) as (s & X & Ns). injection X as <-. apply ne_nonempty in Ns. congruence.
  - injection H as <-. rewrite H1. split.
    + intros [A B]. split; [exact A|]. split; [discriminate|intros D; specialize (B D); discriminate].
    + intros (A & _ & C). split; [exact A|]. intros D. destruct (C D) as (s & X & Ns). discriminate.
Qed.

(** The rules for the member list and for the file lookup, if the multibag
    directory exists. *)
Definition member_rules (u : pystr -> res (pystr * pystr)) (b : vbag) (want : N) (md : pystr) : Prop :=
  let f := md ++ U "/" ++ (if old_profile b then U "group-members.txt" else U "member-bags.tsv") in
  (asks want ERROR -> exists text, read f (b_tree b) = Some text) /\
  forall text, read f (b_tree b) = Some text ->
    (asks want ERROR ->
       (old_profile b = true -> forall line, In line (text_lines text) -> (length (columns true line) <= 2)%nat) /\
       (forall line, In line (text_lines text) -> cell 1 (columns (old_profile b) line) <> [] ->
          exists scheme, u (cell 1 (columns (old_profile b) line)) = Ok (scheme, []) /\ scheme <> []) /\
       (exists l, names_listed (old_profile b) text = l ++ [b_name b])) /\
    (asks want WARN -> NoDup (names_listed (old_profile b) text)).

Definition lookup_rules (b : vbag) (want : N) (md : pystr) : Prop :=
  let f := md ++ U "/" ++ (if old_profile b then U "group-directory.txt" else U "file-lookup.tsv") in
  (asks want ERROR -> exists text, read f (b_tree b) = Some text) /\
  forall text, read f (b_tree b) = Some text ->
    (asks want ERROR ->
       (forall line, In line (text_lines text) -> length (lookup_columns (old_profile b) line) = 2%nat) /\
       (forall line, In line (text_lines text) -> cell 1 (lookup_columns (old_profile b) line) = b_name b ->
          is_file (cell 0 (lookup_columns (old_profile b) line)) (b_tree b) = true)) /\
    (asks want WARN -> NoDup (paths_listed (old_profile b) text)) /\
    (asks want REC -> forall p, is_file p (b_tree b) = true -> is_payload p = true -> ~ concealed p -> In p (paths_listed (old_profile b) text)).

Lemma is_file_read p t : is_file p t = true <-> exists c, read p t = Some c.
Proof. unfold is_file, read. destruct (od_get p t) as [[|c]|]; split; try discriminate; eauto; intros (c' & X); discriminate. Qed.

Lemma passing_members u b md want r r' : multibag_dir b = Ok md -> validate_member_bags u b (version_of (b_info b)) r = Ok r' ->
  (passing want r' <-> passing want r /\ (asks want ERROR -> is_dir md (b_tree b) = true) /\ (is_dir md (b_tree b) = true -> member_rules u b want md)).
Proof.
  intros X H. unfold validate_member_bags in H. rewrite X in H. cbn [bind] in H. apply bind_ok in H. destruct H as (r1 & H1 & H). apply (passing_rec want) in H1.
  destruct (is_dir md (b_tree b)) eqn:D; [|injection H as <-; rewrite H1; split; [intros [A B]; split; [exact A|]; split; [exact B|discriminate]|tauto]].
  unfold member_rules. rewrite old_spec. unfold validate_members_file in H. cbv zeta in H. apply bind_ok in H. destruct H as (r2 & H2 & H). apply (passing_rec want) in H2.
  set (f := sjoin md (if is_02 (version_of (b_info b)) then U "group-members.txt" else F_members)) in *.
  change (md ++ U "/" ++ (if is_02 (version_of (b_info b)) then U "group-members.txt" else U "member-bags.tsv")) with f. cbv zeta.
  rewrite is_file_read in H2. destruct (read f (b_tree b)) as [text|] eqn:R.
  - apply bind_ok in H. destruct H as (s & Hs & H). pose proof (members_model _ _ _ _ Hs) as M. unfold member_tests in M. rewrite old_spec in M. cbv zeta in M. destruct M as (M1 & M2 & M3 & M4 & M5).
    do 4 (apply bind_ok in H; let q := fresh "q" in let h := fresh "h" in destruct H as (q & h & H); apply (passing_rec want) in h). apply (passing_rec want) in H.
    rewrite H, h2, h1, h0, h, H2, H1, M1, M2, M3, M4, M5. clear H h2 h1 h0 h H2 H1 M1 M2 M3 M4 M5. split.
    + intros [[[[[[[A _] _] B1] B2] B3] B4] B5]. split; [exact A|]. split; [reflexivity|]. intros _. split; [eauto|]. intros text' E. injection E as <-.
      split; [|exact B5]. intros W. split; [|auto]. intros O. rewrite O in B1. apply (B1 W). reflexivity.
    + intros (A & _ & B). destruct (B eq_refl) as [B1 B2]. destruct (B2 text eq_refl) as [C1 C2].
      split; [split; [split; [split; [split; [split; [split; [exact A|reflexivity]|exact B1]|]|]|]|]|exact C2].
      * intros W O. destruct (C1 W) as (K & _). rewrite O in K |- *. apply K. reflexivity.
      * intros W. apply (C1 W).
      * intros W. destruct (C1 W) as (_ & _ & l & ->). apply in_or_app. right. left. reflexivity.
      * intros W. apply (C1 W).
  - injection H as <-. rewrite H2, H1. split.
    + intros [[A _] B]. split; [exact A|]. split; [reflexivity|]. intros _. split; [exact B|]. discriminate.
    + intros (A & _ & B). split; [split; [exact A|reflexivity]|]. apply B. reflexivity.
Qed.

Lemma passing_lookup b md want r r' : NoDup (od_keys (b_tree b)) -> multibag_dir b = Ok md -> validate_file_lookup b (version_of (b_info b)) r = Ok r' ->
  (passing want r' <-> passing want r /\ (asks want ERROR -> is_dir md (b_tree b) = true) /\ (is_dir md (b_tree b) = true -> lookup_rules b want md)).
Proof.
  intros Nd X H. unfold validate_file_lookup in H. rewrite X in H. cbn [bind] in H. apply bind_ok in H. destruct H as (r1 & H1 & H). apply (passing_rec want) in H1.
  destruct (is_dir md (b_tree b)) eqn:D; [|injection H as <-; rewrite H1; split; [intros [A B]; split; [exact A|]; split; [exact B|discriminate]|tauto]].
  unfold lookup_rules. rewrite old_spec. unfold validate_lookup_file in H. cbv zeta in H. apply bind_ok in H. destruct H as (r2 & H2 & H). apply (passing_rec want) in H2.
  set (f := sjoin md (if is_02 (version_of (b_info b)) then U "group-directory.txt" else F_lookup)) in *.
  change (md ++ U "/" ++ (if is_02 (version_of (b_info b)) then U "group-directory.txt" else U "file-lookup.tsv")) with f. cbv zeta.
  rewrite is_file_read in H2. destruct (read f (b_tree b)) as [text|] eqn:R.
  - apply bind_ok in H. destruct H as (s & Hs & H). pose proof (lookup_model _ _ _ Nd Hs) as M. unfold lookup_tests in M. rewrite old_spec in M. cbv zeta in M. destruct M as (M1 & M2 & M3 & M4).
    do 3 (apply bind_ok in H; let q := fresh "q" in let h := fresh "h" in destruct H as (q & h & H); apply (passing_rec want) in h).
    destruct (is_dir (U "data") (b_tree b)); [|discriminate]. apply (passing_rec want) in H.
    rewrite H, h1, h0, h, H2, H1, M1, M2, M3, M4. clear H h1 h0 h H2 H1 M1 M2 M3 M4. split.
    + intros [[[[[[A _] _] B1] B2] B3] B4]. split; [exact A|]. split; [reflexivity|]. intros _. split; [eauto|]. intros text' E. injection E as <-.
      split; [|auto]. intros W. split; [auto|]. intros line I E. apply (B2 W line I); [|exact E]. rewrite (B1 W line I). lia.
    + intros (A & _ & B). destruct (B eq_refl) as [B1 B2]. destruct (B2 text eq_refl) as (C1 & C2 & C3).
      split; [split; [split; [split; [split; [split; [exact A|reflexivity]|exact B1]|]|]|exact C2]|exact C3].
      * intros W. apply (C1 W).
      * intros W line I _. apply (C1 W). exact I.
  - injection H as <-. rewrite H2, H1. split.
    + intros [[A _] B]. split; [exact A|]. split; [reflexivity|]. intros _. split; [exact B|]. discriminate.
    + intros (A & _ & B). split; [split; [exact A|reflexivity]|]. apply B. reflexivity.
Qed.

(** The rule for aggregation-info.txt, from version 0.4 on. *)
Definition aggregation_rules (b : vbag) (want : N) (md : pystr) : Prop :=
  asks want ERROR -> last_value (b_info b) "Multibag-Version" <> Some (U "0.2") -> last_value (b_info b) "Multibag-Version" <> Some (U "0.3") ->
  forall text, read (md ++ U "/aggregation-info.txt") (b_tree b) = Some text -> exists tags, load_tags IoText text = Ok tags.

Lemma passing_aggregation b md want r r' : multibag_dir b = Ok md -> validate_aggregation_info b (version_of (b_info b)) r = Ok r' ->
  (passing want r' <-> passing want r /\ aggregation_rules b want md).
Proof.
  intros X H. unfold validate_aggregation_info in H. rewrite X in H. cbn [bind] in H. unfold aggregation_rules.
  assert (V : last_value (b_info b) "Multibag-Version" = version_of (b_info b)) by (rewrite last_value_get; reflexivity). rewrite V. clear V.
  change (md ++ U "/aggregation-info.txt") with (sjoin md (U "aggregation-info.txt")). set (f := sjoin md (U "aggregation-info.txt")) in *.
  destruct (is_02 (version_of (b_info b))) eqn:V2.
  { cbn [orb] in H. injection H as <-. split; [intros A; split; [exact A|]|tauto]. intros _ Z. exfalso. apply Z. unfold is_02 in V2.
    destruct (version_of (b_info b)) as [v|]; [|discriminate]. apply streq_eq in V2. rewrite V2. reflexivity. }
  destruct (match version_of (b_info b) with Some s => streq s (U "0.3") | None => false end) eqn:V3.
  { cbn [orb] in H. injection H as <-. split; [intros A; split; [exact A|]|tauto]. intros _ _ Z. exfalso. apply Z.
    destruct (version_of (b_info b)) as [v|]; [|discriminate]. apply streq_eq in V3. rewrite V3. reflexivity. }
  cbn [orb] in H. destruct (exists_ f (b_tree b)) eqn:Ex; cbn [negb] in H.
  - destruct (read f (b_tree b)) as [text|] eqn:R; [|discriminate]. destruct (load_tags IoText text) as [tags|e] eqn:L.
    + apply (passing_rec want) in H. rewrite H. split; [intros [A _]; split; [exact A|]; intros _ _ _ t E; injection E as <-; eauto|tauto].
    + destruct e; try discriminate. apply (passing_rec want) in H. rewrite H. split.
      * intros [A B]. split; [exact A|]. intros W. specialize (B W). discriminate.
      * intros [A B]. split; [exact A|]. intros W. destruct (B W) with (text := text) as (tags & E); [| |reflexivity|congruence].
        -- intros E. rewrite E in V2. discriminate.
        -- intros E. rewrite E in V3. discriminate.
  - injection H as <-. split; [intros A; split; [exact A|]|tauto]. intros _ _ _ text R. exfalso. assert (F : is_file f (b_tree b) = true) by (apply is_file_read; eauto). unfold exists_ in Ex. rewrite F in Ex. discriminate.
Qed.

(** Whenever validation ends with results, there is no problem among those
    asked for exactly if the bag keeps the rules. *)
Theorem C81_decides : forall u b target want r md,
  NoDup (od_keys (b_tree b)) -> read_tags (b_info b) -> multibag_directory b md ->
  head_validate u b target want = Ok r ->
  (ok r = true <->
     (asks want ERROR -> b_plain b = Ok None) /\ info_rules u b want md /\
     (is_dir md (b_tree b) = true -> member_rules u b want md /\ lookup_rules b want md) /\ aggregation_rules b want md).
Proof.
  intros u b target want r md Nd T Md H. destruct (head_validate_parts _ _ _ _ _ H) as (_ & _ & _ & _ & _ & _ & _ & W & Ty).
  rewrite (ok_all r Ty), W. change (forall i, In i (applied ALL r) -> N.land (i_type i) want <> 0 -> i_passed i = true) with (passing want r).
  destruct (head_dir _ _ _ _ _ H) as (x & X). rewrite (dir_spec _ _ _ X Md) in X. clear x.
  assert (Hh : od_has T_HeadVersion (b_info b) = true) by (unfold multibag_dir in X; cbv zeta in X; destruct (od_has T_HeadVersion (b_info b)); [reflexivity|]; match type of X with (if ?c then _ else _) = _ => destruct c end; discriminate X).
  unfold head_validate, head_validate_into in H.
  apply bind_ok in H. destruct H as (r1 & H1 & H). apply bind_ok in H. destruct H as (r2 & H2 & H). apply bind_ok in H. destruct H as (r3 & H3 & H).
  apply bind_ok in H. destruct H as (r4 & H4 & H). apply bind_ok in H. destruct H as (r5 & H5 & H). apply bind_ok in H. destruct H as (r6 & H6 & H).
  apply bind_ok in H. destruct H as (r7 & H7 & H). apply bind_ok in H. destruct H as (r8 & H8 & H). apply bind_ok in H. destruct H as (r9 & H9 & H).
  unfold validate_baginfo_recs in H7. apply bind_ok in H7. destruct H7 as (q1 & H71 & H7). apply bind_ok in H7. destruct H7 as (q2 & H72 & H7).
  rewrite (passing_aggregation _ _ want _ _ X H), (passing_lookup _ _ want _ _ Nd X H9), (passing_members _ _ _ want _ _ X H8),
    (passing_recommended _ _ want _ _ T H7), (passing_recommended _ _ want _ _ T H72), (passing_recommended _ _ want _ _ T H71),
    (passing_deprecates _ want _ _ T H6), (passing_headversion _ want _ _ T Hh H5), (passing_tagdir _ _ want _ _ T Md H4),
    (passing_reference _ _ want _ _ T H3), (passing_version _ _ want _ _ T eq_refl H2), (passing_bag _ want _ _ H1).
  assert (P0 : passing want (new_results target want CURRENT_VERSION)) by (intros i []).
  clear H1 H2 H3 H4 H5 H6 H71 H72 H7 H8 H9 H. unfold info_rules. split.
  - intros [[[[[[[[[[[[_ A1] [A2 A2']] [A3 A3']] A4] A5] [A6 A6']] [A7 A7']] [A8 A8']] [A9 A9']] [A10 A10']] [A11 A11']] A12].
    split; [exact A1|]. split; [split; [|split]|split; [intros Q; split; [exact (A10' Q)|exact (A11' Q)]|exact A12]].
    + intros E. split; [exact (A2 E)|]. split; [exact (A3 E)|]. split; [apply (A4 E)|]. split; [apply (A4 E)|]. split; [exact (A6 E)|].
      intros el [<-|[<-|[<-|[]]]]; [exact (A7 E)|exact (A8 E)|exact (A9 E)].
    + intros E. split; [exact (A2' E)|]. split; [exact (A5 E)|exact (A6' E)].
    + intros E. destruct (A3' E). split; [assumption|]. split; [assumption|]. intros el [<-|[<-|[<-|[]]]]; [exact (A7' E)|exact (A8' E)|exact (A9' E)].
  - intros (A1 & (I1 & I2 & I3) & A & A12).
    assert (J1 : forall el, In el ["Internal-Sender-Identifier"; "Internal-Sender-Description"; "Bag-Group-Identifier"]%string -> asks want ERROR ->
       forall s, last_value (b_info b) el = Some s -> s <> [] -> ~ In [] (values b el)) by (intros el I E; destruct (I1 E) as (_ & _ & _ & _ & _ & Z); exact (Z el I)).
    assert (J3 : forall el, In el ["Internal-Sender-Identifier"; "Internal-Sender-Description"; "Bag-Group-Identifier"]%string -> asks want REC ->
       exists s, last_value (b_info b) el = Some s /\ s <> []) by (intros el I E; destruct (I3 E) as (_ & _ & Z); exact (Z el I)).
    assert (D : asks want ERROR -> is_dir md (b_tree b) = true) by (intros E; apply (I1 E)).
    split; [|exact A12]. split; [split; [|split; [exact D|intros Q; apply (A Q)]]|split; [exact D|intros Q; apply (A Q)]].
    split; [|split; [apply J1; cbn; auto|apply J3; cbn; auto]]. split; [|split; [apply J1; cbn; auto|apply J3; cbn; auto]]. split; [|split; [apply J1; cbn; auto|apply J3; cbn; auto]].
    split; [|split; [intros E; destruct (I1 E) as (_ & _ & _ & _ & Z & _); exact Z|intros E; destruct (I2 E) as (_ & _ & Z); exact Z]].
    split; [|intros E; apply (I2 E)]. split; [|intros E; split; apply (I1 E)].
    split; [|split; [intros E; apply (I1 E)|intros E; destruct (I3 E) as (Z1 & Z2 & _); auto]].
    split; [|split; [intros E; apply (I1 E)|intros E; apply (I2 E)]]. auto.
Qed.
Print Assumptions C81_decides.

(** The hypotheses hold, and both outcomes occur. *)
Definition ex_full_info : infod :=
  [(U "Multibag-Version", IStr (U "0.4")); (U "Multibag-Head-Version", IStr (U "2")); (U "Multibag-Head-Deprecates", IList [U "1, older"; U "0.9"]);
   (U "Multibag-Reference", IStr (U "http://host/ref")); (U "Internal-Sender-Identifier", IList [U "a"; U "b"]); (U "Internal-Sender-Description", IStr (U "d"));
   (U "Bag-Group-Identifier", IStr (U "g"))].
Definition ex_full : vbag := ex_head (U "mine") ex_full_info [U "other"; tabbed [U "mine"; U "ark:/1"]] [tabbed [U "data/a"; U "mine"]; tabbed [U "data/s/b"; U "mine"]; tabbed [U "data/x"; U "other"]].
Definition ex_result_all (b : vbag) : vres := match head_validate ex_urlparse b (U "target") ALL with Ok r => r | Err _ => new_results [] 0 [] end.

Lemma read_tags_ok i : forallb (fun kv => match snd kv with IList l => Nat.leb 2 (length l) | _ => true end) i = true -> read_tags i.
Proof.
  intros H k l E. rewrite forallb_forall in H.
  assert (I : exists k', In (k', IList l) i).
  { clear H. induction i as [|[k' x] i IH]; [discriminate|]. cbn [od_get] in E. destruct (streq k k').
    - injection E as ->. exists k'. left. reflexivity.
    - destruct (IH E) as (k2 & I). exists k2. right. exact I. }
  destruct I as (k' & I). apply H in I. apply Nat.leb_le. exact I.
Qed.

Example C81_case :
  NoDup (od_keys (b_tree ex_full)) /\ read_tags (b_info ex_full) /\ multibag_directory ex_full (U "multibag") /\
  (head_validate ex_urlparse ex_full (U "target") ALL = Ok (ex_result_all ex_full) /\ ok (ex_result_all ex_full) = true) /\
  read_tags (b_info ex_good) /\ multibag_directory ex_good (U "multibag") /\
  (head_validate ex_urlparse ex_good (U "target") ALL = Ok (ex_result_all ex_good) /\ ok (ex_result_all ex_good) = false).
Proof.
  split; [apply nodupb_ok; vm_compute; reflexivity|]. split; [apply read_tags_ok; reflexivity|]. split; [left; split; [left|]; reflexivity|].
  split; [computed|]. split; [apply read_tags_ok; reflexivity|]. split; [left; split; [left|]; reflexivity|]. computed.
Qed.

(** ** C82: deprecating oneself *)

(** What it means: the version, and the name if there is one, are the own ones. *)
Definition deprecates_itself (b : vbag) (v : pystr) : Prop :=
  Some (fst (deprecated v)) = last_value (b_info b) "Multibag-Head-Version" /\
  match snd (deprecated v) with Some n => n = b_name b | None => True end.

(** Another head bag with the same version is taken for the bag itself. *)
Theorem C82_refuted : forall u b target want r v other,
  NoDup (od_keys (b_tree b)) -> read_tags (b_info b) -> head_validate u b target want = Ok r -> asks want WARN ->
  In v (values b "Multibag-Head-Deprecates") -> Some (fst (deprecated v)) = last_value (b_info b) "Multibag-Head-Version" ->
  snd (deprecated v) = Some other -> other <> b_name b ->
  ~ deprecates_itself b v /\ ok r = false.
Proof.
  intros u b target want r v other Nd T H W I V E No. split; [intros [_ X]; rewrite E in X; contradiction|].
  assert (Md : exists md, multibag_directory b md).
  { destruct (head_dir _ _ _ _ _ H) as (x & X). unfold multibag_dir in X. cbv zeta in X. change T_TagDir with (U "Multibag-Tag-Directory") in X.
    unfold multibag_directory. rewrite last_value_get. change (tag_values (b_info b) (U "Multibag-Tag-Directory")) with (values b "Multibag-Tag-Directory"). rewrite values_get.
    destruct (od_get (U "Multibag-Tag-Directory") (b_info b)) as [[[|c s]|l]|] eqn:G.
    - exists (U "multibag"). left. split; [right; reflexivity|reflexivity].
    - exists (c :: s). right. split; [reflexivity|discriminate].
    - destruct (read_list _ _ _ T G) as (a & a' & t & ->). cbn [truthy_val vals] in *. destruct (last_of_cons a (a' :: t)) as (y & Ly). rewrite Ly in *. exists y. right. split; [reflexivity|].
      intros ->. discriminate.
    - exists (U "multibag"). left. split; [left; reflexivity|reflexivity]. }
  destruct Md as (md & Md). destruct (ok r) eqn:O; [|reflexivity]. apply (C81_decides _ _ _ _ _ _ Nd T Md H) in O.
  destruct O as (_ & (_ & Wr & _) & _). destruct (Wr W) as (_ & _ & D). exfalso.
  destruct (values b "Multibag-Head-Deprecates") as [|first rest] eqn:Ed; [destruct I|]. destruct (D _ _ eq_refl) as [_ Z]. apply (Z v I). left. exact V.
Qed.
Print Assumptions C82_refuted.

Definition ex_same_version : vbag :=
  ex_head (U "mine") [(U "Multibag-Version", IStr (U "0.4")); (U "Multibag-Head-Version", IStr (U "1")); (U "Multibag-Head-Deprecates", IStr (U "1, other"))]
    [U "mine"] [tabbed [U "data/a"; U "mine"]].
Example C82_case :
  NoDup (od_keys (b_tree ex_same_version)) /\ read_tags (b_info ex_same_version) /\
  values ex_same_version "Multibag-Head-Deprecates" = [U "1, other"] /\ deprecated (U "1, other") = (U "1", Some (U "other")) /\
  last_value (b_info ex_same_version) "Multibag-Head-Version" = Some (U "1") /\
  (head_validate ex_urlparse ex_same_version (U "target") PROB = Ok (ex_result ex_same_version) /\ ok (ex_result ex_same_version) = false /\
   outcome (U "3-Head-Deprecates_notselfdep") (ex_result ex_same_version) = [(WARN, false)]).
Proof.
  split; [apply nodupb_ok; vm_compute; reflexivity|]. split; [apply read_tags_ok; reflexivity|]. split; [reflexivity|]. split; [reflexivity|]. split; [reflexivity|]. computed.
Qed.

(** A bag that deprecates itself is always reported. *)
Theorem C82_partial : forall u b target want r md v,
  NoDup (od_keys (b_tree b)) -> read_tags (b_info b) -> multibag_directory b md -> head_validate u b target want = Ok r -> asks want WARN ->
  In v (values b "Multibag-Head-Deprecates") -> deprecates_itself b v -> ok r = false.
Proof.
  intros u b target want r md v Nd T Md H W I [V _]. destruct (ok r) eqn:O; [|reflexivity]. apply (C81_decides _ _ _ _ _ _ Nd T Md H) in O.
  destruct O as (_ & (_ & Wr & _) & _). destruct (Wr W) as (_ & _ & D). exfalso.
  destruct (values b "Multibag-Head-Deprecates") as [|first rest] eqn:Ed; [destruct I|]. destruct (D _ _ eq_refl) as [_ Z]. apply (Z v I). left. exact V.
Qed.
Print Assumptions C82_partial.

(** Tags that are read from a file are of this kind. *)
Lemma loaded_read_tags r text i : load_tags r text = Ok i -> read_tags i.
Proof. intros L k l E. exact (Props_Restore3.load_shape _ _ _ L k l E). Qed.

(** Amending an aggregation (C41-C45) *)
Require Import String NArith PeanoNat Bool List Lia.
From Verif Require Import PyBase PyFacts Version Tsv TsvProofs Fs FsFacts HeadBag HeadBagProofs HeadBagProofs2 HeadBagProofs3 BagIt BagItProofs Split SplitApply SplitApplyProofs SplitApplyProofs5 SplitApplyProofs7 SplitApplyProofs8 Restore RestoreProofs RestoreProofs6 Props_SplitApply Props_Restore Props_Restore3 Amend AmendProofs AmendProofs2 AmendProofs3 AmendProofs4.
Import ListNotations.
Open Scope N_scope.

(** ** C41 *)

(** The arguments of an amendment that is to be read again: the new head bag
    [name] with files [t] was just opened for writing and has the tag directory
    [td], and the version, the tag directory and the versions the amendee
    deprecates are plain one-line values. *)
Definition amendment (bsize : tree -> pystr) (repr : list pystr -> pystr) (old new : hb)
    (name : pystr) (t : tree) (td version : pystr) : Prop :=
  plain_size bsize /\
  (exists i, tags_of Codecs t = Ok i /\ new = open_hb name t i Codecs /\ tag_dir_raw i = Ok td) /\
  NoDup (od_keys t) /\ tag_value_ok Codecs td /\ version <> [] /\ tag_value_ok Codecs version /\
  Forall (tag_value_ok Codecs) (deprecates repr (hb_info old)).

(** The members that the new head bag takes over. *)
Definition members_of (old : hb) (ms : list minfo) : Prop :=
  (is_head old = true /\ iter_member_bags old = Ok ms) \/
  (is_head old = false /\ ms = [{| Tsv.m_name := hb_name old; m_uri := None; m_comment := None; m_info := [] |}]).

Lemma members_of_unique old ms ms' : members_of old ms -> old_members old ms' -> ms' = ms.
Proof. unfold members_of, old_members, plain_member. intros [[-> E]|[-> ->]] H; congruence. Qed.

(** The entry of an amendment in the member list. *)
Definition entry_of (b : abag) : minfo :=
  {| Tsv.m_name := s_name (ab_src b); m_uri := ab_pid b; m_comment := ab_comment b; m_info := ab_info b |}.

Theorem C41_members : forall v algs bsize repr ro old bags own inc exc version new new' old' name t td ms,
  amendment bsize repr old new name t td version -> members_of old ms ->
  amend v algs bsize repr false ro old bags own inc exc version new = (new', Ok old') ->
  forall r, Forall (storable_member r) (ms ++ map entry_of bags ++ [own name]) ->
  exists i, tags_of r (hb_tree new') = Ok i /\
    tag_values i (U "Multibag-Head-Version") = [version] /\
    iter_member_bags (open_hb name (hb_tree new') i r) = Ok (last_ones (ms ++ map entry_of bags ++ [own name])).
Proof.
  intros v algs bsize repr ro old bags own inc exc version new new' old' name t td ms (B & (i & Ti & En & Td) & D & Tv & Nv & Vv & Fd) Hm H r F.
  destruct (amend_disk v algs bsize repr ro old bags own inc exc version new new' old' name t td B) as
    (ms' & t2 & h & d & Om & _ & _ & _ & _ & _ & _ & _ & _ & _ & _ & Rm & _ & _ & T); auto.
  { exists i. auto. }
  { subst new. exact Td. }
  assert (ms' = ms) by (eapply members_of_unique; eauto). subst ms'.
  destruct (T r) as (j & J1 & J2 & J3 & _). exists j. split; [exact J1|]. split; [exact J3|].
  apply (members_again r name _ j td); auto. rewrite Forall_forall in *. intros m I. apply F, last_ones_in; auto.
Qed.
Print Assumptions C41_members.

(** No bag is listed twice, and the order is that of the last additions. *)
Theorem C41_distinct : forall ms,
  NoDup (map Tsv.m_name (last_ones ms)) /\
  (NoDup (map Tsv.m_name ms) -> last_ones ms = ms) /\
  (forall n, In n (map Tsv.m_name (last_ones ms)) <-> In n (map Tsv.m_name ms)).
Proof.
  intros ms. assert (In3 : forall l n, In n (map Tsv.m_name (last_ones l)) <-> In n (map Tsv.m_name l)).
  { induction l as [|m l IH]; [tauto|]. intros n. cbn [last_ones map]. destruct (str_in (Tsv.m_name m) (map Tsv.m_name l)) eqn:E.
    - rewrite IH. cbn [In]. apply str_in_iff in E. split; [auto|]. intros [<-|I]; auto.
    - cbn [map In]. rewrite IH. tauto. }
  split; [|split; [apply last_ones_nodup|apply In3]].
  induction ms as [|m ms IH]; [constructor|]. cbn [last_ones]. destruct (str_in _ _) eqn:E; [exact IH|].
  cbn [map]. constructor; [|exact IH]. rewrite In3. apply str_in_false. exact E.
Qed.
Print Assumptions C41_distinct.

(** The bags of the examples: "two" is the head bag of "one" and "two", and
    is amended with "four" and the new head bag "three". *)
Definition ex_amendee_tree : tree :=
  [(U "bagit.txt", NFile ex_bagit); (U "bag-info.txt", NFile ex_info2);
   (U "data", NDir); (U "data/a", NFile (U "new")); (U "data/c", NFile (U "c")); (U "multibag", NDir);
   (U "multibag/member-bags.tsv", NFile (txt [U "one"; U "two"]));
   (U "multibag/file-lookup.tsv", NFile (txt [U "data/a" ++ [TAB] ++ U "two"; U "data/b" ++ [TAB] ++ U "one"; U "data/c" ++ [TAB] ++ U "two"]));
   (U "multibag/deleted.txt", NFile (txt [U "data/d"]))].
Definition ex_amendee : hb := open_hb (U "two") ex_amendee_tree (got [] (load_tags Codecs ex_info2)) Codecs.
Definition ex_three : tree :=
  [(U "bagit.txt", NFile ex_bagit); (U "bag-info.txt", NFile (txt [U "Contact-Name: D"]));
   (U "data", NDir); (U "data/a", NFile (U "newest"))].
Definition ex_four : src :=
  {| s_name := U "four"; s_ro := true;
     s_tree := [(U "bagit.txt", NFile ex_bagit); (U "data", NDir); (U "data/a", NFile (U "4")); (U "data/b", NFile (U "4"))] |}.
Definition ex_new : hb := open_hb (U "three") ex_three (got [] (tags_of Codecs ex_three)) Codecs.
Definition ex_repr (l : list pystr) : pystr := U "[" ++ join (U ", ") l ++ U "]".
Definition ex_amend (old : hb) (bags : list src) (new : hb) : hb * res hb :=
  amend_bag_with ex_env [U "md5"] (fun _ => U "1 kB") ex_repr false old bags (U "2") new.
Definition ex_amended : hb := fst (ex_amend ex_amendee [ex_four] ex_new).

Lemma ex_amendment : amendment (fun _ => U "1 kB") ex_repr ex_amendee ex_new (U "three") ex_three (U "multibag") (U "2").
Proof.
  split; [exact ex_size|]. split.
  { exists (got [] (tags_of Codecs ex_three)). split; [vm_compute; reflexivity|]. split; [reflexivity|]. vm_compute. reflexivity. }
  split; [apply nodupb_ok; vm_compute; reflexivity|]. split; [apply plain_valueb_ok; reflexivity|]. split; [discriminate|].
  split; [apply plain_valueb_ok; reflexivity|].
  assert (E : deprecates ex_repr (hb_info ex_amendee) = [U "1"]) by (vm_compute; reflexivity). rewrite E.
  constructor; [|constructor]. apply plain_valueb_ok; reflexivity.
Qed.

Example C41_case :
  amendment (fun _ => U "1 kB") ex_repr ex_amendee ex_new (U "three") ex_three (U "multibag") (U "2") /\
  members_of ex_amendee (map plain_member [U "one"; U "two"]) /\
  snd (ex_amend ex_amendee [ex_four] ex_new) = Ok ex_amendee /\
  Forall (storable_member Codecs) (map plain_member [U "one"; U "two"] ++ map entry_of [default_bag ex_four] ++ [own_member None None [] (U "three")]) /\
  map Tsv.m_name (got [] (iter_member_bags (open_hb (U "three") (hb_tree ex_amended) (got [] (tags_of Codecs (hb_tree ex_amended))) Codecs))) =
    [U "one"; U "two"; U "four"; U "three"].
Proof.
  split; [exact ex_amendment|]. split; [left; split; vm_compute; reflexivity|]. split; [vm_compute; reflexivity|].
  split; [|vm_compute; reflexivity].
  repeat (apply Forall_cons; [apply storable_name, storableb_ok; reflexivity|]). constructor.
Qed.

(** ** C42 *)

(** The name of the last of the bags that has the payload file. *)
Fixpoint holder (bags : list (pystr * tree)) (p : pystr) : option pystr :=
  match bags with
  | [] => None
  | (b, t) :: l => match holder l p with
                   | Some x => Some x
                   | None => if is_payload p && is_file p t then Some b else None
                   end
  end.

Lemma lookups_holder bags : forall m, NoDup (map fst bags) ->
  (forall p x, m p = Some x -> ~ In x (map fst bags)) ->
  forall p, lookups m bags p = match holder bags p with Some x => Some x | None => m p end.
Proof.
  induction bags as [|[b t] bags IH]; intros m D F p; [reflexivity|]. cbn [map fst] in D, F. inversion D as [|? ? Ni D']; subst.
  cbn [lookups fold_left holder]. change (fold_left step_lookup bags ?x) with (lookups x bags). rewrite IH; auto.
  - destruct (holder bags p); [reflexivity|]. unfold step_lookup, holds. cbn [fst snd].
    destruct (is_payload p && is_file p t); [reflexivity|]. destruct (m p) as [x|] eqn:E; [|reflexivity].
    destruct (streq_reflect x b) as [->|]; [|reflexivity]. exfalso. apply (F p b E). left. reflexivity.
  - intros q x. unfold step_lookup. cbn [fst snd]. destruct (holds t q); [intros X; inversion X; subst; exact Ni|].
    destruct (m q) as [y|] eqn:E; [|discriminate]. destruct (streq y b); [discriminate|]. intros X. inversion X; subst.
    intros I. apply (F q x E). right. exact I.
Qed.

Lemma lookups_from bags : forall m p x, lookups m bags p = Some x -> m p = Some x \/ exists b, In b bags /\ holds (snd b) p = true /\ x = fst b.
Proof.
  induction bags as [|b bags IH]; intros m p x H; [auto|]. cbn [lookups fold_left] in H. apply IH in H. destruct H as [H|(b' & I & H)].
  - unfold step_lookup in H. destruct (holds (snd b) p) eqn:E.
    + inversion H; subst. right. exists b. split; [left; auto|auto].
    + destruct (m p) as [y|]; [|discriminate]. destruct (streq y (fst b)); [discriminate|]. left. exact H.
  - right. exists b'. split; [right; exact I|exact H].
Qed.

(** What the amendee gives as the bag of a file: its lookup, or itself for its
    own payload files if it is a plain bag. *)
Definition answer_of (old : hb) (p : pystr) (x : option pystr) : Prop :=
  (is_head old = true /\ snd (lookup_file_ro p false old) = Ok x) \/
  (is_head old = false /\ x = if is_payload p && is_file p (hb_tree old) then Some (hb_name old) else None).

Lemma answer_old old p x : hb_lu old = None -> answer_of old p x -> old_answer old p = x.
Proof.
  intros L. unfold answer_of, old_answer. intros [[-> E]|[-> ->]]; [|reflexivity]. unfold lookup_file_ro, cache_file_lookup in E. rewrite L in E.
  destruct (iter_file_lookup old) as [es|e]; cbn in E; [|discriminate]. inversion E; subst. reflexivity.
Qed.

(** All paths and names can be written to the lookup file. *)
Definition all_storable (r : reader) (old : hb) (bags : list (pystr * tree)) : Prop :=
  (forall p x, answer_of old p (Some x) -> storable_entry r (p, x)) /\
  (forall b p, In b bags -> is_payload p && is_file p (snd b) = true -> storable_entry r (p, fst b)).

Theorem C42_exact : forall v algs bsize repr ro old bags version new new' old' name t td,
  amendment bsize repr old new name t td version ->
  good_path td -> outside_payload td ->
  (is_head old = true -> hb_lu old = None /\ exists es, iter_file_lookup old = Ok es) ->
  bag_files (hb_tree old) -> hb_name old <> [] ->
  Forall (fun s => bag_files (s_tree s) /\ s_name s <> []) bags -> bag_files t -> name <> [] ->
  amend_bag_with v algs bsize repr ro old bags version new = (new', Ok old') ->
  forall r, all_storable r old (map bag_of bags ++ [(name, t)]) ->
  exists i, tags_of r (hb_tree new') = Ok i /\
    forall p, snd (lookup_file p false (open_hb name (hb_tree new') i r)) = Ok (lookups (old_answer old) (map bag_of bags ++ [(name, t)]) p).
Proof.
  intros v algs bsize repr ro old bags version new new' old' name t td Am Gt Ot Hh Wo No Wb Wn Nn H.
  destruct Am as (B & (i & Ti & En & Td) & D & Tv & Nv & Vv & Fd).
  assert (Td' : tag_dir_raw (hb_info new) = Ok td) by (subst new; exact Td).
  destruct (amend_disk v algs bsize repr ro old (map default_bag bags) (own_member None None []) SNone SNone version new new' old' name t td B) as
    (ms' & t2 & h & d & Om & Al & _ & Et & Ei & Hm & Tb & Ln & En' & El & _ & _ & Rl & _ & T); auto.
  { exists i. auto. }
  pose proof (init_std repr old new td Td') as S0.
  assert (Hn : hb_name new = name) by (subst new; reflexivity). assert (Ht : hb_tree new = t) by (subst new; reflexivity).
  destruct (amend_table repr ro old bags new h old' td S0 ltac:(subst new; reflexivity) ltac:(subst new; reflexivity)
    ltac:(rewrite Ht; exact D) Wo No Wb ltac:(rewrite Ht; exact Wn) ltac:(rewrite Hn; exact Nn) Gt Ot Al) as (d' & Tb' & G).
  rewrite Hn, Ht in G. assert (d' = d) by (destruct Tb as [Tb _], Tb' as [Tb' _]; congruence). subst d'.
  assert (Ge : forall p, match hb_lu h with Some d => od_get p d | None => None end = od_get p d).
  { intros p. destruct (hb_lu h) as [d0|] eqn:L.
    - destruct Tb as [Tb _]. unfold cur_table in Tb. rewrite L in Tb. inversion Tb; subst. reflexivity.
    - rewrite Ln by reflexivity. reflexivity. }
  intros r St. destruct (T r) as (j & J1 & J2 & _). exists j. split; [exact J1|]. intros p.
  rewrite (lookup_again r name _ j td (hb_lu h) p J2 Rl).
  - rewrite Ge, G. reflexivity.
  - intros d0 L. assert (d0 = d) by (destruct Tb as [Tb _]; unfold cur_table in Tb; rewrite L in Tb; congruence). subst d0.
    split; [apply Tb|]. apply Forall_forall. intros [q x] I.
    assert (E : od_get q d = Some x) by (apply od_in_get; [apply Tb|exact I]). rewrite G in E. apply lookups_from in E.
    destruct E as [E|(b & Ib & Hb & ->)].
    + apply St. unfold answer_of. unfold old_answer in E. destruct (is_head old) eqn:Eh.
      * left. split; [reflexivity|]. destruct (Hh eq_refl) as [Lo [es Ies]]. unfold lookup_file_ro, cache_file_lookup. rewrite Lo, Ies.
        rewrite Ies in E. cbn. rewrite E. reflexivity.
      * right. split; [reflexivity|]. unfold holds in E. rewrite E. reflexivity.
    + apply St; auto.
Qed.
Print Assumptions C42_exact.

(** For bags with different names that the old lookup does not name. *)
Theorem C42_lookup_partial : forall v algs bsize repr ro old bags version new new' old' name t td,
  amendment bsize repr old new name t td version ->
  good_path td -> outside_payload td ->
  (is_head old = true -> hb_lu old = None /\ exists es, iter_file_lookup old = Ok es) ->
  bag_files (hb_tree old) -> hb_name old <> [] ->
  Forall (fun s => bag_files (s_tree s) /\ s_name s <> []) bags -> bag_files t -> name <> [] ->
  NoDup (map s_name bags ++ [name]) ->
  (forall p x, answer_of old p (Some x) -> ~ In x (map s_name bags ++ [name])) ->
  amend_bag_with v algs bsize repr ro old bags version new = (new', Ok old') ->
  forall r, all_storable r old (map bag_of bags ++ [(name, t)]) ->
  exists i, tags_of r (hb_tree new') = Ok i /\
    forall p x, answer_of old p x ->
    snd (lookup_file p false (open_hb name (hb_tree new') i r)) =
      Ok (match holder (map bag_of bags ++ [(name, t)]) p with Some b => Some b | None => x end).
Proof.
  intros v algs bsize repr ro old bags version new new' old' name t td Am Gt Ot Hh Wo No Wb Wn Nn Nd Nx H r St.
  destruct (C42_exact v algs bsize repr ro old bags version new new' old' name t td Am Gt Ot Hh Wo No Wb Wn Nn H r St) as (i & Ti & G).
  exists i. split; [exact Ti|]. intros p x A. rewrite G.
  assert (En : map fst (map bag_of bags ++ [(name, t)]) = map s_name bags ++ [name]) by (rewrite map_app, map_map; reflexivity).
  assert (Ax : forall q y, answer_of old q y -> old_answer old q = y).
  { intros q y X. destruct (is_head old) eqn:Eh; [apply answer_old; auto; apply Hh; auto|].
    destruct X as [[X _]|[_ ->]]; [congruence|]. unfold old_answer. rewrite Eh. reflexivity. }
  rewrite lookups_holder.
  - rewrite (Ax p x A). reflexivity.
  - rewrite En. exact Nd.
  - rewrite En. intros q y E. apply (Nx q). unfold answer_of. unfold old_answer in E. destruct (is_head old) eqn:Eh.
    + left. split; [reflexivity|]. destruct (Hh eq_refl) as [Lo [es Ies]]. unfold lookup_file_ro, cache_file_lookup. rewrite Lo, Ies.
      rewrite Ies in E. cbn. rewrite E. reflexivity.
    + right. split; [reflexivity|]. unfold holds in E. rewrite E. reflexivity.
Qed.
Print Assumptions C42_lookup_partial.

Lemma ex_bag_files t : wf_treeb t = true -> is_file DATA t = false -> bag_files t.
Proof. intros W F. split; [apply wf_treeb_ok; exact W|exact F]. Qed.

Lemma answer_entry old p x : is_head old = true -> answer_of old p (Some x) -> forall es, hb_lu old = None -> iter_file_lookup old = Ok es ->
  In (p, x) (od_of_pairs es).
Proof.
  intros Eh [[_ A]|[A _]] es Lo Ies; [|congruence]. unfold lookup_file_ro, cache_file_lookup in A. rewrite Lo, Ies in A. cbn in A.
  inversion A as [E]. apply od_get_in. exact E.
Qed.

Lemma files_entry t p : NoDup (od_keys t) -> is_payload p && is_file p t = true -> In p (filter is_payload (files t)).
Proof. intros D H. apply andb_true_iff in H. destruct H as [A B]. apply filter_In. split; [|exact A]. apply in_files; auto. Qed.

Definition ex_lookup_list : list (pystr * pystr) :=
  [(U "data/a", U "two"); (U "data/b", U "one"); (U "data/c", U "two")].

Example C42_case :
  bag_files (hb_tree ex_amendee) /\ bag_files (s_tree ex_four) /\ bag_files ex_three /\ outside_payload (U "multibag") /\ good_path (U "multibag") /\
  NoDup (map s_name [ex_four] ++ [U "three"]) /\ is_head ex_amendee = true /\
  iter_file_lookup ex_amendee = Ok ex_lookup_list /\
  (forall p x, answer_of ex_amendee p (Some x) -> ~ In x (map s_name [ex_four] ++ [U "three"])) /\
  all_storable Codecs ex_amendee (map bag_of [ex_four] ++ [(U "three", ex_three)]) /\
  (let h := open_hb (U "three") (hb_tree ex_amended) (got [] (tags_of Codecs (hb_tree ex_amended))) Codecs in
   map (fun p => snd (lookup_file p false h)) [U "data/a"; U "data/b"; U "data/c"; U "data/d"] =
     [Ok (Some (U "three")); Ok (Some (U "four")); Ok (Some (U "two")); Ok None]).
Proof.
  assert (Ies : iter_file_lookup ex_amendee = Ok ex_lookup_list) by (vm_compute; reflexivity).
  assert (Eh : is_head ex_amendee = true) by (vm_compute; reflexivity).
  assert (Ans : forall p x, answer_of ex_amendee p (Some x) -> In (p, x) ex_lookup_list).
  { intros p x A. pose proof (answer_entry _ _ _ Eh A _ eq_refl Ies) as I.
    assert (X : od_of_pairs ex_lookup_list = ex_lookup_list) by (vm_compute; reflexivity). rewrite X in I. exact I. }
  split; [apply ex_bag_files; vm_compute; reflexivity|]. split; [apply ex_bag_files; vm_compute; reflexivity|].
  split; [apply ex_bag_files; vm_compute; reflexivity|]. split; [reflexivity|]. split; [apply good_pathb_ok; reflexivity|].
  split; [apply nodupb_ok; reflexivity|]. split; [exact Eh|]. split; [exact Ies|]. split; [|split].
  - intros p x A. apply Ans in A. intros I.
    destruct A as [A|[A|[A|[]]]]; inversion A; subst; revert I; apply str_in_false; reflexivity.
  - assert (F : Forall (storable_entry Codecs) ex_lookup_list) by (apply wf_tableb_ok; reflexivity).
    split; [intros p x A; apply Ans in A; rewrite Forall_forall in F; apply F; exact A|].
    intros b p I H.
    assert (F2 : Forall (storable_entry Codecs) [(U "data/a", U "four"); (U "data/b", U "four"); (U "data/a", U "three")])
      by (apply wf_tableb_ok; reflexivity).
    rewrite Forall_forall in F2. apply F2. destruct I as [<-|[<-|[]]]; cbn [fst snd bag_of] in *.
    + apply files_entry in H; [|apply nodupb_ok; vm_compute; reflexivity].
      assert (X : filter is_payload (files (s_tree ex_four)) = [U "data/a"; U "data/b"]) by (vm_compute; reflexivity). rewrite X in H.
      destruct H as [<-|[<-|[]]]; cbn; auto.
    + apply files_entry in H; [|apply nodupb_ok; vm_compute; reflexivity].
      assert (X : filter is_payload (files ex_three) = [U "data/a"]) by (vm_compute; reflexivity). rewrite X in H.
      destruct H as [<-|[]]; cbn; auto.
  - vm_compute. reflexivity.
Qed.

(** When a bag is added again with other files, the files it had overridden
    are not found any more, although an earlier bag has them. *)
Definition ex_five (f : pystr) (n : pystr) : src :=
  {| s_name := n; s_ro := false;
     s_tree := [(U "bagit.txt", NFile ex_bagit); (U "data", NDir); (U "data/" ++ f, NFile (U "5"))] |}.
Definition ex_again : hb := fst (ex_amend ex_amendee [ex_five (U "x") (U "four"); ex_five (U "x") (U "five"); ex_five (U "y") (U "five")] ex_new).
Theorem C42_refuted : exists old new new' bags p,
  amendment (fun _ => U "1 kB") ex_repr old new (U "three") ex_three (U "multibag") (U "2") /\
  ex_amend old bags new = (new', Ok old) /\
  holder (map bag_of bags) p = Some (U "five") /\ answer_of old p None /\
  snd (lookup_file p false new') = Ok None.
Proof.
  exists ex_amendee, ex_new, ex_again, [ex_five (U "x") (U "four"); ex_five (U "x") (U "five"); ex_five (U "y") (U "five")], (U "data/x").
  split; [exact ex_amendment|]. split; [vm_compute; reflexivity|]. split; [vm_compute; reflexivity|].
  split; [left; split; vm_compute; reflexivity|]. vm_compute. reflexivity.
Qed.
Print Assumptions C42_refuted.

(** ** C43 *)

Lemma run_read (l : list step) q : Forall (fun s : step => forall t t', s t = Ok t' -> read q t' = read q t) l ->
  forall t t', run_steps l t = Ok t' -> read q t' = read q t.
Proof.
  induction 1 as [|s l Hs _ IH]; intros t t' H.
  - cbn in H. inversion H; subst. reflexivity.
  - rewrite run_cons in H. apply bind_ok in H. destruct H as (t1 & H1 & H2). rewrite (IH _ _ H2). auto.
Qed.

Lemma write_read p c q t t' : q <> p -> write_file p c t = Ok t' -> read q t' = read q t.
Proof. intros Q H. apply write_file_ok in H. subst t'. unfold read. rewrite od_get_set_other by auto. reflexivity. Qed.

Lemma remove_read p q t t' : q <> p -> remove_file p t = Ok t' -> read q t' = read q t.
Proof.
  intros Q H. unfold remove_file in H. destruct (is_file p t); [|discriminate]. inversion H; subst t'. unfold read.
  rewrite od_get_del_other by auto. reflexivity.
Qed.

Lemma list_steps_read td l d q : q <> sjoin td F_members -> q <> sjoin td F_lookup ->
  Forall (fun s : step => forall t t', s t = Ok t' -> read q t' = read q t)
    ([reset_step td; clear_step td] ++ members_steps td l ++ lookup_steps td d).
Proof.
  intros Q1 Q2.
  assert (E : forall t t', ensure_step td t = Ok t' -> read q t' = read q t).
  { intros t t' H. apply (ensure_step_other _ _ _ H). }
  apply Forall_app. split; [|apply Forall_app; split].
  - constructor; [|constructor; [|constructor]]; intros t t' H.
    + unfold reset_step in H. destruct (is_file _ _); [exact (remove_read _ _ _ _ Q1 H)|exact (E _ _ H)].
    + unfold clear_step in H. destruct (exists_ _ _); [exact (remove_read _ _ _ _ Q2 H)|inversion H; reflexivity].
  - unfold members_steps. constructor; [exact E|]. constructor; [|constructor]. intros t t' H. exact (write_read _ _ _ _ _ Q1 H).
  - unfold lookup_steps. destruct d as [d|]; [|constructor]. constructor; [exact E|]. constructor; [|constructor]. intros t t' H. exact (write_read _ _ _ _ _ Q2 H).
Qed.

Lemma info_steps_read v algs bsize version profver i q : ~ saved_file q ->
  Forall (fun s : step => forall t t', s t = Ok t' -> read q t' = read q t) (info_steps v algs bsize version profver i).
Proof.
  intros Q.
  assert (S : forall f, Forall (fun s : step => forall t t', s t = Ok t' -> read q t' = read q t) (save_steps v algs f)).
  { intros f. unfold save_steps. constructor.
    - intros t t' H. eapply write_read; [|exact H]. intros ->. apply Q. left. reflexivity.
    - apply Forall_forall. intros s I. apply in_map_iff in I. destruct I as (a & <- & _). intros t t' H.
      eapply write_read; [|exact H]. intros ->. apply Q. right. eauto. }
  unfold info_steps. apply Forall_app. split; apply S.
Qed.

(** deleted.txt of the new head bag is as it was before: nothing is taken over
    from the amendee. *)
Theorem C43_unchanged : forall v algs bsize repr ro old bags own inc exc version new new' old' name t td q,
  amendment bsize repr old new name t td version ->
  q <> sjoin td F_members -> q <> sjoin td F_lookup -> ~ saved_file q ->
  amend v algs bsize repr false ro old bags own inc exc version new = (new', Ok old') ->
  read q (hb_tree new') = read q t.
Proof.
  intros v algs bsize repr ro old bags own inc exc version new new' old' name t td q (B & (i & Ti & En & Td) & D & Tv & Nv & Vv & Fd) Q1 Q2 Q3 H.
  destruct (amend_disk v algs bsize repr ro old bags own inc exc version new new' old' name t td B) as
    (ms & t2 & h & d & _ & _ & R1 & _ & _ & _ & _ & _ & _ & _ & _ & _ & _ & R2 & _); auto.
  { exists i. auto. }
  { subst new. exact Td. }
  assert (R : run_steps (([reset_step td; clear_step td] ++ members_steps td (last_ones (ms ++ map ab_member bags ++ [own name])) ++ lookup_steps td (hb_lu h)) ++
               info_steps v algs bsize (Some version) CURRENT_VERSION (hb_info h)) t = Ok (hb_tree new')).
  { rewrite <- !app_assoc. rewrite run_app, R1. exact R2. }
  revert R. apply run_read. apply Forall_app. split; [apply list_steps_read; auto|apply info_steps_read; auto].
Qed.
Print Assumptions C43_unchanged.

Theorem C43_refuted : exists old new new' p,
  amendment (fun _ => U "1 kB") ex_repr old new (U "three") ex_three (U "multibag") (U "2") /\
  ex_amend old [ex_four] new = (new', Ok old) /\
  (exists l, iter_deleted old = Ok l /\ In p l) /\
  holder (map bag_of [ex_four] ++ [(U "three", ex_three)]) p = None /\
  read (U "multibag/deleted.txt") (hb_tree new') = None /\
  snd (deleted_paths true new') = Ok [].
Proof.
  exists ex_amendee, ex_new, ex_amended, (U "data/d"). split; [exact ex_amendment|]. split; [vm_compute; reflexivity|].
  split; [exists [U "data/d"]; split; [vm_compute; reflexivity|left; reflexivity]|].
  split; [vm_compute; reflexivity|]. split; vm_compute; reflexivity.
Qed.
Print Assumptions C43_refuted.

(** ** C44 *)

Theorem C44_deprecates : forall v algs bsize repr ro old bags own inc exc version new new' old' name t td ov,
  amendment bsize repr old new name t td version ->
  (od_get (U "Multibag-Head-Version") (hb_info old) = Some (IStr ov) \/
   (od_get (U "Multibag-Head-Version") (hb_info old) = None /\ ov = U "1")) ->
  amend v algs bsize repr false ro old bags own inc exc version new = (new', Ok old') ->
  forall r, exists i, tags_of r (hb_tree new') = Ok i /\
    tag_values i (U "Multibag-Head-Deprecates") = tag_values (hb_info old) (U "Multibag-Head-Deprecates") ++ [ov].
Proof.
  intros v algs bsize repr ro old bags own inc exc version new new' old' name t td ov (B & (i & Ti & En & Td) & D & Tv & Nv & Vv & Fd) Ho H r.
  destruct (amend_disk v algs bsize repr ro old bags own inc exc version new new' old' name t td B) as
    (ms & t2 & h & d & _ & _ & _ & _ & _ & _ & _ & _ & _ & _ & _ & _ & _ & _ & T); auto.
  { exists i. auto. }
  { subst new. exact Td. }
  destruct (T r) as (j & J1 & _ & _ & J & _). exists j. split; [exact J1|]. change (U "Multibag-Head-Deprecates") with T_HeadDeprecates. rewrite J. unfold deprecates. f_equal.
  unfold old_version. change (U "Multibag-Head-Version") with T_HeadVersion in Ho. destruct Ho as [->|[-> ->]]; reflexivity.
Qed.
Print Assumptions C44_deprecates.

(** The amendee keeps its files in any case, and its tags unless it deprecates
    more than one version. *)
Theorem C44_amendee_partial : forall v algs bsize repr keep ro old bags own inc exc version new new' old',
  amend v algs bsize repr keep ro old bags own inc exc version new = (new', Ok old') ->
  hb_tree old' = hb_tree old /\ hb_name old' = hb_name old /\
  ((forall l, od_get (U "Multibag-Head-Deprecates") (hb_info old) <> Some (IList l)) -> old' = old).
Proof.
  intros v algs bsize repr keep ro old bags own inc exc version new new' old' H.
  assert (E : old' = fst (init_multibag_info repr keep old new)).
  { unfold amend in H. apply bindM_ok in H. destruct H as (o & h1 & H1 & H). apply bindM_ok in H. destruct H as ([] & h2 & H2 & H).
    unfold retM in H. inversion H; subst o. unfold amend_lists in H1. destruct (init_multibag_info repr keep old new) as [o n].
    apply bindM_ok in H1. destruct H1 as ([] & ? & _ & H1). apply bindM_ok in H1. destruct H1 as ([] & ? & _ & H1).
    apply bindM_ok in H1. destruct H1 as ([] & ? & _ & H1). apply bindM_ok in H1. destruct H1 as ([] & ? & _ & H1).
    unfold retM in H1. inversion H1; subst. reflexivity. }
  pose proof (init_old repr keep old new) as O. cbv zeta in O. rewrite <- E in O. destruct O as (_ & _ & _ & On & Ot).
  split; [exact Ot|]. split; [exact On|]. intros Nl. rewrite E. unfold init_multibag_info.
  change (U "Multibag-Head-Deprecates") with T_HeadDeprecates in Nl.
  destruct (od_get T_HeadDeprecates (hb_info old)) as [[s|l]|]; [reflexivity| |reflexivity]. exfalso. eapply Nl. reflexivity.
Qed.
Print Assumptions C44_amendee_partial.

(** The tags of the handle of an amendee that deprecates two versions. *)
Definition ex_info_dep : pystr :=
  txt [U "Multibag-Version: 0.4"; U "Multibag-Head-Version: 3"; U "Multibag-Head-Deprecates: 1"; U "Multibag-Head-Deprecates: 2"].
Definition ex_old_dep : hb := open_hb (U "two") ex_amendee_tree (got [] (load_tags Codecs ex_info_dep)) Codecs.
Definition ex_old_after : hb := match snd (ex_amend ex_old_dep [ex_four] ex_new) with Ok o => o | Err _ => ex_old_dep end.
Theorem C44_amendee_refuted : exists old new new' old',
  ex_amend old [ex_four] new = (new', Ok old') /\
  tag_values (hb_info old) (U "Multibag-Head-Deprecates") = [U "1"; U "2"] /\
  tag_values (hb_info old') (U "Multibag-Head-Deprecates") = [U "1"; U "2"; U "3"] /\
  (exists i, tags_of Codecs (hb_tree new') = Ok i /\ tag_values i (U "Multibag-Head-Deprecates") = [U "1"; U "2"; U "3"]).
Proof.
  exists ex_old_dep, ex_new, (fst (ex_amend ex_old_dep [ex_four] ex_new)), ex_old_after.
  split; [vm_compute; reflexivity|]. split; [vm_compute; reflexivity|]. split; [vm_compute; reflexivity|].
  exists (got [] (tags_of Codecs (hb_tree (fst (ex_amend ex_old_dep [ex_four] ex_new))))). split; vm_compute; reflexivity.
Qed.
Print Assumptions C44_amendee_refuted.

Example C44_case :
  amendment (fun _ => U "1 kB") ex_repr ex_old_dep ex_new (U "three") ex_three (U "multibag") (U "2") /\
  od_get (U "Multibag-Head-Version") (hb_info ex_old_dep) = Some (IStr (U "3")) /\
  ex_amend ex_amendee [ex_four] ex_new = (ex_amended, Ok ex_amendee) /\
  od_get (U "Multibag-Head-Deprecates") (hb_info ex_amendee) = None /\
  tag_values (got [] (tags_of IoText (hb_tree ex_amended))) (U "Multibag-Head-Deprecates") = [U "1"].
Proof.
  split.
  { destruct ex_amendment as (A1 & A2 & A3 & A4 & A5 & A6 & _).
    split; [exact A1|]. split; [exact A2|]. split; [exact A3|]. split; [exact A4|]. split; [exact A5|]. split; [exact A6|].
    assert (E : deprecates ex_repr (hb_info ex_old_dep) = [U "1"; U "2"; U "3"]) by (vm_compute; reflexivity). rewrite E.
    repeat (apply Forall_cons; [apply plain_valueb_ok; reflexivity|]). constructor. }
  split; [vm_compute; reflexivity|]. split; [vm_compute; reflexivity|]. split; vm_compute; reflexivity.
Qed.

(** ** C45, for amendments *)

(** The bag is designated as a head bag. *)
Definition designated (t : tree) : Prop :=
  exists i, tags_of Codecs t = Ok i /\ od_get (U "Multibag-Head-Version") i <> None.

Lemma Forall_firstn {A} (P : A -> Prop) k (l : list A) : Forall P l -> Forall P (firstn k l).
Proof. intros F. rewrite <- (firstn_skipn k l) in F. apply Forall_app in F. apply F. Qed.

Theorem C45_amend : forall v algs bsize repr ro old bags own inc exc version new new' old' name t td,
  amendment bsize repr old new name t td version -> ~ designated t ->
  amend v algs bsize repr false ro old bags own inc exc version new = (new', Ok old') ->
  exists i l d, let steps := amend_steps v algs bsize version i l d in
    run_steps steps t = Ok (hb_tree new') /\
    forall t', stops_at steps t t' ->
      ~ designated t' \/
      (read (sjoin td F_members) t' = read (sjoin td F_members) (hb_tree new') /\
       read (sjoin td F_lookup) t' = read (sjoin td F_lookup) (hb_tree new')).
Proof.
  intros v algs bsize repr ro old bags own inc exc version new new' old' name t td (B & (i & Ti & En & Td) & D & Tv & Nv & Vv & Fd) Nd H.
  destruct (amend_disk v algs bsize repr ro old bags own inc exc version new new' old' name t td B) as
    (ms & t2 & h & d & _ & _ & R1 & _ & Ei & _ & _ & _ & _ & _ & _ & _ & _ & R2 & _); auto.
  { exists i. auto. }
  { subst new. exact Td. }
  exists (hb_info h), (last_ones (ms ++ map ab_member bags ++ [own name])), (hb_lu h). cbv zeta.
  assert (S0 : std_tags (hb_info h) td) by (rewrite Ei; apply init_std; subst new; exact Td).
  assert (Pv : profile_version (hb_info h) = CURRENT_VERSION) by (unfold profile_version, required_info; rewrite Ei, init_info_version; reflexivity).
  unfold amend_steps. cbv zeta. rewrite (std_tag_dir _ _ S0), Pv.
  set (A := [reset_step td; clear_step td] ++ members_steps td (last_ones (ms ++ map ab_member bags ++ [own name])) ++ lookup_steps td (hb_lu h)) in *.
  set (Bs := info_steps v algs bsize (Some version) CURRENT_VERSION (hb_info h)) in *.
  assert (E : [reset_step td; clear_step td] ++ members_steps td (last_ones (ms ++ map ab_member bags ++ [own name])) ++ lookup_steps td (hb_lu h) ++ Bs = A ++ Bs)
    by (unfold A; rewrite <- !app_assoc; reflexivity).
  rewrite E.
  assert (R : run_steps (A ++ Bs) t = Ok (hb_tree new')) by (rewrite <- E, run_app, R1; exact R2).
  split; [exact R|]. intros t' [k Hk]. rewrite firstn_app in Hk.
  assert (Fi : Forall (fun s : step => forall t t', s t = Ok t' -> read F_baginfo t' = read F_baginfo t) A).
  { apply list_steps_read; intros X; [apply (tagfile_not_saved td F_members)|apply (tagfile_not_saved td F_lookup)]; cbn; auto; left; auto. }
  assert (Fm : forall f, In f [F_members; F_lookup] ->
             Forall (fun s : step => forall t t', s t = Ok t' -> read (sjoin td f) t' = read (sjoin td f) t) Bs).
  { intros f If. apply info_steps_read. apply tagfile_not_saved; auto. }
  destruct (Nat.le_gt_cases k (length A)) as [Le|Gt].
  - left. replace (k - length A)%nat with 0%nat in Hk by lia. cbn [firstn] in Hk. rewrite app_nil_r in Hk.
    apply (run_read _ F_baginfo (Forall_firstn _ k _ Fi)) in Hk. intros (j & Tj & Hj). apply Nd. exists j. split; [|exact Hj].
    unfold tags_of in *. change (U "bag-info.txt") with F_baginfo in *. rewrite Hk in Tj. exact Tj.
  - right. rewrite firstn_all2 in Hk by lia. rewrite run_app in R, Hk. destruct (run_steps A t) as [ta|] eqn:Ra; [|discriminate].
    cbn [bind] in R, Hk.
    assert (X : forall f, In f [F_members; F_lookup] -> read (sjoin td f) t' = read (sjoin td f) (hb_tree new')).
    { intros f If. rewrite (run_read _ _ (Fm f If) _ _ R). apply (run_read _ _ (Forall_firstn _ _ _ (Fm f If)) _ _ Hk). }
    split; apply X; cbn; auto.
Qed.
Print Assumptions C45_amend.

Example C45_case :
  amendment (fun _ => U "1 kB") ex_repr ex_amendee ex_new (U "three") ex_three (U "multibag") (U "2") /\
  ~ designated ex_three /\ designated (hb_tree ex_amended) /\
  ex_amend ex_amendee [ex_four] ex_new = (ex_amended, Ok ex_amendee).
Proof.
  split; [exact ex_amendment|]. split; [|split].
  - intros (i & Ti & Hi). apply Hi.
    assert (E : tags_of Codecs ex_three = Ok (got [] (tags_of Codecs ex_three))) by (vm_compute; reflexivity).
    rewrite E in Ti. injection Ti as <-. vm_compute. reflexivity.
  - exists (got [] (tags_of Codecs (hb_tree ex_amended))). split; [vm_compute; reflexivity|]. vm_compute. discriminate.
  - vm_compute. reflexivity.
Qed.

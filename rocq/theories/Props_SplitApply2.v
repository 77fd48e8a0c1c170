(** * Properties of writing split bags: C27 - C31

    Continues Props_SplitApply.v. *)

Require Import String NArith PeanoNat Bool List Lia Permutation.
From Verif Require Import PyBase PyFacts Version Tsv TsvProofs Fs FsFacts HeadBag HeadBagProofs HeadBagProofs2 HeadBagProofs3 BagIt BagItProofs BagItProofs2 Split SplitProofs3 SplitApply SplitApplyProofs SplitApplyProofs2 SplitApplyProofs3 SplitApplyProofs4 SplitApplyProofs5 SplitApplyProofs6 SplitApplyProofs7 SplitApplyProofs8 SplitApplyProofs9 Props_SplitApply.
Import ListNotations.
Open Scope N_scope.

(** ** C27: the lookup *)

(** [b], with content [t], is the last of [bags] that [p] plans for [f]. *)
Definition last_planned (p : plan) (bags : dict tree) (f b : pystr) (t : tree) : Prop :=
  exists i m, nth_error (p_manifests p) i = Some m /\ nth_error bags i = Some (b, t) /\ In f (m_contents m) /\
    forall j m', (i < j)%nat -> nth_error (p_manifests p) j = Some m' -> ~ In f (m_contents m').

Lemma manifests_fst p : map fst (manifests p) = p_manifests p.
Proof.
  unfold manifests. generalize (p_manifests p). induction l as [|m [|m' l] IH]; [reflexivity|reflexivity|].
  change (mark_head (m :: m' :: l)) with ((m, false) :: mark_head (m' :: l)). cbn [map fst]. rewrite IH. reflexivity.
Qed.

Lemma nth_split_at {A} (l1 : list A) x l2 : nth_error (l1 ++ x :: l2) (length l1) = Some x.
Proof. induction l1; auto. Qed.

Lemma nth_after {A} (l1 : list A) x l2 j y : (length l1 < j)%nat -> nth_error (l1 ++ x :: l2) j = Some y -> In y l2.
Proof.
  revert j. induction l1 as [|z l1 IH]; intros j L H; cbn in *.
  - destruct j; [lia|]. cbn in H. eapply nth_error_In; eauto.
  - destruct j; [lia|]. apply (IH j); auto; lia.
Qed.

Lemma made_storable s o r mhs : forall bts ms lu ms' lu', made s o mhs bts ms lu ms' lu' ->
  Forall (storable_entry r) lu -> Forall (storable r) (map fst bts) ->
  (forall m f, In m (map fst mhs) -> In f (plan_files s m) -> storable r f) -> Forall (storable_entry r) lu'.
Proof.
  induction mhs as [|[m h] mhs IH]; intros [|[b t] bts] ms lu ms' lu' H F Fb Fp; cbn [made] in H; try contradiction.
  - destruct H as [_ ->]. exact F.
  - destruct H as [_ H]. cbn [map fst] in *. inversion Fb as [|? ? B1 B2]; subst. eapply IH; [exact H| |exact B2|].
    + assert (G : forall f, In f (plan_files s m) -> storable r f) by (intros f I; apply (Fp m f); [left; reflexivity|exact I]).
      clear -F B1 G. revert lu F. induction (plan_files s m) as [|f l IHl]; intros lu F; [exact F|].
      cbn [fold_left]. apply IHl; [intros; apply G; right; auto|]. apply od_set_Forall; auto.
      intros k E. apply streq_eq in E as <-. split; auto. apply G. left; reflexivity.
    + intros m0 f I J. apply (Fp m0 f); [right; exact I|exact J].
Qed.

(** Looking up a file in the head bag of a split, opened anew: a planned file
    that exists is in the last bag planned for it, which has it; for other
    files the answer is the one of the source's own lookup. Missing for C27:
    names that file-lookup.tsv cannot hold, see [C27_refuted]. *)
Theorem C27_lookup_partial : forall s o p it out others head t bags ms0 lu0,
  opened s -> plain_opts (so_reader s) o -> lists_before s ms0 lu0 ->
  splits_into s o p it out bags -> bags = others ++ [(head, t)] ->
  Forall (storable (so_reader s)) (map fst bags) -> Forall (storable_entry (so_reader s)) lu0 ->
  (forall m f, In m (p_manifests p) -> In f (m_contents m) -> is_file f (so_tree s) = true ->
               storable (so_reader s) f) ->
  exists tags, tags_of (so_reader s) t = Ok tags /\
  let h := open_hb head t tags (so_reader s) in
  (forall f, is_file f (so_tree s) = true -> (exists m, In m (p_manifests p) /\ In f (m_contents m)) ->
     exists b tb, last_planned p bags f b tb /\ is_file f tb = true /\
       snd (lookup_file f false h) = Ok (Some b) /\ snd (lookup_file_ro f false h) = Ok (Some b)) /\
  (forall f, is_file f (so_tree s) = false \/ (forall m, In m (p_manifests p) -> ~ In f (m_contents m)) ->
     snd (lookup_file f false h) = Ok (od_get f lu0) /\ snd (lookup_file_ro f false h) = Ok (od_get f lu0)).
Proof.
  intros s o p it out others head t bags ms0 lu0 Ho Hp LB H Eb Fb F0 Fp. set (r := so_reader s) in *.
  assert (Np : p_manifests p <> []).
  { intros E. apply made_split in H. destruct H as (a & b & c & d & _ & M & _). unfold manifests in M. rewrite E in M.
    subst bags. cbn in M. destruct others; contradiction. }
  pose proof (split_last _ _ _ _ _ _ H Np) as (l & m & bags1 & b & t' & ms0' & lu0' & ms1 & lu1 & ms' & lu' & Em & Eb' & Hi & M & M1 & O & Nd).
  assert (Ex : bags1 = others /\ (b, t') = (head, t)).
  { rewrite Eb in Eb'. apply app_inj_tail in Eb'. destruct Eb'; auto. }
  destruct Ex as [_ Ex]. inversion Ex; subst b t'. clear Ex.
  pose proof LB as LB'. apply lists_before_initial in LB'. rewrite LB' in Hi. inversion Hi; subst ms0' lu0'. clear Hi LB'.
  assert (Nb : no_brk r head).
  { rewrite Forall_forall in Fb. assert (J : In head (map fst bags)) by (subst bags; rewrite map_app, in_app_iff; right; left; reflexivity).
    apply Fb in J. destruct J as (_ & J & _). exact J. }
  destruct (bag_tags s o m true ms' lu' head t Ho Hp Nb O) as (d & Td & Sh & V). fold r in Td, V.
  exists d. split; [exact Td|]. cbn zeta.
  assert (St : std_tags d (U "multibag")) by (eapply split_std; [apply (opened_info_ok s Ho)|exact V|exact Sh]).
  assert (Fl : Forall (storable_entry r) lu').
  { eapply made_storable; [exact M|exact F0|exact Fb|]. rewrite manifests_fst. intros m1 f I J.
    unfold plan_files in J. apply filter_In in J. apply (Fp m1 f); tauto. }
  assert (Nl : NoDup (od_keys lu')).
  { eapply lookup_nodup; [exact M|]. destruct LB; [constructor|]. apply od_of_pairs_NoDup. }
  pose proof O as O'. destruct O' as (c & Rc & R & _). pose proof (read_lookup _ _ _ _ _ _ _ _ _ R eq_refl) as Rl.
  pose proof (lookup_read r head t d lu' St Rl Fl) as Il.
  assert (LK : forall f, snd (lookup_file f false (open_hb head t d r)) = Ok (od_get f lu') /\
                         snd (lookup_file_ro f false (open_hb head t d r)) = Ok (od_get f lu')).
  { intros f. destruct (lookup_of_iter (open_hb head t d r) lu' f false (or_introl eq_refl) Il Nl). auto. }
  pose proof (made_each _ _ _ _ _ _ _ _ M) as ME.
  split.
  - intros f Ff (m1 & I1 & J1). destruct (lookup_last _ _ _ _ _ _ _ _ f M) as [X|[X _]].
    2:{ exfalso. rewrite <- manifests_fst in I1. apply in_map_iff in I1. destruct I1 as ([m2 h2] & E2 & I1). cbn in E2. subst m2.
        apply (X _ _ I1). unfold plan_files. apply filter_In. auto. }
    destruct X as (m2 & h2 & b2 & t2 & c1 & c2 & d1 & d2 & E1 & E2 & El & J2 & Ls & G).
    exists b2, t2. split; [|split; [|rewrite <- G; apply LK]].
    + exists (length c1), m2. rewrite <- manifests_fst, E1, map_app. cbn [map fst].
      assert (Lm : length (map fst c1) = length c1) by apply map_length.
      split; [rewrite <- Lm; apply nth_split_at|]. split; [rewrite E2, El; apply nth_split_at|].
      split; [unfold plan_files in J2; apply filter_In in J2; tauto|].
      intros j m3 Lt Nj I3. rewrite <- Lm in Lt. apply nth_after in Nj; [|exact Lt]. apply in_map_iff in Nj.
      destruct Nj as ([m4 h4] & E4 & Nj). cbn in E4. subst m4. apply (Ls _ _ Nj). unfold plan_files. apply filter_In. auto.
    + rewrite E1, E2 in ME. assert (Y : exists ms lu, one_bag s o m2 h2 ms lu b2 t2).
      { clear -ME El. revert d1 El ME. induction c1 as [|x c1 IH]; intros [|y d1] El ME; cbn in *; try discriminate.
        - inversion ME; subst. assumption.
        - inversion ME; subst. apply (IH d1); auto. }
      destruct Y as (ms & lu & Y). eapply planned_there; [exact Y|exact J2].
  - intros f Hn. destruct (lookup_last _ _ _ _ _ _ _ _ f M) as [X|[_ X]]; [|rewrite <- X; apply LK].
    exfalso. destruct X as (m2 & h2 & b2 & t2 & c1 & c2 & d1 & d2 & E1 & E2 & El & J2 & _).
    unfold plan_files in J2. apply filter_In in J2. destruct J2 as [J2 F2]. destruct Hn as [Hn|Hn]; [congruence|].
    apply (Hn m2); auto. rewrite <- manifests_fst, E1, map_app. apply in_app_iff. right; left; reflexivity.
Qed.

Example C27_case :
  Forall (storable Codecs) (map fst ex_bags) /\
  (forall m f, In m (p_manifests ex_plan) -> In f (m_contents m) -> is_file f (so_tree ex_source) = true ->
               storable Codecs f) /\
  (exists others head t, ex_bags = others ++ [(head, t)]) /\
  map fst ex_bags = [U "one"; U "two"].
Proof.
  pose proof ex_splits as [_ E]. split; [|split; [|split; [|exact E]]].
  - rewrite E. apply Forall_forall. intros x [<-|[<-|[]]]; apply storableb_ok; reflexivity.
  - intros m f [<-|[<-|[]]]; cbn [m_contents]; intros [<-|[<-|I]] _; try destruct I as [<-|[]]; try contradiction;
      apply storableb_ok; reflexivity.
  - destruct ex_bags as [|b1 [|[b2 t2] [|b3 l]]]; try discriminate. exists [b1], b2, t2. reflexivity.
Qed.

Print Assumptions C27_lookup_partial.

(** A source with one payload file, and a plan for one bag. *)
Definition tiny_info : pystr := U "Payload-Oxum: 4.1" ++ [LF].
Definition tiny_tree (f c man : pystr) : tree :=
  [(U "bagit.txt", NFile (U "BagIt-Version: 1.0" ++ [LF])); (U "bag-info.txt", NFile tiny_info);
   (U "manifest-md5.txt", NFile man); (U "data", NDir); (f, NFile c)].
Definition tiny (f c man : pystr) : source :=
  {| so_name := U "src"; so_tree := tiny_tree f c man; so_info := got [] (load_tags Codecs tiny_info);
     so_algos := ex_algos;
     so_entries := got [] (load_manifests (fun _ => false) true Codecs (bag_manifests ex_algos true (tiny_tree f c man)));
     so_reader := Codecs |}.
Definition tiny_plan (f c man : pystr) : plan :=
  {| p_bag := {| b_name := U "src"; b_tree := tiny_tree f c man; b_dirsize := fun _ => 0 |};
     p_manifests := [{| m_name := Some (U "one"); m_contents := [f]; m_total := 0 |}] |}.

(** What the head bag answers for [f] after a split into one bag, and whether
    it has [f]. *)
Definition new_answer (s : source) (o : apply_opts) (p : plan) (f : pystr) : res (option pystr * bool) :=
  let? a := apply_plan s o p None [] in
  match a_out a with
  | [(head, t)] =>
      let? tags := tags_of (so_reader s) t in
      let? x := snd (lookup_file f false (open_hb head t tags (so_reader s))) in
      Ok (x, is_file f t)
  | _ => Err EIndex
  end.

Lemma new_answer_out s o p f x y : new_answer s o p f = Ok (x, y) ->
  exists a h t d, apply_plan s o p None [] = Ok a /\ a_out a = [(h, t)] /\ tags_of (so_reader s) t = Ok d /\
    is_file f t = y /\ snd (lookup_file f false (open_hb h t d (so_reader s))) = Ok x.
Proof.
  unfold new_answer. intros E. apply bind_ok in E. destruct E as (a & Ha & E).
  destruct (a_out a) as [|[h t] [|? ?]] eqn:Eo; try discriminate.
  apply bind_ok in E. destruct E as (d & Hd & E). apply bind_ok in E. destruct E as (z & Hz & E).
  exists a, h, t, d. inversion E; subst. auto 10.
Qed.

(** A file with a tab in its name is not found. *)
Theorem C27_refuted : exists s o p a head t tags f,
  opened s /\ wf_tree (so_tree s) /\ apply_plan s o p None [] = Ok a /\ a_out a = [(head, t)] /\
  tags_of (so_reader s) t = Ok tags /\
  (exists m, In m (p_manifests p) /\ In f (m_contents m)) /\ is_file f (so_tree s) = true /\ is_file f t = true /\
  snd (lookup_file f false (open_hb head t tags (so_reader s))) = Ok None.
Proof.
  set (f := U "data/a" ++ [TAB] ++ U "b"). set (man := U "h data/a" ++ [TAB] ++ U "b" ++ [LF]). set (c := U "abcd").
  assert (X : opened (tiny f c man)) by (vm_compute; reflexivity).
  assert (W : wf_tree (so_tree (tiny f c man))) by (apply wf_treeb_ok; vm_compute; reflexivity).
  assert (Fs : is_file f (so_tree (tiny f c man)) = true) by reflexivity.
  assert (E : new_answer (tiny f c man) ex_opts (tiny_plan f c man) f = Ok (None, true)) by (vm_compute; reflexivity).
  assert (P : exists m, In m (p_manifests (tiny_plan f c man)) /\ In f (m_contents m)).
  { eexists. split; [left; reflexivity|]. left. reflexivity. }
  apply new_answer_out in E. destruct E as (a & h & t & d & A & B & C & D & F).
  exists (tiny f c man), ex_opts, (tiny_plan f c man), a, h, t, d, f. do 8 (split; [assumption|]). assumption.
Qed.

Print Assumptions C27_refuted.

(** ** C28: checksums *)

(** The recorded checksums are those in the manifests on the disk. *)
Definition checksums_loaded (s : source) : Prop :=
  exists dangerous v1,
    load_manifests dangerous v1 (so_reader s) (bag_manifests (so_algos s) true (so_tree s)) = Ok (so_entries s).

(** An opened split bag records for the files it holds what the source does,
    and nothing else. Missing for C28: file names that cannot be written into
    a manifest as they are (with line breaks, "%0A", "%0D", leading '*' or
    surrounding blanks), see [C28_refuted], and plans that name a manifest. *)
Theorem C28_checksums_partial : forall s o p it out bags,
  NoDup (so_algos s) -> checksums_loaded s ->
  (forall a f h, checksum (so_entries s) a f = Some h -> hd 0 h <> BOM) ->
  splits_into s o p it out bags ->
  (forall m f, In m (p_manifests p) -> In f (m_contents m) ->
     (forall a, f <> U "manifest-" ++ a ++ U ".txt" /\ f <> U "tagmanifest-" ++ a ++ U ".txt") /\
     ((exists a, checksum (so_entries s) a f <> None) -> manifest_path (so_reader s) f)) ->
  Forall2 (fun mh bt => forall dangerous v1,
     (v1 = true -> NoDup (m_contents (fst mh))) ->
     (forall f, In f (m_contents (fst mh)) -> dangerous f = false) ->
     exists e,
       load_manifests dangerous v1 (so_reader s) (bag_manifests (so_algos s) true (snd bt)) = Ok e /\
       forall a f, checksum e a f =
         if str_in f (m_contents (fst mh)) && is_file f (so_tree s) then checksum (so_entries s) a f else None)
    (manifests p) bags.
Proof.
  intros s o p it out bags Na (dg & v & Hl) Hb H Hf.
  pose proof (loaded_sums_ok dg v s Na Hl Hb) as S.
  apply made_split in H. destruct H as (ms0 & lu0 & ms' & lu' & _ & M & _). apply made_each in M.
  apply (each_bag s o p bags M (fun m h bt => forall dangerous v1,
     (v1 = true -> NoDup (m_contents m)) -> (forall f, In f (m_contents m) -> dangerous f = false) ->
     exists e, load_manifests dangerous v1 (so_reader s) (bag_manifests (so_algos s) true (snd bt)) = Ok e /\
       forall a f, checksum e a f =
         if str_in f (m_contents m) && is_file f (so_tree s) then checksum (so_entries s) a f else None)).
  intros m h [b t] Im (ms & lu & c & Rc & R & _) dangerous v1 Nv Hd. cbn [fst snd] in *.
  destruct (load_bag s (so_reader s) S m t) with (dangerous := dangerous) (v1 := v1) as (e & E & C).
  - intros k a Ik _. eapply read_manifest; [exact R|apply (so_once s S)|exact Ik|].
    intros J. apply Hf in J; [|exact Im]. destruct J as [J _]. destruct (J a) as [J1 J2].
    destruct Ik as [<-|[<-|[]]]; [apply J1|apply J2]; reflexivity.
  - intros f a x I Cx. unfold plan_files in I. apply filter_In in I. destruct I as [I _].
    apply (Hf m f); auto. exists a. congruence.
  - intros V. unfold plan_files. apply NoDup_filter. auto.
  - intros f I. unfold plan_files in I. apply filter_In in I. apply Hd. tauto.
  - exists e. split; [exact E|]. intros a f. rewrite C.
    replace (str_in f (plan_files s m)) with (str_in f (m_contents m) && is_file f (so_tree s)); [reflexivity|].
    unfold plan_files. apply Bool.eq_iff_eq_true. rewrite andb_true_iff, !str_in_iff, filter_In. reflexivity.
Qed.

Example C28_case :
  NoDup (so_algos ex_source) /\ checksums_loaded ex_source /\
  (forall a f h, checksum (so_entries ex_source) a f = Some h -> hd 0 h <> BOM) /\
  (forall m f, In m (p_manifests ex_plan) -> In f (m_contents m) ->
     (forall a, f <> U "manifest-" ++ a ++ U ".txt" /\ f <> U "tagmanifest-" ++ a ++ U ".txt") /\
     ((exists a, checksum (so_entries ex_source) a f <> None) -> manifest_path Codecs f)) /\
  Forall2 (fun (mh : manifest * bool) (bt : pystr * tree) => checksum (got [] (load_manifests (fun _ => false) true Codecs (bag_manifests ex_algos true (snd bt))))
                                 (U "md5") (U "data/d/b") = if snd mh then Some (U "h2") else None)
          (manifests ex_plan) ex_bags.
Proof.
  split; [|split; [|split; [|split]]].
  - constructor; [intros [E|[]]; discriminate|]. constructor; [intros []|constructor].
  - exists (fun _ => false), true. vm_compute. reflexivity.
  - intros a f h. change (so_entries ex_source) with
      (got [] (load_manifests (fun _ => false) true Codecs (bag_manifests ex_algos true ex_tree))).
    assert (E : got [] (load_manifests (fun _ => false) true Codecs (bag_manifests ex_algos true ex_tree)) =
                [(U "data/a", [(U "md5", U "h1")]); (U "data/d/b", [(U "md5", U "h2")]); (U "meta/m", [(U "md5", U "h3")])])
      by (vm_compute; reflexivity).
    rewrite E. unfold checksum. cbn [od_get].
    destruct (streq f (U "data/a")); [|destruct (streq f (U "data/d/b")); [|destruct (streq f (U "meta/m")); [|discriminate]]];
      cbn [od_get]; destruct (streq a (U "md5")); intros [= <-]; discriminate.
  - assert (MP : forall f, manifest_path Codecs f \/ ~ In f [U "data/a"; U "data/d/b"; U "data/e"; U "meta/m"; U "gone"]).
    { intros f. destruct (in_dec str_eq_dec f [U "data/a"; U "data/d/b"; U "data/e"; U "meta/m"; U "gone"]) as [I|I]; [left|auto].
      destruct I as [<-|[<-|[<-|[<-|[<-|[]]]]]]; constructor; try reflexivity;
        first [apply trimmedb_ok; reflexivity|apply no_brk_b; reflexivity|apply good_pathb_ok; reflexivity]. }
    intros m f Im If. assert (J : In f [U "data/a"; U "data/d/b"; U "data/e"; U "meta/m"; U "gone"]).
    { destruct Im as [<-|[<-|[]]]; cbn [m_contents] in If; destruct If as [<-|[<-|If]]; try destruct If as [<-|[]]; try contradiction; cbn [In]; auto 10. }
    split.
    + intros a. destruct J as [<-|[<-|[<-|[<-|[<-|[]]]]]]; split; discriminate.
    + intros _. destruct (MP f); [assumption|contradiction].
  - unfold ex_bags. destruct (apply_plan ex_source ex_opts ex_plan None []) as [a|e] eqn:E; [|vm_compute in E; discriminate].
    assert (Q : match apply_plan ex_source ex_opts ex_plan None [] with
                | Ok a => map (fun bt : pystr * tree => checksum (got [] (load_manifests (fun _ => false) true Codecs (bag_manifests ex_algos true (snd bt))))
                                 (U "md5") (U "data/d/b")) (a_out a) | Err _ => [] end = [None; Some (U "h2")]) by (vm_compute; reflexivity).
    rewrite E in Q. destruct (a_out a) as [|x [|y [|z l]]]; try discriminate. cbn [map] in Q. injection Q as Q1 Q2.
    constructor; [exact Q1|]. constructor; [exact Q2|constructor].
Qed.

Print Assumptions C28_checksums_partial.

(** The payload checksums of the bag made by a split into one bag. *)
Definition new_sums (s : source) (o : apply_opts) (p : plan) : res entries :=
  let? a := apply_plan s o p None [] in
  match a_out a with
  | [(head, t)] => load_manifests (fun _ => false) true (so_reader s) (bag_manifests (so_algos s) true t)
  | _ => Err EIndex
  end.

(** A file with a line break in its name, which the source's manifest lists
    as "%0A", is written with the line break: the new bag lists another file
    instead. *)
Theorem C28_refuted : exists s o p a head t e f,
  opened s /\ wf_tree (so_tree s) /\ checksums_loaded s /\ apply_plan s o p None [] = Ok a /\ a_out a = [(head, t)] /\
  load_manifests (fun _ => false) true (so_reader s) (bag_manifests (so_algos s) true t) = Ok e /\
  is_file f t = true /\ checksum (so_entries s) (U "md5") f = Some (U "h") /\
  checksum e (U "md5") f = None /\
  checksum e (U "md5") (U "data/a") = Some (U "h") /\ is_file (U "data/a") t = false.
Proof.
  set (f := U "data/a" ++ [LF] ++ U "b"). set (man := U "h  data/a%0Ab" ++ [LF]). set (c := U "abcd").
  assert (X : opened (tiny f c man)) by (vm_compute; reflexivity).
  assert (W : wf_tree (so_tree (tiny f c man))) by (apply wf_treeb_ok; vm_compute; reflexivity).
  assert (Lo : checksums_loaded (tiny f c man)) by (exists (fun _ => false), true; vm_compute; reflexivity).
  assert (Cs : checksum (so_entries (tiny f c man)) (U "md5") f = Some (U "h")) by (vm_compute; reflexivity).
  assert (E : match new_sums (tiny f c man) ex_opts (tiny_plan f c man) with
              | Ok e => Some (checksum e (U "md5") f, checksum e (U "md5") (U "data/a"))
              | Err _ => None
              end = Some (None, Some (U "h"))) by (vm_compute; reflexivity).
  assert (Fl : match apply_plan (tiny f c man) ex_opts (tiny_plan f c man) None [] with
               | Ok a => map (fun bt : pystr * tree => (is_file f (snd bt), is_file (U "data/a") (snd bt))) (a_out a)
               | Err _ => []
               end = [(true, false)]) by (vm_compute; reflexivity).
  exists (tiny f c man), ex_opts, (tiny_plan f c man). unfold new_sums in E.
  destruct (apply_plan (tiny f c man) ex_opts (tiny_plan f c man) None []) as [a|] eqn:Ha; [|discriminate].
  cbn [bind] in E. destruct (a_out a) as [|[h t] [|? ?]] eqn:Eo; try discriminate.
  destruct (load_manifests _ _ _ _) as [e|] eqn:Le in E; [|discriminate].
  exists a, h, t, e, f. injection E as E1 E2. injection Fl as F1 F2.
  do 10 (split; [assumption || reflexivity|]). assumption.
Qed.

Print Assumptions C28_refuted.

(** ** C29: Payload-Oxum *)

(** Bytes and number of the payload files of a bag. *)
Definition payload_files (t : tree) : list pystr := filter (fun f => startswith f (U "data/")) (files t).
Definition oxum (t : tree) : pystr :=
  dec (sum_N (map (fun f => size_of f t) (payload_files t))) ++ [DOT] ++ dec (N.of_nat (length (payload_files t))).

(** If the source has the tag and it is to be passed on, each bag says what
    its payload amounts to. *)
Theorem C29_oxum : forall s o p it out bags,
  opened s -> plain_opts (so_reader s) o -> splits_into s o p it out bags ->
  Forall (fun b => no_brk (so_reader s) b) (map fst bags) ->
  Forall (fun m => NoDup (m_contents m)) (p_manifests p) ->
  Forall (fun bt => exists d, tags_of (so_reader s) (snd bt) = Ok d /\
            tag_values d (U "Payload-Oxum") =
              if od_has (U "Payload-Oxum") (so_info s) && negb (str_in (U "Payload-Oxum") (ao_nopass o))
              then [oxum (snd bt)] else []) bags.
Proof.
  intros s o p it out bags Ho Hp H Fb Fm.
  apply made_split in H. destruct H as (ms0 & lu0 & ms' & lu' & _ & M & _). apply made_each in M.
  rewrite Forall_map in Fb.
  assert (G : Forall2 (fun (mh : manifest * bool) bt => no_brk (so_reader s) (fst bt) ->
     exists d, tags_of (so_reader s) (snd bt) = Ok d /\
            tag_values d (U "Payload-Oxum") =
              if od_has (U "Payload-Oxum") (so_info s) && negb (str_in (U "Payload-Oxum") (ao_nopass o))
              then [oxum (snd bt)] else []) (manifests p) bags).
  { apply (each_bag s o p bags M (fun m h bt => no_brk (so_reader s) (fst bt) ->
     exists d, tags_of (so_reader s) (snd bt) = Ok d /\
            tag_values d (U "Payload-Oxum") =
              if od_has (U "Payload-Oxum") (so_info s) && negb (str_in (U "Payload-Oxum") (ao_nopass o))
              then [oxum (snd bt)] else [])).
    intros m h [b t] Im (ms & lu & O) Nb. cbn [fst snd] in *.
    destruct (bag_tags s o m h ms lu b t Ho Hp Nb O) as (d & Td & Sh & V). exists d. split; [exact Td|].
    rewrite V, in_info_items. change (U "Payload-Oxum") with T_OXUM.
    destruct (opened_info_ok s Ho) as [Ni Hi].
    rewrite v_oxum; [|exact Ni|intros k v I; apply (Hi k v I)].
    assert (Nm : NoDup (m_contents m)) by (rewrite Forall_forall in Fm; auto).
    pose proof (payload_oxum _ _ _ _ _ _ _ _ O Nm : oxum_text s m = oxum t) as Eo. rewrite Eo.
    assert (Vh : values_of T_OXUM (head_items o) = []) by (rewrite values_head; reflexivity).
    rewrite Vh. cbn [streq app].
    replace (if h then [] else []) with (@nil pystr) by (destruct h; reflexivity).
    replace (streq T_Version T_OXUM) with false by reflexivity. replace (streq T_TagDir T_OXUM) with false by reflexivity.
    cbn [app]. rewrite !app_nil_r.
    unfold passed. replace (startswith T_OXUM P_MULTIBAG) with false by reflexivity. cbn [orb].
    assert (U1 : unfold_value (so_reader s) (oxum t) = oxum t).
    { assert (B : no_brk (so_reader s) (oxum t)).
      { unfold oxum. apply no_brk_app. split; [apply dec_no_brk|]. apply no_brk_app. split; [|apply dec_no_brk].
        apply no_brk_b. destruct (so_reader s); reflexivity. }
      apply plain_folded. split; [|exact B]. right. unfold oxum. apply trimmed_app; apply dec_trimmed. }
    destruct (str_in T_OXUM (ao_nopass o)) eqn:Sn.
    - cbn. rewrite andb_false_r. reflexivity.
    - rewrite andb_true_r. unfold od_has, tag_values. destruct (od_get T_OXUM (so_info s)) as [v|] eqn:G; [|reflexivity].
      apply od_get_in in G. destruct (Hi _ _ G) as (_ & Ne & _).
      destruct v as [x|[|x l]]; cbn [vals_of] in Ne; try congruence; cbn [if_any map]; rewrite U1; reflexivity. }
  clear -G Fb. induction G; constructor.
  - inversion Fb; subst. auto.
  - apply IHG. inversion Fb; subst; auto.
Qed.

Example C29_case :
  Forall (fun b => no_brk Codecs b) (map fst ex_bags) /\
  Forall (fun m => NoDup (m_contents m)) (p_manifests ex_plan) /\
  od_has (U "Payload-Oxum") (so_info ex_source) = true /\ map (fun bt => oxum (snd bt)) ex_bags = [U "4.1"; U "3.1"].
Proof.
  destruct ex_splits as [_ E]. split; [|split; [|split]].
  - rewrite E. apply Forall_forall. intros x [<-|[<-|[]]]; apply no_brk_b; reflexivity.
  - apply Forall_forall. intros m [<-|[<-|[]]]; cbn [m_contents];
      repeat (constructor; [cbn [In]; intuition discriminate|]); constructor.
  - vm_compute; reflexivity.
  - vm_compute; reflexivity.
Qed.

Print Assumptions C29_oxum.

(** ** C30: bag-info.txt *)

(** The values of tag [k] of the source that are passed on. *)
Definition passed_on (nopass : list pystr) (i : infod) (k : pystr) : list pystr :=
  if startswith k (U "Multibag-") || str_in k nopass then [] else tag_values i k.

(** Sequences of the same words. *)
Fixpoint words_of (s : pystr) : list pystr :=
  match s with
  | [] => [[]]
  | c :: t => if is_ws c then [] :: words_of t
              else match words_of t with [] => [[c]] | w :: ws => (c :: w) :: ws end
  end.
Definition words (s : pystr) : list pystr := filter (fun w => negb (streq w [])) (words_of s).

(** What the documentation says of the tags [d] of an output bag named [b]
    that was split off a bag with tags [i] (the Payload-Oxum is in C29). *)
Record documented (i : infod) (o : apply_opts) (b : pystr) (ishead : bool) (d : infod) : Prop := {
  (* most tags are the same *)
  doc_same : forall k, startswith k (U "Multibag-") = false ->
    ~ In k [U "Internal-Sender-Identifier"; U "Internal-Sender-Description"; U "External-Identifier";
            U "Bag-Group-Identifier"; U "Bag-Size"; U "Payload-Oxum"] ->
    tag_values d k = passed_on (ao_nopass o) i k;
  (* the identifier is the bag's name *)
  doc_id : tag_values d (U "Internal-Sender-Identifier") =
    match passed_on (ao_nopass o) i (U "Internal-Sender-Identifier") with [] => [] | _ => [b] end;
  (* the description is that of a part of an aggregation *)
  doc_desc : map words (tag_values d (U "Internal-Sender-Description")) =
    match passed_on (ao_nopass o) i (U "Internal-Sender-Description") with [] => [] | _ => [words SPLIT_DESC] end;
  doc_ext : tag_values d (U "External-Identifier") =
    match passed_on (ao_nopass o) i (U "External-Identifier") with
    | [] => []
    | v :: _ => [v ++ U "/mbag:" ++ b]
    end;
  doc_group : Permutation (tag_values d (U "Bag-Group-Identifier"))
    (passed_on (ao_nopass o) i (U "Bag-Group-Identifier") ++ passed_on (ao_nopass o) i (U "External-Identifier"));
  doc_size : tag_values d (U "Bag-Size") = [];
  (* what was replaced is kept *)
  doc_source : forall k, In k [U "Internal-Sender-Identifier"; U "Internal-Sender-Description";
                               U "External-Identifier"; U "Bag-Size"] ->
    tag_values d (U "Multibag-Source-" ++ k) = passed_on (ao_nopass o) i k;
  doc_version : tag_values d (U "Multibag-Version") = [U "0.4"];
  doc_tagdir : tag_values d (U "Multibag-Tag-Directory") = [U "multibag"];
  doc_head : tag_values d (U "Multibag-Head-Version") = if ishead then [ao_version o] else [];
  doc_deprecates : tag_values d (U "Multibag-Head-Deprecates") =
    if ishead then map (fun p => match snd p with Some b => fst p ++ U "," ++ b | None => fst p end) (ao_deprecates o)
    else [];
  (* no other multibag tags *)
  doc_others : forall k, startswith k (U "Multibag-") = true ->
    ~ In k [U "Multibag-Version"; U "Multibag-Tag-Directory"; U "Multibag-Head-Version"; U "Multibag-Head-Deprecates";
            U "Multibag-Source-Internal-Sender-Identifier"; U "Multibag-Source-Internal-Sender-Description";
            U "Multibag-Source-External-Identifier"; U "Multibag-Source-Bag-Size"] ->
    tag_values d k = []
}.

(** Missing for C30: tags of the source whose value extends over several
    lines, see [C30_refuted]. *)
Theorem C30_bag_info_partial : forall s o p it out bags,
  opened s -> plain_opts (so_reader s) o -> splits_into s o p it out bags ->
  Forall (fun b => tag_value_ok (so_reader s) b) (map fst bags) ->
  (forall k v, In v (tag_values (so_info s) k) -> no_brk (so_reader s) v) ->
  Forall2 (fun mh bt => exists d, tags_of (so_reader s) (snd bt) = Ok d /\
                                  documented (so_info s) o (fst bt) (snd mh) d) (manifests p) bags.
Proof.
  intros s o p it out bags Ho Hp H Fb Fv. set (r := so_reader s) in *.
  apply made_split in H. destruct H as (ms0 & lu0 & ms' & lu' & _ & M & _). apply made_each in M.
  assert (G : Forall2 (fun (mh : manifest * bool) bt => tag_value_ok r (fst bt) ->
     exists d, tags_of r (snd bt) = Ok d /\ documented (so_info s) o (fst bt) (snd mh) d) (manifests p) bags).
  { apply (each_bag s o p bags M (fun m h bt => tag_value_ok r (fst bt) ->
     exists d, tags_of r (snd bt) = Ok d /\ documented (so_info s) o (fst bt) h d)).
    intros m h [b t] Im (ms & lu & O) Nb. cbn [fst snd] in *.
    destruct (bag_tags s o m h ms lu b t Ho Hp (proj2 Nb) O) as (d & Td & Sh & V). fold r in Td, V.
    exists d. split; [exact Td|].
    destruct (opened_info_ok s Ho) as [Ni Hi]. fold r in Hi.
    assert (Ne : forall k v, In (k, v) (so_info s) -> vals_of v <> []) by (intros k v I; apply (Hi k v I)).
    set (i := so_info s) in *. set (ox := oxum_text s m) in *.
    assert (V' : forall k, tag_values d k = map (unfold_value r) (
       (if streq T_Version k then [CURRENT_VERSION] else []) ++ values_of k (from_source o i b ox) ++
       (if streq T_TagDir k then [MULTIBAG] else []) ++
       (if h then (if streq T_HeadVersion k then [ao_version o] else []) ++
                  (if streq T_HeadDeprecates k then
                     map (fun p => match snd p with Some b => fst p ++ U "," ++ b | None => fst p end) (ao_deprecates o) else [])
        else []))).
    { intros k. rewrite V, in_info_items, values_head. reflexivity. }
    assert (Pl : forall k, startswith k P_MULTIBAG = false ->
                 tag_values d k = map (unfold_value r) (values_of k (from_source o i b ox))).
    { intros k Sk. rewrite V'. assert (D : forall x, startswith x P_MULTIBAG = true -> streq x k = false).
      { intros x Sx. apply streq_neq. congruence. }
      rewrite !D by reflexivity. cbn [app]. destruct h; rewrite !app_nil_r; reflexivity. }
    assert (Ups : forall k, map (unfold_value r) (passed o i k) = passed o i k).
    { intros k. unfold passed. destruct (startswith k P_MULTIBAG || str_in k (ao_nopass o)); [reflexivity|].
      rewrite <- (map_id (tag_values i k)) at 2. apply map_ext_in. intros v I. apply plain_folded. split; [|apply (Fv k v I)].
      unfold tag_values in I. destruct (od_get k i) as [x|] eqn:G; [|destruct I]. apply od_get_in in G.
      destruct (Hi _ _ G) as (_ & _ & F). rewrite Forall_forall in F. assert (J : In v (vals_of x)) by (destruct x; exact I).
      apply F in J. destruct J as [J _]. exact J. }
    assert (Ub : unfold_value r b = b) by (apply plain_folded; exact Nb).
    assert (U1 : forall x, (forall r, unfold_value r x = x) -> map (unfold_value r) [x] = [x]) by (intros x E; cbn; rewrite E; reflexivity).
    constructor.
    - intros k Sk Nk. rewrite Pl by exact Sk. rewrite v_plain; auto. apply Ups.
    - rewrite Pl by reflexivity. change (U "Internal-Sender-Identifier") with T_ISI. rewrite v_isi; auto.
      fold (passed o i T_ISI). change (passed_on (ao_nopass o) i T_ISI) with (passed o i T_ISI).
      destruct (passed o i T_ISI); cbn; rewrite ?Ub; reflexivity.
    - rewrite Pl by reflexivity. change (U "Internal-Sender-Description") with T_ISD. rewrite v_isd; auto.
      change (passed_on (ao_nopass o) i T_ISD) with (passed o i T_ISD).
      destruct (passed o i T_ISD); [reflexivity|]. cbn [if_any map]. f_equal. destruct r; vm_compute; reflexivity.
    - rewrite Pl by reflexivity. change (U "External-Identifier") with T_EXT. rewrite v_ext; auto.
      change (passed_on (ao_nopass o) i T_EXT) with (passed o i T_EXT).
      destruct (passed o i T_EXT) as [|v l] eqn:E; [reflexivity|]. cbn [map]. f_equal. apply plain_folded.
      assert (Iv : In v (passed o i T_EXT)) by (rewrite E; left; reflexivity). unfold passed in Iv.
      destruct (startswith T_EXT P_MULTIBAG || str_in T_EXT (ao_nopass o)); [destruct Iv|].
      split.
      + assert (Tv : v = [] \/ trimmed v).
        { unfold tag_values in Iv. destruct (od_get T_EXT i) as [x|] eqn:G; [|destruct Iv]. apply od_get_in in G.
          destruct (Hi _ _ G) as (_ & _ & F). rewrite Forall_forall in F. assert (J : In v (vals_of x)) by (destruct x; exact Iv).
          apply F in J. destruct J as [J _]. exact J. }
        right. assert (Tm : trimmed (U "/mbag:" ++ b)).
        { destruct Nb as [[->|Tb] _]; [apply trimmedb_ok; reflexivity|]. apply (trimmed_app (U "/mbag:") [] b); auto.
          apply trimmedb_ok; reflexivity. }
        destruct Tv as [->|Tv]; [exact Tm|]. apply (trimmed_app v [] (U "/mbag:" ++ b)); auto.
      + apply no_brk_app. split; [apply (Fv T_EXT v Iv)|]. apply no_brk_app. split; [|exact (proj2 Nb)].
        apply no_brk_b. destruct r; reflexivity.
    - rewrite Pl by reflexivity. change (U "Bag-Group-Identifier") with T_GROUP. change (U "External-Identifier") with T_EXT.
      change (passed_on (ao_nopass o) i T_GROUP) with (passed o i T_GROUP).
      change (passed_on (ao_nopass o) i T_EXT) with (passed o i T_EXT).
      rewrite <- (Ups T_GROUP), <- (Ups T_EXT), <- map_app. apply Permutation_map. apply v_group; auto.
    - rewrite Pl by reflexivity. change (U "Bag-Size") with T_BagSize. rewrite v_size; auto.
    - intros k Ik. rewrite V'. change (U "Multibag-Source-") with P_SOURCE.
      change (passed_on (ao_nopass o) i k) with (passed o i k).
      rewrite v_source; auto. rewrite <- (Ups k) at 2.
      destruct Ik as [<-|[<-|[<-|[<-|[]]]]];
        repeat match goal with |- context [streq ?a ?b] => change (streq a b) with false end; cbn [app];
        destruct h; cbn [app]; rewrite ?app_nil_r; reflexivity.
    - rewrite V'. change (U "Multibag-Version") with T_Version.
      rewrite v_multibag; auto; [|cbn; intuition discriminate].
      repeat match goal with |- context [streq ?a ?b] => first [change (streq a b) with false|change (streq a b) with true] end.
      destruct h, r; vm_compute; reflexivity.
    - rewrite V'. change (U "Multibag-Tag-Directory") with T_TagDir.
      rewrite v_multibag; auto; [|cbn; intuition discriminate].
      repeat match goal with |- context [streq ?a ?b] => first [change (streq a b) with false|change (streq a b) with true] end.
      destruct h, r; vm_compute; reflexivity.
    - rewrite V'. change (U "Multibag-Head-Version") with T_HeadVersion.
      rewrite v_multibag; auto; [|cbn; intuition discriminate].
      repeat match goal with |- context [streq ?a ?b] => first [change (streq a b) with false|change (streq a b) with true] end.
      cbn [app]. destruct h; [|reflexivity]. cbn [app map]. f_equal. apply plain_folded. apply (proj1 Hp).
    - rewrite V'. change (U "Multibag-Head-Deprecates") with T_HeadDeprecates.
      rewrite v_multibag; auto; [|cbn; intuition discriminate].
      repeat match goal with |- context [streq ?a ?b] => first [change (streq a b) with false|change (streq a b) with true] end.
      cbn [app]. destruct h; [|reflexivity]. rewrite map_map. apply map_ext_in. intros x Ix. apply plain_folded.
      destruct Hp as [_ Hd]. rewrite Forall_forall in Hd. apply (Hd x Ix).
    - intros k Sk Nk. rewrite V'. rewrite v_multibag; auto.
      + assert (D : forall x, In x [T_Version; T_TagDir; T_HeadVersion; T_HeadDeprecates] -> streq x k = false).
        { intros x I. apply streq_neq. intros ->. apply Nk. destruct I as [<-|[<-|[<-|[<-|[]]]]]; cbn [In]; auto 10. }
        rewrite !D by (cbn [In]; auto 10). destruct h; reflexivity.
      + intros I. apply Nk. destruct I as [<-|[<-|[<-|[<-|[]]]]]; cbn [In]; auto 10. }
  rewrite Forall_map in Fb. clear -G Fb. induction G; constructor.
  - inversion Fb; subst. auto.
  - apply IHG. inversion Fb; subst; auto.
Qed.

(** * Properties of split plans (C12-C24) *)

Require Import String NArith PeanoNat Bool List Lia Permutation Sorted.
From Verif Require Import PyBase PyFacts Fs FsFacts HeadBagProofs3 Split SplitProofs SplitProofs2 SplitProofs3.
Import ListNotations.
Open Scope N_scope.

(** ** Specification vocabulary *)

(** Sum of the sizes of a group of files. *)
Definition sum_sizes (g : list finfo) : N := fold_right N.add 0 (map f_size g).

(** The manifest [m] lists exactly the files [g], by their paths without the
    leading '/', and records the sum of their sizes. *)
Definition describes (m : manifest) (g : list finfo) : Prop :=
  map f_path g = map (fun c => SLASH :: c) (m_contents m) /\ m_total m = sum_sizes g.

(** The manifests [ms] distribute the files [fs] over the groups [gs]: every
    file is in exactly one group, and no group is empty. *)
Definition distributes (fs : list finfo) (ms : list manifest) (gs : list (list finfo)) : Prop :=
  Forall2 describes ms gs /\ Permutation (concat gs) fs /\ Forall (fun g => g <> []) gs.

(** Absolute paths, as the file system gives them. *)
Definition absolute (fs : list finfo) : Prop := Forall (fun f => exists r, f_path f = SLASH :: r) fs.

Definition biggest_first (fs : list finfo) : Prop :=
  forall l1 a l2 b l3, fs = l1 ++ a :: l2 ++ b :: l3 -> f_size b <= f_size a.

Lemma sum_sizes_total g : sum_sizes g = total g.
Proof. unfold sum_sizes. induction g as [|f g IH]; cbn; [reflexivity|]. rewrite IH. reflexivity. Qed.

Lemma describes_man_of g : absolute g -> describes (man_of g) g.
Proof.
  intros A. unfold describes. rewrite sum_sizes_total. split; [|reflexivity]. cbn.
  rewrite map_map. apply map_ext_in. intros f Hf. unfold absolute in A. rewrite Forall_forall in A.
  destruct (A f Hf) as [r ->]. reflexivity.
Qed.

Lemma distributes_man_of fs cs : absolute fs -> Permutation (concat cs) fs ->
  Forall (fun c => c <> []) cs -> distributes fs (map man_of cs) cs.
Proof.
  intros A P N1. split; [|split; assumption].
  assert (A' : Forall absolute cs).
  { apply Forall_forall. intros c Hc. unfold absolute in *. rewrite Forall_forall in *.
    intros f Hf. apply A. eapply Permutation_in; [exact P|]. apply in_concat. eauto. }
  clear P N1. induction A' as [|c cs Hc _ IH]; cbn; constructor; auto. apply describes_man_of, Hc.
Qed.

Lemma biggest_first_desc fs : biggest_first fs -> desc fs.
Proof.
  induction fs as [|f fs IH]; intros H; [constructor|]. constructor.
  - apply IH. intros l1 a l2 b l3 ->. apply (H (f :: l1) a l2 b l3). reflexivity.
  - apply Forall_forall. intros x Hx. apply in_split in Hx as (l1 & l2 & ->).
    apply (H [] f l1 x l2). reflexivity.
Qed.

Lemma tight_split s cs : forall g1 c g2, tight s cs [] -> cs = g1 ++ c :: g2 ->
  total c <= s_target s -> Forall (fun f => s_max s < total c + f_size f) (concat g2).
Proof.
  induction cs as [|x cs IH]; intros g1 c g2 T E L; [destruct g1; discriminate|].
  cbn in T. destruct T as [T1 T2]. rewrite app_nil_r in T1. destruct g1 as [|y g1].
  - injection E as -> ->. auto.
  - injection E as -> ->. eapply IH; eauto.
Qed.

Lemma pairs_exceed s cs g1 c g2 d g3 : s_target s = s_max s -> tight s cs [] ->
  Forall (fun c => c <> []) cs -> cs = g1 ++ c :: g2 ++ d :: g3 -> s_max s < total c + total d.
Proof.
  intros Et T N1 E. destruct (N.le_gt_cases (total c) (s_target s)) as [L|L]; [|lia].
  pose proof (tight_split s cs g1 c (g2 ++ d :: g3) T E L) as F.
  assert (Hd : d <> []).
  { rewrite Forall_forall in N1. apply N1. rewrite E, !in_app_iff. cbn. rewrite in_app_iff. cbn. auto 7. }
  destruct d as [|f d]; [congruence|]. rewrite Forall_forall in F.
  specialize (F f). rewrite concat_app, in_app_iff in F. cbn in F. specialize (F (or_intror (or_introl eq_refl))).
  cbn. lia.
Qed.

Lemma adjacent_sum M xs : forall x,
  (forall l1 a b l2, x :: xs = l1 ++ a :: b :: l2 -> M < a + b) ->
  (N.of_nat (length xs) * M + x <= 2 * fold_right N.add 0 (x :: xs)) /\
  (xs <> [] -> N.of_nat (length xs) * M + x < 2 * fold_right N.add 0 (x :: xs)).
Proof.
  induction xs as [|y xs IH]; intros x H.
  - cbn [fold_right length]. split; [lia|congruence].
  - destruct (IH y) as [I1 I2].
    { intros l1 a b l2 E. apply (H (x :: l1) a b l2). rewrite E. reflexivity. }
    pose proof (H [] x y xs eq_refl) as K. cbn [fold_right length] in *.
    rewrite Nnat.Nat2N.inj_succ. split; [nia|]. intros _. nia.
Qed.

(** ** C12 *)

Theorem C12_well_packed_is_a_partition : forall s fs, absolute fs ->
  (exists n, forall fuel, (n <= fuel)%nat ->
     well_packed_in s fuel fs = Some (well_packed s fs)) /\
  exists gs, distributes fs (well_packed s fs) gs.
Proof.
  intros s fs A. destruct (well_packed_spec s fs) as (T & cs & E & P & N1 & _).
  split; [eauto|]. exists cs. rewrite E. apply distributes_man_of; assumption.
Qed.

Definition ex_files : list finfo :=
  [{| f_path := U "/data/big"; f_size := 9 |}; {| f_path := U "/data/a"; f_size := 4 |};
   {| f_path := U "/data/b/c"; f_size := 3 |}; {| f_path := U "/data/b/d"; f_size := 2 |};
   {| f_path := U "/data/e"; f_size := 2 |}; {| f_path := U "/m/f"; f_size := 0 |}].
Definition ex_splitter : splitter := {| s_max := 6; s_target := 6; s_forhead := [] |}.

Example C12_case : absolute ex_files /\
  map m_contents (well_packed ex_splitter ex_files) =
  [[U "data/big"]; [U "data/a"; U "data/b/d"; U "m/f"]; [U "data/b/c"; U "data/e"]].
Proof. split; [|reflexivity]. repeat constructor; eexists; reflexivity. Qed.

(** ** C13 *)

Theorem C13_bags_respect_the_limit : forall s fs, absolute fs -> biggest_first fs ->
  exists gs, distributes fs (well_packed s fs) gs /\
    Forall (fun g => sum_sizes g <= s_max s \/ exists f, g = [f] /\ s_max s < f_size f) gs.
Proof.
  intros s fs A B. destruct (well_packed_spec s fs) as (_ & cs & E & P & N1 & _ & _ & Z).
  exists cs. rewrite E. split; [apply distributes_man_of; assumption|].
  specialize (Z (biggest_first_desc _ B)). eapply Forall_impl; [|exact Z].
  intros g. rewrite sum_sizes_total. auto.
Qed.

(** In any order of the work list: a bag over the limit has a file over the
    limit, and all its other files are empty. *)
Theorem C13_any_order : forall s fs, absolute fs ->
  exists gs, distributes fs (well_packed s fs) gs /\
    Forall (fun g => sum_sizes g <= s_max s \/
                     exists g' f, g = g' ++ [f] /\ sum_sizes g' = 0 /\ s_max s < f_size f) gs.
Proof.
  intros s fs A. destruct (well_packed_spec s fs) as (_ & cs & E & P & N1 & C & _).
  exists cs. rewrite E. split; [apply distributes_man_of; assumption|].
  eapply Forall_impl; [|exact C]. intros g (c' & x & -> & _ & _ & H). rewrite sum_sizes_total.
  destruct H as [H|[H K]]; [auto|]. right. exists c', x. rewrite sum_sizes_total. auto.
Qed.

Example C13_case : biggest_first ex_files /\
  map m_total (well_packed ex_splitter ex_files) = [9; 6; 5].
Proof.
  split; [|reflexivity]. intros l1 a l2 b l3 E. unfold ex_files in E.
  assert (S : desc ex_files).
  { unfold ex_files, desc. repeat constructor; cbn; lia. }
  unfold desc, ex_files in S. rewrite E in S. apply SS_app_inv in S as (_ & S & _).
  inversion S as [|? ? _ F]; subst. rewrite Forall_forall in F. apply F.
  rewrite in_app_iff. cbn. auto.
Qed.

(** Without the order, a bag may hold an oversize file and an empty one. *)
Example C13_order_matters :
  map m_contents (well_packed ex_splitter [{| f_path := U "/e"; f_size := 0 |}; {| f_path := U "/b"; f_size := 9 |}])
  = [[U "e"; U "b"]].
Proof. reflexivity. Qed.

(** ** C14 *)

Theorem C14_target_and_tight_packing : forall s fs, absolute fs ->
  exists gs, distributes fs (well_packed s fs) gs /\
    forall before g after, gs = before ++ g :: after ->
      (exists g' last, g = g' ++ [last] /\ sum_sizes g' <= s_target s) /\
      (sum_sizes g <= s_target s ->
       forall f, In f (concat after) -> s_max s < sum_sizes g + f_size f).
Proof.
  intros s fs A. destruct (well_packed_spec s fs) as (_ & cs & E & P & N1 & C & T & _).
  exists cs. rewrite E. split; [apply distributes_man_of; assumption|].
  intros g1 g g2 Eg. split.
  - rewrite Forall_forall in C. destruct (C g) as (c' & x & -> & H & _).
    { rewrite Eg, in_app_iff. cbn. auto. }
    exists c', x. rewrite sum_sizes_total. auto.
  - rewrite sum_sizes_total. intros L f Hf.
    pose proof (tight_split s cs g1 g g2 T Eg L) as F. rewrite Forall_forall in F. auto.
Qed.

(** Without a target size (or with 0) the maximum is the target; otherwise
    the given sizes are used. *)
Theorem C14_sizes_of_a_new_splitter : forall maxsize target forhead,
  let s := fst (new_splitter maxsize target forhead) in
  s_max s = maxsize /\
  (target = None \/ target = Some 0 -> s_target s = maxsize) /\
  (forall n, target = Some n -> n <> 0 -> s_target s = n).
Proof.
  intros maxsize target forhead s. subst s. cbn. split; [reflexivity|]. split.
  - intros [-> | ->]; reflexivity.
  - intros n -> H. destruct (N.eqb_spec n 0); congruence.
Qed.

Example C14_case :
  map m_total (well_packed {| s_max := 10; s_target := 5; s_forhead := [] |} ex_files) = [9; 7; 4].
Proof. reflexivity. Qed.

(** ** C15 *)

Theorem C15_number_of_bags : forall s fs, absolute fs -> s_target s = s_max s ->
  exists gs, distributes fs (well_packed s fs) gs /\
    (forall g1 a g2 b g3, gs = g1 ++ a :: g2 ++ b :: g3 -> s_max s < sum_sizes a + sum_sizes b) /\
    (2 <= N.of_nat (length gs) ->
     (N.of_nat (length gs) - 1) * s_max s < 2 * sum_sizes fs).
Proof.
  intros s fs A Et. destruct (well_packed_spec s fs) as (_ & cs & E & P & N1 & C & T & _).
  exists cs. rewrite E. split; [apply distributes_man_of; assumption|]. split.
  - intros g1 a g2 b g3 Eg. rewrite !sum_sizes_total. eapply pairs_exceed; eassumption.
  - intros L. rewrite sum_sizes_total, <- (total_perm _ _ P), total_concat.
    destruct cs as [|c cs]; [cbn in L; lia|].
    destruct (adjacent_sum (s_max s) (map total cs) (total c)) as [_ K].
    { intros l1 a b l2 Eg. change (total c :: map total cs) with (map total (c :: cs)) in Eg.
      apply map_eq_app in Eg as (g1 & r & Eg & <- & Er).
      destruct r as [|x [|y g2]]; try discriminate. injection Er as <- <- <-.
      eapply (pairs_exceed s (c :: cs) g1 x [] y g2); eassumption. }
    rewrite map_length in K. cbn [map length] in *.
    destruct cs as [|c2 cs]; [cbn in L; lia|]. specialize (K ltac:(discriminate)).
    rewrite Nnat.Nat2N.inj_succ in *. rewrite <- N.pred_sub, N.pred_succ. lia.
Qed.

Example C15_case : s_target ex_splitter = s_max ex_splitter /\
  length (well_packed ex_splitter ex_files) = 3%nat /\ sum_sizes ex_files = 20.
Proof. repeat split. Qed.

(** ** C16 *)

Theorem C16_neighborly_is_a_partition_within_the_limit : forall s fs, absolute fs ->
  (forall fuel, (length fs <= fuel)%nat -> neighborly_in s fuel fs = Some (neighborly s fs)) /\
  exists gs, distributes fs (neighborly s fs) gs /\
    (biggest_first fs ->
     Forall (fun g => sum_sizes g <= s_max s \/ exists f, g = [f] /\ s_max s < f_size f) gs).
Proof.
  intros s fs A. destruct (neighborly_spec s fs) as (T & cs & E & R). split; [exact T|].
  exists cs. rewrite E. split.
  - apply distributes_man_of; [exact A|eapply neigh_run_perm; exact R|eapply neigh_run_nonempty; exact R].
  - intros B. eapply Forall_impl; [|eapply neigh_run_single; [exact R|apply biggest_first_desc, B]].
    intros g. rewrite sum_sizes_total. auto.
Qed.

(** The neighborly split packs as tightly as the well-packed one. *)
Theorem C16_neighborly_target_and_tight_packing : forall s fs, absolute fs ->
  exists gs, distributes fs (neighborly s fs) gs /\
    (forall before g after, gs = before ++ g :: after ->
      (exists g' last, g = g' ++ [last] /\ sum_sizes g' <= s_target s) /\
      (sum_sizes g <= s_target s ->
       forall f, In f (concat after) -> s_max s < sum_sizes g + f_size f)).
Proof.
  intros s fs A. destruct (neighborly_spec s fs) as (_ & cs & E & R).
  exists cs. rewrite E. split.
  - apply distributes_man_of; [exact A|eapply neigh_run_perm; exact R|eapply neigh_run_nonempty; exact R].
  - intros g1 g g2 Eg. split.
    + pose proof (neigh_run_closed _ _ _ R) as C. rewrite Forall_forall in C.
      destruct (C g) as (c' & x & -> & H & _). { rewrite Eg, in_app_iff. cbn. auto. }
      exists c', x. rewrite sum_sizes_total. auto.
    + rewrite sum_sizes_total. intros L f Hf.
      pose proof (tight_split s cs g1 g g2 (neigh_run_tight _ _ _ R) Eg L) as F.
      rewrite Forall_forall in F. auto.
Qed.

Example C16_case :
  map m_contents (neighborly {| s_max := 11; s_target := 11; s_forhead := [] |} ex_files) =
  [[U "data/big"; U "data/e"; U "m/f"]; [U "data/a"; U "data/b/c"; U "data/b/d"]].
Proof. reflexivity. Qed.

(** ** C17 *)

(** [f] lies directly in the directory [d] (written with a final '/'). *)
Definition directly_in (d : pystr) (f : finfo) : Prop :=
  exists name, f_path f = d ++ name /\ ~ In SLASH name /\ exists d', d = d' ++ [SLASH].

(** The files [g] come directory by directory in the order [ds]. *)
Inductive by_directory : list pystr -> list finfo -> Prop :=
| by_directory_nil ds : by_directory ds []
| by_directory_cons d ds g g' :
    Forall (directly_in d) g -> by_directory ds g' -> by_directory (d :: ds) (g ++ g').

(** Strictly increasing in Python's string order. *)
Definition increasing (ds : list pystr) : Prop :=
  forall l1 a l2 b l3, ds = l1 ++ a :: l2 ++ b :: l3 -> strlt a b = true.

Lemma strict_increasing ds : strict ds -> increasing ds.
Proof.
  intros H l1 a l2 b l3 ->. apply SS_app_inv in H as (_ & H & _).
  inversion H as [|? ? _ F]; subst. rewrite Forall_forall in F. apply F. rewrite in_app_iff. cbn. auto.
Qed.

Lemma directly_in_dirpath f : (exists r, f_path f = SLASH :: r) -> directly_in (dirpath (f_path f)) f.
Proof.
  intros [r E]. unfold directly_in, dirpath.
  destruct (rsplit_slash (f_path f)) as [[a b]|] eqn:R.
  - apply rsplit_slash_some in R as [-> N1]. exists b. rewrite <- app_assoc. split; [reflexivity|].
    split; [exact N1|]. eauto.
  - apply rsplit_slash_none in R. exfalso. apply R. rewrite E. left. reflexivity.
Qed.

Lemma directly_in_unique d f : directly_in d f -> d = dirpath (f_path f).
Proof.
  intros (n & E & N1 & d' & ->). unfold dirpath.
  assert (rsplit_slash (f_path f) = Some (d', n)) as ->; [|reflexivity].
  apply rsplit_slash_some. rewrite E, <- app_assoc. auto.
Qed.

Lemma grouped_by_directory ds g : absolute g -> grouped ds g -> by_directory ds g.
Proof.
  intros A H. induction H as [|d ds g c Hg Hc IH]; [constructor|].
  unfold absolute in A. apply Forall_app in A as [A1 A2]. constructor; [|auto].
  rewrite Forall_forall in *. intros f Hf. rewrite <- (Hg f Hf). apply directly_in_dirpath. auto.
Qed.

Theorem C17_neighborly_keeps_directories_together : forall s fs, absolute fs ->
  exists gs, distributes fs (neighborly s fs) gs /\
    forall before g after, gs = before ++ g :: after ->
      let unplaced := g ++ concat after in
      exists first rest lower upper,
        g = first :: rest /\
        (* the directories of the unplaced files, in cyclic order from that
           of the first file placed *)
        increasing (lower ++ upper) /\
        (forall d, In d (lower ++ upper) <-> exists f, In f unplaced /\ directly_in d f) /\
        (exists d upper', upper = d :: upper' /\ directly_in d first) /\
        by_directory (upper ++ lower) g /\
        (* which is the biggest one *)
        (biggest_first fs -> forall f, In f unplaced -> f_size f <= f_size first).
Proof.
  intros s fs A. destruct (neighborly_spec s fs) as (_ & cs & E & R).
  exists cs. rewrite E. split.
  { apply distributes_man_of; [exact A|eapply neigh_run_perm; exact R|eapply neigh_run_nonempty; exact R]. }
  assert (B : biggest_first fs -> desc fs) by apply biggest_first_desc.
  assert (G : forall before g after, cs = before ++ g :: after ->
     exists first rest lower upper, g = first :: rest /\ strict (lower ++ upper) /\
      (forall d, In d (lower ++ upper) <-> In d (map dirof (g ++ concat after))) /\
      (exists upper', upper = dirof first :: upper') /\ grouped (upper ++ lower) g /\
      (desc fs -> forall f, In f (g ++ concat after) -> f_size f <= f_size first)).
  { clear E A B. induction R as [|f rest c cs fs' P Gr Dd C T Z R IH]; intros before g after Eg.
    - destruct before; discriminate.
    - destruct before as [|x before].
      + injection Eg as <- <-.
        destruct (dirpaths_spec f rest) as (a & b & Ed & S1 & S2).
        exists f, c, a, (dirof f :: b). split; [reflexivity|]. split; [exact S1|].
        assert (HP : Permutation ((f :: c) ++ concat cs) (f :: rest)).
        { rewrite (neigh_run_perm _ _ _ R). exact P. }
        split.
        { intros d. etransitivity; [apply S2|]. split; apply Permutation_in, Permutation_map;
            [symmetry; exact HP|exact HP]. }
        split; [eauto|]. split; [rewrite Ed in Gr; exact Gr|].
        intros D h Hh. apply (Permutation_in h HP) in Hh. inversion D as [|? ? _ F]; subst.
        destruct Hh as [<-|Hh]; [lia|]. rewrite Forall_forall in F. auto.
      + inversion Eg as [[Ex Ec]]. destruct (IH before g after Ec) as (first & r & lo & up & H1 & H2 & H3 & H4 & H5 & H6).
        exists first, r, lo, up. repeat (split; [assumption|]). intros D. auto. }
  intros before g after Eg unplaced.
  destruct (G before g after Eg) as (first & rest & lo & up & H1 & H2 & H3 & (up' & H4) & H5 & H6).
  assert (Au : absolute unplaced).
  { unfold absolute in *. rewrite Forall_forall in *. intros f Hf. apply A.
    eapply Permutation_in; [exact (neigh_run_perm _ _ _ R)|]. rewrite Eg, concat_app, in_app_iff. right. exact Hf. }
  exists first, rest, lo, up. split; [exact H1|]. split; [apply strict_increasing, H2|].
  unfold absolute in Au. rewrite Forall_forall in Au.
  split.
  { intros d. etransitivity; [apply H3|]. rewrite in_map_iff. split.
    - intros (f & <- & Hf). exists f. split; [exact Hf|]. apply directly_in_dirpath. auto.
    - intros (f & Hf & Hd). exists f. split; [|exact Hf]. symmetry. apply directly_in_unique, Hd. }
  split.
  { exists (dirof first), up'. split; [exact H4|]. apply directly_in_dirpath. apply Au.
    unfold unplaced. rewrite H1. left. reflexivity. }
  split.
  { apply grouped_by_directory; [|exact H5]. apply Forall_forall. intros f Hf. apply Au.
    unfold unplaced. apply in_or_app. auto. }
  intros Bf f Hf. apply H6; auto.
Qed.

Example C17_case :
  map m_contents (neighborly {| s_max := 8; s_target := 8; s_forhead := [] |} ex_files) =
  [[U "data/big"]; [U "data/a"; U "data/e"; U "data/b/d"; U "m/f"]; [U "data/b/c"]].
Proof. reflexivity. Qed.

(** ** C18 *)

Lemma od_get_perm {V} (k : pystr) (d d' : dict V) : NoDup (od_keys d) -> Permutation d d' ->
  od_get k d = od_get k d'.
Proof.
  intros ND P. assert (ND' : NoDup (od_keys d')).
  { unfold od_keys in *. eapply Permutation_NoDup; [apply Permutation_map; exact P|exact ND]. }
  destruct (od_get k d) as [v|] eqn:E.
  - symmetry. apply od_in_get; [exact ND'|]. eapply Permutation_in; [exact P|]. apply od_get_in, E.
  - symmetry. apply od_get_none. apply od_get_none in E. intros H. apply E. unfold od_keys in *.
    eapply Permutation_in; [symmetry; apply Permutation_map; exact P|exact H].
Qed.

Lemma Permutation_filter {A} (f : A -> bool) l l' : Permutation l l' -> Permutation (filter f l) (filter f l').
Proof.
  induction 1; cbn; auto.
  - destruct (f x); auto.
  - destruct (f x), (f y); auto. apply perm_swap.
  - etransitivity; eassumption.
Qed.

(** Bigger first, and for equal sizes the smaller path. *)
Definition comes_before (a b : finfo) : Prop :=
  f_size b < f_size a \/ (f_size a = f_size b /\ strlt (f_path a) (f_path b) = true).

Theorem C18_biggest_first_whatever_the_listing : forall s t t',
  wf_tree t -> Permutation t t' ->
  (* the work list does not depend on the order of the listing *)
  sorted_files s t = sorted_files s t' /\
  (* it has one entry for each file that is not set apart *)
  (forall f n, In {| f_path := f; f_size := n |} (sorted_files s t) <->
     exists p c, f = SLASH :: p /\ read p t = Some c /\ n = utf8_len c /\
                 is_special f = false /\ ~ In f (s_forhead s)) /\
  (* in this order *)
  (forall l1 a l2 b l3, sorted_files s t = l1 ++ a :: l2 ++ b :: l3 -> comes_before a b).
Proof.
  intros s t t' W P. split; [|split].
  - apply (sorted_perm_eq fi_le fi_le_antisym).
    + apply sorted_files_sorted.
    + apply sorted_files_sorted.
    + rewrite !sorted_files_perm. unfold worklist.
      rewrite (map_ext (fun f => {| f_path := SLASH :: f; f_size := size_of f t |})
                       (fun f => {| f_path := SLASH :: f; f_size := size_of f t' |})).
      2:{ intros f. f_equal. unfold size_of, read. rewrite (od_get_perm f t t' (wf_nodup t W) P). reflexivity. }
      apply Permutation_map, Permutation_filter. unfold files. apply Permutation_map, Permutation_filter, P.
  - intros f n.
    assert (E : In {| f_path := f; f_size := n |} (sorted_files s t) <->
                In {| f_path := f; f_size := n |} (worklist s t)).
    { split; apply Permutation_in; [|symmetry]; apply sorted_files_perm. }
    rewrite E. unfold worklist. rewrite in_map_iff. split.
    + intros (p & Ef & H). injection Ef as <- <-. apply filter_In in H as [H1 H2].
      apply andb_true_iff in H2 as [H2 H3]. apply negb_true_iff in H2, H3. apply str_in_false in H3.
      apply in_files in H1; [|apply W]. apply is_file_read in H1 as [c Hc].
      exists p, c. unfold size_of. rewrite Hc. auto.
    + intros (p & c & -> & Hc & -> & H2 & H3). exists p. unfold size_of. rewrite Hc.
      split; [reflexivity|]. apply filter_In. split.
      * apply in_files; [apply W|]. apply is_file_read. eauto.
      * rewrite H2. cbn. apply negb_true_iff, str_in_false, H3.
  - intros l1 a l2 b l3 E. pose proof (sorted_files_sorted s t) as S. rewrite E in S.
    apply SS_app_inv in S as (_ & S & _). inversion S as [|? ? _ F]; subst.
    rewrite Forall_forall in F. specialize (F b). rewrite in_app_iff in F. cbn in F.
    specialize (F (or_intror (or_introl eq_refl))). apply fi_le_iff in F as [F|[F1 F2]]; [left; exact F|].
    right. split; [exact F1|]. apply str_le_iff in F2 as [F2|F2]; [|exact F2]. exfalso.
    assert (ND : NoDup (map f_path (sorted_files s t))).
    { eapply Permutation_NoDup; [apply Permutation_map; symmetry; apply sorted_files_perm|].
      unfold worklist. rewrite map_map. cbn. apply NoDup_map_inj; [congruence|].
      apply NoDup_filter, NoDup_files, W. }
    rewrite E, map_app in ND. cbn in ND. rewrite map_app in ND. cbn in ND. rewrite F2 in ND.
    apply NoDup_remove_2 in ND. apply ND. rewrite !in_app_iff. cbn. auto.
Qed.

Definition ex_tree : tree :=
  [(U "bagit.txt", NFile (U "BagIt-Version: 0.97")); (U "data", NDir);
   (U "data/b", NFile (U "xy")); (U "data/a", NFile (U "zw")); (U "data/c", NFile (U "large"));
   (U "data/none", NDir); (U "meta", NDir); (U "meta/m.json", NFile (U "{}"));
   (U "manifest-md5.txt", NFile [])].
Definition ex_bag : bag := {| b_name := U "ex"; b_tree := ex_tree; b_dirsize := fun _ => 4096 |}.

Example C18_case : wf_tree ex_tree /\
  map f_path (sorted_files ex_splitter ex_tree) = [U "/data/c"; U "/data/a"; U "/data/b"; U "/meta/m.json"].
Proof. split; [apply wf_treeb_ok; reflexivity|reflexivity]. Qed.

(** *** The same for whole plans (C12, C13, C16)

    The plan for a bag, for both splitters: bags that distribute the files of
    the bag within the limit, and possibly one more bag, with the empty
    directories, the files reserved for the head bag, and the files whose path
    (but not base name) looks like that of a special file. *)
Theorem C13_plan_for_a_bag : forall k s b, wf_tree (b_tree b) ->
  exists ms extra gs, p_manifests (create_plan k s b) = ms ++ extra /\
    distributes (sorted_files s (b_tree b)) ms gs /\
    Forall (fun g => sum_sizes g <= s_max s \/ exists f, g = [f] /\ s_max s < f_size f) gs /\
    (extra = [] \/ exists m, extra = [m] /\ m_contents m <> [] /\
       forall x, In x (m_contents m) ->
         empty_dir x (b_tree b) \/
         (In x (files (b_tree b)) /\ special_name (basename x) = false /\
          (special_name x = true \/ In (SLASH :: x) (s_forhead s)))).
Proof.
  intros k s b W. rewrite create_plan_eq.
  destruct (packed_groups k s (b_tree b)) as (cs & E & P & N1 & Z & _ & _).
  assert (A : absolute (sorted_files s (b_tree b))).
  { unfold absolute. rewrite Forall_forall. intros f Hf.
    apply (Permutation_in f (sorted_files_perm s (b_tree b))) in Hf. unfold worklist in Hf.
    apply in_map_iff in Hf as (q & <- & _). cbn. eauto. }
  assert (D : distributes (sorted_files s (b_tree b)) (packed k s (b_tree b)) cs).
  { rewrite E. apply distributes_man_of; assumption. }
  assert (Z' : Forall (fun g => sum_sizes g <= s_max s \/ exists f, g = [f] /\ s_max s < f_size f) cs).
  { eapply Forall_impl; [|exact Z]. intros g. rewrite sum_sizes_total. auto. }
  destruct (complete_plan_cases {| p_bag := b; p_manifests := packed k s (b_tree b) |})
    as [[_ ->]|(M & man & Hc & _ & _ & ->)]; cbn [p_manifests].
  - exists (packed k s (b_tree b)), [], cs. rewrite app_nil_r. auto.
  - exists (packed k s (b_tree b)), [man], cs. split; [reflexivity|]. split; [exact D|].
    split; [exact Z'|]. right. exists man. split; [reflexivity|]. split; [congruence|].
    intros x Hx. rewrite Hc in Hx. apply in_missing in Hx as [R C].
    unfold required in R. cbn [p_bag] in R. apply (in_nonstandard (b_tree b) W) in R as [R|[R1 R2]]; [auto|].
    right. split; [exact R1|]. split; [exact R2|].
    destruct (special_name x) eqn:S; [auto|]. right.
    destruct (in_dec (list_eq_dec N.eq_dec) (SLASH :: x) (s_forhead s)) as [Y|Y]; [exact Y|].
    exfalso. apply C. unfold all_contents. cbn [p_manifests].
    apply (Permutation_in x (Permutation_sym (packed_contents k s (b_tree b)))).
    apply filter_In. split; [exact R1|]. rewrite S. cbn. apply negb_true_iff, str_in_false, Y.
Qed.

Example C13_plan_case :
  map m_contents (p_manifests (create_plan WellPacked ex_splitter ex_bag)) =
  [[U "data/c"]; [U "data/a"; U "data/b"; U "meta/m.json"]; [U "data/none"]].
Proof. reflexivity. Qed.

(** ** C19 *)

Theorem C19_complete_plan : forall p,
  let p' := complete_plan p in
  is_complete p' = true /\ missing p' = [] /\
  p_bag p' = p_bag p /\
  (missing p = [] -> p' = p) /\
  (missing p <> [] -> exists m, p_manifests p' = p_manifests p ++ [m] /\ m_contents m = missing p /\
     m_total m = fold_right N.add 0 (map (sizeof (p_bag p)) (missing p)) /\
     m_name m = Some (b_name (p_bag p) ++ U "_" ++ dec (N.of_nat (length (p_manifests p))) ++ U ".mbag")) /\
  complete_plan p' = p'.
Proof.
  intros p p'. pose proof (complete_plan_missing p) as M. fold p' in M.
  split; [apply is_complete_iff, M|]. split; [exact M|].
  assert (FL : forall (g : pystr -> N) l a, fold_left (fun s f => s + g f) l a = a + fold_right N.add 0 (map g l)).
  { intros g. induction l as [|x l IH]; intros a; cbn; [lia|]. rewrite IH. lia. }
  destruct (complete_plan_cases p) as [[H E]|(H & man & Hc & Ht & Hn & E)]; fold p' in E.
  - rewrite E in *. split; [reflexivity|]. split; [reflexivity|]. split; [congruence|].
    subst p'. exact E.
  - split; [rewrite E; reflexivity|]. split; [congruence|].
    split.
    + intros _. exists man. rewrite E. split; [reflexivity|]. split; [exact Hc|].
      split; [rewrite Ht, FL; lia|exact Hn].
    + destruct (complete_plan_cases p') as [[_ K]|(K & _)]; [exact K|congruence].
Qed.

Example C19_case :
  let p := {| p_bag := ex_bag;
              p_manifests := [{| m_name := None; m_contents := [U "data/c"]; m_total := 5 |}] |} in
  missing p = [U "data/b"; U "data/a"; U "data/none"; U "meta/m.json"].
Proof. reflexivity. Qed.

(** ** C20 *)

(** The top-level files that BagIt defines. *)
Definition bagit_file (f : pystr) : Prop :=
  f = U "bagit.txt" \/ f = U "bag-info.txt" \/ f = U "fetch.txt" \/
  exists alg, alg <> [] /\ Forall (fun c => is_word c = true) alg /\
    (f = U "manifest-" ++ alg ++ U ".txt" \/ f = U "tagmanifest-" ++ alg ++ U ".txt").

(** What C20 says of a plan. *)
Definition covers_bag (p : plan) (t : tree) : Prop :=
  forall f, (In f (files t) /\ ~ bagit_file f) \/ empty_dir f t -> In f (all_contents p).

(** It does not hold: a top-level tag file named bagit-txt is treated as
    special and is in no output bag. *)
Theorem C20_plan_covers_the_bag_refuted : exists t, wf_tree t /\
  forall k, ~ covers_bag (create_plan k ex_splitter {| b_name := U "b"; b_tree := t; b_dirsize := fun _ => 0 |}) t.
Proof.
  exists [(U "bagit.txt", NFile []); (U "data", NDir); (U "data/x", NFile (U "1"));
          (U "bagit-txt", NFile (U "notes"))].
  split; [apply wf_treeb_ok; reflexivity|]. intros k H. specialize (H (U "bagit-txt")).
  assert (K : In (U "bagit-txt") (all_contents (create_plan k ex_splitter
     {| b_name := U "b"; b_tree := [(U "bagit.txt", NFile []); (U "data", NDir); (U "data/x", NFile (U "1"));
          (U "bagit-txt", NFile (U "notes"))]; b_dirsize := fun _ => 0 |}))).
  { apply H. left. split; [cbn; tauto|]. intros [E|[E|[E|(alg & _ & _ & [E|E])]]]; discriminate E. }
  apply str_in_iff in K. destruct k; vm_compute in K; discriminate K.
Qed.

(** No file of a directory of the bag is both reserved for the head bag and
    called like one of the files that BagIt defines. *)
Definition plain_forhead (s : splitter) (t : tree) : Prop :=
  forall f, In (SLASH :: f) (s_forhead s) -> In f (files t) -> In SLASH f -> special_name (basename f) = false.

Lemma no_forhead s t : s_forhead s = [] -> plain_forhead s t.
Proof. intros E f H. rewrite E in H. destruct H. Qed.

(** What does hold, for every bag: the plan names exactly once every file and
    every empty directory, except top-level files whose name matches the
    expressions bagit.txt, bag-info.txt, fetch.txt, (tag)manifest-X.txt where
    '.' stands for any character. *)
Theorem C20_plan_covers_the_bag_partial : forall k s b, wf_tree (b_tree b) -> plain_forhead s (b_tree b) ->
  let p := create_plan k s b in
  NoDup (all_contents p) /\
  forall x, In x (all_contents p) <->
    empty_dir x (b_tree b) \/
    (In x (files (b_tree b)) /\ (In SLASH x \/ special_name x = false)).
Proof.
  intros k s b W Hf p. split; [apply create_plan_NoDup, W|].
  intros x. unfold p. rewrite (create_plan_in k s b x W).
  apply or_iff_compat_l. split; intros [I H]; split; try exact I.
  - destruct (special_name x) eqn:E; [|auto]. left.
    destruct H as [H|[H _]]; [|discriminate].
    destruct (in_dec N.eq_dec SLASH x) as [Y|Y]; [exact Y|].
    rewrite basename_none in H by exact Y. congruence.
  - destruct (special_name (basename x)) eqn:B; [|auto]. right. destruct H as [H|H].
    + split; [|intros R; rewrite (Hf x R I H) in B; discriminate B].
      destruct (special_name x) eqn:E; [|reflexivity]. exfalso. exact (special_both x E B H).
    + split; [exact H|]. intros R. destruct (in_dec N.eq_dec SLASH x) as [Y|Y]; [rewrite (Hf x R I Y) in B; discriminate B|].
      rewrite basename_none in B by exact Y. congruence.
Qed.

(** Otherwise files get lost: a file that is reserved for the head bag and
    called like a BagIt file, as data/fetch.txt, is in no bag of the plan. *)
Theorem C20_forhead_refuted : forall k s b f, wf_tree (b_tree b) ->
  In f (files (b_tree b)) -> In (SLASH :: f) (s_forhead s) -> special_name (basename f) = true ->
  ~ In f (all_contents (create_plan k s b)).
Proof.
  intros k s b f W F R B I. apply (create_plan_in k s b f W) in I. destruct I as [[D _]|[_ [H|[_ H]]]]; [|congruence|contradiction].
  apply (in_files f (b_tree b)) in F; [|apply wf_nodup; exact W]. unfold is_file in F. unfold is_dir in D.
  destruct f as [|c f]; [discriminate B|]. destruct (od_get (c :: f) (b_tree b)) as [[|x]|]; discriminate.
Qed.

Example C20_forhead_case :
  let b := {| b_name := U "b"; b_tree := [(U "bagit.txt", NFile []); (U "data", NDir); (U "data/x", NFile (U "1")); (U "data/fetch.txt", NFile (U "list"))];
              b_dirsize := fun _ => 0 |} in
  let p l := create_plan WellPacked (fst (new_splitter 100 None (Some l))) b in
  wf_tree (b_tree b) /\ In (U "data/fetch.txt") (files (b_tree b)) /\
  all_contents (p []) = [U "data/fetch.txt"; U "data/x"] /\ all_contents (p [U "/data/fetch.txt"]) = [U "data/x"] /\
  is_complete (p [U "/data/fetch.txt"]) = true /\
  plain_forhead (fst (new_splitter 100 None (Some [U "/data/x"]))) (b_tree b) /\ all_contents (p [U "/data/x"]) = [U "data/fetch.txt"; U "data/x"].
Proof.
  cbv zeta. split; [apply wf_treeb_ok; reflexivity|]. split; [cbn; tauto|]. split; [reflexivity|]. split; [reflexivity|]. split; [reflexivity|].
  split; [|reflexivity]. intros f [E|[]] _ _. injection E as <-. reflexivity.
Qed.

(** All special names of BagIt are among the excluded ones. *)
Theorem C20_bagit_files_are_excluded : forall f, bagit_file f -> special_name f = true.
Proof.
  assert (WT : forall alg seen, Forall (fun c => is_word c = true) alg -> alg <> [] \/ seen = true ->
               re_word_txt seen (alg ++ U ".txt") = true).
  { induction alg as [|c alg IH]; intros seen F H.
    - destruct H as [H | ->]; [congruence|]. reflexivity.
    - inversion F as [|? ? F1 F2]; subst. cbn [app re_word_txt]. rewrite F1.
      rewrite (IH true F2 (or_intror eq_refl)). apply orb_true_r. }
  intros f [-> |[-> |[-> |(alg & N1 & F & [-> | ->])]]]; try reflexivity;
    unfold special_name; apply orb_true_iff; right; unfold re_manifest; apply orb_true_iff.
  - left. rewrite startswith_app. cbn [andb].
    change (skipn 9 (U "manifest-" ++ alg ++ U ".txt")) with (alg ++ U ".txt"). apply WT; auto.
  - right. rewrite startswith_app. cbn [andb].
    change (skipn 12 (U "tagmanifest-" ++ alg ++ U ".txt")) with (alg ++ U ".txt"). apply WT; auto.
Qed.

Example C20_case : wf_tree ex_tree /\
  all_contents (create_plan WellPacked ex_splitter ex_bag) =
  [U "data/c"; U "data/a"; U "data/b"; U "meta/m.json"; U "data/none"].
Proof. split; [apply wf_treeb_ok; reflexivity|reflexivity]. Qed.

(** ** C21 *)

Definition payload_file (f : pystr) (t : tree) : Prop := In f (files t) /\ startswith f (U "data/") = true.

Theorem C21_complete_plan_has_all_payload_refuted : exists p f,
  wf_tree (b_tree (p_bag p)) /\ is_complete p = true /\
  payload_file f (b_tree (p_bag p)) /\ ~ In f (all_contents p).
Proof.
  exists (new_plan {| b_name := U "b"; b_dirsize := fun _ => 0;
            b_tree := [(U "bagit.txt", NFile []); (U "data", NDir); (U "data/fetch.txt", NFile (U "payload"))] |}).
  exists (U "data/fetch.txt"). split; [apply wf_treeb_ok; reflexivity|]. split; [reflexivity|].
  split; [split; [cbn; tauto|reflexivity]|]. easy.
Qed.

Theorem C21_complete_plan_has_all_payload_partial : forall p f,
  wf_tree (b_tree (p_bag p)) -> is_complete p = true -> payload_file f (b_tree (p_bag p)) ->
  special_name (basename f) = false -> In f (all_contents p).
Proof.
  intros p f W C [I _] N1. apply is_complete_iff in C.
  destruct (in_dec (list_eq_dec N.eq_dec) f (all_contents p)) as [Y|Y]; [exact Y|]. exfalso.
  assert (K : In f (missing p)).
  { apply in_missing. split; [|exact Y]. apply (in_nonstandard _ W). auto. }
  rewrite C in K. exact K.
Qed.

Example C21_case :
  let p := {| p_bag := ex_bag; p_manifests :=
              [{| m_name := None; m_contents := [U "data/c"; U "meta/m.json"]; m_total := 7 |};
               {| m_name := None; m_contents := [U "data/a"; U "data/none"; U "data/b"]; m_total := 4 |}] |} in
  is_complete p = true /\ payload_file (U "data/a") (b_tree (p_bag p)) /\
  special_name (basename (U "data/a")) = false.
Proof. split; [reflexivity|]. split; [|reflexivity]. split; [cbn; tauto|reflexivity]. Qed.

(** ** C22 *)

(** A relative path in forhead is not reserved: the file ends up in the first
    of two bags. And the caller's list is changed. *)
Theorem C22_forhead_refuted :
  let '(s, after) := new_splitter 3 None (Some [U "data/c"]) in
  let p := create_plan WellPacked s ex_bag in
  after <> Some [U "data/c"] /\
  wf_tree ex_tree /\ In (U "data/c") (files ex_tree) /\
  (exists m rest, p_manifests p = m :: rest /\ rest <> [] /\ In (U "data/c") (m_contents m)).
Proof.
  cbn zeta. split; [discriminate|]. split; [apply wf_treeb_ok; reflexivity|].
  split; [cbn; tauto|]. vm_compute. do 2 eexists. split; [reflexivity|]. split; [discriminate|]. left. reflexivity.
Qed.

(** A path given with a leading '/' is reserved, if its base name is not
    special: the file is in the last bag only, and the list is unchanged. *)
Theorem C22_forhead_partial : forall k maxsize targetsize reserved b f,
  wf_tree (b_tree b) -> Forall (fun p => startswith p [SLASH] = true) reserved ->
  In (SLASH :: f) reserved -> In f (files (b_tree b)) -> special_name (basename f) = false ->
  let '(s, after) := new_splitter maxsize targetsize (Some reserved) in
  let p := create_plan k s b in
  after = Some reserved /\
  exists ms m, p_manifests p = ms ++ [m] /\ In f (m_contents m) /\
               Forall (fun m' => ~ In f (m_contents m')) ms.
Proof.
  intros k mx tg reserved b f W S I F N1. cbn [new_splitter]. split.
  { cbn. f_equal. rewrite <- (map_id reserved) at 2. apply map_ext_in. intros p Hp.
    rewrite Forall_forall in S. rewrite (S p Hp). reflexivity. }
  set (s := {| s_max := mx; s_target := _; s_forhead := reserved |}).
  rewrite create_plan_eq.
  assert (NP : ~ In f (flat_map m_contents (packed k s (b_tree b)))).
  { intros H. apply (Permutation_in f (packed_contents k s (b_tree b))) in H.
    apply filter_In in H as [_ H]. apply andb_true_iff in H as [_ H]. apply negb_true_iff, str_in_false in H.
    apply H. exact I. }
  assert (M : In f (missing {| p_bag := b; p_manifests := packed k s (b_tree b) |})).
  { apply in_missing. split; [|exact NP]. apply (in_nonstandard (b_tree b) W). auto. }
  destruct (complete_plan_cases {| p_bag := b; p_manifests := packed k s (b_tree b) |})
    as [[H _]|(_ & man & Hc & _ & _ & E)].
  { rewrite H in M. contradiction. }
  rewrite E. cbn. exists (packed k s (b_tree b)), man. split; [reflexivity|].
  split; [rewrite Hc; exact M|]. apply Forall_forall. intros m Hm K. apply NP.
  apply in_flat_map. eauto.
Qed.

Example C22_case :
  map m_contents (p_manifests (create_plan WellPacked (fst (new_splitter 3 None (Some [U "/data/c"]))) ex_bag)) =
  [[U "data/a"]; [U "data/b"]; [U "meta/m.json"]; [U "data/c"; U "data/none"]].
Proof. reflexivity. Qed.

(** ** C23 *)

Theorem C23_output_bags_get_distinct_names : forall k s base b,
  let '(r, p) := splitter_plan k s base b in
  r = Ok tt /\
  map m_name (p_manifests p) =
    map (fun i => Some (base ++ U "_" ++ dec (N.of_nat i) ++ U ".mbag")) (seq 1 (length (p_manifests p))) /\
  NoDup (map m_name (p_manifests p)) /\
  map m_contents (p_manifests p) = map m_contents (p_manifests (create_plan k s b)).
Proof.
  intros k s base b. unfold splitter_plan, name_output_bags. rewrite name_from_simple. cbn [p_manifests].
  set (ms := p_manifests (create_plan k s b)). split; [reflexivity|].
  assert (G : forall ms k, map m_name (map (fun im : nat * manifest =>
      set_name (base ++ U "_" ++ dec (N.of_nat (S (fst im))) ++ U ".mbag") (snd im))
      (combine (seq k (length ms)) ms)) =
      map (fun i => Some (base ++ U "_" ++ dec (N.of_nat i) ++ U ".mbag")) (seq (S k) (length ms))).
  { clear. induction ms as [|m ms IH]; intros k; [reflexivity|].
    cbn [length seq combine map]. rewrite IH. reflexivity. }
  assert (L : length (map (fun im : nat * manifest =>
      set_name (base ++ U "_" ++ dec (N.of_nat (S (fst im))) ++ U ".mbag") (snd im))
      (combine (seq 0 (length ms)) ms)) = length ms).
  { rewrite map_length, combine_length, seq_length. apply Nat.min_id. }
  rewrite L, G. split; [reflexivity|]. split.
  - apply NoDup_map_inj; [|apply seq_NoDup]. intros x y _ _ E. injection E as E.
    apply app_inv_head in E. injection E as E. apply app_inv_tail in E. apply dec_inj in E. lia.
  - generalize 0%nat. clear L. induction ms as [|m ms IH]; intros i; [reflexivity|].
    cbn [length seq combine map]. rewrite IH. reflexivity.
Qed.

Example C23_case :
  map m_name (p_manifests (snd (splitter_plan Neighborly ex_splitter (U "goob") ex_bag))) =
  [Some (U "goob_1.mbag"); Some (U "goob_2.mbag"); Some (U "goob_3.mbag")].
Proof. reflexivity. Qed.

(** Naming with any iterator, in either direction: bags keep their order and
    contents; naming succeeds exactly if there are enough names, and then each
    bag has the name that was drawn for it. *)
Lemma name_from_spec nm : forall ms k r ms', name_from nm k ms = (r, ms') ->
  map m_contents ms' = map m_contents ms /\ map m_total ms' = map m_total ms /\
  length ms' = length ms /\
  (r = Ok tt <-> forall i, (i < length ms)%nat -> nm (k + i)%nat <> None) /\
  (r = Ok tt -> forall i m, nth_error ms' i = Some m -> m_name m = nm (k + i)%nat).
Proof.
  induction ms as [|m ms IH]; intros k r ms' H; cbn in H.
  - inversion H; subst. repeat split; auto; try (intros; cbn in *; lia).
    intros _ [|i] m Hm; discriminate.
  - destruct (nm k) as [n|] eqn:En.
    + destruct (name_from nm (S k) ms) as [r0 t'] eqn:E. inversion H; subst.
      destruct (IH _ _ _ E) as (H1 & H2 & H3 & H4 & H5). cbn [map length]. rewrite H1, H2, H3.
      split; [reflexivity|]. split; [reflexivity|]. split; [reflexivity|]. split.
      * rewrite H4. split; intros G i Hi.
        -- destruct i; [rewrite Nat.add_0_r, En; discriminate|].
           rewrite <- Nat.add_succ_comm. apply G. lia.
        -- rewrite Nat.add_succ_comm. apply G. lia.
      * intros Hr i m0 Hm. destruct i; cbn in Hm.
        -- inversion Hm; subst. cbn. rewrite Nat.add_0_r. auto.
        -- rewrite <- Nat.add_succ_comm. apply H5; auto.
    + inversion H; subst. repeat split; auto.
      * destruct k; discriminate.
      * intros G. exfalso. apply (G 0%nat); [cbn; lia|]. rewrite Nat.add_0_r. exact En.
      * destruct k; discriminate.
Qed.

Lemma nth_error_rev {A} (l : list A) i : (i < length l)%nat ->
  nth_error (rev l) i = nth_error l (length l - 1 - i).
Proof.
  revert i. induction l as [|x l IH]; intros i H; cbn [length] in *; [lia|]. cbn [rev].
  destruct (Nat.eq_dec i (length l)) as [->|D].
  - rewrite nth_error_app2 by (rewrite rev_length; lia). rewrite rev_length, Nat.sub_diag.
    replace (S (length l) - 1 - length l)%nat with 0%nat by lia. reflexivity.
  - rewrite nth_error_app1 by (rewrite rev_length; lia). rewrite IH by lia.
    replace (S (length l) - 1 - i)%nat with (S (length l - 1 - i)) by lia. reflexivity.
Qed.

Theorem C23_any_names : forall nm reverse p r p', name_output_bags nm reverse p = (r, p') ->
  let n := length (p_manifests p) in
  p_bag p' = p_bag p /\
  map m_contents (p_manifests p') = map m_contents (p_manifests p) /\
  map m_total (p_manifests p') = map m_total (p_manifests p) /\
  (r = Ok tt <-> forall i, (i < n)%nat -> nm i <> None) /\
  (r = Ok tt -> forall i m, nth_error (p_manifests p') i = Some m ->
     m_name m = nm (if reverse then n - 1 - i else i)%nat).
Proof.
  intros nm reverse p r p' H n. unfold name_output_bags in H.
  destruct (name_from nm 0 (if reverse then rev (p_manifests p) else p_manifests p)) as [r0 ms] eqn:E.
  inversion H; subst. clear H. destruct (name_from_spec nm _ _ _ _ E) as (H1 & H2 & H3 & H4 & H5).
  cbn [p_bag p_manifests]. destruct reverse.
  - rewrite !map_rev, H1, H2, !map_rev, !rev_involutive. rewrite rev_length in *.
    repeat split; auto; try apply H4. intros Hr i m Hm.
    assert (Hi : (i < length ms)%nat).
    { rewrite <- rev_length. apply nth_error_Some. rewrite Hm. discriminate. }
    rewrite nth_error_rev in Hm by exact Hi. apply (H5 Hr) in Hm. rewrite Hm.
    cbn. f_equal. unfold n. rewrite H3. reflexivity.
  - repeat split; auto; apply H4.
Qed.

Example C23_names_case :
  let p := {| p_bag := ex_bag; p_manifests := [new_manifest; new_manifest] |} in
  map m_name (p_manifests (snd (name_output_bags (simple_namer (U "b")) true p))) =
  [Some (U "b_2.mbag"); Some (U "b_1.mbag")].
Proof. reflexivity. Qed.

(** ** C68: running out of names *)

(** The documented RuntimeError is raised only if at least one name was
    drawn; an empty iterator leads to UnboundLocalError. *)
Theorem C68_out_of_names_refuted : exists p,
  fst (name_output_bags (fun _ => None) false p) = Err EUnboundLocal.
Proof. exists {| p_bag := ex_bag; p_manifests := [new_manifest] |}. reflexivity. Qed.

Theorem C68_out_of_names_partial : forall nm reverse p, nm 0%nat <> None ->
  (exists i, (i < length (p_manifests p))%nat /\ nm i = None) ->
  fst (name_output_bags nm reverse p) = Err ERuntime.
Proof.
  intros nm reverse p H0 (i & Hi & Ei). unfold name_output_bags.
  set (ms := if reverse then rev (p_manifests p) else p_manifests p).
  assert (Hl : (i < length ms)%nat) by (unfold ms; destruct reverse; rewrite ?rev_length; exact Hi).
  clearbody ms. destruct (name_from nm 0 ms) as [r ms'] eqn:E. cbn [fst].
  assert (G : forall ms k j r ms', name_from nm k ms = (r, ms') -> (j < length ms)%nat -> nm (k + j)%nat = None ->
              (k <> 0%nat \/ nm 0%nat <> None) -> r = Err ERuntime).
  { clear. induction ms as [|m ms IH]; intros k j r ms' E Hj En Hk; [cbn in Hj; lia|]. cbn in E.
    destruct (nm k) as [n|] eqn:Ek.
    - destruct (name_from nm (S k) ms) as [r0 t] eqn:E0. inversion E; subst.
      destruct j; [rewrite Nat.add_0_r in En; congruence|].
      eapply (IH (S k) j); eauto; [cbn in Hj; lia|]. rewrite Nat.add_succ_comm. exact En.
    - inversion E; subst. destruct k; [destruct Hk; congruence|reflexivity]. }
  eapply (G ms 0%nat i); eauto.
Qed.

Example C68_case : fst (name_output_bags (fun k => match k with O => Some (U "a") | _ => None end) false
  {| p_bag := ex_bag; p_manifests := [new_manifest; new_manifest] |}) = Err ERuntime.
Proof. reflexivity. Qed.

(** ** C69: completing a plan that has names already *)

(** The bag that complete_plan appends is numbered with the number of
    bags before it, which is the last number that SimpleNamer used. *)
Theorem C69_completed_names_refuted : exists p,
  let p1 := snd (name_output_bags (simple_namer (b_name (p_bag p))) false p) in
  NoDup (map m_name (p_manifests p1)) /\
  ~ NoDup (map m_name (p_manifests (complete_plan p1))).
Proof.
  exists {| p_bag := ex_bag; p_manifests := [{| m_name := None; m_contents := [U "data/a"]; m_total := 0 |}] |}.
  split.
  - cbn. constructor; [intros []|constructor].
  - intros H.
    assert (E : map m_name (p_manifests (complete_plan (snd (name_output_bags (simple_namer (b_name ex_bag)) false
       {| p_bag := ex_bag; p_manifests := [{| m_name := None; m_contents := [U "data/a"]; m_total := 0 |}] |})))) =
       [Some (b_name ex_bag ++ U "_1.mbag"); Some (b_name ex_bag ++ U "_1.mbag")]) by (vm_compute; reflexivity).
    cbn [p_bag] in H. rewrite E in H. inversion H; subst. apply H2. left; reflexivity.
Qed.

(** The names stay distinct if no bag has the name of the appended one. *)
Theorem C69_completed_names_partial : forall p, NoDup (map m_name (p_manifests p)) ->
  ~ In (Some (b_name (p_bag p) ++ U "_" ++ dec (N.of_nat (length (p_manifests p))) ++ U ".mbag"))
       (map m_name (p_manifests p)) ->
  NoDup (map m_name (p_manifests (complete_plan p))).
Proof.
  intros p H K. destruct (complete_plan_cases p) as [[_ ->]|(_ & man & _ & _ & Hn & ->)]; [exact H|].
  cbn [p_manifests]. rewrite map_app. cbn [map]. apply NoDup_snoc; [exact H|]. rewrite Hn. exact K.
Qed.

(** ** C26: the head flag is set for the last bag only *)
Theorem C26_head_flag : forall p ms m, p_manifests p = ms ++ [m] ->
  manifests p = map (fun x => (x, false)) ms ++ [(m, true)].
Proof.
  intros p ms m H. unfold manifests. rewrite H. clear H. induction ms as [|x ms IH]; [reflexivity|].
  cbn [app map]. rewrite <- IH. cbn [mark_head]. destruct (ms ++ [m]) eqn:E; [destruct ms; discriminate|reflexivity].
Qed.

(** ** C24 *)

Theorem C24_find_destination_is_the_last_listing : forall p f,
  (forall m, find_destination f p = Some m <->
     exists earlier later, p_manifests p = earlier ++ m :: later /\ In f (m_contents m) /\
       Forall (fun m' => ~ In f (m_contents m')) later) /\
  (find_destination f p = None <-> Forall (fun m => ~ In f (m_contents m)) (p_manifests p)) /\
  (In f (missing p) <-> In f (required p) /\ find_destination f p = None) /\
  (is_complete p = true <-> forall g, In g (required p) -> find_destination g p <> None).
Proof.
  intros p f. split; [intros m; apply find_destination_last|]. split; [|split].
  - rewrite find_destination_none. unfold all_contents. rewrite in_flat_map, Forall_forall. firstorder.
  - rewrite in_missing, find_destination_none. tauto.
  - rewrite is_complete_iff. split.
    + intros H g Hg E. assert (K : In g (missing p)).
      { apply in_missing. rewrite <- find_destination_none. auto. }
      rewrite H in K. exact K.
    + intros H. destruct (missing p) as [|g l] eqn:E; [reflexivity|]. exfalso.
      assert (K : In g (missing p)) by (rewrite E; left; reflexivity).
      apply in_missing in K as [K1 K2]. apply find_destination_none in K2. exact (H g K1 K2).
Qed.

Example C24_case :
  let m1 := {| m_name := Some (U "m1"); m_contents := [U "data/a"; U "data/b"]; m_total := 4 |} in
  let m2 := {| m_name := Some (U "m2"); m_contents := [U "data/a"]; m_total := 2 |} in
  let p := {| p_bag := ex_bag; p_manifests := [m1; m2] |} in
  find_destination (U "data/a") p = Some m2 /\ find_destination (U "data/b") p = Some m1 /\
  find_destination (U "data/c") p = None.
Proof. repeat split. Qed.

Print Assumptions C12_well_packed_is_a_partition.
Print Assumptions C13_bags_respect_the_limit.
Print Assumptions C13_any_order.
Print Assumptions C13_plan_for_a_bag.
Print Assumptions C14_target_and_tight_packing.
Print Assumptions C15_number_of_bags.
Print Assumptions C16_neighborly_is_a_partition_within_the_limit.
Print Assumptions C16_neighborly_target_and_tight_packing.
Print Assumptions C17_neighborly_keeps_directories_together.
Print Assumptions C18_biggest_first_whatever_the_listing.
Print Assumptions C19_complete_plan.
Print Assumptions C20_plan_covers_the_bag_refuted.
Print Assumptions C20_plan_covers_the_bag_partial.
Print Assumptions C20_forhead_refuted.
Print Assumptions C20_bagit_files_are_excluded.
Print Assumptions C21_complete_plan_has_all_payload_refuted.
Print Assumptions C21_complete_plan_has_all_payload_partial.
Print Assumptions C22_forhead_refuted.
Print Assumptions C22_forhead_partial.
Print Assumptions C23_output_bags_get_distinct_names.
Print Assumptions C24_find_destination_is_the_last_listing.
Print Assumptions C14_sizes_of_a_new_splitter.
Print Assumptions C23_any_names.
Print Assumptions C68_out_of_names_refuted.
Print Assumptions C68_out_of_names_partial.
Print Assumptions C69_completed_names_refuted.
Print Assumptions C69_completed_names_partial.
Print Assumptions C26_head_flag.

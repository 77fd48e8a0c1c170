(** * C117: a bag answers alike however it was opened

    Every theorem is followed by its assumptions and by an example that meets
    its hypotheses. *)

Require Import String NArith PeanoNat Bool List Lia.
From Verif Require Import PyBase PyFacts Tsv TsvProofs Fs FsFacts HeadBag HeadBagProofs3 BagIt BagItProofs
  Props_BagIt Query.
Import ListNotations.
Open Scope N_scope.

(** The specification: a path read name by name from the directory [dir] of
    the bag ([step_into]: "" and "." stay, ".." goes up, other names go down)
    is inside of the bag after every step. *)
Definition walks_inside (dir : list pystr) (p : pystr) : Prop :=
  forall pre post, split_on SLASH p = pre ++ post ->
  exists rest, fold_left step_into pre dir = dir ++ rest.

(** No name on the way, but for the last one, is that of a file. *)
Definition not_below_file (dk : disk) (dir : list pystr) (p : pystr) : Prop :=
  forall d f more, resolve dir p = d ++ more -> more <> [] -> dk d <> Some (NFile f).

Lemma comps_acc dir acc c t r : fs_comps acc (c :: t) = Some r ->
  exists acc', step_into (dir ++ rev acc) c = dir ++ rev acc' /\ fs_comps acc' t = Some r.
Proof.
  cbn [fs_comps]. intros H. unfold step_into. destruct (streq c [] || streq c [DOT]); [exists acc; auto|].
  destruct (streq c [DOT; DOT]).
  - destruct acc as [|a acc]; [discriminate H|]. exists acc. split; [|exact H].
    cbn [rev]. rewrite app_assoc, removelast_last. reflexivity.
  - exists (c :: acc). split; [|exact H]. cbn [rev]. rewrite app_assoc. reflexivity.
Qed.

Lemma comps_some dir : forall cs acc r, fs_comps acc cs = Some r ->
  fold_left step_into cs (dir ++ rev acc) = dir ++ r /\
  forall pre post, cs = pre ++ post -> exists rest, fold_left step_into pre (dir ++ rev acc) = dir ++ rest.
Proof.
  induction cs as [|c cs IH]; intros acc r H.
  - cbn in H. injection H as <-. split; [reflexivity|]. intros pre post E.
    destruct pre; [|discriminate E]. exists (rev acc). reflexivity.
  - destruct (comps_acc dir acc c cs r H) as (acc' & S1 & K). destruct (IH acc' r K) as [A B]. split.
    + cbn [fold_left]. rewrite S1. exact A.
    + intros pre post E. destruct pre as [|c' pre].
      * exists (rev acc). reflexivity.
      * injection E as <- E. cbn [fold_left]. rewrite S1. exact (B pre post E).
Qed.

Lemma comps_none dir : dir <> [] -> forall cs acc, fs_comps acc cs = None ->
  exists pre post, cs = pre ++ post /\ forall rest, fold_left step_into pre (dir ++ rev acc) <> dir ++ rest.
Proof.
  intros Nd. induction cs as [|c cs IH]; intros acc H; [discriminate H|].
  assert (L : (exists acc', step_into (dir ++ rev acc) c = dir ++ rev acc' /\ fs_comps acc' cs = None) \/
              (acc = [] /\ step_into dir c = removelast dir)).
  { cbn [fs_comps] in H. unfold step_into. destruct (streq c [] || streq c [DOT]); [left; exists acc; auto|].
    destruct (streq c [DOT; DOT]).
    - destruct acc as [|a acc]; [right; auto|]. left. exists acc. split; [|exact H].
      cbn [rev]. rewrite app_assoc, removelast_last. reflexivity.
    - left. exists (c :: acc). split; [|exact H]. cbn [rev]. rewrite app_assoc. reflexivity. }
  destruct L as [(acc' & S1 & K)|[-> S1]].
  - destruct (IH acc' K) as (pre & post & E & F). exists (c :: pre), post. split; [cbn; congruence|].
    intros rest. cbn [fold_left]. rewrite S1. apply F.
  - exists [c], cs. split; [reflexivity|]. intros rest. cbn [fold_left rev]. rewrite app_nil_r, S1.
    destruct (exists_last Nd) as (D & d & ->). rewrite removelast_last. intros E.
    apply (f_equal (@length _)) in E. rewrite !app_length in E. cbn in E. lia.
Qed.

Lemma normpath_inside dir p : dir <> [] ->
  (forall cs, fs_normpath p = Some cs -> walks_inside dir p /\ resolve dir p = dir ++ cs) /\
  (fs_normpath p = None -> ~ walks_inside dir p).
Proof.
  intros Nd. unfold fs_normpath, walks_inside, resolve. split.
  - intros cs H. destruct (comps_some dir _ _ _ H) as [A B]. cbn [rev] in A, B. rewrite app_nil_r in A, B.
    split; [exact B|exact A].
  - intros H W. destruct (comps_none dir Nd _ _ H) as (pre & post & E & F). cbn [rev] in F. rewrite app_nil_r in F.
    destruct (W pre post E) as [rest G]. exact (F rest G).
Qed.

Lemma names_join_abs ini l : Forall name_ok l -> ini = [SLASH] \/ ini = [SLASH; SLASH] ->
  names (ini ++ join [SLASH] l) = l.
Proof.
  intros H E.
  assert (K : names (join [SLASH] l) = l).
  { unfold names. destruct l as [|a l]; [reflexivity|]. rewrite split_join; [|discriminate|].
    - clear E. induction H as [|x l' [Hx _] _ IH]; [reflexivity|]. cbn [filter]. destruct x; [congruence|].
      rewrite IH. reflexivity.
    - eapply Forall_impl; [|exact H]. intros b [_ Hb]. exact Hb. }
  destruct E as [->| ->]; unfold names in *; cbn [app split_on]; rewrite N.eqb_refl; cbn [filter]; exact K.
Qed.

Lemma initial_slashes_cases p : abs_path p -> initial_slashes p = [SLASH] \/ initial_slashes p = [SLASH; SLASH].
Proof. unfold abs_path, initial_slashes. intros ->. destruct (_ && _); auto. Qed.

Lemma walks_inside_inside dir p : walks_inside dir p -> inside dir p.
Proof. intros W. destruct (W (split_on SLASH p) []) as [rest E]; [rewrite app_nil_r; reflexivity|]. exists rest. exact E. Qed.

Lemma canon_inside bag dir p : at_dir bag dir -> dir <> [] -> startswith p [SLASH] = false -> inside dir p ->
  exists q, canon_path bag p = Some q /\ names q = resolve dir p.
Proof.
  intros [A R] Nd Hp [rest E]. destruct (exists_last Nd) as (D & d & ->).
  assert (K : canon_path bag p <> None).
  { apply (canon_spec bag p D d A R Hp). exists [], rest. rewrite E, <- app_assoc, app_nil_r. reflexivity. }
  unfold canon_path in *. rewrite normpath_join_abs in * by auto. rewrite R in *.
  destruct (startswith (initial_slashes bag ++ _) (normpath bag)); [|exfalso; apply K; reflexivity].
  eexists. split; [reflexivity|]. apply names_join_abs.
  - apply resolve_names. rewrite <- R. apply resolve_names. constructor.
  - apply initial_slashes_cases. exact A.
Qed.

Lemma no_through dk : forall cs dir,
  (forall d f more, dir ++ cs = d ++ more -> more <> [] -> dk d <> Some (NFile f)) ->
  through_file dk dir cs = false.
Proof.
  induction cs as [|c cs IH]; intros dir H; [reflexivity|]. cbn [through_file].
  destruct cs as [|c' cs]; [reflexivity|].
  assert (N0 : forall f, dk (dir ++ [c]) <> Some (NFile f)).
  { intros f. apply (H (dir ++ [c]) f (c' :: cs)); [rewrite <- app_assoc; reflexivity|discriminate]. }
  assert (K : through_file dk (dir ++ [c]) (c' :: cs) = false).
  { apply IH. intros d f more E. apply H. rewrite <- E, <- app_assoc. reflexivity. }
  destruct (dk (dir ++ [c])) as [[|f]|]; [exact K|exfalso; apply (N0 f); reflexivity|exact K].
Qed.

(** The steps are the same when slashes at the beginning are left out. *)
Lemma lstrip_comps acc p : fs_comps acc (split_on SLASH (lstrip_if (N.eqb SLASH) p)) = fs_comps acc (split_on SLASH p).
Proof.
  induction p as [|c p IH]; [reflexivity|]. cbn [lstrip_if]. destruct (N.eqb_spec SLASH c) as [<-|D]; [|reflexivity].
  rewrite IH. cbn [split_on]. rewrite N.eqb_refl. reflexivity.
Qed.

Lemma relpath_normpath p : fs_normpath (path_relpath [] p) = fs_normpath p.
Proof. unfold fs_normpath, path_relpath. destruct p as [|c p]; [reflexivity|]. cbn [app]. apply lstrip_comps. Qed.

(** ** The theorems *)

(** The bag at [bag], opened read-only and opened as a directory, gives the
    same answers for every relative path that is inside of the bag all the
    way and does not lead below a file: whether it exists, as what, its size
    and its content. *)
Theorem C117_alike_partial : forall dk odd dirsize bag dir p,
  at_dir bag dir -> dir <> [] ->
  startswith p [SLASH] = false -> walks_inside dir p -> not_below_file dk dir p ->
  ro_exists dk odd dir p = Ok (dir_exists dk bag p) /\
  ro_isdir dk odd dir p = Ok (dir_isdir dk bag p) /\
  ro_isfile dk odd dir p = Ok (dir_isfile dk bag p) /\
  ro_sizeof dk odd dirsize dir p = dir_sizeof dk dirsize bag p /\
  ro_open dk odd dir p = dir_open dk bag p.
Proof.
  intros dk odd dirsize bag dir p A Nd Hp W B.
  destruct (canon_inside bag dir p A Nd Hp (walks_inside_inside dir p W)) as (q & C & Nq).
  destruct (normpath_inside dir p Nd) as [F1 F2].
  destruct (fs_normpath p) as [cs|] eqn:E; [|exfalso; exact (F2 eq_refl W)].
  destruct (F1 cs eq_refl) as [_ R].
  assert (T : through_file dk dir cs = false).
  { apply no_through. intros d f more G. apply (B d f more). rewrite R. exact G. }
  unfold ro_exists, ro_isdir, ro_isfile, ro_sizeof, ro_open, ro_find, dir_exists, dir_isdir, dir_isfile,
    dir_sizeof, dir_open, dir_find.
  rewrite relpath_normpath, E, C, T, Nq, R. cbn [bind].
  destruct (dk (dir ++ cs)) as [[|f]|]; repeat split.
Qed.

(** What the answers are: those for the place that the path leads to. *)
Theorem C117_right_place : forall dk odd dir p,
  dir <> [] -> walks_inside dir p -> not_below_file dk dir p ->
  ro_find dk odd dir p = Ok (dk (resolve dir p)).
Proof.
  intros dk odd dir p Nd W B. destruct (normpath_inside dir p Nd) as [F1 F2]. unfold ro_find.
  destruct (fs_normpath p) as [cs|] eqn:E; [|exfalso; exact (F2 eq_refl W)].
  destruct (F1 cs eq_refl) as [_ R].
  rewrite no_through; [rewrite R; reflexivity|]. intros d f more G. apply (B d f more). rewrite R. exact G.
Qed.

(** A bag that is opened read-only never answers about anything outside of
    it, whatever the path: what there is outside makes no difference. A path
    that leaves the bag on the way is refused with a ValueError, even if it
    comes back. *)
Theorem C117_readonly_confined : forall odd dirsize dir p dk dk',
  (forall rest, dk (dir ++ rest) = dk' (dir ++ rest)) ->
  ro_exists dk odd dir p = ro_exists dk' odd dir p /\
  ro_isdir dk odd dir p = ro_isdir dk' odd dir p /\
  ro_isfile dk odd dir p = ro_isfile dk' odd dir p /\
  ro_sizeof dk odd dirsize dir p = ro_sizeof dk' odd dirsize dir p /\
  ro_open dk odd dir p = ro_open dk' odd dir p.
Proof.
  intros odd dirsize dir p dk dk' H.
  assert (T : forall cs d, through_file dk (dir ++ d) cs = through_file dk' (dir ++ d) cs).
  { induction cs as [|c cs IH]; intros d; [reflexivity|]. cbn [through_file]. destruct cs as [|c' cs]; [reflexivity|].
    rewrite <- !app_assoc, H. rewrite (IH (d ++ [c])). reflexivity. }
  assert (F : forall q, ro_find dk odd dir q = ro_find dk' odd dir q).
  { intros q. unfold ro_find. destruct (fs_normpath q) as [cs|]; [|reflexivity].
    pose proof (T cs []) as E. rewrite app_nil_r in E. rewrite E, H. reflexivity. }
  unfold ro_exists, ro_isdir, ro_isfile, ro_sizeof, ro_open. rewrite !F. repeat split.
Qed.

Theorem C117_climbing_refused : forall dk odd dirsize dir p,
  dir <> [] -> ~ walks_inside dir p ->
  ro_exists dk odd dir p = Err EValue /\ ro_isdir dk odd dir p = Err EValue /\
  ro_isfile dk odd dir p = Err EValue /\ ro_sizeof dk odd dirsize dir p = Err EValue /\
  ro_open dk odd dir p = Err EValue.
Proof.
  intros dk odd dirsize dir p Nd W. destruct (normpath_inside dir p Nd) as [F1 _].
  destruct (fs_normpath p) as [cs|] eqn:E; [exfalso; apply W; exact (proj1 (F1 cs eq_refl))|].
  unfold ro_exists, ro_isdir, ro_isfile, ro_sizeof, ro_open, ro_find. rewrite relpath_normpath, E. repeat split.
Qed.

(** The directory [/srv/b1] with a file data/a.txt in it, and beside it
    [/srv/b10] with a file x. *)
Definition ex_disk : disk := fun l =>
  if list_eq_dec str_eq_dec l [U "srv"; U "b1"] then Some NDir
  else if list_eq_dec str_eq_dec l [U "srv"; U "b1"; U "data"] then Some NDir
  else if list_eq_dec str_eq_dec l [U "srv"; U "b1"; U "data"; U "a.txt"] then Some (NFile (U "hello"))
  else if list_eq_dec str_eq_dec l [U "srv"; U "b10"; U "x"] then Some (NFile (U "other"))
  else None.
Definition ex_dir : list pystr := [U "srv"; U "b1"].

(** The two do differ: for absolute paths, for paths that leave the bag and
    come back, and for paths into a directory beside the bag (see C54). *)
Theorem C117_alike_refuted : exists dk bag dir odd,
  at_dir bag dir /\ dir <> [] /\
  (exists p, ro_exists dk odd dir p = Ok true /\ dir_exists dk bag p = false) /\
  (exists p, ro_exists dk odd dir p = Err EValue /\ dir_exists dk bag p = true /\ inside dir p) /\
  (exists p, ro_exists dk odd dir p = Err EValue /\ dir_exists dk bag p = true /\ ~ inside dir p).
Proof.
  exists ex_disk, (U "/srv/b1"), ex_dir, (Err EOS). split; [split; reflexivity|]. split; [discriminate|].
  split; [|split].
  - exists (U "/data/a.txt"). split; vm_compute; reflexivity.
  - exists (U "../b1/data/a.txt"). split; [vm_compute; reflexivity|]. split; [vm_compute; reflexivity|].
    exists [U "data"; U "a.txt"]. reflexivity.
  - exists (U "../b10/x"). split; [vm_compute; reflexivity|]. split; [vm_compute; reflexivity|].
    intros [rest H]. vm_compute in H. discriminate H.
Qed.

Example C117_ex :
  at_dir (U "/srv//b1/") ex_dir /\ walks_inside ex_dir (U "data/./x/../a.txt") /\
  not_below_file ex_disk ex_dir (U "data/./x/../a.txt") /\
  ro_sizeof ex_disk (Err EOS) (fun _ => 0) ex_dir (U "data/./x/../a.txt") = Ok 5 /\
  ~ walks_inside ex_dir (U "data/../../b1").
Proof.
  split; [split; reflexivity|].
  assert (Nd : ex_dir <> []) by discriminate.
  split.
  { refine (proj1 (proj1 (normpath_inside ex_dir _ Nd) [U "data"; U "a.txt"] _)). vm_compute. reflexivity. }
  split.
  { intros d f more E Nm.
    assert (E' : [U "srv"; U "b1"; U "data"; U "a.txt"] = d ++ more) by exact E. clear E.
    destruct d as [|d1 d]; [vm_compute; discriminate|]. injection E' as <- E'.
    destruct d as [|d2 d]; [vm_compute; discriminate|]. injection E' as <- E'.
    destruct d as [|d3 d]; [vm_compute; discriminate|]. injection E' as <- E'.
    destruct d as [|d4 d]; [vm_compute; discriminate|]. injection E' as <- E'.
    destruct d; [|discriminate E']. cbn in E'. congruence. }
  split; [vm_compute; reflexivity|].
  apply (proj2 (normpath_inside ex_dir (U "data/../../b1") Nd)). vm_compute. reflexivity.
Qed.

Print Assumptions C117_alike_partial.
Print Assumptions C117_right_place.
Print Assumptions C117_readonly_confined.
Print Assumptions C117_climbing_refused.
Print Assumptions C117_alike_refuted.

(** Where member bags come from (C107, C108) *)
Require Import String NArith PeanoNat Bool List Permutation Lia.
From Verif Require Import BagItProofs PyBase PyFacts Version Tsv Fs FsFacts HeadBag BagIt Split SplitApply Restore RestoreProofs3 Props_Restore TagDir TagDirProofs FindMember.
Import ListNotations.
Open Scope N_scope.

(** ** C107: restoring never leaves out a member *)

(** If the restoration succeeds, every bag in the member list was found, the
    head bag at the end of the list aside. *)
Theorem C107_all_found : forall v us rt bsize ro h loc dest dest' skip ms before last,
  head_lists ro h = Ok (skip, ms) -> restore v us rt bsize ro h loc dest = Ok dest' ->
  map Tsv.m_name ms = before ++ [last] ->
  (forall n, In n before -> e_find v n <> None) /\ (last <> hb_name h -> e_find v last <> None).
Proof.
  intros v us rt bsize ro h loc dest dest' skip ms before last Hl H E.
  destruct (restore_found _ _ _ _ _ _ _ _ _ _ _ H Hl) as (bs & F).
  assert (O : others h ms = (if streq last (hb_name h) then [] else [last]) ++ rev before).
  { unfold others. rewrite map_rev, E, rev_app_distr. cbn [rev app]. destruct (streq last (hb_name h)); reflexivity. }
  rewrite O in F. assert (G : forall n, In n ((if streq last (hb_name h) then [] else [last]) ++ rev before) -> e_find v n <> None).
  { clear - F. induction F as [|n b l bs Hn F IH]; intros m I; [destruct I|]. destruct I as [<-|I]; [congruence|apply IH, I]. }
  split; [intros n I; apply G, in_or_app; right; apply in_rev; rewrite rev_involutive; exact I|].
  intros Ne. apply G, in_or_app. left. destruct (streq_reflect last (hb_name h)); [contradiction|left; reflexivity].
Qed.
Print Assumptions C107_all_found.

(** The error for a missing member is OSError (FileNotFoundError is one), if
    what comes before it can be restored. *)
Theorem C107_missing : forall v overwrite skip n dest, e_find v n = None -> restore_member v overwrite skip dest n = Err EOS.
Proof. intros v overwrite skip n dest E. unfold restore_member. rewrite E. reflexivity. Qed.
Print Assumptions C107_missing.

Example C107_case :
  head_lists false ex_head = Ok (ex_skip, ex_members) /\ map Tsv.m_name ex_members = [U "one"] ++ [U "two"] /\
  restore ex_env true true (fun _ => U "1 kB") false ex_head (U "/bags/two") [] = Ok ex_restored /\
  restore {| e_algos := e_algos ex_env; e_version := e_version ex_env; e_danger := e_danger ex_env; e_hash := e_hash ex_env;
             e_dest := e_dest ex_env; e_find := fun _ => None |} true true (fun _ => U "1 kB") false ex_head (U "/bags/two") [] = Err EOS.
Proof. split; [vm_compute; reflexivity|]. split; [vm_compute; reflexivity|]. split; vm_compute; reflexivity. Qed.

(** ** C108: the copy of a member that is taken *)

(** The endings of the names of archives, and that these are looked for. *)
Definition archive_endings : list pystr := [U ".tar"; U ".tar.gz"; U ".tgz"; U ".tar.bz2"; U ".zip"].

Theorem C108_endings : Permutation archive_endings extensions.
Proof.
  apply NoDup_Permutation; [repeat (constructor; [cbn; intuition discriminate|]); constructor|repeat (constructor; [cbn; intuition discriminate|]); constructor|].
  intros x. cbn [archive_endings extensions In]. tauto.
Qed.
Print Assumptions C108_endings.

(** A path directly in the directory. *)
Definition directly_in (dir p : pystr) : Prop :=
  exists n, ~ In SLASH n /\ n <> [] /\ n <> U "." /\ n <> U ".." /\ (p = dir ++ U "/" ++ n \/ (exists d, dir = d ++ U "/") /\ p = dir ++ n).

Lemma join_cases a b : a <> [] -> ~ In SLASH b -> full_join a b = a ++ U "/" ++ b \/ ((exists d, a = d ++ U "/") /\ full_join a b = a ++ b).
Proof.
  intros A B. unfold full_join. assert (E : startswith b [SLASH] = false).
  { destruct (startswith b [SLASH]) eqn:E; [|reflexivity]. apply startswith_iff in E. destruct E as (t & ->). destruct B. left. reflexivity. }
  rewrite E. unfold os_join. destruct a as [|c l]; [congruence|]. destruct (ends_slash (c :: l)) eqn:En; [|left; reflexivity]. right. split; [|reflexivity].
  unfold ends_slash in En. destruct (rev (c :: l)) as [|x r] eqn:R; [discriminate|]. apply N.eqb_eq in En. subst x. exists (rev r).
  rewrite <- (rev_involutive (c :: l)), R. reflexivity.
Qed.

(** What is found is the directory of that name if there is one, and
    otherwise an archive of that name; if none is found there is none. *)
Theorem C108_found : forall k order cache n, Permutation order archive_endings ->
  match find_member_bag k order cache n with
  | Some p => (p = full_join cache n /\ d_isdir k p = true) \/
              (d_isdir k (full_join cache n) = false /\ d_isfile k p = true /\ exists e, In e archive_endings /\ p = full_join cache n ++ e)
  | None => d_isdir k (full_join cache n) = false /\ forall e, In e archive_endings -> d_isfile k (full_join cache n ++ e) = false
  end.
Proof.
  intros k order cache n P. unfold find_member_bag. destruct (d_isdir k (full_join cache n)) eqn:D; [left; auto|].
  destruct (filter (d_isfile k) (map (fun e => full_join cache n ++ e) order)) as [|f l] eqn:F.
  - split; [reflexivity|]. intros e I. destruct (d_isfile k (full_join cache n ++ e)) eqn:X; [|reflexivity]. exfalso.
    assert (Y : In (full_join cache n ++ e) (filter (d_isfile k) (map (fun e => full_join cache n ++ e) order))); [|rewrite F in Y; destruct Y]. apply filter_In. split; [|exact X]. apply in_map_iff. exists e. split; [reflexivity|].
    eapply Permutation_in; [apply Permutation_sym, P|exact I].
  - right. split; [reflexivity|]. assert (I : In f (f :: l)) by (left; reflexivity). rewrite <- F in I. apply filter_In in I. destruct I as [I X]. split; [exact X|].
    apply in_map_iff in I. destruct I as (e & <- & I). exists e. split; [|reflexivity]. eapply Permutation_in; eauto.
Qed.
Print Assumptions C108_found.

(** Bags with ordinary names come from the cache directory itself. *)
Theorem C108_confined_partial : forall k order cache n p, Permutation order archive_endings ->
  cache <> [] -> ~ In SLASH n -> n <> [] -> n <> U "." -> n <> U ".." -> find_member_bag k order cache n = Some p -> directly_in cache p.
Proof.
  intros k order cache n p P C Ns N0 N1 N2 H. pose proof (C108_found k order cache n P) as F. rewrite H in F.
  assert (X : exists e, ~ In SLASH e /\ (e = [] \/ (3 < List.length e)%nat) /\ p = full_join cache n ++ e).
  { destruct F as [[-> _]|(_ & _ & e & I & ->)]; [exists []; rewrite app_nil_r; auto|]. exists e. split; [|split; [|reflexivity]].
    2: { right. destruct I as [<-|[<-|[<-|[<-|[<-|[]]]]]]; vm_compute; lia. }
    destruct I as [<-|[<-|[<-|[<-|[<-|[]]]]]]; vm_compute; intros Z; decompose [or] Z; try discriminate; assumption. }
  destruct X as (e & Ne & Le & ->). exists (n ++ e). split; [rewrite in_app_iff; tauto|].
  assert (Z : forall t, n <> t -> (List.length t <= 3)%nat -> n ++ e <> t).
  { intros t Nt Lt Et. destruct Le as [->|Le]; [rewrite app_nil_r in Et; contradiction|]. apply (f_equal (@List.length N)) in Et. rewrite app_length in Et. lia. }
  split; [apply Z; [exact N0|vm_compute; lia]|]. split; [apply Z; [exact N1|vm_compute; lia]|]. split; [apply Z; [exact N2|vm_compute; lia]|].
  destruct (join_cases cache n C Ns) as [->|[D ->]]; rewrite <- !app_assoc; auto.
Qed.
Print Assumptions C108_confined_partial.

(** With one archive at most, the choice is the same in every run. *)
Theorem C108_same_partial : forall k order1 order2 cache n, Permutation order1 archive_endings -> Permutation order2 archive_endings ->
  (d_isdir k (full_join cache n) = true \/
   forall e1 e2, In e1 archive_endings -> In e2 archive_endings -> d_isfile k (full_join cache n ++ e1) = true -> d_isfile k (full_join cache n ++ e2) = true -> e1 = e2) ->
  find_member_bag k order1 cache n = find_member_bag k order2 cache n.
Proof.
  intros k order1 order2 cache n P1 P2 [D|One]; [unfold find_member_bag; rewrite D; reflexivity|].
  pose proof (C108_found k order1 cache n P1) as F1. pose proof (C108_found k order2 cache n P2) as F2.
  destruct (find_member_bag k order1 cache n) as [p1|], (find_member_bag k order2 cache n) as [p2|].
  - destruct F1 as [[-> D1]|(D1 & X1 & e1 & I1 & ->)], F2 as [[-> D2]|(D2 & X2 & e2 & I2 & ->)]; try congruence. rewrite (One e1 e2); auto.
  - destruct F2 as [D2 N2]. destruct F1 as [[-> D1]|(_ & X1 & e1 & I1 & ->)]; [congruence|]. rewrite N2 in X1; auto. discriminate.
  - destruct F1 as [D2 N2]. destruct F2 as [[-> D1]|(_ & X1 & e1 & I1 & ->)]; [congruence|]. rewrite N2 in X1; auto. discriminate.
  - reflexivity.
Qed.
Print Assumptions C108_same_partial.

(** With two archives the choice depends on the order of a set, which is
    another one in every run. *)
Theorem C108_refuted : forall k cache n e1 e2,
  d_isdir k (full_join cache n) = false -> In e1 archive_endings -> In e2 archive_endings -> e1 <> e2 ->
  d_isfile k (full_join cache n ++ e1) = true -> d_isfile k (full_join cache n ++ e2) = true ->
  exists order1 order2, Permutation order1 archive_endings /\ Permutation order2 archive_endings /\
    find_member_bag k order1 cache n <> find_member_bag k order2 cache n.
Proof.
  intros k cache n e1 e2 D I1 I2 Ne X1 X2.
  apply in_split in I1. destruct I1 as (a1 & b1 & E1). apply in_split in I2. destruct I2 as (a2 & b2 & E2).
  exists (e1 :: a1 ++ b1), (e2 :: a2 ++ b2). split; [rewrite E1; apply Permutation_middle|]. split; [rewrite E2; apply Permutation_middle|].
  unfold find_member_bag. rewrite D. cbn [map filter]. rewrite X1, X2. intros E. injection E as E. apply app_inv_head in E. contradiction.
Qed.
Print Assumptions C108_refuted.

(** A name that is an absolute path leads out of the cache directory. *)
Theorem C108_absolute_refuted : forall k order cache n, d_isdir k (U "/" ++ n) = true ->
  find_member_bag k order cache (U "/" ++ n) = Some (U "/" ++ n).
Proof. intros k order cache n D. unfold find_member_bag, full_join. change (startswith (U "/" ++ n) [SLASH]) with (startswith n []). rewrite startswith_nil, D. reflexivity. Qed.
Print Assumptions C108_absolute_refuted.

(** An empty name gives the cache directory itself. *)
Theorem C108_empty_refuted : forall k order cache, cache <> [] -> ends_slash cache = true -> d_isdir k cache = true ->
  find_member_bag k order cache [] = Some cache.
Proof.
  intros k order cache C E D. unfold find_member_bag, full_join, os_join. cbn [startswith]. destruct cache as [|c l]; [congruence|].
  rewrite E, app_nil_r, D. reflexivity.
Qed.
Print Assumptions C108_empty_refuted.

(** A bag in the cache is not fetched, and the function for fetching decides
    about all others. *)
Theorem C108_fetched : forall k order cache n, cache <> [] -> Permutation order archive_endings ->
  (forall fetcher p, find_member_bag k order cache n = Some p -> get_member_bag k order fetcher cache n = Some p) /\
  (forall f, find_member_bag k order cache n = None -> get_member_bag k order (Some f) cache n = f n cache) /\
  (find_member_bag k order cache n = None -> get_member_bag k order None cache n = None).
Proof.
  intros k order cache n C P. unfold get_member_bag. split; [|split; [intros f|]; intros ->; reflexivity].
  intros fetcher p H. pose proof (C108_found k order cache n P) as F. rewrite H in *. destruct p as [|c p]; [exfalso|reflexivity].
  assert (J : full_join cache n <> []).
  { unfold full_join. destruct n as [|c n]; cbn [startswith]; [|destruct (_ && _) eqn:E; [discriminate|]]; unfold os_join; destruct cache; try congruence; destruct (ends_slash _); discriminate. }
  destruct F as [[E _]|(_ & _ & e & _ & E)]; [congruence|]. destruct (full_join cache n); [congruence|discriminate E].
Qed.
Print Assumptions C108_fetched.

Definition two_archives : disk :=
  {| d_isdir := fun p => streq p (U "/c/two") || streq p (U "/etc/x");
     d_isfile := fun p => streq p (U "/c/one.zip") || streq p (U "/c/one.tgz") || streq p (U "/c/two.tar") || streq p (U "/c/three.tar") |}.

Example C108_case :
  find_member_bag two_archives archive_endings (U "/c") (U "two") = Some (U "/c/two") /\
  find_member_bag two_archives (rev archive_endings) (U "/c") (U "three") = Some (U "/c/three.tar") /\
  find_member_bag two_archives archive_endings (U "/c") (U "one") = Some (U "/c/one.tgz") /\
  find_member_bag two_archives (rev archive_endings) (U "/c") (U "one") = Some (U "/c/one.zip") /\
  find_member_bag two_archives archive_endings (U "/c") (U "four") = None /\
  find_member_bag two_archives archive_endings (U "/c") (U "/etc/x") = Some (U "/etc/x").
Proof. split; [vm_compute; reflexivity|]. split; [vm_compute; reflexivity|]. split; [vm_compute; reflexivity|]. split; [vm_compute; reflexivity|]. split; vm_compute; reflexivity. Qed.

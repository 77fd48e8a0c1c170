(** C64, continued: what replicate raises. ValueError is documented for a path
    that is not in the source bag. *)

Require Import String NArith PeanoNat Bool List Lia.
From Verif Require Import PyBase PyFacts Fs FsFacts SplitApply.
Import ListNotations.
Open Scope N_scope.

Lemma mkdir_raises p t e : mkdir p t = Err e -> e = EOS.
Proof. unfold mkdir. destruct (exists_ p t); [congruence|]. destruct (is_dir (dirname p) t); congruence. Qed.

Lemma makedirs_raises p t e : makedirs p t = Err e -> e = EOS.
Proof.
  unfold makedirs. revert t. induction (prefixes p) as [|q l IH]; intros t H; cbn [foldM] in H; [discriminate|].
  destruct (if exists_ q t then Ok t else mkdir q t) as [t1|e1] eqn:E; cbn [bind] in H; [apply (IH t1 H)|].
  injection H as <-. destruct (exists_ q t); [discriminate|]. apply (mkdir_raises _ _ _ E).
Qed.

Lemma write_raises p c t e : write_file p c t = Err e -> e = EOS.
Proof. unfold write_file. destruct (is_dir p t); [congruence|]. destruct (is_dir (dirname p) t); congruence. Qed.

(** A read-only bag: ValueError if the path is not in the bag, and then the
    destination is as it was; otherwise nothing but OSError. *)
Theorem C64_read_only_raises : forall cp src dst p dst' e,
  replicate_ro cp src dst p = (dst', Err e) ->
  (exists_ p src = false /\ e = EValue /\ dst' = dst) \/ (exists_ p src = true /\ e = EOS).
Proof.
  intros cp src dst p dst' e H. unfold replicate_ro in H. destruct (exists_ p src); cbn [negb] in H.
  2: { injection H as <- <-. auto. }
  right. split; [reflexivity|]. destruct (is_dir p src).
  - destruct (is_dir p dst); [discriminate|]. destruct (exists_ p dst); [congruence|].
    destruct (makedirs p dst) as [t|e1] eqn:M; [discriminate|]. injection H as _ <-. apply (makedirs_raises _ _ _ M).
  - destruct (if exists_ (dirname p) dst then Ok dst else makedirs (dirname p) dst) as [t|e1] eqn:M.
    + destruct cp as [|[l|]]; [|congruence|congruence].
      destruct (write_file p _ t); congruence.
    + injection H as _ <-. destruct (exists_ (dirname p) dst); [discriminate|]. apply (makedirs_raises _ _ _ M).
Qed.

(** A directory bag: the same, and AttributeError only if a logger was given
    (this is the error of the handlers that C64_refuted is about). *)
Theorem C64_directory_raises : forall hardlink can_link logger cp src dst p dst' e,
  replicate hardlink can_link logger cp src dst p = (dst', Err e) ->
  (exists_ p src = false /\ e = EValue /\ dst' = dst) \/
  (exists_ p src = true /\ (e = EOS \/ (e = EAttribute /\ logger = true))).
Proof.
  intros hardlink can_link logger cp src dst p dst' e H. unfold replicate in H. destruct (exists_ p src); cbn [negb] in H.
  2: { injection H as <- <-. auto. }
  right. split; [reflexivity|]. destruct (is_dir p src).
  - destruct (is_dir p dst); [discriminate|]. destruct (exists_ p dst); [left; congruence|].
    destruct (makedirs p dst) as [t|e1] eqn:M; [discriminate|]. injection H as _ <-. left. apply (makedirs_raises _ _ _ M).
  - destruct (if exists_ (dirname p) dst then Ok dst else makedirs (dirname p) dst) as [t|e1] eqn:M.
    2: { injection H as _ <-. left. destruct (exists_ (dirname p) dst); [discriminate|]. apply (makedirs_raises _ _ _ M). }
    cbv zeta in H.
    repeat match type of H with
    | context [match ?x with _ => _ end] => destruct x eqn:?
    end; try discriminate H; injection H as _ <-; subst; auto;
    try (right; split; [reflexivity|]; destruct logger, hardlink; auto; discriminate).
Qed.

(** Every one of the errors occurs. *)
Example C64_raises_case :
  let src := [(U "data", NDir); (U "data/a", NFile (U "aa"))] in
  replicate_ro CopyDone src [] (U "data/b") = ([], Err EValue) /\
  snd (replicate_ro (CopyFails (Some (U "a"))) src [] (U "data/a")) = Err EOS /\
  replicate true true false CopyDone src [] (U "data/b") = ([], Err EValue) /\
  snd (replicate true true false CopyDone src [(U "data", NFile [])] (U "data")) = Err EOS /\
  snd (replicate true false true CopyDone src [] (U "data/a")) = Err EAttribute.
Proof. vm_compute. repeat split; reflexivity. Qed.

Print Assumptions C64_read_only_raises.
Print Assumptions C64_directory_raises.

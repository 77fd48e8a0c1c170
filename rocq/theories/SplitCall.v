(** * Splitting a bag with one call

    Models /repo/multibag/split.py 450-508: [Splitter.split] with the names
    that it chooses by default, and several calls one after the other. *)

Require Import String NArith Bool List.
From Verif Require Import PyBase Fs BagIt Split SplitApply.
Import ListNotations.
Open Scope N_scope.

(** [s.rfind(".")]: what is before and after the last dot *)
Fixpoint rsplit_dot (p : pystr) : option (pystr * pystr) :=
  match p with
  | [] => None
  | c :: t => match rsplit_dot t with
              | Some (a, b) => Some (c :: a, b)
              | None => if c =? DOT then Some ([], t) else None
              end
  end.

(** [os.path.splitext] of a path without slashes (genericpath, from memory):
    dots at the beginning do not count. *)
Definition splitext (n : pystr) : pystr * pystr :=
  match rsplit_dot n with
  | Some (a, b) => if forallb (fun c => c =? DOT) a then (n, []) else (a, DOT :: b)
  | None => (n, [])
  end.

(** split.py 465-466 *)
Definition base_name (namebasis : option pystr) (bagpath : pystr) : pystr :=
  match namebasis with
  | None | Some [] => fst (splitext (basename bagpath))
  | Some b => b
  end.

(** What split.py 477-508 are given and find, apart from the output directory:
    the path and the bag at this path, what the sizes of directories are, the
    splitter, a base name (naming iterators are not modelled here), and the
    options. *)
Record job := {
  j_path : pystr;
  j_source : source;
  j_dirsize : pystr -> N;
  j_kind : strategy;
  j_splitter : splitter;
  j_basis : option pystr;
  j_opts : apply_opts
}.

Definition j_bag (j : job) : bag :=
  {| b_name := so_name (j_source j); b_tree := so_tree (j_source j); b_dirsize := j_dirsize j |}.

(** split.py 477-508, [split], and 450-475, [plan]: the paths of the new bags
    and what the output directory has then. The paths are those of line 275. *)
Definition split_call (outdir : pystr) (j : job) (out : dict tree) : res (list pystr * dict tree) :=
  let (r, p) := splitter_plan (j_kind j) (j_splitter j) (base_name (j_basis j) (j_path j)) (j_bag j) in
  let? _ := r in
  let? a := apply_plan (j_source j) (j_opts j) p None out in
  Ok (map (fun mh => os_join outdir (match m_name (fst mh) with Some n => n | None => [] end)) (manifests p), a_out a).

(** Calls of split.py 477-508 for one bag after the other, all into the same
    directory. *)
Fixpoint split_calls (outdir : pystr) (js : list job) (out : dict tree) : res (list (list pystr) * dict tree) :=
  match js with
  | [] => Ok ([], out)
  | j :: js => let? (paths, out) := split_call outdir j out in
               let? (rest, out) := split_calls outdir js out in
               Ok (paths :: rest, out)
  end.

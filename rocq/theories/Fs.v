(** * Directory trees

    A tree is an association list from paths (relative to its root, delimited
    by '/', normalized) to nodes. The root itself is not listed. The order
    of the list is the order in which a directory listing shows entries; it
    is arbitrary, so a theorem about all trees covers every listing order
    (depth-first [os.walk] and breadth-first [fs.walk] alike). File contents
    are strings, and the size of a file is its length in UTF-8. *)

Require Import String NArith Bool List.
From Verif Require Import PyBase.
Import ListNotations.
Open Scope N_scope.

Inductive node : Type :=
| NDir
| NFile (content : pystr).

Definition tree := dict node.

(** [os.path.dirname] of a relative normalized path: what precedes the last
    '/', empty if there is none. *)
Fixpoint rsplit_slash (p : pystr) : option (pystr * pystr) :=
  match p with
  | [] => None
  | c :: t => match rsplit_slash t with
              | Some (a, b) => Some (c :: a, b)
              | None => if c =? SLASH then Some ([], t) else None
              end
  end.

Definition dirname (p : pystr) : pystr :=
  match rsplit_slash p with Some (a, _) => a | None => [] end.

(** [os.path.basename] *)
Definition basename (p : pystr) : pystr :=
  match rsplit_slash p with Some (_, b) => b | None => p end.

(** [os.path.join(d, f)] for a relative [f]. *)
Definition pjoin (d f : pystr) : pystr :=
  match d with [] => f | _ => d ++ [SLASH] ++ f end.

(** ["/".join([d, f])] *)
Definition sjoin (d f : pystr) : pystr := d ++ [SLASH] ++ f.

(** Well-formed relative path: no empty, "." or ".." component. *)
Definition good_component (w : pystr) : Prop :=
  w <> [] /\ w <> [DOT] /\ w <> [DOT; DOT].
Definition good_path (p : pystr) : Prop := Forall good_component (split_on SLASH p).

Definition is_file (p : pystr) (t : tree) : bool :=
  match od_get p t with Some (NFile _) => true | _ => false end.
Definition is_dir (p : pystr) (t : tree) : bool :=
  match p with
  | [] => true
  | _ => match od_get p t with Some NDir => true | _ => false end
  end.
Definition exists_ (p : pystr) (t : tree) : bool := is_file p t || is_dir p t.

Definition read (p : pystr) (t : tree) : option pystr :=
  match od_get p t with Some (NFile c) => Some c | _ => None end.

Definition size_of (p : pystr) (t : tree) : N :=
  match read p t with Some c => utf8_len c | None => 0 end.

(** Opening a file for writing, replacing its content: fails if the path is
    a directory or its parent is not one. *)
Definition write_file (p c : pystr) (t : tree) : res tree :=
  if is_dir p t then Err EOS
  else if is_dir (dirname p) t then Ok (od_set p (NFile c) t)
  else Err EOS.

(** [os.mkdir] *)
Definition mkdir (p : pystr) (t : tree) : res tree :=
  if exists_ p t then Err EOS
  else if is_dir (dirname p) t then Ok (od_set p NDir t)
  else Err EOS.

(** [os.remove] of a file *)
Definition remove_file (p : pystr) (t : tree) : res tree :=
  if is_file p t then Ok (od_del p t) else Err EOS.

(** [d] lies strictly below the directory [top]. *)
Definition below (top d : pystr) : bool :=
  match top with [] => true | _ => startswith d (top ++ [SLASH]) end.

Definition dirs (t : tree) : list pystr :=
  map fst (filter (fun kv => match snd kv with NDir => true | _ => false end) t).
Definition files (t : tree) : list pystr :=
  map fst (filter (fun kv => match snd kv with NFile _ => true | _ => false end) t).

(** Entries directly in [d], as base names. *)
Definition files_in (d : pystr) (t : tree) : list pystr :=
  map basename (filter (fun p => streq (dirname p) d) (files t)).
Definition subdirs_in (d : pystr) (t : tree) : list pystr :=
  map basename (filter (fun p => streq (dirname p) d) (dirs t)).

(** access/extended.py 391-424 and 655-689, [walk]: every directory from
    [start] downwards with its subdirectories and files. *)
Definition walk (start : pystr) (t : tree) : list (pystr * list pystr * list pystr) :=
  map (fun d => (d, subdirs_in d t, files_in d t))
      (start :: filter (below start) (dirs t)).

(** Well-formed trees: each path once, good paths, and the parent of every
    entry is a directory. *)
Record wf_tree (t : tree) : Prop := {
  wf_nodup : NoDup (od_keys t);
  wf_paths : Forall good_path (od_keys t);
  wf_parents : forall p, In p (od_keys t) -> is_dir (dirname p) t = true
}.

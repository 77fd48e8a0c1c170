(** * Questions about the contents of a bag

    Models access/extended.py 267-309 and 378-389 (bags in directories opened
    as such) and access/bagit.py 42-58 and 234-269 with extended.py 582-594
    (bags opened read-only): exists, isdir, isfile, sizeof and
    open_text_file. ReadOnlyBag comes first in the bases of
    ExtendedReadOnlyBag (extended.py 691), so its exists, isdir, isfile and
    open_text_file are the ones that are used.

    The path handling of PyFilesystem (fs.path.normpath, FS.exists,
    SubFS.delegate_path) is an outside library that is not available here;
    it is modelled from memory of fs 2.4. *)

Require Import String NArith Bool List.
From Verif Require Import PyBase Fs HeadBag BagIt.
Import ListNotations.
Open Scope N_scope.

(** The local file system: what is at a location, given by the names that
    lead there from the root. There are no symbolic links. *)
Definition disk := list pystr -> option node.

(** The names of an absolute, normalized path. *)
Definition names (p : pystr) : list pystr :=
  filter (fun w => match w with [] => false | _ => true end) (split_on SLASH p).

(** ** Directory bags *)

(** extended.py 259-265 and what the system then finds at the path; [None] if
    the path is not in the bag. *)
Definition dir_find (dk : disk) (bagdir path : pystr) : option (option node) :=
  match canon_path bagdir path with
  | None => None
  | Some q => Some (dk (names q))
  end.

(** extended.py 267-276, [exists] *)
Definition dir_exists (dk : disk) (bagdir path : pystr) : bool :=
  match dir_find dk bagdir path with Some (Some _) => true | _ => false end.
(** extended.py 278-287, [isdir] *)
Definition dir_isdir (dk : disk) (bagdir path : pystr) : bool :=
  match dir_find dk bagdir path with Some (Some NDir) => true | _ => false end.
(** extended.py 289-298, [isfile] *)
Definition dir_isfile (dk : disk) (bagdir path : pystr) : bool :=
  match dir_find dk bagdir path with Some (Some (NFile _)) => true | _ => false end.

(** extended.py 300-309, [sizeof]. [dirsize] is the size that the system
    gives for a directory. [os.stat(None)] is a TypeError. *)
Definition dir_sizeof (dk : disk) (dirsize : list pystr -> N) (bagdir path : pystr) : res N :=
  match canon_path bagdir path with
  | None => Err EType
  | Some q => match dk (names q) with
              | None => Err EOS
              | Some NDir => Ok (dirsize (names q))
              | Some (NFile c) => Ok (utf8_len c)
              end
  end.

(** extended.py 378-389, [open_text_file]: the content of the file that is
    opened. *)
Definition dir_open (dk : disk) (bagdir path : pystr) : res pystr :=
  match canon_path bagdir path with
  | None => Err EType
  | Some q => match dk (names q) with Some (NFile c) => Ok c | _ => Err EOS end
  end.

(** ** Read-only bags *)

(** fs.path.normpath: the components of the normalized path. [None] is the
    exception IllegalBackReference, a ValueError: the path climbs above the
    root of the file system. The shortcut of the original for paths that are
    normalized already is left out. *)
Fixpoint fs_comps (acc : list pystr) (cs : list pystr) : option (list pystr) :=
  match cs with
  | [] => Some (rev acc)
  | c :: t =>
      if streq c [] || streq c [DOT] then fs_comps acc t
      else if streq c [DOT; DOT] then match acc with [] => None | _ :: a => fs_comps a t end
      else fs_comps (c :: acc) t
  end.
Definition fs_normpath (p : pystr) : option (list pystr) := fs_comps [] (split_on SLASH p).

(** bagit.py 42-58, [Path.relpath] *)
Definition path_relpath (base rel : pystr) : pystr :=
  match rel with
  | [] => base
  | _ => (match base with [] => [] | _ => base ++ [SLASH] end) ++ lstrip_if (N.eqb SLASH) rel
  end.

(** Some name before the last one is that of a file. *)
Fixpoint through_file (dk : disk) (dir : list pystr) (cs : list pystr) : bool :=
  match cs with
  | [] | [_] => false
  | c :: t => match dk (dir ++ [c]) with
              | Some (NFile _) => true
              | _ => through_file dk (dir ++ [c]) t
              end
  end.

(** FS.getinfo of the file system whose root is the bag at [dir]: the path is
    normalized before anything else, so that a path that climbs is refused.
    What happens to a path below a file ([odd]) is up to the kind of the file
    system. *)
Definition ro_find (dk : disk) (odd : res (option node)) (dir : list pystr) (path : pystr)
  : res (option node) :=
  match fs_normpath path with
  | None => Err EValue
  | Some cs => if through_file dk dir cs then odd else Ok (dk (dir ++ cs))
  end.

(** bagit.py 234-241, [exists]; FS.exists *)
Definition ro_exists (dk : disk) (odd : res (option node)) (dir : list pystr) (path : pystr) : res bool :=
  let? n := ro_find dk odd dir path in Ok (match n with Some _ => true | None => false end).
(** bagit.py 252-260, [isdir] *)
Definition ro_isdir (dk : disk) (odd : res (option node)) (dir : list pystr) (path : pystr) : res bool :=
  let? n := ro_find dk odd dir path in Ok (match n with Some NDir => true | _ => false end).
(** bagit.py 243-250, [isfile] *)
Definition ro_isfile (dk : disk) (odd : res (option node)) (dir : list pystr) (path : pystr) : res bool :=
  let? n := ro_find dk odd dir path in Ok (match n with Some (NFile _) => true | _ => false end).

(** extended.py 582-594, [sizeof] *)
Definition ro_sizeof (dk : disk) (odd : res (option node)) (dirsize : list pystr -> N)
    (dir : list pystr) (path : pystr) : res N :=
  let? n := ro_find dk odd dir path in
  match n with
  | None => Err EOS
  | Some NDir => Ok (dirsize (match fs_normpath path with Some cs => dir ++ cs | None => dir end))
  | Some (NFile c) => Ok (utf8_len c)
  end.

(** bagit.py 262-269 and 102-114, [open_text_file]: the content of the file
    that is opened. The errors of the library for a missing file or for a
    directory (ResourceNotFound, FileExpected) are written as [EOS]. *)
Definition ro_open (dk : disk) (odd : res (option node)) (dir : list pystr) (path : pystr) : res pystr :=
  let? n := ro_find dk odd dir (path_relpath [] path) in
  match n with Some (NFile c) => Ok c | _ => Err EOS end.

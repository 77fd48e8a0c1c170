(** Where the update methods of a head bag write: the four methods of
    HeadBagUpdateMixin that make, replace or remove files of the multibag tag
    directory (multibag/access/multibag.py), on the whole local file system.
    The model HeadBag.v has the same methods with the bag as the whole world;
    there the tag directory is a path in the bag by construction.

    The file system is the one of Query.v: there are no symbolic links, and
    every path is resolved by its names alone. (On a real system ".." after a
    name that does not exist is an error; here it is not, so more is written
    here than there.) The current directory is not modelled: bags are at
    absolute paths. *)

From Coq Require Import String NArith PeanoNat Bool List Lia.
From Verif Require Import PyBase Fs HeadBag BagIt Query.
Import ListNotations.
Open Scope N_scope.

Definition loc := list pystr.
Definition loc_eq_dec : forall a b : loc, {a = b} + {a <> b} := list_eq_dec (list_eq_dec N.eq_dec).

Definition put (dk : disk) (l : loc) (n : option node) : disk :=
  fun l' => if loc_eq_dec l' l then n else dk l'.

(** What a call leaves behind and the exception it ends with, if any. *)
Definition done := (disk * option exn)%type.
Definition next (d : done) (k : disk -> done) : done :=
  match d with (dk, None) => k dk | (dk, Some e) => (dk, Some e) end.

(** [os.mkdir] *)
Definition mkdir (l : loc) (dk : disk) : done :=
  match dk l, dk (removelast l) with
  | None, Some NDir => (put dk l (Some NDir), None)
  | _, _ => (dk, Some EOS)
  end.

(** [io.open(tagfile, 'w')] with what is written through it *)
Definition write (l : loc) (text : pystr) (dk : disk) : done :=
  match dk l, dk (removelast l) with
  | Some NDir, _ => (dk, Some EOS)
  | _, Some NDir => (put dk l (Some (NFile text)), None)
  | _, _ => (dk, Some EOS)
  end.

(** [os.remove] *)
Definition remove (l : loc) (dk : disk) : done :=
  match dk l with
  | Some (NFile _) => (put dk l None, None)
  | _ => (dk, Some EOS)
  end.

(** [os.path.join(self._bagdir, self.multibag_tag_dir)], multibag.py 425 *)
Definition tagdir_at (bagdir td : pystr) : loc := names (normpath (os_join bagdir td)).

(** [os.path.join(self._bagdir, self.multibag_tag_dir, file)], multibag.py
    438-439, 618-619, 634-635 and 682-683 *)
Definition tagfile_at (bagdir td file : pystr) : loc := names (normpath (os_join (os_join bagdir td) file)).

(** multibag.py 421-427, [ensure_tagdir] *)
Definition ensure_tagdir (bagdir td : pystr) (dk : disk) : done :=
  match dk (tagdir_at bagdir td) with
  | Some _ => (dk, None)
  | None => mkdir (tagdir_at bagdir td) dk
  end.

Definition f_members := U "member-bags.tsv".
Definition f_lookup := U "file-lookup.tsv".
Definition f_deleted := U "deleted.txt".

(** The calls of a user that keeps the lists of a head bag. The texts are
    what the lists in memory are written as (see HeadBag.v and Tsv.v for
    them); calls with nothing in memory return at once and are left out. *)
Inductive call :=
| SaveMembers (text : pystr)
| SaveLookup (text : pystr)
| SaveDeleted (empty : bool) (text : pystr)
| ClearLookup.

Definition run (bagdir td : pystr) (c : call) (dk : disk) : done :=
  match c with
  (* multibag.py 429-445, [save_member_bags] *)
  | SaveMembers text => next (ensure_tagdir bagdir td dk) (write (tagfile_at bagdir td f_members) text)
  (* multibag.py 609-628, [save_file_lookup] *)
  | SaveLookup text => next (ensure_tagdir bagdir td dk) (write (tagfile_at bagdir td f_lookup) text)
  (* multibag.py 674-690, [save_deleted] *)
  | SaveDeleted empty text =>
      let at_ := tagfile_at bagdir td f_deleted in
      next (if empty && (match dk at_ with Some _ => true | None => false end) then remove at_ dk else (dk, None))
           (fun dk1 => next (ensure_tagdir bagdir td dk1) (write at_ text))
  (* multibag.py 630-638, [clear_file_lookup] *)
  | ClearLookup =>
      match dk (tagfile_at bagdir td f_lookup) with
      | Some _ => remove (tagfile_at bagdir td f_lookup) dk
      | None => (dk, None)
      end
  end.

(** Calls one after another; the caller goes on after exceptions. *)
Definition run_all (bagdir td : pystr) (cs : list call) (dk : disk) : disk :=
  fold_left (fun d c => fst (run bagdir td c d)) cs dk.

(** The path under which the read methods ask for a list, multibag.py 212,
    252 and 305. *)
Definition asked (td file : pystr) : pystr := join [SLASH] [td; file].

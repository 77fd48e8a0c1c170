(** * Restoring one member, with the argument [fetch] *)

Require Import String NArith Bool List.
From Verif Require Import PyBase Fs Tsv HeadBag BagIt Restore.
Import ListNotations.
Open Scope N_scope.

(** restore.py 170-172: one line of fetch.txt. [rsplit] of a blank line gives
    an empty list, and index 0 of it raises IndexError. *)
Definition note_line (d : dict pystr) (line : pystr) : res (dict pystr) :=
  match rsplit_ws1 (strip line) with
  | [] => Err EIndex
  | k :: _ => Ok (if od_has k d then d else od_set k line d)
  end.

(** restore.py 150-172, [restore_member] with a dictionary as [fetch]; the
    result is the destination and the dictionary. The caller's dictionary is
    changed in place: what it holds after an exception is left out. *)
Definition restore_member_fetch (v : env) (overwrite : bool) (skip : list pystr) (fetch : dict pystr) (dest : tree) (name : pystr)
  : res (tree * dict pystr) :=
  match e_find v name with
  | None => Err EOS
  | Some b =>
      let? dest := restore_from v overwrite skip b dest in
      let t := if streq (rb_loc b) (e_dest v) then dest else rb_tree b in
      let? _ := open_bag v IoText (rb_loc b) t in
      match read F_fetch t with
      | None => Ok (dest, fetch)
      | Some c => let? fetch := foldM note_line (pylines IoText (decode IoText c)) fetch in Ok (dest, fetch)
      end
  end.

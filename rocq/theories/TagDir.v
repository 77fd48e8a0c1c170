(** * Changing the name of the tag directory

    Models [set_multibag_tag_dir] (/repo/multibag/access/multibag.py 338-365)
    with [os.path.join] and [os.renames] of CPython, which are outside of
    /repo and modelled from memory. Names with the components "." and ".."
    are not resolved: the model takes them for ordinary names, and the
    theorems leave them out. The root directory of a bag is never empty. *)

Require Import String NArith Bool List.
From Verif Require Import PyBase Version Tsv Fs HeadBag SplitApply.
Import ListNotations.
Open Scope N_scope.

Definition ends_slash (p : pystr) : bool := match rev p with c :: _ => c =? SLASH | [] => false end.

(** [os.path.join(a, b)] for a [b] without a slash. *)
Definition os_join (a b : pystr) : pystr :=
  match a with [] => b | _ => if ends_slash a then a ++ b else a ++ [SLASH] ++ b end.

(** multibag.py 352: [os.path.join( *(dirname.split('/')))] *)
Definition plain_dir (d : pystr) : pystr :=
  match split_on SLASH d with [] => [] | a :: l => fold_left os_join l a end.

(** The path of an entry after the directory [old] became [new]. *)
Definition moved (old new p : pystr) : pystr :=
  if streq p old then new
  else if below old p then new ++ skipn (length old) p
  else p.

(** [os.rename] to a path where nothing is: a directory cannot be moved into
    itself. *)
Definition rename (old new : pystr) (t : tree) : res tree :=
  if below old new then Err EOS
  else if is_dir (dirname new) t
  then Ok (map (fun e => (moved old new (fst e), snd e)) t)
  else Err EOS.

Definition empty_dir (d : pystr) (t : tree) : bool :=
  is_dir d t && negb (existsb (below d) (od_keys t)).

(** [os.removedirs]: directories get removed upwards as long as they are
    empty; the length of the path is enough for [fuel], as [dirname] is
    shorter. *)
Fixpoint removedirs (fuel : nat) (d : pystr) (t : tree) : tree :=
  match fuel, d with
  | O, _ | _, [] => t
  | S n, _ => if empty_dir d t then removedirs n (dirname d) (od_del d t) else t
  end.

(** [os.renames], with the tree afterwards even if it fails. [os.makedirs]
    makes nothing if it fails: it fails at the first directory it makes, below
    a file. *)
Definition renames (old new : pystr) (t : tree) : tree * res unit :=
  match (if exists_ (dirname new) t then Ok t else makedirs (dirname new) t) with
  | Err e => (t, Err e)
  | Ok t1 =>
      match rename old new t1 with
      | Err e => (t1, Err e)
      | Ok t2 => (removedirs (length old) (dirname old) t2, Ok tt)
      end
  end.

(** multibag.py 338-365, [set_multibag_tag_dir] *)
Definition set_multibag_tag_dir (name : pystr) (migrate : bool) : M unit := fun h =>
  let d := plain_dir name in
  let old := tag_dir (hb_info h) in
  let tagged (h : hb) := (set_info h (od_set T_TagDir (IStr d) (hb_info h)), Ok tt) in
  if streq d old then (h, Ok tt)
  else if migrate
  then if exists_ d (hb_tree h) then (h, Err ERuntime)
       else if exists_ old (hb_tree h)
       then match renames old d (hb_tree h) with
            | (t, Ok _) => tagged (set_tree h t)
            | (t, Err e) => (set_tree h t, Err e)
            end
       else tagged h
  else tagged h.

(** [Bag.save] as far as it is about the tags: the tags in memory get written
    to bag-info.txt. *)
Definition save_tags (h : hb) : hb := set_dinfo h (hb_info h).

(** * Restoring with bags that are fetched into the destination

    /repo/multibag/restore.py 91-94: if there is a function that fetches bags
    and no other directory is given, the bags are put into the directory
    multibag/_membercache of the destination, while it is filled. [Restore.v]
    has the bags elsewhere.

    Simplifications: the function puts the bag, as a directory or as an archive
    with the name of the bag and an extension, into the directory that it is
    given, and returns its path; times are left out. *)

Require Import String NArith Bool List.
From Verif Require Import PyBase Tsv Fs HeadBag BagIt Split SplitApply Restore FindMember.
Import ListNotations.
Open Scope N_scope.

(** restore.py 94 *)
Definition CACHE : pystr := U "multibag/_membercache".
Definition slot (n : pystr) : pystr := sjoin CACHE n.

(** A directory of the destination as a tree of its own. *)
Definition subtree (d : pystr) (t : tree) : tree :=
  map (fun kv => (skipn (S (length d)) (fst kv), snd kv)) (filter (fun kv => below d (fst kv)) t).

(** What the fetching function of restore.py 58-63 delivers: a directory, or an
    archive with this extension and content. *)
Inductive delivery : Type :=
| AsDir (b : tree)
| AsArchive (ext c : pystr).
Definition file_name (n : pystr) (d : delivery) : pystr := match d with AsDir _ => n | AsArchive ext _ => n ++ ext end.
(** The bag; [unpacked]: the bag in an archive with this content, nothing if it
    cannot be read (access/bagit.py 614-666, [open_bag]). *)
Definition bag_of (unpacked : pystr -> tree) (d : delivery) : tree := match d with AsDir b => b | AsArchive _ c => unpacked c end.

(** A new directory with the files of a bag. *)
Definition mount (d : pystr) (b t : tree) : tree :=
  fold_left (fun t kv => od_set (sjoin d (fst kv)) (snd kv) t) b (od_set d NDir t).

(** restore.py 111-116, [_create_dest_bag], for the cache directory *)
Definition create_cache (t : tree) : res tree :=
  if exists_ CACHE t then Ok t else makedirs CACHE t.

(** restore.py 118-148, [get_member_bag]: the bag of this name in the cache
    directory, as a directory or an archive, or else the one that is fetched;
    [order] are the extensions of archives in some order (see FindMember.v),
    [remote] says what there is to fetch, and [e] is the error if there is
    nothing. *)
Definition put (n : pystr) (d : delivery) (t : tree) : tree :=
  match d with
  | AsDir b => mount (slot n) b t
  | AsArchive ext c => od_set (slot (n ++ ext)) (NFile c) t
  end.
Definition get_member (v : env) (order : list pystr) (unpacked : pystr -> tree) (remote : pystr -> option delivery) (e : exn) (t : tree) (n : pystr) : res (rbag * tree) :=
  let bag d := {| rb_loc := sjoin (e_dest v) (slot (file_name n d)); rb_tree := bag_of unpacked d |} in
  if is_dir (slot n) t then Ok (bag (AsDir (subtree (slot n) t)), t)
  else match find (fun x => is_file (slot (n ++ x)) t) order with
       | Some x => Ok (bag (AsArchive x (match read (slot (n ++ x)) t with Some c => c | None => [] end)), t)
       | None =>
           match remote n with
           | None => Err e
           | Some d => let? t := create_cache t in Ok (bag d, put n d t)
           end
       end.

(** restore.py 150-163, [restore_member] *)
Definition f_restore_member (v : env) (order : list pystr) (unpacked : pystr -> tree) (remote : pystr -> option delivery) (skip : list pystr) (t : tree) (n : pystr) : res tree :=
  let? (b, t) := get_member v order unpacked remote EOS t n in
  restore_from v false skip b t.

(** restore.py 259-282, [restore_fetch] *)
Definition f_fetch_of (v : env) (order : list pystr) (unpacked : pystr -> tree) (remote : pystr -> option delivery) (s : tree * dict pystr) (n : pystr) : res (tree * dict pystr) :=
  let (t, d) := s in
  let? (b, t) := get_member v order unpacked remote EValue t n in
  let? _ := open_bag v IoText (rb_loc b) (rb_tree b) in
  match read Restore.F_fetch (rb_tree b) with
  | None => Ok (t, d)
  | Some c => Ok (t, fold_left fetch_line (pylines IoText (decode IoText c)) d)
  end.
Definition f_restore_fetch (v : env) (order : list pystr) (unpacked : pystr -> tree) (remote : pystr -> option delivery) (names : list pystr) (t : tree) : res tree :=
  let? (t, d) := foldM (f_fetch_of v order unpacked remote) names (t, [] : dict pystr) in
  match d with
  | [] => Ok t
  | _ => write_file Restore.F_fetch (flat_map snd d) t
  end.

(** restore.py 284-327, [restore]; [there]: the destination exists. If not, the
    cache directory is made with it (lines 291-292). *)
Definition f_restore (v : env) (order : list pystr) (unpacked : pystr -> tree) (remote : pystr -> option delivery) (update_sizes remove_tags : bool) (bsize : tree -> pystr)
    (ro : bool) (h : hb) (loc : pystr) (there : bool) (dest : tree) : res tree :=
  let? (skip, ms) := head_lists ro h in
  let? t := if there then Ok dest else create_cache dest in
  let? t := start_info h t in
  let? t := restore_from v false skip {| rb_loc := loc; rb_tree := hb_tree h |} t in
  let? t := foldM (f_restore_member v order unpacked remote skip) (others h ms) t in
  let? t := match others h ms with
            | [] => Ok t
            | ns => f_restore_fetch v order unpacked remote ns t
            end in
  finish v update_sizes remove_tags bsize t.

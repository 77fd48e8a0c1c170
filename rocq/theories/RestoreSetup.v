(** * Setting up a restoration

    Models /repo/multibag/restore.py 43-116: the constructor of BagRestorer,
    and the directories that get made before anything is copied. *)

Require Import String NArith Bool List.
From Verif Require Import PyBase Fs BagIt Access.
Import ListNotations.
Open Scope N_scope.

(** What the constructor (restore.py 65-70, 83) asks the system: the current directory, what is at a
    path, whether a bag is a head bag, and whether it can be opened. *)
Record system := {
  y_cwd : pystr;
  y_exists : pystr -> bool;
  y_isdir : pystr -> bool;
  y_ishead : pystr -> res bool;
  y_open : pystr -> res unit
}.

(** [os.path.abspath] (posixpath, from memory), as used in restore.py 81, 88, 96 *)
Definition abspath (y : system) (p : pystr) : pystr := normpath (os_join (y_cwd y) p).

(** The arguments [headbag] and [destbag] of restore.py 43: a path, or a bag
    that is open and has its path as an attribute. *)
Inductive bag_arg : Type := APath (p : pystr) | ABag (path : pystr).

(** The attribute [path] of a bag opened at a path: bagit.Bag strips one slash
    from the end (the LOC library, from memory; see access/bagit.py 169-174). *)
Definition bag_path (p : pystr) : pystr := if endswith p [SLASH] then removelast p else p.

(** The attributes set by restore.py 43-97 *)
Record setup := { su_head : pystr; su_inplace : bool; su_dest : pystr; su_cache : pystr }.

(** restore.py 65-70 *)
Definition setup_head (y : system) (head : bag_arg) : res pystr :=
  match head with
  | ABag p => Ok p
  | APath p =>
      if negb (y_exists y p) then Err EOS
      else let? b := y_ishead y p in
           if negb b then Err EMultibag else let? _ := y_open y p in Ok (bag_path p)
  end.

(** restore.py 43-97, the constructor. [dest] is [None] if no destination is
    given; an empty path counts as none. The same is true of [comp], the cache
    directory; [fetcher] says whether there is a function for fetching. *)
Definition restorer (y : system) (head : bag_arg) (dest : option bag_arg) (comp : option pystr) (fetcher : bool) : res setup :=
  let? hp := setup_head y head in
  let '(d, inplace) := match dest with
                       | None | Some (APath []) => (hp, true)
                       | Some (APath p) | Some (ABag p) => (p, false)
                       end in
  let d := abspath y d in
  if negb (y_isdir y (os_dirname d)) then Err EOS
  else
    let inplace := inplace || streq d (abspath y hp) in
    let cache := match comp with
                 | None | Some [] => if fetcher then os_join (os_join d (U "multibag")) (U "_membercache")
                                     else os_dirname (abspath y hp)
                 | Some c => c
                 end in
    Ok {| su_head := hp; su_inplace := inplace; su_dest := d; su_cache := cache |}.

(** restore.py 111-116, [_create_dest_bag]: the directories that get made (the
    last one with all missing ones above it). *)
Definition create_dest (y : system) (s : setup) : list pystr :=
  (if negb (y_exists y (su_dest s)) then [su_dest s] else []) ++
  (if negb (y_exists y (su_cache s)) && startswith (su_cache s) (su_dest s) then [su_cache s] else []).

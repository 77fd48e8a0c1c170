(** * Opening bags and extending their interface

    Models access/bagit.py 606-666 ([open_bag]), access/extended.py 691-736
    ([as_extended]) and access/multibag.py 755-889 (the classes of head bags,
    [as_headbag], [open_headbag], [is_headbag]). *)

Require Import String NArith Bool List.
From Verif Require Import PyBase Fs HeadBag.
Import ListNotations.
Open Scope N_scope.

(** ** Classes *)

Inductive cls : Type :=
| CBag         (* bagit.Bag of the LOC *)
| CReadOnly    (* ReadOnlyBag, access/bagit.py 131 *)
| CExtRW       (* ExtendedReadWritableBag, access/extended.py 498 *)
| CExtRO       (* ExtendedReadOnlyBag, access/extended.py 691 *)
| CHeadRO      (* ReadOnlyHeadBag, access/multibag.py 755 *)
| CHeadNoUp    (* _NoUpdateHeadBag, access/multibag.py 776 *)
| CHead        (* HeadBag, access/multibag.py 796 *)
| COther.      (* anything that is not a Bag *)

(** [isinstance(bag, K)], from the bases in the class statements *)
Definition is_bag (c : cls) : bool := match c with COther => false | _ => true end.
Definition is_read_only_bag (c : cls) : bool :=
  match c with CReadOnly | CExtRO | CHeadRO => true | _ => false end.
(** [ExtendedReadMixin] *)
Definition is_extended (c : cls) : bool :=
  match c with CExtRW | CExtRO | CHeadRO | CHeadNoUp | CHead => true | _ => false end.
Definition is_extended_ro (c : cls) : bool := match c with CExtRO | CHeadRO => true | _ => false end.
(** [HeadBagReadMixin] *)
Definition is_head_read (c : cls) : bool := match c with CHeadRO | CHeadNoUp | CHead => true | _ => false end.
(** [HeadBagUpdateMixin] *)
Definition is_head_update (c : cls) : bool := match c with CHead => true | _ => false end.

(** A bag object: its class and, as in [HeadBag.v], its files, tags and caches.
    Simplification: an object without the attributes for the caches is one
    with empty caches. *)
Definition obj : Type := cls * hb.

(** access/extended.py 710-736. The attributes that [_extend] sets are not
    part of the model. *)
Definition as_extended (o : obj) : res obj :=
  let '(c, h) := o in
  if negb (is_bag c) then Err EValue
  else if is_extended c then Ok o
  else if is_read_only_bag c then Ok (CExtRO, h)
  else if negb (exists_ (U "bagit.txt") (hb_tree h)) then Err EValue
  else Ok (CExtRW, h).

(** access/multibag.py 149-158, [HeadBagReadMixin.__init__]. The one of
    [HeadBagUpdateMixin] (329-336) calls it. *)
Definition init_caches (h : hb) : hb := set_del (set_lu (set_mem h None) None) None.

(** access/multibag.py 829-864 *)
Definition as_headbag (readonly : bool) (o : obj) : res obj :=
  if negb (is_bag (fst o)) then Err EValue
  else
    let? o := (if negb (is_extended (fst o)) then as_extended o else Ok o) in
    let o := if negb (is_head_read (fst o))
             then (if is_extended_ro (fst o) then CHeadRO else CHeadNoUp, init_caches (snd o))
             else o in
    let o := if negb (is_head_update (fst o)) && negb readonly && negb (is_extended_ro (fst o))
             then (CHead, init_caches (snd o))
             else o in
    Ok o.

(** access/multibag.py 786-793, [_NoUpdateHeadBag(bagpath)]: [super(HeadBag,
    self)] where [self] is no [HeadBag]. *)
Definition new_no_update (h : hb) : res obj := Err EType.

(** access/multibag.py 806-816, [HeadBag(bagpath)]; [isdir] is
    [os.path.isdir(bagpath)] and [h] what [Bag(bagpath)] makes of it. *)
Definition new_headbag (isdir : bool) (h : res hb) : res obj :=
  if negb isdir then Err EValue else let? h := h in Ok (CHead, init_caches h).

(** ** Opening *)

(** [os.path.dirname] of any path (posixpath): the directory keeps its slashes
    only if it has nothing else. [Fs.dirname] is for normalized relative
    paths. *)
Definition os_dirname (p : pystr) : pystr :=
  match rsplit_slash p with
  | None => []
  | Some (a, _) => match rstrip_if (fun c => c =? SLASH) a with
                   | [] => a ++ [SLASH]
                   | d => d
                   end
  end.

(** What is at a location. The names of the directories in an archive are in
    the order of [walk.dirs()], breadth first, each with a leading slash; the
    flag is [isfile(d + "/bagit.txt")]. *)
Inductive place : Type :=
| PNone | PDir | PArchive (dirs : list (pystr * bool)).

(** Where the files of an open bag are: a directory [name] in a directory, a
    directory in an archive, or the root of some file system. *)
Inductive root : Type :=
| RDir (parent name : pystr)
| RArchive (location dir : pystr)
| RFs (location : pystr).

Record bagref := mkref { br_root : root; br_name : pystr; br_location : pystr }.

(** bagit.py 606-612 *)
Definition extensions : list pystr := [U ".zip"; U ".tar"; U ".tar.gz"; U ".tar.bz2"; U ".tgz"].

(** [s.split("/")[-1]] *)
Definition last_part (s : pystr) : pystr := last (split_on SLASH s) [].

(** bagit.py 164-166: an empty name is replaced by the last part of the path of
    the root *)
Definition root_path (r : root) : pystr :=
  match r with RDir _ n => n | RArchive _ d => d | RFs _ => [] end.
Definition named (r : root) (name location : pystr) : bagref :=
  mkref r (match name with [] => basename (root_path r) | _ => name end) location.

(** bagit.py 614-666, [open_bag], without the reading of the bag. [at_] is what
    the file system has at a location. *)
Definition open_bag (at_ : pystr -> place) (location : pystr) : res bagref :=
  match location with
  | [] => Err EValue
  | _ =>
      if substr_in (U "://") location then Ok (named (RFs location) (last_part location) location)
      else match at_ location with
           | PNone => Err EOS
           | PDir =>
               let parent := match os_dirname location with [] => [DOT] | d => d end in
               Ok (named (RDir parent (basename location)) (basename location) location)
           | PArchive ds =>
               if existsb (endswith location) extensions then
                 match find (fun db => snd db) ds with
                 | None => Err EBag
                 | Some (d, _) => Ok (named (RArchive location d) (last_part d) location)
                 end
               else Err EValue
           end
  end.

(** access/multibag.py 866-889, [open_headbag]; [read_only] and [read_dir] load
    the bag through [open_bag] and through [Bag]. *)
Definition open_headbag (isfile : pystr -> bool) (read_only read_dir : pystr -> res hb)
    (location : pystr) (readonly : bool) : res obj :=
  let? o := (if readonly || substr_in (U "://") location || isfile location
             then let? h := read_only location in Ok (CReadOnly, h)
             else let? h := read_dir location in Ok (CBag, h)) in
  as_headbag false o.

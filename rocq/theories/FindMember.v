(** * Finding the member bags of an aggregation

    Models /repo/multibag/restore.py 118-148. The file system is given by
    which paths are directories and which are files. *)

Require Import String NArith Bool List.
From Verif Require Import PyBase Fs TagDir.
Import ListNotations.
Open Scope N_scope.

Record disk := { d_isdir : pystr -> bool; d_isfile : pystr -> bool }.

(** restore.py 25 with access/bagit.py 606-612. This is a set, and the order
    in which Python goes through a set of strings is another one in every
    run; [order] below is a permutation of this list. *)
Definition extensions : list pystr := [U ".zip"; U ".tar"; U ".tar.gz"; U ".tar.bz2"; U ".tgz"].

(** [os.path.join(a, b)] *)
Definition full_join (a b : pystr) : pystr := if startswith b [SLASH] then b else os_join a b.

(** restore.py 118-132, [find_member_bag] *)
Definition find_member_bag (k : disk) (order : list pystr) (cache name : pystr) : option pystr :=
  let bagdir := full_join cache name in
  if d_isdir k bagdir then Some bagdir
  else match filter (d_isfile k) (map (fun e => bagdir ++ e) order) with
       | f :: _ => Some f
       | [] => None
       end.

(** restore.py 134-148, [_fetch_member_bag] and [get_member_bag]: the function
    that fetches a bag is given its name and the cache directory, and gives
    its path, if it can. An empty path counts as none (line 146). *)
Definition get_member_bag (k : disk) (order : list pystr) (fetcher : option (pystr -> pystr -> option pystr)) (cache name : pystr) : option pystr :=
  match find_member_bag k order cache name with
  | Some (c :: p) => Some (c :: p)
  | _ => match fetcher with Some f => f name cache | None => None end
  end.

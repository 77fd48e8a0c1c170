(** * Profile versions: model of multibag/constants.py 17-64 *)

Require Import String NArith ZArith Bool List.
From Verif Require Import PyBase.
Import ListNotations.
Open Scope Z_scope.

(** constants.py 17-21, [_2int] *)
Definition _2int (s : pystr) : Z :=
  match py_int s with Some z => z | None => -1 end.

(** The [fields] attribute is a list when the version was given as a string
    (constants.py 32-34) and a tuple when it was given as a tuple (35-37). *)
Inductive vfields : Type :=
| FList (l : list Z)
| FTuple (l : list Z).

(** The argument of the constructor. Simplification: tuples hold integers. *)
Inductive vinput : Type :=
| VStr (s : pystr)
| VTup (l : list Z).

Record version := { vs : pystr; fields : vfields }.

(** constants.py 28-39, [Version.__init__] *)
Definition mk_version (v : vinput) : version :=
  match v with
  | VStr s => {| vs := s; fields := FList (map _2int (split_on DOT s)) |}
  | VTup l => {| vs := join [DOT] (map dec_z l); fields := FTuple l |}
  end.

(** constants.py 41-42 *)
Definition version_str (v : version) : pystr := vs v.

(** Python's [==] and [<] on sequences of integers. *)
Fixpoint zs_eq (a b : list Z) : bool :=
  match a, b with
  | [], [] => true
  | x :: a', y :: b' => (x =? y) && zs_eq a' b'
  | _, _ => false
  end.

Fixpoint zs_lt (a b : list Z) : bool :=
  match a, b with
  | [], [] => false
  | [], _ :: _ => true
  | _ :: _, [] => false
  | x :: a', y :: b' => if x =? y then zs_lt a' b' else x <? y
  end.

(** constants.py 44-47, [__eq__]: a list never equals a tuple. *)
Definition v_eq (a b : version) : bool :=
  match fields a, fields b with
  | FList x, FList y => zs_eq x y
  | FTuple x, FTuple y => zs_eq x y
  | _, _ => false
  end.

(** constants.py 49-52, [__lt__]: comparing a list with a tuple raises
    TypeError. *)
Definition v_lt (a b : version) : res bool :=
  match fields a, fields b with
  | FList x, FList y => Ok (zs_lt x y)
  | FTuple x, FTuple y => Ok (zs_lt x y)
  | _, _ => Err EType
  end.

(** constants.py 54-57, [__le__] *)
Definition v_le (a b : version) : res bool :=
  let? l := v_lt a b in if l then Ok true else Ok (v_eq a b).

(** constants.py 59-60, [__ge__] *)
Definition v_ge (a b : version) : res bool :=
  let? l := v_lt a b in Ok (negb l).

(** constants.py 61-62, [__gt__] *)
Definition v_gt (a b : version) : res bool :=
  let? l := v_le a b in Ok (negb l).

(** constants.py 63-64, [__ne__] *)
Definition v_ne (a b : version) : bool := negb (v_eq a b).

(** [Version(s)] for a string. *)
Definition vstr (s : pystr) : version := mk_version (VStr s).

(** [vers < "0.3"] as used in access/multibag.py 210, 217, 250, 257;
    a comparison of two string versions never raises. *)
Definition older_than_03 (profile_version : pystr) : bool :=
  match v_lt (vstr profile_version) (vstr (U "0.3")) with
  | Ok b => b
  | Err _ => false
  end.

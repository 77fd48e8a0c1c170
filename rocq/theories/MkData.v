(** Test data: testing/mkdata.py *)
Require Import String NArith ZArith QArith List.
From Verif Require Import PyBase PyFloat.
Import ListNotations.
Open Scope Z_scope.

(** ** UniformSizeIterator *)

(** mkdata.py 382-386, the loop. [nf] counts down; the size changes once, when
    [nf] files are left and [nf] is the absolute value of [extra]. *)
Fixpoint sizes (nf : nat) (sz extra : Z) : list Z :=
  match nf with
  | O => []
  | S k =>
      let sz := if Z.of_nat nf =? Z.abs extra then sz + Z.sgn extra else sz in
      sz :: sizes k sz extra
  end.

(** mkdata.py 372-386, [iterate]: the sizes in order. [None] is a target that
    is not set. The exceptions are raised when the first size is asked for.
    Simplification: [fabs(extra)] is exact (it is up to 2^53). *)
Definition iterate (totalsize totalfiles : option Z) : res (list Z) :=
  match totalsize with
  | None => Err ERuntime
  | Some tz =>
      if tz <? 0 then Err ERuntime else
      match totalfiles with
      | None => Err ERuntime
      | Some nf =>
          if nf <? 0 then Err ERuntime else
          if nf =? 0 then Err EZeroDivision else
          let sz := ffloor (fadd (fdiv (fmul (inject_Z 1) (inject_Z tz)) (inject_Z nf)) (1 # 2)) in
          Ok (sizes (Z.to_nat nf) sz (tz - sz * nf))
      end
  end.

(** ** create_file *)

(** [math.floor(math.log(x))] for a positive integer: the greatest [k] with
    [e^k <= x], for a decimal approximation of [e]. From memory of CPython;
    [math.log] is taken to be accurate enough for this. *)
Definition E_NUM : Z := 2718281828459045.
Definition E_DEN : Z := 10 ^ 15.
Fixpoint ln_from (k : nat) (x : Z) : Z :=
  match k with
  | O => 0
  | S j => if E_NUM ^ Z.of_nat k <=? x * E_DEN ^ Z.of_nat k then Z.of_nat k else ln_from j x
  end.
Definition floor_ln (x : Z) : Z := ln_from (Z.to_nat (Z.log2 x)) x.

(** ["%{w}d " % i] *)
Definition number (w i : Z) : pystr :=
  let s := dec (Z.to_N i) in repeat 32%N (Z.to_nat w - length s) ++ s ++ [32%N].
(** ['x' * n] *)
Definition xs (n : Z) : pystr := repeat 120%N (Z.to_nat n).

(** mkdata.py 389-422, [create_file]: the content that is written. A negative
    size ends in [math.log] of a number that is not positive. *)
Definition create_file (size : Z) : res pystr :=
  if size <? 0 then Err EValue else
  let fulllines := ffloor (fdiv (inject_Z size) (inject_Z 100)) in
  let nwd := floor_ln (fulllines + 1) + 1 in
  let full := flat_map (fun i => number nwd (Z.of_nat i) ++ xs (98 - nwd) ++ [LF]) (seq 0 (Z.to_nat fulllines)) in
  let lft := size - fulllines * 100 in
  let '(c1, lft) := if nwd <? lft then (number nwd fulllines, lft - (nwd + 1)) else ([], lft) in
  let '(c2, lft) := if 1 <? lft then (xs (lft - 1), 1) else ([], lft) in
  let c3 := if 0 <? lft then [LF] else [] in
  Ok (full ++ c1 ++ c2 ++ c3).

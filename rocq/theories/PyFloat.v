(** Floating-point numbers of CPython (IEEE 754 binary64), as far as the code
    needs them: non-negative values, no overflow, no subnormal numbers.

    From memory of CPython, not of /repo: [float] division, multiplication and
    addition are the exact result rounded to the nearest binary64 number, ties
    to even; an [int] operand is first rounded to a [float] in the same way;
    [round(x, n)] and the formats [.nf] start from the exact decimal value of
    the number, ties to even. Values are rational numbers here. *)
Require Import ZArith QArith.
Open Scope Z_scope.

(** The nearest integer, ties to the even one. *)
Definition nearest (y : Q) : Z :=
  let n := Qnum y in let d := Zpos (Qden y) in
  let q := n / d in let r := n mod d in
  if 2 * r <? d then q else if d <? 2 * r then q + 1 else if Z.even q then q else q + 1.

Definition two (e : Z) : Q := Qpower (inject_Z 2) e.

(** The exponent for which a positive number has a mantissa of 53 bits. *)
Definition expo (x : Q) : Z :=
  let k := Z.log2 (Qnum x) - Z.log2 (Zpos (Qden x)) in
  if Qle_bool (two k) x then k - 52 else k - 53.

(** The nearest binary64 number. *)
Definition rnd (x : Q) : Q :=
  if Qle_bool x 0 then 0%Q else
  let e := expo x in Qred (inject_Z (nearest (x / two e)) * two e).

(** [x / y], [x * y] and [x + y]. Rounding the operands converts integers and
    leaves floats as they are. *)
Definition fdiv (x y : Q) : Q := rnd (rnd x / rnd y).
Definition fmul (x y : Q) : Q := rnd (rnd x * rnd y).
Definition fadd (x y : Q) : Q := rnd (rnd x + rnd y).
(** [math.floor]. *)
Definition ffloor (x : Q) : Z := Qnum x / Zpos (Qden x).
(** [round(x, 3)]. *)
Definition round3 (x : Q) : Q := rnd (inject_Z (nearest (x * inject_Z 1000)) / inject_Z 1000).

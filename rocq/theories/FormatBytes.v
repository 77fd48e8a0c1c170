(** Byte counts as text: the Bag-Size element *)
Require Import String NArith ZArith QArith List.
From Verif Require Import PyBase PyFloat Fs SplitApply.
Import ListNotations.
Open Scope N_scope.

(** multibag.py 737-741 and extended.py 479-483, the first loop; [fuel] is
    4 minus the order. *)
Fixpoint thousands (fuel : nat) (x : Q) (order : nat) : Q * nat :=
  match fuel with
  | O => (x, order)
  | S f => if Qle_bool (inject_Z 1000) x then thousands f (fdiv x (inject_Z 1000)) (S order) else (x, order)
  end.

(** multibag.py 743-746 and extended.py 485-488, the second loop. The code has
    no [fuel]; [format_bytes] gives enough of it (see [tens_spec]). *)
Fixpoint tens (fuel : nat) (x : Q) (order : nat) : Q * nat :=
  match fuel with
  | O => (x, order)
  | S f => if Qle_bool (inject_Z 10) x then tens f (fdiv x (inject_Z 10)) (S order) else (x, order)
  end.

(** The format [.pf] of a number that is [k] units of the [p]th decimal. *)
Definition decimals (p : nat) (k : N) : pystr :=
  let unit := 10 ^ N.of_nat p in
  let frac := dec (k mod unit) in
  dec (k / unit) ++ [DOT] ++ repeat 48 (p - length frac) ++ frac.

(** [re.sub(r"0+$", "", s)] for a text on one line. *)
Fixpoint drop_zeros (s : pystr) : pystr :=
  match s with [] => [] | c :: t => if c =? 48 then drop_zeros t else s end.
Definition strip_zeros (s : pystr) : pystr := rev (drop_zeros (rev s)).
(** [if s.endswith('.'): s = s[:-1]] *)
Definition strip_dot (s : pystr) : pystr :=
  match rev s with c :: t => if c =? DOT then rev t else s | [] => s end.

Definition prefixes : list pystr := [U ""; U "k"; U "M"; U "G"; U "T"].

(** multibag.py 736-752 with three decimals and extended.py 478-494 with six
    (the format [5f]: the least width of 5 never counts). Simplification:
    numbers for which a float overflows (from 2^1024 on) are not treated
    apart. The test for a dot in line 748 is always true. *)
Definition format_bytes (p : nat) (n : N) : pystr :=
  let '(x, order) := thousands 4 (inject_Z (Z.of_N n)) 0 in
  let '(m, r) := tens (S (N.to_nat (N.log2 n))) x 0 in
  let y := fmul (round3 m) (inject_Z (10 ^ Z.of_nat r)) in
  let k := Z.to_N (nearest (y * inject_Z (10 ^ Z.of_nat p))) in
  strip_dot (strip_zeros (decimals p k)) ++ U " " ++ nth order prefixes [] ++ U "B".

(** multibag.py 726-734, [_bag_size]: all files, and a guess at the length of
    the new line. *)
Definition bag_size (t : tree) : pystr :=
  let size := sum_N (map (fun f => size_of f t) (files t)) in
  format_bytes 3 (size + N.of_nat (length (U "Bag-Size: " ++ dec size))).

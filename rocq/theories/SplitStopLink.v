(** * A split with hard links that stops

    split.py 232-399 and extended.py 359-361: what is in the output directory
    and in the source bag when a split that links files instead of copying
    them ends early, because the program is stopped or because of an
    exception. *)

Require Import String NArith PeanoNat Bool List.
From Verif Require Import PyBase Fs HeadBag BagIt Split SplitApply SplitStop.
Import ListNotations.

(** split.py 260-399: operations on one bag with hard links, up to the end or
    the first exception. *)
Fixpoint run_linked_until (ops : list op) (l : lstate) : lstate :=
  match ops with
  | [] => l
  | x :: rest => match run_linked l x with Ok l' => run_linked_until rest l' | Err _ => l end
  end.

(** split.py 260-399: the output directory and the source after [n] steps of a
    split with hard links; steps as in [left_after]. As in [apply_plan_linked],
    each bag is made from the source as the bags before left it, and a later
    write to a source file does not show in the bags made before
    (simplification). *)
Fixpoint left_linked (s : source) (o : apply_opts) (n : nat) (mhs : list (manifest * bool)) (a : astate) (src : tree)
    {struct mhs} : dict tree * tree :=
  match mhs with
  | [] => (a_out a, src)
  | (m, ishead) :: rest =>
      match n, next_name m (a_naming a) with
      | S n, Ok (Some b, it) =>
          if od_has b (a_out a) then (a_out a, src)
          else
            let s1 := with_tree s src in
            let members := push_member b (a_members a) in
            let lookup := fold_left (add_lookup b) (plan_files s1 m) (a_lookup a) in
            let (ops, fin) := bag_ops s1 o b m ishead members lookup in
            let l := run_linked_until (firstn n ops) {| l_src := src; l_out := []; l_links := [] |} in
            let out := od_set b (l_out l) (a_out a) in
            if Nat.ltb n (length ops) then (out, l_src l)
            else match run_linked_ops ops src, fin with
                 | Ok _, Ok _ =>
                     left_linked s o (n - length ops) rest
                       {| a_out := out; a_members := members; a_lookup := lookup; a_naming := it |} (l_src l)
                 | _, _ => (out, l_src l)
                 end
      | _, _ => (a_out a, src)
      end
  end.

(** split.py 197-399: the output directory and the source after [n] steps of
    applying a plan with hard links; [out]: what the output directory had
    before. *)
Definition plan_left_linked (s : source) (o : apply_opts) (p : plan) (it : option naming) (n : nat) (out : dict tree)
  : dict tree * tree :=
  match initial_lists s with
  | Ok (ms, lu) =>
      left_linked s o n (manifests p) {| a_out := out; a_members := ms; a_lookup := lu; a_naming := it |} (so_tree s)
  | Err _ => (out, so_tree s)
  end.

(** * A split that stops

    split.py 260-399: what is in the output directory when writing the split
    bags ends early, because the program is stopped or because of an
    exception. *)

Require Import String NArith PeanoNat Bool List.
From Verif Require Import PyBase Fs HeadBag BagIt Split SplitApply.
Import ListNotations.

(** split.py 260-399: the output directory after [n] steps. A step is making
    the directory of a bag (line 276), or one of the operations on its files
    (lines 277-396); a write of a file is one step (simplification). An exception
    ends the split: the bag that was being written stays as it is. *)
Fixpoint left_after (s : source) (o : apply_opts) (n : nat) (mhs : list (manifest * bool)) (a : astate) {struct mhs} : dict tree :=
  match mhs with
  | [] => a_out a
  | (m, ishead) :: rest =>
      match n, next_name m (a_naming a) with
      | S n, Ok (Some b, it) =>
          if od_has b (a_out a) then a_out a
          else
            let members := push_member b (a_members a) in
            let lookup := fold_left (add_lookup b) (plan_files s m) (a_lookup a) in
            let (ops, fin) := bag_ops s o b m ishead members lookup in
            let out := od_set b (run_until (firstn n ops) []) (a_out a) in
            if Nat.ltb n (length ops) then out
            else match run_ops ops [], fin with
                 | Ok _, Ok _ =>
                     left_after s o (n - length ops) rest
                       {| a_out := out; a_members := members; a_lookup := lookup; a_naming := it |}
                 | _, _ => out
                 end
      | _, _ => a_out a
      end
  end.

(** split.py 197-399: the output directory after [n] steps of applying a plan;
    [out]: what it had before. *)
Definition plan_left (s : source) (o : apply_opts) (p : plan) (it : option naming) (n : nat) (out : dict tree) : dict tree :=
  match initial_lists s with
  | Ok (ms, lu) => left_after s o n (manifests p) {| a_out := out; a_members := ms; a_lookup := lu; a_naming := it |}
  | Err _ => out
  end.

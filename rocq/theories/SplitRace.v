(** * Splits that run at the same time

    split.py 260-399, run by several processes into the same output directory.
    The processes share nothing but that directory. Their steps come in any
    order; a step is making the directory of a bag (line 276; os.mkdir is
    atomic: it makes the directory or raises), one operation on its files (lines
    277-396), or going on to the next bag. Simplifications: the write of one file
    is one step; the sources are copied from and do not change. *)

Require Import String NArith PeanoNat Bool List.
From Verif Require Import PyBase Fs HeadBag BagIt Split SplitApply.
Import ListNotations.

(** What a process is given: split.py 197, [apply_iter] *)
Record task := {
  k_source : source;
  k_opts : apply_opts;
  k_plan : plan;
  k_naming : option naming
}.

(** Where a process is in split.py 260-399: the bag that it is writing, with the
    operations that are still to be done on it and what ends it. *)
Inductive where_ :=
| Between
| Writing (b : pystr) (ops : list op) (fin : res unit)
| Ended
| Raised (e : exn).

(** The variables of a process: split.py 245-260. *)
Record proc := {
  q_where : where_;
  q_rest : list (manifest * bool);
  q_members : list pystr;
  q_lookup : dict pystr;
  q_naming : option naming
}.

Definition at_ (q : proc) (w : where_) : proc :=
  {| q_where := w; q_rest := q_rest q; q_members := q_members q; q_lookup := q_lookup q; q_naming := q_naming q |}.

(** split.py 245-258: the start of a process *)
Definition start (k : task) : proc :=
  match initial_lists (k_source k) with
  | Ok (ms, lu) => {| q_where := Between; q_rest := manifests (k_plan k); q_members := ms; q_lookup := lu; q_naming := k_naming k |}
  | Err e => {| q_where := Raised e; q_rest := []; q_members := []; q_lookup := []; q_naming := k_naming k |}
  end.

(** split.py 260-276: the loop goes on, and the directory of a bag is made. *)
Definition next_bag (k : task) (d : dict tree) (q : proc) : dict tree * proc :=
  match q_rest q with
  | [] => (d, at_ q Ended)
  | (m, ishead) :: rest =>
      match next_name m (q_naming q) with
      | Err e => (d, at_ q (Raised e))
      | Ok (None, _) => (d, at_ q (Raised EType))
      | Ok (Some b, it) =>
          if od_has b d then (d, at_ q (Raised EOS))
          else
            let members := push_member b (q_members q) in
            let lookup := fold_left (add_lookup b) (plan_files (k_source k) m) (q_lookup q) in
            let (ops, fin) := bag_ops (k_source k) (k_opts k) b m ishead members lookup in
            (od_set b [] d,
             {| q_where := Writing b ops fin; q_rest := rest; q_members := members; q_lookup := lookup; q_naming := it |})
      end
  end.

(** split.py 260-399: one step of a process on the output directory [d]. *)
Definition step (k : task) (d : dict tree) (q : proc) : dict tree * proc :=
  match q_where q with
  | Between => next_bag k d q
  | Writing b [] (Ok _) => (d, at_ q Between)
  | Writing b [] (Err e) => (d, at_ q (Raised e))
  | Writing b (x :: ops) fin =>
      match run_op (match od_get b d with Some t => t | None => [] end) x with
      | Ok t => (od_set b t d, at_ q (Writing b ops fin))
      | Err e => (d, at_ q (Raised e))
      end
  | Ended | Raised _ => (d, q)
  end.

(** split.py 260-399: the steps of all the processes in the order of [sched]:
    the numbers of the processes whose turn it is. *)
Definition set_proc (i : nat) (q : proc) (qs : nat -> proc) : nat -> proc := fun j => if Nat.eqb j i then q else qs j.
Fixpoint race (ks : nat -> task) (sched : list nat) (d : dict tree) (qs : nat -> proc) : dict tree * (nat -> proc) :=
  match sched with
  | [] => (d, qs)
  | i :: sched => let (d, q) := step (ks i) d (qs i) in race ks sched d (set_proc i q qs)
  end.

(** split.py 197-399: the output directory and the processes in the end; [out]: what it had
    before. *)
Definition run_all (ks : nat -> task) (sched : list nat) (out : dict tree) : dict tree * (nat -> proc) :=
  race ks sched out (fun i => start (ks i)).

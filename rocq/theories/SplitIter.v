(** * Writing split bags one at a time

    split.py 197-399: [apply_iter] is a generator, and its caller acts between
    two bags: "The caller is allowed to modify the newly written bag between
    calls to the iterator--e.g. to serialize it or move it to other storage"
    (lines 207-208). *)

Require Import String NArith Bool List.
From Verif Require Import PyBase Fs HeadBag BagIt Split SplitApply.
Import ListNotations.
Open Scope N_scope.

(** The bag that was written last, with its path as [yield] gives it
    (split.py 399): the path is the output directory with the name joined. *)
Definition newest (a : astate) : dict tree :=
  match rev (a_members a) with
  | [] => []
  | b :: _ => match od_get b (a_out a) with Some t => [(b, t)] | None => [] end
  end.

(** split.py 260-399 with a caller. [act k] is what the caller does to the
    output directory after the [k]-th bag was given to it (counted from 1), and
    it may be anything. The result is the bags as they were given out, and the
    state in the end or the error that ended the iteration. *)
Definition with_out (a : astate) (d : dict tree) : astate :=
  {| a_out := d; a_members := a_members a; a_lookup := a_lookup a; a_naming := a_naming a |}.

Fixpoint drive (s : source) (o : apply_opts) (act : nat -> dict tree -> dict tree) (k : nat)
    (mhs : list (manifest * bool)) (a : astate) : dict tree * res astate :=
  match mhs with
  | [] => ([], Ok a)
  | mh :: rest =>
      match apply_one s o a mh with
      | Err e => ([], Err e)
      | Ok a1 =>
          let (bags, r) := drive s o act (S k) rest (with_out a1 (act (S k) (a_out a1))) in
          (newest a1 ++ bags, r)
      end
  end.

(** split.py 197-399; the source is opened read-only or on another file system, so that
    files are copied. [stop]: the number of bags that the caller asks for
    (None: all of them). *)
Definition apply_iter (s : source) (o : apply_opts) (p : plan) (it : option naming)
    (act : nat -> dict tree -> dict tree) (stop : option nat) (out : dict tree) : dict tree * res astate :=
  match initial_lists s with
  | Err e => ([], Err e)
  | Ok (ms, lu) =>
      drive s o act 0 (match stop with None => manifests p | Some n => firstn n (manifests p) end)
            {| a_out := out; a_members := ms; a_lookup := lu; a_naming := it |}
  end.

(** ** With hard links *)

(** What the caller does to the new bag: writing files in place, making
    directories, and then perhaps moving it out of the output directory. A step
    that fails changes nothing. *)
Record edit := { e_ops : list op; e_away : bool }.
Definition edit_step (l : lstate) (x : op) : lstate := match run_linked l x with Ok l' => l' | Err _ => l end.

(** split.py 260-399 with hard links, as [apply_one_linked], and the caller's
    edit of the new bag. *)
Definition apply_one_edited (s : source) (o : apply_opts) (ed : edit) (st : astate * tree) (mh : manifest * bool)
  : res ((pystr * tree) * (astate * tree)) :=
  let (a, src) := st in
  let s := with_tree s src in
  let (m, ishead) := mh in
  let? (name, it) := next_name m (a_naming a) in
  match name with
  | None => Err EType
  | Some b =>
      if od_has b (a_out a) then Err EOS
      else
        let members := push_member b (a_members a) in
        let lookup := fold_left (add_lookup b) (plan_files s m) (a_lookup a) in
        let (ops, fin) := bag_ops s o b m ishead members lookup in
        let? l := run_linked_ops ops src in
        let? _ := fin in
        let l' := fold_left edit_step (e_ops ed) l in
        Ok ((b, l_out l),
            ({| a_out := if e_away ed then a_out a else od_set b (l_out l') (a_out a);
                a_members := members; a_lookup := lookup; a_naming := it |}, l_src l'))
  end.

Fixpoint drive_linked (s : source) (o : apply_opts) (act : nat -> edit) (k : nat)
    (mhs : list (manifest * bool)) (st : astate * tree) : dict tree * res (astate * tree) :=
  match mhs with
  | [] => ([], Ok st)
  | mh :: rest =>
      match apply_one_edited s o (act (S k)) st mh with
      | Err e => ([], Err e)
      | Ok (bt, st1) => let (bags, r) := drive_linked s o act (S k) rest st1 in (bt :: bags, r)
      end
  end.

(** split.py 197-399 for a source opened as a directory on the file system of
    the output (lines 67-71 and 232-233): the bags given out, and the state and
    the source's files in the end. *)
Definition apply_iter_linked (s : source) (o : apply_opts) (p : plan) (it : option naming)
    (act : nat -> edit) (out : dict tree) : dict tree * res (astate * tree) :=
  match initial_lists s with
  | Err e => ([], Err e)
  | Ok (ms, lu) =>
      drive_linked s o act 0 (manifests p)
        ({| a_out := out; a_members := ms; a_lookup := lu; a_naming := it |}, so_tree s)
  end.

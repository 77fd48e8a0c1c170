(** * Restoring a head bag in place, stopped on the way

    restore.py 284-327 with a destination that is the head bag itself, step by
    step as in [RestoreRace.v], and what can be done with the bag after a
    stop. *)

Require Import String NArith Bool List PeanoNat.
From Verif Require Import PyBase Tsv Fs HeadBag BagIt Split SplitApply Restore RestoreRace.
Import ListNotations.
Open Scope N_scope.

(** restore.py 150-327: the destination after [n] steps, and what is still to
    be done. *)
Fixpoint after (n : nat) (p : prog) (d : tree) {struct n} : tree * prog :=
  match n with
  | O => (d, p)
  | S n => let (d, p) := turn p d in after n p d
  end.

(** restore.py 75-77 and 284-327: the head bag [h] is restored where it is,
    with the default options but [update_sizes]. *)
Definition in_place (v : env) (update_sizes : bool) (bsize : tree -> pystr) (ro : bool) (h : hb) : prog :=
  restore_prog v update_sizes true bsize ro h (e_dest v).

(** access/multibag.py 818-827, [is_headbag], which restore.py 68-69 asks
    before anything else. *)
Definition is_headbag (v : env) (loc : pystr) (t : tree) : res bool :=
  let? (info, _) := open_bag v IoText loc t in Ok (od_has T_HeadVersion info).

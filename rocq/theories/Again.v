(** * Amendments that are stopped and made again: multibag/amend.py 140-177

    An attempt opens the bag that is to be the new head and amends, and may
    stop after any of the writes ([Amend.amend_steps]). Simplification: a stop
    in the middle of a write is not in [attempt]; [Cut.v] has the texts that
    such a stop leaves. Of the opening only the tags are here. *)
Require Import String NArith Bool List.
From Verif Require Import PyBase Version Tsv Fs HeadBag BagIt Split SplitApply Restore Amend.
Import ListNotations.

(** amend.py 173-177 with a new process: the bag [name] with files [t] is
    opened (216), the lists are made in memory and written (353-355).
    The files are [t'] when it stops. The amendee is opened anew (210-213). *)
Definition attempt (v : env) (algs : list pystr) (bsize : tree -> pystr) (repr : list pystr -> pystr)
    (ro : bool) (old : hb) (bags : list src) (version : pystr) (name : pystr) (t t' : tree) : Prop :=
  exists i h old' l,
    match read F_baginfo t with Some c => load_tags Codecs c | None => Ok [] end = Ok i /\
    amend_lists repr false ro old (map default_bag bags) (own_member None None []) SNone SNone
      (open_hb name t i Codecs) = (h, Ok old') /\
    hb_mem h = Some l /\
    stops_at (amend_steps v algs bsize version (hb_info h) l (hb_lu h)) t t'.

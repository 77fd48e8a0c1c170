(** * An Amender that is used step by step

    [amend_bag_with] (amend.py 140-177) makes an Amender and calls its methods
    once: init_from_amendee, add_amending_bag for every bag, finalize. The class
    can also be used directly, and then the caller chooses the calls. Here: one
    init_from_amendee, then any sequence of add_amending_bag and finalize, with
    the default arguments of each. *)
Require Import String NArith Bool List.
From Verif Require Import PyBase Version Tsv Fs HeadBag BagIt Split SplitApply Restore Amend.
Import ListNotations.

(** A call of a method of the Amender. *)
Inductive call :=
| CAdd (b : src)
| CFinalize (version : pystr).

(** amend.py 222-236, [init_from_amendee]. The result is the handle of the
    amendee afterwards. *)
Definition init_from_amendee (repr : list pystr -> pystr) (keepprofver ro : bool) (old : hb) : M hb := fun new =>
  let (old, new) := init_multibag_info repr keepprofver old new in
  (init_member_bags old ;;
   init_file_lookup ro old ;;
   retM old) new.

(** amend.py 326-355, [finalize] *)
Definition finalize (v : env) (algs : list pystr) (bsize : tree -> pystr) (version : pystr) : M unit :=
  (fun h => list_itself (own_member None None [] (hb_name h)) SNone SNone h) ;;
  write_all v algs bsize version.

(** amend.py 290-324 and 326-355 *)
Definition do_call (v : env) (algs : list pystr) (bsize : tree -> pystr) (c : call) : M unit :=
  match c with
  | CAdd b => add_amending_bag (default_bag b)
  | CFinalize version => finalize v algs bsize version
  end.

(** amend.py 222-355: the Amender after some calls. *)
Definition use_amender (v : env) (algs : list pystr) (bsize : tree -> pystr) (repr : list pystr -> pystr)
    (ro : bool) (old : hb) (calls : list call) : M hb :=
  do old' <- init_from_amendee repr false ro old ;
  forM calls (do_call v algs bsize) ;;
  retM old'.

(** * Conversions that are stopped and made again: multibag/amend.py 21-33, 122-137

    An attempt opens the bag and converts it, and may stop after any of the
    writes ([Amend.single_steps]) or in the middle of writing one of the two
    lists. Simplification: a stop in the middle of writing bag-info.txt or a
    tag manifest is not in [conversion]. *)
Require Import String NArith Bool List.
From Verif Require Import PyBase Version Tsv Fs HeadBag BagIt Split SplitApply Restore Amend.
Import ListNotations.

(** amend.py 133-134 without the last line of each (77, 110): the tags and the
    lists as they are in memory before the lists are written. Simplification:
    line 77 is in here, since what the handle has in memory afterwards is the
    same. *)
Definition convert_lists (v : env) (algs : list pystr) (bsize : tree -> pystr) (bagdir : pystr)
    (pid : option pystr) : M unit :=
  write_member_bags v algs bsize bagdir pid None [] ;;
  ensure_info v algs bsize ;;
  clear_file_lookup ;;
  (fun h => update_for_member (src_of false h) SNone SNone false None h).

(** amend.py 32-33 with a new process, up to any stop. The files are [t'] then.
    If it stopped in the middle of writing a list, that list may hold anything:
    the text is not said. *)
Definition conversion (v : env) (bsize : tree -> pystr) (bagdir version : pystr) (pid : option pystr)
    (t t' : tree) : Prop :=
  exists i es algs h l t1,
    open_bag v Codecs (e_dest v) t = Ok (i, es) /\
    algorithms v t = Ok algs /\
    convert_lists v algs bsize bagdir pid (open_hb (name_at bagdir) t i Codecs) = (h, Ok tt) /\
    hb_mem h = Some l /\
    stops_at (single_steps v algs bsize version i (hb_info h) l (hb_lu h)) t t1 /\
    (t' = t1 \/
     exists f c, In f [F_members; F_lookup] /\ write_file (sjoin (tag_dir (hb_info h)) f) c t1 = Ok t').

(** * What it means to make a conversion again *)
Require Import String NArith Bool List.
From Verif Require Import PyBase Version Tsv Fs HeadBag BagIt Split SplitApply Restore Amend BagItProofs Reconvert.
Import ListNotations.

(** [t'] is left of the bag after any number of conversions, each of which
    came to its end, or stopped after any of its writes, or stopped in the
    middle of writing a list. They may differ in the path that was given, the
    version and the identifier. [t0] is the bag before the first. *)
Inductive conversions (v : env) (bsize : tree -> pystr) (t0 : tree) : tree -> Prop :=
| not_converted : conversions v bsize t0 t0
| converted_once_more bagdir version pid t1 t2 :
    conversions v bsize t0 t1 -> version <> [] -> tag_value_ok Codecs version ->
    conversion v bsize bagdir version pid t1 t2 -> conversions v bsize t0 t2.

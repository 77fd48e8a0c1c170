(** * The size that a bag declares

    Models the methods of /repo/multibag/access/extended.py 442-476 with
    which the end of a restoration (restore.py 323-327) declares the sizes of
    the restored bag. [calc_oxum] (426-440) is in [Restore.v], where [finish]
    does what [update_oxum] (442-449) does; [_format_bytes] is in
    [FormatBytes.v]. *)

Require Import String NArith Bool List.
From Verif Require Import PyBase Fs HeadBag BagIt SplitApply FormatBytes Restore.
Import ListNotations.
Open Scope N_scope.

(** [len] of the value of a tag: the characters of a text, but the elements of
    a list if the tag is repeated. *)
Definition tag_len (x : ival) : N :=
  match x with IStr s => N.of_nat (length s) | IList l => N.of_nat (length l) end.

(** extended.py 451-466, [calc_bag_size]: files and directories are counted; [ds] is
    the size that the file system gives for a directory, [old] the tag Bag-Size
    in memory. The difference in line 463 is not negative if the bag was saved,
    as the text of the tag is in bag-info.txt (simplification: natural
    numbers). *)
Definition calc_bag_size (ds : pystr -> N) (old : option ival) (t : tree) : N :=
  let sz := sum_N (map (fun f => size_of f t) (files t)) + sum_N (map ds (dirs t)) in
  match old with
  | None => sz
  | Some x => let sz := sz - tag_len x in sz + N.of_nat (length (format_bytes 6 sz))
  end.

(** extended.py 468-476, [update_bag_size]: the text of the new tag. *)
Definition declared_size (ds : pystr -> N) (old : option ival) (t : tree) : pystr :=
  format_bytes 6 (calc_bag_size ds old t).

(** * Stopping while a list is being saved: multibag/access/multibag.py 429-445,
      609-628, 674-690

    The three methods open the file for writing, which empties it, and write it
    line by line. If the program stops in between, the file has the beginning
    of the text. Buffers are written out at any point, so the end need not be
    the end of a line. Simplification: the text ends between two characters (in
    the middle of one, reading it raises UnicodeDecodeError). *)
Require Import String NArith Bool List.
From Verif Require Import PyBase Version Tsv Fs HeadBag.
Import ListNotations.

(** multibag.py 429-445, [save_member_bags], up to the [n]-th character *)
Definition cut_members (n : nat) : M unit := fun h =>
  match hb_mem h with
  | None => (h, Ok tt)
  | Some l =>
      (ensure_tagdir ;;
       put_file (sjoin (tag_dir (hb_info h)) F_members) (firstn n (fst (members_prefix l)))) h
  end.

(** multibag.py 609-628, [save_file_lookup], up to the [n]-th character *)
Definition cut_lookup (n : nat) : M unit := fun h =>
  match hb_lu h with
  | None => (h, Ok tt)
  | Some d =>
      (ensure_tagdir ;;
       put_file (sjoin (tag_dir (hb_info h)) F_lookup) (firstn n (lookup_text d))) h
  end.

(** multibag.py 674-690, [save_deleted], up to the [n]-th character, for a list
    that is not empty (then nothing is removed before) *)
Definition cut_deleted (n : nat) : M unit := fun h =>
  match hb_del h with
  | None => (h, Ok tt)
  | Some l =>
      (ensure_tagdir ;;
       put_file (sjoin (tag_dir (hb_info h)) F_deleted) (firstn n (deleted_text l))) h
  end.

(** * Restoring while others work on the same directory

    restore.py 118-327 again, with bags that other processes may change while
    they are read. Time is counted in readings: [w_find w k n] is where the bag
    [n] is found at the moment [k], [w_bag w k l] is what is then at the place
    [l]. Each lookup (lines 118-148), each opening of a bag, each listing (line
    185; of the whole bag at once, a simplification) and each copying of a file
    (lines 192-206) happens at its own moment. Nobody else writes to the
    destination. *)

Require Import String NArith Bool List PeanoNat.
From Verif Require Import PyBase Tsv Fs HeadBag BagIt Split SplitApply Restore.
Import ListNotations.

Record scene := { w_find : nat -> pystr -> option pystr; w_bag : nat -> pystr -> tree }.

(** restore.py 185-222: the steps of the loops, beginning at the moment [k]; the
    moment afterwards is given too. *)
Fixpoint copy_while (bag : nat -> tree) (k : nat) (l : list item) (st : tree * list pystr) : res (tree * list pystr * nat) :=
  match l with
  | [] => Ok (st, k)
  | i :: l => let? st := restore_item false (bag k) st i in copy_while bag (S k) l st
  end.

(** restore.py 174-225, [_restore_from] the place [loc] *)
Definition from_while (v : env) (w : scene) (skip : list pystr) (loc : pystr) (k : nat) (dest : tree) : res (tree * nat) :=
  if streq loc (e_dest v) then Ok (dest, k)
  else
    let? oe := open_bag v IoText loc (w_bag w k loc) in
    let? r := copy_while (fun k => w_bag w k loc) (S (S k)) (items_of skip (w_bag w (S k) loc)) (dest, []) in
    match r with
    | (dest, [], k) => Ok (dest, k)
    | (dest, updated, k) => let? dest := update_manifests v (snd oe) updated dest in Ok (dest, k)
    end.

(** restore.py 306-307 with 150-163: the members one after the other *)
Fixpoint members_while (v : env) (w : scene) (skip names : list pystr) (k : nat) (dest : tree) : res (tree * nat) :=
  match names with
  | [] => Ok (dest, k)
  | n :: names =>
      match w_find w k n with
      | None => Err EOS
      | Some loc => let? r := from_while v w skip loc (S k) dest in members_while v w skip names (snd r) (fst r)
      end
  end.

(** restore.py 268-277: the lines of fetch.txt of the members *)
Fixpoint lines_while (v : env) (w : scene) (dest : tree) (names : list pystr) (k : nat) (d : dict pystr) : res (dict pystr) :=
  match names with
  | [] => Ok d
  | n :: names =>
      match w_find w k n with
      | None => Err EValue
      | Some loc =>
          let t k := if streq loc (e_dest v) then dest else w_bag w k loc in
          let? _ := open_bag v IoText loc (t (S k)) in
          lines_while v w dest names (S (S (S k)))
            match read F_fetch (t (S (S k))) with
            | None => d
            | Some c => fold_left fetch_line (pylines IoText (decode IoText c)) d
            end
      end
  end.

(** restore.py 284-327, [restore]: the lists of the head bag have been read
    from [hb_tree h] before. *)
Definition restore_while (v : env) (w : scene) (update_sizes remove_tags : bool) (bsize : tree -> pystr)
    (ro : bool) (h : hb) (loc : pystr) (dest : tree) : res tree :=
  let? (skip, ms) := head_lists ro h in
  let? dest := start_info h dest in
  let? r := from_while v w skip loc 0 dest in
  let? r := members_while v w skip (others h ms) (snd r) (fst r) in
  let (dest, k) := r in
  let? dest := match others h ms with
               | [] => Ok dest
               | ns => let? d := lines_while v w dest ns k [] in
                       match d with
                       | [] => Ok dest
                       | _ => write_file F_fetch (flat_map snd d) dest
                       end
               end in
  finish v update_sizes remove_tags bsize dest.

(** * Restoring with modification times

    Models the parts of /repo/multibag/restore.py that [Restore.v] leaves out:
    lines 190, 203-206 and 215-222 of [_restore_from], and when files are
    written otherwise. What operations do to modification times is that of
    POSIX: writing a file sets its time, and making or removing an entry sets
    the time of the directory. Times are exact here; in the code they are
    floats. *)

Require Import String NArith ZArith Bool List.
From Verif Require Import PyBase Tsv Fs HeadBag BagIt Split SplitApply Restore.
Import ListNotations.
Open Scope N_scope.

(** A directory tree with the modification times of its entries; [w_ticks]
    counts the changes made so far. *)
Record world := { w_tree : tree; w_mtime : pystr -> Z; w_ticks : nat }.

Section Times.
(** The time of the change with a number. *)
Variable clock : nat -> Z.
(** What [timesfor] (extended.py 596-605) has as the modification time of a
    path in the bag at a location. None if fs gives no time, which happens
    for directories that an archive has no entry for. *)
Variable mt : pystr -> pystr -> option Z.

Definition with_tree (t : tree) (w : world) : world :=
  {| w_tree := t; w_mtime := w_mtime w; w_ticks := w_ticks w |}.

(** [os.utime] *)
Definition set_mtime (p : pystr) (m : Z) (w : world) : world :=
  {| w_tree := w_tree w; w_mtime := fun q => if streq q p then m else w_mtime w q; w_ticks := w_ticks w |}.

(** The system sets the modification time of a path. *)
Definition stamp (p : pystr) (w : world) : world :=
  {| w_tree := w_tree w; w_mtime := fun q => if streq q p then clock (w_ticks w) else w_mtime w q;
     w_ticks := S (w_ticks w) |}.

(** Writing a file *)
Definition t_write (p c : pystr) (w : world) : res world :=
  let? t := write_file p c (w_tree w) in
  Ok (stamp p (with_tree t (if exists_ p (w_tree w) then w else stamp (dirname p) w))).

(** restore.py 192-206. [os.utime] raises TypeError if there is no time. The
    directory is there (line 190), so that only the file gets made. *)
Definition t_file (overwrite : bool) (src : tree) (st : pystr -> option Z) (d : pystr) (s : world * list pystr) (f : pystr)
  : res (world * list pystr) :=
  let (w, updated) := s in
  let p := pjoin d f in
  let? w := if overwrite && exists_ p (w_tree w)
            then let? t := remove_file p (w_tree w) in Ok (stamp (dirname p) (with_tree t w))
            else Ok w in
  if exists_ p (w_tree w) then Ok (w, updated)
  else match replicate_ro CopyDone src (w_tree w) p with
       | (t, Ok _) =>
           match st p with
           | Some m => Ok (set_mtime p m (stamp (dirname p) (stamp p (with_tree t w))), updated ++ [sjoin d f])
           | None => Err EType
           end
       | (_, Err e) => Err e
       end.

(** restore.py 208-219 *)
Definition t_dir (st : pystr -> option Z) (d : pystr) (s : world * list pystr) (f : pystr) : res (world * list pystr) :=
  let (w, updated) := s in
  let p := pjoin d f in
  if exists_ p (w_tree w) then Ok (w, updated)
  else let? t := makedirs p (w_tree w) in
       match st p with
       | Some m => Ok (set_mtime p m (stamp (dirname p) (stamp p (with_tree t w))), updated)
       | None => Err EType
       end.

(** restore.py 186-222: one directory. A time of zero counts as false
    (line 221). *)
Definition t_block (overwrite : bool) (skip : list pystr) (src : tree) (st : pystr -> option Z) (s : world * list pystr)
    (x : pystr * list pystr * list pystr) : res (world * list pystr) :=
  let '(d, ds, fs) := x in
  if skipped_root skip d then Ok s
  else if exists_ d (w_tree (fst s)) then
    let rm := w_mtime (fst s) d in
    let? s := foldM (t_file overwrite src st d) (filter (fun f => negb (str_in (pjoin d f) skip)) fs) s in
    let? (w, updated) := foldM (t_dir st d) (filter (fun f => negb (str_in (pjoin d f) skip)) ds) s in
    Ok (if Z.eqb rm 0 then w else set_mtime d rm w, updated)
  else Err EOS.

Definition t_copy (overwrite : bool) (skip : list pystr) (src : tree) (st : pystr -> option Z) (w : world)
  : res (world * list pystr) :=
  foldM (t_block overwrite skip src st) (bf_walk src) (w, []).

(** restore.py 243-256 *)
Definition t_write_manifest (kind alg : pystr) (d : dict pystr) (w : world) : res world :=
  match d with
  | [] => Ok w
  | _ => t_write (man_name kind alg) (flat_map (fun ph => hash_line (snd ph) (fst ph)) d) w
  end.

Definition t_write_manifests (w : world) (ad : pystr * dict pystr) : res world :=
  let? w := t_write_manifest K_man (fst ad) (filter (fun ph => is_payload (fst ph)) (snd ad)) w in
  t_write_manifest K_tag (fst ad) (filter (fun ph => negb (is_payload (fst ph))) (snd ad)) w.

(** restore.py 227-256 *)
Definition t_update_manifests (v : env) (es : entries) (updated : list pystr) (w : world) : res world :=
  let? (_, des) := open_bag v IoText (e_dest v) (w_tree w) in
  let? m := foldM keep_entry des (fold_left (record_updated es) updated []) in
  foldM t_write_manifests m w.

(** restore.py 174-225 *)
Definition t_restore_from (v : env) (overwrite : bool) (skip : list pystr) (b : rbag) (w : world) : res world :=
  if streq (rb_loc b) (e_dest v) then Ok w
  else
    let? (_, es) := open_bag v IoText (rb_loc b) (rb_tree b) in
    let? (w, updated) := t_copy overwrite skip (rb_tree b) (mt (rb_loc b)) w in
    match updated with
    | [] => Ok w
    | _ => t_update_manifests v es updated w
    end.

(** restore.py 150-163 *)
Definition t_restore_member (v : env) (overwrite : bool) (skip : list pystr) (w : world) (name : pystr) : res world :=
  match e_find v name with
  | None => Err EOS
  | Some b => t_restore_from v overwrite skip b w
  end.

(** restore.py 259-282 *)
Definition t_restore_fetch (v : env) (names : list pystr) (w : world) : res world :=
  let? d := foldM (fetch_of v (w_tree w)) names [] in
  match d with
  | [] => Ok w
  | _ => t_write F_fetch (flat_map snd d) w
  end.

(** [save] of bagit, as in [Restore.v] *)
Definition t_save (v : env) (algs : list pystr) (i : infod) (w : world) : res world :=
  let? w := t_write F_baginfo (info_text i) w in
  let? w := foldM (fun w a => t_write (man_name K_tag a) (tagmanifest v a (w_tree w)) w) algs w in
  let? _ := open_bag v Codecs (e_dest v) (w_tree w) in
  Ok w.

(** restore.py 313-327 *)
Definition t_finish (v : env) (update_sizes remove_tags : bool) (bsize : tree -> pystr) (w : world) : res world :=
  let? (info, _) := open_bag v Codecs (e_dest v) (w_tree w) in
  let? algs := algorithms v (w_tree w) in
  let? (info, w) :=
    if remove_tags then
      let? t := rmtree MULTIBAG (w_tree w) in
      let w := stamp [] (with_tree t w) in
      let info := fold_left (fun i k => od_del k i) mb_keys info in
      let? w := t_save v algs info w in
      Ok (info, w)
    else Ok (info, w) in
  if update_sizes then
    let? (sz, n) := calc_oxum (w_tree w) in
    let info := od_set T_OXUM (IStr (dec sz ++ [DOT] ++ dec n)) info in
    let? w := t_save v algs info w in
    let info := od_set T_BagSize (IStr (bsize (w_tree w))) info in
    t_save v algs info w
  else Ok w.

(** restore.py 294-299 *)
Definition t_start_info (h : hb) (w : world) : res world :=
  match read (sjoin MULTIBAG F_agginfo) (hb_tree h) with
  | Some c => t_write F_baginfo (decode (hb_reader h) c) w
  | None => Ok w
  end.

(** restore.py 289-307 *)
Definition t_gather (v : env) (ro : bool) (h : hb) (loc : pystr) (w : world) : res world :=
  let? (skip, ms) := head_lists ro h in
  let? w := t_start_info h w in
  let? w := t_restore_from v false skip {| rb_loc := loc; rb_tree := hb_tree h |} w in
  foldM (t_restore_member v false skip) (others h ms) w.

(** restore.py 284-327 *)
Definition t_restore (v : env) (update_sizes remove_tags : bool) (bsize : tree -> pystr)
    (ro : bool) (h : hb) (loc : pystr) (w : world) : res world :=
  let? (_, ms) := head_lists ro h in
  let? w := t_gather v ro h loc w in
  let? w := match others h ms with
            | [] => Ok w
            | ns => t_restore_fetch v ns w
            end in
  t_finish v update_sizes remove_tags bsize w.

End Times.

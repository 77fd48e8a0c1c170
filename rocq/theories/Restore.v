(** * Restoring a bag from its member bags

    Models /repo/multibag/restore.py 28-327, [BagRestorer], with the parts of
    /repo/multibag/access/bagit.py and extended.py that it calls, and
    [Bag.save] of the Library of Congress [bagit] package (outside of /repo,
    modelled from memory).

    Simplifications: modification times (lines 190, 203-206, 215-222) are
    left to [RestoreTimes.v]; serialized member bags are trees like directories; the
    cache directory is not inside of the destination (for that see
    [FetchInto.v]). *)

Require Import String NArith Bool List PeanoNat.
From Verif Require Import PyBase Tsv Fs HeadBag BagIt Split SplitApply.
Import ListNotations.
Open Scope N_scope.

(** ** Bags and their surroundings *)

(** A bag at a location (its absolute path). *)
Record rbag := { rb_loc : pystr; rb_tree : tree }.

(** Surroundings of a restorer: the known checksum algorithms; what opening
    makes of the content of bagit.txt (an error, or whether the BagIt version
    is at least 0.97 and at least 1.0); the paths that are unsafe in a bag at
    a location; the checksum functions; the location of the destination; the
    result of [get_member_bag] (lines 118-148) for a name. *)
Record env := {
  e_algos : list pystr;
  e_version : pystr -> res (bool * bool);
  e_danger : pystr -> pystr -> bool;
  e_hash : pystr -> pystr -> pystr;
  e_dest : pystr;
  e_find : pystr -> option rbag
}.

(** access/bagit.py 179-224, [ReadOnlyBag._open], and [Bag._open] of bagit:
    the tags and the recorded checksums. *)
Definition open_bag (v : env) (r : reader) (loc : pystr) (t : tree) : res (infod * entries) :=
  match read F_bagit t with
  | None => Err EBag
  | Some c =>
      let? (v97, v1) := e_version v c in
      let? info := match read F_baginfo t with Some c => load_tags r c | None => Ok [] end in
      let? es := load_manifests (e_danger v loc) v1 r (bag_manifests (e_algos v) v97 t) in
      Ok (info, es)
  end.

(** ** Copying *)

(** extended.py 655-689, [walk] of a read-only bag, which goes through the
    directories breadth first. The order among directories of the same depth
    is that of the listing, which is arbitrary. *)
Definition depth (p : pystr) : nat := length (split_on SLASH p).
Definition bf_dirs (t : tree) : list pystr :=
  isort (fun a b => Nat.leb (depth a) (depth b)) (dirs t).
Definition bf_walk (t : tree) : list (pystr * list pystr * list pystr) :=
  map (fun d => (d, subdirs_in d t, files_in d t)) ([] :: bf_dirs t).

(** restore.py 186: the directory is marked as deleted. *)
Definition skipped_root (skip : list pystr) (d : pystr) : bool :=
  str_in d skip || existsb (fun f => startswith d (f ++ [SLASH])) skip.

(** What the loops of lines 185-222 do, one step after the other. *)
Inductive item : Type :=
| IRoot (d : pystr)       (* os.stat of the directory, line 190 *)
| IFile (d f : pystr)     (* one turn of the loop of lines 192-206 *)
| IDir (d f : pystr).     (* one turn of the loop of lines 208-219 *)

Definition items_of (skip : list pystr) (src : tree) : list item :=
  flat_map (fun x => let '(d, ds, fs) := x in
    if skipped_root skip d then []
    else IRoot d :: map (IFile d) (filter (fun f => negb (str_in (pjoin d f) skip)) fs)
                 ++ map (IDir d) (filter (fun f => negb (str_in (pjoin d f) skip)) ds))
    (bf_walk src).

(** One step; the state is the destination and the list [updated]. The path
    that gets recorded is joined with a slash even if the directory is the
    root (lines 199-201). *)
Definition restore_item (overwrite : bool) (src : tree) (s : tree * list pystr) (i : item)
  : res (tree * list pystr) :=
  let (dest, updated) := s in
  match i with
  | IRoot d => if exists_ d dest then Ok (dest, updated) else Err EOS
  | IFile d f =>
      let p := pjoin d f in
      let? dest := if overwrite && exists_ p dest then remove_file p dest else Ok dest in
      if exists_ p dest then Ok (dest, updated)
      else match replicate_ro CopyDone src dest p with
           | (dest', Ok _) => Ok (dest', updated ++ [sjoin d f])
           | (_, Err e) => Err e
           end
  | IDir d f =>
      let p := pjoin d f in
      if exists_ p dest then Ok (dest, updated)
      else let? dest' := makedirs p dest in Ok (dest', updated)
  end.

Definition copy_items (overwrite : bool) (skip : list pystr) (src dest : tree)
  : res (tree * list pystr) :=
  foldM (restore_item overwrite src) (items_of skip src) (dest, []).

(** ** Manifests *)

(** Checksums by algorithm and path. *)
Definition by_alg := dict (dict pystr).

Definition alg_set (alg p h : pystr) (m : by_alg) : by_alg :=
  od_set alg (od_set p h (match od_get alg m with Some d => d | None => [] end)) m.

(** restore.py 230-236 *)
Definition record_updated (es : entries) (m : by_alg) (p : pystr) : by_alg :=
  match od_get p es with
  | None => m
  | Some hs => fold_left (fun m ah => alg_set (fst ah) p (snd ah) m) hs m
  end.

(** restore.py 238-241: KeyError if the destination has no checksum for one
    of the algorithms. *)
Definition keep_entry (m : by_alg) (ph : pystr * dict pystr) : res by_alg :=
  foldM (fun m alg =>
           match od_get alg m with
           | None => Ok m
           | Some d =>
               if od_has (fst ph) d then Ok m
               else match od_get alg (snd ph) with
                    | None => Err EKey
                    | Some h => Ok (alg_set alg (fst ph) h m)
                    end
           end) (od_keys m) m.

(** restore.py 243-256: the manifests of one algorithm. *)
Definition write_manifest (kind alg : pystr) (d : dict pystr) (t : tree) : res tree :=
  match d with
  | [] => Ok t
  | _ => write_file (man_name kind alg) (flat_map (fun ph => hash_line (snd ph) (fst ph)) d) t
  end.

Definition write_manifests (t : tree) (ad : pystr * dict pystr) : res tree :=
  let? t := write_manifest K_man (fst ad) (filter (fun ph => is_payload (fst ph)) (snd ad)) t in
  write_manifest K_tag (fst ad) (filter (fun ph => negb (is_payload (fst ph))) (snd ad)) t.

(** restore.py 227-256, [_update_manifests] *)
Definition update_manifests (v : env) (es : entries) (updated : list pystr) (dest : tree) : res tree :=
  let? (_, des) := open_bag v IoText (e_dest v) dest in
  let? m := foldM keep_entry des (fold_left (record_updated es) updated []) in
  foldM write_manifests m dest.

(** restore.py 174-225, [_restore_from] *)
Definition restore_from (v : env) (overwrite : bool) (skip : list pystr) (b : rbag) (dest : tree)
  : res tree :=
  if streq (rb_loc b) (e_dest v) then Ok dest
  else
    let? (_, es) := open_bag v IoText (rb_loc b) (rb_tree b) in
    let? (dest, updated) := copy_items overwrite skip (rb_tree b) dest in
    match updated with
    | [] => Ok dest
    | _ => update_manifests v es updated dest
    end.

(** restore.py 150-163, [restore_member] without the argument [fetch] *)
Definition restore_member (v : env) (overwrite : bool) (skip : list pystr) (dest : tree) (name : pystr)
  : res tree :=
  match e_find v name with
  | None => Err EOS
  | Some b => restore_from v overwrite skip b dest
  end.

(** ** fetch.txt *)

Definition F_fetch := U "fetch.txt".

(** restore.py 275-277: one line *)
Definition fetch_line (d : dict pystr) (line : pystr) : dict pystr :=
  match rsplit_ws1 (strip line) with
  | [_; []] => d
  | [_; name] => od_set name line d
  | _ => d
  end.

(** restore.py 259-282, [restore_fetch] for a list of members. A member that
    is not found makes open_bag raise ValueError. *)
Definition fetch_of (v : env) (dest : tree) (d : dict pystr) (name : pystr) : res (dict pystr) :=
  match e_find v name with
  | None => Err EValue
  | Some b =>
      let t := if streq (rb_loc b) (e_dest v) then dest else rb_tree b in
      let? _ := open_bag v IoText (rb_loc b) t in
      match read F_fetch t with
      | None => Ok d
      | Some c => Ok (fold_left fetch_line (pylines IoText (decode IoText c)) d)
      end
  end.

Definition restore_fetch (v : env) (names : list pystr) (dest : tree) : res tree :=
  let? d := foldM (fetch_of v dest) names [] in
  match d with
  | [] => Ok dest
  | _ => write_file F_fetch (flat_map snd d) dest
  end.

(** ** Saving the restored bag *)

(** bagit._make_tag_file: tags sorted by name, without line breaks. *)
Definition one_line (s : pystr) : pystr := filter (fun c => negb ((c =? LF) || (c =? CR))) s.
Definition info_text (i : infod) : pystr :=
  tags_text (flat_map (fun kv => items (fst kv) (map one_line (vals_of (snd kv))))
                      (isort (fun a b => str_le (fst a) (fst b)) i)).

(** bagit._find_tag_files: the files outside of data/ but the tag manifests. *)
Definition top_of (p : pystr) : pystr := match split_on SLASH p with c :: _ => c | [] => [] end.
Definition tag_files (t : tree) : list pystr :=
  filter (fun p => negb (streq (top_of p) DATA) && negb (startswith p (K_tag ++ [45]))) (files t).

(** bagit._make_tagmanifest_file *)
Definition tagmanifest (v : env) (alg : pystr) (t : tree) : pystr :=
  flat_map (fun p => hash_line (e_hash v alg (match read p t with Some c => c | None => [] end)) p)
           (tag_files t).

(** bagit.Bag.save with manifests=False: bag-info.txt and the tag manifests
    of all algorithms that the bag has are written, and the manifests are
    loaded again. [algs] is the set of algorithms. *)
Definition save (v : env) (algs : list pystr) (i : infod) (t : tree) : res tree :=
  let? t := write_file F_baginfo (info_text i) t in
  let? t := foldM (fun t a => write_file (man_name K_tag a) (tagmanifest v a t) t) algs t in
  let? _ := open_bag v Codecs (e_dest v) t in
  Ok t.

(** The algorithms of the manifests of a bag (the attribute algorithms). *)
Definition algorithms (v : env) (t : tree) : res (list pystr) :=
  match read F_bagit t with
  | None => Err EBag
  | Some c => let? (v97, _) := e_version v c in
              Ok (set_of (map fst (bag_manifests (e_algos v) v97 t)))
  end.

(** [shutil.rmtree] of a directory *)
Definition rmtree (d : pystr) (t : tree) : res tree :=
  match od_get d t with
  | Some NDir => Ok (filter (fun kv => negb (streq (fst kv) d || below d (fst kv))) t)
  | _ => Err EOS
  end.

(** restore.py 316-317 *)
Definition mb_keys : list pystr :=
  [T_Version; T_Reference; T_TagDir; T_HeadVersion; T_HeadDeprecates].

(** extended.py 426-440, [calc_oxum]: walk raises ValueError if there is no
    data directory. *)
Definition calc_oxum (t : tree) : res (N * N) :=
  if is_dir DATA t then
    let fs := filter is_payload (files t) in
    Ok (sum_N (map (fun f => size_of f t) fs), N.of_nat (length fs))
  else Err EValue.

(** restore.py 313-327, the end of [restore]. [bsize] is the text for
    Bag-Size (see C59). *)
Definition finish (v : env) (update_sizes remove_tags : bool) (bsize : tree -> pystr) (dest : tree)
  : res tree :=
  let? (info, _) := open_bag v Codecs (e_dest v) dest in
  let? algs := algorithms v dest in
  let? (info, dest) :=
    if remove_tags then
      let? dest := rmtree MULTIBAG dest in
      let info := fold_left (fun i k => od_del k i) mb_keys info in
      let? dest := save v algs info dest in
      Ok (info, dest)
    else Ok (info, dest) in
  if update_sizes then
    let? (sz, n) := calc_oxum dest in
    let info := od_set T_OXUM (IStr (dec sz ++ [DOT] ++ dec n)) info in
    let? dest := save v algs info dest in
    let info := od_set T_BagSize (IStr (bsize dest)) info in
    save v algs info dest
  else Ok dest.

(** ** restore *)

(** restore.py 294-299: aggregation-info.txt of the head bag becomes the
    bag-info.txt. *)
Definition start_info (h : hb) (dest : tree) : res tree :=
  match read (sjoin MULTIBAG F_agginfo) (hb_tree h) with
  | Some c => write_file F_baginfo (decode (hb_reader h) c) dest
  | None => Ok dest
  end.

(** The members to visit after the head bag, last one first (lines 290 and
    303-304). *)
Definition others (h : hb) (ms : list minfo) : list pystr :=
  match map Tsv.m_name (rev ms) with
  | n :: t => if streq n (hb_name h) then t else n :: t
  | [] => []
  end.

(** The deleted paths and the members of the head bag (lines 289-290); [ro]:
    the head bag was opened read-only. *)
Definition head_lists (ro : bool) (h : hb) : res (list pystr * list minfo) :=
  let? skip := snd (deleted_paths false h) in
  let? ms := snd ((if ro then member_bags_ro else HeadBag.member_bags) false h) in
  Ok (skip, ms).

(** Everything up to the copying of the last member. *)
Definition gather (v : env) (ro : bool) (h : hb) (loc : pystr) (dest : tree) : res tree :=
  let? (skip, ms) := head_lists ro h in
  let? dest := start_info h dest in
  let? dest := restore_from v false skip {| rb_loc := loc; rb_tree := hb_tree h |} dest in
  foldM (restore_member v false skip) (others h ms) dest.

(** restore.py 284-327, [restore]: [h] is the head bag at location [loc];
    [dest] is the destination before, empty if it does not exist. If the
    head bag is restored in place, [loc] is [e_dest v] and [dest] is
    [hb_tree h]. *)
Definition restore (v : env) (update_sizes remove_tags : bool) (bsize : tree -> pystr)
    (ro : bool) (h : hb) (loc : pystr) (dest : tree) : res tree :=
  let? (_, ms) := head_lists ro h in
  let? dest := gather v ro h loc dest in
  let? dest := match others h ms with
               | [] => Ok dest
               | ns => restore_fetch v ns dest
               end in
  finish v update_sizes remove_tags bsize dest.

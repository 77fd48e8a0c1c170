(** * BagIt layer: tag files, manifests and path checks

    Models multibag/access/bagit.py (class ReadOnlyBag), the path check of
    multibag/access/extended.py, and the helpers of the Library of Congress
    [bagit] package that they call. The latter are outside of /repo and were
    not available for checking; they are modelled from memory of bagit-python
    1.7/1.8 and cited by function name. *)

Require Import String NArith Bool List.
From Verif Require Import PyBase Fs HeadBag.
Import ListNotations.
Open Scope N_scope.

(** ** Tag files *)

(** [line.isspace()] or empty *)
Definition blank (s : pystr) : bool := forallb is_ws s.

(** [len(line) > 0 and line[0].isspace()] *)
Definition starts_ws (s : pystr) : bool :=
  match s with c :: _ => is_ws c | [] => false end.

(** bagit._parse_tags: [cur] is the pair (tag_name, tag_value) of the tag
    that is being read. The generator yields a tag when the next one starts;
    a tag with an empty name is never yielded ([if tag_name:]). An error
    loses the tags read so far because all callers consume the generator
    completely. *)
Definition flush_tag (cur : option (pystr * pystr)) : list (pystr * pystr) :=
  match cur with
  | Some (k, v) => match k with [] => [] | _ => [(k, strip v)] end
  | None => []
  end.

Fixpoint parse_tag_lines (cur : option (pystr * pystr)) (ls : list pystr)
  : res (list (pystr * pystr)) :=
  match ls with
  | [] => Ok (flush_tag cur)
  | l :: t =>
      if blank l then parse_tag_lines cur t
      else match (if starts_ws l then cur else None) with
           | Some (k, v) => parse_tag_lines (Some (k, v ++ l)) t
           | None =>
               match split1 COLON (strip l) with
               | None => Err EBag
               | Some (k, v) =>
                   let? rest := parse_tag_lines (Some (strip k, v)) t in
                   Ok (flush_tag cur ++ rest)
               end
           end
  end.

Definition parse_tags (r : reader) (text : pystr) : res (list (pystr * pystr)) :=
  parse_tag_lines None (pylines r text).

(** bagit._load_tag_file and access/extended.py 174-189, [_load_bag_info]:
    repeated tags become lists. *)
Definition add_tag (d : infod) (kv : pystr * pystr) : infod :=
  match od_get (fst kv) d with
  | None => od_set (fst kv) (IStr (snd kv)) d
  | Some (IStr v) => od_set (fst kv) (IList [v; snd kv]) d
  | Some (IList l) => od_set (fst kv) (IList (l ++ [snd kv])) d
  end.

Definition load_tags (r : reader) (text : pystr) : res infod :=
  let? kvs := parse_tags r (decode r text) in
  Ok (fold_left add_tag kvs []).

(** multibag/split.py 238-242, [_write_item] for one value; bagit._make_tag_file
    writes the same lines. *)
Definition tag_line (kv : pystr * pystr) : pystr := fst kv ++ [COLON; SP] ++ snd kv ++ [LF].
Definition tags_text (kvs : list (pystr * pystr)) : pystr := flat_map tag_line kvs.

(** ** Paths *)

(** [os.path.normpath] (posixpath). *)
Definition norm_step (abs : bool) (acc : list pystr) (c : pystr) : list pystr :=
  (* [acc] holds new_comps in reverse *)
  if streq c [] || streq c [DOT] then acc
  else if negb (streq c [DOT; DOT]) then c :: acc
  else match acc with
       | [] => if abs then [] else [c]
       | top :: below => if streq top [DOT; DOT] then c :: acc else below
       end.

Definition norm_comps (abs : bool) (cs : list pystr) : list pystr :=
  rev (fold_left (norm_step abs) cs []).

Definition initial_slashes (p : pystr) : pystr :=
  if startswith p [SLASH; SLASH] && negb (startswith p [SLASH; SLASH; SLASH])
  then [SLASH; SLASH]
  else if startswith p [SLASH] then [SLASH] else [].

Definition normpath (p : pystr) : pystr :=
  let ini := initial_slashes p in
  match ini ++ join [SLASH] (norm_comps (negb (streq ini [])) (split_on SLASH p)) with
  | [] => [DOT]
  | s => s
  end.

(** [os.path.join(a, b)] *)
Definition os_join (a b : pystr) : pystr :=
  if startswith b [SLASH] then b
  else match a with
       | [] => b
       | _ => if endswith a [SLASH] then a ++ b else a ++ [SLASH] ++ b
       end.

(** [os.path.commonprefix((a, b))]: character-wise. *)
Fixpoint commonprefix (a b : pystr) : pystr :=
  match a, b with
  | x :: a', y :: b' => if x =? y then x :: commonprefix a' b' else []
  | _, _ => []
  end.

(** access/bagit.py 540-557, [ReadOnlyBag._path_is_dangerous]. [expands p]
    says whether [os.path.expanduser] or [os.path.expandvars] change [p];
    it depends on the environment and is an argument. *)
Definition path_is_dangerous (expands : pystr -> bool) (bag path : pystr) : bool :=
  if startswith path [SLASH] then true
  else if expands path then true
  else
    let real_path := normpath (os_join bag path) in
    let bag_path := normpath bag in
    negb (streq (commonprefix bag_path real_path) bag_path).

(** access/extended.py 259-265, [_canon_path] ([os.sep] is '/'). *)
Definition canon_path (bagdir path : pystr) : option pystr :=
  let p := normpath (os_join bagdir path) in
  if startswith p (normpath bagdir) then Some p else None.

(** access/extended.py 267-298: exists, isdir, isfile of a directory bag,
    given the predicate [on_disk] that [os.path.exists], [os.path.isdir] or
    [os.path.isfile] decide. *)
Definition bag_query (on_disk : pystr -> bool) (bagdir path : pystr) : bool :=
  match canon_path bagdir path with
  | None => false
  | Some p => on_disk p
  end.

(** ** Manifests *)

Definition STAR : N := 42.

(** bagit._decode_filename: [re.sub("%0D", "\r", s, re.IGNORECASE)] passes
    the flag in the position of [count], so that the first two occurrences
    are replaced, case-sensitively; then the same for "%0A" and LF. *)
Fixpoint replace3 (n : nat) (a b c d : N) (s : pystr) : pystr :=
  match s with
  | x :: ((y :: (z :: t)) as s') =>
      match n with
      | O => s
      | S n' => if (x =? a) && (y =? b) && (z =? c) then d :: replace3 n' a b c d t
                else x :: replace3 n a b c d s'
      end
  | _ => s
  end.

Definition decode_filename (s : pystr) : pystr :=
  replace3 2 37 48 65 LF (replace3 2 37 48 68 CR s).

(** access/bagit.py 380-397: one line of a manifest: [None] for blank lines,
    comments and (logged) malformed lines. *)
Definition manifest_entry (line : pystr) : option (pystr * pystr) :=
  let line := strip line in
  if streq line [] || startswith line [HASH] then None
  else match split_ws1 line with
       | [h; p] => Some (h, decode_filename (normpath (lstrip_if (fun c => c =? STAR) p)))
       | _ => None
       end.

Definition entries := dict (dict pystr).

(** access/bagit.py 399-422: adding one entry. [v1] is
    [self.version_info >= (1,)]. *)
Definition add_entry (dangerous : pystr -> bool) (v1 : bool) (alg : pystr)
    (e : entries) (hp : pystr * pystr) : res entries :=
  let '(h, p) := hp in
  if dangerous p then Err EBag
  else
    let hashes := match od_get p e with Some d => d | None => [] end in
    match od_get alg hashes with
    | Some h' => if streq h' h then
                   if v1 then Err EBag
                   else Ok (od_set p (od_set alg h hashes) e)
                 else Err EBag
    | None => Ok (od_set p (od_set alg h hashes) e)
    end.

Fixpoint filter_some {A} (l : list (option A)) : list A :=
  match l with
  | [] => []
  | Some x :: t => x :: filter_some t
  | None :: t => filter_some t
  end.

Definition manifest_lines (r : reader) (text : pystr) : list (pystr * pystr) :=
  filter_some (map manifest_entry (pylines r text)).

(** access/bagit.py 359-378: a byte-order mark at the beginning is skipped
    (for the encodings whose name starts with "UTF"; only UTF-8 is modelled). *)
Definition skip_bom (text : pystr) : pystr :=
  match text with c :: t => if c =? BOM then t else text | [] => text end.

(** access/bagit.py 339-431, [_load_manifests]; [ms] lists the manifests and
    then the tag manifests with their algorithms and contents. *)
Definition load_one (dangerous : pystr -> bool) (v1 : bool) (r : reader)
    (e : entries) (am : pystr * pystr) : res entries :=
  foldM (add_entry dangerous v1 (fst am)) (manifest_lines r (skip_bom (snd am))) e.

Definition load_manifests (dangerous : pystr -> bool) (v1 : bool) (r : reader)
    (ms : list (pystr * pystr)) : res entries :=
  foldM (load_one dangerous v1 r) ms [].

(** access/bagit.py 271-285: manifest_files and tagmanifest_files for the list
    [algos] of known algorithms (bagit.CHECKSUM_ALGOS). *)
Definition man_name (kind alg : pystr) : pystr := kind ++ [45] ++ alg ++ U ".txt".
Definition K_man := U "manifest".
Definition K_tag := U "tagmanifest".

Definition manifest_files (algos : list pystr) (t : tree) : list pystr :=
  filter (fun f => is_file f t) (map (man_name K_man) algos).

(** The manifests of a bag directory with their contents, as
    [_load_manifests] visits them. [v97] is [version_info >= (0, 97)]. *)
Definition bag_manifests (algos : list pystr) (v97 : bool) (t : tree) : list (pystr * pystr) :=
  let of_kind k := filter_some (map (fun a => match read (man_name k a) t with
                                              | Some c => Some (a, c)
                                              | None => None
                                              end) algos) in
  of_kind K_man ++ (if v97 then of_kind K_tag else []).

(** multibag/split.py 402-414, [_record_hash]: the line that is appended to
    the manifest. *)
Definition hash_line (h p : pystr) : pystr := h ++ [SP] ++ p ++ [LF].

(** Recorded checksum of a path for an algorithm. *)
Definition checksum (e : entries) (alg p : pystr) : option pystr :=
  match od_get p e with Some d => od_get alg d | None => None end.

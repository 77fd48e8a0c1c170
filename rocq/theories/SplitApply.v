(** * Applying a split plan

    Models /repo/multibag/split.py 197-414, [SplitPlan.apply_iter], with
    [replicate] of /repo/multibag/access/extended.py 320-376 and 607-641.

    What is written into one output bag is a list of operations, each of
    which changes at most one file. An interrupted run has done a prefix of
    the list. *)

Require Import String NArith Bool List.
From Verif Require Import PyBase Tsv Fs HeadBag BagIt Split.
Import ListNotations.
Open Scope N_scope.

(** ** Operations on an output bag *)

(** The paths [a], [a/b], [a/b/c] for the components a, b, c below [d]. *)
Fixpoint prefixes_of (d : pystr) (cs : list pystr) : list pystr :=
  match cs with
  | [] => []
  | c :: t => pjoin d c :: prefixes_of (pjoin d c) t
  end.
Definition prefixes (p : pystr) : list pystr :=
  match p with [] => [] | _ => prefixes_of [] (split_on SLASH p) end.

(** [if not os.path.exists(p): os.makedirs(p)] *)
Definition makedirs (p : pystr) (t : tree) : res tree :=
  foldM (fun t q => if exists_ q t then Ok t else mkdir q t) (prefixes p) t.

Inductive op : Type :=
| OMkdir (p : pystr)            (* os.mkdir *)
| OMakedirs (p : pystr)         (* os.makedirs unless it exists *)
| OWrite (p c : pystr)          (* io.open(p, 'w') and write *)
| OAppend (p c : pystr)         (* io.open(p, 'a') and write *)
| OCopy (p c : pystr).          (* replicate of a source file with content c *)

(** split.py 309-315 and extended.py 359-376: an existing file at the
    destination makes os.link fail, and shutil.copy then replaces its content;
    where the copy fails without an exception, the test of split.py 313-315
    raises RuntimeError. *)
Definition run_op (t : tree) (o : op) : res tree :=
  match o with
  | OMkdir p => mkdir p t
  | OMakedirs p => makedirs p t
  | OWrite p c => write_file p c t
  | OAppend p c => write_file p (match read p t with Some c0 => c0 ++ c | None => c end) t
  | OCopy p c => match write_file p c t with Ok t' => Ok t' | Err _ => Err ERuntime end
  end.

Definition run_ops (ops : list op) (t : tree) : res tree := foldM run_op ops t.

(** What is on the disk after the operations up to the first one that
    fails. *)
Fixpoint run_until (ops : list op) (t : tree) : tree :=
  match ops with
  | [] => t
  | o :: l => match run_op t o with Ok t' => run_until l t' | Err _ => t end
  end.

(** ** The source bag *)

(** The progenitor: its files, the tags in memory, the known checksum
    algorithms (bagit.CHECKSUM_ALGOS), the recorded checksums, and the way its
    text files are read. [payload_entries()] and [tagfile_entries()] are the
    parts of [entries] with and without "data/" in front, and
    [apply_iter] looks up each file in the part that it would be in (lines
    317-331). The paths of a plan are relative and normalized
    (simplification). *)
Record source := {
  so_name : pystr;
  so_tree : tree;
  so_info : infod;
  so_algos : list pystr;
  so_entries : entries;
  so_reader : reader
}.

Definition DATA := U "data".
Definition is_payload (f : pystr) : bool := startswith f (U "data/").

(** split.py 317-331 and 402-414, [_record_hash], for each recorded
    checksum. *)
Definition hash_ops (s : source) (f : pystr) : list op :=
  match od_get f (so_entries s) with
  | None => []
  | Some hashes =>
      map (fun ah => OAppend (man_name (if is_payload f then K_man else K_tag) (fst ah))
                             (hash_line (snd ah) f)) hashes
  end.

(** split.py 289-333: one path of the plan. *)
Definition path_ops (s : source) (f : pystr) : list op :=
  match read f (so_tree s) with
  | Some c => OMakedirs (dirname f) :: OCopy f c :: hash_ops s f
  | None => if is_dir f (so_tree s) then [OMakedirs f] else []
  end.

(** The files of the plan that get replicated. *)
Definition plan_files (s : source) (m : manifest) : list pystr :=
  filter (fun f => is_file f (so_tree s)) (m_contents m).

(** ** bag-info.txt *)

Definition T_ISI := U "Internal-Sender-Identifier".
Definition T_EXT := U "External-Identifier".
Definition T_GROUP := U "Bag-Group-Identifier".
Definition T_OXUM := U "Payload-Oxum".
Definition P_SOURCE := U "Multibag-Source-".
Definition F_baginfo := U "bag-info.txt".
Definition F_bagit := U "bagit.txt".
Definition F_agginfo := U "aggregation-info.txt".
Definition MULTIBAG := U "multibag".

(** split.py 23-27 *)
Definition SPLIT_DESC : pystr :=
  U "This bag is part of a Multibag aggregation. (See Multibag-Reference for a " ++ [LF] ++
  U "   description of the Multibag profile.)  The aggregation was formed by splitting" ++ [LF] ++
  U "   the source bag (whose ID is set as the Bag-Group-Identifier) into multibag " ++ [LF] ++
  U "   member bags.".

Definition vals_of (v : ival) : list pystr :=
  match v with IStr s => [s] | IList l => l end.

Definition items (k : pystr) (vs : list pystr) : list (pystr * pystr) := map (pair k) vs.

(** split.py 339-363: the tags written for one tag of the source. The
    manifest has no Internal-Sender-Description of its own here. [vals[0]]
    of an empty list raises IndexError; tags that were read from a file never
    have empty lists, so that case is given as no tag (simplification). *)
Definition tag_items (bagname : pystr) (nopass : list pystr) (oxum : pystr)
    (kv : pystr * ival) : list (pystr * pystr) :=
  let name := fst kv in
  let vals := vals_of (snd kv) in
  if startswith name (U "Multibag-") then []
  else if str_in name nopass then []
  else if streq name T_ISI then items name [bagname] ++ items (P_SOURCE ++ name) vals
  else if streq name T_ISD then items name [SPLIT_DESC] ++ items (P_SOURCE ++ name) vals
  else if streq name T_EXT then
    items (P_SOURCE ++ name) vals ++
    items name (match vals with v :: _ => [v ++ U "/mbag:" ++ bagname] | [] => [] end) ++
    items T_GROUP vals
  else if streq name T_BagSize then items (P_SOURCE ++ name) vals
  else if streq name T_OXUM then items name [oxum]
  else items name vals.

(** Options of [apply_iter] and the attributes of the plan that it uses:
    [info_nopass], [head_version], [_deprecates] (pairs of a version and
    possibly a bag name). *)
Record apply_opts := {
  ao_nopass : list pystr;
  ao_version : pystr;
  ao_deprecates : list (pystr * option pystr)
}.

(** split.py 366-375 *)
Definition head_items (o : apply_opts) : list (pystr * pystr) :=
  items T_HeadVersion [ao_version o] ++
  items T_HeadDeprecates
    (map (fun p => match snd p with Some b => fst p ++ U "," ++ b | None => fst p end)
         (ao_deprecates o)).

(** The size and number of the payload files replicated (lines 318-321). A
    path that is listed twice counts twice. *)
Fixpoint sum_N (l : list N) : N := match l with [] => 0 | x :: t => x + sum_N t end.
Definition oxum_of (s : source) (m : manifest) : N * N :=
  let fs := filter is_payload (plan_files s m) in
  (sum_N (map (fun f => size_of f (so_tree s)) fs), N.of_nat (length fs)).
Definition oxum_text (s : source) (m : manifest) : pystr :=
  dec (fst (oxum_of s m)) ++ [DOT] ++ dec (snd (oxum_of s m)).

(** split.py 335-375 *)
Definition info_items (s : source) (o : apply_opts) (bagname : pystr) (m : manifest)
    (ishead : bool) : list (pystr * pystr) :=
  items T_Version [CURRENT_VERSION] ++
  flat_map (tag_items bagname (ao_nopass o) (oxum_text s m)) (so_info s) ++
  items T_TagDir [MULTIBAG] ++
  (if ishead then head_items o else []).

(** ** One output bag *)

(** split.py 277-285: the data directory, empty manifests and bagit.txt. A missing bagit.txt
    raises ValueError: see [bag_ops]. *)
Definition start_ops (s : source) : list op :=
  OMkdir DATA ::
  map (fun f => OWrite f []) (manifest_files (so_algos s) (so_tree s)).

Definition members_out (ms : list pystr) : pystr := flat_map (fun b => b ++ [LF]) ms.

(** split.py 377-396. If the source has no bag-info.txt, opening it raises
    IOError after aggregation-info.txt was created: no operation. *)
Definition multibag_ops (s : source) (members : list pystr) (lookup : dict pystr) : list op :=
  [ OMakedirs MULTIBAG;
    OWrite (pjoin MULTIBAG F_members) (members_out members);
    OWrite (pjoin MULTIBAG F_lookup) (lookup_text lookup);
    OWrite (pjoin MULTIBAG F_agginfo)
           (match read F_baginfo (so_tree s) with
            | Some c => decode (so_reader s) c
            | None => []
            end) ].

(** The operations of lines 277-396 after the bag's directory was made;
    [members] and [lookup] are the lists at the end of this bag. A missing
    bagit.txt raises ValueError after the first operations, and a missing
    bag-info.txt raises IOError at the end of the head bag. *)
Definition bag_ops (s : source) (o : apply_opts) (bagname : pystr) (m : manifest) (ishead : bool)
    (members : list pystr) (lookup : dict pystr) : list op * res unit :=
  match read F_bagit (so_tree s) with
  | None => (start_ops s, Err EValue)
  | Some c =>
      (start_ops s ++ [OCopy F_bagit c] ++
       flat_map (path_ops s) (m_contents m) ++
       [OWrite F_baginfo (tags_text (info_items s o bagname m ishead))] ++
       (if ishead then multibag_ops s members lookup else []),
       if ishead then
         match read F_baginfo (so_tree s) with Some _ => Ok tt | None => Err EOS end
       else Ok tt)
  end.

(** ** The whole plan *)

(** A naming iterator given to [apply_iter]: whether it has a method called
    next (line 264 calls it; iterators of Python 3 have [__next__]), and its
    names. *)
Record naming := { nm_next : bool; nm_names : list pystr }.

(** State of the generator between two bags: the output directory (names
    that exist in it, with the bags written so far), the member list, the
    lookup, and the naming iterator. *)
Record astate := {
  a_out : dict tree;
  a_members : list pystr;
  a_lookup : dict pystr;
  a_naming : option naming
}.

(** split.py 261-269: the name of the next bag. *)
Definition next_name (m : manifest) (n : option naming) : res (option pystr * option naming) :=
  match n with
  | None => Ok (m_name m, None)
  | Some it => if nm_next it then
                 match nm_names it with
                 | x :: t => Ok (Some x, Some {| nm_next := true; nm_names := t |})
                 | [] => Ok (m_name m, None)
                 end
               else Err EAttribute
  end.

(** split.py 270-272 *)
Definition push_member (b : pystr) (ms : list pystr) : list pystr :=
  (if str_in b ms then
     (fix rm l := match l with
                  | [] => []
                  | x :: t => if streq x b then t else x :: rm t
                  end) ms
   else ms) ++ [b].

Definition add_lookup (b : pystr) (d : dict pystr) (f : pystr) : dict pystr := od_set f b d.

(** One bag: split.py 260-399. A bag without a name makes os.path.join raise
    TypeError; os.mkdir fails if the name exists in the output directory. A
    name is taken as a single path component (simplification). *)
Definition apply_one (s : source) (o : apply_opts) (a : astate) (mh : manifest * bool) : res astate :=
  let (m, ishead) := mh in
  let? (name, it) := next_name m (a_naming a) in
  match name with
  | None => Err EType
  | Some b =>
      if od_has b (a_out a) then Err EOS
      else
        let members := push_member b (a_members a) in
        let lookup := fold_left (add_lookup b) (plan_files s m) (a_lookup a) in
        let (ops, fin) := bag_ops s o b m ishead members lookup in
        let? t := run_ops ops [] in
        let? _ := fin in
        Ok {| a_out := od_set b t (a_out a); a_members := members; a_lookup := lookup;
              a_naming := it |}
  end.

(** split.py 245-258: the lists of a source that is a head bag itself. A
    directory bag becomes an updatable head bag, for which a missing
    member-bags.tsv gives the empty list; a read-only one raises the error
    that is caught. Other errors propagate. *)
Definition initial_lists (s : source) : res (list pystr * dict pystr) :=
  if od_has T_HeadVersion (so_info s) then
    let h := open_hb (so_name s) (so_tree s) (so_info s) (so_reader s) in
    let? ms := match iter_member_bags h with
               | Ok l => Ok (map Tsv.m_name l)
               | Err EMissingFile => Ok []
               | Err e => Err e
               end in
    let? lu := match iter_file_lookup h with
               | Ok l => Ok (od_of_pairs l)
               | Err EMissingFile => Ok []
               | Err e => Err e
               end in
    Ok (ms, lu)
  else Ok ([], []).

(** [apply_iter] run to the end; [out] is the output directory before. The
    test of lines 227-230 asks whether a method is true, so it never raises. *)
Definition apply_plan (s : source) (o : apply_opts) (p : plan) (it : option naming)
    (out : dict tree) : res astate :=
  let? (ms, lu) := initial_lists s in
  foldM (apply_one s o) (manifests p)
        {| a_out := out; a_members := ms; a_lookup := lu; a_naming := it |}.

(** ** Hard links *)

(** A run on a file system where replicated files share their content with
    the source (os.link succeeds, split.py 232-233 and extended.py 359-361).
    The state is the source's files, the output bag, and the paths of the
    output bag that are links to source files of the same path. Writing to
    a linked path changes the source. [OCopy] to a path that exists cannot
    link and copies the content instead (into the linked file, if it is
    one). *)
Record lstate := { l_src : tree; l_out : tree; l_links : list pystr }.

Definition linked_write (p c : pystr) (l : lstate) : res lstate :=
  let? t := write_file p c (l_out l) in
  Ok {| l_src := if str_in p (l_links l) then od_set p (NFile c) (l_src l) else l_src l;
        l_out := t; l_links := l_links l |}.

Definition run_linked (l : lstate) (o : op) : res lstate :=
  match o with
  | OMkdir p => let? t := mkdir p (l_out l) in
                Ok {| l_src := l_src l; l_out := t; l_links := l_links l |}
  | OMakedirs p => let? t := makedirs p (l_out l) in
                   Ok {| l_src := l_src l; l_out := t; l_links := l_links l |}
  | OWrite p c => linked_write p c l
  | OAppend p c =>
      linked_write p (match read p (l_out l) with Some c0 => c0 ++ c | None => c end) l
  | OCopy p c =>
      if exists_ p (l_out l) then
        match linked_write p c l with Ok l' => Ok l' | Err _ => Err ERuntime end
      else match write_file p c (l_out l) with
           | Ok t => Ok {| l_src := l_src l; l_out := t; l_links := p :: l_links l |}
           | Err _ => Err ERuntime
           end
  end.

(** One bag with hard links: the source afterwards. *)
Definition run_linked_ops (ops : list op) (src : tree) : res lstate :=
  foldM run_linked ops {| l_src := src; l_out := []; l_links := [] |}.

(** The whole plan with hard links: the outcome and the source afterwards.
    Each bag is made from the source as the bags before left it.
    Simplification: a later write to a source file does not show in the bags
    made before. *)
Definition with_tree (s : source) (t : tree) : source :=
  {| so_name := so_name s; so_tree := t; so_info := so_info s; so_algos := so_algos s;
     so_entries := so_entries s; so_reader := so_reader s |}.

Definition apply_one_linked (s : source) (o : apply_opts) (st : astate * tree) (mh : manifest * bool)
  : res (astate * tree) :=
  let (a, src) := st in
  let s := with_tree s src in
  let (m, ishead) := mh in
  let? (name, it) := next_name m (a_naming a) in
  match name with
  | None => Err EType
  | Some b =>
      if od_has b (a_out a) then Err EOS
      else
        let members := push_member b (a_members a) in
        let lookup := fold_left (add_lookup b) (plan_files s m) (a_lookup a) in
        let (ops, fin) := bag_ops s o b m ishead members lookup in
        let? l := run_linked_ops ops src in
        let? _ := fin in
        Ok ({| a_out := od_set b (l_out l) (a_out a); a_members := members; a_lookup := lookup;
               a_naming := it |}, l_src l)
  end.

Definition apply_plan_linked (s : source) (o : apply_opts) (p : plan) (it : option naming)
    (out : dict tree) : res (astate * tree) :=
  let? (ms, lu) := initial_lists s in
  foldM (apply_one_linked s o) (manifests p)
        ({| a_out := out; a_members := ms; a_lookup := lu; a_naming := it |}, so_tree s).

(** ** replicate *)

(** What shutil.copy does when asked to copy: it succeeds, or raises after
    leaving some content (None: nothing changed), as when the disk fills up. *)
Inductive copying : Type := CopyDone | CopyFails (left : option pystr).

(** extended.py 320-376, [replicate] of a directory bag: the destination
    afterwards and the result. [hardlink]: the attribute
    replicate_with_hardlink; [can_link]: the file system can link the two
    (os.link also fails if the destination exists); [logger]: one was given.
    With a logger, the handlers of lines 362-367 and 372-376 use attributes
    that the class does not have and raise AttributeError. shutil.copy to a
    directory puts the file into it. os.makedirs raises if the path exists,
    which it then does as a file (lines 341-347). *)
Definition replicate (hardlink can_link logger : bool) (cp : copying) (src dst : tree) (p : pystr)
  : tree * res unit :=
  if negb (exists_ p src) then (dst, Err EValue)
  else if is_dir p src then
    if is_dir p dst then (dst, Ok tt)
    else if exists_ p dst then (dst, Err EOS)
    else match makedirs p dst with Ok t => (t, Ok tt) | Err e => (dst, Err e) end
  else
    let content := match read p src with Some c => c | None => [] end in
    match (if exists_ (dirname p) dst then Ok dst else makedirs (dirname p) dst) with
    | Err e => (dst, Err e)
    | Ok dst =>
        let put c q := match write_file q c dst with Ok t => (t, true) | Err _ => (dst, false) end in
        let linked := hardlink && can_link && negb (exists_ p dst) in
        let (dst1, done) := if linked then put content p else (dst, false) in
        if done then (dst1, Ok tt)
        else if hardlink && logger then (dst1, Err EAttribute)
        else
          let q := if is_dir p dst then pjoin p (basename p) else p in
          let (dst2, copied) :=
            match cp with
            | CopyDone => put content q
            | CopyFails None => (dst, false)
            | CopyFails (Some c) => (fst (put c q), false)
            end in
          if copied then (dst2, Ok tt)
          else if logger then (dst2, Err EAttribute)
          else (dst2, Ok tt)
    end.

(** extended.py 607-641, [replicate] of a read-only bag: failures of
    copy_file are raised. Simplifications: every error of the fs library is
    EOS. The fs library is not available to check against: that
    makedirs(path, recreate=True) raises when [path] is a file is recalled
    (it ends with opendir(path), which wants a directory), not verified. Only
    the directory case of a read-only bag depends on it. *)
Definition replicate_ro (cp : copying) (src dst : tree) (p : pystr) : tree * res unit :=
  if negb (exists_ p src) then (dst, Err EValue)
  else if is_dir p src then
    if is_dir p dst then (dst, Ok tt)
    else if exists_ p dst then (dst, Err EOS)
    else match makedirs p dst with Ok t => (t, Ok tt) | Err e => (dst, Err e) end
  else
    let content := match read p src with Some c => c | None => [] end in
    match (if exists_ (dirname p) dst then Ok dst else makedirs (dirname p) dst) with
    | Err e => (dst, Err e)
    | Ok dst =>
        match cp with
        | CopyDone => match write_file p content dst with
                      | Ok t => (t, Ok tt)
                      | Err _ => (dst, Err EOS)
                      end
        | CopyFails None => (dst, Err EOS)
        | CopyFails (Some c) => (match write_file p c dst with Ok t => t | Err _ => dst end, Err EOS)
        end
    end.

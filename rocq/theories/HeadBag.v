(** * Head bags: model of multibag/access/multibag.py 143-752

    A handle on a head bag has the bag's files on disk, the tags of the
    bag-info.txt file on disk, the tags in memory ([self.info]) and three
    caches: [_memberbags], [_filelu] and [_deleted]. A method is a function
    from the handle to the handle afterwards and a result, so that what a
    method did before raising is kept.

    Simplifications: text is UTF-8; the tag manifests that [Bag.save] refreshes
    are not part of this model (see [SplitApply.v] for manifests). *)

Require Import String NArith Bool List.
From Verif Require Import PyBase Version Tsv Fs.
Import ListNotations.
Open Scope N_scope.

(** A bag-info value: a string, or a list of strings for a repeated tag. *)
Inductive ival : Type :=
| IStr (s : pystr)
| IList (l : list pystr).

Definition infod := dict ival.

Record hb := mkhb {
  hb_name : pystr;
  hb_tree : tree;
  hb_dinfo : infod;
  hb_info : infod;
  hb_mem : option (list minfo);
  hb_lu : option (dict pystr);
  hb_del : option (list pystr);
  hb_reader : reader
}.

Definition set_tree (h : hb) (t : tree) : hb :=
  mkhb (hb_name h) t (hb_dinfo h) (hb_info h) (hb_mem h) (hb_lu h) (hb_del h) (hb_reader h).
Definition set_dinfo (h : hb) (i : infod) : hb :=
  mkhb (hb_name h) (hb_tree h) i (hb_info h) (hb_mem h) (hb_lu h) (hb_del h) (hb_reader h).
Definition set_info (h : hb) (i : infod) : hb :=
  mkhb (hb_name h) (hb_tree h) (hb_dinfo h) i (hb_mem h) (hb_lu h) (hb_del h) (hb_reader h).
Definition set_mem (h : hb) (m : option (list minfo)) : hb :=
  mkhb (hb_name h) (hb_tree h) (hb_dinfo h) (hb_info h) m (hb_lu h) (hb_del h) (hb_reader h).
Definition set_lu (h : hb) (l : option (dict pystr)) : hb :=
  mkhb (hb_name h) (hb_tree h) (hb_dinfo h) (hb_info h) (hb_mem h) l (hb_del h) (hb_reader h).
Definition set_del (h : hb) (d : option (list pystr)) : hb :=
  mkhb (hb_name h) (hb_tree h) (hb_dinfo h) (hb_info h) (hb_mem h) (hb_lu h) d (hb_reader h).

(** Opening a bag: tags come from the disk and the caches are empty
    (multibag.py 149-158). Directory bags are read with [Codecs], read-only
    bags with [IoText]. *)
Definition open_hb (name : pystr) (t : tree) (info : infod) (r : reader) : hb :=
  mkhb name t info info None None None r.

Definition reopen (r : reader) (h : hb) : hb :=
  open_hb (hb_name h) (hb_tree h) (hb_dinfo h) r.

(** A method that may raise. *)
Definition M (A : Type) := hb -> hb * res A.

Definition retM {A} (a : A) : M A := fun h => (h, Ok a).
Definition bindM {A B} (x : M A) (f : A -> M B) : M B :=
  fun h => match x h with
           | (h', Ok a) => f a h'
           | (h', Err e) => (h', Err e)
           end.
Notation "'do' x '<-' e ';' b" := (bindM e (fun x => b))
  (at level 200, x pattern, e at level 100, b at level 200).
Notation "e ';;' b" := (bindM e (fun _ => b)) (at level 199, right associativity).

Fixpoint forM {A} (l : list A) (f : A -> M unit) : M unit :=
  match l with
  | [] => retM tt
  | x :: t => f x ;; forM t f
  end.

(** ** Tags *)

Definition T_Version := U "Multibag-Version".
Definition T_Reference := U "Multibag-Reference".
Definition T_TagDir := U "Multibag-Tag-Directory".
Definition T_HeadVersion := U "Multibag-Head-Version".
Definition T_HeadDeprecates := U "Multibag-Head-Deprecates".
Definition T_ISD := U "Internal-Sender-Description".
Definition T_BagCount := U "Bag-Count".
Definition T_BagSize := U "Bag-Size".

(** constants.py 6-7 *)
Definition CURRENT_VERSION := U "0.4".
Definition CURRENT_REFERENCE :=
  U "https://github.com/usnistgov/multibag-py/blob/master/docs/multibag-profile-spec.md".

(** multibag.py 180-189, [_get_required_info_item]: the last of several
    values. *)
Definition required_info (name : pystr) (i : infod) : res pystr :=
  match od_get name i with
  | None => Err EMultibag
  | Some (IStr s) => Ok s
  | Some (IList l) => match rev l with [] => Err EMultibag | s :: _ => Ok s end
  end.

(** multibag.py 160-166 *)
Definition head_version (i : infod) : res pystr := required_info T_HeadVersion i.

(** multibag.py 168-178 *)
Definition profile_version (i : infod) : pystr :=
  match required_info T_Version i with Ok s => s | Err _ => CURRENT_VERSION end.

(** multibag.py 191-200, [multibag_tag_dir] *)
Definition tag_dir (i : infod) : pystr :=
  match od_get T_TagDir i with
  | None => U "multibag"
  | Some (IStr s) => s
  | Some (IList l) => match rev l with [] => U "multibag" | s :: _ => s end
  end.

(** multibag.py 208-212 and 248-252: [info.get] may give a list, and then
    ["/".join] raises TypeError. *)
Definition tag_dir_raw (i : infod) : res pystr :=
  match od_get T_TagDir i with
  | None => Ok (U "multibag")
  | Some (IStr s) => Ok s
  | Some (IList _) => Err EType
  end.

Definition F_members := U "member-bags.tsv".
Definition F_lookup := U "file-lookup.tsv".
Definition F_deleted := U "deleted.txt".

(** Directory bags decode with utf-8-sig (extended.py 378), which drops a
    leading byte-order mark; read-only bags decode with utf-8
    (bagit.py 262). *)
Definition BOM : N := 65279.
Definition decode (r : reader) (text : pystr) : pystr :=
  match r, text with
  | Codecs, c :: t => if c =? BOM then t else text
  | _, _ => text
  end.

(** ** Reading *)

(** multibag.py 202-223, [iter_member_bags] (iterated to the end) *)
Definition iter_member_bags (h : hb) : res (list minfo) :=
  let? mbdir := tag_dir_raw (hb_info h) in
  let older := older_than_03 (profile_version (hb_info h)) in
  let file := if older then U "group-members.txt" else F_members in
  match read (sjoin mbdir file) (hb_tree h) with
  | None => Err EMissingFile
  | Some text => parse_file (hb_reader h) (if older then parse_member_02 else parse_member_03)
                            (decode (hb_reader h) text)
  end.

(** multibag.py 244-263, [iter_file_lookup] (iterated to the end) *)
Definition iter_file_lookup (h : hb) : res (list (pystr * pystr)) :=
  let? mbdir := tag_dir_raw (hb_info h) in
  let older := older_than_03 (profile_version (hb_info h)) in
  let file := if older then U "group-directory.txt" else F_lookup in
  match read (sjoin mbdir file) (hb_tree h) with
  | None => Err EMissingFile
  | Some text => parse_file (hb_reader h) (if older then parse_group_directory else parse_lookup_03)
                            (decode (hb_reader h) text)
  end.

(** multibag.py 300-312, [iter_deleted]; a directory called deleted.txt
    cannot be opened. *)
Definition iter_deleted (h : hb) : res (list pystr) :=
  let p := sjoin (tag_dir (hb_info h)) F_deleted in
  match read p (hb_tree h) with
  | Some text => Ok (map parse_deleted_04
                         (filter nonblank (pylines (hb_reader h) (decode (hb_reader h) text))))
  | None => if exists_ p (hb_tree h) then Err EOS else Ok []
  end.

(** multibag.py 225-235, read-only [member_bags] *)
Definition member_bags_ro (reread : bool) : M (list minfo) := fun h =>
  match hb_mem h, reread with
  | Some l, false => (h, Ok l)
  | _, _ => match iter_member_bags h with
            | Ok l => (set_mem h (Some l), Ok l)
            | Err e => (h, Err e)
            end
  end.

(** multibag.py 265-266 *)
Definition cache_file_lookup : M unit := fun h =>
  match iter_file_lookup h with
  | Ok l => (set_lu h (Some (od_of_pairs l)), Ok tt)
  | Err e => (h, Err e)
  end.

(** multibag.py 268-280, read-only [lookup_file] *)
Definition lookup_file_ro (p : pystr) (reread : bool) : M (option pystr) := fun h =>
  match hb_lu h, reread with
  | Some d, false => (h, Ok (od_get p d))
  | _, _ => match cache_file_lookup h with
            | (h', Ok _) => match hb_lu h' with
                            | Some d => (h', Ok (od_get p d))
                            | None => (h', Err EAttribute)
                            end
            | (h', Err e) => (h', Err e)
            end
  end.

(** multibag.py 282-298, [files_in_member] *)
Definition files_of_member (b : pystr) (d : dict pystr) : list pystr :=
  map fst (filter (fun kv => streq (snd kv) b) d).

Definition files_in_member (b : pystr) : M (list pystr) := fun h =>
  match hb_lu h with
  | Some d => (h, Ok (files_of_member b d))
  | None => match cache_file_lookup h with
            | (h', Ok _) => match hb_lu h' with
                            | Some d => (h', Ok (files_of_member b d))
                            | None => (h', Err EAttribute)
                            end
            | (h', Err EMissingFile) => (h', Ok [])
            | (h', Err e) => (h', Err e)
            end
  end.

(** multibag.py 314-321, [deleted_paths] *)
Definition deleted_paths (reread : bool) : M (list pystr) := fun h =>
  match hb_del h, reread with
  | Some l, false => (h, Ok l)
  | _, _ => match iter_deleted h with
            | Ok l => (set_del h (Some (set_of l)), Ok (set_of l))
            | Err e => (h, Err e)
            end
  end.

(** ** Updating *)

(** multibag.py 367-381, updatable [member_bags] *)
Definition member_bags (reread : bool) : M (list minfo) := fun h =>
  match member_bags_ro reread h with
  | (h', Err EMissingFile) => (h', Ok [])
  | r => r
  end.

(** multibag.py 447-458, updatable [lookup_file] *)
Definition lookup_file (p : pystr) (reread : bool) : M (option pystr) := fun h =>
  match lookup_file_ro p reread h with
  | (h', Err EMissingFile) => (h', Ok None)
  | r => r
  end.

(** multibag.py 641-654, [set_deleted]. Lines 650-651 name the method
    [deleted_paths] without calling it, so a cache that was never filled
    starts out empty. *)
Definition set_deleted (p : pystr) : M unit := fun h =>
  let d := match hb_del h with Some d => d | None => [] end in
  (set_del h (Some (set_add p d)), Ok tt).

(** multibag.py 656-671, [unset_deleted]; same remark. *)
Definition unset_deleted (p : pystr) : M unit := fun h =>
  let d := match hb_del h with Some d => d | None => [] end in
  (set_del h (Some (set_remove p d)), Ok tt).

(** multibag.py 460-481, [add_file_lookup] (string arguments) *)
Definition add_file_lookup (p b : pystr) : M unit := fun h =>
  match p, b with
  | [], _ | _, [] => (h, Err EValue)
  | _, _ =>
      let put h' := match hb_lu h' with
                    | Some d => (set_lu h' (Some (od_set p b d)), Ok tt)
                    | None => (h', Err EAttribute)
                    end in
      match hb_lu h with
      | Some _ => put h
      | None => match cache_file_lookup h with
                | (h', Ok _) => put h'
                | (h', Err EMissingFile) => put (set_lu h' (Some []))
                | (h', Err e) => (h', Err e)
                end
      end
  end.

(** multibag.py 483-498, [remove_file_lookup] *)
Definition remove_file_lookup (p : pystr) : M unit := fun h =>
  match p with
  | [] => (h, Err EValue)
  | _ =>
      let del h' := match hb_lu h' with
                    | Some d => (set_lu h' (Some (if od_has p d then od_del p d else d)), Ok tt)
                    | None => (h', Err EAttribute)
                    end in
      match hb_lu h with
      | Some _ => del h
      | None => match cache_file_lookup h with
                | (h', Ok _) => del h'
                | (h', Err EMissingFile) => (h', Ok tt)
                | (h', Err e) => (h', Err e)
                end
      end
  end.

(** multibag.py 500-523, [remove_member_bag]. Lines 511-512 name the method
    [member_bags] without calling it, so members that were not loaded before
    are left alone. *)
Definition remove_member_bag (b : pystr) : M unit := fun h =>
  let h := match hb_mem h with
           | Some l => set_mem h (Some (filter (fun m => negb (streq (m_name m) b)) l))
           | None => h
           end in
  (do fs <- files_in_member b ;
   forM fs (fun f => unset_deleted f ;; remove_file_lookup f)) h.

(** multibag.py 383-407, [add_member_bag] *)
Definition add_member_bag (m : minfo) (override : bool) : M unit := fun h =>
  let load : M unit := fun h =>
    match hb_mem h with
    | Some _ => (h, Ok tt)
    | None => (do _ <- member_bags false ; retM tt) h
    end in
  (load ;;
   (fun h => (match hb_mem h with None => set_mem h (Some []) | Some _ => h end, Ok tt)) ;;
   (if override then remove_member_bag (m_name m) else retM tt) ;;
   (fun h => match hb_mem h with
             | Some l => (set_mem h (Some (l ++ [m])), Ok tt)
             | None => (h, Err EAttribute)
             end)) h.

(** multibag.py 409-419, [set_member_bags] *)
Definition set_member_bags (l : list minfo) : M unit := fun h =>
  (set_mem h (Some l), Ok tt).

(** multibag.py 421-427, [ensure_tagdir] *)
Definition ensure_tagdir : M unit := fun h =>
  let d := tag_dir (hb_info h) in
  if exists_ d (hb_tree h) then (h, Ok tt)
  else match mkdir d (hb_tree h) with
       | Ok t => (set_tree h t, Ok tt)
       | Err e => (h, Err e)
       end.

Definition put_file (p c : pystr) : M unit := fun h =>
  match write_file p c (hb_tree h) with
  | Ok t => (set_tree h t, Ok tt)
  | Err e => (h, Err e)
  end.

(** Writing members: the lines before the first one that raises are in the
    file afterwards. *)
Fixpoint members_prefix (l : list minfo) : pystr * res unit :=
  match l with
  | [] => ([], Ok tt)
  | m :: t => match format_member m with
              | Err e => ([], Err e)
              | Ok s => let '(r, x) := members_prefix t in (s ++ r, x)
              end
  end.

(** multibag.py 429-445, [save_member_bags] *)
Definition save_member_bags : M unit := fun h =>
  match hb_mem h with
  | None => (h, Ok tt)
  | Some l =>
      (ensure_tagdir ;;
       put_file (sjoin (tag_dir (hb_info h)) F_members) (fst (members_prefix l)) ;;
       (fun h => (h, snd (members_prefix l)))) h
  end.

(** multibag.py 609-628, [save_file_lookup] *)
Definition save_file_lookup : M unit := fun h =>
  match hb_lu h with
  | None => (h, Ok tt)
  | Some d =>
      (ensure_tagdir ;;
       put_file (sjoin (tag_dir (hb_info h)) F_lookup) (lookup_text d)) h
  end.

(** multibag.py 630-638, [clear_file_lookup] *)
Definition clear_file_lookup : M unit := fun h =>
  let p := sjoin (tag_dir (hb_info h)) F_lookup in
  if exists_ p (hb_tree h)
  then match remove_file p (hb_tree h) with
       | Ok t => (set_lu (set_tree h t) None, Ok tt)
       | Err e => (h, Err e)
       end
  else (set_lu h None, Ok tt).

(** multibag.py 674-690, [save_deleted] *)
Definition save_deleted : M unit := fun h =>
  match hb_del h with
  | None => (h, Ok tt)
  | Some l =>
      let p := sjoin (tag_dir (hb_info h)) F_deleted in
      let rm : M unit := fun h =>
        match l with
        | [] => if exists_ p (hb_tree h)
                then match remove_file p (hb_tree h) with
                     | Ok t => (set_tree h t, Ok tt)
                     | Err e => (h, Err e)
                     end
                else (h, Ok tt)
        | _ => (h, Ok tt)
        end in
      (rm ;; ensure_tagdir ;; put_file p (deleted_text l)) h
  end.

Definition about_morsel := U "complies with the Multibag BagIt profile".
Definition ABOUT_MBAG :=
  U "This bag " ++ about_morsel ++
  U ".  For more information, refer to the URL given by Multibag-Reference tag.".

Definition od_setdefault {V} (k : pystr) (v : V) (d : dict V) : dict V :=
  if od_has k d then d else od_set k v d.

(** multibag.py 701-723, the tags set by [update_info]; [version] is the
    argument of the same name ([None] or empty: not given). *)
Definition update_info_tags (version : option pystr) (profver : pystr) (i : infod) : infod :=
  let i := if truthy version then od_set T_HeadVersion (IStr (oget version)) i else i in
  let i := od_set T_Version (IStr profver) i in
  let i := od_setdefault T_TagDir (IStr (U "multibag")) i in
  let i := od_setdefault T_HeadVersion (IStr (U "1")) i in
  let i := od_set T_Reference (IStr CURRENT_REFERENCE) i in
  let i := match od_get T_ISD i with
           | None => od_set T_ISD (IStr ABOUT_MBAG) i
           | Some v =>
               let l := match v with IStr s => [s] | IList l => l end in
               od_set T_ISD (IList (if existsb (substr_in about_morsel) l then l
                                    else l ++ [ABOUT_MBAG])) i
           end in
  let i := od_del T_BagCount i in
  od_del T_BagSize i.

(** multibag.py 692-724, [update_info]: the tags are written twice, the
    second time with the size of the bag, [bsize] (see [FormatBytes.v]). *)
Definition update_info (version : option pystr) (profver : pystr) (bsize : pystr) : M unit :=
  fun h =>
    let i := od_set T_BagSize (IStr bsize) (update_info_tags version profver (hb_info h)) in
    (set_dinfo (set_info h i) i, Ok tt).

(** ** update_for_member *)

(** A bag given as an argument. Read-only bags and directory bags differ in
    how they treat paths. *)
Record src := { s_name : pystr; s_tree : tree; s_ro : bool }.

(** Removal of empty components, as done by the path handling of both kinds
    of bags ("." and ".." components are not modelled). *)
Definition norm_slash (p : pystr) : pystr :=
  join [SLASH] (filter (fun w => match w with [] => false | _ => true end) (split_on SLASH p)).

(** [s.strip('/')] *)
Definition strip_slash (s : pystr) : pystr :=
  rstrip_if (N.eqb SLASH) (lstrip_if (N.eqb SLASH) s).

(** isfile / isdir: extended.py 259-298 (directory bags: a path with a leading
    slash is outside of the bag) and bagit.py 243-260 (read-only bags: a
    leading slash is the root of the bag). *)
Definition src_path (s : src) (p : pystr) : option pystr :=
  if negb (s_ro s) && startswith p [SLASH] then None else Some (norm_slash p).
Definition src_isfile (s : src) (p : pystr) : bool :=
  match src_path s p with Some q => is_file q (s_tree s) | None => false end.
Definition src_isdir (s : src) (p : pystr) : bool :=
  match src_path s p with Some q => is_dir q (s_tree s) | None => false end.

(** Name of directory [d] in a walk of a read-only bag from [start]
    (extended.py 685-686). *)
Definition ro_walk_name (start d : pystr) : pystr :=
  strip_slash (start ++ [SLASH] ++
               lstrip_if (N.eqb SLASH) (skipn (length (norm_slash start)) d)).

(** The loop over [bag.walk(incl)] (multibag.py 596-605). The triples are
    those of [Fs.walk]. In a directory bag (os.walk), emptying [subdirs]
    keeps the walk from descending, so a directory is reached iff no
    directory above it in this walk was emptied. In a read-only bag the
    list is a copy and emptying it has no effect. *)
Definition walk_selected (s : src) (incl : pystr) (excluded : pystr -> bool)
  : res (list pystr) :=
  let start := norm_slash incl in
  if s_ro s then
    if startswith incl [SLASH] then Err EValue
    else Ok (flat_map (fun x => let '(d, _, fs) := x in
               let d := ro_walk_name incl d in
               if (match d with [] => false | _ => true end) && excluded d then []
               else filter (fun f => negb (excluded f)) (map (sjoin d) fs))
             (walk start (s_tree s)))
  else
    let emptied d := (match d with [] => false | _ => true end) && excluded d in
    let reached d := negb (existsb (fun a => below a d && emptied a)
                                   (start :: filter (below start) (dirs (s_tree s)))) in
    Ok (flat_map (fun x => let '(d, _, fs) := x in
          if emptied d then []
          else filter (fun f => negb (excluded f)) (map (sjoin d) fs))
        (filter (fun x => reached (fst (fst x))) (walk start (s_tree s)))).

(** The include and exclude arguments. *)
Inductive sel : Type := SNone | SStr (s : pystr) | SList (l : list pystr).

(** multibag.py 526-607, [update_for_member]. Line 582: a string given as
    [exclude] replaces [include] and [exclude] stays a string, for which
    [in] is the substring test. [name] is member_name. *)
Definition update_for_member (s : src) (include exclude : sel) (make_member : bool)
    (name : option pystr) : M unit :=
  let name := if truthy name then oget name else s_name s in
  let incl := match include with
              | SNone => [U "data"]
              | SStr x => [x]
              | SList l => l
              end in
  let '(incl, excluded) :=
    match exclude with
    | SNone => (incl, fun _ => false)
    | SStr x => ([x], fun p => substr_in p x)
    | SList l => (incl, fun p => str_in p l)
    end in
  (if make_member
   then add_member_bag {| m_name := name; m_uri := None; m_comment := None; m_info := [] |} true
   else retM tt) ;;
  forM incl (fun i =>
    if excluded i then retM tt
    else if src_isfile s i then add_file_lookup i name
    else if src_isdir s i then
      match walk_selected s i excluded with
      | Err e => fun h => (h, Err e)
      | Ok fs => forM fs (fun f => add_file_lookup f name)
      end
    else retM tt).

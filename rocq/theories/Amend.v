(** * Amending aggregations and making single multibags

    Models /repo/multibag/amend.py 21-355: [SingleMultibagMaker] and
    [Amender]. The methods of the head bag are those of [HeadBag.v], except
    that [update_info] here writes bag-info.txt and the tag manifests
    ([Restore.save]).

    Simplifications: the amendee, the amendments and the new head bag are
    different bags; the lists of the amendee are read to their end before the
    first entry is taken over (lines 251-253 and 264-265 take over what was
    read before an error, in memory). *)

Require Import String NArith Bool List PeanoNat.
From Verif Require Import PyBase Version Tsv Fs HeadBag BagIt Split SplitApply Restore.
Import ListNotations.
Open Scope N_scope.

(** extended.py 191-197, [is_head_multibag] *)
Definition is_head (h : hb) : bool := od_has T_HeadVersion (hb_info h).

(** A handle as an argument of update_for_member. *)
Definition src_of (ro : bool) (h : hb) : src :=
  {| s_name := hb_name h; s_tree := hb_tree h; s_ro := ro |}.

(** multibag.py 692-724, [update_info], on the disk. [algs] are the
    algorithms of the bag, [bsize] is [_bag_size] (726-734). *)
Definition saveM (v : env) (algs : list pystr) : M unit := fun h =>
  match save v algs (hb_info h) (hb_tree h) with
  | Ok t => (set_tree h t, Ok tt)
  | Err e => (h, Err e)
  end.

Definition update_info_disk (v : env) (algs : list pystr) (bsize : tree -> pystr)
    (version : option pystr) (profver : pystr) : M unit :=
  (fun h => (set_info h (update_info_tags version profver (hb_info h)), Ok tt)) ;;
  saveM v algs ;;
  (fun h => (set_info h (od_set T_BagSize (IStr (bsize (hb_tree h))) (hb_info h)), Ok tt)) ;;
  saveM v algs.

(** ** Amender *)

(** amend.py 288: the version of the amendee; [repr] is the text that a list
    of strings gets in a tag file (Python's str of the list). *)
Definition old_version (repr : list pystr -> pystr) (i : infod) : pystr :=
  match od_get T_HeadVersion i with
  | None => U "1"
  | Some (IStr s) => s
  | Some (IList l) => repr l
  end.

(** amend.py 271-288, [_init_multibag_info], for the handles of the amendee
    and of the new head bag. In the case of line 279 both handles have the
    same list object afterwards, so that line 287 extends the list of the
    amendee, too. *)
Definition init_multibag_info (repr : list pystr -> pystr) (keepprofver : bool) (old new : hb) : hb * hb :=
  let profver := if keepprofver then match od_get T_Version (hb_info old) with
                                     | Some x => x
                                     | None => IStr CURRENT_VERSION
                                     end
                 else IStr CURRENT_VERSION in
  let i := od_set T_Version profver (hb_info new) in
  let x := old_version repr (hb_info old) in
  match od_get T_HeadDeprecates (hb_info old) with
  | Some (IList l) =>
      (set_info old (od_set T_HeadDeprecates (IList (l ++ [x])) (hb_info old)),
       set_info new (od_set T_HeadDeprecates (IList (l ++ [x])) i))
  | Some (IStr s) => (old, set_info new (od_set T_HeadDeprecates (IList [s; x]) i))
  | None => (old, set_info new (od_set T_HeadDeprecates (IList [x]) i))
  end.

(** A member without further information (line 255). *)
Definition plain_member (n : pystr) : minfo :=
  {| Tsv.m_name := n; m_uri := None; m_comment := None; m_info := [] |}.

(** amend.py 239-246 *)
Definition reset_members : M unit := fun h =>
  let target := sjoin (tag_dir (hb_info h)) F_members in
  if is_file target (hb_tree h) then
    match remove_file target (hb_tree h) with
    | Ok t => (do _ <- member_bags true ; retM tt) (set_tree h t)
    | Err e => (h, Err e)
    end
  else ensure_tagdir h.

(** amend.py 238-255, [_init_member_bags] *)
Definition init_member_bags (old : hb) : M unit :=
  reset_members ;;
  (if is_head old then
     match iter_member_bags old with
     | Err e => fun h => (h, Err e)
     | Ok ms => forM ms (fun m => add_member_bag m true)
     end
   else add_member_bag (plain_member (hb_name old)) true).

(** amend.py 257-269, [_init_file_lookup]; [ro]: the amendee is read-only. *)
Definition init_file_lookup (ro : bool) (old : hb) : M unit :=
  clear_file_lookup ;;
  (if is_head old then
     match iter_file_lookup old with
     | Err e => fun h => (h, Err e)
     | Ok l => forM l (fun kv => add_file_lookup (fst kv) (snd kv))
     end
   else update_for_member (src_of ro old) SNone SNone false None).

(** An amending bag with the arguments of add_amending_bag. *)
Record abag := {
  ab_src : src;
  ab_include : sel;
  ab_exclude : sel;
  ab_pid : option pystr;
  ab_comment : option pystr;
  ab_info : list pystr
}.

Definition ab_member (b : abag) : minfo :=
  {| Tsv.m_name := s_name (ab_src b); m_uri := ab_pid b; m_comment := ab_comment b; m_info := ab_info b |}.

(** amend.py 290-324, [add_amending_bag] *)
Definition add_amending_bag (b : abag) : M unit :=
  add_member_bag (ab_member b) true ;;
  update_for_member (ab_src b) (ab_include b) (ab_exclude b) false None.

(** The member entry of the new head bag itself (lines 218-220 and 348). *)
Definition own_member (pid comment : option pystr) (info : list pystr) (name : pystr) : minfo :=
  {| Tsv.m_name := name; m_uri := pid; m_comment := comment; m_info := info |}.

(** amend.py 348-351, the part of [finalize] in memory *)
Definition list_itself (own : minfo) (include exclude : sel) : M unit :=
  add_member_bag own true ;;
  (fun h => update_for_member (src_of false h) include exclude false None h).

(** amend.py 353-355, the part of [finalize] that writes *)
Definition write_all (v : env) (algs : list pystr) (bsize : tree -> pystr) (version : pystr) : M unit :=
  save_member_bags ;;
  save_file_lookup ;;
  (fun h => update_info_disk v algs bsize (Some version) (profile_version (hb_info h)) h).

(** init_from_amendee (222-236), add_amending_bag for some bags, and the part
    of [finalize] before the final writes. The result is the handle of the
    amendee afterwards. *)
Definition amend_lists (repr : list pystr -> pystr) (keepprofver ro : bool) (old : hb) (bags : list abag)
    (own : pystr -> minfo) (include exclude : sel) : M hb := fun new =>
  let (old, new) := init_multibag_info repr keepprofver old new in
  (init_member_bags old ;;
   init_file_lookup ro old ;;
   forM bags add_amending_bag ;;
   (fun h => list_itself (own (hb_name h)) include exclude h) ;;
   retM old) new.

(** An amendment from beginning to end: as above, then lines 353-355. *)
Definition amend (v : env) (algs : list pystr) (bsize : tree -> pystr) (repr : list pystr -> pystr)
    (keepprofver ro : bool) (old : hb) (bags : list abag) (own : pystr -> minfo) (include exclude : sel)
    (version : pystr) : M hb :=
  do old' <- amend_lists repr keepprofver ro old bags own include exclude ;
  write_all v algs bsize version ;;
  retM old'.

(** amend.py 140-177, [amend_bag_with] *)
Definition default_bag (s : src) : abag :=
  {| ab_src := s; ab_include := SNone; ab_exclude := SNone; ab_pid := None; ab_comment := None; ab_info := [] |}.
Definition amend_bag_with (v : env) (algs : list pystr) (bsize : tree -> pystr) (repr : list pystr -> pystr)
    (ro : bool) (old : hb) (bags : list src) (version : pystr) : M hb :=
  amend v algs bsize repr false ro old (map default_bag bags) (own_member None None []) SNone SNone version.

(** ** Single multibags *)

(** Truth value of [info.get(name)] *)
Definition info_truthy (k : pystr) (i : infod) : bool :=
  match od_get k i with
  | Some (IStr (_ :: _)) | Some (IList (_ :: _)) => true
  | _ => false
  end.

(** amend.py 61-77, [write_member_bags]. [bagdir] is the path that the maker
    was given. *)
Definition ensure_info (v : env) (algs : list pystr) (bsize : tree -> pystr) : M unit := fun h =>
  if info_truthy T_Version (hb_info h) then (h, Ok tt)
  else update_info_disk v algs bsize (Some (U "1")) CURRENT_VERSION h.

Definition write_member_bags (v : env) (algs : list pystr) (bsize : tree -> pystr)
    (bagdir : pystr) (pid comment : option pystr) (info : list pystr) : M unit :=
  ensure_info v algs bsize ;;
  set_member_bags [{| Tsv.m_name := basename bagdir; m_uri := pid; m_comment := comment; m_info := info |}] ;;
  save_member_bags.

(** amend.py 79-110, [write_file_lookup] *)
Definition write_file_lookup (v : env) (algs : list pystr) (bsize : tree -> pystr)
    (include exclude : sel) (trunc : bool) : M unit :=
  ensure_info v algs bsize ;;
  (if trunc then clear_file_lookup else retM tt) ;;
  (fun h => update_for_member (src_of false h) include exclude false None h) ;;
  save_file_lookup.

(** amend.py 122-137, [convert]; 112-119, [update_info] *)
Definition convert (v : env) (algs : list pystr) (bsize : tree -> pystr) (bagdir version : pystr)
    (pid : option pystr) : M unit :=
  write_member_bags v algs bsize bagdir pid None [] ;;
  write_file_lookup v algs bsize SNone SNone true ;;
  update_info_disk v algs bsize (Some version) CURRENT_VERSION.

(** The name of a bag opened at a path (extended.py 228-229). *)
Definition name_at (bagdir : pystr) : pystr := basename (rstrip_if (N.eqb SLASH) bagdir).

(** amend.py 48-57 and 21-33: [make_single_multibag] of the bag at [bagdir]
    with files [t]. *)
Definition make_single_multibag (v : env) (bsize : tree -> pystr) (bagdir : pystr) (t : tree)
    (version : pystr) (pid : option pystr) : res tree :=
  let? (info, _) := open_bag v Codecs (e_dest v) t in
  let? algs := algorithms v t in
  match convert v algs bsize bagdir version pid (open_hb (name_at bagdir) t info Codecs) with
  | (h, Ok _) => Ok (hb_tree h)
  | (_, Err e) => Err e
  end.

(** ** Single writes

    The same operations as sequences of changes of the files, for the states
    at which they may stop. *)

Definition step := tree -> res tree.
Definition run_steps (l : list step) (t : tree) : res tree := foldM (fun t (s : step) => s t) l t.

(** The states of the disk at which a sequence of steps may stop. *)
Definition stops_at (l : list step) (t t' : tree) : Prop :=
  exists k, run_steps (firstn k l) t = Ok t'.

(** [Bag.save], where the tags may depend on the files at the beginning *)
Definition save_steps (v : env) (algs : list pystr) (i : tree -> infod) : list step :=
  (fun t => write_file F_baginfo (info_text (i t)) t) ::
  map (fun a t => write_file (man_name K_tag a) (tagmanifest v a t) t) algs.

Definition ensure_step (td : pystr) : step := fun t =>
  if exists_ td t then Ok t else mkdir td t.

Definition info_steps (v : env) (algs : list pystr) (bsize : tree -> pystr) (version : option pystr)
    (profver : pystr) (i : infod) : list step :=
  let i := update_info_tags version profver i in
  save_steps v algs (fun _ => i) ++
  save_steps v algs (fun t => od_set T_BagSize (IStr (bsize t)) i).

Definition members_steps (td : pystr) (l : list minfo) : list step :=
  [ensure_step td; write_file (sjoin td F_members) (fst (members_prefix l))].
Definition lookup_steps (td : pystr) (d : option (dict pystr)) : list step :=
  match d with
  | None => []
  | Some d => [ensure_step td; write_file (sjoin td F_lookup) (lookup_text d)]
  end.
Definition clear_step (td : pystr) : step := fun t =>
  if exists_ (sjoin td F_lookup) t then remove_file (sjoin td F_lookup) t else Ok t.
Definition reset_step (td : pystr) : step := fun t =>
  if is_file (sjoin td F_members) t then remove_file (sjoin td F_members) t else ensure_step td t.

(** The steps of an amendment whose member list and lookup are [l] and [d] in
    the end, with tags [i] before [write_all]. *)
Definition amend_steps (v : env) (algs : list pystr) (bsize : tree -> pystr) (version : pystr)
    (i : infod) (l : list minfo) (d : option (dict pystr)) : list step :=
  let td := tag_dir i in
  [reset_step td; clear_step td] ++ members_steps td l ++ lookup_steps td d ++
  info_steps v algs bsize (Some version) (profile_version i) i.

(** The steps of [convert] of a bag with tags [i]; [i2] are the tags before the
    last call of update_info. *)
Definition single_steps (v : env) (algs : list pystr) (bsize : tree -> pystr) (version : pystr)
    (i i2 : infod) (l : list minfo) (d : option (dict pystr)) : list step :=
  let td := tag_dir i2 in
  (if info_truthy T_Version i then [] else info_steps v algs bsize (Some (U "1")) CURRENT_VERSION i) ++
  members_steps td l ++ [clear_step td] ++ lookup_steps td d ++
  info_steps v algs bsize (Some version) CURRENT_VERSION i2.

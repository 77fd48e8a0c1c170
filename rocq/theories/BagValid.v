(** * Opening and validating plain bags

    Models access/bagit.py 179-224, 287-292, 304-337 and 433-604 (class
    ReadOnlyBag). The methods that put the steps together, [validate],
    [_validate_contents], [validate_fetch], [_validate_completeness] and
    [compare_manifests_with_fs], are those of bagit.Bag of the Library of
    Congress [bagit] package, which is outside of /repo and was not available:
    they are modelled from memory and cited by name.

    Simplifications: the encoding of the tag files is UTF-8 whatever its name
    says; names are Unicode normalized; the bag is validated with one process
    and with [fast] and [completeness_only] off; messages are shortened. *)

Require Import String NArith ZArith Bool List.
From Verif Require Import PyBase Version Fs HeadBag BagIt SplitApply Validate.
Import ListNotations.
Open Scope N_scope.

(** Surroundings of a bag: the known checksum algorithms, the paths that are
    unsafe in it (see [BagIt.path_is_dangerous]), the names of encodings that
    codecs.lookup knows, the scheme and host that urlparse finds (or
    the exception it raises), and the checksum functions (hexadecimal digests). *)
Record benv := {
  v_algos : list pystr;
  v_danger : pystr -> bool;
  v_codec : pystr -> bool;
  v_url : pystr -> res (pystr * pystr);
  v_hash : pystr -> pystr -> pystr
}.

(** ** Opening *)

(** bagit.py 202-205; [None]: ValueError, raised again as BagError. *)
Definition parse_version (s : pystr) : option (list Z) :=
  match split1 DOT s with
  | None => option_map (fun a => [a]) (py_int s)
  | Some (a, b) => match py_int a, py_int b with
                   | Some x, Some y => Some [x; y]
                   | _, _ => None
                   end
  end.

(** Python's [<=] on tuples of integers. *)
Definition zs_le (a b : list Z) : bool := zs_lt a b || zs_eq a b.

(** bagit.py 207-212 *)
Definition tag_file_name (v : list Z) : option pystr :=
  if zs_le [0; 93]%Z v && zs_le v [0; 95]%Z then Some (U "package-info.txt")
  else if zs_le [0; 96]%Z v && zs_lt v [2]%Z then Some (U "bag-info.txt")
  else None.

(** bagit.py 343 and 414 *)
Definition from_097 (v : list Z) : bool := zs_le [0; 97]%Z v.
Definition from_1 (v : list Z) : bool := zs_le [1]%Z v.

Record obag := {
  o_tree : tree;
  o_version : list Z;
  o_info : infod;
  o_entries : entries
}.

Definition T_BagItVersion := U "BagIt-Version".
Definition T_Encoding := U "Tag-File-Character-Encoding".

(** bagit.py 200-218: the version and the name of the tag file. A tag that
    occurs twice is a list: it has no [split], and codecs.lookup raises
    TypeError for it. *)
Definition read_version (v : benv) (c : pystr) : res (list Z * pystr) :=
  let? kvs := parse_tags IoText (skip_bom c) in
  let tags := fold_left add_tag kvs [] in
  match od_get T_BagItVersion tags, od_get T_Encoding tags with
  | Some (IStr s), Some enc =>
      match parse_version s with
      | None => Err EBag
      | Some vi =>
          match tag_file_name vi with
          | None => Err EBag
          | Some f => match enc with
                      | IList _ => Err EType
                      | IStr e => if v_codec v e then Ok (vi, f) else Err EBag
                      end
          end
      end
  | Some (IList _), Some _ => Err EAttribute
  | _, _ => Err EBag
  end.

(** bagit.py 179-224, [_open]. bagit._load_tag_file reads bagit.txt as
    utf-8-sig. A directory in place of the tag file cannot be opened. *)
Definition open_plain (v : benv) (t : tree) : res obag :=
  match read F_bagit t with
  | None => Err EBag
  | Some c =>
      let? (vi, f) := read_version v c in
      let? info := if exists_ f t then
                     match read f t with Some c => load_tags IoText c | None => Err EOS end
                   else Ok [] in
      let? es := load_manifests (v_danger v) (from_1 vi) IoText
                   (bag_manifests (v_algos v) (from_097 vi) t) in
      Ok {| o_tree := t; o_version := vi; o_info := info; o_entries := es |}
  end.

(** ** Validation *)

(** How a step of the validation ends: quietly, with BagValidationError (and
    its message and details), with a BagError that is not one, or with
    another exception. Only BagValidationError has the attributes [message]
    and [details] (bagit, from memory, in Python 3). *)
Inductive verdict : Type :=
| VPass
| VInvalid (message : pystr) (details : list pystr)
| VBagError
| VRaise (e : exn).

Definition andthen (a b : verdict) : verdict := match a with VPass => b | _ => a end.

(** bagit.py 433-444 *)
Definition check_structure (v : benv) (b : obag) : verdict :=
  if negb (is_dir DATA (o_tree b)) then VInvalid (U "Expected data directory does not exist") []
  else match manifest_files (v_algos v) (o_tree b) with
       | [] => VInvalid (U "No manifest files found") []
       | _ => if exists_ F_bagit (o_tree b) then VPass
              else VInvalid (U "Expected to contain bagit.txt") []
       end.

(** bagit.py 527-538; the file was there when the bag was opened. *)
Definition check_bagittxt (b : obag) : verdict :=
  match read F_bagit (o_tree b) with
  | Some (c :: _) => if c =? BOM then VInvalid (U "bagit.txt must not contain a byte-order mark") []
                     else VPass
  | Some [] => VPass
  | None => VRaise EOS
  end.

(** [s.split(None, 2)] *)
Definition split_ws2 (s : pystr) : list pystr :=
  match split_ws1 s with
  | [a; b] => a :: split_ws1 b
  | l => l
  end.

(** bagit.py 329-337 and bagit.Bag.validate_fetch: one line of fetch.txt. *)
Definition check_fetch_line (v : benv) (line : pystr) : verdict :=
  match split_ws2 (strip line) with
  | [url; _; name] =>
      if v_danger v name then VBagError
      else match v_url v url with
           | Ok (scheme, netloc) => if nonempty scheme && nonempty netloc then VPass else VBagError
           | Err e => VRaise e
           end
  | _ => VRaise EValue
  end.

Definition F_fetch := U "fetch.txt".

(** bagit.py 316-337, [fetch_entries], and bagit.Bag.validate_fetch *)
Definition check_fetch (v : benv) (b : obag) : verdict :=
  match read F_fetch (o_tree b) with
  | None => VPass
  | Some c => fold_left (fun a line => andthen a (check_fetch_line v line)) (pylines IoText c) VPass
  end.

(** bagit.py 287-292, [payload_files] *)
Definition on_disk (t : tree) : list pystr := filter is_payload (files t).

(** [s.isdigit()]. The superscripts one, two and three are digits for it
    and not for [int]. Simplification: no other digits outside of ASCII. *)
Definition isdigit (s : pystr) : bool :=
  match s with
  | [] => false
  | _ => forallb (fun c => is_digit c || (c =? 178) || (c =? 179) || (c =? 185)) s
  end.

(** bagit.py 446-483. An empty list, which no file gives, would raise
    IndexError. *)
Definition check_oxum_value (t : tree) (s : pystr) : verdict :=
  match split1 DOT s with
  | None => VRaise EValue
  | Some (bytes, count) =>
      if negb (isdigit bytes) || negb (isdigit count) then VBagError
      else match py_int bytes, py_int count with
           | Some x, Some y =>
               if (Z.of_nat (length (on_disk t)) =? y)%Z &&
                  (Z.of_N (sum_N (map (fun f => size_of f t) (on_disk t))) =? x)%Z
               then VPass
               else VInvalid (U "Payload-Oxum validation failed.") []
           | _, _ => VRaise EValue
           end
  end.
Definition check_oxum (b : obag) : verdict :=
  match od_get T_OXUM (o_info b) with
  | None => VPass
  | Some (IStr s) | Some (IList (s :: _)) => check_oxum_value (o_tree b) s
  | Some (IList []) => VRaise EIndex
  end.

(** bagit.Bag.compare_manifests_with_fs with bagit.py 304-314,
    [missing_optional_tagfiles]. *)
Definition only_in_manifests (b : obag) : list pystr :=
  filter (fun p => if is_payload p then negb (str_in p (on_disk (o_tree b)))
                   else from_097 (o_version b) && negb (is_file p (o_tree b)))
         (od_keys (o_entries b)).
Definition only_on_disk (b : obag) : list pystr :=
  filter (fun p => negb (od_has p (o_entries b))) (on_disk (o_tree b)).

(** bagit.Bag._validate_completeness *)
Definition check_completeness (b : obag) : verdict :=
  match only_in_manifests b ++ only_on_disk b with
  | [] => VPass
  | l => VInvalid (U "Bag validation failed") l
  end.

(** [s.lower()], of ASCII letters (simplification). *)
Definition lower (s : pystr) : pystr :=
  map (fun c => if (65 <=? c) && (c <=? 90) then c + 32 else c) s.

(** bagit.py 559-604 and 516-522: the algorithms whose checksum is not the
    recorded one. A file that is not there makes openbin raise an error of the
    fs library, which (from memory) is not an OSError and so is not caught in
    line 596; it is given as EOS here. *)
Definition mismatches (v : benv) (t : tree) (pd : pystr * dict pystr) : res (list pystr) :=
  match read (fst pd) t with
  | None => Err EOS
  | Some c => Ok (map (fun _ => fst pd)
                      (filter (fun ah => negb (streq (lower (snd ah)) (v_hash v (fst ah) c))) (snd pd)))
  end.

(** bagit.py 485-525, [_validate_entries] *)
Definition check_entries (v : benv) (b : obag) : verdict :=
  match mapM (mismatches v (o_tree b)) (o_entries b) with
  | Err e => VRaise e
  | Ok ll => match concat ll with
             | [] => VPass
             | l => VInvalid (U "Bag validation failed") l
             end
  end.

(** bagit.Bag.validate *)
Definition validate_plain (v : benv) (b : obag) : verdict :=
  andthen (check_structure v b)
  (andthen (check_bagittxt b)
  (andthen (check_fetch v b)
  (andthen (check_oxum b)
  (andthen (check_completeness b)
           (check_entries v b))))).

(** validate/bag.py 34-41: what the validator makes of it. Line 41 asks a
    BagError for its [message]. *)
Definition caught (x : verdict) : res (option (list pystr)) :=
  match x with
  | VPass => Ok None
  | VInvalid m l => Ok (Some (m :: l))
  | VBagError => Err EAttribute
  | VRaise e => Err e
  end.

(** The bag that the validators of [Validate.v] work on. *)
Definition under_validation (v : benv) (name : pystr) (b : obag) : vbag :=
  {| b_name := name; b_info := o_info b; b_tree := o_tree b; b_plain := caught (validate_plain v b) |}.

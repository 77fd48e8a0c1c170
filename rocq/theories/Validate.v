(** * Validation of head bags and member bags

    Models /repo/multibag/validate (base.py, bag.py, headbag.py, member.py).
    The outcome of the check of the plain bag (bag.py 35) is a part of the bag
    here; [BagValid.v] models that check. [urlparse] is an argument.

    Paths are given to the file system as they are; the normalization that
    PyFilesystem applies to paths such as "a//b" is not modelled. *)

Require Import String NArith Bool List PeanoNat.
From Verif Require Import PyBase Version Tsv Fs HeadBag BagIt Split SplitApply.
Import ListNotations.
Open Scope N_scope.

(** ** base.py *)

(** base.py 19-24 *)
Definition ERROR : N := 1.
Definition WARN : N := 2.
Definition REC : N := 4.
Definition ALL : N := 7.
Definition PROB : N := 3.

(** base.py 31-57, [ValidationIssue]. *)
Record issue := {
  i_label : pystr;
  i_type : N;
  i_spec : pystr;
  i_passed : bool;
  i_comments : list pystr;
  i_pver : pystr
}.

(** base.py 193-227, [ValidationResults]; the attribute [results] is three
    lists. *)
Record vres := {
  vr_target : pystr;
  vr_want : N;
  vr_version : pystr;
  vr_error : list issue;
  vr_warn : list issue;
  vr_rec : list issue
}.
Definition new_results (target : pystr) (want : N) (version : pystr) : vres :=
  {| vr_target := target; vr_want := want; vr_version := version; vr_error := []; vr_warn := []; vr_rec := [] |}.

(** base.py 229-243, [applied] *)
Definition has_bits (a m : N) : bool := negb (N.land a m =? 0).
Definition applied (m : N) (r : vres) : list issue :=
  (if has_bits ERROR m then vr_error r else []) ++
  (if has_bits WARN m then vr_warn r else []) ++
  (if has_bits REC m then vr_rec r else []).

(** base.py 245-285 *)
Definition count_applied (m : N) (r : vres) : nat := length (applied m r).
Definition failed (m : N) (r : vres) : list issue := filter (fun i => negb (i_passed i)) (applied m r).
Definition count_failed (m : N) (r : vres) : nat := length (failed m r).
Definition passed (m : N) (r : vres) : list issue := filter i_passed (applied m r).
Definition count_passed (m : N) (r : vres) : nat := length (passed m r).
Definition ok (r : vres) : bool := Nat.eqb (count_failed (vr_want r) r) 0.

(** base.py 287-316, [_add_issue]: the issue as it is recorded. A type other
    than the three cannot be set (lines 87-90: concatenating a number raises
    TypeError). *)
Definition add_issue (i : issue) (ty : N) (p : bool) (comments : list pystr) (r : vres) : res vres :=
  let i := {| i_label := i_label i; i_type := ty; i_spec := i_spec i; i_passed := p;
              i_comments := i_comments i ++ comments; i_pver := i_pver i |} in
  if ty =? ERROR then Ok {| vr_target := vr_target r; vr_want := vr_want r; vr_version := vr_version r;
                            vr_error := vr_error r ++ [i]; vr_warn := vr_warn r; vr_rec := vr_rec r |}
  else if ty =? WARN then Ok {| vr_target := vr_target r; vr_want := vr_want r; vr_version := vr_version r;
                                vr_error := vr_error r; vr_warn := vr_warn r ++ [i]; vr_rec := vr_rec r |}
  else if ty =? REC then Ok {| vr_target := vr_target r; vr_want := vr_want r; vr_version := vr_version r;
                               vr_error := vr_error r; vr_warn := vr_warn r; vr_rec := vr_rec r ++ [i] |}
  else Err EType.

(** base.py 345-351, [_issue] *)
Definition mk_issue (r : vres) (label spec : pystr) : issue :=
  {| i_label := label; i_type := ERROR; i_spec := spec; i_passed := true; i_comments := []; i_pver := vr_version r |}.

(** base.py 318-343, [_err], [_warn], [_rec], for an issue made by [_issue]. *)
Definition rec_issue (ty : N) (label spec : string) (p : bool) (comments : list pystr) (r : vres) : res vres :=
  add_issue (mk_issue r (U label) (U spec)) ty p comments r.

(** Values of the attributes of an issue. *)
Inductive attr : Type := AStr (s : pystr) | AInt (n : N) | ABool (b : bool) | AList (l : list pystr).

(** base.py 41-57, the constructor with positional arguments: six of them,
    and the second one is one of the three types (lines 87-90). Other kinds of
    values for an argument are not modelled. *)
Definition construct (args : list attr) : res issue :=
  match args with
  | [AStr label; AInt ty; AStr spec; ABool p; AList comments; AStr ver] =>
      if (ty =? ERROR) || (ty =? WARN) || (ty =? REC) then
        Ok {| i_label := label; i_type := ty; i_spec := spec; i_passed := p; i_comments := comments; i_pver := ver |}
      else Err EType
  | AStr _ :: AStr _ :: _ => if Nat.ltb 6 (length args) then Err EType else Err EValue
  | _ => Err EType
  end.

(** base.py 167-172, [to_tuple], and 188-191, [from_tuple] *)
Definition to_tuple (i : issue) : list attr :=
  [AInt (i_type i); AStr (U "multibag"); AStr (i_pver i); AStr (i_label i); AStr (i_spec i);
   ABool (i_passed i); AList (i_comments i)].
Definition from_tuple (data : list attr) : res issue :=
  match data with
  | [d0; d1; d2; d3; d4; d5; d6] => construct [d1; d2; d3; d0; d4; d5; d6]
  | _ => Err EIndex
  end.

(** The attributes that issues have (base.py 59-142), and 174-186,
    [to_json_obj]. *)
Definition get_attr (i : issue) (name : string) : res attr :=
  if String.eqb name "profile_version" then Ok (AStr (i_pver i))
  else if String.eqb name "label" then Ok (AStr (i_label i))
  else if String.eqb name "type" then Ok (AInt (i_type i))
  else if String.eqb name "specification" then Ok (AStr (i_spec i))
  else if String.eqb name "comments" then Ok (AList (i_comments i))
  else Err EAttribute.
Definition type_label (n : N) : res pystr :=
  if n =? ERROR then Ok (U "error") else if n =? WARN then Ok (U "warning")
  else if n =? REC then Ok (U "recommendation") else Err EKey.
Definition to_json_obj (i : issue) : res (dict attr) :=
  let? ty := type_label (i_type i) in
  let? profile := get_attr i "profile" in
  let? version := get_attr i "profile_version" in
  let? label := get_attr i "label" in
  let? spec := get_attr i "message" in
  let? comments := get_attr i "comments" in
  Ok [(U "type", AStr ty); (U "profile_name", profile); (U "profile_version", version);
      (U "label", label); (U "spec", spec); (U "comments", comments)].

(** base.py 391-457, [Validator]: [validate] is a function of [want]. *)
Definition is_valid (validate : N -> res vres) (want : N) : res bool :=
  let? r := validate want in Ok (ok r).
Definition ensure_valid (validate : N -> res vres) (want : N) : res unit :=
  let? r := validate want in
  if ok r then Ok tt else Err EValidation.

(** base.py 362-376, the message of [MultibagValidationError] for two or more
    failures: the number in it. *)
Definition error_count (r : vres) : nat := count_failed ALL r.

(** ** A bag under validation *)

Record vbag := {
  b_name : pystr;                         (* _name *)
  b_info : infod;                         (* info *)
  b_tree : tree;
  b_plain : res (option (list pystr))     (* validate() of bagit: None, or the comments of its error *)
}.

(** access/bagit.py 614-666 and 164-166, [open_bag] of a directory: the name
    of the bag is the basename of the location. *)
Definition validator_name (location : pystr) : pystr := basename location.

(** bag.py 25-45 *)
Definition bag_validate (b : vbag) (want : N) (r : vres) : res vres :=
  if has_bits want ERROR then
    let? c := b_plain b in
    add_issue {| i_label := U "2-Bag"; i_type := ERROR; i_spec := U "Bag must be compliant BagIt bag";
                 i_passed := true; i_comments := []; i_pver := CURRENT_VERSION |}
              ERROR (match c with None => true | Some _ => false end)
              (match c with None => [] | Some l => l end) r
  else Ok r.

(** ** Values of bag-info.txt *)

Definition truthy_val (x : option ival) : bool :=
  match x with
  | Some (IStr (_ :: _)) | Some (IList (_ :: _)) => true
  | _ => false
  end.
Definition is_list (x : ival) : bool := match x with IList _ => true | _ => false end.
Definition vals (x : ival) : list pystr := match x with IStr s => [s] | IList l => l end.
(** [x[-1]] of a list, if it has one *)
Definition last_of (l : list pystr) : option pystr := match rev l with [] => None | s :: _ => Some s end.
Definition nonempty (s : pystr) : bool := match s with [] => false | _ => true end.
(** Truth of [len(l) > 0 and l[-1]] *)
Definition last_nonempty (l : list pystr) : bool :=
  match last_of l with Some s => nonempty s | None => false end.

(** headbag.py 54-56 and member.py 52-54: the version given to the tests.
    (An empty list, which no file gives, would stay an empty list.) *)
Definition version_of (i : infod) : option pystr :=
  match od_get T_Version i with
  | Some x => last_of (vals x)
  | None => None
  end.

(** headbag.py 276-285: the multibag directory; the assertions of lines 284
    and 285 are the same in 460-469 and 662-671. *)
Definition multibag_dir (b : vbag) : res pystr :=
  let mdir := match od_get T_TagDir (b_info b) with
              | Some x => if truthy_val (Some x) then match last_of (vals x) with Some s => s | None => [] end
                          else U "multibag"
              | None => U "multibag"
              end in
  if nonempty mdir then
    if od_has T_HeadVersion (b_info b) then Ok mdir else Err EAssertion
  else Err EAssertion.

(** ** Line numbers in comments *)

(** headbag.py 339-345 and the like: ["line 3"], ["lines 1, 2, 5, ..."] *)
Definition lines_comment (l : list N) : list pystr :=
  match l with
  | [] => []
  | _ =>
      let s := if Nat.ltb 1 (length l) then U "s" else [] in
      let shown := map dec l in
      let shown := if Nat.ltb 4 (length l) then firstn 3 shown ++ [U "..."] else shown in
      [U "line" ++ s ++ U " " ++ join (U ", ") shown]
  end.

(** Numbered lines ([i] in the loops), without those that are blank. *)
Fixpoint number {A} (i : N) (l : list A) : list (N * A) :=
  match l with
  | [] => []
  | x :: t => (i + 1, x) :: number (i + 1) t
  end.
Definition numbered_lines (text : pystr) : list (N * pystr) :=
  filter (fun il => nonblank (snd il)) (number 0 (pylines IoText text)).

(** [line.split()]: the words *)
Fixpoint split_if (p : N -> bool) (s : pystr) : list pystr :=
  match s with
  | [] => [[]]
  | c :: t => if p c then [] :: split_if p t
              else match split_if p t with
                   | [] => [[c]]
                   | w :: ws => (c :: w) :: ws
                   end
  end.
Definition py_words (s : pystr) : list pystr := filter nonempty (split_if is_ws s).

(** ** headbag.py *)

Section Head.
  (** [urlparse(url)]: scheme and netloc *)
  Variable urlparse : pystr -> res (pystr * pystr).

  (** headbag.py 70-98 *)
  Definition validate_version (b : vbag) (version : option pystr) (r : vres) : res vres :=
    let x := od_get T_Version (b_info b) in
    let? r := rec_issue ERROR "3-Version" "bag-info.txt field must have required element: Multibag-Version"
                        (truthy_val x) [] r in
    match x with
    | Some v =>
        if truthy_val x then
          let? r := rec_issue WARN "3-Version" "bag-info.txt field, Multibag-Version, should only appear once"
                              (negb (is_list v)) [] r in
          let version := if is_list v then last_of (vals v) else version in
          let spec := U "Multibag-Version must be set to '" ++ (match version with Some s => s | None => U "None" end) ++ U "'" in
          let same := match v, version with IStr s, Some s' => streq s s' | _, _ => false end in
          add_issue (mk_issue r (U "3-Version-val") spec) ERROR same [] r
        else Ok r
    | None => Ok r
    end.

  (** headbag.py 100-126 *)
  Definition validate_reference (b : vbag) (r : vres) : res vres :=
    let x := od_get T_Reference (b_info b) in
    let? r := rec_issue REC "3-Reference" "bag-info.txt should include field: Multibag-Reference" (truthy_val x) [] r in
    match x with
    | Some v =>
        if truthy_val x then
          let url := match last_of (vals v) with Some s => s | None => [] end in
          let? r := rec_issue ERROR "3-Reference-val" "Multibag-Reference value must be an absolute URL (not an empty value)"
                              (nonempty url) [] r in
          let? (scheme, netloc) := urlparse url in
          rec_issue ERROR "3-Reference-val" "Multibag-Reference value must be an absolute URL"
                    (nonempty scheme && nonempty netloc) [] r
        else Ok r
    | None => Ok r
    end.

  (** headbag.py 128-162 *)
  Definition validate_tag_directory (b : vbag) (r : vres) : res vres :=
    match od_get T_TagDir (b_info b) with
    | Some v =>
        let mdir := vals v in
        let? r := rec_issue ERROR "3-Tag-Directory" "bag-info.txt: Value for Multibag-Tag-Directory should not be empty"
                            (last_nonempty mdir) [] r in
        if last_nonempty mdir then
          let? r := rec_issue ERROR "3-Tag-Directory" "bag-info.txt: Multibag-Tag-Directory element should appear no more than once"
                              (Nat.eqb (length mdir) 1) [] r in
          rec_issue ERROR "3-Tag-Directory" "Multibag-Tag-Directory must exist as directory"
                    (match last_of mdir with Some d => is_dir d (b_tree b) | None => false end) [] r
        else Ok r
    | None =>
        rec_issue ERROR "3-Tag-Directory" "Default Multibag-Tag-Directory, multibag, must exist as a directory"
                  (is_dir (U "multibag") (b_tree b)) [] r
    end.

  (** headbag.py 164-193 *)
  Definition validate_head_version (b : vbag) (r : vres) : res vres :=
    match od_get T_HeadVersion (b_info b) with
    | Some v =>
        let value := vals v in
        let? r := rec_issue WARN "3-Head-Version_nonempty" "bag-info.txt: Value for Multibag-Head-Version should not be empty"
                            (last_nonempty value) [] r in
        match value with
        | [] => Ok r
        | _ => rec_issue WARN "3-Head-Version_single" "bag-info.txt: Multibag-Head-Version element should only appear once"
                         (Nat.eqb (length value) 1) [] r
        end
    | None =>
        rec_issue ERROR "3-Head-Version" "Head bag: bag-info.txt must have Multibag-Head-Version element" false [] r
    end.

  (** headbag.py 222-229: one value of Multibag-Head-Deprecates *)
  Definition COMMA : N := 44.
  Definition deprecated_parts (val : pystr) : list pystr := map strip (split_on COMMA val).
  Definition deprecates_self (b : vbag) (headver val : pystr) : bool :=
    match deprecated_parts val with
    | p :: q :: _ => streq p headver || streq q (b_name b)
    | [p] => streq p headver
    | [] => false
    end.

  (** headbag.py 195-249 *)
  Definition validate_head_deprecates (b : vbag) (r : vres) : res vres :=
    match od_get T_HeadDeprecates (b_info b) with
    | None => Ok r
    | Some v =>
        let headver := match od_get T_HeadVersion (b_info b) with
                       | Some x => match last_of (vals x) with Some s => s | None => [] end
                       | None => []
                       end in
        if nonempty headver then
          let values := vals v in
          let first := match values with s :: _ => nonempty s | [] => false end in
          let? r := rec_issue WARN "3-Head-Deprecates_notempty" "bag-info.txt: Value for Multibag-Head-Deprecates should not be empty"
                              first [] r in
          if first then
            let badfmt := filter (fun val => Nat.ltb 2 (length (deprecated_parts val))) values in
            let? r := rec_issue ERROR "3-Head-Deprecates_format" "bag-info.txt: Multibag-Head-Deprecates value must match format: VERSION[, BAGNAME]"
                                (Nat.eqb (length badfmt) 0) badfmt r in
            let? r := rec_issue WARN "3-Head-Deprecates_notempty" "bag-info.txt: Value for Multibag-Head-Deprecates should not be empty"
                                (existsb nonempty values) [] r in
            rec_issue WARN "3-Head-Deprecates_notselfdep" "bag-info.txt: Multibag-Head-Deprecates should not deprecate itself"
                      (negb (existsb (deprecates_self b headver) values)) [] r
          else Ok r
        else Err EAssertion
    end.

  (** headbag.py 251-269. Of a single value, [data[el]] is a string: its last
      character, and all of its characters, are true. *)
  Definition recommended (b : vbag) (el : string) (r : vres) : res vres :=
    let x := od_get (U el) (b_info b) in
    let given := match x with
                 | Some (IStr s) => nonempty s
                 | Some (IList l) => last_nonempty l
                 | None => false
                 end in
    let? r := add_issue (mk_issue r (U "3-2") (U "Recommed adding value for " ++ U el ++ U " into bag-info.txt file")) REC given [] r in
    if given then
      add_issue (mk_issue r (U "3-2") (U "bag-info.txt: " ++ U el ++ U " element should not have empty values")) ERROR
                (match x with Some (IList l) => forallb nonempty l | _ => true end) [] r
    else Ok r.
  Definition validate_baginfo_recs (b : vbag) (r : vres) : res vres :=
    let? r := recommended b "Internal-Sender-Identifier" r in
    let? r := recommended b "Internal-Sender-Description" r in
    recommended b "Bag-Group-Identifier" r.

  (** The state of the loop over the lines of the member list: badurl,
      replicated, found, foundme, last, badfmt. *)
  Record mstate := {
    ms_badurl : list N;
    ms_repl : list N;
    ms_found : list pystr;
    ms_foundme : bool;
    ms_last : option pystr;
    ms_badfmt : list N
  }.
  Definition mstart : mstate :=
    {| ms_badurl := []; ms_repl := []; ms_found := []; ms_foundme := false; ms_last := None; ms_badfmt := [] |}.

  (** headbag.py 400-411; for version 0.2 (lines 320-334) the fields are words and
      there may be two of them at most. *)
  Definition member_fields (v02 : bool) (line : pystr) : list pystr :=
    if v02 then map strip (py_words (strip line)) else map strip (split_on TAB (strip line)).
  Definition member_line (me : pystr) (v02 : bool) (s : mstate) (il : N * pystr) : res mstate :=
    match member_fields v02 (snd il) with
    | [] => Err EIndex
    | last :: parts =>
        let repl := if str_in last (ms_found s) then ms_repl s ++ [fst il] else ms_repl s in
        let found := if str_in last (ms_found s) then ms_found s else ms_found s ++ [last] in
        let? badurl := match parts with
                       | u :: _ => if nonempty u then
                                     let? (scheme, netloc) := urlparse u in
                                     Ok (if negb (nonempty scheme) || nonempty netloc then ms_badurl s ++ [fst il] else ms_badurl s)
                                   else Ok (ms_badurl s)
                       | [] => Ok (ms_badurl s)
                       end in
        Ok {| ms_badurl := badurl; ms_repl := repl; ms_found := found;
              ms_foundme := ms_foundme s || streq last me; ms_last := Some last;
              ms_badfmt := if v02 && Nat.ltb 1 (length parts) then ms_badfmt s ++ [fst il] else ms_badfmt s |}
    end.

  (** headbag.py 300-377 and 379-453 *)
  Definition validate_members_file (b : vbag) (v02 : bool) (mdir : pystr) (r : vres) : res vres :=
    let f := sjoin mdir (if v02 then U "group-members.txt" else F_members) in
    let? r := rec_issue ERROR "4.0-1" (if v02 then "Multibag tag directory must contain a group-members.txt file"
                                       else "Multibag tag directory must contain a member-bags.tsv file")
                        (is_file f (b_tree b)) [] r in
    match read f (b_tree b) with
    | None => Ok r
    | Some text =>
        let? s := foldM (member_line (b_name b) v02) (numbered_lines text) mstart in
        let? r := rec_issue ERROR "4.1-1" (if v02 then "group-members.txt lines must match format, BAGNAME[ URL]"
                                           else "member-bags.tsv lines must match format, BAGNAME[\tURL][\t...]" (* with TABs *))
                            (Nat.eqb (length (ms_badfmt s)) 0) (lines_comment (ms_badfmt s)) r in
        let? r := rec_issue ERROR "4.1-2" (if v02 then "group-members.txt: URL field must be an absolute URL"
                                           else "member-bags.tsv: URL field must be an absolute URL")
                            (Nat.eqb (length (ms_badurl s)) 0) (lines_comment (ms_badurl s)) r in
        let? r := rec_issue ERROR "4.1-3" (if v02 then "group-members.txt must list current bag name"
                                           else "member-bags.tsv must list current bag name")
                            (ms_foundme s) [] r in
        let? r := rec_issue ERROR "4.1-4" (if v02 then "group-members.txt: Head bag must be listed last"
                                           else "member-bags.tsv: Head bag must be listed last")
                            (match ms_last s with Some n => streq n (b_name b) | None => false end) [] r in
        rec_issue WARN "4.1-5" (if v02 then "group-members.txt: a bag name should only be listed once"
                                else "member-bags.tsv: a bag name should only be listed once")
                  (Nat.eqb (length (ms_repl s)) 0) (lines_comment (ms_repl s)) r
    end.

  (** Version "0.2" (lines 293 and 477) *)
  Definition is_02 (version : option pystr) : bool :=
    match version with Some s => streq s (U "0.2") | None => false end.

  (** headbag.py 271-298 *)
  Definition validate_member_bags (b : vbag) (version : option pystr) (r : vres) : res vres :=
    let? mdir := multibag_dir b in
    let? r := rec_issue ERROR "3-Tag-Directory" "Multibag-Tag-Directory must exist as directory"
                        (is_dir mdir (b_tree b)) [] r in
    if is_dir mdir (b_tree b) then validate_members_file b (is_02 version) mdir r else Ok r.

  (** The loop over the lines of the file lookup (lines 588-598; 502-512 for
      version 0.2) *)
  Record lstate := { ls_badfmt : list N; ls_repl : list N; ls_missing : list N; ls_paths : list pystr }.
  Definition lookup_fields (v02 : bool) (line : pystr) : list pystr :=
    if v02 then map strip (py_words line) else map strip (split_on TAB line).
  Definition lookup_line (b : vbag) (v02 : bool) (s : lstate) (il : N * pystr) : res lstate :=
    match lookup_fields v02 (snd il) with
    | [] => Err EIndex
    | p :: rest =>
        Ok {| ls_repl := if str_in p (ls_paths s) then ls_repl s ++ [fst il] else ls_repl s;
              ls_paths := if str_in p (ls_paths s) then ls_paths s else ls_paths s ++ [p];
              ls_badfmt := if Nat.eqb (length rest) 1 then ls_badfmt s else ls_badfmt s ++ [fst il];
              ls_missing := match rest with
                            | n :: _ => if streq n (b_name b) && negb (is_file p (b_tree b))
                                        then ls_missing s ++ [fst il] else ls_missing s
                            | [] => ls_missing s
                            end |}
    end.

  (** headbag.py 633-642: the payload files that should be listed *)
  Definition hidden (p : pystr) : bool := startswith (basename p) (U ".") || startswith (basename p) (U "_").
  Definition expected_files (t : tree) : list pystr := filter (fun p => is_payload p && negb (hidden p)) (files t).

  (** headbag.py 484-568 and 570-654. The list of missing files (line 651) is not
      handed over to [_rec]. *)
  Definition validate_lookup_file (b : vbag) (v02 : bool) (mdir : pystr) (r : vres) : res vres :=
    let f := sjoin mdir (if v02 then U "group-directory.txt" else F_lookup) in
    let? r := rec_issue ERROR "4.0-2" (if v02 then "Multibag tag directory must contain a group-directory.txt file"
                                       else "Multibag tag directory must contain a file-lookup.tsv file")
                        (is_file f (b_tree b)) [] r in
    match read f (b_tree b) with
    | None => Ok r
    | Some text =>
        let? s := foldM (lookup_line b v02) (numbered_lines text)
                        {| ls_badfmt := []; ls_repl := []; ls_missing := []; ls_paths := [] |} in
        let? r := rec_issue ERROR "4.2-1" (if v02 then "group-directory.txt lines must match format, FILEPATH BAGNAME"
                                           else "file-lookup.tsv lines must match format, FILEPATH\tBAGNAME")
                            (Nat.eqb (length (ls_badfmt s)) 0) (lines_comment (ls_badfmt s)) r in
        let? r := rec_issue ERROR "4.2-2" (if v02 then "group-directory.txt: file path for current bag must exist as a file"
                                           else "file-lookup.tsv: file path for current bag must exist as a file")
                            (Nat.eqb (length (ls_missing s)) 0) (lines_comment (ls_missing s)) r in
        let? r := rec_issue WARN "4.2-3" (if v02 then "group-directory.txt: a file path must be listed only once"
                                          else "file-lookup.tsv: a file path must be listed only once")
                            (Nat.eqb (length (ls_repl s)) 0) (lines_comment (ls_repl s)) r in
        if is_dir (U "data") (b_tree b) then
          rec_issue REC "4.2-4" (if v02 then "all payload file should be listed in the group-directory.txt file"
                                 else "all payload file should be listed in the file-lookup.tsv file")
                    (Nat.eqb (length (filter (fun p => negb (str_in p (ls_paths s))) (expected_files (b_tree b)))) 0) [] r
        else Err EOS
    end.

  (** headbag.py 455-482 *)
  Definition validate_file_lookup (b : vbag) (version : option pystr) (r : vres) : res vres :=
    let? mdir := multibag_dir b in
    let? r := rec_issue ERROR "3-Tag-Directory" "Multibag-Tag-Directory must exist as directory"
                        (is_dir mdir (b_tree b)) [] r in
    if is_dir mdir (b_tree b) then validate_lookup_file b (is_02 version) mdir r else Ok r.

  (** headbag.py 656-686. The comment of line 683 is literally "str(ex)". *)
  Definition validate_aggregation_info (b : vbag) (version : option pystr) (r : vres) : res vres :=
    let? mdir := multibag_dir b in
    let f := sjoin mdir (U "aggregation-info.txt") in
    if is_02 version || (match version with Some s => streq s (U "0.3") | None => false end) || negb (exists_ f (b_tree b))
    then Ok r
    else match read f (b_tree b) with
         | None => Err EOS
         | Some c =>
             match load_tags IoText c with
             | Ok _ => rec_issue ERROR "4.4-1" "aggregation-info.txt must conform to the tag file format" true [] r
             | Err EBag => rec_issue ERROR "4.4-1" "aggregation-info.txt must conform to the tag file format" false [U "str(ex)"] r
             | Err e => Err e
             end
         end.

  (** headbag.py 32-68, [HeadBagValidator.validate]; [r] are the results to add to. *)
  Definition head_validate_into (b : vbag) (want : N) (r : vres) : res vres :=
    let version := version_of (b_info b) in
    let? r := bag_validate b want r in
    let? r := validate_version b version r in
    let? r := validate_reference b r in
    let? r := validate_tag_directory b r in
    let? r := validate_head_version b r in
    let? r := validate_head_deprecates b r in
    let? r := validate_baginfo_recs b r in
    let? r := validate_member_bags b version r in
    let? r := validate_file_lookup b version r in
    validate_aggregation_info b version r.
  Definition head_validate (b : vbag) (target : pystr) (want : N) : res vres :=
    head_validate_into b want (new_results target want CURRENT_VERSION).
End Head.

(** ** member.py *)

(** member.py 68-89. The regular expressions look for white space at the ends. *)
Definition outer_space (name : pystr) : bool :=
  match name with [] => false | c :: _ => is_ws c end ||
  match rev name with [] => false | c :: _ => is_ws c end.
Definition validate_bagname (b : vbag) (version : option pystr) (r : vres) : res vres :=
  if is_02 version then Ok r
  else
    let? r := rec_issue ERROR "2.1a-name-TAB" "A name must not contain embedded TAB characters"
                        (negb (existsb (N.eqb TAB) (b_name b))) [] r in
    rec_issue ERROR "2.1b-name-wsp" "A name must not begin nor end with any whitespace characters"
              (negb (outer_space (b_name b))) [] r.

(** member.py 91-122 *)
Definition validate_as_nonhead (b : vbag) (r : vres) : res vres :=
  if od_has T_HeadVersion (b_info b) then Ok r
  else
    let? r := rec_issue WARN "2-Head-Deprecates" "bag-info.txt: Multibag-Head-Deprecates element should only be set for Head Bags"
                        (negb (od_has T_HeadDeprecates (b_info b))) [] r in
    let? r := rec_issue WARN "2-Tag-Directory" "bag-info.txt: Multibag-Tag-Directory element should only be set for Head Bags"
                        (negb (od_has T_TagDir (b_info b))) [] r in
    let mdir := match od_get T_TagDir (b_info b) with
                | Some x => if truthy_val (Some x) then vals x else [U "multibag"]
                | None => [U "multibag"]
                end in
    foldM (fun r d => add_issue (mk_issue r (U "2-Tag-Directory")
                                  (U "bag-info.txt: Multibag tag directory (" ++ d ++ U ") should exist only in Head Bags"))
                                WARN (negb (exists_ d (b_tree b))) [] r) mdir r.

(** member.py 45-66, [MemberBagValidator.validate]. [results] is the argument of
    that name; lines 63-64 hand on [results] and not [out], so that without
    it the outcome of both is dropped (lines 72-74 and 92-94). *)
Definition member_validate (b : vbag) (target : pystr) (want : N) (results : option vres) : res vres :=
  let out := match results with Some r => r | None => new_results target want CURRENT_VERSION end in
  let? out := bag_validate b want out in
  let version := version_of (b_info b) in
  let given := match version with Some s => nonempty s | None => false end in
  let? out := rec_issue REC "3-Version-for-member" "A member multibag should include header: Multibag-Version" given [] out in
  if given then
    match results with
    | Some _ =>
        let? out := validate_bagname b version out in
        validate_as_nonhead b out
    | None =>
        let? _ := validate_bagname b version (new_results target want CURRENT_VERSION) in
        let? _ := validate_as_nonhead b (new_results target want CURRENT_VERSION) in
        Ok out
    end
  else Ok out.

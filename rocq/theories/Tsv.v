(** * Lines of the multibag tag files

    Model of multibag/access/multibag.py 27-140. *)

Require Import String NArith Bool List.
From Verif Require Import PyBase.
Import ListNotations.
Open Scope N_scope.

(** multibag.py 27-47, class MemberInfo *)
Record minfo := {
  m_name : pystr;
  m_uri : option pystr;
  m_comment : option pystr;
  m_info : list pystr
}.

(** Truth value of an optional string ([None] and [""] are false). *)
Definition truthy (o : option pystr) : bool :=
  match o with Some (_ :: _) => true | _ => false end.

Definition oget (o : option pystr) : pystr :=
  match o with Some s => s | None => [] end.

(** multibag.py 49-64, [MemberInfo.format]. Line 59 uses the undefined name
    [info], hence the NameError. *)
Definition format_member (m : minfo) : res pystr :=
  let out := m_name m in
  let out := if truthy (m_uri m) then out ++ [TAB] ++ oget (m_uri m) else out in
  match m_info m with
  | _ :: _ => Err EName
  | [] =>
      let out := if truthy (m_comment m) then out ++ [TAB; HASH; SP] ++ oget (m_comment m)
                 else out in
      Ok (out ++ [LF])
  end.

(** [fields[-1]] and [fields] without it. *)
Fixpoint unsnoc {A} (x : A) (l : list A) : list A * A :=
  match l with
  | [] => ([], x)
  | y :: t => let '(i, z) := unsnoc y t in (x :: i, z)
  end.

(** multibag.py 66-85, [MemberInfo.parse_line_03] *)
Definition parse_member_03 (line : pystr) : res minfo :=
  match split_on TAB (strip line) with
  | [] | [] :: _ => Err EMultibag
  | name :: flds =>
      let '(flds, comm) :=
        match flds with
        | [] => ([], None)
        | x :: t =>
            let '(ini, lst) := unsnoc x t in
            if startswith lst [HASH]
            then (ini, Some (strip (lstrip_if (N.eqb HASH) lst)))
            else (flds, None)
        end in
      let '(flds, uri) :=
        match flds with
        | [] => ([], None)
        | u :: t => (t, Some u)
        end in
      Ok {| m_name := name; m_uri := uri; m_comment := comm; m_info := flds |}
  end.

(** [_spre.split(s)] (multibag.py 19) for an [s] without leading or trailing
    spaces: split at runs of spaces; the empty string gives one empty word. *)
Definition re_split_spaces (s : pystr) : list pystr :=
  match s with
  | [] => [[]]
  | _ => filter (fun w => match w with [] => false | _ => true end) (split_on SP s)
  end.

(** multibag.py 87-102, [MemberInfo.parse_line_02] *)
Definition parse_member_02 (line : pystr) : res minfo :=
  match re_split_spaces (strip line) with
  | [] | [] :: _ => Err EMultibag
  | name :: flds =>
      Ok {| m_name := name;
            m_uri := match flds with [] => None | u :: _ => Some u end;
            m_comment := None; m_info := [] |}
  end.

(** multibag.py 104-116, [parse_file_lookup_line_03] *)
Definition parse_lookup_03 (line : pystr) : res (pystr * pystr) :=
  match split_on TAB (strip line) with
  | p :: b :: _ => Ok (p, b)
  | _ => Err EMultibag
  end.

(** multibag.py 118-130, [parse_group_directory_line] *)
Definition parse_group_directory (line : pystr) : res (pystr * pystr) :=
  match re_split_spaces (strip line) with
  | p :: b :: _ => Ok (p, b)
  | _ => Err EMultibag
  end.

(** multibag.py 132-140, [parse_deleted_line_04] *)
Definition parse_deleted_04 (line : pystr) : pystr := strip line.

(** multibag.py 628, the line written for one entry of the file lookup *)
Definition format_lookup (kv : pystr * pystr) : pystr :=
  fst kv ++ [TAB] ++ snd kv ++ [LF].

(** [if line.strip()] (multibag.py 222, 262, 311) *)
Definition nonblank (line : pystr) : bool :=
  match strip line with [] => false | _ => true end.

(** Contents of a text file, parsed line by line; blank lines are skipped
    (multibag.py 219-222, 259-262). *)
Definition parse_file {A} (r : reader) (parse : pystr -> res A) (text : pystr)
  : res (list A) :=
  mapM parse (filter nonblank (pylines r text)).

(** The text written by save_file_lookup (multibag.py 619-628) *)
Definition lookup_text (d : dict pystr) : pystr := flat_map format_lookup d.

(** The text written by save_member_bags (multibag.py 438-445). A raised
    exception leaves a truncated file; [HeadBag.v] treats that. *)
Definition members_text (l : list minfo) : res pystr :=
  let? ls := mapM format_member l in Ok (concat ls).

(** The text written by save_deleted (multibag.py 688-690) *)
Definition deleted_text (l : list pystr) : pystr := flat_map (fun p => p ++ [LF]) l.

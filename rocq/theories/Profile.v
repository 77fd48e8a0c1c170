(** * The published BagIt profiles

    The files multibag-bagit-profile.json and multibag-head-bagit-profile.json
    at the root of the source, as data: lines 10-50 (the rules for tags), 53 (the
    accepted BagIt versions) and 54-57 (the required tag files). The parts that
    do not restrict a bag in a directory (51-52) are left out. *)

Require Import String NArith Bool List.
From Verif Require Import PyBase.
Import ListNotations.
Open Scope N_scope.

Record tag_rule := { tr_name : pystr; tr_required : bool; tr_repeatable : bool; tr_values : option (list pystr) }.
Record profile := { pf_tags : list tag_rule; pf_bagit : list pystr; pf_files : list pystr }.

(** A rule without a list of values. *)
Definition rule (name : pystr) (required repeatable : bool) : tag_rule :=
  {| tr_name := name; tr_required := required; tr_repeatable := repeatable; tr_values := None |}.

(** multibag-bagit-profile.json 10-50, which differs from
    multibag-head-bagit-profile.json 10-50 in line 30 only. *)
Definition profile_tags (head : bool) : list tag_rule :=
  [{| tr_name := U "Multibag-Version"; tr_required := true; tr_repeatable := false;
      tr_values := Some [U "0.2"; U "0.3"; U "0.4"] |};
   rule (U "Multibag-Reference") false false;
   rule (U "Multibag-Tag-Directory") false false;
   rule (U "Multibag-Head-Version") head false;
   rule (U "Multibag-Head-Deprecates") false true;
   rule (U "Bag-Group-Identifier") false false;
   rule (U "Internal-Sender-Identifier") false false;
   rule (U "Internal-Sender-Description") false false].

(** multibag-bagit-profile.json *)
Definition member_profile : profile :=
  {| pf_tags := profile_tags false; pf_bagit := [U "0.97"]; pf_files := [] |}.

(** multibag-head-bagit-profile.json *)
Definition head_profile : profile :=
  {| pf_tags := profile_tags true; pf_bagit := [U "0.97"];
     pf_files := [U "multibag/group-members.txt"; U "multibag/group-directory.txt"] |}.

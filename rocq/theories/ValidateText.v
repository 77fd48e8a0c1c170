(** * What validation says in words

    Models the texts of issues and of [MultibagValidationError]
    (/repo/multibag/validate/base.py 132-165 and 352-389). The base class
    [BagValidationError] of the Library of Congress package is outside of
    /repo and modelled from memory. *)

Require Import String NArith Bool List PeanoNat.
From Verif Require Import PyBase Validate.
Import ListNotations.
Open Scope N_scope.

(** base.py 26 with [upper()] *)
Definition type_label (ty : N) : pystr :=
  if ty =? ERROR then U "ERROR" else if ty =? WARN then U "WARNING" else U "RECOMMENDATION".

(** base.py 132-143, [summary] *)
Definition summary (i : issue) : pystr :=
  (if i_passed i then U "PASSED" else type_label (i_type i)) ++ U ": multibag " ++ i_pver i ++ U " " ++ i_label i ++
  match i_spec i with [] => [] | s => U ": " ++ s end.

(** base.py 145-159, [description] *)
Definition LFPAD : pystr := [10] ++ U "   ".
Definition description (i : issue) : pystr :=
  summary i ++ match i_comments i with [] => [] | l => LFPAD ++ join LFPAD l end.

(** base.py 161-165, [__str__] of an issue *)
Definition issue_str (i : issue) : pystr :=
  summary i ++ match i_comments i with [] | [] :: _ => [] | c :: _ => U " (" ++ c ++ U ")" end.

(** base.py 362-376, the message and the details of the exception *)
Definition error_message (r : vres) : pystr * list pystr :=
  match failed ALL r with
  | [] => (U "Unknown Multibag validation failure", [])
  | [i] => (summary i, i_comments i)
  | l => (dec (N.of_nat (length l)) ++ U " validation errors detected", map description l)
  end.

(** base.py 378-389, [__str__] of the exception; the first case is that of
    the base class. *)
Definition error_text (r : vres) : pystr :=
  let '(message, details) := error_message r in
  if Nat.ltb (count_failed ALL r) 2
  then match details with [] => message | _ => message ++ U ": " ++ join (U "; ") details end
  else message ++ (if Nat.ltb 3 (count_failed ALL r) then U ", including" else []) ++ U ":" ++
       concat (map (fun i => [10; 10] ++ U " * " ++ description i) (firstn 3 (failed ALL r))).

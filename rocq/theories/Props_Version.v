(** * C01, C62: versions *)

Require Import String NArith ZArith Bool List.
From Verif Require Import PyBase PyFacts Version VersionProofs.
Import ListNotations.
Open Scope Z_scope.

(** C01: on version strings exactly one of [<], [==], [>] holds. *)
Theorem C01_trichotomy : forall a b : pystr,
  let lt x y := v_lt (vstr x) (vstr y) = Ok true in
  let eq x y := v_eq (vstr x) (vstr y) = true in
  (lt a b /\ ~ eq a b /\ ~ lt b a) \/ (~ lt a b /\ eq a b /\ ~ lt b a) \/
  (~ lt a b /\ ~ eq a b /\ lt b a).
Proof. exact total_order. Qed.
Print Assumptions C01_trichotomy.

(** C01: [<] is transitive. *)
Theorem C01_transitive : forall a b c : pystr,
  v_lt (vstr a) (vstr b) = Ok true -> v_lt (vstr b) (vstr c) = Ok true ->
  v_lt (vstr a) (vstr c) = Ok true.
Proof. exact transitive. Qed.
Print Assumptions C01_transitive.

(** C01: the other operators never raise and are the matching combinations. *)
Theorem C01_operators : forall a b : pystr,
  exists l, v_lt (vstr a) (vstr b) = Ok l /\
    v_le (vstr a) (vstr b) = Ok (l || v_eq (vstr a) (vstr b)) /\
    v_ge (vstr a) (vstr b) = Ok (negb l) /\
    v_gt (vstr a) (vstr b) = Ok (negb (l || v_eq (vstr a) (vstr b))) /\
    v_gt (vstr a) (vstr b) = v_lt (vstr b) (vstr a) /\
    v_ge (vstr a) (vstr b) = v_le (vstr b) (vstr a) /\
    v_ne (vstr a) (vstr b) = negb (v_eq (vstr a) (vstr b)).
Proof. exact operators. Qed.
Print Assumptions C01_operators.

(** C01: dotted decimal versions compare field by field as numbers, and a
    proper prefix is smaller ([lex] is the lexicographic order). *)
Theorem C01_dotted_lt : forall ns ms : list N, ns <> [] -> ms <> [] ->
  (v_lt (vstr (join [DOT] (map dec ns))) (vstr (join [DOT] (map dec ms))) = Ok true
   <-> lex (map Z.of_N ns) (map Z.of_N ms)).
Proof. exact dotted_lt. Qed.
Print Assumptions C01_dotted_lt.

Theorem C01_dotted_eq : forall ns ms : list N, ns <> [] -> ms <> [] ->
  (v_eq (vstr (join [DOT] (map dec ns))) (vstr (join [DOT] (map dec ms))) = true <-> ns = ms).
Proof. exact dotted_eq. Qed.
Print Assumptions C01_dotted_eq.

(** C01: any two version strings compare as the integer lists of their
    fields; a field holding a character that cannot occur in an integer
    counts as -1. *)
Theorem C01_general : forall a b : pystr,
  v_lt (vstr a) (vstr b) = Ok true <->
  lex (map _2int (split_on DOT a)) (map _2int (split_on DOT b)).
Proof. exact v_lt_iff. Qed.
Print Assumptions C01_general.

Theorem C01_nonnumeric : forall w c,
  In c (strip w) -> is_digit c = false -> c <> 95%N -> c <> 45%N -> c <> 43%N ->
  _2int w = -1.
Proof. exact nonnumeric_field. Qed.
Print Assumptions C01_nonnumeric.

Example C01_ex_dotted : join [DOT] (map dec [0; 10]%N) = U "0.10".
Proof. reflexivity. Qed.
Example C01_ex_numeric : v_lt (vstr (U "0.9")) (vstr (U "0.10")) = Ok true.
Proof. reflexivity. Qed.
Example C01_ex_prefix : v_lt (vstr (U "1.0")) (vstr (U "1.0.0")) = Ok true.
Proof. reflexivity. Qed.
Example C01_ex_nonnum : v_lt (vstr (U "1.0b")) (vstr (U "1.0")) = Ok true.
Proof. reflexivity. Qed.

(** C62: the same version given as a tuple and as a string should be equal,
    and comparing them should work. It is not so: [fields] is a tuple in one
    and a list in the other. *)
Theorem C62_tuple_string_refuted : exists s l,
  version_str (vstr s) = version_str (mk_version (VTup l)) /\
  v_eq (vstr s) (mk_version (VTup l)) = false /\
  v_lt (vstr s) (mk_version (VTup l)) = Err EType.
Proof. exists (U "3.3"), [3; 3]. vm_compute. auto. Qed.
Print Assumptions C62_tuple_string_refuted.

(** C62, the part that holds: tuples among themselves are ordered like
    strings. *)
Theorem C62_tuples_partial : forall l m : list Z,
  (v_lt (mk_version (VTup l)) (mk_version (VTup m)) = Ok true <-> lex l m) /\
  (v_eq (mk_version (VTup l)) (mk_version (VTup m)) = true <-> l = m).
Proof. exact tuple_order. Qed.
Print Assumptions C62_tuples_partial.

(** What may be left of a list when saving it was stopped: the first entries,
    and perhaps the beginning of the next one. *)
Require Import NArith List Bool.
From Verif Require Import PyBase Tsv.
Import ListNotations.

(** [a] is a beginning of [s], but not empty. *)
Definition beginning (a s : pystr) : Prop := a <> [] /\ exists t, s = a ++ t.

(** What is left of the description of a member: the beginning of its name
    (less white space at its end) and nothing else, or its name with at most
    the beginning of its URI. *)
Definition member_rest (m m' : minfo) : Prop :=
  (exists n, beginning n (m_name m) /\
     m' = {| m_name := strip n; m_uri := None; m_comment := None; m_info := [] |}) \/
  (m_name m' = m_name m /\ m_info m' = [] /\
   (m_uri m' = None \/ exists u u', m_uri m = Some u /\ beginning u' u /\ m_uri m' = Some (strip u'))).

(** What is left of an entry of the table of files: the path, and the
    beginning of the name of its bag. *)
Definition entry_rest (kv kv' : pystr * pystr) : Prop :=
  fst kv' = fst kv /\ exists b, beginning b (snd kv) /\ snd kv' = strip b.

(** What is left of a path. *)
Definition path_rest (p p' : pystr) : Prop := exists q, beginning q p /\ p' = strip q.

(** What is left of a list, [rest] saying what is left of an entry. *)
Definition list_rest {A} (rest : A -> A -> Prop) (l l' : list A) : Prop :=
  exists k, (k <= length l)%nat /\
    (l' = firstn k l \/ exists x x', nth_error l k = Some x /\ rest x x' /\ l' = firstn k l ++ [x']).

(** What several handles on one head bag should make together: an aggregation
    that is changed by the edits of those who save, in the order of saving. *)
Require Import String NArith List Bool.
From Verif Require Import PyBase Tsv HeadBag Handles.
Import ListNotations.

(** The data of the aggregation: the member bags in order, the table that says
    in which bag a file is, and the deleted paths (as a set). *)
Record agg := mkagg {
  g_members : list minfo;
  g_files : dict pystr;
  g_deleted : list pystr
}.

Inductive edit : Type :=
| Add (m : minfo)
| Remove (b : pystr)
| File (p b : pystr)
| Unfile (p : pystr)
| Delete (p : pystr)
| Undelete (p : pystr).

(** Without bag [b]: it is not a member, no file is in it, and the marks of
    deletion of files that were in it are gone. *)
Definition without (b : pystr) (g : agg) : agg :=
  mkagg (filter (fun m => negb (streq (m_name m) b)) (g_members g))
        (filter (fun kv => negb (streq (snd kv) b)) (g_files g))
        (filter (fun p => match od_get p (g_files g) with
                          | Some x => negb (streq x b)
                          | None => true
                          end) (g_deleted g)).

Definition edited (e : edit) (g : agg) : agg :=
  match e with
  | Add m => let g' := without (m_name m) g in mkagg (g_members g' ++ [m]) (g_files g') (g_deleted g')
  | Remove b => without b g
  | File p b => mkagg (g_members g) (od_set p b (g_files g)) (g_deleted g)
  | Unfile p => mkagg (g_members g) (od_del p (g_files g)) (g_deleted g)
  | Delete p => mkagg (g_members g) (g_files g) (p :: g_deleted g)
  | Undelete p => mkagg (g_members g) (g_files g) (filter (fun x => negb (streq x p)) (g_deleted g))
  end.

(** The call for an edit. *)
Definition edit_call (e : edit) : call :=
  match e with
  | Add m => KAdd m
  | Remove b => KRemove b
  | File p b => KFile p b
  | Unfile p => KUnfile p
  | Delete p => KDelete p
  | Undelete p => KUndelete p
  end.

(** Working in turns. A handle begins by reading everything again (looking up
    any path at all), makes its changes and saves everything. In between, the
    others may ask and may change what they have in memory, but do not save.
    Whoever begins next takes the turn; what was not saved by then is lost. *)
Inductive step : Type :=
| Open (r : reader)
| Loose (i : nat) (k : call)
| Begin (i : nat) (p : pystr)
| Edit (i : nat) (e : edit)
| Commit (i : nat).

Definition calls_of (s : step) : list event :=
  match s with
  | Open r => [EOpen r]
  | Loose i k => [ECall i k]
  | Begin i p => [ECall i (KMembers true); ECall i (KLookup p true); ECall i (KDeleted true)]
  | Edit i e => [ECall i (edit_call e)]
  | Commit i => [ECall i KSaveMembers; ECall i KSaveLookup; ECall i KSaveDeleted]
  end.

(** For each result of the calls, whether the call was made by the one whose
    turn it is. *)
Definition in_turn (s : step) : list bool :=
  match s with
  | Open _ => []
  | Loose _ _ => [false]
  | Begin _ _ => [true; true; true]
  | Edit _ _ => [true]
  | Commit _ => [true; true; true]
  end.

(** [n] is the number of handles, [turn] is whose turn it is. *)
Fixpoint orderly (n : nat) (turn : option nat) (l : list step) : Prop :=
  match l with
  | [] => True
  | Open _ :: t => orderly (S n) turn t
  | Loose i k :: t =>
      (match k with KSaveMembers | KSaveLookup | KSaveDeleted => False | _ => True end) /\
      turn <> Some i /\ orderly n turn t
  | Begin i _ :: t => (i < n)%nat /\ orderly n (Some i) t
  | Edit i _ :: t => turn = Some i /\ orderly n turn t
  | Commit i :: t => turn = Some i /\ orderly n turn t
  end.

(** What should be on disk in the end. [pending] is what the one whose turn it
    is has in memory. *)
Fixpoint expected (saved pending : agg) (l : list step) : agg :=
  match l with
  | [] => saved
  | Begin _ _ :: t => expected saved saved t
  | Edit _ e :: t => expected saved (edited e pending) t
  | Commit _ :: t => expected pending pending t
  | _ :: t => expected saved pending t
  end.

(** * Several handles on one head bag: multibag/access/multibag.py 143-752

    A head bag can be opened more than once, by one program or by several.
    Each handle has tags and caches of its own; the files are shared. The
    methods are those of [HeadBag.v]. Calls come one after another: two calls
    never overlap. *)
Require Import String NArith Bool List.
From Verif Require Import PyBase Version Tsv Fs HeadBag.
Import ListNotations.

(** What an object of Python has for itself (multibag.py 149-158): its tags and
    the three caches, and how it reads text (directory or read-only bag). *)
Record handle := mkha {
  ha_info : infod;
  ha_mem : option (list minfo);
  ha_lu : option (dict pystr);
  ha_del : option (list pystr);
  ha_reader : reader
}.

(** The bag on disk, and the handles, numbered from 0 on. *)
Record world := mkw {
  w_name : pystr;
  w_tree : tree;
  w_dinfo : infod;
  w_handles : list handle
}.

(** A handle with the files on disk is a head bag of [HeadBag.v]. *)
Definition view (w : world) (a : handle) : hb :=
  mkhb (w_name w) (w_tree w) (w_dinfo w) (ha_info a) (ha_mem a) (ha_lu a) (ha_del a) (ha_reader a).
Definition own (h : hb) : handle :=
  mkha (hb_info h) (hb_mem h) (hb_lu h) (hb_del h) (hb_reader h).

Fixpoint put {A} (i : nat) (x : A) (l : list A) : list A :=
  match l, i with
  | [], _ => []
  | _ :: t, O => x :: t
  | y :: t, S k => y :: put k x t
  end.

(** Calling a method of handle [i]. There is no result if there is no such
    handle. *)
Definition on {A} (i : nat) (m : M A) (w : world) : world * option (res A) :=
  match nth_error (w_handles w) i with
  | None => (w, None)
  | Some a =>
      let '(h, r) := m (view w a) in
      (mkw (w_name w) (hb_tree h) (hb_dinfo h) (put i (own h) (w_handles w)), Some r)
  end.

(** Opening the bag once more (multibag.py 149-158). *)
Definition open_another (r : reader) (w : world) : world :=
  mkw (w_name w) (w_tree w) (w_dinfo w)
      (w_handles w ++ [own (open_hb (w_name w) (w_tree w) (w_dinfo w) r)]).

(** The calls: queries, changes in memory, and saving. *)
Inductive call : Type :=
| KMembers (reread : bool)
| KLookup (p : pystr) (reread : bool)
| KFiles (b : pystr)
| KDeleted (reread : bool)
| KAdd (m : minfo)
| KRemove (b : pystr)
| KFile (p b : pystr)
| KUnfile (p : pystr)
| KDelete (p : pystr)
| KUndelete (p : pystr)
| KSaveMembers
| KSaveLookup
| KSaveDeleted.

Inductive answer : Type :=
| AMembers (l : list minfo)
| ABag (b : option pystr)
| APaths (l : list pystr)
| ADone.

Definition ret_as {A} (f : A -> answer) (m : M A) : M answer :=
  bindM m (fun a => retM (f a)).

(** multibag.py 367-381, 447-458, 282-298, 314-321, 383-407, 500-523, 460-481,
    483-498, 641-654, 656-671, 429-445, 609-628, 674-690, in this order. *)
Definition call_run (k : call) : M answer :=
  match k with
  | KMembers re => ret_as AMembers (member_bags re)
  | KLookup p re => ret_as ABag (lookup_file p re)
  | KFiles b => ret_as APaths (files_in_member b)
  | KDeleted re => ret_as APaths (deleted_paths re)
  | KAdd m => ret_as (fun _ => ADone) (add_member_bag m true)
  | KRemove b => ret_as (fun _ => ADone) (remove_member_bag b)
  | KFile p b => ret_as (fun _ => ADone) (add_file_lookup p b)
  | KUnfile p => ret_as (fun _ => ADone) (remove_file_lookup p)
  | KDelete p => ret_as (fun _ => ADone) (set_deleted p)
  | KUndelete p => ret_as (fun _ => ADone) (unset_deleted p)
  | KSaveMembers => ret_as (fun _ => ADone) save_member_bags
  | KSaveLookup => ret_as (fun _ => ADone) save_file_lookup
  | KSaveDeleted => ret_as (fun _ => ADone) save_deleted
  end.

Inductive event : Type :=
| EOpen (r : reader)
| ECall (i : nat) (k : call).

(** A history of calls with their results. *)
Fixpoint run (l : list event) (w : world) : world * list (option (res answer)) :=
  match l with
  | [] => (w, [])
  | EOpen r :: t => run t (open_another r w)
  | ECall i k :: t =>
      let '(w1, a) := on i (call_run k) w in
      let '(w2, as_) := run t w1 in
      (w2, a :: as_)
  end.

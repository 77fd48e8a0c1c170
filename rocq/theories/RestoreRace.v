(** * Restorations that run at the same time into one destination

    restore.py 150-327 once more, as a program that acts on the destination step
    by step, so that several processes can take turns. A step is one look at the
    destination (os.path.exists, os.stat, the reading of the manifests) or one
    change of it (the copying or writing of one file, os.makedirs, shutil.rmtree).
    Simplifications: nobody sees a file half written; a step that raises an
    exception changes nothing; the text of a tag manifest is computed in the step
    that writes it; the directory of the destination is there (if it is not then os.mkdir of line 113 raises an
    exception in all processes but one, which is like not starting them). The
    member bags do not change. *)

Require Import String NArith Bool List PeanoNat.
From Verif Require Import PyBase Tsv Fs HeadBag BagIt Split SplitApply Restore.
Import ListNotations.
Open Scope N_scope.

(** What is still to be done: nothing, because the process has ended or raised an
    exception, or a step, which gives what is to be done next. *)
Inductive prog : Type :=
| Ret (r : res unit)
| Act (f : tree -> res (tree * prog)).

Definition reading {A} (f : tree -> res A) (k : A -> prog) : prog :=
  Act (fun d => let? a := f d in Ok (d, k a)).
Definition writing (f : tree -> res tree) (k : prog) : prog :=
  Act (fun d => let? d' := f d in Ok (d', k)).
Definition at_once {A} (r : res A) (k : A -> prog) : prog :=
  match r with Ok a => k a | Err e => Ret (Err e) end.

(** ** Copying *)

(** restore.py 190 and 192-219: one turn of the loops *)
Definition item_prog (src : tree) (i : item) (updated : list pystr) (k : list pystr -> prog) : prog :=
  match i with
  | IRoot d => reading (fun dest => if exists_ d dest then Ok tt else Err EOS) (fun _ => k updated)
  | IFile d f =>
      let p := pjoin d f in
      reading (fun dest => Ok (exists_ p dest)) (fun there =>
        if there then k updated
        else writing (fun dest => match replicate_ro CopyDone src dest p with
                                  | (dest, Ok _) => Ok dest
                                  | (_, Err e) => Err e
                                  end)
             (k (updated ++ [sjoin d f])))
  | IDir d f =>
      let p := pjoin d f in
      reading (fun dest => Ok (exists_ p dest)) (fun there =>
        if there then k updated
        else writing (fun dest => if exists_ p dest then Err EOS else makedirs p dest) (k updated))
  end.
Fixpoint items_prog (src : tree) (l : list item) (updated : list pystr) (k : list pystr -> prog) : prog :=
  match l with
  | [] => k updated
  | i :: l => item_prog src i updated (fun updated => items_prog src l updated k)
  end.

(** restore.py 243-256: the two files of one algorithm, for all of them *)
Fixpoint manifests_prog (m : by_alg) (k : prog) : prog :=
  match m with
  | [] => k
  | ad :: m =>
      writing (write_manifest K_man (fst ad) (filter (fun ph => is_payload (fst ph)) (snd ad)))
        (writing (write_manifest K_tag (fst ad) (filter (fun ph => negb (is_payload (fst ph))) (snd ad)))
           (manifests_prog m k))
  end.

(** restore.py 227-256, [_update_manifests] *)
Definition update_prog (v : env) (es : entries) (updated : list pystr) (k : prog) : prog :=
  reading (fun dest => let? (_, des) := open_bag v IoText (e_dest v) dest in
                       foldM keep_entry des (fold_left (record_updated es) updated []))
    (fun m => manifests_prog m k).

(** restore.py 174-225, [_restore_from] *)
Definition from_prog (v : env) (skip : list pystr) (b : rbag) (k : prog) : prog :=
  if streq (rb_loc b) (e_dest v) then k
  else at_once (open_bag v IoText (rb_loc b) (rb_tree b)) (fun oe =>
    items_prog (rb_tree b) (items_of skip (rb_tree b)) [] (fun updated =>
      match updated with
      | [] => k
      | _ => update_prog v (snd oe) updated k
      end)).

(** restore.py 306-307 with 150-163 *)
Fixpoint members_prog (v : env) (skip names : list pystr) (k : prog) : prog :=
  match names with
  | [] => k
  | n :: names =>
      match e_find v n with
      | None => Ret (Err EOS)
      | Some b => from_prog v skip b (members_prog v skip names k)
      end
  end.

(** ** The end *)

(** restore.py 310-311 with 259-282, [restore_fetch] *)
Definition fetch_prog (v : env) (names : list pystr) (k : prog) : prog :=
  match names with
  | [] => k
  | _ => reading (fun dest => foldM (fetch_of v dest) names []) (fun d =>
           match d with
           | [] => k
           | _ => writing (write_file F_fetch (flat_map snd d)) k
           end)
  end.

(** bagit.Bag.save with manifests=False (from memory) *)
Fixpoint tagmanifests_prog (v : env) (algs : list pystr) (k : prog) : prog :=
  match algs with
  | [] => k
  | a :: algs => writing (fun t => write_file (man_name K_tag a) (tagmanifest v a t) t) (tagmanifests_prog v algs k)
  end.
Definition save_prog (v : env) (algs : list pystr) (i : infod) (k : prog) : prog :=
  writing (write_file F_baginfo (info_text i))
    (tagmanifests_prog v algs (reading (open_bag v Codecs (e_dest v)) (fun _ => k))).

(** restore.py 321-327: the sizes *)
Definition sizes_prog (v : env) (update_sizes : bool) (bsize : tree -> pystr) (algs : list pystr) (info : infod) : prog :=
  if update_sizes then
    reading calc_oxum (fun sn =>
      let info := od_set T_OXUM (IStr (dec (fst sn) ++ [DOT] ++ dec (snd sn))) info in
      save_prog v algs info
        (reading (fun dest => Ok (bsize dest)) (fun s =>
          save_prog v algs (od_set T_BagSize (IStr s) info) (Ret (Ok tt)))))
  else Ret (Ok tt).

(** restore.py 313-327 *)
Definition finish_prog (v : env) (update_sizes remove_tags : bool) (bsize : tree -> pystr) : prog :=
  reading (fun dest => let? (info, _) := open_bag v Codecs (e_dest v) dest in
                       let? algs := algorithms v dest in
                       Ok (info, algs))
    (fun ia =>
       if remove_tags then
         let info := fold_left (fun i k => od_del k i) mb_keys (fst ia) in
         writing (rmtree MULTIBAG) (save_prog v (snd ia) info (sizes_prog v update_sizes bsize (snd ia) info))
       else sizes_prog v update_sizes bsize (snd ia) (fst ia)).

(** restore.py 284-327, [restore] *)
Definition restore_prog (v : env) (update_sizes remove_tags : bool) (bsize : tree -> pystr) (ro : bool) (h : hb) (loc : pystr) : prog :=
  at_once (head_lists ro h) (fun sm =>
    let rest := from_prog v (fst sm) {| rb_loc := loc; rb_tree := hb_tree h |}
      (members_prog v (fst sm) (others h (snd sm))
        (fetch_prog v (others h (snd sm)) (finish_prog v update_sizes remove_tags bsize))) in
    match read (sjoin MULTIBAG F_agginfo) (hb_tree h) with
    | Some c => writing (write_file F_baginfo (decode (hb_reader h) c)) rest
    | None => rest
    end).

(** ** Processes *)

(** One step of restore.py 150-327 on the destination [d]. *)
Definition turn (p : prog) (d : tree) : tree * prog :=
  match p with
  | Ret r => (d, Ret r)
  | Act f => match f d with Ok dp => dp | Err e => (d, Ret (Err e)) end
  end.

(** All the steps of restore.py 150-327, without others. *)
Fixpoint run (p : prog) (d : tree) : tree * res unit :=
  match p with
  | Ret r => (d, r)
  | Act f => match f d with Ok (d, p) => run p d | Err e => (d, Err e) end
  end.

(** The steps of restore.py 150-327 of several processes, in the order of
    [sched]: the numbers of the processes whose turn it is. *)
Definition set_prog (i : nat) (p : prog) (ps : nat -> prog) : nat -> prog := fun j => if Nat.eqb j i then p else ps j.
Fixpoint contend (sched : list nat) (d : tree) (ps : nat -> prog) : tree * (nat -> prog) :=
  match sched with
  | [] => (d, ps)
  | i :: sched => let (d, p) := turn (ps i) d in contend sched d (set_prog i p ps)
  end.

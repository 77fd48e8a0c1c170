(** Test datasets: testing/mkdata.py 9-256, [mkdataset] and [DatasetMaker].

    What [random.randrange] draws is given as a list of numbers: the results
    hold for every list. The destination directory is a tree; that it may
    have to be made first (lines 70-75), and that its parent has to exist
    (lines 42-44), is left out. *)
Require Import String NArith ZArith List Bool.
From Verif Require Import PyBase PyFloat MkData Fs Split SplitApply.
Import ListNotations.
Open Scope Z_scope.

Record world := { w_tree : tree; w_draws : list N }.

(** A run ends with a result or an exception, or it is at a point where it
    asks for another random number and there are no more. *)
Inductive run (A : Type) : Type :=
| Done (a : A) (w : world)
| Raise (e : exn) (w : world)
| More (w : world).
Arguments Done {A}. Arguments Raise {A}. Arguments More {A}.

Definition andthen {A B} (r : run A) (f : A -> world -> run B) : run B :=
  match r with Done a w => f a w | Raise e w => Raise e w | More w => More w end.
Notation "'do' x , w <- r ; k" := (andthen r (fun x w => k)) (at level 60, x pattern, w name, right associativity).

(** A step that uses no random numbers. *)
Definition on_tree {A} (f : res A) (w : world) : run A :=
  match f with Ok a => Done a w | Err e => Raise e w end.

(** ** Names *)

(** ["%03x" % n] *)
Definition hex_digit (n : N) : N := if (n <? 10)%N then (48 + n)%N else (87 + n)%N.
Fixpoint hex_from (fuel : nat) (n : N) (l : pystr) : pystr :=
  match fuel with
  | O => l
  | S k => let l := hex_digit (n mod 16) :: l in
           if (n / 16 =? 0)%N then l else hex_from k (n / 16) l
  end.
Definition hex (n : N) : pystr := hex_from (S (N.to_nat (N.size n))) n [].
Definition hex3 (n : N) : pystr := let s := hex n in repeat 48%N (3 - length s) ++ s.

(** mkdata.py 95-109, [_mkfilename] and [_mkfid]: names are drawn until one
    is not there yet. [ord] is 10 for good: the counter of line 98 is never
    changed. [k] is the number of files times 10; it is positive (lines
    118-119). *)
Fixpoint pick (k : N) (under suffix : pystr) (t : tree) (draws : list N) : option (pystr * list N) :=
  match draws with
  | [] => None
  | d :: l => let out := pjoin under (hex3 (d mod k) ++ suffix) in
              if exists_ out t then pick k under suffix t l else Some (out, l)
  end.

Definition mkfilename (k : N) (under suffix : pystr) (w : world) : run pystr :=
  match pick k under suffix (w_tree w) (w_draws w) with
  | None => More {| w_tree := w_tree w; w_draws := [] |}
  | Some (out, l) => Done out {| w_tree := w_tree w; w_draws := l |}
  end.

(** A step that changes the tree. *)
Definition change (f : tree -> res tree) (w : world) : run unit :=
  match f (w_tree w) with
  | Ok t => Done tt {| w_tree := t; w_draws := w_draws w |}
  | Err e => Raise e w
  end.

(** mkdata.py 77-82, [_create_dir] *)
Definition create_dir (k : N) (under : pystr) (w : world) : run pystr :=
  do out, w <- mkfilename k under (U "_d") w;
  do _, w <- change (makedirs out) w;
  Done out w.

(** mkdata.py 84-93, [_create_file]. The file is opened after the logarithm
    was taken, so nothing is made if there is none. *)
Definition create_one (k : N) (size : Z) (under : pystr) (w : world) : run pystr :=
  do out, w <- mkfilename k under (U "_" ++ dec_z size) w;
  do _, w <- change (fun t => if is_dir under t then Ok t else makedirs under t) w;
  do c, w <- on_tree (create_file size) w;
  do _, w <- change (write_file out c) w;
  Done out w.

(** mkdata.py 241-256, [_fill_with_files]: the numbers of bytes and files. An
    exception of the iterator comes with the first size. *)
Fixpoint fill_sizes (k : N) (dir : pystr) (maxsize maxfiles : Z) (l : list Z) (nb nf : Z) (w : world)
  : run (Z * Z) :=
  match l with
  | [] => Done (nb, nf) w
  | sz :: l =>
      if (maxsize <? nb + sz) || (maxfiles <=? nf) then Done (nb, nf) w
      else do f, w <- create_one k sz dir w;
           fill_sizes k dir maxsize maxfiles l (nb + Z.of_N (size_of f (w_tree w))) (nf + 1) w
  end.
Definition fill_with_files (k : N) (dir : pystr) (maxsize maxfiles : Z) (l : res (list Z)) (w : world)
  : run (Z * Z) :=
  do l, w <- on_tree l w; fill_sizes k dir maxsize maxfiles l 0 0 w.

(** ** Plans *)

(** The type of a set of files: uniform, an inventory of sizes with the
    number of files of each, or something that is not an iterator of sizes
    (an inventory without sizes is a TypeError, an unknown type a
    ValueError). *)
Inductive fkind : Type :=
| Uniform
| Inventory (inv : list (Z * Z))
| NotAKind (e : exn).

(** A set of files in a plan. *)
Record fspec := { f_size : option Z; f_count : option Z; f_reps : Z; f_kind : fkind }.

(** A directory in a plan: size and number of files, repetitions, sets of
    files, and directories in it. A number in place of the list of
    directories stands for that many empty specifications (lines 121-122). *)
Inductive dspec : Type :=
| DSpec (size count : option Z) (reps : Z) (fs : list fspec) (ds : list dspec).
Definition d_size (d : dspec) := let '(DSpec s _ _ _ _) := d in s.
Definition d_count (d : dspec) := let '(DSpec _ c _ _ _) := d in c.
Definition d_reps (d : dspec) := let '(DSpec _ _ r _ _) := d in r.

(** mkdata.py 348-352, [InventorySizeIterator.iterate] *)
Definition inventory (inv : list (Z * Z)) : list Z :=
  flat_map (fun sn => repeat (fst sn) (Z.to_nat (snd sn)))
           (rev (isort (fun a b => fst a <=? fst b) inv)).

(** The sizes that the iterator of a set of files gives. *)
Definition sizes_of (f : fspec) : res (list Z) :=
  match f_kind f with
  | Uniform => iterate (f_size f) (f_count f)
  | Inventory inv => Ok (inventory inv)
  | NotAKind e => Err e
  end.

Definition sum_Z (l : list Z) : Z := fold_right Z.add 0 l.

(** mkdata.py 180-192: size and number of files of a set of files, if they
    are known. *)
Definition known (f : fspec) : res (option (Z * Z)) :=
  match sizes_of f with
  | Ok l => Ok (Some (sum_Z l, Z.of_nat (length l)))
  | Err ERuntime => Ok None
  | Err e => Err e
  end.

(** mkdata.py 206-226: what is not claimed is shared out. [xs]: claims and
    repetitions; [dflt]: for when the iterator has ended. *)
Definition claimed (xs : list (option Z * Z)) : Z :=
  sum_Z (map (fun x => match fst x with Some s => s * snd x | None => 0 end) xs).
Fixpoint assign (xs : list (option Z * Z)) (l : list Z) (dflt : Z) : list Z :=
  match xs with
  | [] => []
  | (Some s, _) :: xs => s :: assign xs l dflt
  | (None, _) :: xs => match l with
                       | [] => dflt :: assign xs [] dflt
                       | s :: l => s :: assign xs l dflt
                       end
  end.
Definition share (total : Z) (xs : list (option Z * Z)) (dflt : Z) : res (list Z) :=
  match filter (fun x => match fst x with None => true | Some _ => false end) xs with
  | [] => Ok (assign xs [] dflt)
  | nd => let? l := iterate (Some (total - claimed xs)) (Some (sum_Z (map snd nd))) in
          Ok (assign xs l dflt)
  end.

(** What is left: sizes count for each repetition (lines 185, 195, 215), but
    numbers of files that were shared out only once (line 226). *)
Definition size_left (total : Z) (xs : list (option Z * Z)) (ss : list Z) : Z :=
  total - sum_Z (map (fun xs => snd (fst xs) * snd xs) (combine xs ss)).
Definition count_left (total : Z) (xs : list (option Z * Z)) (cs : list Z) : Z :=
  total - sum_Z (map (fun xc => match fst (fst xc) with
                                | Some c => c * snd (fst xc)
                                | None => snd xc
                                end) (combine xs cs)).

(** The iterator of a set of files after lines 214 and 225. *)
Definition targeted (f : fspec) (sc : Z * Z) : fspec :=
  {| f_size := Some (fst sc); f_count := Some (snd sc); f_reps := f_reps f; f_kind := f_kind f |}.

Fixpoint mapM {A B} (f : A -> res B) (l : list A) : res (list B) :=
  match l with
  | [] => Ok []
  | x :: l => let? y := f x in let? ys := mapM f l in Ok (y :: ys)
  end.

Definition check_kind (f : fspec) : res unit :=
  match f_kind f with NotAKind e => Err e | _ => Ok tt end.

(** mkdata.py 161-238, [_distribute]: the sets of files with their size and
    number, and the size and number of each directory. *)
Definition distribute (ts tc : Z) (fs : list fspec) (ds : list dspec)
  : res (list (fspec * (Z * Z)) * list (Z * Z)) :=
  let? _ := mapM check_kind fs in
  let? ks := mapM known fs in
  let xs := map (fun fk => (option_map fst (snd fk), f_reps (fst fk))) (combine fs ks)
            ++ map (fun d => (d_size d, d_reps d)) ds in
  let xc := map (fun fk => (option_map snd (snd fk), f_reps (fst fk))) (combine fs ks)
            ++ map (fun d => (d_count d, d_reps d)) ds in
  let? ss := share ts xs 0 in
  let? cs := share tc xc 1 in
  let n := length fs in
  let fsc := map (fun x => let '(f, k, sc) := x in
                           (match k with Some _ => f | None => targeted f sc end, sc))
                 (combine (combine fs ks) (combine (firstn n ss) (firstn n cs))) in
  let nb := size_left ts xs ss in
  let nf := count_left tc xc cs in
  let nf := if nf <=? 0 then 1 else nf in
  let more := if 0 <? nb
              then [({| f_size := Some nb; f_count := Some nf; f_reps := 1; f_kind := Uniform |}, (nb, nf))]
              else [] in
  Ok (fsc ++ more, combine (skipn n ss) (skipn n cs)).

(** ** Filling a directory *)

(** A loop over [range(n)]. *)
Fixpoint times {S} (n : nat) (f : S -> world -> run S) (s : S) (w : world) : run S :=
  match n with
  | O => Done s w
  | S k => do s, w <- f s w; times k f s w
  end.

Definition plus2 (a b : Z * Z) : Z * Z := (fst a + fst b, snd a + snd b).

(** mkdata.py 126-138 *)
Fixpoint fill_files (k : N) (dir : pystr) (ts tc : Z) (l : list (fspec * (Z * Z))) (n : Z * Z) (w : world)
  : run (Z * Z) :=
  match l with
  | [] => Done n w
  | (f, (s, c)) :: l =>
      if (ts <? fst n) || (tc <? snd n) then Done n w
      else
        do n, w <- times (Z.to_nat (f_reps f))
                         (fun n w => do m, w <- fill_with_files k dir s c (sizes_of f) w; Done (plus2 n m) w) n w;
        fill_files k dir ts tc l n w
  end.

(** mkdata.py 111-153, [_fill_dir], for the sets of files and the directories
    in [d]. Simplification: each repetition of a directory starts from its
    specification as given; the code starts from what [_distribute] made of
    it, which comes to the same unless a number of repetitions is zero. *)
Fixpoint fill_dir (k : N) (d : dspec) (dir : pystr) (ts tc : Z) (w : world) {struct d} : run (Z * Z) :=
  match d with
  | DSpec _ _ _ fs ds =>
      if (ts <=? 0) || (tc <=? 0) then Done (0, 0) w
      else
        do fd, w <- on_tree (distribute ts tc fs ds) w;
        do n, w <- fill_files k dir ts tc (fst fd) (0, 0) w;
        (fix go (ds : list dspec) (scs : list (Z * Z)) (n : Z * Z) (w : world) {struct ds} : run (Z * Z) :=
           match ds, scs with
           | d :: ds, (s, c) :: scs =>
               if (ts <? fst n) || (tc <? snd n) then Done n w
               else
                 do n, w <- times (Z.to_nat (d_reps d))
                     (fun n w =>
                        if (ts <? fst n) || (tc <? snd n) then Done n w
                        else
                          do sub, w <- create_dir k dir w;
                          do m, w <- fill_dir k d sub s c w;
                          Done (plus2 n m) w) n w;
                 go ds scs n w
           | _, _ => Done n w
           end) ds (snd fd) n w
  end.

(** mkdata.py 9-33 and 60-68, [mkdataset]; [plan]: sets of files and
    directories, [None] for a plan that is missing or empty. *)
Definition mkdataset (ts tc : Z) (plan : option (list fspec * list dspec)) (w : world) : run (Z * Z) :=
  let '(fs, ds) :=
    match plan with
    | Some p => p
    | None => ([{| f_size := Some ts; f_count := Some tc; f_reps := 1; f_kind := Uniform |}], [])
    end in
  fill_dir (Z.to_N (tc * 10)) (DSpec None None 1 fs ds) [] ts tc w.

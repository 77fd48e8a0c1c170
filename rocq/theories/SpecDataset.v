(** What a plan of a test dataset asks for, and a dataset that has it: stated
    without the algorithm of MkDataset.v, of which only the types of plans
    are used. *)
Require Import String NArith ZArith Bool List Permutation.
From Verif Require Import PyBase Fs MkDataset.
Import ListNotations.
Open Scope Z_scope.

Fixpoint sum (l : list Z) : Z := match l with [] => 0 | x :: l => x + sum l end.

(** ** Claims *)

(** What a set of files claims: the files of its inventory, or a size
    together with a number of files. *)
Definition file_claim (f : fspec) : option (Z * Z) :=
  match f_kind f with
  | Inventory inv => Some (sum (map (fun x => fst x * snd x) inv), sum (map snd inv))
  | _ => match f_size f, f_count f with Some s, Some c => Some (s, c) | _, _ => None end
  end.
Definition size_claims (fs : list fspec) (ds : list dspec) : list (option Z) :=
  map (fun f => option_map fst (file_claim f)) fs ++ map d_size ds.
Definition count_claims (fs : list fspec) (ds : list dspec) : list (option Z) :=
  map (fun f => option_map snd (file_claim f)) fs ++ map d_count ds.

Definition claim (c : option Z) : Z := match c with Some x => x | None => 0 end.
Definition is_free (c : option Z) : Z := match c with Some _ => 0 | None => 1 end.
(** What is claimed, and how many claim nothing. *)
Definition taken (cl : list (option Z)) : Z := sum (map claim cl).
Definition free (cl : list (option Z)) : Z := sum (map is_free cl).

(** What one of the claims gets: what it asks for, or else an equal share of
    what the others leave, up to one. *)
Definition gets (total : Z) (cl : list (option Z)) (c : option Z) (x : Z) : Prop :=
  match c with
  | Some y => x = y
  | None => let q := (total - taken cl) / free cl in x = q \/ x = q + 1
  end.

(** ** Plans that fit *)

Definition good_set (f : fspec) : Prop :=
  f_reps f = 1 /\
  match f_kind f with
  | Uniform => (forall s, f_size f = Some s -> 0 <= s) /\ (forall c, f_count f = Some c -> 0 < c)
  | Inventory inv => Forall (fun x => 0 <= fst x /\ 0 <= snd x) inv
  | NotAKind _ => False
  end.
Definition good_sub (d : dspec) : Prop :=
  d_reps d = 1 /\ (forall s, d_size d = Some s -> 0 <= s) /\ (forall c, d_count d = Some c -> 0 <= c).

(** All of the total is given away: someone takes the rest, or there is none;
    or there is some rest of both the size and the number of files. *)
Definition all_given (ts tc : Z) (sc cc : list (option Z)) : Prop :=
  ((0 < free sc \/ taken sc = ts) /\ (0 < free cc \/ taken cc = tc)) \/
  (free sc = 0 /\ taken sc < ts /\ free cc = 0 /\ taken cc < tc).

(** The plan of a directory fits a size and a number of files: everybody who
    claims nothing gets at least one byte and one file, and the plans of
    the directories in it fit what they get. *)
Inductive fits : dspec -> Z -> Z -> Prop :=
| Fits s0 c0 r0 fs ds ts tc :
    0 < ts < 2 ^ 50 -> 0 < tc < 2 ^ 50 ->
    Forall good_set fs -> Forall good_sub ds ->
    taken (size_claims fs ds) + free (size_claims fs ds) <= ts ->
    taken (count_claims fs ds) + free (count_claims fs ds) <= tc ->
    all_given ts tc (size_claims fs ds) (count_claims fs ds) ->
    (forall d s c, In d ds -> gets ts (size_claims fs ds) (d_size d) s ->
       gets tc (count_claims fs ds) (d_count d) c -> fits d s c) ->
    fits (DSpec s0 c0 r0 fs ds) ts tc.

(** ** Datasets *)

(** [nf] sizes that add up to [tz] and differ by at most one. *)
Definition evenly (tz nf : Z) (l : list Z) : Prop :=
  Z.of_nat (length l) = nf /\ sum l = tz /\ exists a, 0 <= a /\ Forall (fun s => s = a \/ s = a + 1) l.

(** The sizes of the files of a set that got [s] bytes and [c] files. *)
Definition set_sizes (f : fspec) (sc : Z * Z) (l : list Z) : Prop :=
  match f_kind f with
  | Inventory inv => Permutation l (flat_map (fun x => repeat (fst x) (Z.to_nat (snd x))) inv)
  | _ => evenly (fst sc) (snd sc) l
  end.

(** The entries of files in [dir], with these sizes. *)
Definition files_with (dir : pystr) (l : list Z) (t : tree) : Prop :=
  Forall2 (fun z e => exists c, snd e = NFile c /\ Z.of_N (utf8_len c) = z /\ dirname (fst e) = dir) l t.

Definition rest_sizes (sc : Z * Z) (l : list Z) : Prop :=
  (sc = (0, 0) /\ l = []) \/ (0 < fst sc /\ 0 < snd sc /\ evenly (fst sc) (snd sc) l).

(** The entries under [dir] are as a directory's plan asks: first the files
    of each set, and of the rest; then each directory and what is in it. *)
Inductive built : dspec -> pystr -> Z -> Z -> tree -> Prop :=
| Built s0 c0 r0 fs ds dir ts tc fsc ll rest rl scs here below :
    Forall2 (fun f sc => gets ts (size_claims fs ds) (option_map fst (file_claim f)) (fst sc) /\
                         gets tc (count_claims fs ds) (option_map snd (file_claim f)) (snd sc)) fs fsc ->
    Forall2 (fun fsc l => set_sizes (fst fsc) (snd fsc) l) (combine fs fsc) ll ->
    rest_sizes rest rl ->
    Forall2 (fun d sc => gets ts (size_claims fs ds) (d_size d) (fst sc) /\
                         gets tc (count_claims fs ds) (d_count d) (snd sc)) ds scs ->
    sum (map fst fsc) + fst rest + sum (map fst scs) = ts ->
    sum (map snd fsc) + snd rest + sum (map snd scs) = tc ->
    files_with dir (concat ll ++ rl) here ->
    built_all ds dir scs below ->
    built (DSpec s0 c0 r0 fs ds) dir ts tc (here ++ below)
with built_all : list dspec -> pystr -> list (Z * Z) -> tree -> Prop :=
| Built_nil dir : built_all [] dir [] []
| Built_cons d ds dir s c scs sub inside below :
    dirname sub = dir -> built d sub s c inside -> built_all ds dir scs below ->
    built_all (d :: ds) dir ((s, c) :: scs) ((sub, NDir) :: inside ++ below).

(** The number of directories in a plan. *)
Fixpoint ndirs (d : dspec) : Z :=
  let '(DSpec _ _ _ _ ds) := d in fold_right (fun d n => 1 + ndirs d + n) 0 ds.

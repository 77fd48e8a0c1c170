(** * Python values used by the model: results, strings, dictionaries.

    These definitions model the CPython built-ins that /repo relies on.
    They contain no multibag logic. *)

Require Import String Ascii DecimalN NArith ZArith Bool List.
Import ListNotations.
Open Scope N_scope.

(** ** Exceptions as values *)

(** The exceptions that the modelled code can raise. Subclassing matters for
    [except] clauses: EMissingFile <= EMultibag <= EBag.
    multibag/access/exceptions.py 8-29 (MultibagError, MissingMultibagFileError),
    multibag/validate/base.py (MultibagValidationError),
    bagit.BagError / bagit.BagValidationError,
    and the Python built-ins that the code can run into. *)
Inductive exn : Type :=
| EMultibag          (* MultibagError *)
| EMissingFile       (* MissingMultibagFileError *)
| EValidation        (* MultibagValidationError *)
| EBag               (* bagit.BagError / BagValidationError / BagManifestConflict *)
| EKey               (* KeyError *)
| EType              (* TypeError *)
| EValue             (* ValueError *)
| EName              (* NameError *)
| EUnboundLocal      (* UnboundLocalError *)
| EAttribute         (* AttributeError *)
| EIndex             (* IndexError *)
| EZeroDivision      (* ZeroDivisionError *)
| EOS                (* OSError / IOError *)
| ERuntime           (* RuntimeError *)
| EAssertion.        (* AssertionError *)

Inductive res (A : Type) : Type :=
| Ok (a : A)
| Err (e : exn).
Arguments Ok {A} a.
Arguments Err {A} e.

Definition bind {A B} (x : res A) (f : A -> res B) : res B :=
  match x with Ok a => f a | Err e => Err e end.

Notation "'let?' x ':=' e 'in' b" := (bind e (fun x => b))
  (at level 200, x pattern, e at level 100, b at level 200).

Definition is_ok {A} (x : res A) : bool :=
  match x with Ok _ => true | Err _ => false end.

(** [mapM f l]: a list comprehension whose element expression may raise. *)
Fixpoint mapM {A B} (f : A -> res B) (l : list A) : res (list B) :=
  match l with
  | [] => Ok []
  | x :: t => let? y := f x in let? ys := mapM f t in Ok (y :: ys)
  end.

(** [foldM f l s]: a for loop whose body may raise. *)
Fixpoint foldM {A S} (f : S -> A -> res S) (l : list A) (s : S) : res S :=
  match l with
  | [] => Ok s
  | x :: t => let? s' := f s x in foldM f t s'
  end.

(** ** Strings: lists of Unicode code points *)

Definition pystr := list N.

(** String literals (ASCII only). *)
Definition U (s : string) : pystr := map N_of_ascii (list_ascii_of_string s).

Fixpoint streq (a b : pystr) : bool :=
  match a, b with
  | [], [] => true
  | x :: a', y :: b' => (x =? y) && streq a' b'
  | _, _ => false
  end.

(** [x in l] for a list of strings. *)
Fixpoint str_in (x : pystr) (l : list pystr) : bool :=
  match l with
  | [] => false
  | y :: t => streq x y || str_in x t
  end.

(** Python's [<] on str: code point order. *)
Fixpoint strlt (a b : pystr) : bool :=
  match a, b with
  | [], [] => false
  | [], _ :: _ => true
  | _ :: _, [] => false
  | x :: a', y :: b' => (x <? y) || ((x =? y) && strlt a' b')
  end.

Definition TAB : N := 9.
Definition LF : N := 10.
Definition CR : N := 13.
Definition SP : N := 32.
Definition SLASH : N := 47.
Definition DOT : N := 46.
Definition COLON : N := 58.
Definition HASH : N := 35.

(** The characters for which [str.isspace] holds; [str.strip()] and
    [str.split()] use this set. *)
Definition is_ws (c : N) : bool :=
  ((9 <=? c) && (c <=? 13)) || ((28 <=? c) && (c <=? 32)) || (c =? 133)
  || (c =? 160) || (c =? 5760) || ((8192 <=? c) && (c <=? 8202))
  || (c =? 8232) || (c =? 8233) || (c =? 8239) || (c =? 8287) || (c =? 12288).

Fixpoint lstrip_if (p : N -> bool) (s : pystr) : pystr :=
  match s with
  | [] => []
  | c :: t => if p c then lstrip_if p t else s
  end.

Fixpoint rstrip_if (p : N -> bool) (s : pystr) : pystr :=
  match s with
  | [] => []
  | c :: t => match rstrip_if p t with
              | [] => if p c then [] else [c]
              | t' => c :: t'
              end
  end.

(** [s.strip()] *)
Definition strip (s : pystr) : pystr := rstrip_if is_ws (lstrip_if is_ws s).

(** [s.startswith(p)] *)
Fixpoint startswith (s p : pystr) : bool :=
  match p, s with
  | [], _ => true
  | x :: p', y :: s' => (x =? y) && startswith s' p'
  | _ :: _, [] => false
  end.

(** [s.endswith(p)] *)
Definition endswith (s p : pystr) : bool := startswith (rev s) (rev p).

(** [p in s] for strings (substring test). *)
Fixpoint substr_in (p s : pystr) : bool :=
  startswith s p || match s with [] => false | _ :: t => substr_in p t end.

(** [s.split(c)] for a one-character separator. Never empty. *)
Fixpoint split_on (c : N) (s : pystr) : list pystr :=
  match s with
  | [] => [[]]
  | x :: t => if x =? c then [] :: split_on c t
              else match split_on c t with
                   | [] => [[x]]
                   | w :: ws => (x :: w) :: ws
                   end
  end.

(** [s.split(c, 1)]: either [None] (no separator) or the two halves. *)
Fixpoint split1 (c : N) (s : pystr) : option (pystr * pystr) :=
  match s with
  | [] => None
  | x :: t => if x =? c then Some ([], t)
              else match split1 c t with
                   | None => None
                   | Some (a, b) => Some (x :: a, b)
                   end
  end.

(** The longest prefix without characters satisfying [p], and the rest. *)
Fixpoint span_not (p : N -> bool) (s : pystr) : pystr * pystr :=
  match s with
  | [] => ([], [])
  | c :: t => if p c then ([], s)
              else let '(a, b) := span_not p t in (c :: a, b)
  end.

(** [s.split(None, 1)]: at most two words; trailing blanks of the last
    word are kept when the split limit was reached. *)
Definition split_ws1 (s : pystr) : list pystr :=
  match lstrip_if is_ws s with
  | [] => []
  | s' => let '(a, b) := span_not is_ws s' in
          match lstrip_if is_ws b with
          | [] => [a]
          | b' => [a; b']
          end
  end.

(** [s.rsplit(None, 1)]: mirror image of [split_ws1]. *)
Definition rsplit_ws1 (s : pystr) : list pystr :=
  rev (map (@rev N) (split_ws1 (rev s))).

(** [sep.join(l)] *)
Fixpoint join (sep : pystr) (l : list pystr) : pystr :=
  match l with
  | [] => []
  | [x] => x
  | x :: t => x ++ sep ++ join sep t
  end.

(** [s.replace(a, b)] for a one-character [a]. *)
Definition replace_ch (a : N) (b : pystr) (s : pystr) : pystr :=
  flat_map (fun c => if c =? a then b else [c]) s.

(** ** Decimal numbers *)

Fixpoint digits_of_uint (d : Decimal.uint) : pystr :=
  match d with
  | Decimal.Nil => []
  | Decimal.D0 d => 48 :: digits_of_uint d
  | Decimal.D1 d => 49 :: digits_of_uint d
  | Decimal.D2 d => 50 :: digits_of_uint d
  | Decimal.D3 d => 51 :: digits_of_uint d
  | Decimal.D4 d => 52 :: digits_of_uint d
  | Decimal.D5 d => 53 :: digits_of_uint d
  | Decimal.D6 d => 54 :: digits_of_uint d
  | Decimal.D7 d => 55 :: digits_of_uint d
  | Decimal.D8 d => 56 :: digits_of_uint d
  | Decimal.D9 d => 57 :: digits_of_uint d
  end.

(** [str(n)] for a non-negative integer. *)
Definition dec (n : N) : pystr := digits_of_uint (N.to_uint n).

(** [str(z)] for an integer. *)
Definition dec_z (z : Z) : pystr :=
  match z with
  | Zneg p => 45 :: dec (Npos p)
  | _ => dec (Z.to_N z)
  end.

Definition is_digit (c : N) : bool := (48 <=? c) && (c <=? 57).

(** Value of a digit string in which single underscores may stand between
    digits ([int("1_000")]). [prev] says whether the previous character
    was a digit. *)
Fixpoint digits_val (acc : N) (prev : bool) (s : pystr) : option N :=
  match s with
  | [] => if prev then Some acc else None
  | c :: t => if is_digit c then digits_val (10 * acc + (c - 48)) true t
              else if (c =? 95) && prev then digits_val acc false t
              else None
  end.

(** [int(s)]; [None] stands for ValueError. Only ASCII digits are
    recognised (simplification: CPython accepts other Unicode digits). *)
Definition py_int (s : pystr) : option Z :=
  match strip s with
  | [] => None
  | c :: t => if c =? 45 then option_map (fun n => Z.opp (Z.of_N n)) (digits_val 0 false t)
              else if c =? 43 then option_map Z.of_N (digits_val 0 false t)
              else option_map Z.of_N (digits_val 0 false (c :: t))
  end.

(** ** Reading text files line by line *)

(** How a text file is opened for reading:
    - [IoText]: [fs.open(path, "rt", newline="")] as used by read-only bags
      (multibag/access/bagit.py, ReadOnlyBag.open_text_file); lines end at
      LF, CR or CRLF;
    - [Codecs]: [codecs.open(path, encoding=...)] as used by directory bags
      (multibag/access/extended.py 378-389); lines end where
      [str.splitlines] ends them. *)
Inductive reader : Type := IoText | Codecs.

Definition is_brk (r : reader) (c : N) : bool :=
  match r with
  | IoText => (c =? 10) || (c =? 13)
  | Codecs => ((10 <=? c) && (c <=? 13)) || ((28 <=? c) && (c <=? 30))
              || (c =? 133) || (c =? 8232) || (c =? 8233)
  end.

(** [for line in fd]: lines with their terminators. *)
Fixpoint pylines (r : reader) (s : pystr) : list pystr :=
  match s with
  | [] => []
  | c :: t =>
      if is_brk r c then
        match t with
        | d :: t' => if (c =? 13) && (d =? 10) then [c; d] :: pylines r t'
                     else [c] :: pylines r t
        | [] => [[c]]
        end
      else match pylines r t with
           | [] => [[c]]
           | l :: ls => (c :: l) :: ls
           end
  end.

(** Number of bytes of a string in UTF-8. *)
Definition utf8_len1 (c : N) : N :=
  if c <? 128 then 1 else if c <? 2048 then 2 else if c <? 65536 then 3 else 4.

Fixpoint utf8_len (s : pystr) : N :=
  match s with
  | [] => 0
  | c :: t => utf8_len1 c + utf8_len t
  end.

(** ** Dictionaries: association lists in insertion order *)

Definition dict (V : Type) := list (pystr * V).

(** [d.get(k)] *)
Fixpoint od_get {V} (k : pystr) (d : dict V) : option V :=
  match d with
  | [] => None
  | (k', v) :: t => if streq k k' then Some v else od_get k t
  end.

(** [k in d] *)
Definition od_has {V} (k : pystr) (d : dict V) : bool :=
  match od_get k d with Some _ => true | None => false end.

(** [d[k] = v]: replaces in place or appends. *)
Fixpoint od_set {V} (k : pystr) (v : V) (d : dict V) : dict V :=
  match d with
  | [] => [(k, v)]
  | (k', v') :: t => if streq k k' then (k', v) :: t else (k', v') :: od_set k v t
  end.

(** [del d[k]] (no effect if absent; callers test for presence first). *)
Fixpoint od_del {V} (k : pystr) (d : dict V) : dict V :=
  match d with
  | [] => []
  | (k', v') :: t => if streq k k' then t else (k', v') :: od_del k t
  end.

(** [OrderedDict(pairs)] *)
Definition od_of_pairs {V} (l : list (pystr * V)) : dict V :=
  fold_left (fun d kv => od_set (fst kv) (snd kv) d) l [].

Definition od_keys {V} (d : dict V) : list pystr := map fst d.

(** A Python set of strings as a duplicate-free list. The order is one of
    the orders Python could show; no property depends on it. *)
Definition set_add (x : pystr) (s : list pystr) : list pystr :=
  if str_in x s then s else s ++ [x].
Definition set_remove (x : pystr) (s : list pystr) : list pystr :=
  filter (fun y => negb (streq x y)) s.
Definition set_of (l : list pystr) : list pystr :=
  fold_left (fun s x => set_add x s) l [].

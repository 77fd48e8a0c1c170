(** * Split plans and the splitters

    Models /repo/multibag/split.py 47-195, 416-475 and 511-735 (planning) and
    /repo/multibag/access/extended.py 153-172 ([nonstandard]). Writing the
    output bags ([apply_iter]) is in SplitApply. *)

Require Import String NArith Bool List.
From Verif Require Import PyBase Fs.
Import ListNotations.
Open Scope N_scope.

(** ** BagIt special file names (regular expressions) *)

(** [\w] restricted to ASCII: letters, digits and '_'. Simplification: the
    other letters and digits of Unicode count as non-word characters here. *)
Definition is_word (c : N) : bool :=
  is_digit c || ((65 <=? c) && (c <=? 90)) || ((97 <=? c) && (c <=? 122)) || (c =? 95).

(** ".txt$": any character but a newline, "txt", and an optional final
    newline, since [$] also matches before one. *)
Definition re_dot_txt (s : pystr) : bool :=
  match s with
  | c :: t => negb (c =? LF) && (streq t (U "txt") || streq t (U "txt" ++ [LF]))
  | [] => false
  end.

(** "(\w+).txt$"; [seen]: at least one word character has been matched. *)
Fixpoint re_word_txt (seen : bool) (s : pystr) : bool :=
  (seen && re_dot_txt s) ||
  match s with
  | c :: t => is_word c && re_word_txt true t
  | [] => false
  end.

(** "^pre.txt$" *)
Definition re_pre_txt (pre s : pystr) : bool :=
  startswith s pre && re_dot_txt (skipn (length pre) s).

(** "^(tag)?manifest-(\w+).txt$" *)
Definition re_manifest (s : pystr) : bool :=
  (startswith s (U "manifest-") && re_word_txt false (skipn 9 s)) ||
  (startswith s (U "tagmanifest-") && re_word_txt false (skipn 12 s)).

(** access/extended.py 161-163: the list [special]. *)
Definition special_name (f : pystr) : bool :=
  re_pre_txt (U "bagit") f || re_pre_txt (U "bag-info") f ||
  re_pre_txt (U "fetch") f || re_manifest f.

(** split.py 604-611, [_is_special]: the same expressions with a leading '/'
    matched against a path from the root of the bag. *)
Definition is_special (p : pystr) : bool :=
  match p with
  | c :: t => (c =? SLASH) && special_name t
  | [] => false
  end.

(** ** Source bags *)

(** What planning uses of the progenitor: its name, its files, and the size
    that the file system reports for a directory (extended.py 300-309 and
    582-594, [sizeof]). *)
Record bag := {
  b_name : pystr;
  b_tree : tree;
  b_dirsize : pystr -> N
}.

Definition sizeof (b : bag) (p : pystr) : N :=
  if is_file p (b_tree b) then size_of p (b_tree b) else b_dirsize b p.

(** extended.py 153-172, [nonstandard]: the empty directories and the files
    whose base name is not special, in walk order. *)
Definition nonstandard (t : tree) : list pystr :=
  flat_map
    (fun e =>
       let '(d, subs, fs) := e in
       (match subs, fs with [], [] => [d] | _, _ => [] end) ++
       map (pjoin d) (filter (fun f => negb (special_name f)) fs))
    (walk [] t).

(** ** SplitPlan *)

(** A manifest: the dictionary with keys name (may be absent), contents and
    totalsize. *)
Record manifest := {
  m_name : option pystr;
  m_contents : list pystr;
  m_total : N
}.

Record plan := {
  p_bag : bag;
  p_manifests : list manifest
}.

(** split.py 57-79, [__init__] *)
Definition new_plan (b : bag) : plan := {| p_bag := b; p_manifests := [] |}.

(** split.py 81-94, [manifests]: each manifest with its ishead flag. *)
Fixpoint mark_head (ms : list manifest) : list (manifest * bool) :=
  match ms with
  | [] => []
  | [m] => [(m, true)]
  | m :: t => (m, false) :: mark_head t
  end.
Definition manifests (p : plan) : list (manifest * bool) := mark_head (p_manifests p).

(** split.py 128-130, [_path_in] *)
Definition path_in (f : pystr) (m : manifest) : bool := str_in f (m_contents m).

(** split.py 132-143, [find_destination] *)
Definition find_destination (f : pystr) (p : plan) : option manifest :=
  find (path_in f) (rev (p_manifests p)).

(** split.py 119-126, [required] *)
Definition required (p : plan) : list pystr := nonstandard (b_tree (p_bag p)).

(** split.py 107-117, [missing] *)
Definition missing (p : plan) : list pystr :=
  filter (fun f => match find_destination f p with Some _ => false | None => true end)
         (required p).

(** split.py 96-105, [is_complete] *)
Definition is_complete (p : plan) : bool :=
  match missing p with [] => true | _ => false end.

(** split.py 169-171, [_set_manifest_name] *)
Definition set_name (n : pystr) (m : manifest) : manifest :=
  {| m_name := Some n; m_contents := m_contents m; m_total := m_total m |}.

(** split.py 145-167, [name_output_bags]. A naming iterator is a function
    from the number of earlier calls of [next()] to a name or exhaustion.
    The manifests named before an exhaustion keep their names. When the very
    first call is exhausted, the variable [name] in the error message is
    unbound. *)
Definition namer := nat -> option pystr.

Fixpoint name_from (nm : namer) (k : nat) (ms : list manifest) : res unit * list manifest :=
  match ms with
  | [] => (Ok tt, [])
  | m :: t =>
      match nm k with
      | Some n => let (r, t') := name_from nm (S k) t in (r, set_name n m :: t')
      | None => (Err (match k with O => EUnboundLocal | S _ => ERuntime end), ms)
      end
  end.

Definition name_output_bags (nm : namer) (reverse : bool) (p : plan) : res unit * plan :=
  let use := if reverse then rev (p_manifests p) else p_manifests p in
  let (r, ms) := name_from nm 0 use in
  (r, {| p_bag := p_bag p; p_manifests := if reverse then rev ms else ms |}).

(** split.py 173-195, [complete_plan] *)
Definition complete_plan (p : plan) : plan :=
  let man := {| m_name := Some (b_name (p_bag p) ++ U "_" ++
                                dec (N.of_nat (length (p_manifests p))) ++ U ".mbag");
                m_contents := missing p;
                m_total := fold_left (fun s f => s + sizeof (p_bag p) f) (missing p) 0 |} in
  match missing p with
  | [] => p
  | _ => {| p_bag := p_bag p; p_manifests := p_manifests p ++ [man] |}
  end.

(** split.py 718-735, [SimpleNamer] *)
Definition simple_namer (base : pystr) : namer :=
  fun k => Some (base ++ U "_" ++ dec (N.of_nat (S k)) ++ U ".mbag").

(** ** The work list *)

(** Size information on one file; the path is absolute in the bag. *)
Record finfo := { f_path : pystr; f_size : N }.

(** split.py 613-620, [_cmp_by_size]: [fi_le a b] iff it is not positive. *)
Definition fi_le (a b : finfo) : bool :=
  if f_size a =? f_size b then negb (strlt (f_path b) (f_path a))
  else f_size b <? f_size a.

(** [list.sort]: a stable sort. *)
Section Sort.
  Context {A : Type} (le : A -> A -> bool).
  Fixpoint insert (x : A) (l : list A) : list A :=
    match l with
    | [] => [x]
    | y :: t => if le x y then x :: y :: t else y :: insert x t
    end.
  Fixpoint isort (l : list A) : list A :=
    match l with
    | [] => []
    | x :: t => insert x (isort t)
    end.
End Sort.

(** ** WellPackedSplitter *)

Record splitter := {
  s_max : N;
  s_target : N;
  s_forhead : list pystr
}.

(** split.py 517-542, [__init__]: the new splitter, and the caller's list
    [forhead] afterwards. The splitter keeps a copy made before the '/' is
    put in front of the paths, and it is the caller's list that is changed.
    Sizes are natural numbers: negative limits are not modelled. *)
Definition new_splitter (maxsize : N) (targetsize : option N) (forhead : option (list pystr))
  : splitter * option (list pystr) :=
  ({| s_max := maxsize;
      s_target := match targetsize with Some n => if n =? 0 then maxsize else n | None => maxsize end;
      s_forhead := match forhead with Some l => l | None => [] end |},
   option_map (map (fun f => if startswith f [SLASH] then f else SLASH :: f)) forhead).

(** split.py 622-629, [_sorted_files]; [fs.walk] gives absolute paths. *)
Definition sorted_files (s : splitter) (t : tree) : list finfo :=
  isort fi_le
    (map (fun f => {| f_path := SLASH :: f; f_size := size_of f t |})
         (filter (fun f => negb (is_special (SLASH :: f)) && negb (str_in (SLASH :: f) (s_forhead s)))
                 (files t))).

(** split.py 597-602, [_new_manifest] *)
Definition new_manifest : manifest := {| m_name := None; m_contents := []; m_total := 0 |}.

(** split.py 592-595, [_add_to_manifest] (the file is removed from the work
    list by the caller here). *)
Definition add_to_manifest (fi : finfo) (m : manifest) : manifest :=
  {| m_name := m_name m;
     m_contents := m_contents m ++ [skipn 1 (f_path fi)];
     m_total := m_total m + f_size fi |}.

(** split.py 556-590, [_apply_algorithm]. The work list and the index i are
    kept as the files before i and the files from i on. [wp_step] is the
    body of the while loop, [wp_loop] the loop with a bound on the number of
    iterations: None if the bound is reached. *)
Record wp_state := {
  w_pre : list finfo;
  w_rest : list finfo;
  w_manf : manifest;
  w_done : list manifest
}.

Definition wp_step (s : splitter) (w : wp_state) : wp_state :=
  let w1 := match w_rest w with
            | [] => {| w_pre := []; w_rest := w_pre w; w_manf := new_manifest;
                       w_done := w_done w ++ [w_manf w] |}
            | _ => w
            end in
  match w_rest w1 with
  | [] => w1
  | f :: rest =>
      let newsz := m_total (w_manf w1) + f_size f in
      if s_max s <? newsz then
        if m_total (w_manf w1) =? 0 then
          {| w_pre := []; w_rest := w_pre w1 ++ rest; w_manf := new_manifest;
             w_done := w_done w1 ++ [add_to_manifest f (w_manf w1)] |}
        else
          {| w_pre := w_pre w1 ++ [f]; w_rest := rest; w_manf := w_manf w1;
             w_done := w_done w1 |}
      else
        if s_target s <? newsz then
          {| w_pre := []; w_rest := w_pre w1 ++ rest; w_manf := new_manifest;
             w_done := w_done w1 ++ [add_to_manifest f (w_manf w1)] |}
        else
          {| w_pre := w_pre w1; w_rest := rest; w_manf := add_to_manifest f (w_manf w1);
             w_done := w_done w1 |}
  end.

Fixpoint wp_loop (s : splitter) (fuel : nat) (w : wp_state) : option wp_state :=
  match w_pre w ++ w_rest w with
  | [] => Some w
  | _ => match fuel with
         | O => None
         | S n => wp_loop s n (wp_step s w)
         end
  end.

Definition wp_start (fs : list finfo) : wp_state :=
  {| w_pre := []; w_rest := fs; w_manf := new_manifest; w_done := [] |}.

Definition wp_finish (w : wp_state) : list manifest :=
  match m_contents (w_manf w) with
  | [] => w_done w
  | _ => w_done w ++ [w_manf w]
  end.

(** The whole algorithm, with at most [fuel] iterations. *)
Definition well_packed_in (s : splitter) (fuel : nat) (fs : list finfo) : option (list manifest) :=
  option_map wp_finish (wp_loop s fuel (wp_start fs)).

(** The whole algorithm with a bound that is never reached (proved below). *)
Definition well_packed (s : splitter) (fs : list finfo) : list manifest :=
  match well_packed_in s (S (length fs) * S (length fs)) fs with
  | Some ms => ms
  | None => []
  end.

(** ** NeighborlySplitter *)

(** split.py 667-670, [_dirpath] *)
Definition dirpath (p : pystr) : pystr :=
  match rsplit_slash p with Some (a, _) => a | None => p end ++ [SLASH].

(** split.py 679-683: the loop that removes duplicates. *)
Fixpoint uniquify (n : nat) (ds : list pystr) : list pystr :=
  match n with
  | O => ds
  | S n' => match ds with
            | d :: ((e :: _) as t) => uniquify n' (if streq d e then t else t ++ [d])
            | _ => ds
            end
  end.

(** [dirs.index(refdir)] *)
Fixpoint index_of (x : pystr) (l : list pystr) : nat :=
  match l with
  | [] => 0
  | y :: t => if streq x y then 0 else S (index_of x t)
  end.

Definition str_le (a b : pystr) : bool := negb (strlt b a).

(** split.py 672-687, [_dirpaths_for] with ref = 0, the only value it is
    called with. *)
Definition dirpaths_for (fs : list finfo) : list pystr :=
  match fs with
  | [] => []
  | f :: _ =>
      let sorted := isort str_le (map (fun f => dirpath (f_path f)) fs) in
      let ds := uniquify (length sorted - 1) sorted in
      let i := index_of (dirpath (f_path f)) ds in
      skipn i ds ++ firstn i ds
  end.

(** split.py 689-715, [_select_from_dir], called with i = 0. The result is
    the remaining work list, the manifest, and whether the manifest is full
    (-1 is returned). [pre] are the files already passed. *)
Fixpoint select_from_dir (s : splitter) (d : pystr) (pre fs : list finfo) (m : manifest)
  : list finfo * manifest * bool :=
  match fs with
  | [] => (pre, m, false)
  | f :: rest =>
      if streq d (dirpath (f_path f)) then
        let newsz := m_total m + f_size f in
        if s_max s <? newsz then
          if m_total m =? 0 then (pre ++ rest, add_to_manifest f m, true)
          else select_from_dir s d (pre ++ [f]) rest m
        else
          if s_target s <? newsz then (pre ++ rest, add_to_manifest f m, true)
          else select_from_dir s d pre rest (add_to_manifest f m)
      else select_from_dir s d (pre ++ [f]) rest m
  end.

(** split.py 643-657: the for loop that fills one manifest. *)
Fixpoint fill (s : splitter) (ds : list pystr) (fs : list finfo) (m : manifest)
  : list finfo * manifest :=
  match ds with
  | [] => (fs, m)
  | d :: ds' =>
      let '(fs', m', full) := select_from_dir s d [] fs m in
      if full then (fs', m') else fill s ds' fs' m'
  end.

(** split.py 638-665, [_apply_algorithm], with a bound on the number of
    iterations of the while loop. *)
Fixpoint neighborly_in (s : splitter) (fuel : nat) (fs : list finfo) : option (list manifest) :=
  match fs with
  | [] => Some []
  | _ => match fuel with
         | O => None
         | S n => let (fs', m) := fill s (dirpaths_for fs) fs new_manifest in
                  option_map (cons m) (neighborly_in s n fs')
         end
  end.

Definition neighborly (s : splitter) (fs : list finfo) : list manifest :=
  match neighborly_in s (length fs) fs with
  | Some ms => ms
  | None => []
  end.

(** ** Plans made by the splitters *)

Inductive strategy := WellPacked | Neighborly.

(** split.py 544-554, [_create_plan] *)
Definition create_plan (k : strategy) (s : splitter) (b : bag) : plan :=
  let fs := sorted_files s (b_tree b) in
  complete_plan {| p_bag := b;
                   p_manifests := match k with
                                  | WellPacked => well_packed s fs
                                  | Neighborly => neighborly s fs
                                  end |}.

(** split.py 450-475, [Splitter.plan], with a base name for the bags. *)
Definition splitter_plan (k : strategy) (s : splitter) (base : pystr) (b : bag) : res unit * plan :=
  name_output_bags (simple_namer base) false (create_plan k s b).

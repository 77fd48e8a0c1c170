(** * What an unfinished split bag is *)
Require Import String NArith PeanoNat Bool List.
From Verif Require Import PyBase Fs HeadBag BagIt Split SplitApply Props_SplitApply.
Import ListNotations.

(** Every directory of [u] is one of [t], and every file of [u] is one of [t],
    with its content or, for manifests, with the beginning of it. *)
Definition unfinished (u t : tree) : Prop :=
  (forall p, is_dir p u = true -> is_dir p t = true) /\
  forall p c, read p u = Some c ->
    exists more, read p t = Some (c ++ more) /\
      ((forall a, p <> U "manifest-" ++ a ++ U ".txt" /\ p <> U "tagmanifest-" ++ a ++ U ".txt") -> more = []).

(** The bag says that it is a head bag. *)
Definition says_head (r : reader) (t : tree) : Prop :=
  exists d, tags_of r t = Ok d /\ od_has (U "Multibag-Head-Version") d = true.

(** Only the lists of the head bag and their directory may be missing in [u]. *)
Definition but_lists (u t : tree) : Prop :=
  (forall p, p <> U "multibag" -> is_dir p u = is_dir p t) /\
  forall p, p <> U "multibag/member-bags.tsv" -> p <> U "multibag/file-lookup.tsv" -> p <> U "multibag/aggregation-info.txt" ->
    read p u = read p t.

(** The first [j] of the bags and perhaps an unfinished one. *)
Inductive first_bags (bags : dict tree) : nat -> dict tree -> Prop :=
| whole j : (j <= length bags)%nat -> first_bags bags j (firstn j bags)
| begun j b t u : nth_error bags j = Some (b, t) -> unfinished u t -> first_bags bags j (firstn j bags ++ [(b, u)]).

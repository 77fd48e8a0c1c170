(** * What it means to use an Amender step by step *)
Require Import String NArith Bool List.
From Verif Require Import PyBase Version Tsv Fs HeadBag BagIt Split SplitApply Restore Amend TsvProofs HeadBagProofs AmendProofs AmendProofs2 RestoreProofs6 BagItProofs Props_SplitApply Stepwise.
Import ListNotations.

(** The bags that were added, in their order. *)
Definition bags_added (calls : list call) : list src :=
  flat_map (fun c => match c with CAdd b => [b] | CFinalize _ => [] end) calls.

(** The versions that were given on the way. *)
Definition versions_given (calls : list call) : list pystr :=
  flat_map (fun c => match c with CAdd _ => [] | CFinalize x => [x] end) calls.

(** The bags [t1] and [t2], read as head bags of that name: the same tags except
    Bag-Size and Bag-Count, the same members in the same order, the same answers
    of the lookup; and the same files, except bag-info.txt, the tag manifests and
    the table of files. *)
Definition same_amendment (name td : pystr) (t1 t2 : tree) : Prop :=
  exists i1 i2, tags_of Codecs t1 = Ok i1 /\ tags_of Codecs t2 = Ok i2 /\
    (forall k, k <> U "Bag-Size" -> k <> U "Bag-Count" -> tag_values i2 k = tag_values i1 k) /\
    (exists ms, iter_member_bags (open_hb name t1 i1 Codecs) = Ok ms /\ iter_member_bags (open_hb name t2 i2 Codecs) = Ok ms) /\
    (forall p, exists x, snd (lookup_file p false (open_hb name t1 i1 Codecs)) = Ok x /\ snd (lookup_file p false (open_hb name t2 i2 Codecs)) = Ok x) /\
    (forall q, q <> U "bag-info.txt" -> (forall a, q <> U "tagmanifest-" ++ a ++ U ".txt") ->
       q <> td ++ U "/file-lookup.tsv" -> read q t2 = read q t1).

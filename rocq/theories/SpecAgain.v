(** * What it means to make an amendment again *)
Require Import String NArith Bool List.
From Verif Require Import PyBase Version Tsv Fs HeadBag BagIt Split SplitApply Restore Amend TsvProofs HeadBagProofs AmendProofs AmendProofs2 AmendProofs3 AmendProofs4 RestoreProofs6 BagItProofs Props_SplitApply Props_Amend Props_AmendTotal Again.
Import ListNotations.

(** What an amendment of [old] by the [bags] and the bag [name] with files [t]
    is made with. The amendee can be taken over and was just opened; the bags
    have names and proper files; and the values and paths that are written can
    be written: the version and the versions deprecated are plain one-line
    values, and no payload path and no name of a bag breaks a line of the
    lookup. *)
Definition amends (repr : list pystr -> pystr) (name : pystr) (t : tree) (old : hb) (bags : list src) (version : pystr) : Prop :=
  version <> [] /\ tag_value_ok Codecs version /\ Forall (tag_value_ok Codecs) (deprecates repr (hb_info old)) /\
  amendable old /\ hb_lu old = None /\ bag_files (hb_tree old) /\ hb_name old <> [] /\
  Forall (fun s => bag_files (s_tree s) /\ s_name s <> []) bags /\
  all_storable Codecs old (map bag_of bags ++ [(name, t)]).

(** [t'] is left of the bag after any number of attempts to amend, each of
    which stopped after any of its writes or came to its end. They may differ
    in the amendee, in the bags and in the version. [t0] is the bag before the
    first. *)
Inductive attempts (v : env) (algs : list pystr) (bsize : tree -> pystr) (repr : list pystr -> pystr) (name : pystr) (t0 : tree) : tree -> Prop :=
| no_attempt : attempts v algs bsize repr name t0 t0
| one_more ro old bags version t1 t2 :
    attempts v algs bsize repr name t0 t1 -> amends repr name t0 old bags version ->
    attempt v algs bsize repr ro old bags version name t1 t2 ->
    attempts v algs bsize repr name t0 t2.

(** The bags [t1] and [t2], read as head bags of that name, are the same: the
    members, the answers of the lookup, all files except bag-info.txt, the tag
    manifests and the lists, and all tags except Bag-Size and Bag-Count. Of the
    tags that the bag had before, [i0], only those count whose values are plain. *)
Definition same_head (name td : pystr) (i0 : infod) (t1 t2 : tree) : Prop :=
  exists i1 i2, tags_of Codecs t1 = Ok i1 /\ tags_of Codecs t2 = Ok i2 /\
    (forall k, k <> U "Bag-Size" -> k <> U "Bag-Count" -> Forall (tag_value_ok Codecs) (tag_values i0 k) -> tag_values i2 k = tag_values i1 k) /\
    (exists ms, iter_member_bags (open_hb name t1 i1 Codecs) = Ok ms /\ iter_member_bags (open_hb name t2 i2 Codecs) = Ok ms) /\
    (forall p, exists x, snd (lookup_file p false (open_hb name t1 i1 Codecs)) = Ok x /\ snd (lookup_file p false (open_hb name t2 i2 Codecs)) = Ok x) /\
    (forall q, q <> U "bag-info.txt" -> (forall a, q <> U "tagmanifest-" ++ a ++ U ".txt") ->
       q <> td ++ U "/member-bags.tsv" -> q <> td ++ U "/file-lookup.tsv" -> read q t2 = read q t1).

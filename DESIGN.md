# A Rocq model of multibag-py

Source: usnistgov/multibag-py, pinned checkout in `/repo` (Python). The model is in
`rocq/theories`. It is a *shallow* model: each modelled Python function is a total Gallina
function that follows the Python branch by branch. Raised exceptions are values (`Err e`).
The code was never run; it was read as text.

## 1. Conventions of the model

* **Strings** are `pystr := list N`, lists of Unicode code points. The file `PyBase.v` models
  the methods of `str` that the code uses: `strip`, `rstrip`, `split`, `rsplit`, `join`,
  `startswith`, `endswith`, `int()`, decimal printing and line iteration.
* **Reading text files.** The code has two ways of opening text. Directory bags use
  `codecs.open` (`access/extended.py:378`), which splits lines like `str.splitlines`.
  Read-only bags use `fs.open(..., newline="")`, which splits on LF, CR and CRLF. Both are
  modelled; the reader is a parameter (`reader := IoText | Codecs`).
* **Dictionaries** are association lists. `OrderedDict` keeps insertion order and replaces a
  value in place, so lists are exact.
* **Errors**: `res A := Ok a | Err e`.
* **File systems** are flat association lists from relative path strings to nodes
  (`NDir` or `NFile content`). Paths remain strings, so prefix tests such as
  `startswith(d + "/")` are modelled as they are.
* **Hash functions** are function arguments. No property relies on collision freedom.
* **Floats**: `PyFloat.v` rounds non-negative rationals to 53 bits, half to even, without
  overflow or subnormal numbers. Only the size formatter and the test data use them.
* **Crashes**: an operation that writes several files is a list of atomic steps. A crash is a
  prefix of that list. A single file write is taken as atomic unless stated otherwise.

## 2. Trusted base

* Coq 8.16.1 kernel (`coqchk` re-checks it). Standard library only. No axioms: every
  `Print Assumptions` in the `Props_*.v` files answers `Closed under the global context`.
* `coqchk -o` lists seven names of the standard library's ssreflect plugin file
  (`Coq.ssr.ssrunder.Under_rel.*`: `Over_rel`, `over_rel`, `over_rel_done`, `Under_rel`,
  `Under_rel_from_rel`, `Under_relE`, `under_rel_done`). They are fields of a module type of
  the standard library that gets loaded with `Lia`; no theorem depends on them.
* The reading of the Python code: each definition cites the lines it models.
* Libraries outside of the repository: CPython `str`, `dict`, `float`, `math`, `sorted`, `os.walk`, the Library
  of Congress `bagit` package (tag-file and manifest reading and writing), PyFilesystem2
  (`fs`), and `urllib`. Neither their source nor their documentation was available where the
  model was written, so they are modelled from memory and nothing was checked against a
  running copy. One such point was in doubt: that `makedirs(path, recreate=True)` of `fs`
  raises when `path` is a file. Only the directory case of `C64_replicate_read_only` depends
  on it; `C64_read_only_file` does not.

## 3. Not modelled

Validation: `urlparse` and the checksum functions are arguments, so the theorems hold for any
behaviour of them. The validators of head and member bags take the outcome of the check of the
plain bag as an argument, too; `BagValid.v` models that check (class `ReadOnlyBag`, with the
order of the steps of `bagit.Bag.validate` from memory), for one process and the default
arguments. The normalization of paths by `fs` is modelled for C117 only (`Query.v`); elsewhere only
empty components are removed.

Network fetching, serialized formats (zip, tar: only "a read-only tree" is modelled),
permissions and file times (times only for restoring, `RestoreTimes.v`), symbolic links, logging, log-only branches, the command line, Python 2,
file encodings other than UTF-8, bit-level correctness of digests, and concurrency (the code
has none).

## 4. Plan per property

For each property: what is modelled, and how it is proved.

* **C01 Version comparison is a total order on version strings.** `Version.v`: parsing of fields and list comparison. Induction on lists of integers against an independent lexicographic order.
* **C02 Saved file-lookup tables read back unchanged.** `Tsv.v`/`HeadBag.v`: writer, line splitter and parser. Codec lemma by induction over the table.
* **C03 Every profile-legal name survives the lookup table in every access mode.** Same model with reader `Codecs`. Expected to be refuted by a name holding U+2028; partial theorem excludes the codecs line breaks.
* **C04 member-bags.tsv lines round-trip.** `MemberInfo.format`/`parse_line_03`. Extra info is refuted (`NameError`); partial theorem for no extra info.
* **C05 Blank padding around the TAB in lookup lines is ignored.** Parser model. Expected to be refuted.
* **C06 The file lookup behaves as an ordered map under any history.** `HeadBag.v` state machine with cache. Refinement to a map by induction on the history.
* **C07 The member list never repeats a bag and keeps order.** Invariant by induction on call sequences.
* **C08 Removing a member bag removes every trace of it.** Cache model. Refuted on fresh handles; proved for loaded handles.
* **C09 Marking a file deleted keeps earlier marks.** Cache model. Refuted on fresh handles; proved for loaded handles.
* **C10 files_in_member is the inverse of lookup_file.** Filter of an association list with distinct keys.
* **C11 update_for_member registers exactly the selected files.** Model of walk and of the selection loop; independent specification by path prefixes.
* **C12 The well-packed split is a partition.** `Split.v`: loop with well-founded measure as fuel; permutation proof.
* **C13 Output bags respect the size limit.** Loop invariant over the fill of one bag.
* **C14 Target size and tight packing.** Loop invariant over the fill of one bag.
* **C15 The number of bags is at most about twice the optimum.** From C14 by arithmetic on the list of sums.
* **C16 The neighborly split terminates, partitions and respects the limit.** Model of the nested loops with fuel; termination proved through sufficiency of the fuel.
* **C17 The neighborly split keeps directories together.** Invariant of the neighborly loop.
* **C18 Files are considered biggest first, ties by path.** Model of the comparison; sortedness and uniqueness of the sorted permutation.
* **C19 complete_plan completes any plan and changes nothing else.** Plan as list of manifests; set reasoning.
* **C20 A splitter's plan covers the whole bag.** Model of `nonstandard` and of the plan creation on the flat file system.
* **C21 A complete plan includes every payload file.** Refuted by a payload file called `fetch.txt`; partial for trees without such names.
* **C22 Files reserved for the head bag go to the head bag.** Refuted for relative paths; partial for paths given with a leading slash.
* **C23 Output bags get distinct names.** Injectivity of decimal printing.
* **C24 find_destination and missing agree; the last listing wins.** List reasoning.
* **C25 Each split bag holds exact copies of its planned files.** `SplitApply.v`: one bag creation as a fold over the manifest; invariant.
* **C26 Exactly the last bag of a split is the head and lists all members in order.** Fold over the plan.
* **C27 The head bag of a split locates every file.** Fold over the plan; last write wins.
* **C28 Split bags carry the source's checksums for the files they hold.** Fold; manifest text and its parse.
* **C29 Payload-Oxum of split bags is right.** Fold; sums.
* **C30 bag-info of split bags passes metadata on as documented.** Model of the tag transformation; case analysis.
* **C31 Splitting leaves the source bag untouched.** Separate inode-level model of hard links. Refuted for head-bag sources with hard links; proved for plans without the files that a split makes anew.
* **C32 Split then restore gives the bag back.** Composition of C25 and C33.
* **C33 Restore implements the documented combination rule.** `Restore.v`: equivalence of the backward 'first wins' loop and the forward overlay.
* **C34 Deleted paths are not restored, everything else is.** String-prefix lemma against component-wise ancestry.
* **C35 Restoring into an existing bag never changes files already there.** Fold invariant.
* **C36 An interrupted restore can be re-run.** Step-list semantics and crash prefix.
* **C37 Restored manifests describe the copies that were restored.** Fold invariant over manifests.
* **C38 Restore copes with members using different checksum algorithms.** Refuted by a witness (`KeyError`).
* **C39 fetch.txt is merged as documented.** Refuted; partial for distinct paths.
* **C40 Restored bags are no longer multibags.** State of the tree and the tags after the last steps.
* **C41 Amending extends the member list in order.** `Amend.v`: composition of HeadBag operations.
* **C42 Amending updates the lookup.** Composition of HeadBag operations.
* **C43 Amending keeps deletions.** Refuted: the flow never reads the old deleted list.
* **C44 Amending records the deprecated version.** Case analysis on tag values.
* **C45 Interrupted head creation is never taken for a finished head.** Step lists; every prefix.
* **C46 make_single_multibag makes a proper head bag.** Composition.
* **C47 Validation results add up.** `Validate.v`: masks as bit vectors, counting.
* **C48 ensure_valid raises exactly when is_valid is false.** Case analysis.
* **C49 The head-bag validator's member-list tests decide the profile rules.** Each test against a small specification.
* **C50 Absolute URLs are accepted in member-bags.tsv.** Refuted; the condition has wrong precedence.
* **C51 The member-bag validator reports illegal bag names.** Refuted; results are dropped.
* **C52 Manifest loading never silently picks among conflicting checksums.** `BagIt.v`: fold invariant.
* **C53 Manifest and fetch paths accepted as safe stay inside the bag.** Refuted by sibling directories; partial for a prefix ending in a slash.
* **C54 Bag access methods are confined to the bag.** Same as C53.
* **C55 Checksums written by split are read back.** Codec lemma; refuted for paths with a line feed or leading blank.
* **C56 bag-info tags written by split are read back.** Codec lemma for tag files.
* **C57 Uniform size generator is exact.** `MkData.v` on the floats of `PyFloat.v`: error bounds of rounding, then induction on the iteration.
* **C58 Test files have the requested size.** `MkData.v`; the rounded quotient has the exact floor below 2^53; widths of decimal numbers against the natural logarithm.
* **C59 Bag-Size strings are close to the real size.** `FormatBytes.v` on the floats of `PyFloat.v`: relative error bounds through each operation.
* **C60 Validation issues survive the tuple form.** Refuted.
* **C61 Opening and upgrading bags respects read-only.** State machine over class flags.
* **C62 Tuple and string versions compare consistently.** Refuted by a witness; positive theorem for tuples among themselves.
* **C63 Saved aggregation data are read back under any profile version.** Refuted by a witness with version 0.2; positive by C02/C08 for 0.3 and later.
* **C64 replicate copies or raises.** Outcome model of link/copy; refuted for a swallowed copy failure.
* **C65 Re-reading discards unsaved state.** Refuted for a missing file; positive when the file exists.
* **C66 Repeated Multibag-Tag-Directory tags are tolerated.** Refuted: TypeError.
* **C67 The way a bag directory is named does not matter.** `BagIt.v`: model of `normpath`. Refuted for "."; positive for all other locations.
* **C68 Running out of names is reported as such.** Model of the naming loop; refuted for an empty iterator (the error message uses the loop variable).
* **C69 Completing a plan keeps bag names distinct.** Names in the plan model; refuted after naming with `SimpleNamer`.
* **C70 Bags without bag-info.txt can be split.** `SplitApply.v`; expected to be refuted at the head bag.
* **C71 apply_iter accepts any naming iterator.** `SplitApply.v`; expected to be refuted: `.next()` is called as a method.
* **C72 Splitting a valid bag makes valid bags.** `SplitApply.v`; from C25 and C28 with a hash function as argument. Refuted for head bags.
* **C73 Restored payload size is right.** `Restore.v` with the tag file functions of `BagIt.v`.
* **C74 Restored metadata comes from the aggregation.** `Restore.v`; writing and reading tag files.
* **C75 Metadata is merged without aggregation-info.** `Restore.v`; expected to be refuted: nothing is merged.
* **C77 Validation of a head bag ends with results.** `Validate.v`; refuted for bags without a head version; positive from the steps of the validator.
* **C78 The profile version is checked.** `Validate.v`; refuted for any single value.
* **C79 A bag that passes validation can be used as a head bag.** `Validate.v` against the readers of `HeadBag.v`; from C49.
* **C80 Validation does not depend on how the bag is named.** `Validate.v`; the name is the part after the last slash, refuted for a slash at the end.
* **C81 The head-bag validator decides its rules.** `Validate.v`; each test adds one condition to an invariant "no problem so far".
* **C82 Self-deprecation is reported exactly for a bag that deprecates itself.** `Validate.v`; from C81, refuted for another bag with the same version.
* **C84 Remarks of validation name the bad lines.** `Validate.v`; the state of the loop over lines against the numbers of the bad lines, by induction from the end; refuted for files that are missing.
* **C85 The member-bag validator decides its rules.** `Validate.v`; as for C81; refuted without results passed in.
* **C83 A bag made a single multibag passes validation.** `Amend.v` and `Validate.v`; the tags, member list and lookup text that conversion leaves meet each rule that C81 lists; refuted for empty tags, URLs with a host and empty payload.
* **C86 The head bag of an amendment passes validation.** as for C83, with the members and lookup of C41 and C42; refuted for a kept version and for URLs taken over.
* **C87 open_bag opens the bag at the location.** `Access.v`: the branches of `open_bag`; the walk of an archive is any breadth-first order; refuted for a slash at the end and for bags at the root of an archive.
* **C88 A plain bag passes validation iff it is as its manifests say.** `BagValid.v` models opening and each step of validation; each step is shown to pass iff one clause of a separate definition of validity holds.
* **C89 Validation of a plain bag ends with a report.** as for C88; refuted by bags with malformed tags and fetch.txt.
* **C90 The bags made by splitting a valid bag are valid.** from C25, C28, C29 and C88.
* **C91 The head bag of a split passes validation.** from C26, C27, C30 and C90, with the rules of C81; refuted for recommendations.
* **C92 The member bags of a split pass validation.** from C30 and C90, with the rules of C85; refuted for warnings.
* **C93 BagIt versions 0.93 to 1.x are read, others are refused.** `BagValid.v`: reading bagit.txt; the versions are a separate inductive definition over decimal numbers.
* **C76 Restored tag manifests are right.** the last save of `Restore.v`, with the frame lemmas for the steps before it.
* **C94 A consistent aggregation can be restored.** an invariant of the destination (`dest_ok`) kept by every step of the restoration, under which each step succeeds.
* **C95 Restoring valid bags gives a valid bag.** `Props_BagValid4.v` combines the invariant of C94 with the characterisation of validation of C88: each checksum in the restored manifests is one a bag had for the content it provides.
* **C96 Test datasets without a plan are exact.** `MkDataset.v` runs on a list of random numbers; a triple `effect` says which entries a run adds, in each way it can stop.
* **C97 Making a test dataset does not touch what is there.** the same triple for any plan, by induction on the plan.
* **C98 A plan that fits is followed.** `SpecDataset.v` says when a plan fits and which datasets have what it asks for, without the algorithm; the distribution is analysed with C57.
* **C99 Making a test dataset ends.** the triple counts the names that were used; there are more than entries.
* **C100 Splitting a valid bag with a splitter works from end to end.** `Props_EndToEnd.v` shows from C20 and C23 that the plans of splitters meet what C25, C90, C91, C92 and C95 assume about plans and names, and puts these together.
* **C101 Restoring an amended aggregation gives the old version with the amendment laid over it.** `Props_AmendRestore.v` puts together what amending writes (C41, and that no other path changes) and the order of restoring (C33).
* **C102 Restoring a single member lays it over or under the destination.** `Props_RestoreMember.v` follows the walk for a member with and without overwriting; the manifests are refuted by a case.
* **C103 Restoring a member records its fetch lines by path.** `RestoreMember.v` adds the fetch argument to the model; refuted for all members by how the key is cut out of the line.
* **C104 Restored entries carry the modification times of the copies restored.** `RestoreTimes.v` models restoring with the times of entries; `RestoreTimesProofs.v` shows that it does the same as `Restore.v` to the tree and what it does to times.
* **C105 Renaming the tag directory keeps the aggregation.** `TagDir.v` models `set_multibag_tag_dir` with `os.renames` (from memory); `TagDirProofs.v` says what is where in the tree afterwards.
* **C106 The text of a validation error tells what failed.** `ValidateText.v` models the texts; the theorems say which parts they contain.
* **C107 Restoring never leaves out a member bag.** From the model of restoring: success implies that each bag of the list was found.
* **C108 Member bags are taken from the cache directory, the same ones in every run.** `FindMember.v` models the search in the cache directory with the order of the set of extensions as a parameter; refuted for two archives and for absolute names.
* **C109 Amending and single multibags keep bags valid.** `SaveValidProofs.v` tracks which files the steps of both operations write; the last save makes each tag manifest list the files as they are then, and the other clauses of validity (C88) only depend on files that stay.
* **C110 Valid bags that are amended can be restored to a valid bag.** `Props_AmendRestore2.v`: C109 and its lemmas show that the new head bag meets the conditions of C94 and C95 after the amendment, C41 that it lists the right members.
* **C111 The size that a bag declares is the size that it has.** `BagSize.v` models the sizes that a restoration declares. `BagSizeProofs.v` shows that saving a bag again with another tag changes the size of bag-info.txt only, by the length of the tag, and how long the text of a size is; C59 says what the text means.
* **C112 Any number of amendments add up.** `Props_AmendHistory.v`: an inductive relation for the histories; one amendment takes a state of the aggregation (members, answers, versions, what can be stored) to the next one, from C41, C42, C44 and the frame lemmas of C101.
* **C113 The last version of a history of valid bags can be restored to a valid bag.** `Props_AmendHistory2.v`: a relation between a bag before and after it became a head bag keeps what restoring needs; with it C110 applies to the last amendment, and C112 gives the contents.
* **C114 Amendments succeed.** `AmendTotalProofs.v`, `Props_AmendTotal.v`: each step is shown to return a value, from the emptying of the lists to the second saving of bag-info.txt, with an invariant for what can be saved. The refutations follow the missing list of files and the failing format of a member through the code.
* **C115 Every release can be added, and the last one restored.** `Props_AmendTotal2.v`: induction over the releases with C114 for the next step and the round trip of the lists for its conditions; then C113 with any way to find the members.
* **C116 Any bag can be made a multibag and then be amended.** `SingleTotalProofs.v`, `Props_SingleTotal.v`: the steps of the conversion return values by the lemmas of C114; the lists they write are read back (C46), which are the conditions of C115.
* **C117 A bag answers alike however it was opened.** `Query.v`, `Props_Query.v`: both normalisations are compared with a walk name by name from the directory of the bag; the normalisation of PyFilesystem succeeds exactly if the walk never leaves the bag.
* **C118 The whole life of a bag.** `Props_LifeCycle.v`: a bag after make_single_multibag has the same files apart from tags and lists and stays fit for restoring (as for amended bags in C113), so that C115 applies to it.
* **C119 A bag that was split can be amended, and be restored after that.** `Props_LifeCycle2.v`: the head bag of a split is a first version in the sense of C112; the parts of a split are valid and fit together if the source fits (`parts_together`), and laid over each other they are the source (`parts_latest`); then C115.
* **C120 Restoring a head bag in place.** `InPlaceProofs.v`, `Props_InPlace.v`: the head bag is a destination that is fit from the start (`there_head`), the other bags are added to it as to any destination; which checksums the manifests have is followed from the manifests of the head bag on (`there_entries`), then as in C95.
* **C121 Where a restoration reads and writes.** `RestoreSetup.v`, `Props_RestoreSetup.v`: the constructor with the system (current directory, what exists, what is a head bag) as a parameter; paths are specified by the place they lead to (`leads`, a walk over the names, independent of normpath), and the results by the usual way to write a place (`absolute`).
* **C122 Splitting with one call, and many bags into one directory.** `SplitCall.v`, `Props_SplitCall.v`: split as plan and apply; default names against a specification of extensions (`stem`); the names of two bases never meet since the number after the last underscore has none; then C100 for each call and for each restoration.
* **C123 Splitting and restoring can be repeated for ever.** `CycleProofs.v`, `Props_Cycle.v`: rounds as a relation between opened bags (`cycles`); an invariant (`steady`: ordinary and restorable to all places) is shown to hold again for what a restoration makes, from its paths, manifests and tags (`back`), by induction over the rounds.
* **C124 Split bags may be handled while the split goes on.** `SplitIter.v`, `Props_Iter.v`: the generator with a caller that acts after each bag, as a function on the output directory, or with hard links as edits of the new bag in the link model of C31; induction over the bags.
* **C125 Bags made by the library conform to the published BagIt profiles.** `Profile.v` (the two JSON files as data), `Props_Profile.v`: following a profile is defined from its rules alone; the tags of the bags made are known from C30, C44 and C46, which gives conditions that are necessary and sufficient, and witnesses.
* **C126 Fetching member bags while restoring makes no difference.** `FetchInto.v`, `FetchIntoProofs.v`, `Props_FetchInto.v`: restoring with the fetched bags as directories or archives in the destination tree; a simulation (`sim`) between the destination with and without the cache directory, kept by every step; then C95 for the round trip.
* **C127 A head bag can be updated through several handles.** `Handles.v` (files shared, caches per handle), `SpecHandles.v` (turns, and what they should make), `HandlesProofs.v`, `HandlesProofs2.v`, `Props_Handles.v`: calls that do not save leave the files alone, so worlds that differ in such handles stay alike; for turns an invariant ties the caches of the one whose turn it is to the pending aggregation and the files to the saved one.
* **C128 A stop while a list is being saved is noticed.** `Cut.v` (saves stopped after n characters), `SpecCut.v` (what may be left), `CutProofs.v`, `Props_Cut.v`: the beginning of a text of lines is some whole lines and the beginning of one; each parser is worked out on every beginning of a line.
* **C129 An amendment that was interrupted can be made again.** `Again.v` (an attempt), `SpecAgain.v` (attempts, the same head bag), `AgainProofs.v`, `AgainProofs2.v`, `Props_Again.v`, `Props_Again2.v`: an invariant of what the writes leave, kept by each kind of write; from it C114 gives success and C41-C44 give the result, which depends only on what the invariant keeps.
* **C130 A conversion to a single multibag that was interrupted can be made again.** `Reconvert.v` (a conversion up to any stop), `SpecReconvert.v` (conversions), `ReconvertProofs.v`, `ReconvertProofs2.v`, `Props_Reconvert.v`, `Props_Reconvert2.v`: an invariant of what the writes leave, as for C129 but without any condition on the text of the lists, since conversion never reads them; from it C116 gives success and C46 the result.
* **C131 An Amender may be finalized on the way: the bag is as if it had been amended once.** `Stepwise.v` (the methods as calls), `SpecStepwise.v` (same_amendment), `StepwiseProofs.v`, `StepwiseProofs2.v`, `StepwiseProofs3.v`, `Props_Stepwise.v`, `Props_Stepwise2.v`: an invariant between calls, of the members and of the table with and without the entries of the new head bag; listing the new head bag again is idempotent.
* **C132 A split that stops anywhere leaves complete bags and at most one that is only begun.** `SplitStop.v` (the output directory after n steps), `SpecSplitStop.v` (unfinished, says_head, but_lists, first_bags), `SplitStopProofs.v` (the operations on one path: written once or with the same content, or emptied and then appended to), `Props_SplitStop.v`: induction over the manifests of the plan.
* **C133 Splits that run at the same time into one directory do not mix their bags.** `SplitRace.v` (processes, steps, schedules), `SplitRaceProofs.v` (a process alone against `plan_left` of C132), `SplitRaceProofs2.v` (invariant: the shared directory is the union of what each makes alone), `Props_SplitRace.v`.
* **C134 A head bag that a split has begun is not restored to a part of what was split.** `Props_SplitUse.v`: C132_head (all other bags are complete and the head bag has everything but the lists) with C33_combination and the lemmas of C32.
* **C135 A restoration is not disturbed by other work in the directory of the member bags.** `RestoreWhile.v`: the restorer again, with bags that are a function of time; `Props_RestoreWhile.v`: equality with the restoration of bags that do not change, and the outcomes of C133.
* **C136 Restorations into the same directory at the same time.** `RestoreRace.v`: the restorer as a program of steps on the destination; `RestoreRaceProofs.v`: what each step keeps true whatever the others have done; `Props_RestoreRace.v`: all schedules.
* **C137 A split with hard links that stops leaves the source as it was.** `SplitStopLink.v`: the stopped split of C132 on the state of C31 (source, output bag, links); `Props_SplitStopLink.v`: an invariant of the operations on one bag and an induction over the bags.
* **C138 Restoring a head bag in place can be stopped and started again.** `InPlaceStop.v`: the steps of C136 for one process whose destination is the head bag; `Props_InPlaceStop.v`: the invariant of C136, and a second one that the files of the head bag other than manifests and fetch.txt stay until the multibag directory is removed.
* **C139 A bag restored with its multibag tags can be restored again.** `Props_RestoreTwice.v`: the restored tree of C33 as head bag for a second restoration.
* **C140 A split does not depend on the order in which the file system lists files.** `Props_Reproducible.v`: permutations of the tree; the work list of C18 is the same, and what completes the plan is a permutation.
* **C141 Keeping the lists of a head bag changes nothing outside of the bag.** `SaveWhere.v`: the four methods on the whole file system of `Query.v`; `Props_SaveWhere.v`: paths by `resolve` (C53, C54).
* **C142 A restored bag does not depend on the order in which the file system lists files.** `Props_RestoreListing.v`, `Props_RestoreListing2.v`: permutations of the trees, with the combination rule of C33 and the checksums of C37.
* **C143 Validation does not depend on the order in which the file system lists files.** `Props_ValidListing.v`: permutations of the tree; each step of the validators reads the tree by path or counts files, and adds to the results without looking at them.
* **C144 A head bag does not depend on the order in which the file system lists files.** `Props_HeadListing.v`, `Props_SizeListing.v`, `Props_HeadHistory.v` (every history of calls): permutations of the trees; reading goes by path, and C11 says what is registered.
* **C145 Questions about a head bag do not influence each other.** `Props_HeadReads.v`: an invariant: each cache is empty or holds what is on disk; induction over the questions.

## 5. Findings

Properties which the code does not have. Each has a theorem with the suffix `_refuted` that
gives the witness, and where possible a `_partial` theorem for the inputs on which it holds.

* **C03 Every profile-legal name survives the lookup table in every access mode.** Where the lines of a text file end for the two ways of reading is said by C03_lines and C03_crlf. REFUTED for directory bags (names with U+2028 etc. make the table unreadable); proved for read-only access. Theorems: `C03_legal_names_refuted`.
* **C04 member-bags.tsv lines round-trip.** REFUTED with extra information fields (NameError) and for URIs starting with #; proved otherwise. Theorems: `C04_info_refuted`, `C04_hash_uri_refuted`.
* **C05 Blank padding around the TAB in lookup lines is ignored.** REFUTED: padding next to the TAB is kept; only outer padding is ignored. Theorems: `C05_padding_refuted`, `C05_member_padding_refuted`.
* **C08 Removing a member bag removes every trace of it.** REFUTED when the member list was not read before; proved when it was. Theorems: `C08_remove_member_refuted`.
* **C09 Marking a file deleted keeps earlier marks.** REFUTED when the deleted list was not read before; proved when it was. Theorems: `C09_set_deleted_refuted`, `C09_unset_deleted_refuted`, `C09_remove_member_refuted`.
* **C11 update_for_member registers exactly the selected files.** Proved for directory bags with lists; REFUTED for read-only bags (exclusion of a directory does not reach subdirectories) and for exclude given as a string. Theorems: `C11_readonly_refuted`, `C11_string_exclude_refuted`.
* **C20 A splitter's plan covers the whole bag.** REFUTED: the dot in the expressions for special files is not escaped, so a top-level tag file such as bagit-txt is in no output bag; and a file such as data/fetch.txt that is reserved for the head bag is in no bag at all (C20_forhead_refuted). Proved: everything else is named exactly once. Theorems: `C20_plan_covers_the_bag_refuted`, `C20_forhead_refuted`.
* **C21 A complete plan includes every payload file.** REFUTED: a payload file whose base name looks like a BagIt file (data/fetch.txt) is not required, so is_complete() is true without it. Proved for other names. Theorems: `C21_complete_plan_has_all_payload_refuted`.
* **C22 Files reserved for the head bag go to the head bag.** REFUTED for relative paths (never reserved, and the list of the caller is changed), and for files called like those of BagIt, which get lost (C20_forhead_refuted). Proved for other paths with a leading slash. Theorems: `C22_forhead_refuted`, `C20_forhead_refuted`.
* **C26 Exactly the last bag of a split is the head and lists all members in order.** Proved for names that can be stored; REFUTED for the repeats: a name listed twice in a source that is a head bag is listed twice in the new head. Theorems: `C26_refuted`.
* **C27 The head bag of a split locates every file.** Proved for storable names; REFUTED for a file with a tab in its name, which is not found. Theorems: `C27_refuted`.
* **C28 Split bags carry the source's checksums for the files they hold.** Proved for names that can be written into manifests; REFUTED for a line break in a file name, which is not encoded in the manifests of split bags. Theorems: `C28_refuted`.
* **C30 bag-info of split bags passes metadata on as documented.** Proved for values on at most two lines; REFUTED for a value on three lines, which is not passed on as it is. Theorems: `C30_refuted`.
* **C31 Splitting leaves the source bag untouched.** REFUTED: a source that is a head bag, split by a completed plan made from its directory (which links files), gets its member list overwritten. Proved for plans without the files that a split writes; the splitters open their source read-only and copy. Theorems: `C31_refuted`.
* **C32 Split then restore gives the bag back.** Proved with success of the restoration for sources that are not multibags, were opened from a path, and record checksums for the same algorithms in manifests and tag manifests; for any source if the restoration ends without an error. REFUTED otherwise: a bag with manifests for two algorithms and a tag manifest for one of them is split without an error, but restoring its bags raises KeyError. Theorems: `C32_refuted`.
* **C34 Deleted paths are not restored, everything else is.** Proved for restorations into a new directory. REFUTED in place: a deleted path that the head bag itself has stays. Theorems: `C34_in_place_refuted`.
* **C35 Restoring into an existing bag never changes files already there.** REFUTED for other files in a multibag directory of the destination: they get removed with it. Proved for everything else. Theorems: `C35_refuted`.
* **C36 An interrupted restore can be re-run.** Content: proved for stops between steps. For a stop in the middle of copying a file C36_cut says that exactly this file is wrong after the second run: REFUTED there, because what exists is not copied again (C36_cut_refuted). REFUTED for checksums: files copied before the stop are missing in the manifests afterwards. Theorems: `C36_refuted`, `C36_cut_refuted`.
* **C37 Restored manifests describe the copies that were restored.** Proved when the head bag has a payload manifest for every algorithm that some member has. REFUTED otherwise: the manifest of a member is copied as it is, with the checksums of replaced files. Theorems: `C37_refuted`.
* **C38 Restore copes with members using different checksum algorithms.** REFUTED: the restoration can end with a KeyError. What holds is C94_consistent_aggregations_restore: it succeeds if all members use the same algorithms. Theorems: `C38_refuted`.
* **C39 fetch.txt is merged as documented.** REFUTED: the first member wins, the lines of the head bag get lost, deleted paths stay, and a line after one without a line break is lost in it. Proved as documented if no path is listed twice or deleted and either only the head bag or only other bags have lines; and an exact description of the merge. Theorems: `C39_order_refuted`, `C39_head_refuted`, `C39_deleted_refuted`, `C39_newline_refuted`.
* **C40 Restored bags are no longer multibags.** Proved for the directory "multibag". REFUTED for head bags that name another tag directory: it stays, or the restoration fails in the end. Theorems: `C40_refuted`, `C40_fails_refuted`.
* **C42 Amending updates the lookup.** Exact description of the new lookup in all cases. As documented for amendment bags with different names that the old lookup does not name; REFUTED when a bag is added again with other files: files it had overridden are not found any more. Theorems: `C42_refuted`.
* **C43 Amending keeps deletions.** REFUTED: the old deleted.txt is never read, deleted.txt of the new head stays as it is. Theorems: `C43_refuted`.
* **C44 Amending records the deprecated version.** Proved for the tags. The files of the amendee are never changed; REFUTED for the tags of its handle in memory: the list of deprecated versions is shared and grows. Theorems: `C44_amendee_refuted`.
* **C45 Interrupted head creation is never taken for a finished head.** Splitting only so far. REFUTED: bag-info.txt is written before the member list and the lookup. Proved for the steps before and after, and for member bags. Theorems: `C45_split_refuted`.
* **C45 Interrupted head creation is never taken for a finished head.** Proved for amendments. Splitting REFUTED: bag-info.txt is written before the member list and the lookup; proved for the steps before and after, and for member bags. Theorems: `C45_split_refuted`.
* **C45 Interrupted head creation is never taken for a finished head.** Proved for amendments, and for single multibags of bags that have a Multibag-Version. REFUTED for other single multibags and for splits: bag-info.txt is written before the member list and the lookup; for splits proved for the steps before and after, and for member bags. Theorems: `C45_split_refuted`, `C45_single_refuted`.
* **C46 make_single_multibag makes a proper head bag.** Proved for paths without a slash at the end, payloads with files and tags of version 0.3 or later of the profile. REFUTED for each of the others: the bag is not listed, there is no lookup, the lookup has entries of other bags. Theorems: `C46_slash_refuted`, `C46_empty_refuted`, `C46_old_profile_refuted`.
* **C48 ensure_valid raises exactly when is_valid is false.** Proved. The count in the message of the exception is not that of the wanted tests that failed: REFUTED for the default mask. Theorems: `C48_message_refuted`.
* **C50 Absolute URLs are accepted in member-bags.tsv.** C50_partial says exactly which URLs pass: those with a scheme and no host. REFUTED: every URL with a scheme and a host fails. A comment in a line without a URL is taken for the URL and fails as well. Theorems: `C50_refuted`, `C50_comment_refuted`.
* **C51 The member-bag validator reports illegal bag names.** REFUTED: without results of the caller the tests of the name are not recorded, and the bag is valid. Proved when results are passed in. Theorems: `C51_refuted`.
* **C53 Manifest and fetch paths accepted as safe stay inside the bag.** REFUTED: the prefix test compares characters, so ../bag-evil/x is safe for a bag called bag. Proved: an accepted path is inside of the bag or of such a sibling; plain paths are inside and accepted. Locations are absolute. Theorems: `C53_safe_paths_refuted`.
* **C54 Bag access methods are confined to the bag.** REFUTED in the same way as C53. Theorems: `C54_confined_refuted`.
* **C55 Checksums written by split are read back.** REFUTED for paths with line breaks, outer blanks, a leading asterisk or a literal %0A/%0D; proved for all other normalized paths. Theorems: `C55_hash_lines_refuted`.
* **C56 bag-info tags written by split are read back.** Proved for values on one line; REFUTED for values with two or more continuation lines, which change each time they are rewritten. Theorems: `C56_tags_refuted`.
* **C57 Uniform size generator is exact.** Proved for totals and counts below 2^50. REFUTED otherwise: a count of zero divides by zero, and from 2^53 on the sizes need not add up. Theorems: `C57_refuted`.
* **C58 Test files have the requested size.** Proved for sizes below 2^53, with the line lengths. REFUTED for negative sizes (an exception) and for huge sizes, where too many lines are written. Theorems: `C58_refuted`.
* **C60 Validation issues survive the tuple form.** REFUTED for every issue: from_tuple raises TypeError, and the JSON form AttributeError. Theorems: `C60_refuted`, `C60_json_refuted`.
* **C61 Opening and upgrading bags respects read-only.** Proved: no update methods for read-only bags or with readonly; files, tags and (but for one step) caches are kept. REFUTED: upgrading a head bag for reading to one for updates drops its caches (the answers stay the same while the files do); readonly takes nothing away from a HeadBag; _NoUpdateHeadBag cannot be instantiated. Theorems: `C61_refuted`.
* **C62 Tuple and string versions compare consistently.** REFUTED as stated: a tuple Version never equals a string Version and ordering raises TypeError; tuples among themselves are ordered. Theorems: `C62_tuple_string_refuted`.
* **C63 Saved aggregation data are read back under any profile version.** REFUTED for Multibag-Version below 0.3; proved from 0.3 on. Theorems: `C63_old_version_refuted`.
* **C64 replicate copies or raises.** ValueError is raised exactly if the path is not in the bag, and then nothing has changed (C64_read_only_raises, C64_directory_raises). Read-only bags have it (the directory case rests on a recalled behaviour of the fs library, see DESIGN.md section 2). REFUTED for directory bags: a failing copy is not reported. Proved with a logger, or if copying does not fail, unless the destination is a directory. Theorems: `C64_refuted`.
* **C65 Re-reading discards unsaved state.** The re-reading call itself answers from disk; REFUTED for later calls when the file is missing. Theorems: `C65_discard_refuted`.
* **C66 Repeated Multibag-Tag-Directory tags are tolerated.** REFUTED: TypeError for every repeated tag. Theorems: `C66_repeated_tag_refuted`.
* **C67 The way a bag directory is named does not matter.** REFUTED for every location that normalizes to ".": all queries answer no and all manifest paths are unsafe. Proved for all others. Theorems: `C67_location_refuted`.
* **C68 Running out of names is reported as such.** REFUTED for an iterator without any name (UnboundLocalError); proved otherwise. Theorems: `C68_out_of_names_refuted`.
* **C69 Completing a plan keeps bag names distinct.** REFUTED: a plan named with SimpleNamer and then completed has two bags of the same name. Theorems: `C69_completed_names_refuted`.
* **C70 Bags without bag-info.txt can be split.** REFUTED: no split of a bag without bag-info.txt succeeds. Theorems: `C70_refuted`.
* **C71 apply_iter accepts any naming iterator.** REFUTED: the method next() is called, so a Python 3 generator raises AttributeError. Proved for iterators with that method. Theorems: `C71_refuted`.
* **C72 Splitting a valid bag makes valid bags.** REFUTED for head bags: the tag manifest keeps the checksum of the old member list. Proved for plans without the files that a split writes. Theorems: `C72_refuted`.
* **C75 Metadata is merged without aggregation-info.** Tags that the head bag has itself have the value merging gives (C75_partial). REFUTED in general: only bag-info.txt of the last bag counts, and Bag-Count and other Multibag-* tags stay. Theorems: `C75_refuted`.
* **C77 Validation of a head bag ends with results.** REFUTED for every bag that is not a head bag: validate() raises. Proved for bags with a head version, a multibag directory and a data directory. Theorems: `C77_refuted`, `C77_deprecates_refuted`.
* **C78 The profile version is checked.** A repeated version fails (C78_partial). REFUTED: any single value passes. Theorems: `C78_refuted`.
* **C79 A bag that passes validation can be used as a head bag.** Proved for member lists without white space around the fields and versions from 0.3 on. REFUTED for padded names, empty bag names in the file lookup and version 0.1. Theorems: `C79_refuted`, `C79_lookup_refuted`, `C79_version_refuted`.
* **C80 Validation does not depend on how the bag is named.** Locations without a slash at the end all give the same results (C80_partial). REFUTED: with a slash at the end of the location every head bag fails. Theorems: `C80_refuted`.
* **C82 Self-deprecation is reported exactly for a bag that deprecates itself.** REFUTED: another head bag with the same version is taken for the bag itself. Proved: a bag that deprecates itself is always reported. Theorems: `C82_refuted`.
* **C83 A bag made a single multibag passes validation.** Proved for bags with payload, ordinary recommended tags and an accepted identifier. REFUTED otherwise: an empty Internal-Sender-Description stays, an identifier with a host is not accepted, and without payload no lookup is written. Theorems: `C83_refuted`.
* **C84 Remarks of validation name the bad lines.** Proved for the tests on lines. REFUTED for payload files missing from the lookup: the result never names any. Theorems: `C84_missing_refuted`.
* **C85 The member-bag validator decides its rules.** Proved when results are passed in. REFUTED otherwise: the results of the multibag rules are thrown away, and the bag passes on plain validity and its version tag alone. Theorems: `C85_refuted`.
* **C86 The head bag of an amendment passes validation.** Proved when the new head bag has payload and ordinary recommended tags, the members taken over have accepted URLs, and the deprecated versions are others. REFUTED otherwise: amending may keep the version of the amendee, or take over a URL that is not accepted. Theorems: `C86_refuted`.
* **C87 open_bag opens the bag at the location.** Proved for archives and for directories without a slash at the end. REFUTED: with a slash the bag has no name; an archive with the bag at its root is opened at a bag inside of the payload. Theorems: `C87_refuted`.
* **C89 Validation of a plain bag ends with a report.** Proved for version 0.97 and later with well-formed fetch.txt and Payload-Oxum. REFUTED: a Payload-Oxum without a dot or a blank line in fetch.txt raises ValueError; other malformed values raise BagError, for which the validator raises AttributeError; a repeated BagIt-Version raises AttributeError on opening. Theorems: `C89_refuted`, `C89_open_refuted`.
* **C91 The head bag of a split passes validation.** Proved for all wanted types without recommendations, and sources that are not head bags. REFUTED with recommendations: the head bag of a split never has a Multibag-Reference, which the validator recommends. Theorems: `C91_refuted`.
* **C98 A plan that fits is followed.** C98_refuted: plans that do not fit. Repeated sets get more files than the total, more sets than files raise ZeroDivisionError on the way, and a size without a number of files is ignored. Theorems: `C98_refuted`.
* **C99 Making a test dataset ends.** Random numbers are assumed to cover their range again and again. Without enough names the search never ends (C99_refuted), because the counter that was to widen it is never changed. Theorems: `C99_refuted`.
* **C101 Restoring an amended aggregation gives the old version with the amendment laid over it.** Holds for every path that the old version had not deleted. REFUTED for those: a file that the old head bag deleted, and that no bag of the amendment has, is back in the new version (C101_refuted; a consequence of C43). Theorems: `C101_refuted`.
* **C102 Restoring a single member lays it over or under the destination.** Content: proved with and without overwriting. REFUTED for the manifests when overwriting: those of the member replace those of the destination first, so that files of other members are not listed any more. Theorems: `C102_manifests_refuted`.
* **C103 Restoring a single member notes its lines of fetch.txt by path.** REFUTED: lines are recorded under URL and length in place of the path. C103_refuted is for all members with well-formed lines: no path of a line is ever a key because of the call. A blank line raises IndexError. Theorems: `C103_refuted`, `C103_blank_refuted`.
* **C104 Restored files and directories carry the modification times of the copies restored.** Proved for files, and for directories whose time is not 0, of bags whose times are all known. REFUTED for a directory with the time 0 (the epoch), which is taken for none. If fs gives no time for an entry, restoring ends with TypeError. Theorems: `C104_refuted`, `C104_unknown_refuted`.
* **C105 Renaming the tag directory keeps the aggregation.** However the call ends, every entry of the bag is in a directory, and no directory above the old tag directory is left empty (C105_directories). Proved for the same object, and for a bag opened again after the tags are saved; names without "." and "..". REFUTED before the tags are saved: the files are moved at once, and whoever opens the bag finds no aggregation (for all bags). REFUTED for a move of the directory into itself: it fails, but leaves new directories. REFUTED without migration for a directory whose parent does not exist: saving raises OSError (for all bags). Theorems: `C105_unsaved_refuted`, `C105_inside_refuted`, `C105_nested_refuted`.
* **C106 The text of a validation error tells what failed.** Proved for the wanted types ERROR, PROB and ALL, and for all if at most three tests failed. REFUTED if only recommendations or warnings are wanted: the text may be about other tests only. Theorems: `C106_refuted`.
* **C108 Member bags are taken from the cache directory, the same ones in every run.** Confined to the cache directory for names without slash other than the empty one, "." and "..". The same in every run if there is a directory or at most one archive. REFUTED otherwise: with two archives the order of a Python set decides (for all disks, names and pairs of extensions); an absolute path as name is taken as it is; the empty name gives the cache directory itself. Theorems: `C108_refuted`, `C108_absolute_refuted`, `C108_empty_refuted`.
* **C111 The size that a bag declares is the size that it has.** Proved for amendments and single multibags, up to 0.05% and 12 bytes. A restored bag declares the size of its files and directories together, up to 0.05% and 26 bytes, if a tag Bag-Size it had before is one line of ASCII (for a repeated tag the code subtracts the number of values, not modelled as a theorem). REFUTED for the size of the files of a restored bag alone. Theorems: `C111_restored_refuted`.
* **C114 Amendments succeed.** Proved for amendees that are plain bags or have readable lists and members without extra fields. Refuted otherwise: an aggregation without any payload file gets no file-lookup.tsv and can never be amended again (multibag.py 244-257, 609-617), and a member with extra fields stops the writing of the member list with a NameError (multibag.py 59). Theorems: `C114_no_payload_refuted`, `C114_fields_refuted`.
* **C116 Any bag can be made a multibag and then be amended.** C116_first_version says that the converted bag meets what C112 to C115 ask of a first version. The condition of a payload file is needed: C116_no_payload_refuted shows that no bag without payload files can be amended after it was converted, because no list of files is written for it. Theorems: `C116_no_payload_refuted`.
* **C117 A bag answers alike however it was opened.** Proved for relative paths that are inside of the bag after every step and do not lead below a file. Refuted otherwise (C117_alike_refuted): absolute paths are taken as relative in read-only bags and as outside in directory bags; a path that leaves the bag and comes back is found in directory bags and refused in read-only ones; and directory bags answer about directories beside the bag whose name extends its name (C54). Theorems: `C117_alike_refuted`.
* **C121 Where a restoration reads and writes.** Proved apart from what is refuted: a cache directory given beside the destination is made too if its path begins with that of the destination (C121_created_refuted), one inside it is not made if given by a relative path (C121_relative_refuted), and a path that begins with exactly two slashes is not seen to lead to the head bag (C121_slashes_refuted), which does no harm to its files when they are copied (C121_alias). Symbolic links are not followed in the model; the head bag is not the root directory. Theorems: `C121_created_refuted`, `C121_relative_refuted`, `C121_slashes_refuted`.
* **C122 Splitting with one call, and many bags into one directory.** Proved for one call and for many bags with different base names. Refuted: that different paths are enough. Bags whose names differ in the extension only have the same base name, as have all bags whose paths end with a slash (an empty one), and the second of them to be split into the same directory fails with an OSError (C122_base_used with C122_extensions_refuted and C122_slash_refuted). Naming iterators are covered by C23 and C25 only. Theorems: `C122_extensions_refuted`, `C122_slash_refuted`.
* **C124 Split bags may be handled while the split goes on.** Proved for sources that are copied from (opened read-only, as the splitters do, or on another file system). With hard links, proved for moving bags away and for writing files that the split made or that the source does not have; in general a file of the source changes at most if the caller wrote that file in a new bag. REFUTED otherwise: appending to a payload file of a new bag, which the documentation allows, changes the source bag, which is then invalid (C124_edit_refuted). Theorems: `C124_edit_refuted`.
* **C125 Bags made by the library conform to the published BagIt profiles.** Proved: exactly which bags have tags that follow the profiles (splits: for source tag values of one line), and that split bags have the BagIt version of the source. REFUTED: a source with both a Bag-Group-Identifier and an External-Identifier gives split bags with two group identifiers; a bag with an Internal-Sender-Description of its own gets a second one when it becomes a head bag; no head bag has the tag files required by the head profile (group-members.txt, group-directory.txt, of version 0.2) unless the source already has them. Theorems: `C125_split_tags_refuted`, `C125_split_files_refuted`, `C125_head_files_refuted`, `C125_described_refuted`.
* **C126 Fetching member bags while restoring makes no difference.** Proved for restorations that remove the multibag tags (the default), for bags without a path multibag/_membercache of their own and member names that are names of directories; the bags may come as directories or as archives, some so and some so, and the file of an archive is not one that another member bag is looked for as. REFUTED with remove_multibag_tags=False: the restored bag keeps all the fetched bags in multibag/_membercache and lists them in its tag manifests. How an archive is unpacked is a parameter. Theorems: `C126_kept_refuted`.
* **C127 A head bag can be updated through several handles.** Proved for all histories: handles that do not save disturb nobody, and re-reading answers from disk. Nothing is lost if a handle reads all three lists again before it changes and saves them, and no other saves in between (C127_turns_partial; the others may ask and change what they have in memory). REFUTED without that: of two handles that had both read the list, the second to save undoes what the first saved, and no exception is raised. Calls do not overlap in time. Theorems: `C127_lost_refuted`.
* **C128 A stop while a list is being saved is noticed.** REFUTED: the file is emptied and written again, so the old list is never what is left, and for every k there is a stop after which the first k member bags are read without error (C128_members_refuted). Proved for all stops is exactly what can be read: the first entries, and perhaps what is left of the next: a member with its name or URI cut, an entry whose path is right and whose bag has its name cut (or an exception), a deleted path cut to another one. No other file changes. C128_harm_refuted: a file that was not to be deleted is read as deleted. Theorems: `C128_members_refuted`, `C128_harm_refuted`.
* **C129 An amendment that was interrupted can be made again.** Proved for stops between writes (C129_again_partial): tags with plain values, all except Bag-Size and Bag-Count. Missing, because REFUTED: a stop in the middle of a write. If the table of files was cut inside a path, the amendment cannot be made again, because the table is read before it is removed (C129_table_refuted); if bag-info.txt had just been emptied, it can, but the tags that the bag had are lost (C129_tags_refuted). C129_gap_refuted: while an amendment is made again, the bag is a designated head bag without lists. Opening the bag is modelled as reading its tags. Theorems: `C129_table_refuted`, `C129_tags_refuted`, `C129_gap_refuted`.
* **C130 A conversion to a single multibag that was interrupted can be made again.** Proved for stops between writes and in the middle of writing the member list or the list of files, whatever text is left there (C130_again_partial): tags with plain values, all except Bag-Size and Bag-Count. C130_whole: finished conversions are among the earlier ones, so converting twice is converting once. Missing, because REFUTED: a stop in the middle of writing bag-info.txt, after which the tags that the bag had are lost (C130_tags_refuted). Stops in the middle of writing a tag manifest are not modelled. Theorems: `C130_tags_refuted`.
* **C131 An Amender may be finalized on the way: the bag is as if it had been amended once.** Proved for the default arguments of the methods (C131_stepwise_partial) except that the order of the lines of the table of files, and with it Bag-Size, may differ; C131_amend: amend_bag_with is one of these sequences of calls. REFUTED for init_from_amendee called a second time: if the amendee deprecates several versions, the list is shared with the new head bag, and the version of the amendee is appended to it twice (C131_init_refuted); if it deprecates one or none, the tag is set as before (C131_init_again). Missing: the other arguments of the methods. Theorems: `C131_init_refuted`.
* **C133 Splits that run at the same time into one directory do not mix their bags.** C133_race is about any processes and schedules; the last sentence of the property is refuted by C133_both_refuted. A step makes the directory of a bag (os.mkdir is taken to be atomic) or does one operation on its files; the write of one file is one step. The sources do not change while they are read. Theorems: `C133_both_refuted`.
* **C134 A head bag that a split has begun is not restored to a part of what was split.** C134_listed: proved if the list of member bags is there, even if the table of files and aggregation-info.txt are not. C134_unlisted: without the list, restoring a head bag that was opened read-only raises an exception. REFUTED for one that is given by its path, because it is opened for writing and then a missing list is an empty one: the restored bag has exactly what the head bag has, and restoring succeeds if the directory of the lists was made (C134_refuted). The write of one file is one step. Hypotheses as for C32 (the source is not a multibag) and C132 (the plan does not name the files that a split writes itself). Theorems: `C134_refuted`.
* **C135 A restoration is not disturbed by other work in the directory of the member bags.** Proved for all schedules. REFUTED for unpacking: a directory is preferred to an archive as soon as it is there, so restoring while the directory is being filled takes what it has by then, succeeds, and leaves out the rest (C135_unpacked_refuted). A bag is listed at one moment; each file is copied at its own moment. Nobody else writes to the destination. Theorems: `C135_unpacked_refuted`.
* **C136 Restorations into the same directory at the same time.** The files: proved for all schedules; C136_alone shows that the steps are those of the restoration of C33. REFUTED for the manifests: a process that looked for the manifest before another one wrote it copies the one of the head bag over it; both end without an exception and files of the members are not listed (C136_manifest_refuted). REFUTED for exceptions: os.makedirs raises one if another process has made the directory meanwhile (C136_exception_refuted). Copying or writing one file is one step; no member bag is the destination. Theorems: `C136_manifest_refuted`, `C136_exception_refuted`.
* **C137 A split with hard links that stops leaves the source as it was.** For every plan and every stop: the source keeps its files and directories, and only files that are planned although the split makes them anew (bag-info.txt, manifests, the lists of a head bag) can change (C137_source; C137_ended for a split that ends normally, which extends C31 to all plans). If no such file is planned nothing changes (C137_as_copied). REFUTED otherwise: complete_plan plans the lists of a head bag, and after a stop the member list of the source names a bag that is not finished (C137_refuted). A write of a file is one step. Theorems: `C137_refuted`.
* **C138 Restoring a head bag in place can be stopped and started again.** The first part holds for every stop and every path outside of the multibag directory and the files that describe the bag (C138_kept). REFUTED: starting again is impossible if the head bag has an aggregation-info.txt, as those that splitting makes have. This becomes the bag-info.txt in the first step, and from there on the bag is refused as not being a head bag, or its multibag directory is gone and restoring fails (C138_no_return, C138_gone, C138_refuted). Without that file, and with a deleted.txt, the lists stay as they were until the multibag directory is removed, and a restoration that is started again and ends without an exception gives the right files (C138_again_partial). Missing: that it does end without an exception, and stops within the writing of a file. Theorems: `C138_refuted`.
* **C139 A bag restored with its multibag tags can be restored again.** The lists are the same, and so are the files and directories after a second restoration that succeeds, in place (C139_in_place) or elsewhere (C139_elsewhere), also if the former head bag is now visited as a member. For head bags with a deleted.txt that does not delete multibag tag files, the default tag directory and a handle that looks for the lists in the same place. REFUTED for head bags with an aggregation-info.txt, as those that splitting makes have: the restored bag has the lists but is refused as not being a head bag (C139_refused for update_sizes=False, C139_refuted for the default). Theorems: `C139_refuted`.
* **C140 A split does not depend on the order in which the file system lists files.** The plans have the same bags with the same names, sizes and sets of files; all but the last are the same to the order (C140_plan, both splitters). Splits by such plans that succeed make bags with the same names and the same copied files (C140_bags). REFUTED for the files that a split writes itself: manifests and lists of the last bag have their lines in the order of the listing, so that it is not the same to the byte (C140_refuted). Theorems: `C140_refuted`.
* **C141 Keeping the lists of a head bag changes nothing outside of the bag.** Only the named directory and the three lists in it change, whether or not the calls fail (C141_only_lists); so nothing outside of the bag changes if the name leads into it (C141_confined_partial), and then what was saved is read back (C141_read_back). REFUTED for other names: nothing checks the name, so that it is followed to any directory (C141_followed, C141_any_directory) and another bag's lists are replaced and removed (C141_refuted); the reading methods do not find lists saved there (C141_not_found). With an empty name lists are saved in the bag but looked for at the root of the file system (C141_empty_name). Names set with set_multibag_tag_dir are never absolute and lead into the bag unless they have two dots (C141_set_name). Not modelled: symbolic links and bags at relative paths. Theorems: `C141_refuted`.
* **C142 A restored bag does not depend on the order in which the file system lists files.** Payload-Oxum is the same in both (C142_oxum). A consistent aggregation in the sense of C94 can be restored in both listings (C142_consistent_restored). Two restorations that succeed give the same at every path but the tag files that the restoration writes (C142_restored_partial), and the payload manifests record the same checksums where C37 says which ones (C142_checksums_partial). REFUTED for the text of the manifests: their lines are in the order of the listing, so that the bags are not the same to the byte (C142_refuted). Missing: that one restoration succeeds if the other one does for aggregations that C94 does not cover, and the tag manifests (C76 says what these have). Theorems: `C142_refuted`.
* **C144 A head bag does not depend on the order in which the file system lists files.** C144_update_partial has the conditions of C11_update_for_member_partial. REFUTED for the text of file-lookup.tsv that is saved after it: its lines are in the order of the listing (C144_refuted). Theorems: `C144_refuted`.

{"id": "C01", "title": "Version comparison is a total order on version strings", "statement": "For any version strings, exactly one of a<b, a==b, b<a holds, < is transitive, and <=, >=, >, != are the matching combinations; fields compare as numbers (so 0.10 > 0.9), a proper prefix is smaller, and a non-numeric field counts as -1.", "quantifier": "all version strings", "why_tests_cant": "There are infinitely many strings; transitivity and trichotomy are relations over triples.", "anchors": ["multibag/constants.py:Version", "multibag/constants.py:_2int"]}
{"id": "C02", "title": "Saved file-lookup tables read back unchanged", "statement": "If a head bag's file lookup is saved and the bag is opened again (read-only or updatable), lookup_file returns for every path what it returned before, in the same order, provided paths and bag names obey the profile's name rules and contain no line-break character.", "quantifier": "all lookup tables with legal names", "why_tests_cant": "Ranges over every table and every Unicode name.", "anchors": ["multibag/access/multibag.py:HeadBagUpdateMixin.save_file_lookup", "multibag/access/multibag.py:HeadBagReadMixin.iter_file_lookup", "multibag/access/multibag.py:parse_file_lookup_line_03"]}
{"id": "C03", "title": "Every profile-legal name survives the lookup table in every access mode", "statement": "The profile forbids only TABs and leading/trailing whitespace (file systems forbid '/' and NUL); any such name (here: also without CR/LF) saved in the lookup must be found again whether the bag is opened updatable or read-only.", "quantifier": "all legal names, both access modes", "why_tests_cant": "The failing characters are a handful of Unicode code points that no test uses.", "anchors": ["multibag/access/extended.py:_ExtendedReadWritableMixin.open_text_file", "multibag/access/multibag.py:HeadBagReadMixin.iter_file_lookup"]}
{"id": "C04", "title": "member-bags.tsv lines round-trip", "statement": "Formatting a member description and parsing the line gives back name, URI and comment; also when extra information fields are present.", "quantifier": "all member descriptions with legal fields", "why_tests_cant": "Ranges over all field values and all combinations of optional fields.", "anchors": ["multibag/access/multibag.py:MemberInfo.format", "multibag/access/multibag.py:MemberInfo.parse_line_03"]}
{"id": "C05", "title": "Blank padding around the TAB in lookup lines is ignored", "statement": "As the profile demands, spaces before or after the TAB of a file-lookup.tsv line (or after the name in member-bags.tsv) are not part of the path or the bag name.", "quantifier": "all names and all paddings", "why_tests_cant": "Unbounded padding and names.", "anchors": ["multibag/access/multibag.py:parse_file_lookup_line_03", "multibag/access/multibag.py:MemberInfo.parse_line_03"]}
{"id": "C06", "title": "The file lookup behaves as an ordered map under any history", "statement": "After any sequence of add_file_lookup / remove_file_lookup / lookup_file / save_file_lookup calls on a head bag, lookup_file(p) returns the bag of the latest add of p not followed by a remove, else what the file on disk said; other paths are untouched.", "quantifier": "all call sequences, all initial file contents", "why_tests_cant": "Histories are unbounded.", "anchors": ["multibag/access/multibag.py:HeadBagUpdateMixin.add_file_lookup", "multibag/access/multibag.py:HeadBagUpdateMixin.remove_file_lookup", "multibag/access/multibag.py:HeadBagReadMixin.lookup_file"]}
{"id": "C07", "title": "The member list never repeats a bag and keeps order", "statement": "After any sequence of add_member_bag calls (default override) on an updatable head bag whose list had no repeats, no bag is listed twice, the bag added last is listed last, and the relative order of the others is unchanged.", "quantifier": "all call sequences, all initial lists", "why_tests_cant": "Histories are unbounded.", "anchors": ["multibag/access/multibag.py:HeadBagUpdateMixin.add_member_bag", "multibag/access/multibag.py:HeadBagUpdateMixin.remove_member_bag"]}
{"id": "C08", "title": "Removing a member bag removes every trace of it", "statement": "After remove_member_bag(b) and the three saves, re-reading shows b neither in the member list nor as the location of any file, and the other members and files are as before.", "quantifier": "all head bags, whatever was or was not read before", "why_tests_cant": "Depends on the hidden history of the handle (cached or not).", "anchors": ["multibag/access/multibag.py:HeadBagUpdateMixin.remove_member_bag"]}
{"id": "C09", "title": "Marking a file deleted keeps earlier marks", "statement": "After set_deleted(p) and save_deleted() the deleted list on disk is the old list plus p; unset_deleted(p) removes p only.", "quantifier": "all head bags and call histories", "why_tests_cant": "Depends on whether the list had been read before.", "anchors": ["multibag/access/multibag.py:HeadBagUpdateMixin.set_deleted", "multibag/access/multibag.py:HeadBagUpdateMixin.unset_deleted", "multibag/access/multibag.py:HeadBagUpdateMixin.save_deleted"]}
{"id": "C10", "title": "files_in_member is the inverse of lookup_file", "statement": "files_in_member(b) lists, once each and in lookup order, exactly the paths p with lookup_file(p)==b.", "quantifier": "all lookup tables", "why_tests_cant": "All tables.", "anchors": ["multibag/access/multibag.py:HeadBagReadMixin.files_in_member"]}
{"id": "C11", "title": "update_for_member registers exactly the selected files", "statement": "update_for_member(bag, include, exclude) adds to the lookup exactly the existing files named by include or below an included directory and not excluded (by itself or through an excluded directory), pointing at the bag; all other entries stay. The result does not depend on whether the bag is a directory or read-only.", "quantifier": "all bags, include and exclude lists", "why_tests_cant": "All trees and all selections.", "anchors": ["multibag/access/multibag.py:HeadBagUpdateMixin.update_for_member", "multibag/access/extended.py:_ExtendedReadWritableMixin.walk", "multibag/access/extended.py:_ExtendedReadOnlyMixin.walk"]}
{"id": "C12", "title": "The well-packed split is a partition", "statement": "For any list of files, WellPackedSplitter terminates and puts every file in exactly one output bag; no output bag is empty.", "quantifier": "all file lists, sizes and limits", "why_tests_cant": "All inputs, and termination.", "anchors": ["multibag/split.py:WellPackedSplitter._apply_algorithm"]}
{"id": "C13", "title": "Output bags respect the size limit", "statement": "Every planned bag has total size <= maxsize unless it holds exactly one file which alone exceeds maxsize; the recorded total is the sum of the file sizes.", "quantifier": "all file lists sorted by size, all limits", "why_tests_cant": "All size distributions.", "anchors": ["multibag/split.py:WellPackedSplitter._apply_algorithm", "multibag/split.py:NeighborlySplitter._apply_algorithm"]}
{"id": "C14", "title": "Target size and tight packing", "statement": "A planned bag exceeds targetsize by at most its last file, and a bag closed without exceeding the target could not have taken any file that was packed later without exceeding maxsize.", "quantifier": "all file lists and limits", "why_tests_cant": "All inputs.", "anchors": ["multibag/split.py:WellPackedSplitter._apply_algorithm"]}
{"id": "C15", "title": "The number of bags is at most about twice the optimum", "statement": "With targetsize equal to maxsize, any two output bags of the well-packed split together exceed maxsize, hence the number n of bags satisfies (n-1)*maxsize < 2*total.", "quantifier": "all file lists and limits", "why_tests_cant": "All inputs.", "anchors": ["multibag/split.py:WellPackedSplitter._apply_algorithm"]}
{"id": "C16", "title": "The neighborly split terminates, partitions and respects the limit", "statement": "Same as C12 and C13 for NeighborlySplitter.", "quantifier": "all file lists and limits", "why_tests_cant": "All inputs, and termination of nested loops that restart.", "anchors": ["multibag/split.py:NeighborlySplitter._apply_algorithm", "multibag/split.py:NeighborlySplitter._select_from_dir"]}
{"id": "C17", "title": "The neighborly split keeps directories together", "statement": "Within one output bag the files of one directory are contiguous and directories appear in cyclic lexicographic order starting at the directory of the largest unplaced file.", "quantifier": "all file lists", "why_tests_cant": "All directory structures.", "anchors": ["multibag/split.py:NeighborlySplitter._dirpaths_for", "multibag/split.py:NeighborlySplitter._select_from_dir"]}
{"id": "C18", "title": "Files are considered biggest first, ties by path", "statement": "The work list is the files sorted by decreasing size and, for equal sizes, increasing path, whatever order the file system lists them in.", "quantifier": "all listings", "why_tests_cant": "All permutations of all listings.", "anchors": ["multibag/split.py:WellPackedSplitter._sorted_files", "multibag/split.py:WellPackedSplitter._cmp_by_size"]}
{"id": "C19", "title": "complete_plan completes any plan and changes nothing else", "statement": "After complete_plan(), is_complete() is true and missing() is empty; existing manifests are unchanged; at most one manifest is added, holding exactly the previously missing files; calling it again changes nothing.", "quantifier": "all bags and partial plans", "why_tests_cant": "All plans.", "anchors": ["multibag/split.py:SplitPlan.complete_plan", "multibag/split.py:SplitPlan.missing", "multibag/split.py:SplitPlan.is_complete"]}
{"id": "C20", "title": "A splitter's plan covers the whole bag", "statement": "The plan of WellPackedSplitter and NeighborlySplitter (no files reserved for the head) names every file and every empty directory of the bag except the BagIt special files at its top.", "quantifier": "all bags", "why_tests_cant": "All trees and names.", "anchors": ["multibag/split.py:WellPackedSplitter._create_plan", "multibag/access/extended.py:ExtendedReadMixin.nonstandard"]}
{"id": "C21", "title": "A complete plan includes every payload file", "statement": "If SplitPlan.is_complete() then every file below data/ is assigned to an output bag.", "quantifier": "all bags and plans", "why_tests_cant": "The failing names are special names in subdirectories.", "anchors": ["multibag/split.py:SplitPlan.is_complete", "multibag/access/extended.py:ExtendedReadMixin.nonstandard"]}
{"id": "C22", "title": "Files reserved for the head bag go to the head bag", "statement": "Files listed in forhead (paths relative to the bag root, as everywhere in the API) are only in the last (head) bag of the plan; the caller's list is not changed.", "quantifier": "all bags and reservations", "why_tests_cant": "All lists.", "anchors": ["multibag/split.py:WellPackedSplitter.__init__", "multibag/split.py:WellPackedSplitter._sorted_files"]}
{"id": "C23", "title": "Output bags get distinct names", "statement": "Splitter.plan() with a base name gives every output bag of the plan a different name, base_1.mbag, base_2.mbag, ... in order.", "quantifier": "all base names and plan lengths", "why_tests_cant": "All lengths.", "anchors": ["multibag/split.py:SimpleNamer", "multibag/split.py:SplitPlan.name_output_bags"]}
{"id": "C24", "title": "find_destination and missing agree; the last listing wins", "statement": "find_destination(p) is the last manifest naming p; missing() lists exactly the required paths with no destination.", "quantifier": "all plans", "why_tests_cant": "All plans.", "anchors": ["multibag/split.py:SplitPlan.find_destination", "multibag/split.py:SplitPlan.missing"]}
{"id": "C25", "title": "Each split bag holds exact copies of its planned files", "statement": "After a split each output bag contains, apart from its own BagIt/multibag tag files, exactly the planned paths that exist in the source (and their parent directories), with identical content.", "quantifier": "all bags and plans", "why_tests_cant": "All trees.", "anchors": ["multibag/split.py:SplitPlan.apply_iter"]}
{"id": "C26", "title": "Exactly the last bag of a split is the head and lists all members in order", "statement": "Only the last output bag carries Multibag-Head-Version; its member list is the source's own members (if it was a head bag) followed by the outputs in order, head last, without repeats.", "quantifier": "all plans", "why_tests_cant": "All lengths and names.", "anchors": ["multibag/split.py:SplitPlan.apply_iter"]}
{"id": "C27", "title": "The head bag of a split locates every file", "statement": "In the head bag of a split, lookup of any planned existing file names an output bag which contains it (the last one planned for it).", "quantifier": "all plans", "why_tests_cant": "All plans.", "anchors": ["multibag/split.py:SplitPlan.apply_iter"]}
{"id": "C28", "title": "Split bags carry the source's checksums for the files they hold", "statement": "For every copied file each split bag records, per algorithm, exactly the checksums that the source records for it, and records none for files it does not hold.", "quantifier": "all bags and plans", "why_tests_cant": "All manifests.", "anchors": ["multibag/split.py:SplitPlan.apply_iter", "multibag/split.py:SplitPlan._record_hash"]}
{"id": "C29", "title": "Payload-Oxum of split bags is right", "statement": "If the source declares Payload-Oxum, each output bag declares bytes.count of its own payload files.", "quantifier": "all bags and plans with distinct paths per bag", "why_tests_cant": "All sizes.", "anchors": ["multibag/split.py:SplitPlan.apply_iter"]}
{"id": "C30", "title": "bag-info of split bags passes metadata on as documented", "statement": "Each source tag not starting with Multibag- and not in info_nopass appears in each output's bag-info with the documented transformation; others do not.", "quantifier": "all tag sets", "why_tests_cant": "All tag sets.", "anchors": ["multibag/split.py:SplitPlan.apply_iter"]}
{"id": "C31", "title": "Splitting leaves the source bag untouched", "statement": "No file of the source bag changes content during a split.", "quantifier": "all source bags, including head bags, both replication modes", "why_tests_cant": "Involves hard-link aliasing between source and output.", "anchors": ["multibag/split.py:SplitPlan.apply_iter", "multibag/access/extended.py:_ExtendedReadWritableMixin.replicate"]}
{"id": "C32", "title": "Split then restore gives the bag back", "statement": "Restoring the output of a complete split recreates every file and directory of the source outside the BagIt special files with the same content and nothing else.", "quantifier": "all bags and complete plans", "why_tests_cant": "Composition over all trees and plans.", "anchors": ["multibag/split.py:SplitPlan.apply_iter", "multibag/restore.py:BagRestorer.restore"]}
{"id": "C33", "title": "Restore implements the documented combination rule", "statement": "The content restored at any non-special path equals that of the documented procedure: copy members in list order, later overwriting earlier, then drop deleted paths.", "quantifier": "all aggregations", "why_tests_cant": "Equivalence of two algorithms on all inputs.", "anchors": ["multibag/restore.py:BagRestorer.restore", "multibag/restore.py:BagRestorer._restore_from"]}
{"id": "C34", "title": "Deleted paths are not restored, everything else is", "statement": "A path is left out iff it, or a directory above it, is in the head bag's deleted list; a sibling whose name merely starts the same is kept.", "quantifier": "all aggregations and deleted lists", "why_tests_cant": "All names.", "anchors": ["multibag/restore.py:BagRestorer._restore_from"]}
{"id": "C35", "title": "Restoring into an existing bag never changes files already there", "statement": "Files present in the destination keep their content (BagIt special files aside).", "quantifier": "all destinations", "why_tests_cant": "All states.", "anchors": ["multibag/restore.py:BagRestorer._restore_from"]}
{"id": "C36", "title": "An interrupted restore can be re-run", "statement": "If restoring stops after any number of file copies and is started again, the final content at every non-special path, and the recorded checksums, are those of an uninterrupted restore.", "quantifier": "all crash points", "why_tests_cant": "All crash points.", "anchors": ["multibag/restore.py:BagRestorer.restore", "multibag/restore.py:BagRestorer._update_manifests"]}
{"id": "C37", "title": "Restored manifests describe the copies that were restored", "statement": "Every payload checksum in the restored manifests is the checksum recorded by the bag from which the file was restored.", "quantifier": "all aggregations", "why_tests_cant": "All overlaps between members.", "anchors": ["multibag/restore.py:BagRestorer._update_manifests"]}
{"id": "C38", "title": "Restore copes with members using different checksum algorithms", "statement": "Restoring an aggregation whose members use different checksum algorithms succeeds.", "quantifier": "all algorithm assignments", "why_tests_cant": "All combinations.", "anchors": ["multibag/restore.py:BagRestorer._update_manifests"]}
{"id": "C39", "title": "fetch.txt is merged as documented", "statement": "The restored fetch.txt has one line per path, that of the last member (head included) listing it, without deleted paths.", "quantifier": "all aggregations", "why_tests_cant": "All overlaps.", "anchors": ["multibag/restore.py:BagRestorer.restore_fetch"]}
{"id": "C40", "title": "Restored bags are no longer multibags", "statement": "After a restore with default options there is no multibag tag directory and none of the five Multibag-* tags of head bags in bag-info.", "quantifier": "all aggregations", "why_tests_cant": "All states.", "anchors": ["multibag/restore.py:BagRestorer.restore"]}
{"id": "C41", "title": "Amending extends the member list in order", "statement": "After amend_bag_with the new head's member list is the amendee's (the amendee alone if it was a plain bag) followed by the amendments and the new head last; bags added again move to their new place.", "quantifier": "all aggregations and amendments", "why_tests_cant": "All lists.", "anchors": ["multibag/amend.py:Amender", "multibag/amend.py:amend_bag_with"]}
{"id": "C42", "title": "Amending updates the lookup", "statement": "After an amendment lookup gives the new head for its payload files, else the last amendment bag holding the file, else what the old head said.", "quantifier": "all aggregations and amendments", "why_tests_cant": "All tables.", "anchors": ["multibag/amend.py:Amender._init_file_lookup", "multibag/amend.py:Amender.finalize"]}
{"id": "C43", "title": "Amending keeps deletions", "statement": "As the profile demands, paths in the old head's deleted.txt stay in the new head's deleted.txt unless the amendment brings them back.", "quantifier": "all aggregations", "why_tests_cant": "Needs the whole amend flow.", "anchors": ["multibag/amend.py:Amender"]}
{"id": "C44", "title": "Amending records the deprecated version", "statement": "The new head's Multibag-Head-Deprecates is the old head's list followed by the old head's version; the amendee is not changed.", "quantifier": "all tag sets", "why_tests_cant": "All lists.", "anchors": ["multibag/amend.py:Amender._init_multibag_info"]}
{"id": "C45", "title": "Interrupted head creation is never taken for a finished head", "statement": "Whenever amend, split or conversion stops between file writes, a bag that was not a head bag is either still not designated as head bag or already has its complete member list and lookup.", "quantifier": "all crash points", "why_tests_cant": "All crash points.", "anchors": ["multibag/amend.py:Amender.finalize", "multibag/split.py:SplitPlan.apply_iter", "multibag/amend.py:SingleMultibagMaker.convert"]}
{"id": "C46", "title": "make_single_multibag makes a proper head bag", "statement": "After conversion the bag is a head bag listing itself as only member, its lookup maps exactly its payload files to itself, and payload files are unchanged.", "quantifier": "all bags", "why_tests_cant": "All trees.", "anchors": ["multibag/amend.py:make_single_multibag", "multibag/amend.py:SingleMultibagMaker"]}
{"id": "C47", "title": "Validation results add up", "statement": "For any recorded results and any mask, applied = passed + failed for that mask, masks are additive, and ok() holds iff no test of a wanted type failed.", "quantifier": "all result sequences and masks", "why_tests_cant": "All sequences.", "anchors": ["multibag/validate/base.py:ValidationResults"]}
{"id": "C48", "title": "ensure_valid raises exactly when is_valid is false", "statement": "For any validator and mask, ensure_valid raises MultibagValidationError iff is_valid returns False.", "quantifier": "all validators and masks", "why_tests_cant": "All results.", "anchors": ["multibag/validate/base.py:Validator"]}
{"id": "C49", "title": "The head-bag validator's member-list tests decide the profile rules", "statement": "On any member-bags.tsv: test 4.1-3 passes iff the bag lists itself, 4.1-4 iff it is last, 4.1-5 iff no name repeats; lookup tests decide format, existence and uniqueness.", "quantifier": "all file contents", "why_tests_cant": "All contents.", "anchors": ["multibag/validate/headbag.py:HeadBagValidator._validate_member_bags_03", "multibag/validate/headbag.py:HeadBagValidator._validate_file_lookup_03"]}
{"id": "C50", "title": "Absolute URLs are accepted in member-bags.tsv", "statement": "Validation test 4.1-2 fails only if some URL field is not an absolute URL.", "quantifier": "all URLs", "why_tests_cant": "All URLs.", "anchors": ["multibag/validate/headbag.py:HeadBagValidator._validate_member_bags_03"]}
{"id": "C51", "title": "The member-bag validator reports illegal bag names", "statement": "MemberBagValidator(bag).is_valid() is False for a multibag member whose name contains a TAB or has outer whitespace.", "quantifier": "all names", "why_tests_cant": "All names.", "anchors": ["multibag/validate/member.py:MemberBagValidator.validate"]}
{"id": "C52", "title": "Manifest loading never silently picks among conflicting checksums", "statement": "Loading manifests yields for each listed path and algorithm the unique checksum listed; conflicting repeats always raise, equal repeats raise for BagIt 1.0+; comments and blank lines are ignored.", "quantifier": "all manifests", "why_tests_cant": "All contents.", "anchors": ["multibag/access/bagit.py:ReadOnlyBag._load_manifests"]}
{"id": "C53", "title": "Manifest and fetch paths accepted as safe stay inside the bag", "statement": "A path that passes the safety check resolves to a location inside the bag directory.", "quantifier": "all paths and bag locations", "why_tests_cant": "Adversarial strings.", "anchors": ["multibag/access/bagit.py:ReadOnlyBag._path_is_dangerous"]}
{"id": "C54", "title": "Bag access methods are confined to the bag", "statement": "exists/isfile/isdir return False for paths resolving outside of the bag's directory.", "quantifier": "all paths and bag locations", "why_tests_cant": "Adversarial strings.", "anchors": ["multibag/access/extended.py:_ExtendedReadWritableMixin._canon_path"]}
{"id": "C55", "title": "Checksums written by split are read back", "statement": "A checksum line written for a path is read back by manifest loading as the same path and checksum.", "quantifier": "all paths and checksums", "why_tests_cant": "All Unicode paths.", "anchors": ["multibag/split.py:SplitPlan._record_hash", "multibag/access/bagit.py:ReadOnlyBag._load_manifests"]}
{"id": "C56", "title": "bag-info tags written by split are read back", "statement": "Tags written to bag-info.txt by the splitter are read back with the same names, values and order of repeats.", "quantifier": "all legal tag values", "why_tests_cant": "All values.", "anchors": ["multibag/split.py:SplitPlan.apply_iter"]}
{"id": "C57", "title": "Uniform size generator is exact", "statement": "UniformSizeIterator(total, n) yields exactly n sizes that add up to total and differ by at most 1.", "quantifier": "all totals and counts (within exact arithmetic)", "why_tests_cant": "All numbers.", "anchors": ["multibag/testing/mkdata.py:UniformSizeIterator.iterate"]}
{"id": "C58", "title": "Test files have the requested size", "statement": "create_file(size) writes exactly size bytes.", "quantifier": "all sizes", "why_tests_cant": "All sizes.", "anchors": ["multibag/testing/mkdata.py:create_file"]}
{"id": "C59", "title": "Bag-Size strings are close to the real size", "statement": "The human-readable Bag-Size is within 0.05% (4 digits) of the byte count and has the matching prefix.", "quantifier": "all byte counts", "why_tests_cant": "All numbers.", "anchors": ["multibag/access/multibag.py:HeadBagUpdateMixin._format_bytes", "multibag/access/extended.py:_ExtendedReadWritableMixin._format_bytes"]}
{"id": "C60", "title": "Validation issues survive the tuple form", "statement": "ValidationIssue.from_tuple(issue.to_tuple()) is equal to the issue.", "quantifier": "all issues", "why_tests_cant": "All values.", "anchors": ["multibag/validate/base.py:ValidationIssue.to_tuple", "multibag/validate/base.py:ValidationIssue.from_tuple"]}
{"id": "C61", "title": "Opening and upgrading bags respects read-only", "statement": "as_headbag / open_headbag never give update methods to a read-only bag or when readonly is asked; applying them repeatedly is harmless and keeps cached state.", "quantifier": "all sequences of upgrades", "why_tests_cant": "All histories.", "anchors": ["multibag/access/multibag.py:as_headbag", "multibag/access/multibag.py:open_headbag", "multibag/access/extended.py:as_extended"]}
{"id": "C62", "title": "Tuple and string versions compare consistently", "statement": "Version((0,4)) and Version('0.4') are equal and can be ordered.", "quantifier": "all versions given as tuples or strings", "why_tests_cant": "All values.", "anchors": ["multibag/constants.py:Version"]}
{"id": "C63", "title": "Saved aggregation data are read back under any profile version", "statement": "Member lists and lookup tables saved in a head bag are read back, whatever Multibag-Version its bag-info declares.", "quantifier": "all declared versions", "why_tests_cant": "All histories.", "anchors": ["multibag/access/multibag.py:HeadBagUpdateMixin.save_member_bags", "multibag/access/multibag.py:HeadBagReadMixin.iter_member_bags"]}
{"id": "C64", "title": "replicate copies or raises", "statement": "After a bag file replicate() call that returns normally the destination holds the content of the source file.", "quantifier": "all trees and failures of link/copy", "why_tests_cant": "All failure patterns.", "anchors": ["multibag/access/extended.py:_ExtendedReadWritableMixin.replicate"]}
{"id": "C65", "title": "Re-reading discards unsaved state", "statement": "member_bags(reread=True) and lookup_file(.., reread=True) answer from what is on disk, and so do later calls.", "quantifier": "all histories", "why_tests_cant": "All histories.", "anchors": ["multibag/access/multibag.py:HeadBagReadMixin.member_bags", "multibag/access/multibag.py:HeadBagReadMixin.lookup_file"]}
{"id": "C66", "title": "Repeated Multibag-Tag-Directory tags are tolerated", "statement": "Reading the aggregation data works if bag-info repeats Multibag-Tag-Directory.", "quantifier": "all tag sets", "why_tests_cant": "All tag sets.", "anchors": ["multibag/access/multibag.py:HeadBagReadMixin.iter_member_bags"]}
{"id": "C67", "title": "The way a bag directory is named does not matter", "statement": "Queries for a path in a bag and the safety check give the same answers whichever path string names the bag's directory, including '.'.", "quantifier": "all location strings and paths", "why_tests_cant": "All strings.", "anchors": ["multibag/access/bagit.py:ReadOnlyBag._path_is_dangerous", "multibag/access/extended.py:_ExtendedReadWritableMixin._canon_path"]}
{"id": "C68", "title": "Running out of names is reported as such", "statement": "name_output_bags raises RuntimeError whenever its iterator has fewer names than there are bags, and otherwise every bag gets its name.", "quantifier": "all plans and iterators", "why_tests_cant": "All iterators.", "anchors": ["multibag/split.py:SplitPlan.name_output_bags"]}
{"id": "C69", "title": "Completing a plan keeps bag names distinct", "statement": "If the bags of a plan have distinct names, they have after complete_plan().", "quantifier": "all plans", "why_tests_cant": "All plans.", "anchors": ["multibag/split.py:SplitPlan.complete_plan", "multibag/split.py:SimpleNamer"]}
{"id": "C70", "title": "Bags without bag-info.txt can be split", "statement": "bag-info.txt is optional in BagIt: splitting a bag without it succeeds.", "quantifier": "all bags", "why_tests_cant": "All bags.", "anchors": ["multibag/split.py:SplitPlan.apply_iter"]}
{"id": "C71", "title": "apply_iter accepts any naming iterator", "statement": "apply_iter takes the names of the output bags from the naming iterator it is given, whatever its class, and falls back to the planned names when it is exhausted.", "quantifier": "all iterators and plans", "why_tests_cant": "All iterators.", "anchors": ["multibag/split.py:SplitPlan.apply_iter"]}
{"id": "C72", "title": "Splitting a valid bag makes valid bags", "statement": "If the checksums recorded in the source hold for its content and its payload is fully listed, then in each output bag every recorded checksum holds, every payload file is listed and the payload manifests are present.", "quantifier": "all bags, plans and hash functions", "why_tests_cant": "All bags.", "anchors": ["multibag/split.py:SplitPlan.apply_iter"]}
{"id": "C73", "title": "Restored payload size is right", "statement": "After a restore with default options, Payload-Oxum in bag-info gives exactly the number of bytes and files of the restored payload.", "quantifier": "all aggregations and prior states of the destination", "why_tests_cant": "All aggregations.", "anchors": ["multibag/restore.py:BagRestorer.restore", "multibag/access/extended.py:calc_oxum"]}
{"id": "C74", "title": "Restored metadata comes from the aggregation", "statement": "After a restore into a new directory, each bag-info tag other than the two sizes and the Multibag-* tags of head bags has the values it has in aggregation-info.txt, or in the last bag-info.txt if there is none.", "quantifier": "all aggregations and metadata", "why_tests_cant": "All metadata texts.", "anchors": ["multibag/restore.py:BagRestorer.restore", "multibag/restore.py:BagRestorer.restore"]}
{"id": "C75", "title": "Metadata is merged without aggregation-info", "statement": "If the head bag has no aggregation-info.txt, the restored bag-info has the merged tags of all member bags in order, without Bag-Count, Payload-Oxum, Bag-Size and Multibag-* tags.", "quantifier": "all aggregations", "why_tests_cant": "All metadata texts.", "anchors": ["multibag/restore.py:BagRestorer.restore"]}
{"id": "C77", "title": "Validation of a head bag ends with results", "statement": "HeadBagValidator(bag).validate() returns results for any bag, also for one that is not a head bag or breaks the profile.", "quantifier": "all bags and masks", "why_tests_cant": "All bags.", "anchors": ["multibag/validate/headbag.py:HeadBagValidator.validate"]}
{"id": "C78", "title": "The profile version is checked", "statement": "Test 3-Version-val passes only if Multibag-Version is a version of the profile that the library supports.", "quantifier": "all tag values", "why_tests_cant": "All tag values.", "anchors": ["multibag/validate/headbag.py:HeadBagValidator.validate_version"]}
{"id": "C79", "title": "A bag that passes validation can be used as a head bag", "statement": "If HeadBagValidator finds no problem, the member list of the bag can be read, it ends with the bag itself and no member is repeated, and the file lookup can be read.", "quantifier": "all bags", "why_tests_cant": "All bags.", "anchors": ["multibag/validate/headbag.py:HeadBagValidator.validate", "multibag/access/multibag.py:HeadBagReadMixin.iter_member_bags", "multibag/access/multibag.py:HeadBagReadMixin.iter_file_lookup"]}
{"id": "C80", "title": "Validation does not depend on how the bag is named", "statement": "The results of HeadBagValidator are the same for all path strings that lead to the same bag directory.", "quantifier": "all bags and locations", "why_tests_cant": "All locations.", "anchors": ["multibag/validate/headbag.py:HeadBagValidator.validate_member_bags", "multibag/access/bagit.py:ReadOnlyBag.name"]}
{"id": "C81", "title": "The head-bag validator decides its rules", "statement": "Whenever HeadBagValidator.validate(want) returns results, they are ok exactly if the bag keeps every rule of the wanted types: for bag-info.txt, the multibag directory, the member list, the file lookup and the aggregation info.", "quantifier": "all bags, tag sets and masks", "why_tests_cant": "All bags and masks.", "anchors": ["multibag/validate/headbag.py:HeadBagValidator.validate"]}
{"id": "C82", "title": "Self-deprecation is reported exactly for a bag that deprecates itself", "statement": "Test 3-Head-Deprecates_notselfdep fails iff some Multibag-Head-Deprecates value names the bag's own version, and no name or its own name.", "quantifier": "all bags and values", "why_tests_cant": "All values.", "anchors": ["multibag/validate/headbag.py:HeadBagValidator.validate_head_deprecates"]}
{"id": "C84", "title": "Remarks of validation name the bad lines", "statement": "For each test on the lines of the member list or the file lookup, the results carry a remark with the numbers of exactly the bad lines: all of them if there are at most four, else the first three. A test about payload files names the files.", "quantifier": "all member lists, lookups and payloads", "why_tests_cant": "All files and numbers of bad lines.", "anchors": ["multibag/validate/headbag.py:HeadBagValidator.validate_member_bags", "multibag/validate/headbag.py:HeadBagValidator.validate_file_lookup"]}
{"id": "C85", "title": "The member-bag validator decides its rules", "statement": "Whenever MemberBagValidator.validate returns results, they are ok exactly if the bag keeps every rule of the wanted types for member bags.", "quantifier": "all bags, tag sets and masks, with and without results passed in", "why_tests_cant": "All bags and masks.", "anchors": ["multibag/validate/member.py:MemberBagValidator.validate"]}
{"id": "C83", "title": "A bag made a single multibag passes validation", "statement": "The bag that make_single_multibag leaves, opened again, passes the head bag validator for every set of wanted result types, whatever the results are about.", "quantifier": "all source bags with payload and ordinary tags, identifiers and masks", "why_tests_cant": "All bags, tags and masks.", "anchors": ["multibag/amend.py:make_single_multibag", "multibag/validate/headbag.py:HeadBagValidator.validate"]}
{"id": "C86", "title": "The head bag of an amendment passes validation", "statement": "The new head bag that amend_bag_with leaves, opened again, passes the head bag validator: its own name is last in its member list, no line is repeated, and the lookup is right about its own files.", "quantifier": "all amendees, lists of amending bags and masks", "why_tests_cant": "All aggregations, amendments and masks.", "anchors": ["multibag/amend.py:amend_bag_with", "multibag/validate/headbag.py:HeadBagValidator.validate"]}
{"id": "C87", "title": "open_bag opens the bag at the location", "statement": "open_bag(location) opens the bag that the location names and gives it the name of its directory: for directories, however they are written, and for archives, whose bag is the outermost directory with a bagit.txt.", "quantifier": "all locations, directory trees and archives", "why_tests_cant": "Every way to write a location and every archive layout.", "anchors": ["multibag/access/bagit.py:open_bag", "multibag/access/bagit.py:ReadOnlyBag.__init__"]}
{"id": "C88", "title": "A plain bag passes validation if and only if it is as its manifests say", "statement": "ReadOnlyBag.validate() succeeds exactly when there are a data directory and a payload manifest, bagit.txt has no byte-order mark, fetch.txt is well-formed, the first Payload-Oxum is right, each payload file is recorded in a manifest, and each recorded file is there with the recorded checksum. A file that is changed, removed or added later is noticed.", "quantifier": "all bags that can be opened, and all changes to them", "why_tests_cant": "Every bag and every way to tamper with it.", "anchors": ["multibag/access/bagit.py:ReadOnlyBag._validate_entries", "multibag/access/bagit.py:ReadOnlyBag._validate_oxum", "multibag/access/bagit.py:ReadOnlyBag.fetch_entries"]}
{"id": "C89", "title": "Validation of a plain bag ends with a report", "statement": "For each bag that was opened, the validator reports that it is valid, or what is wrong with it; malformed tags and fetch.txt do not make it raise.", "quantifier": "all bags that can be opened", "why_tests_cant": "All malformed contents.", "anchors": ["multibag/access/bagit.py:ReadOnlyBag._validate_oxum", "multibag/access/bagit.py:ReadOnlyBag.fetch_entries", "multibag/validate/bag.py:BagValidator"]}
{"id": "C90", "title": "The bags made by splitting a valid bag are valid", "statement": "Each bag that is written by splitting a valid bag can be opened and passes the validation of plain bags.", "quantifier": "all valid source bags, plans and options", "why_tests_cant": "All bags and all plans.", "anchors": ["multibag/split.py:SplitPlan.apply_iter", "multibag/access/bagit.py:ReadOnlyBag._validate_entries"]}
{"id": "C91", "title": "The head bag of a split passes validation", "statement": "The head bag that is written by splitting a valid bag passes the head bag validator, validation of the plain bag included, for every set of wanted result types.", "quantifier": "all valid source bags that are not head bags, plans, options and masks", "why_tests_cant": "All bags, plans and masks.", "anchors": ["multibag/split.py:SplitPlan.apply_iter", "multibag/validate/headbag.py:HeadBagValidator.validate"]}
{"id": "C92", "title": "The member bags of a split pass validation", "statement": "Each other bag that is written by splitting a valid bag passes the member bag validator, for every set of wanted result types.", "quantifier": "all valid source bags, plans, options and masks", "why_tests_cant": "All bags, plans and masks.", "anchors": ["multibag/split.py:SplitPlan.apply_iter", "multibag/validate/member.py:MemberBagValidator.validate"]}
{"id": "C93", "title": "BagIt versions 0.93 to 1.x are read, others are refused", "statement": "A bag with version MAJOR.MINOR (or MAJOR alone) in bagit.txt is opened exactly if that is at least 0.93 and less than 2, with its tags from package-info.txt up to 0.95 and from bag-info.txt after that; BagError otherwise.", "quantifier": "all version numbers", "why_tests_cant": "All numbers.", "anchors": ["multibag/access/bagit.py:ReadOnlyBag._open"]}
{"id": "C76", "title": "Restored tag manifests are right", "statement": "After a restore with default options, the tag manifest for each checksum algorithm of the bag lists exactly the tag files that the restored bag has, each once, with the checksum of its content.", "quantifier": "all aggregations, destinations and algorithms", "why_tests_cant": "All bag contents.", "anchors": ["multibag/restore.py:BagRestorer.restore"]}
{"id": "C94", "title": "A consistent aggregation can be restored", "statement": "Restoring into a new directory ends without an error if the bags of the aggregation can be opened, record checksums for the same algorithms for every file they list, use file names that a manifest can express, have no directory where another one has a file, and delete none of the BagIt files.", "quantifier": "all aggregations, options and deleted paths", "why_tests_cant": "All aggregations.", "anchors": ["multibag/restore.py:BagRestorer.restore", "multibag/restore.py:BagRestorer.restore_member"]}
{"id": "C95", "title": "Restoring valid bags gives a valid bag", "statement": "If every bag of a consistent aggregation is a valid bag, none of them refers to files elsewhere by a fetch.txt, and the head bag does not itself hold a payload file it declares deleted, then the bag that a restore with default options makes is valid. In particular, splitting a valid bag and restoring it from the bags gives a valid bag with the same payload.", "quantifier": "all aggregations of valid bags; all valid bags and plans", "why_tests_cant": "All bag contents.", "anchors": ["multibag/restore.py:BagRestorer.restore", "multibag/restore.py:BagRestorer.restore_member"]}
{"id": "C96", "title": "Test datasets without a plan are exact", "statement": "mkdataset without a plan, for a total size and a number of files that are positive and below 2^50, never raises. When it ends, there are exactly that many new files directly in the directory, their sizes add up to exactly the total size, and they differ by at most one byte. Interrupted earlier, there are at most that many new files.", "quantifier": "all sizes and numbers of files below 2^50, all contents of the directory, all random numbers", "why_tests_cant": "Rounding, and any sequence of random names.", "anchors": ["multibag/testing/mkdata.py:mkdataset", "multibag/testing/mkdata.py:DatasetMaker.fill"]}
{"id": "C97", "title": "Making a test dataset does not touch what is there", "statement": "mkdataset never changes or removes a file or directory that was in the destination directory, for any plan, whether it ends, raises or is interrupted: it only adds entries under new names. The numbers of bytes and files that DatasetMaker.fill returns are those of the files it made.", "quantifier": "all plans, sizes, directory contents and random numbers; all points at which it stops", "why_tests_cant": "Any collision of random names with existing ones, and any point of failure.", "anchors": ["multibag/testing/mkdata.py:mkdataset", "multibag/testing/mkdata.py:DatasetMaker.fill"]}
{"id": "C98", "title": "A plan that fits is followed", "statement": "If the claims of a plan fit its totals, at every level, then the dataset has exactly the total size and number of files; each set of files and each directory that states a size and a number gets exactly these, inventories are made as listed, and what the others leave is shared out equally, up to one.", "quantifier": "all plans that fit (as defined), of any depth; all random numbers", "why_tests_cant": "Nesting and rounding.", "anchors": ["multibag/testing/mkdata.py:mkdataset", "multibag/testing/mkdata.py:DatasetMaker.fill"]}
{"id": "C99", "title": "Making a test dataset ends", "statement": "As long as random numbers keep covering their range and there are fewer entries than possible names (ten times the number of files), all files of the dataset get made.", "quantifier": "all plans that fit, directory contents and sequences of random numbers", "why_tests_cant": "The search for a free name is an unbounded loop.", "anchors": ["multibag/testing/mkdata.py:mkdataset", "multibag/testing/mkdata.py:DatasetMaker.fill"]}
{"id": "C100", "title": "Splitting a valid bag with a splitter works from end to end", "statement": "Applying a splitter of the library to a valid bag that is not a multibag raises no exception; the bags are called base_1.mbag, base_2.mbag, ...; every one of them is a valid bag, the last one passes the validator of head bags and the others that of member bags; restoring them raises no exception either and gives a valid bag with the content of the source.", "quantifier": "all valid bags that are not multibags and have a bag-info.txt, both splitters with any sizes, all base names and output directories without such names", "why_tests_cant": "It is the combination of planning, writing, validating and restoring, for every layout of files and every choice of sizes.", "anchors": ["multibag/split.py:WellPackedSplitter", "multibag/split.py:NeighborlySplitter", "multibag/split.py:SplitPlan.apply", "multibag/restore.py:BagRestorer.restore"]}
{"id": "C101", "title": "Restoring an amended aggregation gives the old version with the amendment laid over it", "statement": "If a bag or an aggregation is amended with further bags and a new head bag, then restoring the new head bag gives, at every path outside the files that describe a bag, what restoring the old version gives, replaced by what the bags amended with and the new head bag have at that path (the later ones winning).", "quantifier": "all aggregations and single bags amended with any number of bags of different names; all paths", "why_tests_cant": "It spans the lists written by amending, reading them again, and the order in which restoring copies the members.", "anchors": ["multibag/amend.py:Amender", "multibag/restore.py:BagRestorer.restore"]}
{"id": "C102", "title": "Restoring a single member lays it over or under the destination", "statement": "Restoring one member bag into a destination leaves, at every path outside the bag's own tag files, what the destination had where it had something, or with overwriting what the member has where it has a file, and otherwise what the member has unless it is to be skipped; the manifests of the destination go on listing every payload file.", "quantifier": "all members, destinations, lists of paths to skip, with and without overwriting", "why_tests_cant": "All trees and all combinations of existing and new files.", "anchors": ["multibag/restore.py:BagRestorer.restore_member", "multibag/restore.py:BagRestorer._restore_from", "multibag/restore.py:BagRestorer._update_manifests"]}
{"id": "C103", "title": "Restoring a single member notes its lines of fetch.txt by path", "statement": "If a dictionary is given for the lines of fetch.txt, restoring a member adds the line of every file the member lists there under the path of the file, if it is not there yet.", "quantifier": "all members and dictionaries", "why_tests_cant": "All files with lines to fetch.", "anchors": ["multibag/restore.py:BagRestorer.restore_member"]}
{"id": "C104", "title": "Restored files and directories carry the modification times of the copies restored", "statement": "After restoring, every file and directory that restoring made has the modification time that it has in the last member bag that has it, and what the destination had already keeps its time, except for the bag's own tag files.", "quantifier": "all aggregations, modification times, destinations and clocks", "why_tests_cant": "All combinations of times and of the order of writing; directories change their times again with every entry written into them.", "anchors": ["multibag/restore.py:BagRestorer._restore_from", "multibag/access/extended.py:timesfor"]}
{"id": "C105", "title": "Renaming the tag directory keeps the aggregation", "statement": "After the tag directory of a head bag is given another name with migration, reading the member list, the file lookup and the deletions anew gives what it gave before, from the same object and whenever the bag is opened again, and no other file changes; if the call fails, everything is as it was. Without migration, saving writes the files into the new directory, also if that is not just below the root.", "quantifier": "all head bags, old and new names and moments of opening the bag", "why_tests_cant": "All names and trees; what others find on disk between the renaming and saving.", "anchors": ["multibag/access/multibag.py:HeadBagUpdateMixin.set_multibag_tag_dir", "multibag/access/multibag.py:HeadBagUpdateMixin.ensure_tagdir"]}
{"id": "C106", "title": "The text of a validation error tells what failed", "statement": "The text of the exception raised for a bag that is not valid names a test because of which it is raised, with its type, label, specification and all remarks; if at most three tests failed, it does so for all of them; otherwise it gives their number.", "quantifier": "all validation results and wanted types", "why_tests_cant": "All combinations of failed tests, types and remarks.", "anchors": ["multibag/validate/base.py:MultibagValidationError", "multibag/validate/base.py:ValidationIssue.description"]}
{"id": "C107", "title": "Restoring never leaves out a member bag", "statement": "If restoring a bag succeeds, every bag of the head bag's member list was found, the head bag itself aside when it is the last of the list; a missing member is an OSError.", "quantifier": "all head bags, member lists, options and destinations", "why_tests_cant": "Every set of missing members; a member passed over silently shows only in the data lost.", "anchors": ["multibag/restore.py:BagRestorer.restore", "multibag/restore.py:BagRestorer.restore_member"]}
{"id": "C108", "title": "Member bags are taken from the cache directory, the same ones in every run", "statement": "A member bag is the directory of its name in the cache directory, or else an archive of its name there; the choice is the same in every run; only what is not there is fetched.", "quantifier": "all contents of the disk, names, cache directories and orders of a Python set", "why_tests_cant": "The order of a set of strings changes from run to run, and names come from the head bag.", "anchors": ["multibag/restore.py:BagRestorer.find_member_bag", "multibag/restore.py:BagRestorer.get_member_bag", "multibag/restore.py:serialized_extensions"]}
{"id": "C109", "title": "Amending and single multibags keep bags valid", "statement": "If a bag of BagIt version 0.97 or later is a valid BagIt bag, whose manifests list each path once and whose tag files have names that a manifest line can hold, it is a valid BagIt bag after it became the new head bag of an amendment, and after it was made a multibag of its own; each of its tag manifests then lists all tag files, the new lists among them, with their checksums.", "quantifier": "all valid bags, amendees, amendments, selections and tag directories outside of the payload, and all sets of checksum algorithms", "why_tests_cant": "Checksums of tag manifests must match files that are written in several steps and a tag file that contains the size of the bag; for every bag and algorithm set.", "anchors": ["multibag/amend.py:Amender", "multibag/amend.py:make_single_multibag", "multibag/access/multibag.py:HeadBagUpdateMixin.update_info", "multibag/access/extended.py:_ExtendedReadWritableMixin"]}
{"id": "C110", "title": "Valid bags that are amended can be restored to a valid bag", "statement": "If valid bags that could be restored together are put into a new version of an aggregation by amending it, with one of them as the new head bag, restoring the new version succeeds, and the result is a valid BagIt bag that has the contents of the members of the amendee, the bags amended with and the new head bag laid over each other in this order, but for what the new head bag deletes.", "quantifier": "all aggregations and single bags that are amended, all lists of further bags, all contents, tags, deleted paths and sets of checksum algorithms, under the conditions of C94 on the bags", "why_tests_cant": "The amendment and the restoration are separate calls, between which the bags are on disk; that the second never fails on what the first wrote, and that all checksums then match, depends on every tag file of every bag.", "anchors": ["multibag/amend.py:Amender", "multibag/restore.py:BagRestorer", "multibag/access/multibag.py:HeadBagUpdateMixin", "multibag/access/bagit.py:ReadOnlyBag"]}
{"id": "C111", "title": "The size that a bag declares is the size that it has", "statement": "After a bag became the new head bag of an amendment, after it was made a multibag of its own, and after it was restored, the one tag Bag-Size gives the size of all its files as they are then, that tag and the tag manifests included, up to 0.05% and a few bytes.", "quantifier": "all bags of less than 999 TB, amendments and aggregations, all sets of checksum algorithms whose checksums have a fixed length", "why_tests_cant": "The size is written into one of the files that it counts, by way of a text that is rounded to four digits in floating-point arithmetic.", "anchors": ["multibag/amend.py:Amender", "multibag/amend.py:make_single_multibag", "multibag/restore.py:BagRestorer.restore", "multibag/access/multibag.py:HeadBagUpdateMixin.update_info", "multibag/access/extended.py:update_bag_size", "multibag/access/extended.py:calc_bag_size"]}
{"id": "C112", "title": "Any number of amendments add up", "statement": "After amending an aggregation again and again, each time the result of the amendment before, the last head bag lists the members of the first version and after them all bags added since in order, its history names all versions in order, its lookup tells for every file the last bag that has it, and restoring it gives the contents of all these bags laid over each other in order, but for what the last head bag deletes.", "quantifier": "all numbers of amendments, all aggregations and single bags to begin with, all lists of bags with distinct names, tag directories, versions and contents", "why_tests_cant": "The state of the aggregation is spread over the files of several bags; a test covers one or two amendments, and errors that build up or depend on what an earlier amendment wrote appear later.", "anchors": ["multibag/amend.py:Amender", "multibag/amend.py:amend_bag_with", "multibag/restore.py:BagRestorer.restore", "multibag/access/multibag.py:HeadBagUpdateMixin", "multibag/access/multibag.py:HeadBagReadMixin"]}
{"id": "C113", "title": "The last version of a history of valid bags can be restored to a valid bag", "statement": "If all bags that took part in any number of amendments were valid before, and could be restored together, restoring the last version from the bags as the amendments left them succeeds, and the result is a valid BagIt bag with the contents of C112.", "quantifier": "all numbers of amendments of aggregations and single bags, all valid bags, contents, tags, deleted paths and sets of checksum algorithms, under the conditions of C94 on the bags", "why_tests_cant": "Head bags of earlier versions were changed by the code (lists, tags, tag manifests) before they are members of later versions; that none of these changes makes a later restoration fail or its result invalid must hold for every history.", "anchors": ["multibag/amend.py:Amender", "multibag/restore.py:BagRestorer", "multibag/access/multibag.py:HeadBagUpdateMixin", "multibag/access/extended.py:ExtendedReadWritableBag", "multibag/access/bagit.py:ReadOnlyBag"]}
{"id": "C114", "title": "Amendments succeed", "statement": "amend_bag_with succeeds for every bag and every head bag made by this library, with any amending bags, whenever the directory that becomes the new head bag has room for the lists: no amendment is refused or broken off on account of the contents of the aggregation.", "quantifier": "all bags and head bags to be amended, all amending bags, all new head bags, versions and sets of checksum algorithms", "why_tests_cant": "An amendment empties lists, rebuilds them and writes up to a dozen files; that none of the steps can raise for some combination of members, files and tags is a statement about all of them. The test suite amends one aggregation.", "anchors": ["multibag/amend.py:amend_bag_with", "multibag/amend.py:Amender", "multibag/access/multibag.py:HeadBagUpdateMixin", "multibag/access/multibag.py:MemberInfo.format"]}
{"id": "C115", "title": "Every release can be added, and the last one restored", "statement": "Starting with a bag or an aggregation that has at least one payload file, any number of releases can be added one after another, each amendment succeeding; and if all bags are valid, the last version can then be restored to a valid bag with the contents of C112.", "quantifier": "all numbers of releases, all bags that take part, all ways to find the members afterwards", "why_tests_cant": "It combines the success of every single step with what each of them leaves behind for the next one, for histories of every length; tests do one amendment.", "anchors": ["multibag/amend.py:amend_bag_with", "multibag/amend.py:Amender", "multibag/restore.py:BagRestorer", "multibag/access/multibag.py:HeadBagUpdateMixin"]}
{"id": "C116", "title": "Any bag can be made a multibag and then be amended", "statement": "make_single_multibag succeeds for every bag that has the conditions of C114 for a new head bag (a tag directory that is free, no directories in the place of files to be written, names without line breaks); if the bag has a payload file, any number of releases can then be added to it, each amendment succeeding.", "quantifier": "all bags, names, versions and identifiers, all tag directories outside of the payload, all numbers of releases", "why_tests_cant": "Success depends on every file and tag of the bag, in each of the steps that write lists, tags and tag manifests.", "anchors": ["multibag/amend.py:make_single_multibag", "multibag/amend.py:SingleMultibagMaker", "multibag/amend.py:amend_bag_with", "multibag/access/multibag.py:HeadBagUpdateMixin"]}
{"id": "C117", "title": "A bag answers alike however it was opened", "statement": "exists, isdir, isfile, sizeof and open_text_file give the same answers for a bag directory that is opened as such and opened read-only, for every path that is relative and stays inside of the bag; a bag that is opened read-only never answers about anything outside of it, and refuses paths that leave it with a ValueError.", "quantifier": "all bag locations, all contents of the disk, all paths with any sequence of names, '.', '..' and slashes", "why_tests_cant": "Two different path normalisations are involved, which must agree for every sequence of '.', '..', empty and other names.", "anchors": ["multibag/access/extended.py:_ExtendedReadWritableMixin.exists", "multibag/access/extended.py:_ExtendedReadWritableMixin.sizeof", "multibag/access/extended.py:_ExtendedReadOnlyMixin.sizeof", "multibag/access/bagit.py:ReadOnlyBag.exists", "multibag/access/bagit.py:ReadOnlyBag.open_text_file", "multibag/access/bagit.py:Path.relpath"]}
{"id": "C118", "title": "The whole life of a bag", "statement": "Any valid ordinary bag can be made a multibag with make_single_multibag, then be amended any number of times with amend_bag_with, and then be restored from the last version: every step succeeds, the restored bag is valid, and it has exactly the files that are left after laying the bags of all versions in order over the original bag, without those the last version deletes (apart from the files that describe a bag or a multibag).", "quantifier": "all bags, all numbers of releases with any number of bags each, all names and versions", "why_tests_cant": "A fault may show only after several versions: each step rewrites tags and lists that the next ones read.", "anchors": ["multibag/amend.py:make_single_multibag", "multibag/amend.py:amend_bag_with", "multibag/restore.py:restore_bag", "multibag/restore.py:BagRestorer.restore"]}
{"id": "C119", "title": "A bag that was split can be amended, and be restored after that", "statement": "The head bag that splitting a valid bag makes can be amended any number of times with amend_bag_with, each amendment succeeding; restoring the last version from the bags of the split and of all versions then gives a valid bag, which has exactly the files that are left after laying the bags of all versions in order over the bag that was split, without those the last version deletes (apart from the files that describe a bag or a multibag).", "quantifier": "all valid ordinary bags, both splitters with any sizes (and any plan with everything in it), all numbers of releases with any number of bags each", "why_tests_cant": "Splitting, amending and restoring are separate programs that only share what is on disk; the lists that the first writes are extended by the second and followed by the third, for every bag, plan and history.", "anchors": ["multibag/split.py:SplitPlan.apply", "multibag/split.py:WellPackedSplitter", "multibag/split.py:NeighborlySplitter", "multibag/amend.py:amend_bag_with", "multibag/restore.py:BagRestorer.restore"]}
{"id": "C120", "title": "Restoring a head bag in place", "statement": "Restoring a head bag without naming a destination turns that head bag itself into the whole bag: if all bags are valid and fit together, and the head bag holds no path that it lists as deleted, it succeeds, the bag at the place of the head bag is then valid and no multibag any more, and it has at every path (apart from the tag files that describe a bag) what restoring to a new directory gives; for the bags of a split this is what the bag had that was split.", "quantifier": "all head bags and all aggregations of valid bags, the head bag being anywhere; all valid ordinary bags that are split by any plan with everything in it", "why_tests_cant": "In place the source that comes first is the destination: what is left out because it is already there, and the manifests that are extended rather than made, depend on every bag at once; tests restore to a few new directories.", "anchors": ["multibag/restore.py:restore_bag", "multibag/restore.py:BagRestorer.__init__", "multibag/restore.py:BagRestorer.restore"]}
{"id": "C121", "title": "Where a restoration reads and writes", "statement": "A restoration is set up exactly if the head bag is there, is a head bag and can be opened, and the destination's parent is a directory; otherwise it fails with an OSError, or a MultibagError if it is no head bag. The restored bag goes to where the destination leads from the current directory, and the head bag is restored in place exactly if both lead to the same place, however the paths are written. Members are looked for in the directory given, else in the destination if they can be fetched, else only beside the head bag. Directories are made only where the restored bag goes.", "quantifier": "all current directories, contents of the disk, ways to write the paths and combinations of arguments", "why_tests_cant": "Any sequence of '.', '..' and slashes in the paths; a test covers a few relative and absolute paths in one directory.", "anchors": ["multibag/restore.py:BagRestorer.__init__", "multibag/restore.py:BagRestorer._create_dest_bag", "multibag/restore.py:restore_bag"]}
{"id": "C122", "title": "Splitting with one call, and many bags into one directory", "statement": "split on a valid ordinary bag returns the paths of the new multibags in the output directory in order, which then has these bags and what it had before, all of them valid. Without a name the bags are named after the last part of the path of the bag without its extension. Bags with different base names can be split one after another into one directory: all calls succeed, and each bag can be restored from this directory. Bags with different paths can be split into one directory without giving names.", "quantifier": "all valid ordinary bags, paths, base names, splitters, output directories and numbers of calls", "why_tests_cant": "That names of one bag never meet those of another, for all base names (which may contain underscores, digits and dots) and all numbers of parts.", "anchors": ["multibag/split.py:Splitter.split", "multibag/split.py:Splitter.plan", "multibag/split.py:SimpleNamer", "multibag/restore.py:BagRestorer.restore"]}
{"id": "C123", "title": "Splitting and restoring can be repeated for ever", "statement": "A valid ordinary bag can be split and restored from the parts, the restored bag can be split in another way and restored somewhere else, and so on: every split and every restoration succeeds, and after any number of rounds the bag is valid, has the same content at every path apart from the files that describe a bag, and the same values for all tags but the sizes.", "quantifier": "all valid ordinary bags whose tag values are single lines, all numbers of rounds, each with any splitter, sizes, base name, output directory, places and options", "why_tests_cant": "A restoration rewrites bag-info.txt and all manifests; that what it writes can be read, split and restored again, with nothing lost or building up, must hold for every number of rounds.", "anchors": ["multibag/split.py:Splitter.split", "multibag/split.py:SplitPlan.apply", "multibag/restore.py:BagRestorer.restore", "multibag/access/extended.py:ExtendedReadWritableBag"]}
{"id": "C124", "title": "Split bags may be handled while the split goes on", "statement": "A caller of the iterator over split bags that moves, serializes, changes or removes the bags that it was given is given the same further bags and the same head bag as one that leaves them alone; one that stops early has only member bags. The source bag does not change.", "quantifier": "all source bags, plans, naming iterators and options, all callers: any action on the output directory after each bag that leaves the names of the bags to come free, any number of bags asked for; with hard links all edits of the new bags in place", "why_tests_cant": "The documentation allows the caller to act between any two bags; what it does can be anything, and hard links make the bags share files with the source.", "anchors": ["multibag/split.py:SplitPlan.apply_iter", "multibag/access/extended.py:_ExtendedReadWritableMixin.replicate"]}
{"id": "C125", "title": "Bags made by the library conform to the published BagIt profiles", "statement": "The split bags made from a bag, a head bag made by an amendment and a bag made a multibag of its own follow the rules of the BagIt profile published for member bags or head bags: required tags are there, tags that are not repeatable are there once, values and the BagIt version are among those listed, required tag files are there.", "quantifier": "all source bags, plans and options of a split, all amendments, all bags made single multibags", "why_tests_cant": "Which tags end up repeated depends on the tags of the bags that go in; tests use bags whose tags do not collide.", "anchors": ["multibag-bagit-profile.json", "multibag-head-bagit-profile.json", "multibag/split.py:SplitPlan.apply_iter", "multibag/amend.py:Amender", "multibag/amend.py:SingleMultibagMaker"]}
{"id": "C126", "title": "Fetching member bags while restoring makes no difference", "statement": "A restoration that fetches the member bags with the function given to it, by default into a directory inside of the destination, gives the same bag as one that has the bags at hand; nothing of the fetched bags is left in it. In particular a bag that was split, with the member bags on a server, comes back as it was and is valid.", "quantifier": "all aggregations, all head bags and destinations (new, existing, in place), all fetching functions, each bag delivered as a directory or as an archive with any of the supported extensions, which are tried in any order", "why_tests_cant": "The default cache is inside of the bag that is being filled, opened, listed and saved at the same time; the tests restore with a cache elsewhere only.", "anchors": ["multibag/restore.py:BagRestorer._fetch_member_bag", "multibag/restore.py:BagRestorer.get_member_bag", "multibag/restore.py:BagRestorer.restore", "multibag/restore.py:BagRestorer._create_dest_bag"]}
{"id": "C127", "title": "A head bag can be updated through several handles", "statement": "A head bag may be open several times. Calls on a handle that never saves do not change any file, nor any answer of the other handles; asking with reread=True gives what is on disk however old the handle is. What was saved through one handle is not undone by saving through another: the bag has what all the saved changes make of it, one after another.", "quantifier": "all numbers of handles, read-only or for updates, opened at any time; all histories of queries, changes and saves on them; all member lists, lookup tables and deleted paths", "why_tests_cant": "Every handle has caches of its own that get out of date in all interleavings of the calls.", "anchors": ["multibag/access/multibag.py:HeadBagReadMixin.member_bags", "multibag/access/multibag.py:HeadBagUpdateMixin.add_member_bag", "multibag/access/multibag.py:HeadBagUpdateMixin.save_member_bags", "multibag/access/multibag.py:HeadBagUpdateMixin.save_file_lookup", "multibag/access/multibag.py:HeadBagUpdateMixin.save_deleted", "multibag/access/multibag.py:HeadBagReadMixin.deleted_paths"]}
{"id": "C128", "title": "A stop while a list is being saved is noticed", "statement": "If the program stops while the list of member bags, the lookup table or the list of deleted paths of a head bag is being saved, the bag has the old list or the new one, or reading it fails; never does it read as a list that nobody saved.", "quantifier": "all lists that can be saved, all points of the text at which saving stops, both kinds of readers", "why_tests_cant": "The stop may come after any character of a list of any length; tests always let the save finish.", "anchors": ["multibag/access/multibag.py:HeadBagUpdateMixin.save_member_bags", "multibag/access/multibag.py:HeadBagUpdateMixin.save_file_lookup", "multibag/access/multibag.py:HeadBagUpdateMixin.save_deleted"]}
{"id": "C129", "title": "An amendment that was interrupted can be made again", "statement": "However often an amendment of an aggregation was begun and interrupted, or even finished, with the same or with other bags and versions, making it (again) succeeds and gives the head bag that a single amendment of the untouched bag gives: the same members, the same answers of the lookup, the same tags and the same files.", "quantifier": "all amendees and bags, all numbers of earlier attempts with any bags and versions, all writes after which each of them stopped", "why_tests_cant": "There are infinitely many histories of attempts, and a test would have to stop the program at each write of each of them.", "anchors": ["multibag/amend.py:amend_bag_with", "multibag/amend.py:Amender.init_from_amendee", "multibag/amend.py:Amender.finalize"]}
{"id": "C130", "title": "A conversion to a single multibag that was interrupted can be made again", "statement": "However often the conversion of a bag to a single multibag was begun and interrupted, or even finished, with the same or with other versions, identifiers and paths, converting it (again) succeeds and gives the head bag that one conversion of the untouched bag gives: the same member, the same answers of the lookup, the same tags and the same files. This holds even if it was interrupted in the middle of writing a list.", "quantifier": "all bags that can be converted, all numbers of earlier attempts with any versions and identifiers, all writes after which or lists in the middle of which each of them stopped", "why_tests_cant": "There are infinitely many histories of attempts, and a test would have to stop the program at each write of each of them.", "anchors": ["multibag/amend.py:make_single_multibag", "multibag/amend.py:SingleMultibagMaker.convert", "multibag/amend.py:SingleMultibagMaker.write_member_bags", "multibag/amend.py:SingleMultibagMaker.write_file_lookup"]}
{"id": "C131", "title": "An Amender may be finalized on the way: the bag is as if it had been amended once", "statement": "After init_from_amendee, the methods add_amending_bag and finalize of an Amender may be called in any order and any number of times, with any versions; the same bag may even be added several times. If the last call is finalize, the new head bag is the one that a single amendment by all the bags that were added, in their order and with the last version, makes: the same tags, the same members in the same order, the same answers of the lookup, the same other files.", "quantifier": "all amendees, new head bags and bags added, all sequences of calls of add_amending_bag and finalize, all versions given on the way", "why_tests_cant": "There are infinitely many sequences of calls, and finalize lists the new head bag itself, so each further call meets a list that already names it and files that a later bag may take over.", "anchors": ["multibag/amend.py:Amender.init_from_amendee", "multibag/amend.py:Amender.add_amending_bag", "multibag/amend.py:Amender.finalize", "multibag/amend.py:amend_bag_with"]}
{"id": "C132", "title": "A split that stops anywhere leaves complete bags and at most one that is only begun", "statement": "Wherever writing the split bags stops, between any two writes: what was in the output directory before is unchanged (also if the split ends with an exception); the first bags are complete, exactly as a split that was not stopped makes them; at most one more is begun, and all that it has is right: its directories and files are those of the complete bag, manifests perhaps with the last lines missing. A new bag that says that it is a head bag is the last one; then all the other bags are complete, and nothing but the lists may be missing in the head bag. Splitting again in the same way raises OSError and changes nothing.", "quantifier": "all source bags, plans, options, naming iterators and contents of the output directory, all numbers of steps after which the split stops", "why_tests_cant": "A test would have to stop the program at each of its writes, for plans of every size; and the claim that what is there is right compares with a run that did not happen.", "anchors": ["multibag/split.py:SplitPlan.apply_iter", "multibag/split.py:Splitter.split", "multibag/split.py:SplitPlan._record_hash"]}
{"id": "C133", "title": "Splits that run at the same time into one directory do not mix their bags", "statement": "Several processes split bags into the same output directory, their steps in any order: what was there before is unchanged; every new bag is written by one process only, and each process has written exactly what it writes when it runs alone, up to where it is. One that ends has all the bags that it makes alone. One that raises an exception does so alone too, or it raises OSError because another one has made a bag with a name that it gives. If all names are different and each split succeeds alone, none raises and each ends with its bags. If they all do the same split, one of them is never disturbed, no other one ends without an exception, and the directory is as if that one had run alone. (False: of splits that succeed alone one always ends; two that give the same names in different orders can both raise.)", "quantifier": "all source bags, plans, options, naming iterators and contents of the output directory; any number of processes; all orders of their steps", "why_tests_cant": "The number of orders of the steps of two processes is exponential in the number of their steps; a test meets a few of them, and not the same ones the next time.", "anchors": ["multibag/split.py:SplitPlan.apply_iter", "multibag/split.py:Splitter.split"]}
{"id": "C134", "title": "A head bag that a split has begun is not restored to a part of what was split", "statement": "Wherever a split stops, or while it still goes on: if one of the new bags says that it is a head bag, then restoring it raises an exception, or the restored bag has everything that was split (the files that describe the bag aside).", "quantifier": "all source bags, plans, options, naming iterators and contents of the output directory, all numbers of steps after which the split stops, all surroundings of the restorer", "why_tests_cant": "One would have to stop the split at each of its writes and restore what is there; and the harm is a restored bag that looks complete.", "anchors": ["multibag/split.py:SplitPlan.apply_iter", "multibag/restore.py:BagRestorer.restore", "multibag/access/multibag.py:HeadBagUpdateMixin.member_bags", "multibag/access/multibag.py:HeadBagReadMixin.iter_member_bags"]}
{"id": "C135", "title": "A restoration is not disturbed by other work in the directory of the member bags", "statement": "While a bag is restored, other processes may work in the directory where the member bags are looked for. As long as they leave the head bag and the member bags as they are, the restoration ends exactly as if nothing had happened. In particular other bags can be split into that directory meanwhile, and the bags of a split can be restored as soon as it has ended; once the directory of the head bag is there, all the other bags of that split are complete. Unpacking a member bag beside its archive does no harm.", "quantifier": "all head bags, member bags, destinations and options of the restorer; all sequences of contents of the directory, one for each time that the restorer looks at it; all splits by any number of processes, with any order of their steps and any moments of the restoration in between", "why_tests_cant": "The outcome depends on how the steps of several processes fall together; a test sees one order, and never the moments between listing a directory and copying a file.", "anchors": ["multibag/restore.py:BagRestorer.restore", "multibag/restore.py:BagRestorer._restore_from", "multibag/restore.py:BagRestorer.find_member_bag", "multibag/restore.py:BagRestorer.restore_fetch", "multibag/split.py:SplitPlan.apply_iter"]}
{"id": "C136", "title": "Restorations into the same directory at the same time", "statement": "Several processes restore the same bag into the same directory at the same time. At every moment each path of the directory, other than the files that describe the bag and the multibag directory, is as it was before or has what one restoration puts there; deleted paths never appear and files that were there stay. When one of the processes has ended without an exception, all files are there. The manifests list what one restoration lists, and each process ends as it would alone.", "quantifier": "all head bags, member bags, destinations and options of the restorers; any number of processes and all orders of their steps", "why_tests_cant": "The outcome depends on how the steps of several processes fall together; a test sees one order.", "anchors": ["multibag/restore.py:BagRestorer.restore", "multibag/restore.py:BagRestorer._restore_from", "multibag/restore.py:BagRestorer._update_manifests", "multibag/restore.py:BagRestorer.restore_fetch"]}
{"id": "C137", "title": "A split with hard links that stops leaves the source as it was", "statement": "A split that links files instead of copying them is stopped at any point, ends with an exception or ends normally. The source bag then has the same files and directories as before with the same content, and the output directory has what a split that copies would have left there at that point.", "quantifier": "all source bags, plans, options, output directories and points at which the split stops", "why_tests_cant": "The state after a stop depends on how far the split was, and files are shared between the source and the output.", "anchors": ["multibag/split.py:SplitPlan.apply_iter", "multibag/access/extended.py:_ExtendedReadWritableMixin.replicate"]}
{"id": "C138", "title": "Restoring a head bag in place can be stopped and started again", "statement": "A head bag is restored where it is and this is stopped at any point. The files the bag had are there unchanged, no deleted path has appeared, and every further file is missing or is the one the restoration puts there. The restoration can then be started again and gives what it would have given without the stop.", "quantifier": "all head bags, member bags, deleted paths, options and points at which the restoration stops", "why_tests_cant": "The state after a stop depends on how far the restoration was; it writes into the very bag that says what there is to restore.", "anchors": ["multibag/restore.py:BagRestorer.restore", "multibag/restore.py:BagRestorer.__init__", "multibag/access/multibag.py:is_headbag"]}
{"id": "C139", "title": "A bag restored with its multibag tags can be restored again", "statement": "A bag that was restored with remove_multibag_tags=False is still a head bag with the lists of the head bag it was restored from. Restoring it again, in place or to another place, gives the same files and directories.", "quantifier": "all head bags, member bags, deleted paths, options and destinations", "why_tests_cant": "The second restoration depends on what the first one made of the lists and of the tags, for every aggregation.", "anchors": ["multibag/restore.py:BagRestorer.restore", "multibag/restore.py:BagRestorer.__init__", "multibag/access/multibag.py:is_headbag"]}
{"id": "C140", "title": "A split does not depend on the order in which the file system lists files", "statement": "If the file system lists the files and directories of a bag in another order, a splitter plans the same bags with the same names, sizes and files, and the bags made by the split have the same names and hold the same files with the same content.", "quantifier": "all bags, orders of listing, sizes, files for the head bag, both splitters and all options", "why_tests_cant": "A test sees one order of listing, that of the machine it runs on.", "anchors": ["multibag/split.py:WellPackedSplitter._create_plan", "multibag/split.py:WellPackedSplitter._sorted_files", "multibag/split.py:NeighborlySplitter._dirpaths_for", "multibag/split.py:SplitPlan.complete_plan", "multibag/access/extended.py:ExtendedReadMixin.nonstandard"]}
{"id": "C141", "title": "Keeping the lists of a head bag changes nothing outside of the bag", "statement": "However the multibag tag directory of a head bag is named, saving its member list, file lookup list and deletion list and clearing the lookup list write, make and remove nothing outside of the bag, and what was saved is what is read back.", "quantifier": "all bag locations, names of the tag directory, sequences of these calls, texts and states of the file system", "why_tests_cant": "A test uses the usual name or one other; the name comes from bag-info.txt of a bag that may have been received from anyone.", "anchors": ["multibag/access/multibag.py:HeadBagUpdateMixin.ensure_tagdir", "multibag/access/multibag.py:HeadBagUpdateMixin.save_member_bags", "multibag/access/multibag.py:HeadBagUpdateMixin.save_file_lookup", "multibag/access/multibag.py:HeadBagUpdateMixin.clear_file_lookup", "multibag/access/multibag.py:HeadBagUpdateMixin.save_deleted", "multibag/access/multibag.py:HeadBagReadMixin.multibag_tag_dir"]}
{"id": "C142", "title": "A restored bag does not depend on the order in which the file system lists files", "statement": "If the file systems list the files and directories of the head bag, of the member bags and of the destination in another order, a restoration gives the same files and directories with the same content, and manifests with the same checksums.", "quantifier": "all aggregations, orders of listing, destinations, options, both ways to open the head bag, all paths", "why_tests_cant": "A test sees one order of listing, that of the machine it runs on.", "anchors": ["multibag/restore.py:BagRestorer.restore", "multibag/restore.py:BagRestorer._restore_from", "multibag/restore.py:BagRestorer.restore_member", "multibag/restore.py:BagRestorer._update_manifests"]}
{"id": "C143", "title": "Validation does not depend on the order in which the file system lists files", "statement": "Validating a bag as a head bag or as a member bag gives the same issues in the same order, each passed or failed alike, or the same exception, in whatever order the file system lists the files and directories of the bag. Only the comments of an issue may come in another order.", "quantifier": "all bags, orders of listing, names, kinds of issues wanted, earlier results", "why_tests_cant": "A test sees one order of listing, that of the machine it runs on.", "anchors": ["multibag/validate/headbag.py:HeadBagValidator.validate", "multibag/validate/member.py:MemberBagValidator.validate", "multibag/validate/bag.py:BagValidator.validate", "multibag/access/bagit.py:ReadOnlyBag._open", "multibag/access/bagit.py:ReadOnlyBag._validate_entries"]}
{"id": "C144", "title": "A head bag does not depend on the order in which the file system lists files", "statement": "Reading the member list, the file lookup, the deleted paths and the files of a member gives the same answers in whatever order the file system lists the files of the head bag. update_for_member registers the same files for the same bag in whatever order the member bag is listed. The sizes that calc_oxum, calc_bag_size and the saving of a head bag give are the same too. Any history of calls on a head bag gives the same answers and leaves the same files.", "quantifier": "all head bags and member bags, orders of listing, paths, include and exclude lists, caches", "why_tests_cant": "A test sees one order of listing, that of the machine it runs on.", "anchors": ["multibag/access/multibag.py:HeadBagReadMixin.member_bags", "multibag/access/multibag.py:HeadBagReadMixin.lookup_file", "multibag/access/multibag.py:HeadBagReadMixin.deleted_paths", "multibag/access/multibag.py:HeadBagReadMixin.files_in_member", "multibag/access/multibag.py:HeadBagUpdateMixin.update_for_member", "multibag/access/extended.py:calc_oxum", "multibag/access/extended.py:calc_bag_size"]}
{"id": "C145", "title": "Questions about a head bag do not influence each other", "statement": "Through a newly opened head bag, the member list, the bag of a path, the deleted paths and the files of a member may be asked for in any order and any number of times, re-reading or not: each question is answered (or raises) as if it had been the only one, and asking changes neither the files of the bag nor its metadata.", "quantifier": "all head bags, opened for reading or for updates, all sequences of questions", "why_tests_cant": "The answers are remembered in three caches that fill one by one; every sequence of calls fills them in another way.", "anchors": ["multibag/access/multibag.py:HeadBagReadMixin.member_bags", "multibag/access/multibag.py:HeadBagReadMixin.lookup_file", "multibag/access/multibag.py:HeadBagReadMixin.deleted_paths", "multibag/access/multibag.py:HeadBagReadMixin.files_in_member", "multibag/access/multibag.py:HeadBagUpdateMixin.member_bags", "multibag/access/multibag.py:HeadBagUpdateMixin.lookup_file"]}

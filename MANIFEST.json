{
 "claims": [
  {
   "property": "C01",
   "status": "proved",
   "theorems": [
    "C01_trichotomy",
    "C01_transitive",
    "C01_operators",
    "C01_dotted_lt",
    "C01_dotted_eq",
    "C01_general",
    "C01_nonnumeric"
   ],
   "note": "Version strings are totally ordered, numerically field by field; every operator agrees."
  },
  {
   "property": "C02",
   "status": "proved",
   "theorems": [
    "C02_saved_lookup_reads_back",
    "C02_save_succeeds"
   ],
   "note": ""
  },
  {
   "property": "C03",
   "status": "partial",
   "theorems": [
    "C03_legal_names_refuted",
    "C03_legal_names_partial",
    "C03_lines",
    "C03_crlf"
   ],
   "note": "Where the lines of a text file end for the two ways of reading is said by C03_lines and C03_crlf. REFUTED for directory bags (names with U+2028 etc. make the table unreadable); proved for read-only access."
  },
  {
   "property": "C04",
   "status": "partial",
   "theorems": [
    "C04_members_roundtrip_partial",
    "C04_info_refuted",
    "C04_hash_uri_refuted"
   ],
   "note": "REFUTED with extra information fields (NameError) and for URIs starting with #; proved otherwise."
  },
  {
   "property": "C05",
   "status": "partial",
   "theorems": [
    "C05_padding_refuted",
    "C05_member_padding_refuted",
    "C05_padding_partial"
   ],
   "note": "REFUTED: padding next to the TAB is kept; only outer padding is ignored."
  },
  {
   "property": "C06",
   "status": "proved",
   "theorems": [
    "C06_lookup_is_a_map",
    "C06_history_saved"
   ],
   "note": ""
  },
  {
   "property": "C07",
   "status": "proved",
   "theorems": [
    "C07_member_list",
    "C07_no_repeats",
    "C07_last_is_last",
    "C07_others_keep_order",
    "C07_saved",
    "C07_opened_ok"
   ],
   "note": ""
  },
  {
   "property": "C08",
   "status": "partial",
   "theorems": [
    "C08_remove_member_refuted",
    "C08_remove_member_partial"
   ],
   "note": "REFUTED when the member list was not read before; proved when it was."
  },
  {
   "property": "C09",
   "status": "partial",
   "theorems": [
    "C09_set_deleted_refuted",
    "C09_unset_deleted_refuted",
    "C09_remove_member_refuted",
    "C09_set_deleted_partial",
    "C09_unset_deleted_partial",
    "C09_after_read_partial"
   ],
   "note": "REFUTED when the deleted list was not read before; proved when it was."
  },
  {
   "property": "C10",
   "status": "proved",
   "theorems": [
    "C10_files_in_member"
   ],
   "note": ""
  },
  {
   "property": "C100",
   "status": "proved",
   "theorems": [
    "C100_split_works",
    "C100_there_and_back"
   ],
   "note": "For ordinary bags and splitters that reserve no file called like those of BagIt (C20_forhead_refuted): paths and tag values that can be written to tag files, and no files that are merely called like those of BagIt (C20_plan_covers_the_bag_refuted, C28_refuted and C72 have what happens otherwise). The validators are asked for errors and warnings for the head bag, and as the aggregation validator asks for member bags (C91_refuted, C92)."
  },
  {
   "property": "C101",
   "status": "partial",
   "theorems": [
    "C101_order",
    "C101_single_bag",
    "C101_versions_partial",
    "C101_refuted"
   ],
   "note": "Holds for every path that the old version had not deleted. REFUTED for those: a file that the old head bag deleted, and that no bag of the amendment has, is back in the new version (C101_refuted; a consequence of C43)."
  },
  {
   "property": "C102",
   "status": "partial",
   "theorems": [
    "C102_content",
    "C102_manifests_refuted"
   ],
   "note": "Content: proved with and without overwriting. REFUTED for the manifests when overwriting: those of the member replace those of the destination first, so that files of other members are not listed any more."
  },
  {
   "property": "C103",
   "status": "partial",
   "theorems": [
    "C103_refuted",
    "C103_blank_refuted",
    "C103_same"
   ],
   "note": "REFUTED: lines are recorded under URL and length in place of the path. C103_refuted is for all members with well-formed lines: no path of a line is ever a key because of the call. A blank line raises IndexError."
  },
  {
   "property": "C104",
   "status": "partial",
   "theorems": [
    "C104_times_partial",
    "C104_content",
    "C104_refuted",
    "C104_unknown_refuted"
   ],
   "note": "Proved for files, and for directories whose time is not 0, of bags whose times are all known. REFUTED for a directory with the time 0 (the epoch), which is taken for none. If fs gives no time for an entry, restoring ends with TypeError."
  },
  {
   "property": "C105",
   "status": "partial",
   "theorems": [
    "C105_kept",
    "C105_migrates",
    "C105_refused",
    "C105_unsaved_refuted",
    "C105_inside_refuted",
    "C105_nested_refuted",
    "C105_tag",
    "C105_directories"
   ],
   "note": "However the call ends, every entry of the bag is in a directory, and no directory above the old tag directory is left empty (C105_directories). Proved for the same object, and for a bag opened again after the tags are saved; names without \".\" and \"..\". REFUTED before the tags are saved: the files are moved at once, and whoever opens the bag finds no aggregation (for all bags). REFUTED for a move of the directory into itself: it fails, but leaves new directories. REFUTED without migration for a directory whose parent does not exist: saving raises OSError (for all bags)."
  },
  {
   "property": "C106",
   "status": "partial",
   "theorems": [
    "C106_told_partial",
    "C106_count",
    "C106_including",
    "C106_refuted",
    "C106_nothing_failed",
    "C106_issue_text"
   ],
   "note": "Proved for the wanted types ERROR, PROB and ALL, and for all if at most three tests failed. REFUTED if only recommendations or warnings are wanted: the text may be about other tests only."
  },
  {
   "property": "C107",
   "status": "proved",
   "theorems": [
    "C107_all_found",
    "C107_missing"
   ],
   "note": "The second theorem gives the error of the step at which a member is missing."
  },
  {
   "property": "C108",
   "status": "partial",
   "theorems": [
    "C108_endings",
    "C108_found",
    "C108_confined_partial",
    "C108_same_partial",
    "C108_fetched",
    "C108_refuted",
    "C108_absolute_refuted",
    "C108_empty_refuted"
   ],
   "note": "Confined to the cache directory for names without slash other than the empty one, \".\" and \"..\". The same in every run if there is a directory or at most one archive. REFUTED otherwise: with two archives the order of a Python set decides (for all disks, names and pairs of extensions); an absolute path as name is taken as it is; the empty name gives the cache directory itself."
  },
  {
   "property": "C109",
   "status": "proved",
   "theorems": [
    "C109_amended_valid",
    "C109_single_valid"
   ],
   "note": "Validity is that of the validation of plain bags (C88). The two readers of the code (bagit.py with io text and codecs) must agree on the value of Payload-Oxum, which is part of ready."
  },
  {
   "property": "C11",
   "status": "partial",
   "theorems": [
    "C11_update_for_member_partial",
    "C11_readonly_refuted",
    "C11_string_exclude_refuted"
   ],
   "note": "Proved for directory bags with lists; REFUTED for read-only bags (exclusion of a directory does not reach subdirectories) and for exclude given as a string."
  },
  {
   "property": "C110",
   "status": "proved",
   "theorems": [
    "C110_amended_restores_valid"
   ],
   "note": "The multibag files of the new head bag are in multibag/ (the restorer removes only that directory). The conditions on the bags are those of C94 and C95 (agg_ok) before the amendment, with the new head bag as it was before."
  },
  {
   "property": "C111",
   "status": "partial",
   "theorems": [
    "C111_amended",
    "C111_single",
    "C111_restored_partial",
    "C111_restored_refuted"
   ],
   "note": "Proved for amendments and single multibags, up to 0.05% and 12 bytes. A restored bag declares the size of its files and directories together, up to 0.05% and 26 bytes, if a tag Bag-Size it had before is one line of ASCII (for a repeated tag the code subtracts the number of values, not modelled as a theorem). REFUTED for the size of the files of a restored bag alone."
  },
  {
   "property": "C112",
   "status": "proved",
   "theorems": [
    "C112_lists",
    "C112_restored"
   ],
   "note": "For bags with names that differ from each other and from the names in the lists of the first version. Only the deletions of the last head bag count: what an earlier one deleted is back (see C43 and C101)."
  },
  {
   "property": "C113",
   "status": "proved",
   "theorems": [
    "C113_history_restores_valid"
   ],
   "note": "As for C110, the multibag files of every new head bag are in multibag/. The bags that were found for the amendments are as they were before, but for the head bags."
  },
  {
   "property": "C114",
   "status": "partial",
   "theorems": [
    "C114_succeeds_partial",
    "C114_untabled",
    "C114_no_payload_refuted",
    "C114_fields_refuted"
   ],
   "note": "Proved for amendees that are plain bags or have readable lists and members without extra fields. Refuted otherwise: an aggregation without any payload file gets no file-lookup.tsv and can never be amended again (multibag.py 244-257, 609-617), and a member with extra fields stops the writing of the member list with a NameError (multibag.py 59)."
  },
  {
   "property": "C115",
   "status": "proved",
   "theorems": [
    "C115_history_succeeds",
    "C115_life_cycle"
   ],
   "note": "The conditions on room (tag directory, no directories in the place of files, names without line breaks) are those of C114, the conditions on the bags for restoring those of C113."
  },
  {
   "property": "C116",
   "status": "proved",
   "theorems": [
    "C116_single_succeeds",
    "C116_first_version",
    "C116_history_succeeds",
    "C116_no_payload_refuted"
   ],
   "note": "C116_first_version says that the converted bag meets what C112 to C115 ask of a first version. The condition of a payload file is needed: C116_no_payload_refuted shows that no bag without payload files can be amended after it was converted, because no list of files is written for it."
  },
  {
   "property": "C117",
   "status": "partial",
   "theorems": [
    "C117_alike_partial",
    "C117_right_place",
    "C117_readonly_confined",
    "C117_climbing_refused",
    "C117_alike_refuted"
   ],
   "note": "Proved for relative paths that are inside of the bag after every step and do not lead below a file. Refuted otherwise (C117_alike_refuted): absolute paths are taken as relative in read-only bags and as outside in directory bags; a path that leaves the bag and comes back is found in directory bags and refused in read-only ones; and directory bags answer about directories beside the bag whose name extends its name (C54)."
  },
  {
   "property": "C118",
   "status": "proved",
   "theorems": [
    "C118_whole_life"
   ],
   "note": "The conditions of C114 to C116 on the bags (names without line breaks, free tag directories, no directories in the place of files, multibag as tag directory) and of C110 on the bags together (valid_parts) are assumed of the bags before anything is done to them."
  },
  {
   "property": "C119",
   "status": "proved",
   "theorems": [
    "C119_split_amended",
    "C119_split_life"
   ],
   "note": "C119_split_amended is for any plan that has everything, C119_split_life for the plans of the splitters, where the split succeeds as well. The conditions on the releases are those of C118; the condition that bags can be restored together is asked of the bag that was split, not of its parts."
  },
  {
   "property": "C12",
   "status": "proved",
   "theorems": [
    "C12_well_packed_is_a_partition",
    "C13_plan_for_a_bag"
   ],
   "note": ""
  },
  {
   "property": "C120",
   "status": "proved",
   "theorems": [
    "C120_in_place",
    "C120_like_elsewhere",
    "C120_split_in_place"
   ],
   "note": "Conditions on the bags as in C95 (agg_ok: the bags fit together). That deleted paths of the head bag stay when restoring in place is C34_in_place_refuted."
  },
  {
   "property": "C121",
   "status": "partial",
   "theorems": [
    "C121_setup",
    "C121_spelling",
    "C121_possible",
    "C121_errors",
    "C121_beside",
    "C121_created_partial",
    "C121_made",
    "C121_created_refuted",
    "C121_relative_refuted",
    "C121_slashes_refuted",
    "C121_alias"
   ],
   "note": "Proved apart from what is refuted: a cache directory given beside the destination is made too if its path begins with that of the destination (C121_created_refuted), one inside it is not made if given by a relative path (C121_relative_refuted), and a path that begins with exactly two slashes is not seen to lead to the head bag (C121_slashes_refuted), which does no harm to its files when they are copied (C121_alias). Symbolic links are not followed in the model; the head bag is not the root directory."
  },
  {
   "property": "C122",
   "status": "partial",
   "theorems": [
    "C122_names",
    "C122_one_call",
    "C122_many",
    "C122_archive",
    "C122_base_used",
    "C122_extensions_refuted",
    "C122_slash_refuted"
   ],
   "note": "Proved for one call and for many bags with different base names. Refuted: that different paths are enough. Bags whose names differ in the extension only have the same base name, as have all bags whose paths end with a slash (an empty one), and the second of them to be split into the same directory fails with an OSError (C122_base_used with C122_extensions_refuted and C122_slash_refuted). Naming iterators are covered by C23 and C25 only."
  },
  {
   "property": "C123",
   "status": "proved",
   "theorems": [
    "C123_cycles"
   ],
   "note": "Conditions on the bag as in C100, and its tag values are single lines that both ways of opening a bag read alike (otherwise see C74). The places used are such that no path of the bag leads outside of it there."
  },
  {
   "property": "C124",
   "status": "partial",
   "theorems": [
    "C124_same_bags",
    "C124_undisturbed",
    "C124_stopped_partial",
    "C124_linked_partial",
    "C124_linked_frame",
    "C124_edit_refuted"
   ],
   "note": "Proved for sources that are copied from (opened read-only, as the splitters do, or on another file system). With hard links, proved for moving bags away and for writing files that the split made or that the source does not have; in general a file of the source changes at most if the caller wrote that file in a new bag. REFUTED otherwise: appending to a payload file of a new bag, which the documentation allows, changes the source bag, which is then invalid (C124_edit_refuted)."
  },
  {
   "property": "C125",
   "status": "partial",
   "theorems": [
    "C125_profiles",
    "C125_split_tags_partial",
    "C125_split_version",
    "C125_split_tags_refuted",
    "C125_split_files_refuted",
    "C125_amended_tags",
    "C125_single_tags",
    "C125_head_files_refuted",
    "C125_described_refuted"
   ],
   "note": "Proved: exactly which bags have tags that follow the profiles (splits: for source tag values of one line), and that split bags have the BagIt version of the source. REFUTED: a source with both a Bag-Group-Identifier and an External-Identifier gives split bags with two group identifiers; a bag with an Internal-Sender-Description of its own gets a second one when it becomes a head bag; no head bag has the tag files required by the head profile (group-members.txt, group-directory.txt, of version 0.2) unless the source already has them."
  },
  {
   "property": "C126",
   "status": "partial",
   "theorems": [
    "C126_same_bag",
    "C126_nothing_left",
    "C126_there_and_back",
    "C126_kept_refuted"
   ],
   "note": "Proved for restorations that remove the multibag tags (the default), for bags without a path multibag/_membercache of their own and member names that are names of directories; the bags may come as directories or as archives, some so and some so, and the file of an archive is not one that another member bag is looked for as. REFUTED with remove_multibag_tags=False: the restored bag keeps all the fetched bags in multibag/_membercache and lists them in its tag manifests. How an archive is unpacked is a parameter."
  },
  {
   "property": "C127",
   "status": "partial",
   "theorems": [
    "C127_silent",
    "C127_reread",
    "C127_memory",
    "C127_turns_partial",
    "C127_lost_refuted"
   ],
   "note": "Proved for all histories: handles that do not save disturb nobody, and re-reading answers from disk. Nothing is lost if a handle reads all three lists again before it changes and saves them, and no other saves in between (C127_turns_partial; the others may ask and change what they have in memory). REFUTED without that: of two handles that had both read the list, the second to save undoes what the first saved, and no exception is raised. Calls do not overlap in time."
  },
  {
   "property": "C128",
   "status": "partial",
   "theorems": [
    "C128_members",
    "C128_members_refuted",
    "C128_lookup",
    "C128_deleted",
    "C128_whole",
    "C128_harm_refuted"
   ],
   "note": "REFUTED: the file is emptied and written again, so the old list is never what is left, and for every k there is a stop after which the first k member bags are read without error (C128_members_refuted). Proved for all stops is exactly what can be read: the first entries, and perhaps what is left of the next: a member with its name or URI cut, an entry whose path is right and whose bag has its name cut (or an exception), a deleted path cut to another one. No other file changes. C128_harm_refuted: a file that was not to be deleted is read as deleted."
  },
  {
   "property": "C129",
   "status": "partial",
   "theorems": [
    "C129_again_partial",
    "C129_whole",
    "C129_table_refuted",
    "C129_tags_refuted",
    "C129_gap_refuted"
   ],
   "note": "Proved for stops between writes (C129_again_partial): tags with plain values, all except Bag-Size and Bag-Count. Missing, because REFUTED: a stop in the middle of a write. If the table of files was cut inside a path, the amendment cannot be made again, because the table is read before it is removed (C129_table_refuted); if bag-info.txt had just been emptied, it can, but the tags that the bag had are lost (C129_tags_refuted). C129_gap_refuted: while an amendment is made again, the bag is a designated head bag without lists. Opening the bag is modelled as reading its tags."
  },
  {
   "property": "C13",
   "status": "proved",
   "theorems": [
    "C13_bags_respect_the_limit",
    "C13_any_order",
    "C13_plan_for_a_bag"
   ],
   "note": "For the bags made by the packing loop; the one bag that complete_plan may add (empty directories, reserved files) is not limited, as C13_plan_for_a_bag says."
  },
  {
   "property": "C130",
   "status": "partial",
   "theorems": [
    "C130_again_partial",
    "C130_whole",
    "C130_tags_refuted"
   ],
   "note": "Proved for stops between writes and in the middle of writing the member list or the list of files, whatever text is left there (C130_again_partial): tags with plain values, all except Bag-Size and Bag-Count. C130_whole: finished conversions are among the earlier ones, so converting twice is converting once. Missing, because REFUTED: a stop in the middle of writing bag-info.txt, after which the tags that the bag had are lost (C130_tags_refuted). Stops in the middle of writing a tag manifest are not modelled."
  },
  {
   "property": "C131",
   "status": "partial",
   "theorems": [
    "C131_stepwise_partial",
    "C131_amend",
    "C131_init_refuted",
    "C131_init_again"
   ],
   "note": "Proved for the default arguments of the methods (C131_stepwise_partial) except that the order of the lines of the table of files, and with it Bag-Size, may differ; C131_amend: amend_bag_with is one of these sequences of calls. REFUTED for init_from_amendee called a second time: if the amendee deprecates several versions, the list is shared with the new head bag, and the version of the amendee is appended to it twice (C131_init_refuted); if it deprecates one or none, the tag is set as before (C131_init_again). Missing: the other arguments of the methods."
  },
  {
   "property": "C132",
   "status": "proved",
   "theorems": [
    "C132_kept",
    "C132_stopped",
    "C132_head",
    "C132_again"
   ],
   "note": "C132_kept and C132_again hold for all plans, also those that fail. C132_stopped and C132_head are for plans that succeed and do not name the files that a split writes itself (plans_no_own; see C31 and C72 for those), C132_head for names and versions without line breaks. A write of one file is one step. For the head bag that is designated before it has its lists see C45."
  },
  {
   "property": "C133",
   "status": "partial",
   "theorems": [
    "C133_race",
    "C133_different",
    "C133_same",
    "C133_both_refuted"
   ],
   "note": "C133_race is about any processes and schedules; the last sentence of the property is refuted by C133_both_refuted. A step makes the directory of a bag (os.mkdir is taken to be atomic) or does one operation on its files; the write of one file is one step. The sources do not change while they are read."
  },
  {
   "property": "C134",
   "status": "partial",
   "theorems": [
    "C134_listed",
    "C134_unlisted",
    "C134_refuted"
   ],
   "note": "C134_listed: proved if the list of member bags is there, even if the table of files and aggregation-info.txt are not. C134_unlisted: without the list, restoring a head bag that was opened read-only raises an exception. REFUTED for one that is given by its path, because it is opened for writing and then a missing list is an empty one: the restored bag has exactly what the head bag has, and restoring succeeds if the directory of the lists was made (C134_refuted). The write of one file is one step. Hypotheses as for C32 (the source is not a multibag) and C132 (the plan does not name the files that a split writes itself)."
  },
  {
   "property": "C135",
   "status": "partial",
   "theorems": [
    "C135_undisturbed",
    "C135_splits",
    "C135_ended",
    "C135_last",
    "C135_unpacked_refuted"
   ],
   "note": "Proved for all schedules. REFUTED for unpacking: a directory is preferred to an archive as soon as it is there, so restoring while the directory is being filled takes what it has by then, succeeds, and leaves out the rest (C135_unpacked_refuted). A bag is listed at one moment; each file is copied at its own moment. Nobody else writes to the destination."
  },
  {
   "property": "C136",
   "status": "partial",
   "theorems": [
    "C136_alone",
    "C136_content_partial",
    "C136_manifest_refuted",
    "C136_exception_refuted"
   ],
   "note": "The files: proved for all schedules; C136_alone shows that the steps are those of the restoration of C33. REFUTED for the manifests: a process that looked for the manifest before another one wrote it copies the one of the head bag over it; both end without an exception and files of the members are not listed (C136_manifest_refuted). REFUTED for exceptions: os.makedirs raises one if another process has made the directory meanwhile (C136_exception_refuted). Copying or writing one file is one step; no member bag is the destination."
  },
  {
   "property": "C137",
   "status": "partial",
   "theorems": [
    "C137_source",
    "C137_ended",
    "C137_as_copied",
    "C137_refuted"
   ],
   "note": "For every plan and every stop: the source keeps its files and directories, and only files that are planned although the split makes them anew (bag-info.txt, manifests, the lists of a head bag) can change (C137_source; C137_ended for a split that ends normally, which extends C31 to all plans). If no such file is planned nothing changes (C137_as_copied). REFUTED otherwise: complete_plan plans the lists of a head bag, and after a stop the member list of the source names a bag that is not finished (C137_refuted). A write of a file is one step."
  },
  {
   "property": "C138",
   "status": "partial",
   "theorems": [
    "C138_kept",
    "C138_no_return",
    "C138_gone",
    "C138_again_partial",
    "C138_refuted"
   ],
   "note": "The first part holds for every stop and every path outside of the multibag directory and the files that describe the bag (C138_kept). REFUTED: starting again is impossible if the head bag has an aggregation-info.txt, as those that splitting makes have. This becomes the bag-info.txt in the first step, and from there on the bag is refused as not being a head bag, or its multibag directory is gone and restoring fails (C138_no_return, C138_gone, C138_refuted). Without that file, and with a deleted.txt, the lists stay as they were until the multibag directory is removed, and a restoration that is started again and ends without an exception gives the right files (C138_again_partial). Missing: that it does end without an exception, and stops within the writing of a file."
  },
  {
   "property": "C139",
   "status": "partial",
   "theorems": [
    "C139_in_place",
    "C139_elsewhere",
    "C139_refused",
    "C139_refuted"
   ],
   "note": "The lists are the same, and so are the files and directories after a second restoration that succeeds, in place (C139_in_place) or elsewhere (C139_elsewhere), also if the former head bag is now visited as a member. For head bags with a deleted.txt that does not delete multibag tag files, the default tag directory and a handle that looks for the lists in the same place. REFUTED for head bags with an aggregation-info.txt, as those that splitting makes have: the restored bag has the lists but is refused as not being a head bag (C139_refused for update_sizes=False, C139_refuted for the default)."
  },
  {
   "property": "C14",
   "status": "proved",
   "theorems": [
    "C14_target_and_tight_packing",
    "C14_sizes_of_a_new_splitter"
   ],
   "note": ""
  },
  {
   "property": "C140",
   "status": "partial",
   "theorems": [
    "C140_plan",
    "C140_bags",
    "C140_refuted"
   ],
   "note": "The plans have the same bags with the same names, sizes and sets of files; all but the last are the same to the order (C140_plan, both splitters). Splits by such plans that succeed make bags with the same names and the same copied files (C140_bags). REFUTED for the files that a split writes itself: manifests and lists of the last bag have their lines in the order of the listing, so that it is not the same to the byte (C140_refuted)."
  },
  {
   "property": "C141",
   "status": "partial",
   "theorems": [
    "C141_only_lists",
    "C141_confined_partial",
    "C141_followed",
    "C141_any_directory",
    "C141_read_back",
    "C141_not_found",
    "C141_refuted",
    "C141_empty_name",
    "C141_set_name"
   ],
   "note": "Only the named directory and the three lists in it change, whether or not the calls fail (C141_only_lists); so nothing outside of the bag changes if the name leads into it (C141_confined_partial), and then what was saved is read back (C141_read_back). REFUTED for other names: nothing checks the name, so that it is followed to any directory (C141_followed, C141_any_directory) and another bag's lists are replaced and removed (C141_refuted); the reading methods do not find lists saved there (C141_not_found). With an empty name lists are saved in the bag but looked for at the root of the file system (C141_empty_name). Names set with set_multibag_tag_dir are never absolute and lead into the bag unless they have two dots (C141_set_name). Not modelled: symbolic links and bags at relative paths."
  },
  {
   "property": "C142",
   "status": "partial",
   "theorems": [
    "C142_restored_partial",
    "C142_checksums_partial",
    "C142_consistent_restored",
    "C142_oxum",
    "C142_refuted"
   ],
   "note": "Payload-Oxum is the same in both (C142_oxum). A consistent aggregation in the sense of C94 can be restored in both listings (C142_consistent_restored). Two restorations that succeed give the same at every path but the tag files that the restoration writes (C142_restored_partial), and the payload manifests record the same checksums where C37 says which ones (C142_checksums_partial). REFUTED for the text of the manifests: their lines are in the order of the listing, so that the bags are not the same to the byte (C142_refuted). Missing: that one restoration succeeds if the other one does for aggregations that C94 does not cover, and the tag manifests (C76 says what these have)."
  },
  {
   "property": "C143",
   "status": "proved",
   "theorems": [
    "C143_opened",
    "C143_validated",
    "C143_head",
    "C143_member",
    "C143_valid",
    "C143_comments_order"
   ],
   "note": "C143_opened and C143_validated are about opening a bag and the check of the plain bag, C143_head and C143_member about the two validators, C143_valid about is_valid. C143_comments_order shows that the order of comments, which the property leaves open, does depend on the listing."
  },
  {
   "property": "C144",
   "status": "partial",
   "theorems": [
    "C144_members",
    "C144_lookup",
    "C144_deleted",
    "C144_files_in_member",
    "C144_update_partial",
    "C144_sizes",
    "C144_histories",
    "C144_refuted"
   ],
   "note": "C144_update_partial has the conditions of C11_update_for_member_partial. REFUTED for the text of file-lookup.tsv that is saved after it: its lines are in the order of the listing (C144_refuted)."
  },
  {
   "property": "C145",
   "status": "proved",
   "theorems": [
    "C145_answers",
    "C145_order"
   ],
   "note": "As long as nothing is changed through the handle: after set_deleted it matters whether the deleted paths had been asked for before (C145_marked_refuted, the defect of C09). member_bags gives out its remembered list itself; a caller that changes this list is not modelled. The files are taken not to be changed by others meanwhile."
  },
  {
   "property": "C15",
   "status": "proved",
   "theorems": [
    "C15_number_of_bags"
   ],
   "note": ""
  },
  {
   "property": "C16",
   "status": "proved",
   "theorems": [
    "C16_neighborly_is_a_partition_within_the_limit",
    "C16_neighborly_target_and_tight_packing"
   ],
   "note": ""
  },
  {
   "property": "C17",
   "status": "proved",
   "theorems": [
    "C17_neighborly_keeps_directories_together"
   ],
   "note": ""
  },
  {
   "property": "C18",
   "status": "proved",
   "theorems": [
    "C18_biggest_first_whatever_the_listing"
   ],
   "note": ""
  },
  {
   "property": "C19",
   "status": "proved",
   "theorems": [
    "C19_complete_plan"
   ],
   "note": ""
  },
  {
   "property": "C20",
   "status": "partial",
   "theorems": [
    "C20_plan_covers_the_bag_refuted",
    "C20_plan_covers_the_bag_partial",
    "C20_bagit_files_are_excluded",
    "C20_left_out",
    "C20_left_out_path",
    "C20_forhead_refuted"
   ],
   "note": "REFUTED: the dot in the expressions for special files is not escaped, so a top-level tag file such as bagit-txt is in no output bag; and a file such as data/fetch.txt that is reserved for the head bag is in no bag at all (C20_forhead_refuted). Proved: everything else is named exactly once."
  },
  {
   "property": "C21",
   "status": "partial",
   "theorems": [
    "C21_complete_plan_has_all_payload_refuted",
    "C21_complete_plan_has_all_payload_partial"
   ],
   "note": "REFUTED: a payload file whose base name looks like a BagIt file (data/fetch.txt) is not required, so is_complete() is true without it. Proved for other names."
  },
  {
   "property": "C22",
   "status": "partial",
   "theorems": [
    "C22_forhead_refuted",
    "C22_forhead_partial",
    "C20_forhead_refuted"
   ],
   "note": "REFUTED for relative paths (never reserved, and the list of the caller is changed), and for files called like those of BagIt, which get lost (C20_forhead_refuted). Proved for other paths with a leading slash."
  },
  {
   "property": "C23",
   "status": "proved",
   "theorems": [
    "C23_output_bags_get_distinct_names",
    "C23_any_names"
   ],
   "note": ""
  },
  {
   "property": "C24",
   "status": "proved",
   "theorems": [
    "C24_find_destination_is_the_last_listing"
   ],
   "note": ""
  },
  {
   "property": "C25",
   "status": "proved",
   "theorems": [
    "C25_exact_copies",
    "C25_split_succeeds"
   ],
   "note": ""
  },
  {
   "property": "C26",
   "status": "partial",
   "theorems": [
    "C26_head_and_members_partial",
    "C26_refuted"
   ],
   "note": "Proved for names that can be stored; REFUTED for the repeats: a name listed twice in a source that is a head bag is listed twice in the new head."
  },
  {
   "property": "C27",
   "status": "partial",
   "theorems": [
    "C27_lookup_partial",
    "C27_refuted"
   ],
   "note": "Proved for storable names; REFUTED for a file with a tab in its name, which is not found."
  },
  {
   "property": "C28",
   "status": "partial",
   "theorems": [
    "C28_checksums_partial",
    "C28_refuted"
   ],
   "note": "Proved for names that can be written into manifests; REFUTED for a line break in a file name, which is not encoded in the manifests of split bags."
  },
  {
   "property": "C29",
   "status": "proved",
   "theorems": [
    "C29_oxum",
    "C29_bytes",
    "C29_bytes_exist"
   ],
   "note": "The sizes are numbers of bytes in UTF-8 (C29_bytes)."
  },
  {
   "property": "C30",
   "status": "partial",
   "theorems": [
    "C30_bag_info_partial",
    "C30_refuted"
   ],
   "note": "Proved for values on at most two lines; REFUTED for a value on three lines, which is not passed on as it is."
  },
  {
   "property": "C31",
   "status": "partial",
   "theorems": [
    "C31_source_untouched_partial",
    "C31_refuted"
   ],
   "note": "REFUTED: a source that is a head bag, split by a completed plan made from its directory (which links files), gets its member list overwritten. Proved for plans without the files that a split writes; the splitters open their source read-only and copy."
  },
  {
   "property": "C32",
   "status": "partial",
   "theorems": [
    "C32_split_restores",
    "C32_round_trip_partial",
    "C32_created_plans",
    "C32_refuted"
   ],
   "note": "Proved with success of the restoration for sources that are not multibags, were opened from a path, and record checksums for the same algorithms in manifests and tag manifests; for any source if the restoration ends without an error. REFUTED otherwise: a bag with manifests for two algorithms and a tag manifest for one of them is split without an error, but restoring its bags raises KeyError."
  },
  {
   "property": "C33",
   "status": "proved",
   "theorems": [
    "C33_combination"
   ],
   "note": "For restorations into a new directory that end without an error."
  },
  {
   "property": "C34",
   "status": "partial",
   "theorems": [
    "C34_deleted",
    "C34_in_place_refuted"
   ],
   "note": "Proved for restorations into a new directory. REFUTED in place: a deleted path that the head bag itself has stays."
  },
  {
   "property": "C35",
   "status": "partial",
   "theorems": [
    "C35_kept_partial",
    "C35_added",
    "C35_refuted"
   ],
   "note": "REFUTED for other files in a multibag directory of the destination: they get removed with it. Proved for everything else."
  },
  {
   "property": "C36",
   "status": "partial",
   "theorems": [
    "C36_content_partial",
    "C36_refuted",
    "C36_cut",
    "C36_cut_refuted"
   ],
   "note": "Content: proved for stops between steps. For a stop in the middle of copying a file C36_cut says that exactly this file is wrong after the second run: REFUTED there, because what exists is not copied again (C36_cut_refuted). REFUTED for checksums: files copied before the stop are missing in the manifests afterwards."
  },
  {
   "property": "C37",
   "status": "partial",
   "theorems": [
    "C37_checksums_partial",
    "C37_refuted"
   ],
   "note": "Proved when the head bag has a payload manifest for every algorithm that some member has. REFUTED otherwise: the manifest of a member is copied as it is, with the checksums of replaced files."
  },
  {
   "property": "C38",
   "status": "partial",
   "theorems": [
    "C38_refuted",
    "C94_consistent_aggregations_restore"
   ],
   "note": "REFUTED: the restoration can end with a KeyError. What holds is C94_consistent_aggregations_restore: it succeeds if all members use the same algorithms."
  },
  {
   "property": "C39",
   "status": "partial",
   "theorems": [
    "C39_merge_partial",
    "C39_fetch_partial",
    "C39_order_refuted",
    "C39_head_refuted",
    "C39_deleted_refuted",
    "C39_newline_refuted"
   ],
   "note": "REFUTED: the first member wins, the lines of the head bag get lost, deleted paths stay, and a line after one without a line break is lost in it. Proved as documented if no path is listed twice or deleted and either only the head bag or only other bags have lines; and an exact description of the merge."
  },
  {
   "property": "C40",
   "status": "partial",
   "theorems": [
    "C40_removed_partial",
    "C40_refuted",
    "C40_fails_refuted"
   ],
   "note": "Proved for the directory \"multibag\". REFUTED for head bags that name another tag directory: it stays, or the restoration fails in the end."
  },
  {
   "property": "C41",
   "status": "proved",
   "theorems": [
    "C41_members",
    "C41_distinct"
   ],
   "note": "For names that can be stored."
  },
  {
   "property": "C42",
   "status": "partial",
   "theorems": [
    "C42_exact",
    "C42_lookup_partial",
    "C42_refuted"
   ],
   "note": "Exact description of the new lookup in all cases. As documented for amendment bags with different names that the old lookup does not name; REFUTED when a bag is added again with other files: files it had overridden are not found any more."
  },
  {
   "property": "C43",
   "status": "partial",
   "theorems": [
    "C43_unchanged",
    "C43_refuted"
   ],
   "note": "REFUTED: the old deleted.txt is never read, deleted.txt of the new head stays as it is."
  },
  {
   "property": "C44",
   "status": "partial",
   "theorems": [
    "C44_deprecates",
    "C44_amendee_partial",
    "C44_amendee_refuted"
   ],
   "note": "Proved for the tags. The files of the amendee are never changed; REFUTED for the tags of its handle in memory: the list of deprecated versions is shared and grows."
  },
  {
   "property": "C45",
   "status": "partial",
   "theorems": [
    "C45_split_partial",
    "C45_split_members",
    "C45_split_refuted",
    "C45_amend",
    "C45_single_partial",
    "C45_single_refuted"
   ],
   "note": "Proved for amendments, and for single multibags of bags that have a Multibag-Version. REFUTED for other single multibags and for splits: bag-info.txt is written before the member list and the lookup; for splits proved for the steps before and after, and for member bags."
  },
  {
   "property": "C46",
   "status": "partial",
   "theorems": [
    "C46_head_partial",
    "C46_slash_refuted",
    "C46_empty_refuted",
    "C46_old_profile_refuted"
   ],
   "note": "Proved for paths without a slash at the end, payloads with files and tags of version 0.3 or later of the profile. REFUTED for each of the others: the bag is not listed, there is no lookup, the lookup has entries of other bags."
  },
  {
   "property": "C47",
   "status": "proved",
   "theorems": [
    "C47_results",
    "C47_additive"
   ],
   "note": ""
  },
  {
   "property": "C48",
   "status": "partial",
   "theorems": [
    "C48_ensure",
    "C48_message_refuted"
   ],
   "note": "Proved. The count in the message of the exception is not that of the wanted tests that failed: REFUTED for the default mask."
  },
  {
   "property": "C49",
   "status": "proved",
   "theorems": [
    "C49_members",
    "C49_lookup"
   ],
   "note": "Both versions of the aggregation files. White space around fields is dropped by the tests, unlike by the readers, see C79."
  },
  {
   "property": "C50",
   "status": "partial",
   "theorems": [
    "C50_partial",
    "C50_refuted",
    "C50_comment_refuted"
   ],
   "note": "C50_partial says exactly which URLs pass: those with a scheme and no host. REFUTED: every URL with a scheme and a host fails. A comment in a line without a URL is taken for the URL and fails as well."
  },
  {
   "property": "C51",
   "status": "partial",
   "theorems": [
    "C51_refuted",
    "C51_partial"
   ],
   "note": "REFUTED: without results of the caller the tests of the name are not recorded, and the bag is valid. Proved when results are passed in."
  },
  {
   "property": "C52",
   "status": "proved",
   "theorems": [
    "C52_loaded",
    "C52_conflict",
    "C52_repeats",
    "C52_accepts",
    "C52_comments"
   ],
   "note": ""
  },
  {
   "property": "C53",
   "status": "partial",
   "theorems": [
    "C53_safe_paths_refuted",
    "C53_safe_paths_partial",
    "C53_plain_paths_partial"
   ],
   "note": "REFUTED: the prefix test compares characters, so ../bag-evil/x is safe for a bag called bag. Proved: an accepted path is inside of the bag or of such a sibling; plain paths are inside and accepted. Locations are absolute."
  },
  {
   "property": "C54",
   "status": "partial",
   "theorems": [
    "C54_confined_refuted",
    "C54_confined_partial",
    "C54_inside"
   ],
   "note": "REFUTED in the same way as C53."
  },
  {
   "property": "C55",
   "status": "partial",
   "theorems": [
    "C55_hash_lines_refuted",
    "C55_hash_lines_partial"
   ],
   "note": "REFUTED for paths with line breaks, outer blanks, a leading asterisk or a literal %0A/%0D; proved for all other normalized paths."
  },
  {
   "property": "C56",
   "status": "partial",
   "theorems": [
    "C56_tags_partial",
    "C56_folded_partial",
    "C56_blank_lines",
    "C56_tags_refuted"
   ],
   "note": "Proved for values on one line; REFUTED for values with two or more continuation lines, which change each time they are rewritten."
  },
  {
   "property": "C57",
   "status": "partial",
   "theorems": [
    "C57_partial",
    "C57_refuted"
   ],
   "note": "Proved for totals and counts below 2^50. REFUTED otherwise: a count of zero divides by zero, and from 2^53 on the sizes need not add up."
  },
  {
   "property": "C58",
   "status": "partial",
   "theorems": [
    "C58_partial",
    "C58_refuted"
   ],
   "note": "Proved for sizes below 2^53, with the line lengths. REFUTED for negative sizes (an exception) and for huge sizes, where too many lines are written."
  },
  {
   "property": "C59",
   "status": "proved",
   "theorems": [
    "C59_close",
    "C59_exact",
    "C59_plain",
    "C59_bag_size"
   ],
   "note": "For counts below 2^1023. A size just below a power of 1000 shows as \"1000 kB\"."
  },
  {
   "property": "C60",
   "status": "partial",
   "theorems": [
    "C60_refuted",
    "C60_json_refuted",
    "C60_construct"
   ],
   "note": "REFUTED for every issue: from_tuple raises TypeError, and the JSON form AttributeError."
  },
  {
   "property": "C61",
   "status": "partial",
   "theorems": [
    "C61_readonly",
    "C61_open",
    "C61_result",
    "C61_kept_partial",
    "C61_answers",
    "C61_refuted",
    "C61_new"
   ],
   "note": "Proved: no update methods for read-only bags or with readonly; files, tags and (but for one step) caches are kept. REFUTED: upgrading a head bag for reading to one for updates drops its caches (the answers stay the same while the files do); readonly takes nothing away from a HeadBag; _NoUpdateHeadBag cannot be instantiated."
  },
  {
   "property": "C62",
   "status": "partial",
   "theorems": [
    "C62_tuple_string_refuted",
    "C62_tuples_partial"
   ],
   "note": "REFUTED as stated: a tuple Version never equals a string Version and ordering raises TypeError; tuples among themselves are ordered."
  },
  {
   "property": "C63",
   "status": "partial",
   "theorems": [
    "C63_old_version_refuted",
    "C63_members_partial",
    "C63_lookup_partial"
   ],
   "note": "REFUTED for Multibag-Version below 0.3; proved from 0.3 on."
  },
  {
   "property": "C64",
   "status": "partial",
   "theorems": [
    "C64_replicate_read_only",
    "C64_read_only_file",
    "C64_replicate_with_logger_partial",
    "C64_replicate_partial",
    "C64_refuted",
    "C64_replicate_logged_partial",
    "C64_read_only_raises",
    "C64_directory_raises"
   ],
   "note": "ValueError is raised exactly if the path is not in the bag, and then nothing has changed (C64_read_only_raises, C64_directory_raises). Read-only bags have it (the directory case rests on a recalled behaviour of the fs library, see DESIGN.md section 2). REFUTED for directory bags: a failing copy is not reported. Proved with a logger, or if copying does not fail, unless the destination is a directory."
  },
  {
   "property": "C65",
   "status": "partial",
   "theorems": [
    "C65_reread_members",
    "C65_reread_lookup",
    "C65_discard_refuted",
    "C65_discard_members_partial",
    "C65_discard_lookup_partial"
   ],
   "note": "The re-reading call itself answers from disk; REFUTED for later calls when the file is missing."
  },
  {
   "property": "C66",
   "status": "partial",
   "theorems": [
    "C66_repeated_tag_refuted"
   ],
   "note": "REFUTED: TypeError for every repeated tag."
  },
  {
   "property": "C67",
   "status": "partial",
   "theorems": [
    "C67_location_refuted",
    "C67_location_partial"
   ],
   "note": "REFUTED for every location that normalizes to \".\": all queries answer no and all manifest paths are unsafe. Proved for all others."
  },
  {
   "property": "C68",
   "status": "partial",
   "theorems": [
    "C68_out_of_names_refuted",
    "C68_out_of_names_partial",
    "C23_any_names"
   ],
   "note": "REFUTED for an iterator without any name (UnboundLocalError); proved otherwise."
  },
  {
   "property": "C69",
   "status": "partial",
   "theorems": [
    "C69_completed_names_refuted",
    "C69_completed_names_partial"
   ],
   "note": "REFUTED: a plan named with SimpleNamer and then completed has two bags of the same name."
  },
  {
   "property": "C70",
   "status": "partial",
   "theorems": [
    "C70_refuted"
   ],
   "note": "REFUTED: no split of a bag without bag-info.txt succeeds."
  },
  {
   "property": "C71",
   "status": "partial",
   "theorems": [
    "C71_names_partial",
    "C71_refuted"
   ],
   "note": "REFUTED: the method next() is called, so a Python 3 generator raises AttributeError. Proved for iterators with that method."
  },
  {
   "property": "C72",
   "status": "partial",
   "theorems": [
    "C72_valid_partial",
    "C72_refuted"
   ],
   "note": "REFUTED for head bags: the tag manifest keeps the checksum of the old member list. Proved for plans without the files that a split writes."
  },
  {
   "property": "C73",
   "status": "proved",
   "theorems": [
    "C73_oxum"
   ],
   "note": "For restorations that end without an error."
  },
  {
   "property": "C74",
   "status": "proved",
   "theorems": [
    "C74_tags"
   ],
   "note": "For restorations that end without an error. Blanks at line breaks within values may change."
  },
  {
   "property": "C75",
   "status": "partial",
   "theorems": [
    "C75_partial",
    "C75_refuted"
   ],
   "note": "Tags that the head bag has itself have the value merging gives (C75_partial). REFUTED in general: only bag-info.txt of the last bag counts, and Bag-Count and other Multibag-* tags stay."
  },
  {
   "property": "C76",
   "status": "proved",
   "theorems": [
    "C76_tag_manifests"
   ],
   "note": "For each algorithm that has a manifest and, from version 0.97 of BagIt on, each one that has a tag manifest."
  },
  {
   "property": "C77",
   "status": "partial",
   "theorems": [
    "C77_refuted",
    "C77_deprecates_refuted",
    "C77_partial"
   ],
   "note": "REFUTED for every bag that is not a head bag: validate() raises. Proved for bags with a head version, a multibag directory and a data directory."
  },
  {
   "property": "C78",
   "status": "partial",
   "theorems": [
    "C78_partial",
    "C78_refuted"
   ],
   "note": "A repeated version fails (C78_partial). REFUTED: any single value passes."
  },
  {
   "property": "C79",
   "status": "partial",
   "theorems": [
    "C79_partial",
    "C79_refuted",
    "C79_lookup_refuted",
    "C79_version_refuted"
   ],
   "note": "Proved for member lists without white space around the fields and versions from 0.3 on. REFUTED for padded names, empty bag names in the file lookup and version 0.1."
  },
  {
   "property": "C80",
   "status": "partial",
   "theorems": [
    "C80_partial",
    "C80_refuted"
   ],
   "note": "Locations without a slash at the end all give the same results (C80_partial). REFUTED: with a slash at the end of the location every head bag fails."
  },
  {
   "property": "C81",
   "status": "proved",
   "theorems": [
    "C81_decides"
   ],
   "note": "For tags as they are read from a file. The rules are those of the tests, see C50, C78, C79 and C82 for where these miss the profile."
  },
  {
   "property": "C82",
   "status": "partial",
   "theorems": [
    "C82_refuted",
    "C82_partial"
   ],
   "note": "REFUTED: another head bag with the same version is taken for the bag itself. Proved: a bag that deprecates itself is always reported."
  },
  {
   "property": "C83",
   "status": "partial",
   "theorems": [
    "C83_single_partial",
    "C83_refuted"
   ],
   "note": "Proved for bags with payload, ordinary recommended tags and an accepted identifier. REFUTED otherwise: an empty Internal-Sender-Description stays, an identifier with a host is not accepted, and without payload no lookup is written."
  },
  {
   "property": "C84",
   "status": "partial",
   "theorems": [
    "C84_members",
    "C84_lookup",
    "C84_missing_refuted"
   ],
   "note": "Proved for the tests on lines. REFUTED for payload files missing from the lookup: the result never names any."
  },
  {
   "property": "C85",
   "status": "partial",
   "theorems": [
    "C85_member_partial",
    "C85_refuted"
   ],
   "note": "Proved when results are passed in. REFUTED otherwise: the results of the multibag rules are thrown away, and the bag passes on plain validity and its version tag alone."
  },
  {
   "property": "C86",
   "status": "partial",
   "theorems": [
    "C86_amended_partial",
    "C86_refuted"
   ],
   "note": "Proved when the new head bag has payload and ordinary recommended tags, the members taken over have accepted URLs, and the deprecated versions are others. REFUTED otherwise: amending may keep the version of the amendee, or take over a URL that is not accepted."
  },
  {
   "property": "C87",
   "status": "partial",
   "theorems": [
    "C87_archive",
    "C87_directory_partial",
    "C87_refuted"
   ],
   "note": "Proved for archives and for directories without a slash at the end. REFUTED: with a slash the bag has no name; an archive with the bag at its root is opened at a bag inside of the payload."
  },
  {
   "property": "C88",
   "status": "proved",
   "theorems": [
    "C88_validates",
    "C88_tampering",
    "C88_capitals",
    "C88_letter_case"
   ],
   "note": "The steps are those of ReadOnlyBag; the order of the steps is that of the bagit library, from memory. The checksum functions are arguments."
  },
  {
   "property": "C89",
   "status": "partial",
   "theorems": [
    "C89_ends_partial",
    "C89_refuted",
    "C89_open_refuted"
   ],
   "note": "Proved for version 0.97 and later with well-formed fetch.txt and Payload-Oxum. REFUTED: a Payload-Oxum without a dot or a blank line in fetch.txt raises ValueError; other malformed values raise BagError, for which the validator raises AttributeError; a repeated BagIt-Version raises AttributeError on opening."
  },
  {
   "property": "C90",
   "status": "partial",
   "theorems": [
    "C90_split_valid_partial"
   ],
   "note": "Proved for sources of version 0.97 and later opened as ReadOnlyBag, and plans that avoid the files that the split writes itself, fetch.txt and paths that a manifest cannot express. C72 has the counterexample for head bags."
  },
  {
   "property": "C91",
   "status": "partial",
   "theorems": [
    "C91_split_head_partial",
    "C91_refuted"
   ],
   "note": "Proved for all wanted types without recommendations, and sources that are not head bags. REFUTED with recommendations: the head bag of a split never has a Multibag-Reference, which the validator recommends."
  },
  {
   "property": "C92",
   "status": "partial",
   "theorems": [
    "C92_members_partial"
   ],
   "note": "Proved: errors are never reported. REFUTED by the same theorem for warnings: split gives every bag a Multibag-Tag-Directory, and the validator warns about it in a bag that is not a head bag; that is only seen if results are passed in (see C85)."
  },
  {
   "property": "C93",
   "status": "proved",
   "theorems": [
    "C93_versions"
   ],
   "note": "For a bagit.txt with the two required tags, each once."
  },
  {
   "property": "C94",
   "status": "proved",
   "theorems": [
    "C94_consistent_aggregations_restore"
   ],
   "note": "The conditions are those of agg_ok; C32_split_restores shows that the bags of a split meet them."
  },
  {
   "property": "C95",
   "status": "proved",
   "theorems": [
    "C95_restored_valid",
    "C95_split_restores_valid"
   ],
   "note": "For the checks of plain BagIt validation. The bags are those of BagIt version 0.97 or later (agg_ok)."
  },
  {
   "property": "C96",
   "status": "proved",
   "theorems": [
    "C96_uniform"
   ],
   "note": ""
  },
  {
   "property": "C97",
   "status": "proved",
   "theorems": [
    "C97_kept"
   ],
   "note": "The model leaves out that the destination itself may have to be made, and the stage at which a file is partly written."
  },
  {
   "property": "C98",
   "status": "proved",
   "theorems": [
    "C98_plan",
    "C98_refuted"
   ],
   "note": "C98_refuted: plans that do not fit. Repeated sets get more files than the total, more sets than files raise ZeroDivisionError on the way, and a size without a number of files is ignored."
  },
  {
   "property": "C99",
   "status": "partial",
   "theorems": [
    "C99_ends_partial",
    "C99_refuted"
   ],
   "note": "Random numbers are assumed to cover their range again and again. Without enough names the search never ends (C99_refuted), because the counter that was to widen it is never changed."
  }
 ]
}
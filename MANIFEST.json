{
 "claims": [
  {
   "property": "C01",
   "status": "proved",
   "theorems": [
    "C01_compare_total_preorder",
    "C01_operators_agree",
    "C01_strings"
   ],
   "note": "Over all component lists (parsed or not) and, through the parser, all accepted strings."
  },
  {
   "property": "C02",
   "status": "proved",
   "theorems": [
    "C02_lexicographic",
    "C02_items",
    "C02_numeric_components",
    "C02_zero_suffix",
    "C02_prerelease",
    "C02_patch"
   ],
   "note": "Exact characterisation against an independent lexicographic specification with implicit zeros."
  },
  {
   "property": "C03",
   "status": "proved",
   "theorems": [
    "C03_parse_exactly_the_grammar",
    "C03_otherwise_raises",
    "C03_dict_order_irrelevant",
    "C03_component_count",
    "C03_bare_keyword_is_prerelease_refuted"
   ],
   "note": "Finding: a bare two-letter keyword is read as two letters, so 1.0_rc is newer than 1.0."
  },
  {
   "property": "C04",
   "status": "proved",
   "theorems": [
    "C04_comparison_has_no_memory",
    "C04_comparison_total"
   ],
   "note": "All finite histories over shared, in-place padded objects."
  },
  {
   "property": "C05",
   "status": "proved",
   "theorems": [
    "C05_satisfied",
    "C05_not_satisfied",
    "C05_fails_only_on_bad_texts",
    "C05_convex"
   ],
   "note": "Exact iff characterisation of Dependency.satisfies against the version order of C02; failure only on unreadable texts; windows convex."
  },
  {
   "property": "C06",
   "status": "proved",
   "theorems": [
    "C06_installed_satisfies",
    "C06_repo_satisfies",
    "C06_installable"
   ],
   "note": "iff characterisation of true, false and error for every system history; component dependencies raise TypeError"
  },
  {
   "property": "C07",
   "status": "proved",
   "theorems": [
    "C07_topological_sort",
    "C07_succeeds_iff_acyclic",
    "C07_fails_only_with_cycle"
   ],
   "note": "for every graph built through the API and every iteration order of Python's sets"
  },
  {
   "property": "C08",
   "status": "proved",
   "theorems": [
    "C08_cycle_free",
    "C08_add_vertex",
    "C08_add_edge"
   ],
   "note": ""
  },
  {
   "property": "C09",
   "status": "partial",
   "theorems": [
    "C09_report_is_cycle_refuted",
    "C09_report_ends_in_cycle_partial"
   ],
   "note": "REFUTED as stated: the exception lists the path from the root of the search; what is listed always ends in a cycle"
  },
  {
   "property": "C10",
   "status": "proved",
   "theorems": [
    "C10_plan_closed_and_ordered"
   ],
   "note": "plan_install models plan_install_pkg_names before its conflict check; all orders of set iteration."
  },
  {
   "property": "C100",
   "status": "partial",
   "theorems": [
    "C100_emerged_partial",
    "C100_exclusive",
    "C100_dry_run",
    "C100_never_refuted"
   ],
   "note": "REFUTED as stated: without --ignore-dependency nothing is ever built (C100_never_refuted), as plan_emerge names a module that does not exist. C100_emerged_partial: the full statement with --ignore-dependency; C100_dry_run: dry runs."
  },
  {
   "property": "C101",
   "status": "partial",
   "theorems": [
    "C101_cat",
    "C101_grep",
    "C101_tr",
    "C101_sort",
    "C101_uniq",
    "C101_sort_uniq",
    "C101_enum",
    "C101_print_partial",
    "C101_print_refuted",
    "C101_last_line_refuted"
   ],
   "note": "REFUTED as stated: printing what cat read puts an empty line after every line (C101_print_refuted); a last line without newline character counts as different from the same line with one (C101_last_line_refuted). C101_print_partial: texts without newline characters are printed one to a line. The rest holds in full."
  },
  {
   "property": "C102",
   "status": "partial",
   "theorems": [
    "C102_told",
    "C102_found_partial",
    "C102_fuzzy",
    "C102_link_refuted",
    "C102_range_refuted"
   ],
   "note": "REFUTED as stated: a link that a package installed is never asked about, only what it leads to (C102_link_refuted); a pattern such as [z-a] ends the command with an exception (C102_range_refuted). C102_found_partial: exactly the listing package, where no path is listed twice (for shared paths see C31). C102_told: for all histories, in terms of the files database, whose entries are shown to be of installed packages that list the path. Arguments with .. and unclosed brackets are not in the theorems."
  },
  {
   "property": "C103",
   "status": "partial",
   "theorems": [
    "C103_dobin",
    "C103_dodoc",
    "C103_doinfo",
    "C103_insinto_partial",
    "C103_insinto_refuted",
    "C103_dohtml_partial",
    "C103_dohtml_contained",
    "C103_same_name_refuted",
    "C103_cvs_refuted",
    "C103_doexes_refuted"
   ],
   "note": "REFUTED as stated for insinto, dohtml and doexes: insinto takes the name of a file that matched for a pattern again, so a[1].txt is not copied, without an error; dohtml puts all pages in one flat directory, so of two with the same name the last wins, and a CVS directory inside a directory is not left out; doexes always fails after making the directory. Positive: dobin, dodoc, doinfo, insinto and dohtml, for any patterns and matches outside the install directory, give exactly the directories and the files (of those with the same name, the last), when install works. Missing: links in the way in the install directory; directories and links copied by insinto; what os.walk gives is a parameter; names the shell would take apart."
  },
  {
   "property": "C104",
   "status": "partial",
   "theorems": [
    "C104_doman",
    "C104_doman_refuses",
    "C104_newman_partial",
    "C104_newdoc_partial",
    "C104_section_refuted",
    "C104_newdoc_refuted",
    "C104_newman_itself_refuted"
   ],
   "note": "REFUTED as stated: a page whose own name has no dot is installed into a made-up section when its directory's name has one (C104_section_refuted); newdoc, run elsewhere than the source directory, installs nothing or another file and reports success (C104_newdoc_refuted); newman fails on a page that already has the name (C104_newman_itself_refuted). Proved: doman is exact for all arguments whose matches have a section (C104_doman), and an error at the first match without any dot (C104_doman_refuses); newman for one literal source that is a regular file and a bare name (C104_newman_partial); newdoc likewise, from the source directory, into the documentation directory or any directory below it (C104_newdoc_partial). Missing: patterns or links as the source, and newman with a path as the new name. Not covered: a copy onto itself where the destination is the file's own directory or the source is a link leading to the destination (two seeded bugs there survive, see seeded/LOG.jsonl)."
  },
  {
   "property": "C105",
   "status": "partial",
   "theorems": [
    "C105_dosed_partial",
    "C105_missing_refuted",
    "C105_backup_refuted",
    "C105_link_refuted",
    "C105_directory_refuted",
    "C105_pattern_refuted"
   ],
   "note": "REFUTED as stated: a missing file is no error (C105_missing_refuted, for all of them); a file named like the copy fileinput makes is lost (C105_backup_refuted); a link becomes a file while the file it led to stays unedited (C105_link_refuted); a directory is renamed (C105_directory_refuted); after a bad pattern the file is empty (C105_pattern_refuted). Proved: for any number of matches that are regular files, directly in a directory reached without links, exactly the files are edited, line by line, and exactly what was where their copies go is lost (C105_dosed_partial; none of the files is where another's copy goes, and no directory is). Missing: paths through links."
  },
  {
   "property": "C106",
   "status": "partial",
   "theorems": [
    "C106_float",
    "C106_whole_partial",
    "C106_order_partial",
    "C106_total_partial",
    "C106_no_size_refuted",
    "C106_lost_refuted",
    "C106_rounding_refuted"
   ],
   "note": "REFUTED as stated: the first division is between whole numbers, so that 1001 to 1023 bytes are shown as 0 KB, which is less than 1000 B, and 2047 bytes as 1.00 KB; and a package without its size, which the format allows, stops the operation with TypeError. Proved: rates (floats) are exact and in the right unit; of whole numbers less than a kilobyte is lost, with the exact amount and unit; above 1000 bytes the order is kept; the total is the sum when every package has its size. Not modelled: rounding of floats above 2^53 and what %.2f prints."
  },
  {
   "property": "C107",
   "status": "partial",
   "theorems": [
    "C107_delete_cache_partial",
    "C107_link_refuted",
    "C107_half_refuted",
    "C107_made_refuted"
   ],
   "note": "REFUTED as stated: a link to a directory in the place of a cache (the cache on another disk) is an error, after which that cache and the later ones are as before; directories on the way to a missing cache are made and stay. Proved: three directories that are there, or missing in a directory that is there, none in another and none reached through links, are emptied and removed, whether the temporary directory is the system's or the user's, and every state on the way differs only in them. Simplified: rmtree is one step."
  },
  {
   "property": "C108",
   "status": "partial",
   "theorems": [
    "C108_clean_partial",
    "C108_database_refuted",
    "C108_others_refuted"
   ],
   "note": "REFUTED as stated: clean_locks walks the current directory, not that of the database, so that the locks of the database stay and other people's files whose names end in .lock are removed at any depth, in use or not. Proved exactly what it does: every file or link to no directory in the current directory, at any depth and not through links, whose name ends in .lock is removed; nothing else changes at any moment. Simplified: . is written as the path of the current directory."
  },
  {
   "property": "C11",
   "status": "proved",
   "theorems": [
    "C11_plan_minimal"
   ],
   "note": "Exact: in the plan iff requested or needed."
  },
  {
   "property": "C12",
   "status": "proved",
   "theorems": [
    "C12_planning_fails_only_so",
    "C12_planning_succeeds_iff"
   ],
   "note": "Planning proper; the conflict check that follows it is C18. Component dependencies (which would raise TypeError) cannot be in a reachable database."
  },
  {
   "property": "C13",
   "status": "proved",
   "theorems": [
    "C13_remove_plan_exact",
    "C13_dependents_included",
    "C13_remove_plan_fails_only_so"
   ],
   "note": "Exact set, no duplicates, all installed; never fails for a cycle."
  },
  {
   "property": "C14",
   "status": "partial",
   "theorems": [
    "C14_requested_pair_refuted",
    "C14_dragged_along_refuted",
    "C14_before_some_partial",
    "C14_simple_plans_partial"
   ],
   "note": "REFUTED as stated: a package may be removed after one it depends on, when both are requested or when it depends on two removed packages. Proved: it precedes one of the packages it relies on; full order when no package relies on two of the plan and no requested package on another."
  },
  {
   "property": "C15",
   "status": "proved",
   "theorems": [
    "C15_removal_breaks_nothing",
    "C15_requested_removed",
    "C15_upgraded_dependency_refuted"
   ],
   "note": "proved under the stated premise on the index; C15_upgraded_dependency_refuted shows the premise is needed: after a dependency has been upgraded its removal breaks its dependents"
  },
  {
   "property": "C16",
   "status": "partial",
   "theorems": [
    "C16_dependents_refuted",
    "C16_taken_along_refuted",
    "C16_upgrade_plan_partial"
   ],
   "note": "REFUTED as stated: dependents broken only by the upgrade are not noticed, and packages taken along are not checked for their own dependencies. Proved: closure for requested and needed packages, and of dependents broken at present."
  },
  {
   "property": "C17",
   "status": "partial",
   "theorems": [
    "C17_any_outcome",
    "C17_works_iff",
    "C17_works_partial",
    "C17_removed_refuted",
    "C17_upgraded_refuted",
    "C17_circle_refuted"
   ],
   "note": "REFUTED as stated: configure_pending does not work for every state the operations produce. A pending package that is removed stays listed and makes it fail for all packages; one that is upgraded and configured at once makes it fail on an assertion; packages depending on each other in a circle make it fail. Proved: the order and bookkeeping claim for every outcome, exactly when it succeeds, and that it succeeds after every history without those cases."
  },
  {
   "property": "C18",
   "status": "partial",
   "theorems": [
    "C18_install_plan",
    "C18_upgrade_plan",
    "C18_install_partial",
    "C18_upgrade_partial",
    "C18_files_partial",
    "C18_refusal",
    "C18_resident_refuted",
    "C18_system_base_refuted",
    "C18_own_check_refuted",
    "C18_files_extra_refuted"
   ],
   "note": "REFUTED as stated: an installed package that itself declares the conflict is never noticed; a conflicting package of system.base stays as soon as another conflicting package is removed; with --ignore-dependency (and for a single package) the check compares the new package's description with installed names and never fires; a package fetched from a repository because a package file needs it is left beside a package of the files it declares a conflict with. Proved: no two packages of an accepted install or upgrade plan conflict; after install or upgrade by name no newly installed package, and after an installation of package files no package of the files, sits beside one it declares a conflict with, except system.base packages (without --bypass-safety) and names that are also component names; refusing the removals changes nothing."
  },
  {
   "property": "C19",
   "status": "partial",
   "theorems": [
    "C19_dependents_refuted",
    "C19_only_dependents_partial",
    "C19_closed_base_partial"
   ],
   "note": "REFUTED as stated: a base package depending on a removed non-base package goes with it. Proved: only so, and never if system.base is closed under dependencies."
  },
  {
   "property": "C20",
   "status": "partial",
   "theorems": [
    "C20_remove_partial",
    "C20_install_partial",
    "C20_install_declined_partial",
    "C20_package_files",
    "C20_upgrade_partial",
    "C20_upgrade_declined_partial",
    "C20_conflicts_install",
    "C20_conflicts_upgrade",
    "C20_remove_refuted",
    "C20_install_refuted",
    "C20_system_base_refuted",
    "C20_upgrade_refuted"
   ],
   "note": "REFUTED as stated: the program compares the sizes of the request and of the plan, so each requested name that is not in the plan (not installed when removing, installed when installing, not due when upgrading) lets one extra package through unasked; what system.base lacks counts as requested. Proved: when every requested name is in the plan and system.base is current, nothing else is removed, installed or upgraded before the user agreed, and a user who declines gets nothing but what they requested; removals for conflicts always come after the user's agreement; from package files nothing but their packages without agreement."
  },
  {
   "property": "C21",
   "status": "partial",
   "theorems": [
    "C21_package_file_refuted",
    "C21_remove",
    "C21_upgrade",
    "C21_install_partial"
   ],
   "note": "REFUTED as stated: installing package files with ignore_dependency ignores dry_run. Proved for everything else."
  },
  {
   "property": "C22",
   "status": "proved",
   "theorems": [
    "C22_first_repository",
    "C22_same_item",
    "C22_which_repo",
    "C22_fails_exactly_when_nowhere",
    "C22_anywhere"
   ],
   "note": "Exact for every order and every database contents."
  },
  {
   "property": "C23",
   "status": "proved",
   "theorems": [
    "C23_has_iff_get",
    "C23_list_iff_get",
    "C23_system"
   ],
   "note": "One database for every history of its own operations, and all five databases for every history of repository, install and remove operations."
  },
  {
   "property": "C24",
   "status": "proved",
   "theorems": [
    "C24_add",
    "C24_add_succeeds",
    "C24_remove",
    "C24_remove_unnamed",
    "C24_no_lingering_names",
    "C24_remove_succeeds"
   ],
   "note": "Frame and effect of add_item/remove_item on every database; removal of an unrecorded name raises AttributeError."
  },
  {
   "property": "C25",
   "status": "proved",
   "theorems": [
    "C25_one_database",
    "C25_one_database_succeeds",
    "C25_remove_repo_exact",
    "C25_unknown_repo_changes_nothing",
    "C25_lookups_only_from_listed"
   ],
   "note": "The five per-repository databases; search indexes are C41."
  },
  {
   "property": "C26",
   "status": "proved",
   "theorems": [
    "C26_consistent",
    "C26_add_succeeds_exactly_when",
    "C26_add",
    "C26_remove",
    "C26_failure_changes_nothing",
    "C26_command_adds_exactly_when",
    "C26_command_adds"
   ],
   "note": "Over all histories of add/remove/swap calls on the raw shelf through transactions; swap itself always raises NameError (undefined name) and changes nothing."
  },
  {
   "property": "C27",
   "status": "proved",
   "theorems": [
    "C27_keys_unambiguous",
    "C27_keys_decode",
    "C27_decoding_is_sound",
    "C27_every_place_has_a_key"
   ],
   "note": ""
  },
  {
   "property": "C28",
   "status": "proved",
   "theorems": [
    "C28_is_installed",
    "C28_is_removed",
    "C28_list_installed",
    "C28_version",
    "C28_no_double_install",
    "C28_remove_recorded"
   ],
   "note": "every answer is decided by the latest event of the log"
  },
  {
   "property": "C29",
   "status": "partial",
   "theorems": [
    "C29_removed_still_listed_refuted",
    "C29_purged_breaks_listing_refuted",
    "C29_never_misses_partial",
    "C29_exact_partial"
   ],
   "note": "REFUTED as stated: removing or purging a package awaiting configuration leaves its entry in configpending; exact for histories that do not; nothing is ever missed"
  },
  {
   "property": "C30",
   "status": "partial",
   "theorems": [
    "C30_exact_partial",
    "C30_refuted_upgrade",
    "C30_refuted_two_deps"
   ],
   "note": "REFUTED as stated: upgrading a package drops the entries of the packages that need it, and a package with two dependencies on one target keeps only one. Proved exact over every history without those two."
  },
  {
   "property": "C31",
   "status": "partial",
   "theorems": [
    "C31_shared_path_refuted",
    "C31_owner_lists_it_partial",
    "C31_exact_partial"
   ],
   "note": "REFUTED as stated: removing one of two packages that list a path drops the path's entry; owners always list the path; exact when no path is listed twice"
  },
  {
   "property": "C32",
   "status": "partial",
   "theorems": [
    "C32_one_file",
    "C32_whole_removal_partial",
    "C32_others_keep_theirs_partial",
    "C32_table_of_owners_refuted",
    "C32_shared_file_refuted"
   ],
   "note": "REFUTED as stated: a file another installed package owns is deleted (C32_shared_file_refuted), since the table of owners is asked for the absolute path and holds relative ones (C32_table_of_owners_refuted). Proved: the exact set of files deleted by a whole removal, for every file system and list; permanent files, changed configuration and non-empty directories stay; and if no path was ever listed by two packages, every other package keeps its files."
  },
  {
   "property": "C33",
   "status": "partial",
   "theorems": [
    "C33_user_content_stays_partial",
    "C33_never_lost_partial",
    "C33_shipped_side_file_refuted",
    "C33_no_longer_config_refuted"
   ],
   "note": "REFUTED as stated: a package that also ships <file>.old loses the user's content, and a new version that no longer marks the file as config overwrites it. Proved for packages in order (paths listed once, none ending in .old/.newconfig, only directories hold other entries): after success the user's content is in place and the packaged one is at .newconfig; at every crash point and on every failure the user's content is in the file or in .old."
  },
  {
   "property": "C34",
   "status": "partial",
   "theorems": [
    "C34_leftover_refuted",
    "C34_no_leftover_partial"
   ],
   "note": "REFUTED as stated: an upgrade with files to be removed fails with a TypeError after unpacking; a successful upgrade has none"
  },
  {
   "property": "C35",
   "status": "proved",
   "theorems": [
    "C35_crash_during_install",
    "C35_all_new",
    "C35_commands"
   ],
   "note": "every intermediate disk state of install_package has the old records; commands change the records of one package at a time, as a whole"
  },
  {
   "property": "C36",
   "status": "proved",
   "theorems": [
    "C36_all_or_nothing",
    "C36_every_crash_point",
    "C36_nested",
    "C36_context_txn_proc"
   ],
   "note": "Undo-log model of the environment; context.txn_proc has the same effect but replaces the exception by NameError."
  },
  {
   "property": "C37",
   "status": "proved",
   "theorems": [
    "C37_upgradable_iff_newer"
   ],
   "note": "is_upgradable; listing and upgrade selection filter with it."
  },
  {
   "property": "C38",
   "status": "partial",
   "theorems": [
    "C38_classification",
    "C38_classification_fails",
    "C38_older_version_unasked_refuted",
    "C38_questions_partial",
    "C38_fresh_package"
   ],
   "note": "classification proved; REFUTED as stated: installing an older version over a newer one asks nothing. Proved: exactly the other questions are asked, a refusal stops the installation"
  },
  {
   "property": "C39",
   "status": "partial",
   "theorems": [
    "C39_exact_partial",
    "C39_refuted",
    "C39_union",
    "C39_union_succeeds",
    "C39_expand",
    "C39_expand_sources"
   ],
   "note": "REFUTED as stated: re-recording a third-party package under another component leaves it listed under both. Proved exact over every history where a package is not re-recorded under another component and indexes carry components without package lists; union and expansion proved for every reachable state."
  },
  {
   "property": "C40",
   "status": "proved",
   "theorems": [
    "C40_query_exact",
    "C40_updates_succeed"
   ],
   "note": "A document matches when each term is recorded for it in some searched place (not necessarily one place for all terms)."
  },
  {
   "property": "C41",
   "status": "partial",
   "theorems": [
    "C41_results_exist_partial",
    "C41_refuted"
   ],
   "note": "REFUTED as stated: a repository update that drops a package leaves it in the search index. Proved for histories whose updates keep every searchable package, that do not re-add a repository under an old name, and that record a package only when it is not recorded."
  },
  {
   "property": "C42",
   "status": "partial",
   "theorems": [
    "C42_english_partial",
    "C42_english_text_partial",
    "C42_refuted_turkish",
    "C42_turkish_exact"
   ],
   "note": "REFUTED for Turkish: lowly_char returns its argument. Proved (as an equivalence) for English, ASCII letters."
  },
  {
   "property": "C43",
   "status": "proved",
   "theorems": [
    "C43_tokens_are_the_words"
   ],
   "note": "tokenize s = ts iff s is the words ts separated by at least one separator."
  },
  {
   "property": "C44",
   "status": "partial",
   "theorems": [
    "C44_prefix_exact",
    "C44_suffix_exact",
    "C44_remove_suffix_partial",
    "C44_remove_suffix_refuted",
    "C44_all_same",
    "C44_join_then_remove",
    "C44_subpath_exact",
    "C44_split_then_make",
    "C44_parent"
   ],
   "note": "REFUTED as stated for the empty suffix: remove_suffix of the empty sequence returns the empty sequence (b[:-0]). Everything else is proved exactly, for all sequences and paths."
  },
  {
   "property": "C45",
   "status": "partial",
   "theorems": [
    "C45_parse_generated",
    "C45_recognised_partial",
    "C45_recognised_exactly",
    "C45_unnamed_refuted"
   ],
   "note": "Parsing back is proved for all names, versions, releases and builds. Recognition is proved (exactly) when the package name is given; called without a name, is_package_name raises TypeError on every package file name (refuted)."
  },
  {
   "property": "C46",
   "status": "partial",
   "theorems": [
    "C46_newest_text_kept_partial",
    "C46_succeeds_iff",
    "C46_all_or_nothing",
    "C46_names_are_clear",
    "C46_newest_refuted"
   ],
   "note": "REFUTED as stated: version and release are compared as one text, so 1.0-5 beats 1.0.1-2, and 2.0-3 beats 1.9-4. Proved: exactly one directory per name is left, it holds the greatest text after the name, it is there at every moment; exact condition of success; nothing removed on failure."
  },
  {
   "property": "C47",
   "status": "partial",
   "theorems": [
    "C47_opens_iff",
    "C47_stamp_checked",
    "C47_only_writers_stamp",
    "C47_stamps_after",
    "C47_missing_stamp_refuted",
    "C47_stamped_without_lock_refuted",
    "C47_empty_stamp_refuted"
   ],
   "note": "REFUTED in part: a missing stamp is refused to readers; a writer refused by the lock has stamped already; stopped while stamping it leaves an empty stamp nothing can open. Proved: exact condition for opening in each mode, answers per stamp, only writers stamp, stamps afterwards."
  },
  {
   "property": "C48",
   "status": "partial",
   "theorems": [
    "C48_round_trip_partial",
    "C48_documents_well_formed",
    "C48_complete_partial",
    "C48_reread_partial",
    "C48_write_read_partial",
    "C48_read_write_partial",
    "C48_zero_refuted",
    "C48_empty_package_refuted",
    "C48_no_history_refuted",
    "C48_white_space_refuted",
    "C48_locale_refuted"
   ],
   "note": "REFUTED as stated: a zero in an optional number, an empty text and white space around a text are lost; a mandatory zero (InstalledSize of an empty package) cannot be written; metadata without history is written and cannot be read; a document written under one locale may be refused under another. Proved without those: for every class whose members do not share places (shown for all of pisi's documents), every object with no zeros, no empty texts and no white space around texts decodes to itself, with no errors; complete objects are encoded without errors; whatever was read without errors and has no zero is written and read again as the same."
  },
  {
   "property": "C49",
   "status": "partial",
   "theorems": [
    "C49_never_partial_partial",
    "C49_success_partial",
    "C49_stale_part_refuted",
    "C49_authinfo_refuted"
   ],
   "note": "REFUTED as stated: whatever is in a partial file is kept and the rest of the remote file appended, so a partial file of an older version yields a mixture; and with a user name and password configured every fetch raises NameError. Proved: when an existing partial file is a beginning of the file fetched, after any number of attempts stopped anywhere the destination holds its old or the complete contents, no other file changes, and success leaves no partial file."
  },
  {
   "property": "C50",
   "status": "proved",
   "theorems": [
    "C50_download_checked",
    "C50_already_have",
    "C50_published",
    "C50_line_end"
   ],
   "note": "For every server, network behaviour, option and previous state: a download with a checksum that returns, or says the file is already there, has compared the file's SHA-1 with the first line of the checksum file it fetched. That checksum file is the server's unless a stale partial file of it was resumed. A checksum line ending in a newline is never matched."
  },
  {
   "property": "C51",
   "status": "partial",
   "theorems": [
    "C51_patches_skipped_refuted",
    "C51_resumed_builds_partial",
    "C51_unpatched_sources",
    "C51_target_reached_partial",
    "C51_half_step_refuted",
    "C51_stuck",
    "C51_stuck_reachable"
   ],
   "note": "REFUTED as stated: the state 'unpack' is recorded before the patches are applied, so a stop in between makes later steps run on an unpatched tree (for every patched source); a repeated and interrupted step is not noticed; with norootdir a stop while unpacking makes every later call fail. Proved for all other stops, and for sources without patches for all stops."
  },
  {
   "property": "C52",
   "status": "proved",
   "theorems": [
    "C52_build_number",
    "C52_recognised"
   ],
   "note": "Exact (iff) characterisation; hypotheses: each path listed once in the new and old file lists (both come from a dictionary keyed by path)."
  },
  {
   "property": "C53",
   "status": "proved",
   "theorems": [
    "C53_dependencies_satisfied",
    "C53_commands"
   ],
   "note": "for single installations and, step by step, for every install, upgrade and remove command"
  },
  {
   "property": "C54",
   "status": "partial",
   "theorems": [
    "C54_nothing_changes_refuted",
    "C54_refused_partial"
   ],
   "note": "REFUTED as stated: a refused package unknown to the repositories is entered as third-party. Proved: refused, files and all other records unchanged."
  },
  {
   "property": "C55",
   "status": "partial",
   "theorems": [
    "C55_by_name_refuted",
    "C55_command_refuted",
    "C55_report_partial",
    "C55_fails_iff",
    "C55_command_partial",
    "C55_missing_file_refuted",
    "C55_link_refuted"
   ],
   "note": "REFUTED as stated: checking an installed package by name always fails (op/info.py imports pisi.metadata, which does not exist) and the command always fails (pisi.api.check does not exist). Verifying against a package file works but a missing file makes check raise instead of being reported, and a file replaced by a symbolic link is not reported. Proved: exact report when it reports, exact condition of failure, exact output of the command loop for any checking function."
  },
  {
   "property": "C56",
   "status": "partial",
   "theorems": [
    "C56_never_plans_refuted",
    "C56_sources_partial",
    "C56_packages_partial",
    "C56_minimal_partial",
    "C56_fails_only_so_partial",
    "C56_source_without_package_refuted"
   ],
   "note": "REFUTED as stated in one respect: plan_emerge never gets past its first statement (pisi.graph names no module), so no plan is ever made. The _partial theorems are about the rest of the function, with the graph class supplied: requested sources and every source wanted for an unmet dependency are in the build list, earlier; dependencies a repository can satisfy are in the install list with all they need; nothing else is in either; the planning ends and fails only for the listed reasons. Missing: that building the planned source yields the package depended upon (refuted: the package's source and the source itself are looked up in possibly different repositories), the conflict check, the building itself."
  },
  {
   "property": "C57",
   "status": "proved",
   "theorems": [
    "C57_packages_inherit",
    "C57_source_version"
   ],
   "note": "Stated on the document: own tag if the Package element has it, else the Source element's; IsA texts of both; the rest as decoded from the element alone."
  },
  {
   "property": "C58",
   "status": "partial",
   "theorems": [
    "C58_search_succeeds_partial",
    "C58_refuted"
   ],
   "note": "REFUTED as stated: indexes exist only for en and tr, any other language is a KeyError. Proved for en and tr."
  },
  {
   "property": "C59",
   "status": "proved",
   "theorems": [
    "C59_search_finds",
    "C59_names"
   ],
   "note": ""
  },
  {
   "property": "C60",
   "status": "proved",
   "theorems": [
    "C60_databases_agree"
   ],
   "note": ""
  },
  {
   "property": "C61",
   "status": "partial",
   "theorems": [
    "C61_fresh_package_verifies_partial",
    "C61_other_destination_refuted"
   ],
   "note": "REFUTED for a destination directory other than /: check always looks in /. Proved for destination / and packages in order, verifying against the package file (by name check always fails, see C55)."
  },
  {
   "property": "C62",
   "status": "partial",
   "theorems": [
    "C62_refused_keeps",
    "C62_forgets_refuted",
    "C62_files_kept_partial",
    "C62_nothing_to_do"
   ],
   "note": "REFUTED: rebuild-db destroys the databases and then calls pisi.api.resurrect_package, which does not exist; with any package installed it fails with empty databases. Proved: a refused rebuild changes no database, the files database survives, success without packages."
  },
  {
   "property": "C63",
   "status": "partial",
   "theorems": [
    "C63_contents_partial",
    "C63_at_most_one_partial",
    "C63_exactly_one_partial",
    "C63_wild_cards_partial",
    "C63_alone_partial",
    "C63_same_path_refuted",
    "C63_textual_prefix_refuted",
    "C63_sandwich_refuted",
    "C63_wild_card_refuted"
   ],
   "note": "REFUTED as stated: a file listed by two packages goes into both, a directory listed by two into neither; a path that is the beginning of another file's name takes that file away from its package; files below a path of a package that itself lies below another package's path, which lies below a path of the first, are lost; with wild cards a file goes into both packages. Proved without those: exact contents of every package, at most one package, exactly one package (that of the nearest path). For all path lists with stars and question marks, ambiguous or not, the exact contents of every package. Missing: brackets in patterns."
  },
  {
   "property": "C64",
   "status": "partial",
   "theorems": [
    "C64_types_partial",
    "C64_textual_prefix_refuted",
    "C64_leading_slash_refuted"
   ],
   "note": "REFUTED as stated: /etc/x.conf gets the type of /etc/x rather than of /etc; a path without leading slash makes the build fail. Proved for explicit paths none of which is found within the name of a file it does not cover."
  },
  {
   "property": "C65",
   "status": "proved",
   "theorems": [
    "C65_drawing_exact",
    "C65_drawing_iff",
    "C65_drawing_fails_only_so"
   ],
   "note": "Exact contents of the file, exact condition for success, all causes of failure."
  },
  {
   "property": "C66",
   "status": "partial",
   "theorems": [
    "C66_shared_box_refuted",
    "C66_repeated_name_refuted",
    "C66_own_box_partial"
   ],
   "note": "REFUTED as stated: names that differ only in punctuation (gtk-2, gtk+2) are written with the same identifier, so they become one box with the label of the last one; a name given twice ends in an AssertionError. Proved: if the names drawn consist of letters, digits and underscores, every package has a box of its own."
  },
  {
   "property": "C67",
   "status": "partial",
   "theorems": [
    "C67_order",
    "C67_met_partial",
    "C67_ready_partial",
    "C67_replaced_refuted"
   ],
   "note": "REFUTED as stated: a dependency may be satisfied by an installed version that another of the files replaces; then there is no edge between the two, nobody is asked, and depending on set order either the first is installed and ends up with an unmet dependency, or it is refused after the other has been installed (C67_replaced_refuted). Proved without conditions: the order and that everything the files hold is installed on success (C67_order). Proved when every dependency is satisfied by the files or by an installed package that none of them replaces, and removal of conflicting packages is declined or conflicts ignored: exact result and met dependencies (C67_met_partial), and no refusal for a missing dependency (C67_ready_partial). Missing: the case in which further packages are installed from the repositories first."
  },
  {
   "property": "C68",
   "status": "partial",
   "theorems": [
    "C68_packages",
    "C68_components",
    "C68_sources",
    "C68_succeeds",
    "C68_once",
    "C68_address_partial",
    "C68_address_refuted",
    "C68_two_directories_refuted"
   ],
   "note": "REFUTED as stated: a file name with '#' (or '?') is cut when the client computes the path, and with two directories one address may stand for two packages. The lists, the failure condition and uniqueness are proved exactly (iff); the address theorem needs a name free of '#' and '?' and one directory that is '/' or has no trailing slash. Missing: addresses with ':' (urlparse takes a scheme), absolute addresses with remote indexes."
  },
  {
   "property": "C69",
   "status": "partial",
   "theorems": [
    "C69_last_listed",
    "C69_offered_partial",
    "C69_newest_refuted"
   ],
   "note": "REFUTED as stated: with several builds of one package in the directory the repository offers the one listed last, which depends on the order of os.walk and need not be the newest. Proved: it is exactly the last one listed; with one package per name it is exactly the packages found."
  },
  {
   "property": "C70",
   "status": "partial",
   "theorems": [
    "C70_built_partial",
    "C70_fails_iff_partial",
    "C70_installed_partial",
    "C70_verifies_partial",
    "C70_directory_over_link_refuted"
   ],
   "note": "For explicit unambiguous paths. REFUTED as stated: an empty directory from a format 1.0 package leaves a link that was at its place. Configuration files that were there are the subject of C33. Missing: wild cards, static and debug packages."
  },
  {
   "property": "C71",
   "status": "partial",
   "theorems": [
    "C71_nothing_else_partial",
    "C71_formats_alike_partial",
    "C71_built_flat",
    "C71_link_over_directory_refuted"
   ],
   "note": "REFUTED as stated: a link in a format 1.0 package over a directory deletes the user's files in it, and in format 1.1 cannot be installed. Proved at every crash point apart from that; formats proved alike when nothing of another kind is in the way."
  },
  {
   "property": "C72",
   "status": "partial",
   "theorems": [
    "C72_metadata_says_what_the_spec_says",
    "C72_built_exactly_when",
    "C72_file_named_after_installed_version_partial",
    "C72_file_named_after_installed_version_refuted",
    "C72_empty_package_refuted",
    "C72_component_of_package_refuted"
   ],
   "note": "What the metadata say is proved in full, and exactly when a package is built. REFUTED as stated: a source with a <Version> or <Release> of its own gives files named after that one, while the installed package has the version of the newest update; a package of size 0 (only empty files, directories) is never built, since an installed size of 0 counts as missing; a spec whose packages all have PartOf fails if the source has none and there is no component.xml above."
  },
  {
   "property": "C73",
   "status": "partial",
   "theorems": [
    "C73_installed_size_partial",
    "C73_recorded_sizes",
    "C73_installed_size_exactly",
    "C73_overlap_refuted",
    "C73_other_package_refuted",
    "C73_link_refuted"
   ],
   "note": "REFUTED as stated: a file found by two paths of a package is counted twice; files that go into another package are counted too; links to directories below a listed directory are not counted. Proved: the exact value for every tree and all lists of paths without brackets, and equality with the sum in files.xml when none of the three occurs."
  },
  {
   "property": "C74",
   "status": "partial",
   "theorems": [
    "C74_file_read",
    "C74_no_header",
    "C74_setting_given",
    "C74_setting_standard",
    "C74_proxies_from_environment",
    "C74_switches_partial",
    "C74_autoclean",
    "C74_compression_default",
    "C74_compression_refuted",
    "C74_bandwidth_option",
    "C74_bandwidth_given",
    "C74_bandwidth_default",
    "C74_destination",
    "C74_directories",
    "C74_switches_refuted",
    "C74_documented_level_refuted",
    "C74_comments_refuted",
    "C74_section_refuted"
   ],
   "note": "Reading and looking up are exact for every such file. REFUTED as stated: a switch set to false, 0, no or 'False # comment' is on (only the exact text False or no text is off), autoclean is on only for the exact text True, any compression level given as a number makes writing 1.1 packages a TypeError, and indented comments become part of the value before. Not modelled: %(name)s substitution."
  },
  {
   "property": "C75",
   "status": "partial",
   "theorems": [
    "C75_remote_partial",
    "C75_local_partial",
    "C75_mirrors",
    "C75_mirrors_read",
    "C75_mirrored_partial",
    "C75_one_is_enough",
    "C75_undefined_refuted",
    "C75_cut_refuted",
    "C75_colon_refuted",
    "C75_remark_refuted"
   ],
   "note": "REFUTED as stated: local names with '#' or '?' are cut there, a name with a colon is taken for an address on a server, mirror lines with a remark are ignored, and a name without mirrors ends in a NameError. Proved for all other addresses and paths; the reading of the mirrors file is exact."
  },
  {
   "property": "C76",
   "status": "partial",
   "theorems": [
    "C76_checked",
    "C76_refused",
    "C76_cached",
    "C76_fetched",
    "C76_prepared_partial",
    "C76_lzma_partial",
    "C76_lzma_lost_refuted",
    "C76_lzma_name_refuted",
    "C76_lzma_suffix"
   ],
   "note": "REFUTED as stated for tar.lzma: unpacking removes the archive, so the next build needs the network, and an archive whose stem ends in one of the characters of '.lzma' cannot be opened. Proved for the other types; fetching assumes no partial file of another archive (C49)."
  },
  {
   "property": "C77",
   "status": "partial",
   "theorems": [
    "C77_dodir_only_makes_directories",
    "C77_dobin_contained_partial",
    "C77_dodoc_contained_partial",
    "C77_doinfo_contained_partial",
    "C77_dolib_contained_partial",
    "C77_doman_contained_partial",
    "C77_dosym_contained_partial",
    "C77_rename_contained_partial",
    "C77_remove_contained_partial",
    "C77_removeDir_contained_partial",
    "C77_insinto_contained_partial",
    "C77_insinto_as_contained_partial",
    "C77_domove_contained_partial",
    "C77_dodir_exact",
    "C77_dosym_exact",
    "C77_rename_exact",
    "C77_rename_missing",
    "C77_remove_exact",
    "C77_removeDir_exact",
    "C77_insinto_exact",
    "C77_dobin_exact",
    "C77_dobin_never_complains",
    "C77_dolib_link_fails",
    "C77_contained_refuted",
    "C77_domove_example_refuted",
    "C77_doman_compressed_refuted",
    "C77_rename_whole",
    "C77_domove_exact"
   ],
   "note": "REFUTED as stated: dosym of an absolute directory followed by insinto changes the host (C77_contained_refuted), the documented domove example makes a directory, compressed manual pages go to mangz, dobin never reports a missing source, dolib of a symbolic link always fails. Proved instead: containment of every intermediate state where no link is in the way of the destination, and the exact effect for single files, links and directories. Missing: exact effects for patterns with several matches (insinto, dobin, domove), dohtml, dosed, doexe with lists."
  },
  {
   "property": "C78",
   "status": "partial",
   "theorems": [
    "C78_runs_exact",
    "C78_help_exact",
    "C78_unknown",
    "C78_value_as_command_refuted",
    "C78_search_refuted",
    "C78_reads_partial",
    "C78_starts_partial",
    "C78_install_options",
    "C78_switches",
    "C78_values",
    "C78_install",
    "C78_remove",
    "C78_upgrade_partial",
    "C78_dry_run_partial",
    "C78_refused",
    "C78_general_options",
    "C78_authinfo",
    "C78_configure_pending",
    "C78_upgrade_security_partial"
   ],
   "note": "REFUTED as stated: an option value before the command is taken for the command (pisi -u remove install foo removes foo), and search and list-upgrades never start (-L is declared twice; buildno_opts is not imported). Proved: an exact grammar of the lines that run a command, for every line; the command is the named one if no value before it is a bare word; every option has its effect on install, remove and upgrade. upgrade --security is what C83 says of it. Missing: the update of repositories is a parameter; dry runs of install for package files (see C21)."
  },
  {
   "property": "C79",
   "status": "partial",
   "theorems": [
    "C79_zip_packs",
    "C79_tar_packs",
    "C79_zip_round_trip_partial",
    "C79_tar_round_trip",
    "C79_existing_target_zip",
    "C79_existing_target_tar",
    "C79_extract_partial",
    "C79_extract_dir_partial",
    "C79_extract_files_partial",
    "C79_extract_flat_partial",
    "C79_zip_setgid_refuted",
    "C79_zip_spaces_refuted",
    "C79_zip_escapes_refuted",
    "C79_tar_escapes_refuted",
    "C79_zip_contained_partial",
    "C79_tar_contained_partial",
    "C79_binary",
    "C79_foreign_links_refuted",
    "C79_names_in_zip"
   ],
   "note": "REFUTED as stated: zip archives lose setgid and sticky bits and make files readable for their owner, a directory whose name ends in white space gets a second one made beside it, and member names with '..', absolute ones, or ones that go through a link of the archive write outside the target. Proved: exact round trips of zip (up to that) and tar for every tree, and of extracting parts. Missing: hard links, devices, several members for one place, targets behind links. Contained: proper names not reached through a link change nothing outside the target at any crash point (zip: links at the places of files are replaced; tar: there must be none, also while installing)."
  },
  {
   "property": "C80",
   "status": "partial",
   "theorems": [
    "C80_new_format",
    "C80_old_format_partial",
    "C80_bits_refuted",
    "C80_old_format_top_refuted",
    "C80_directory_in_the_way_refuted"
   ],
   "note": "Proved in full for format 1.1 (C80_new_format), where the places are free, or hold a file or link for a file or link, or a directory for a directory. REFUTED as stated for format 1.0: setgid and sticky bits of files are dropped and the owner's read bit is set, directories that exist keep their permissions, a file directly in / cannot be installed to / at all; C80_old_format_partial says what does hold. C80_directory_in_the_way_refuted shows why a directory must not be in the way of a link."
  },
  {
   "property": "C81",
   "status": "partial",
   "theorems": [
    "C81_list_installed",
    "C81_list_installed_table",
    "C81_list_installed_long",
    "C81_one_roll",
    "C81_list_available_partial",
    "C81_list_available_all_partial",
    "C81_first_is_listed",
    "C81_list_available_refuted",
    "C81_uninstalled_refuted",
    "C81_list_components",
    "C81_list_sources",
    "C81_list_repo",
    "C81_list_pending",
    "C81_list_upgradable"
   ],
   "note": "REFUTED as stated: list-available REPO shows what the first repository in priority order says about a package, not what REPO says; --uninstalled has no effect with --long; a repository that does not exist looks empty. Proved exactly otherwise: which names, in which order, each once, and each line."
  },
  {
   "property": "C82",
   "status": "partial",
   "theorems": [
    "C82_info_component_partial",
    "C82_info_file_partial",
    "C82_info_name_refuted",
    "C82_info_arguments_partial"
   ],
   "note": "REFUTED as stated: asked for a package by name, info fails with an AttributeError (pisi.api has no info_name), and for an unknown name it prints nothing. Proved for components (all repositories together), package files and lists of arguments."
  },
  {
   "property": "C83",
   "status": "partial",
   "theorems": [
    "C83_security_refuted",
    "C83_nothing_due_partial",
    "C83_dry_run"
   ],
   "note": "REFUTED as stated, in every state: the list comprehension of upgrade.py 109 rebinds x in Python 2, so that a history entry is put on the list instead of the package name; whenever a security update is due the command fails and installs nothing. Proved: it succeeds exactly if none is due (and all releases can be read), and then changes nothing; dry runs change nothing."
  },
  {
   "property": "C84",
   "status": "partial",
   "theorems": [
    "C84_ready_first_partial",
    "C84_ready_starts",
    "C84_until_script",
    "C84_dependencies_partial",
    "C84_install_breaks_down",
    "C84_installs_refuted",
    "C84_all_tools_refuted",
    "C84_until_refuted"
   ],
   "note": "REFUTED as stated: what is missing is never installed (NameError, for every state in which it is on offer and the user agrees); only the system.devel of the first repository that has one counts; --until looks at neither patches nor dependencies. Proved: without --until nothing happens unless the script, the patches and the dependencies are there, and the outcome of the check is characterised exactly."
  },
  {
   "property": "C85",
   "status": "partial",
   "theorems": [
    "C85_sound",
    "C85_report_partial",
    "C85_complete_partial",
    "C85_unreported_refuted"
   ],
   "note": "REFUTED as stated: files whose names begin like a listed one, empty directories and links to directories are not reported. Proved: what is reported is in no package; the report is characterised exactly; with explicit, unambiguous, distinct paths every file that is in no package is reported. Brackets in path names are excluded, as in C63."
  },
  {
   "property": "C86",
   "status": "partial",
   "theorems": [
    "C86_explained",
    "C86_own",
    "C86_initial",
    "C86_isolated_partial",
    "C86_restored_partial",
    "C86_exports_refuted",
    "C86_scons_refuted",
    "C86_failed_refuted"
   ],
   "note": "REFUTED as stated: a variable exported by one script (for instance PERL_MM_USE_DEFAULT by perlmodules.configure) stays in the environment of the commands of all later builds, since replacing os.environ does not unset it; scons.install() without a prefix installs into the directory of the first package built in the process, its default being computed at import; a failed build leaves its variables and directory, and a re-initialisation makes them the initial ones. Proved: what scripts read is exactly the package's own variables over the initial environment, whatever happened before; the package's own variables reach the commands too; after any successful builds that export nothing else, every build without scons.install() behaves as in a new process, and directory and environment are restored."
  },
  {
   "property": "C87",
   "status": "partial",
   "theorems": [
    "C87_stops_partial",
    "C87_command",
    "C87_nothing_else",
    "C87_reasons",
    "C87_missing",
    "C87_info",
    "C87_config",
    "C87_compiler",
    "C87_compile_refuted",
    "C87_python_refuted",
    "C87_config_refuted",
    "C87_pods"
   ],
   "note": "REFUTED as stated: autotools.compile drops the status of the compiler (C87_compile_refuted); pythonmodules.install breaks down although every command succeeded when a file with a name of one character such as C is there, and never installs a document (C87_python_refuted); libtools.gnuconfig_update removes a linked config.sub for which it has no replacement (C87_config_refuted). Proved for every other helper: an action stops at the first failing command (C87_stops_partial), the command is the documented one (C87_command, C87_nothing_else), failures have one of the known reasons (C87_reasons, C87_missing)."
  },
  {
   "property": "C88",
   "status": "partial",
   "theorems": [
    "C88_plain_partial",
    "C88_delta_partial",
    "C88_delta_name",
    "C88_local",
    "C88_remote_refuted",
    "C88_stale_refuted",
    "C88_stopped_refuted",
    "C88_delta_refuted",
    "C88_file_refuted"
   ],
   "note": "REFUTED as stated: every remote package raises ImportError (there is no module fetcher beside package.py); with such a module a file kept from before is taken unchecked, a stop during xdelta leaves a part that is taken for the package, a delta that cannot be applied is the end, file: addresses are not found. Proved: without deltas, over any number of stopped attempts, what is opened is the repository's file or the one kept from before everything; with deltas, one run, if the deltas and kept files are right."
  },
  {
   "property": "C89",
   "status": "proved",
   "theorems": [
    "C89_round_trip",
    "C89_available",
    "C89_any_moment",
    "C89_remote"
   ],
   "note": "Visitors have no partial files of these names and reach the server directly (not through mirrors); the server shows one state of the directory during one download."
  },
  {
   "property": "C90",
   "status": "partial",
   "theorems": [
    "C90_all_or_nothing",
    "C90_unknown",
    "C90_up_to_date_partial",
    "C90_signature_partial",
    "C90_no_news",
    "C90_rebuild",
    "C90_up_to_date_refuted",
    "C90_signature_refuted",
    "C90_rejected_refuted"
   ],
   "note": "REFUTED as stated: a run stopped (or failing on its signature) after the download leaves the new index file behind, and every later run without force finds that file, says there are no updates and leaves the databases stale; a missing signature is only a warning; an index with a rejected signature stays on the disk, from where rebuild-db takes it. Proved: all or nothing at every stop, exactly what a successful run does for repositories on servers and on this machine with and without force, signatures that can be fetched are obeyed, unknown repositories, exactly what rebuilding does."
  },
  {
   "property": "C91",
   "status": "partial",
   "theorems": [
    "C91_members_partial",
    "C91_reproducible_partial",
    "C91_tells_apart_partial",
    "C91_twice_partial",
    "C91_other",
    "C91_unmarked",
    "C91_size_partial",
    "C91_data_refuted",
    "C91_size_refuted",
    "C91_reproducible_refuted"
   ],
   "note": "REFUTED as stated: data holding a blank and a backquote with a slash in the 57 bytes before are changed (C91_data_refuted), the file can change its size (C91_size_refuted), and members with names without a slash keep their times (C91_reproducible_refuted). Proved for all archives with headers as GNU ar writes them and data without blank-backquote."
  },
  {
   "property": "C92",
   "status": "partial",
   "theorems": [
    "C92_update_isolated",
    "C92_update_in_turn",
    "C92_update_stops",
    "C92_add",
    "C92_add_arguments",
    "C92_remove_partial",
    "C92_update_all_refuted",
    "C92_add_undone_refuted",
    "C92_remove_files_refuted"
   ],
   "note": "REFUTED as stated in three points: an update that fails keeps the ones after it from being tried (C92_update_all_refuted); add-repo keeps the repository if its update fails (C92_add_undone_refuted); a name such as /etc or ../x is accepted by add-repo and remove-repo then deletes a directory outside that of the indexes (C92_remove_files_refuted). Proved: isolation of updates in all six databases at every stopping point, order and stopping of updates, exact effect of add-repo, exact effect of remove-repo for names that are plain names of directories."
  },
  {
   "property": "C93",
   "status": "partial",
   "theorems": [
    "C93_exclusive",
    "C93_changes_at_work",
    "C93_refused_exactly",
    "C93_refused_unchanged_partial",
    "C93_history",
    "C93_available_refuted",
    "C93_refused_unchanged_refuted",
    "C93_stamps_refuted"
   ],
   "note": "Exclusion is proved as stated, for every schedule. REFUTED as stated in three points: a process started by an instance inherits the locked file and keeps later instances out after it has ended (C93_available_refuted); rebuild-db removes the databases, gives the lock back and asks again, so it can be refused with the databases gone (C93_refused_unchanged_refuted; a command of one session is clean, C93_refused_unchanged_partial); version files are written before the lock is asked for (C93_stamps_refuted)."
  },
  {
   "property": "C94",
   "status": "partial",
   "theorems": [
    "C94_strip_partial",
    "C94_nostrip_ignored",
    "C94_prepared_partial",
    "C94_static_package_refuted",
    "C94_debug_package_refuted",
    "C94_nostrip_refuted",
    "C94_only_there_refuted"
   ],
   "note": "REFUTED as stated: the path compared with NoStrip begins with two slashes (fs.py 286), so a place written as usual exempts nothing (C94_nostrip_ignored: for every list of such places the result is that without NoStrip); names go into command lines without quotes, so a file below a directory with a blank in its name has strip run on a file of the system; pisi.specfile does not exist, so the build ends with AttributeError whenever a static or debug package is to be made. Proved: for names without blanks, what becomes of every file and debug file, exactly, and that all others are unchanged."
  },
  {
   "property": "C95",
   "status": "partial",
   "theorems": [
    "C95_packages_partial",
    "C95_in_turn",
    "C95_succeeds_partial",
    "C95_again_partial",
    "C95_beside",
    "C95_again_refuted",
    "C95_included_refuted"
   ],
   "note": "REFUTED as stated: an additional file no path of the package covers is left out without a word; a target without a leading slash is stored beside the install directory (C95_beside, for all such targets) and so is in no package; packaging again puts additional files of later packages into earlier ones whose paths cover them. Proved for targets with a slash: the contents and mode of every file of every package made; that the packages made are the first ones; a condition for success; that packaging again gives the same packages if no package takes a target of a later one. Missing: links in the install directory."
  },
  {
   "property": "C96",
   "status": "partial",
   "theorems": [
    "C96_patches_partial",
    "C96_succeeds_partial",
    "C96_no_source",
    "C96_other_packing",
    "C96_blanks_refuted",
    "C96_other_file_refuted",
    "C96_place_refuted"
   ],
   "note": "REFUTED as stated: a name with a blank is split by the shell, so the build fails or another file is applied; after a failure the process stays in the source directory. Proved for names without blanks: order, levels, targets, unpacking, exact success condition, nothing else changed."
  },
  {
   "property": "C97",
   "status": "proved",
   "theorems": [
    "C97_configured",
    "C97_succeeds",
    "C97_removal",
    "C97_no_link",
    "C97_in_order",
    "C97_removal_in_order",
    "C97_one_verdict"
   ],
   "note": "For every COMAR that answers every request (any verdict, any group of replies, any notices, or a cut link) exactly which requests are made and how the call ends; for every COMAR at all, that the requests are a beginning of the intended sequence."
  },
  {
   "property": "C98",
   "status": "partial",
   "theorems": [
    "C98_fetched_partial",
    "C98_script_refuted",
    "C98_sharp_refuted",
    "C98_empty_refuted"
   ],
   "note": "REFUTED as stated: a script for COMAR named with a directory is stored without it (C98_script_refuted), a name with '#' is cut (C98_sharp_refuted), an empty file makes fetching fail (C98_empty_refuted). C98_fetched_partial: for plain names the full statement with 'missing' read as missing or empty. Proxies, resumed downloads and signals of the fetcher are not in this model."
  },
  {
   "property": "C99",
   "status": "partial",
   "theorems": [
    "C99_used_partial",
    "C99_unset",
    "C99_others",
    "C99_from_file",
    "C99_https_refuted",
    "C99_resume_refuted",
    "C99_port_refuted"
   ],
   "note": "REFUTED as stated: a proxy spoken to by http is not used for https addresses (C99_https_refuted), with a part from an earlier attempt the server is first asked without the proxy (C99_resume_refuted), a proxy given as host:port is not used (C99_port_refuted). C99_used_partial: the exact criterion for when it is used, for proxies given as addresses."
  }
 ]
}
{"claims": [
 {"property": "C01", "status": "proved", "theorems": ["C01_etag_any_chunking", "C01_etag_final_digests", "C01_etag_spec_unique", "C01_hexdigest"], "note": ""},
 {"property": "C02", "status": "partial", "theorems": ["C02_early_digest_partial", "C02_early_digest_refuted"], "note": "False of the code inside a block; refuted for all inputs of that kind."},
 {"property": "C03", "status": "proved", "theorems": ["C03_update_terminates_iff", "C03_update_hangs"], "note": ""},
 {"property": "C04", "status": "proved", "theorems": ["C04_data_yields_content", "C04_checksum_is_hash_of_content", "C04_local_etag"], "note": ""},
 {"property": "C05", "status": "partial", "theorems": ["C05_ranges_partial", "C05_no_range_is_whole_file", "C05_one_chunk_range_refuted", "C05_one_chunk_range_stale_refuted", "C05_zero_refuted"], "note": "False for a range of exactly one chunk and for chunks of no bytes; refuted for all such requests."},
 {"property": "C06", "status": "proved", "theorems": ["C06_symlink_round_trip", "C06_symlink_round_trip_no_name", "C06_same_attributes", "C06_renamed"], "note": "If and only if, for typed metadata with size below 2^1023; link_safe lists the side conditions."},
 {"property": "C07", "status": "partial", "theorems": ["C07_id_escaping_partial", "C07_id_refused", "C07_id_escaping_refuted"], "note": "Exact domain proved; outside it every accepted id is silently changed, so the unrestricted claim is refuted."},
 {"property": "C08", "status": "proved", "theorems": ["C08_field_clean", "C08_layout"], "note": "Errors are excluded as the statement says; an example shows they can forge other fields."},
 {"property": "C09", "status": "partial", "theorems": ["C09_versions_readable_partial", "C09_meta_version_refuted"], "note": "All versions mdv1-mdv6; version 'meta' is in the table but can never be read."},
 {"property": "C10", "status": "proved", "theorems": ["C10_never_resolves", "C10_answers", "C10_cache_links"], "note": "On the file system model of Model/Fs.v: any path that leads to such a link, any faults. Links whose id makes the target absolute are excluded (C10_cache_links)."},
 {"property": "C100", "status": "partial", "theorems": ["C100_setup_partial", "C100_none", "C100_kwargs", "C100_relative_refuted", "C100_away_refuted"], "note": "For absolute paths and a setup.py that leaves the directory it was called from; false for relative paths and otherwise, with witnesses. A setup.py that sets setuptools.setup itself is not modelled."},
 {"property": "C101", "status": "partial", "theorems": ["C101_same_partial", "C101_first", "C101_stale_refuted", "C101_missing_refuted"], "note": "For archives that stay as they are and can be opened; false otherwise, with witnesses."},
 {"property": "C102", "status": "partial", "theorems": ["C102_once", "C102_pypi", "C102_github", "C102_runs_partial", "C102_module", "C102_module_is", "C102_refused_refuted", "C102_kind_refuted"], "note": "C102_runs_partial is for histories that read only the attribute that fits setup_use_kwargs: reading setup_dist and setup_kwargs both runs setup.py for each. Refused requests to GitHub may raise and a result of the other kind is kept, with witnesses."},
 {"property": "C103", "status": "partial", "theorems": ["C103_whole", "C103_made", "C103_ends", "C103_serial_partial", "C103_alone", "C103_lost_refuted", "C103_newest_refuted"], "note": "That nothing is lost and that the newest wins are false when the programs overlap (witnesses with real metadata and the real rule of replacement); one after the other nothing is lost."},
 {"property": "C104", "status": "partial", "theorems": ["C104_kept", "C104_settled", "C104_returned", "C104_atomic_partial", "C104_alone", "C104_both_refuted", "C104_same_refuted", "C104_gap_refuted"], "note": "That both stay somewhere, and where when all are done, is proved for all orders. That something is at both paths at every moment only when all can use renameat2; false otherwise, with witnesses, also when all are done. Files or directories on one device, neither in the other, that nobody else changes."},
 {"property": "C105", "status": "partial", "theorems": ["C105_returned", "C105_alone_partial", "C105_bytes", "C105_serial_partial", "C105_fetch", "C105_window_refuted", "C105_empty_refuted", "C105_mismatch_refuted", "C105_size_refuted"], "note": "When all return the file is whole, and at every moment each byte is the data's or zero: proved for all orders. One after the other all return. The rest is false, with witnesses. Starts with a link whose metadata is right; reading metadata of a file or link, and setting it, are one step each."},
 {"property": "C106", "status": "partial", "theorems": ["C106_kept_partial", "C106_back_partial", "C106_moved", "C106_compared", "C106_changes", "C106_alone", "C106_update", "C106_overwritten_refuted", "C106_replaced_refuted"], "note": "Kept unless saved while the file is in the trash; then it is false, with witnesses. Starts with a file whose metadata differ from those of the remote; content is compared in one step; editors write by name, not to a file opened before."},
 {"property": "C107", "status": "partial", "theorems": ["C107_confined_partial", "C107_gone_partial", "C107_outside_refuted", "C107_alone"], "note": "Proved for others who put no symbolic link where there was none and keep to the tree; false for those who make links, with a witness. Paths without links above the tree; any depth of recursion; not for caches and without onerror."},
 {"property": "C11", "status": "proved", "theorems": ["C11_xattr_round_trip", "C11_only_safe_values"], "note": "Exact set of metadata that survives; any listing order, any foreign attributes around."},
 {"property": "C12", "status": "partial", "theorems": ["C12_foreign_ignored_partial", "C12_undecodable_name_refuted", "C12_nested_prefix_refuted", "C12_self_refuted"], "note": "Holds for attributes whose name is text outside the prefix; a non-UTF-8 name anywhere, a nested prefix and the field name self break it."},
 {"property": "C13", "status": "partial", "theorems": ["C13_merge_keeps_partial", "C13_merge_with_nothing", "C13_old_id_refuted", "C13_unknown_values_refuted"], "note": "Holds for every known field except old_id under a change of id; unknown values are dropped by every merge."},
 {"property": "C14", "status": "proved", "theorems": ["C14_changed_flag"], "note": "For metadata of the kinds the constructor and readers produce."},
 {"property": "C15", "status": "partial", "theorems": ["C15_own_errors_partial", "C15_errors_inherited_refuted"], "note": "False of the code whenever the new metadata has no errors."},
 {"property": "C16", "status": "partial", "theorems": ["C16_by_checksum", "C16_otherwise_partial", "C16_raises_refuted"], "note": "Exact; the code also raises when only one of the two times has a zone."},
 {"property": "C17", "status": "partial", "theorems": ["C17_truth_value", "C17_equality_partial", "C17_mixed_stamps", "C17_extra_values", "C17_extra_both", "C17_extra_left", "C17_read", "C17_read_refuted", "C17_read_both", "C17_text_refuted"], "note": "Truth value proved in full. Equality proved for metadata as long as the text stamps of both or of none were read; when only one was read the comparison raises, and two texts of one moment are unequal (refuted for all such metadata). Extra values on either side are exact."},
 {"property": "C18", "status": "proved", "theorems": ["C18_relative_path_from", "C18_relative_path_to", "C18_dotdot_target", "C18_counts_from", "C18_kinds"], "note": "Resolution is by text (no symbolic links on the way); os.path.commonpath and PurePosixPath.relative_to are modelled after the standard library."},
 {"property": "C19", "status": "proved", "theorems": ["C19_confined", "C19_gone", "C19_errors", "C19_removes"], "note": "All file systems, listing orders, fault schedules and intermediate states. Faults are taken to be honest: they do not claim ENOENT, ENOTDIR or ELOOP falsely. Concurrent changes by others are not modelled; onerror and cache paths neither."},
 {"property": "C20", "status": "partial", "theorems": ["C20_protected_partial", "C20_text", "C20_relative", "C20_home_refuted", "C20_root_refuted"], "note": "Proved for places called by their own name (no .. and no link on the way). False in general: the text is compared, so /home/u/../u or a linked alias is removed, and /z/.. empties the root."},
 {"property": "C21", "status": "partial", "theorems": ["C21_cwd_stays_partial", "C21_alias_refuted", "C21_refuses_partial"], "note": "Proved for trees called by their own name, all states and faults. False when the path goes through a link: the guard compares texts."},
 {"property": "C22", "status": "proved", "theorems": ["C22_safe", "C22_exact", "C22_link", "C22_other"], "note": "Both the os.walk and the Path.walk version; C22_safe covers every state under honest call failures, C22_exact the result for a directory called by its own absolute place (not the root)."},
 {"property": "C23", "status": "proved", "theorems": ["C23_nothing_lost", "C23_exchanges", "C23_returns", "C23_relative_refuted"], "note": "For every fault schedule and every list of temporary names. Relative paths are out: C23_relative_refuted shows that the renameat2 call then exchanges entries inside the two paths and reports success."},
 {"property": "C24", "status": "partial", "theorems": ["C24_swap", "C24_swap_exchanges", "C24_swap_returns", "C24_swap_spelled_refuted", "C24_partial", "C24_refuted", "C24_target_refuted", "C24_fault_refuted"], "note": "swap alone is atomic for all paths and faults: it raises and nothing changed, or returns and both are exchanged in one step; it returns for paths that exist and are UTF-8 and raises UnicodeEncodeError for those that are not. swap_carefree: holds when both exist, apart, and no call fails by itself; refuted when self is missing or inside the target (target stranded in a temporary directory), when the target is missing (directory leaked), when a rename fails."},
 {"property": "C25", "status": "partial", "theorems": ["C25_refuses", "C25_copies", "C25_confined", "C25_returns_partial", "C25_no_source", "C25_outto", "C25_outto_refuses", "C25_empty_refuted", "C25_self_refuted"], "note": "LocalPath.copy_to and copy_outto for paths without a cache class, all contents, chunk sizes, links and fault schedules. Not for empty sources (StopIteration, C25_empty_refuted) and not when source and target are one file (content cut, C25_self_refuted; unbuffered files in the model)."},
 {"property": "C26", "status": "partial", "theorems": ["C26_nothing_lost", "C26_restored_partial", "C26_refuted"], "note": "The crash-point half holds at every state under every honest fault schedule. The restoring half holds when the remote is not a directory, no name was too long and the restoring rename did not fail; C26_refuted shows the first two are needed. The trash must exist as a directory that the file is not in; refresh is a parameter confined to the path."},
 {"property": "C27", "status": "partial", "theorems": ["C27_only_the_name", "C27_partial", "C27_refuted"], "note": "Exactly one name in the trash is ever touched and only its previous holder is lost. False in general: same id again, or ids that are equal once made safe, replace each other."},
 {"property": "C28", "status": "partial", "theorems": ["C28_partial", "C28_stays", "C28_refuted"], "note": "Holds where a checksum is recorded and the new metadata does not bring the checksum of the local content; where it does, the local content is replaced by whatever the remote sends. C28_stays: without fetching, or when nothing differs, the content stays at every state."},
 {"property": "C29", "status": "partial", "theorems": ["C29_partial", "C29_refuted"], "note": "Every remote, metadata and fault schedule. False for a class whose algorithm is not blake2b when the metadata names blake2b: the algorithm of the class is used."},
 {"property": "C30", "status": "partial", "theorems": ["C30_partial", "C30_refuted"], "note": "Holds at every state where there already is a file. Where there is only a link it is removed first: a crash loses the metadata."},
 {"property": "C31", "status": "partial", "theorems": ["C31_partial", "C31_moves", "C31_refuses", "C31_refuted", "C31_returns_refuted"], "note": "All file systems and fault schedules, all states; the one exception is a source called .unlink-<target name> beside the target. A rename that fails is swallowed, so a normal return does not mean that the file was moved."},
 {"property": "C32", "status": "proved", "theorems": ["C32_balanced", "C32_pushd", "C32_pushd_refuses", "C32_popd", "C32_popd_short", "C32_popd_empty", "C32_failed_pushd_refuted"], "note": "When no call fails. C32_failed_pushd_refuted: a pushd whose chdir fails leaves its entry on the stack."},
 {"property": "C33", "status": "proved", "theorems": ["C33_restores", "C33_no_dir", "C33_nested_refuted", "C33_stale_refuted"], "note": "Arbitrary bodies, blocks of paths and of caches, as long as the directory is still there at the end. Refuted: the same object nested in itself, and an object used again where it is no directory. A cache that is no directory raises TypeError (C33_no_dir)."},
 {"property": "C34", "status": "partial", "theorems": ["C34_exact_partial", "C34_lexical", "C34_only_asks", "C34_mark", "C34_clear", "C34_relative_refuted", "C34_cache_refuted", "C34_missing_refuted"], "note": "Proved for absolute paths called by their own place; C34_lexical says what counts for every path. False for relative paths, and CachePath.is_sparse is always True. A path with nothing there raises AttributeError (errno has no ENOATTR on Linux)."},
 {"property": "C35", "status": "proved", "theorems": ["C35_next_version_newer", "C35_newer_order"], "note": "next_version gives a version that is newer in the PEP 440 order for every accepted request; the order is shown irreflexive and transitive. release components restricted to release/major/minor/micro; Version(str(v)) taken as v."},
 {"property": "C36", "status": "proved", "theorems": ["C36_next_version_phase", "C36_refused_requests"], "note": "phase of the result and the exact refused requests."},
 {"property": "C37", "status": "proved", "theorems": ["C37_access_bits"], "note": "exact iff for every mode word, st_mode, uid and group list."},
 {"property": "C38", "status": "partial", "theorems": ["C38_stat_round_trip_partial", "C38_stat_names_refuted", "C38_stat_times_refuted", "C38_stat_found", "C38_stat_messages"], "note": "exact iff on names; a name ending in one blank loses it; times before 1970 with a fraction and a birth in second 0 are misread, exactly those. float() taken as the exact decimal."},
 {"property": "C39", "status": "proved", "theorems": ["C39_exists", "C39_closed", "C39_children", "C39_one_parent", "C39_rchildren", "C39_steps", "C39_listed_once", "C39_files", "C39_opens"], "note": "For every list of entry names, implied directories, absolute names and repeated names included. A root is a path that is its own parent; absolute entry names have the root '/'. The order of listings is not claimed. An archive without entries has no root."},
 {"property": "C40", "status": "partial", "theorems": ["C40_partial", "C40_unique", "C40_refuted", "C40_dotdot_refuted"], "note": "For every file system and every path that does not start with '~', without faults: the nearest ancestor-or-self as the text of the path has it. False for '~/x' (the path itself is not looked at) and, for paths with '..', of the directories really above."},
 {"property": "C41", "status": "partial", "theorems": ["C41_partial", "C41_from_working_tree", "C41_nothing", "C41_first", "C41_refuted", "C41_index_refuted", "C41_first_refuted", "C41_removed_refuted", "C41_add_index"], "note": "For every state on a branch with a commit and with a change known to git, every selection and also when committing fails: one commit of just the selected paths, working tree, older stashes and other references as before. The same for commit_from_working_tree of a file, also a new one.  False as stated: with no changes an older stash of the user is committed and dropped; staged content that differs from the working tree is lost; the first commit has the whole index; a removed file stays in the commit. Git commands are modelled; contents merge by an arbitrary function."},
 {"property": "C42", "status": "partial", "theorems": ["C42_partial", "C42_refuted", "C42_index_refuted", "C42_tag_refuted"], "note": "For every state on a branch, every branch as context and every body that leaves the stash and the branch to return to alone: branch, commits, working tree and stash are as before, with what the body left uncommitted kept as one entry. False as stated: a body that makes a stash gets its own taken, staged content is lost, a tag raises after the changes were stashed."},
 {"property": "C43", "status": "proved", "theorems": ["C43_fs_safe_id"], "note": "same length, safe, identity on safe strings, idempotent, and position by position what changes."},
 {"property": "C44", "status": "partial", "theorems": ["C44_diff_partial", "C44_same_fields_partial", "C44_diff_refuted", "C44_empty_refuted"], "note": "Complete when the side with fewer fields has no field of its own and not too many fields come before the first common one (exact condition); otherwise fields only on the side with fewer fields are dropped, or IndexError."},
 {"property": "C45", "status": "partial", "theorems": ["C45_partial", "C45_answers", "C45_checksum", "C45_forward", "C45_refuted", "C45_clock_refuted", "C45_checksum_refuted"], "note": "For every history of changes and reads of one path object in which the times tell apart whatever was there and nothing was raised: every answer describes what is there then, and has its checksum if metadata was never asked for without. False as stated: after reading failed once the older metadata is given for the new content; times taken back; asked for without a checksum first, it stays without. Changes during one call are not modelled."},
 {"property": "C46", "status": "partial", "theorems": ["C46_partial", "C46_takes", "C46_refuted"], "note": "All metadata and honest fault schedules without a spurious FileExistsError, at every state. With one the link is removed and not in the trash. Metadata of the same id is replaced even by older."},
 {"property": "C47", "status": "partial", "theorems": ["C47_partial", "C47_found", "C47_deleted", "C47_determines", "C47_elsewhere", "C47_refuted", "C47_ssh"], "note": "Without a cached parent the parts relative to an ancestor are exactly the names met on the way from it, and with names that differ among siblings they determine the node. With a cache the recorded path is used from the anchor down, so the anchor's own name is prepended: refuted; a cache elsewhere makes no difference. Parent chains that do not end are reported by the fuel value; HTTP remotes are not modelled."},
 {"property": "C48", "status": "partial", "theorems": ["C48_partial", "C48_skipped", "C48_below", "C48_root", "C48_root_made", "C48_refuted", "C48_exact", "C48_wanted", "C48_own", "C48_updates", "C48_marked", "C48_order"], "note": "True of the id bootstrapped itself. False with recursion: _bootstrap_recursive takes only and skip and does not use them, so every descendant is made; exact description of what is made, touched, updated and marked. The loop that refreshes local folders that left the remote is not modelled."},
 {"property": "C49", "status": "partial", "theorems": ["C49_overwrite_partial", "C49_overwrite_exact", "C49_overwrite_refuted"], "note": "False of the code: fields absent from the new metadata keep the old value. Exact characterisation proved."},
 {"property": "C50", "status": "partial", "theorems": ["C50_posix_partial", "C50_posix_refuted"], "note": "everything POSIX grants is granted and both agree on modes that give wider classes no more; false otherwise: all such modes are reported accessible."},
 {"property": "C51", "status": "partial", "theorems": ["C51_stat_command_partial", "C51_checksum_command_partial", "C51_data_command_partial", "C51_commands_refuted"], "note": "exact set of paths for each of the three commands; false for the others (blanks in checksum, $ and backquote in stat, backslashes or both kinds of quotes in data). History expansion by interactive shells and control characters typed into a terminal are not modelled."},
 {"property": "C52", "status": "partial", "theorems": ["C52_which", "C52_none", "C52_relative", "C52_partial", "C52_rchildren", "C52_refuted"], "note": "exists raises AttributeError for what is not there and not in a zip file. An archive found by its name only is the outermost so named. The zip files do not change meanwhile, see C101."},
 {"property": "C53", "status": "partial", "theorems": ["C53_refuses_partial", "C53_fresh", "C53_clone", "C53_clone_refuses_partial", "C53_relative_partial", "C53_refuted", "C53_link_refuted", "C53_dotdot_refuted"], "note": "Same guard as C40; git itself is abstract, opening a repository that is there by a path without .. and $ is assumed to work and to keep the path. repo_relative_path is false for repositories made through a link and for paths with .., with witnesses. The branch for a stale cache is not taken while the directories of the remembered objects are there."},
 {"property": "C54", "status": "partial", "theorems": ["C54_plain", "C54_sound", "C54_partial", "C54_anchor", "C54_children", "C54_refuted", "C54_link_refuted", "C54_denied_refuted"], "note": "Complete, once each and in order away from the anchor; at the anchor exact description, the statement under guards; refuted for names with the stem of an ignored one, for links at the top, and for directories that may not be read."},
 {"property": "C55", "status": "partial", "theorems": ["C55_sound", "C55_exact", "C55_partial", "C55_none", "C55_link", "C55_refuted", "C55_slash_refuted", "C55_order_refuted"], "note": "Exact description for paths that are their only variant; the statement holds where all caches on the way are in one tree and / has none; refuted for nested trees, for metadata on /, and for paths through links, where the order of a set decides. What resolve and absolute give is arbitrary."},
 {"property": "C56", "status": "partial", "theorems": ["C56_partial", "C56_deeper", "C56_refuted", "C56_outside_refuted", "C56_children_refuted"], "note": "Exact for paths without a cache in a project; false for paths with a cache (True), outside projects (TypeError), and it disagrees with children on stems."},
 {"property": "C57", "status": "partial", "theorems": ["C57_safe", "C57_partial", "C57_link_partial", "C57_again", "C57_link_again_partial", "C57_trash_refuted", "C57_relative_refuted", "C57_dangling_refuted"], "note": "Nothing is lost in any run. The result and the second run are exact without a link and with an absolute link to a directory; false in the other cases: no trash when the link is there, relative targets, dangling targets."},
 {"property": "C58", "status": "partial", "theorems": ["C58_stays", "C58_failed", "C58_root_partial", "C58_agree_partial", "C58_weigh", "C58_plain", "C58_named", "C58_nonempty", "C58_smart_refuted", "C58_agree_refuted", "C58_split_refuted", "C58_half_refuted"], "note": "The remote class: proved but for smartAnchor's id. The cache class and the file system: false after smartAnchor, and after calls that raise (before python 3.12; files)."},
 {"property": "C59", "status": "partial", "theorems": ["C59_newest", "C59_partial", "C59_ids", "C59_undated", "C59_refuted"], "note": "Proved when one of the two is older; false for ties, where each keeps itself."},
 {"property": "C60", "status": "partial", "theorems": ["C60_changes_nothing", "C60_etag", "C60_checksum_partial", "C60_size", "C60_recorded_refuted", "C60_algorithm_refuted"], "note": "The verdict is proved, but for blake2b checksums in classes with another algorithm; that a mismatch is recorded is false."},
 {"property": "C61", "status": "partial", "theorems": ["C61_nothing_lost", "C61_moves_partial", "C61_refuses", "C61_refresh", "C61_refresh_own", "C61_refuted"], "note": "Proved where the directory of the target exists and is not the trash, nothing is at the target (for moving), and the source is not .unlink-<name>; that nothing has changed when it raises is false."},
 {"property": "C62", "status": "partial", "theorems": ["C62_children_partial", "C62_hidden_refuted", "C62_long_refuted", "C62_kind_partial", "C62_names_refuted"], "note": "Proved for names without line ends, two blanks in a row, blanks at the ends, backslashes or the words of the message, dates from 1970 on and something that is not hidden; false otherwise. is_file is wrong about every empty file."},
 {"property": "C63", "status": "partial", "theorems": ["C63_only_parents", "C63_makes_partial", "C63_interrupted_refuted"], "note": "Only additions: proved for all failures. All made with their metadata: proved when nothing fails and for directories that were not there; false after an interruption, where calling again does not help."},
 {"property": "C64", "status": "partial", "theorems": ["C64_children_partial", "C64_complete", "C64_collision_refuted", "C64_escape_refuted"], "note": "Proved for children with distinct names that are file names, for content where no two children go to the same name in the trash; false otherwise, with witnesses for both."},
 {"property": "C65", "status": "proved", "theorems": ["C65_returns", "C65_again"], "note": "The answer of refresh, which is called for metadata without a file id, is arbitrary but for bringing the content of the remote when it does not raise."},
 {"property": "C66", "status": "partial", "theorems": ["C66_uri_partial", "C66_page_and_file_partial", "C66_read_partial", "C66_owner_and_repository", "C66_clone_partial", "C66_other_host_partial", "C66_dot_refuted", "C66_ssh_refuted", "C66_read_refuted", "C66_host_refuted", "C66_branch_refuted", "C66_cycle_refuted"], "note": "Proved for https and scp-like urls that end in .git or whose repository has no inner dot, and for names without characters that mean something in a url; false otherwise, with witnesses and general theorems."},
 {"property": "C67", "status": "partial", "theorems": ["C67_newer_partial", "C67_unanswered", "C67_gives_partial", "C67_asserts", "C67_bump_partial", "C67_prerelease_refuted", "C67_unanswered_refuted"], "note": "Proved where PyPI answers; without an answer the version is the one in setup.py (refuted with a witness). There is a next version exactly where PyPI's version is its newest release."},
 {"property": "C68", "status": "partial", "theorems": ["C68_github_partial", "C68_tag_partial", "C68_since_partial", "C68_untagged", "C68_unreleased_refuted", "C68_github_refuted", "C68_v_refuted", "C68_since_refuted"], "note": "Proved where no tag of another package looks like one of this; false otherwise with witnesses. Histories are lines of commits."},
 {"property": "C69", "status": "partial", "theorems": ["C69_folder", "C69_resolved", "C69_unique", "C69_prefix_partial", "C69_arg_folder_partial", "C69_prefix_refuted", "C69_outside_refuted"], "note": "folder is settled for all paths; the prefix and arg_folder hold where the path has no dots and, for arg_folder, the package is in the repository; false otherwise with witnesses."},
 {"property": "C70", "status": "partial", "theorems": ["C70_tag", "C70_head", "C70_remote", "C70_branch_or_none", "C70_leads_back_partial", "C70_get_ref", "C70_annotated_refuted", "C70_behind_refuted", "C70_remote_refuted", "C70_same_name_refuted", "C70_spaces"], "note": "Holds for branches and plain tags with names of their own; false for annotated tags (always), remotes, commits behind a tag and names used twice."},
 {"property": "C71", "status": "partial", "theorems": ["C71_close", "C71_close_all", "C71_order", "C71_says_one", "C71_fails", "C71_negative", "C71_unit_refuted"], "note": "All proved for every integer except fewer than 1024 of the unit, which is false just below the next unit; at most 1024 is proved."},
 {"property": "C72", "status": "partial", "theorems": ["C72_file", "C72_link", "C72_resumes_partial", "C72_link_refuted", "C72_update_refuted", "C72_empty_refuted"], "note": "Success is proved for files and links where the remote sends something; completion after any interruption is proved for files. It is false for links and for updates, and empty files cannot be fetched at all."},
 {"property": "C73", "status": "partial", "theorems": ["C73_only_made", "C73_makes_partial", "C73_exists", "C73_no_parents", "C73_silent_refuted", "C73_file_refuted", "C73_stale_refuted", "C73_no_anchor_refuted"], "note": "What changes is proved for all failures; that all is made, where nothing is in the way and nothing fails. That nothing is made on error is false, as is an error where no directory has metadata."},
 {"property": "C74", "status": "partial", "theorems": ["C74_uncommitted_partial", "C74_file_partial", "C74_modified_partial", "C74_diff_partial", "C74_back_partial", "C74_indexed_refuted", "C74_to_index_refuted", "C74_back_refuted", "C74_untracked_refuted", "C74_unstaged_refuted", "C74_pattern_refuted", "C74_colon_refuted", "C74_gone_refuted"], "note": "Exact for all states and all paths that are there and whose names git does not take for patterns, of what the index has. False: indexed() and a diff to the index always raise, a diff from the working tree is told backwards, new and removed files, names with a star or a leading colon. Renames and modes are not modelled."},
 {"property": "C75", "status": "partial", "theorems": ["C75_work", "C75_partial", "C75_none", "C75_newline_refuted", "C75_stage_refuted", "C75_work_none"], "note": "Exact for all contents that do not end in a newline, and for the working tree. False: a newline at the end is always lost; names such as 0:a in the index. No textconv attributes; what is shown of a directory is arbitrary."},
 {"property": "C76", "status": "partial", "theorems": ["C76_latest_partial", "C76_commits_partial", "C76_pattern_refuted", "C76_unborn_refuted"], "note": "Exact for histories without merges and names that git does not take for patterns; the path is the one after resolve(), so for a link it is the target. False for names with a star, and NoCommitsForFile is not raised before the first commit."},
 {"property": "C77", "status": "partial", "theorems": ["C77_only", "C77_bind_only", "C77_which", "C77_value", "C77_fresh", "C77_again_partial", "C77_sysid", "C77_sysid_value", "C77_distinct", "C77_id", "C77_remote_partial", "C77_unreadable_refuted", "C77_appears_refuted", "C77_directory_refuted", "C77_remote_refuted", "C77_relative_refuted"], "note": "Proved for all states and failures that only the file that is made changes, and without failures which file is taken, its value, and that it is given again. False: an own file that may not be read, a system file that appears later, a directory of that name, another machine without either file, relative paths. Two programs that make the file at the same time are in C95; on Windows the registry is read, not modelled."},
 {"property": "C78", "status": "partial", "theorems": ["C78_only", "C78_copied", "C78_from", "C78_refuses", "C78_returns_partial", "C78_no_meta_refuted", "C78_mixed_refuted", "C78_link_refuted", "C78_attribute_refuted"], "note": "Proved for all states and failures that only the target changes and which states it is in, and that when the call returns content and metadata are those of the source; empty values count as absent, and dates must be read back by the parser. That it returns is partial: false for a source without metadata, a target with metadata or that is a link, and empty files."},
 {"property": "C79", "status": "partial", "theorems": ["C79_states", "C79_all", "C79_stop_partial", "C79_fails", "C79_returns_partial", "C79_empty_refuted", "C79_silent_refuted", "C79_cut_refuted"], "note": "Proved for all chains, failures and moments that a consumer that takes all and sees no exception got all, and so did every file; and which states the files are in at any time. For a consumer that stops it is partial: errors of files that are not the last are dropped. Empty sources raise."},
 {"property": "C80", "status": "partial", "theorems": ["C80_truthful", "C80_prefix", "C80_all", "C80_file", "C80_closed", "C80_exact_partial", "C80_two_readers_refuted", "C80_file_refuted", "C80_base_exception_refuted"], "note": "Proved for all interleavings and failures that what is given is right, that a generator that ends without exception gave all, and that no file stays open behind its reader. That there is no exception is partial: false when two read the same path. `zipfile` reads n bytes or to the end."},
 {"property": "C81", "status": "partial", "theorems": ["C81_windows_partial", "C81_posix_partial", "C81_same_partial", "C81_case_refuted", "C81_made_refuted", "C81_posix_missing", "C81_namespace_refuted", "C81_bytes_refuted", "C81_letter_refuted", "C81_fail_refuted", "C81_escape_refuted", "C81_streamname_refuted"], "note": "Proved for a file that is there, text keys without separators that differ in more than case, no foreign streams that begin with user, and delxattr without fail; each restriction has a witness. What Windows does is a model (trusted base): streams found by the upper case table of the volume, opening a stream for writing makes the file, `..` is taken out of paths as text."},
 {"property": "C82", "status": "partial", "theorems": ["C82_partial", "C82_forgets", "C82_rmtree", "C82_refuted"], "note": "Guard: at a remembered place a repository comes to be only by init or clone_from for its absolute path; otherwise anything may happen in between. Witness for a relative path in C82_refuted."},
 {"property": "C83", "status": "partial", "theorems": ["C83_one_file", "C83_again_partial", "C83_text_partial", "C83_parents_partial", "C83_anchor_refuted", "C83_name_refuted", "C83_root_refuted", "C83_parents_refuted"], "note": "Python before 3.12 (the source calls rpath broken in 3.12). Guards: the anchor is absolute, texts do not begin with the host, the path has components; a witness for each."},
 {"property": "C84", "status": "partial", "theorems": ["C84_refreshed", "C84_ends_partial", "C84_refuted", "C84_text_refuted"], "note": "That it ends is false: the exact condition is proved, with a witness that never ends. Which directories have a cache does not change during the loop, and refreshing raises nothing."},
 {"property": "C85", "status": "partial", "theorems": ["C85_exact_partial", "C85_honest", "C85_link_refuted", "C85_busy_refuted", "C85_blanks_refuted", "C85_bytes"], "note": "False for links when stat(2) fails (broken links among them); exactly what is given is proved for all trees, and for all failures that a number given is the size of the thing or of the link to it."},
 {"property": "C86", "status": "partial", "theorems": ["C86_only_registry", "C86_text_partial", "C86_lost_refuted", "C86_absolute_refuted", "C86_case_refuted"], "note": "That nothing else changes is proved for all texts. False: paths in the registry are not absolute, the case of the drive matters, and a separator is lost after the long prefix. Python before 3.12."},
 {"property": "C87", "status": "partial", "theorems": ["C87_dictionary_partial", "C87_listed_refuted", "C87_spelling_refuted", "C87_typed_refuted"], "note": "Proved for all sequences of calls with names without separators that the volume tells apart. False for names with a directory, for other spellings of a name and for names with a type. The disk is that of C81; nothing else changes it meanwhile."},
 {"property": "C88", "status": "partial", "theorems": ["C88_directory", "C88_absolute_partial", "C88_relative_partial", "C88_broken", "C88_suffix_refuted", "C88_link_refuted", "C88_encoding_refuted", "C88_suffixes"], "note": "Proved for absolute paths with ordinary suffixes or tables, and exactly which name counts for relative ones. False: quoted suffixes, and links by relative paths. Tables of suffixes and encodings are those of Python 3.11; lower case is for ASCII."},
 {"property": "C89", "status": "partial", "theorems": ["C89_back_partial", "C89_none_partial", "C89_remote_partial", "C89_kept", "C89_once", "C89_refused_refuted", "C89_init_exists", "C89_init_new", "C89_stale_refuted", "C89_remote_refuted", "C89_gone_refuted", "C89_failed_refuted", "C89_twins_refuted", "C89_unanchored_refuted", "C89_relative_refuted", "C89_outside_refuted"], "note": "Proved for all sequences of calls in which no id is put in the place of another and no binding fails, with distinct ids, and an anchor or a working directory with metadata. False without each of these, with traces. That a path keeps its cache object is proved for all sequences."},
 {"property": "C90", "status": "partial", "theorems": ["C90_last_partial", "C90_parents_refuted", "C90_again_partial", "C90_plain", "C90_bare_refuted"], "note": "False: with two or more missing directories parents=True always ends with CacheExistsError (proved for all trees); what is made by each call, and that the n-th call completes it, is proved exactly. Directories and files with metadata that attributes can hold, no failing calls."},
 {"property": "C91", "status": "partial", "theorems": ["C91_first_partial", "C91_inner_first_refuted", "C91_bare_refuted", "C91_safe_partial", "C91_complete_partial"], "note": "Proved for listings with directories before what is in them: with nothing of it here, all comes to be here; with things here and calls that fail (except with a false EEXIST), at every moment all else is as it was and no content of a file is lost where names in the trash are distinct, and when it returns all is there. False for other orders (proved: FileNotFoundError after what came before; a directory without metadata)."},
 {"property": "C92", "status": "partial", "theorems": ["C92_as_usual", "C92_gone", "C92_within", "C92_confined", "C92_last_partial", "C92_errors", "C92_link_refuted", "C92_listing_refuted", "C92_rest_refuted"], "note": "Proved: no call of the callback exactly when rmtree without it returns; told only of the path and below; confinement in every state; when something is left it was told of the path or an entry of it last; the errors there can be. False, with witnesses: told of all that is left, of links to directories, of directories that cannot be listed."},
 {"property": "C93", "status": "partial", "theorems": ["C93_store_round_trip", "C93_store_only_safe", "C93_mapping_refuted", "C93_mapping_partial", "C93_item_refuted", "C93_item_partial", "C93_copy_refuted", "C93_copy_fails", "C93_copy_unknown"], "note": "Proved: database entries give back the values exactly when they are those that survive the attributes (C11), for any faithful pickle; names that are no attribute are KeyError. False for every metadata: dict(m) has the values, m[k] is the value, a copy has the values. Pickling of a PathMeta itself is not modelled."},
 {"property": "C94", "status": "partial", "theorems": ["C94_raw", "C94_raw_reads", "C94_raw_other", "C94_by_hand", "C94_back_partial", "C94_slash_refuted", "C94_many_refuted"], "note": "Proved: the raw text; what the link opens the path made by hand opens. The converse has exactly two exceptions, each with a witness: a text that asks for a directory and leads to a file, and chains of more links than the system follows. Links with an empty text, which Linux does not make, are left out."},
 {"property": "C95", "status": "partial", "theorems": ["C95_etc", "C95_var", "C95_none_partial", "C95_later", "C95_alone", "C95_same_refuted", "C95_empty_refuted"], "note": "Proved for all orders of turns: with an identifier in /etc or /var/tmp all get it; without, what they get is made by one of them or that of an empty file, and once all are done later programs get the one that is left. False: that the first ones get the same. The file is written and read in one call each; programs of one user."},
 {"property": "C96", "status": "partial", "theorems": ["C96_reads_only", "C96_thing", "C96_link", "C96_nothing", "C96_through", "C96_no_write", "C96_refuted"], "note": "Exact for each of the four cases (file or directory, link to nothing, nothing, link to something), with honest faults. False for a link that leads to something: the metadata read there is that of the other path and setting any raises."},
 {"property": "C97", "status": "partial", "theorems": ["C97_below_partial", "C97_beyond_partial", "C97_no_id_refuted"], "note": "Below: sizes under 2^53 bytes, which doubles tell apart. At or above: any size, limits up to 2^33 megabytes. False where there is no file id: no limit is passed on. refresh itself is an argument of the model."},
 {"property": "C98", "status": "partial", "theorems": ["C98_command_partial", "C98_command_refuted"], "note": "Exactly where folder and name can stand without quotes and the version has no epoch; false otherwise, with witnesses. Urls as in C66, packages inside their repository as in C69."},
 {"property": "C99", "status": "proved", "theorems": ["C99_read_back", "C99_all_proper", "C99_next", "C99_apart"], "note": "The grammar and the writing are those of packaging, modelled from its regular expression; texts of ASCII."}
]}

{"claims": [
 {"property": "C01", "status": "proved", "theorems": ["C01_whole_seconds", "C01_microseconds", "C01_no_fractions", "C01_any_time"], "note": "Exact round trip, with the binary64 rounding of the code modelled bit for bit. C01_any_time bounds the loss for times that are not whole microseconds."},
 {"property": "C02", "status": "proved", "theorems": ["C02_year", "C02_month", "C02_day", "C02_seconds", "C02_zone"], "note": "For all digit strings, whether or not the date exists."},
 {"property": "C03", "status": "partial", "theorems": ["C03_zones_refuted", "C03_zones_reversed", "C03_zones_reversed_fraction"], "note": "REFUTED: the code adds the offset of a + zone (the sign is reversed) for every wall-clock time and offset; the reversed law is proved."},
 {"property": "C04", "status": "partial", "theorems": ["C04_refuted", "C04_accepts_only", "C04_accepts_all", "C04_errors", "C04_none_empty"], "note": "REFUTED only by a trailing newline after a full datetime; proved: everything else accepted is an existing W3C datetime, every W3C datetime is accepted, every rejection is ValueError."},
 {"property": "C05", "status": "proved", "theorems": ["C05_hash_round_trip"], "note": ""},
 {"property": "C06", "status": "proved", "theorems": ["C06_hash_parse", "C06_fields"], "note": ""},
 {"property": "C07", "status": "partial", "theorems": ["C07_eq_is_no_proof_of_inequality", "C07_eq_reflexive", "C07_eq_symmetric", "C07_eq_not_transitive", "C07_equal_delta_reflexive_partial", "C07_equal_delta_reflexive_refuted", "C07_equal_default_with_timestamp"], "note": "REFUTED in its last sentence: with the default delta=0.0 a resource with a timestamp is never equal to itself. The rest is proved."},
 {"property": "C08", "status": "proved", "theorems": ["C08_change_always_valid", "C08_bad_change_rejected"], "note": ""},
 {"property": "C09", "status": "proved", "theorems": ["C09_copy_and_override", "C09_copy_succeeds", "C09_no_uri_rejected"], "note": ""},
 {"property": "C10", "status": "proved", "theorems": ["C10_link_set", "C10_link_add"], "note": ""},
 {"property": "C11", "status": "proved", "theorems": ["C11_one_per_uri", "C11_refines_map", "C11_add_present_raises", "C11_add_effect"], "note": ""},
 {"property": "C12", "status": "proved", "theorems": ["C12_sorted_iteration", "C12_order_independent", "C12_insertion_order"], "note": ""},
 {"property": "C13", "status": "proved", "theorems": ["C13_compare_partition"], "note": "for two distinct list objects; the aliased case is C14"},
 {"property": "C14", "status": "partial", "theorems": ["C14_self_compare_refuted", "C14_self_compare_never_same", "C14_equal_content_partial"], "note": "REFUTED: the sorted iterators keep their state on the dictionary, so a list compared with itself never reports anything as the same. Proved instead for a distinct list with equal contents."},
 {"property": "C15", "status": "proved", "theorems": ["C15_change_list_transforms", "C15_same_uris", "C15_entries"], "note": ""},
 {"property": "C16", "status": "proved", "theorems": ["C16_prune_dupes"], "note": ""},
 {"property": "C17", "status": "proved", "theorems": ["C17_prune_preserves_effect"], "note": ""},
 {"property": "C18", "status": "proved", "theorems": ["C18_prune_before", "C18_no_time_raises"], "note": ""},
 {"property": "C19", "status": "partial", "theorems": ["C19_iteration_order", "C19_unknown_alphabetical_refuted"], "note": "REFUTED in part: entries are in canonical order, but unknown capabilities come in insertion order, not alphabetically; the exact order is C19_iteration_order"},
 {"property": "C20", "status": "proved", "theorems": ["C20_src_to_dst", "C20_dst_to_src", "C20_first_applies", "C20_below_base"], "note": ""},
 {"property": "C21", "status": "proved", "theorems": ["C21_single", "C21_several", "C21_several_plain"], "note": "URIs and paths without line breaks"},
 {"property": "C22", "status": "partial", "theorems": ["C22_mapped_outside_base_refuted", "C22_plain_base", "C22_literal_base"], "note": "REFUTED: the base is used as an unescaped regular expression, so http://example.org/data also maps http://example-org/data/x; true for literal bases, and for plain ones up to dots as wildcards"},
 {"property": "C23", "status": "partial", "theorems": ["C23_strips_all_slashes_refuted", "C23_one_slash", "C23_strips_one"], "note": "REFUTED: only one of several trailing slashes is stripped; exactly one is always stripped"},
 {"property": "C24", "status": "partial", "theorems": ["C24_maps", "C24_refusal", "C24_bad_argument", "C24_accepts", "C24_two_arguments", "C24_no_duplicates", "C24_duplicates_refuted"], "note": "REFUTED in part: the duplicate check compares unstripped arguments with stripped maps, so a trailing slash hides a duplicate; everything else proved"},
 {"property": "C25", "status": "partial", "theorems": ["C25_missed_refuted", "C25_detected", "C25_every_map", "C25_normalised"], "note": "REFUTED: '.' against 'foo' is missed; proved for two absolute paths and for two relative paths that go down"},
 {"property": "C26", "status": "proved", "theorems": ["C26_safe_name", "C26_single_component", "C26_keeps_host"], "note": ""},
 {"property": "C27", "status": "proved", "theorems": ["C27_authority", "C27_reflexive", "C27_transitive"], "note": ""},
 {"property": "C28", "status": "partial", "theorems": ["C28_strict_covers_directory", "C28_strict_exact", "C28_path_boundary_refuted"], "note": "REFUTED: strict authority over /data/ also covers /data-private/; exact extent proved"},
 {"property": "C29", "status": "proved", "theorems": ["C29_element"], "note": "with_namespaces gives the element the namespaces of the enclosing document; times as in C01"},
 {"property": "C30", "status": "partial", "theorems": ["C30_refuted", "C30_never", "C30_link_type_refuted"], "note": "REFUTED: at, completed, from and until of a resource are written and never read back; a link attribute 'type' comes back as 'mime_type'"},
 {"property": "C31", "status": "proved", "theorems": ["C31_resource_list", "C31_ordered_list", "C31_change_list", "C31_namespaces"], "note": "on XML text, with a model of the ElementTree writer and of an XML reader"},
 {"property": "C32", "status": "proved", "theorems": ["C32_accepted", "C32_iff", "C32_text"], "note": "exact characterisation of the trees that are accepted"},
 {"property": "C33", "status": "partial", "theorems": ["C33_split", "C33_fits", "C34_refuted"], "note": "REFUTED for the limit 1, where a part has two entries. For limits >= 2 the parts concatenate to the list and are split exactly; for every limit they concatenate; the index lists the parts with digests and times and no other file is touched."},
 {"property": "C34", "status": "partial", "theorems": ["C34_refuted", "C34_limit"], "note": "REFUTED for the limit 1 (a part with two entries). Proved for every limit >= 2."},
 {"property": "C35", "status": "partial", "theorems": ["C35_write_read", "C35_one_mapping", "C35_clock_times", "C35_clock_change_lists", "C35_https_refuted", "C35_percent_refuted"], "note": "REFUTED for mappers to https URIs and for file names with percent escapes. Proved for every resource list, limit and file system, for mappers to http URIs that lead back to the files, which every single plain http mapping does. C35_clock_times covers times that are not whole microseconds."},
 {"property": "C36", "status": "proved", "theorems": ["C36_injective", "C36_not_the_index", "C36_directory"], "note": "All base names and part numbers."},
 {"property": "C37", "status": "proved", "theorems": ["C37_parts", "C37_fits"], "note": "Includes the floating point division in requires_multifile: exact for lists shorter than 2^53."},
 {"property": "C38", "status": "partial", "theorems": ["C38_refuted", "C38_exact", "C38_schemes"], "note": "REFUTED for https: every https URI is taken for a file. Exact characterisation proved; http, ftp, file and scheme-less are right."},
 {"property": "C39", "status": "partial", "theorems": ["C39_refuted", "C39_unchecked", "C39_checked"], "note": "REFUTED: an index on the web is never checked, nor are mapped components. For a local index, components that look local are checked."},
 {"property": "C40", "status": "partial", "theorems": ["C40_refuted", "C40_never", "C40_short"], "note": "REFUTED: a change list with an index is written but no index can be read into a change list. Change lists that fit into one file are read back."},
 {"property": "C41", "status": "proved", "theorems": ["C41_whole_file", "C41_again", "C41_types", "C41_set"], "note": "Digest functions are parameters; the block loop, the choice of digests and repeated use are modelled."},
 {"property": "C42", "status": "proved", "theorems": ["C42_partition", "C42_unique", "C42_files", "C42_succeeds"], "note": "Manifests iterate in URI order, so each is a permutation of its part."},
 {"property": "C43", "status": "partial", "theorems": ["C43_refuted", "C43_bound"], "note": "REFUTED: the file that reaches the limit is added, so a dump can exceed max_size; it stays below twice the limit."},
 {"property": "C44", "status": "partial", "theorems": ["C44_refuted", "C44_manifest_refuted", "C44_names_refuted", "C44_archives", "C44_names"], "note": "REFUTED: the common prefix is characterwise, so names can begin with '..'; a file manifest.xml collides with the manifest; names are normalised by zipfile but not in the manifest. Proved whenever the common prefix is a directory."},
 {"property": "C45", "status": "partial", "theorems": ["C45_refuted", "C45_empty_site_refuted", "C45_last_write", "C45_no_error"], "note": "REFUTED as listed: sites that differ only in case or in characters other than letters and digits share one entry, and the empty site name makes the file unreadable. Proved for all histories: the value read is the last one stored for a site with the same letters and digits in the same places, and no call raises."},
 {"property": "C46", "status": "partial", "theorems": ["C46_refuted", "C46_wrong_time_refuted"], "note": "REFUTED: the file is emptied before it is rewritten, so an interruption loses the timestamps of all sites (for every history and call), or leaves a truncated number that was never stored."},
 {"property": "C47", "status": "partial", "theorems": ["C47_refuted", "C47_converges", "C47_again", "C47_no_time"], "note": "REFUTED as stated: a file of the listed length and time is kept whatever its content, even with digests listed and requested. Proved otherwise in full: every listed resource is at its place, downloaded in the run or unchanged and agreeing, with its time within a second; every other file is gone; all later audits and baselines succeed, report IN SYNC and do nothing if the source gives times and correct lengths. Hypotheses (synchronizable): mappings and destinations apart, listed URIs are files below a base, no line breaks in names."},
 {"property": "C48", "status": "proved", "theorems": ["C48_audit"], "note": "For every source, destination, option set and result, including errors."},
 {"property": "C49", "status": "partial", "theorems": ["C49_refuted", "C49_baseline", "C49_incremental", "C49_state"], "note": "REFUTED as stated: update_resource makes the directories before it looks at dryrun, and delete_resource records the time, which is then stored in the client state. Proved instead: a dry run changes no file, removes no directory and requests nothing; the state is kept by a dry baseline that has nothing to delete."},
 {"property": "C50", "status": "proved", "theorems": ["C50_baseline", "C50_that_file", "C50_incremental"], "note": "For every run, also one that ends with an error. C50_that_file adds, for mappings that keep to themselves, that the removed file is the local file the source does not list."},
 {"property": "C51", "status": "partial", "theorems": ["C51_refuted", "C51_baseline", "C51_incremental", "C51_inside", "C51_inside_incremental"], "note": "REFUTED as stated: a listed URI with .. between slashes is mapped to a path outside the destination. Proved instead: everything changed is at the place the mapper gives for a listed URI or the URI of a local file; without .. components that is inside the mapped directories."},
 {"property": "C52", "status": "proved", "theorems": ["C52_none", "C52_none_incremental", "C52_unsafe", "C52_overlap"], "note": "The world is unchanged and the result does not depend on what the network would answer. C52_overlap states it for overlapping directories, as far as C25 finds them."},
 {"property": "C53", "status": "partial", "theorems": ["C53_refuted", "C53_baseline", "C53_incremental"], "note": "REFUTED for an incremental sync with the URI of the change list given: nothing is checked. Proved for baseline and for the change list found by default."},
 {"property": "C54", "status": "proved", "theorems": ["C54_requests", "C54_policy"], "note": "C54_policy is for files that can be written and at least one try; C54_requests holds without conditions."},
 {"property": "C55", "status": "partial", "theorems": ["C55_refuted", "C55_refused", "C55_content"], "note": "REFUTED as stated: the old copy is truncated when the answer breaks off. Proved instead: it is kept when every request is refused, and what is in the file is the old content or what a request of this call delivered."},
 {"property": "C56", "status": "proved", "theorems": ["C56_only", "C56_applied", "C56_order"], "note": "due = last change per resource at or after the start, without resources created and deleted since. Content: body of an answer obtained during the run. Two due changes whose URIs map to the same place are excluded from C56_applied (alone), as are deletions of paths that cannot be files."},
 {"property": "C57", "status": "partial", "theorems": ["C57_refuted", "C57_dry_refuted", "C57_applied_or_kept", "C57_only_deletions"], "note": "REFUTED: withheld deletions and changes shown in a dry run are covered by the recorded time and never applied later. Proved: with deletion allowed and failures fatal, a run records nothing or has applied all due changes; if all due changes are withheld deletions nothing is recorded."},
 {"property": "C58", "status": "partial", "theorems": ["C58_refuted", "C58_incrementals", "C58_recorded"], "note": "REFUTED by a baseline after an incremental run. Proved: any number of incremental runs without explicit start never move any site's time back."},
 {"property": "C59", "status": "partial", "theorems": ["C59_refuted", "C59_left", "C59_silent", "C59_incremental"], "note": "REFUTED: the set difference is inverted: the types left are those the source does not provide, so a baseline never compares or reports a listed digest. Incremental runs with requested digests fail without effect."},
 {"property": "C60", "status": "partial", "theorems": ["C60_refuted", "C60_withheld_refuted", "C60_failures_refuted", "C60_baseline", "C60_incremental"], "note": "REFUTED for the last status of incremental runs, withheld incremental deletions and baselines with ignored failures. Proved: exact meaning of every status line of baselines and audits, and of incremental runs."},
 {"property": "C61", "status": "partial", "theorems": ["C61_lists_exactly", "C61_each_once", "C61_succeeds", "C61_bad_pattern", "C61_regular_only_refuted"], "note": "REFUTED as to 'regular files': special files (pipes, sockets, devices) are listed too (C61_regular_only_refuted). Proved for the rest, with 'neither directory nor symbolic link' in place of 'regular': exactly the eligible files, each once, described exactly; and that the scan cannot fail for mappings that keep apart. include_symlinks=True is not modelled."},
 {"property": "C62", "status": "proved", "theorems": ["C62_follow", "C62_back", "C62_other_input", "C62_follow_back", "C62_excursion", "C62_quit", "C62_back_from_start", "C62_no_more", "C62_keys", "C62_document", "C62_unreadable", "C62_senseless"], "note": "Stack behaviour of the explorer for every sequence of inputs and every (also changing) graph of documents."},
 {"property": "C63", "status": "proved", "theorems": ["C63_numbers", "C63_shown", "C63_links", "C63_only", "C63_allowed_index", "C63_allowed_archive", "C63_allowed_other", "C63_allowed_named"], "note": "Menus of documents of any size."},
 {"property": "C64", "status": "proved", "theorems": ["C64_link_accepts", "C64_link_value", "C64_link_exactly", "C64_link_error", "C64_links", "C64_links_error", "C64_capabilities_accepts", "C64_capabilities_value", "C64_capabilities_exactly", "C64_capabilities_error", "C64_capability_lists"], "note": "Texts of error messages are not modelled."},
 {"property": "C65", "status": "partial", "theorems": ["C65_web", "C65_file", "C65_no_delay", "C65_calls", "C65_refuted"], "note": "REFUTED for local files whose scheme is not written file: in small letters (FILE:/x), which are slept for. Everything else holds."},
 {"property": "C66", "status": "proved", "theorems": ["C66_order", "C66_first", "C66_none", "C66_sitemap", "C66_capability"], "note": "For http and https sources without ;, ?, # or dot segments. A description that exists but is unusable ends the search with ClientFatalError, as the docstring of find_resource_list_from_source_description says."},
 {"property": "C67", "status": "partial", "theorems": ["C67_refuted", "C67_other_refuted", "C67_kept"], "note": "REFUTED: lstrip('file:///') strips a set of characters: absolute paths become relative, and lib/src becomes b/src. Proved: relative directories that start with other characters are kept."},
 {"property": "C68", "status": "proved", "theorems": ["C68_epoch", "C68_time_of_day", "C68_next_day"], "note": ""},
 {"property": "C69", "status": "proved", "theorems": ["C69_capability_info", "C69_has_capability"], "note": ""},
 {"property": "C70", "status": "proved", "theorems": ["C70_entries_have_change", "C70_add", "C70_add_many", "C70_add_changed"], "note": ""},
 {"property": "C71", "status": "partial", "theorems": ["C71_refuted", "C71_kinds"], "note": "REFUTED: an unreadable lastmod or datetime raises ValueError; nothing else does"},
 {"property": "C72", "status": "partial", "theorems": ["C72_refuted", "C72_beyond"], "note": "REFUTED when the length is a multiple of the limit: the part after the last is an empty document. True of parts that start beyond the end."},
 {"property": "C73", "status": "partial", "theorems": ["C73_refuted", "C73_kept"], "note": "REFUTED for lists with a link to an index, which is overwritten. True of all others."},
 {"property": "C74", "status": "proved", "theorems": ["C74_refused"], "note": "All lists, limits, mappers and file systems."},
 {"property": "C75", "status": "partial", "theorems": ["C75_refuted", "C44_archives"], "note": "REFUTED: write_zip replaces the path of each resource by its name in the archive. C44_archives gives the exact effect (renamed)."},
 {"property": "C76", "status": "partial", "theorems": ["C76_refuted", "C44_archives"], "note": "REFUTED: the separate manifest is written before the paths are replaced, so it lists local paths (for all dumps: manifest_at in C44_archives)."},
 {"property": "C77", "status": "proved", "theorems": ["C77_accepts", "C77_result"], "note": "State after an exception is not modelled."},
 {"property": "C78", "status": "proved", "theorems": ["C78_verified"], "note": "Digest functions are parameters."},
 {"property": "C79", "status": "proved", "theorems": ["C79_baseline", "C79_incremental", "C79_left_behind"], "note": "Holds also for failing runs and dry runs."},
 {"property": "C80", "status": "partial", "theorems": ["C80_refuted", "C80_with_hash", "C80_same", "C80_without"], "note": "REFUTED: --checksum without --hash raises AttributeError (args.hash is None). Proved: with at least one --hash it adds md5, with the same effects as --hash=md5."},
 {"property": "C81", "status": "partial", "theorems": ["C81_refuted", "C81_sent", "C81_none"], "note": "REFUTED: the token is sent to every server, as a comment in the code says. Proved: it is sent with every request, and not at all without the option."},
 {"property": "C82", "status": "proved", "theorems": ["C82_negative", "C82_positive", "C82_none", "C82_local"], "note": "Not-a-number delays are not modelled."},
 {"property": "C83", "status": "proved", "theorems": ["C83_named", "C83_server", "C83_file", "C83_directory", "C83_nothing"], "note": "Starting points; local paths are absolute ones without characters that are special in URIs."},
 {"property": "C84", "status": "partial", "theorems": ["C84_refuted", "C84_never_at_uris", "C84_files_partial", "C84_no_file"], "note": "REFUTED for URIs: response.code is called although it is a number, so no header of a resource at a URI is ever shown. Proved for local files."},
 {"property": "C85", "status": "partial", "theorems": ["C85_refuted", "C85_types_partial", "C85_expected", "C85_entries"], "note": "REFUTED for indexes of descriptions (misspelt in the list) and manifests, which are reported as unknown; proved exact for all other types, and the expected-type warning is exact."},
 {"property": "C86", "status": "proved", "theorems": ["C86_published", "C86_script", "C86_scan_succeeds"], "note": "For both the client and the script, from the directory tree to what another client reads. Times are those of files from 1970-01-01T18:12 to 2106."},
 {"property": "C87", "status": "proved", "theorems": ["C87_nothing", "C87_script"], "note": ""},
 {"property": "C88", "status": "proved", "theorems": ["C88_changes", "C88_script"], "note": "Clearly changed: another length or digest, or times more than a second apart; clearly the same: none of these, and times less than a second apart, each with a margin of 3 microseconds. The change list has to fit into one document."},
 {"property": "C89", "status": "partial", "theorems": ["C89_refuted", "C89_never"], "note": "REFUTED: entries have no datetime, so incremental synchronization raises an exception for every change list with an entry. C89_never proves this for every such change list, and that the client changes nothing."},
 {"property": "C90", "status": "proved", "theorems": ["C90_capability_list", "C90_resource_list_found", "C90_source_description", "C90_capability_list_found"], "note": "For capabilities without repeated names or URIs."},
 {"property": "C91", "status": "proved", "theorems": ["C91_link_order", "C86_script", "C88_script", "C90_capability_list", "C90_source_description"], "note": ""},
 {"property": "C92", "status": "partial", "theorems": ["C92_resource_list", "C92_capability_list", "C92_source_description", "C92_change_list", "C92_changes_no_document", "C92_extra_line", "C92_refuted", "C92_done", "C92_dupes", "C92_capability_dupes"], "note": "REFUTED for change lists of resync-build: an OOPS line follows the document, and the output never parses. Proved for the other documents and for write_change_list called without dump."},
 {"property": "C93", "status": "partial", "theorems": ["C93_dump_names", "C93_other_name", "C93_no_change_dump", "C93_refuted"], "note": "REFUTED: the archives are named after the output file, with a number and .zip appended, and change dumps are never written. The positive laws say which names are used."},
 {"property": "C94", "status": "partial", "theorems": ["C94_refuted", "C87_script", "C88_script"], "note": "REFUTED with --multifile, which stops parts from being read but takes them for resources. Proved when parts are allowed."},
 {"property": "C95", "status": "partial", "theorems": ["C95_resource_list", "C95_change_list", "C95_refuted"], "note": "REFUTED for change lists: ListBaseIndexError ends the script. Proved for resource lists."},
 {"property": "C96", "status": "proved", "theorems": ["C96_only_document", "C96_usage"], "note": "All modes but --write-resourcedump, for which see C93_dump_names."},
 {"property": "C97", "status": "partial", "theorems": ["C97_resource_list", "C97_change_list", "C97_refuted"], "note": "REFUTED: the entries shown are in the order of the document. The reported capability and number are proved."},
 {"property": "C98", "status": "partial", "theorems": ["C98_refuted", "C98_file_in_the_way", "C98_directory_in_the_way", "C98_succeeds"], "note": "REFUTED: a file of the source that becomes a directory, or the reverse, makes every later baseline synchronization fail. Proved: success in all favourable situations, and both obstacles."},
 {"property": "C99", "status": "proved", "theorems": ["C99_mirror"], "note": "One mapping at each end, one list (not an index); resync-build's write_resource_list and the client's baseline_or_audit both modelled in full. Times agree to 1.000002 s since the list carries whole seconds or microseconds and the file system sets floats."},
 {"property": "C100", "status": "partial", "theorems": ["C100_refuted", "C100_status", "C100_done"], "note": "REFUTED: a run that stops at a download that fails exits with status 0. Proved: the status is not 0 only after exceptions other than fatal errors; if the run ends without showing an error, every listed resource is in place and nothing else is below the destinations."},
 {"property": "C101", "status": "partial", "theorems": ["C101_refuted", "C101_ignored"], "note": "REFUTED: with --delete a file that matches the pattern is removed. Proved: the option makes no difference to any run but --parse."},
 {"property": "C102", "status": "proved", "theorems": ["C102_look", "C102_dryrun", "C102_keeps", "C102_no_map"], "note": "For all runs of the script. Directories and the record of the last synchronization can change in a dry run (C49)."},
 {"property": "C103", "status": "partial", "theorems": ["C103_bound", "C103_refuted", "C103_negative"], "note": "REFUTED for --tries 0 (20 requests) and --tries -1 (no request, but old files get the new time and count as in sync). Proved: the bound for all other numbers and for the default."},
 {"property": "C104", "status": "proved", "theorems": ["C104_scripts"], "note": "From the options of both scripts to the files on disk."},
 {"property": "C105", "status": "partial", "theorems": ["C105_refuted", "C105_caught_up", "C105_none_left"], "note": "REFUTED as stated: a deletion of a resource created at the very time that is recorded is not carried out, since the change list read from that time holds both the creation and the removal, and the two cancel. Proved: a run catches up with any history if no such resource is in the copy, and when that is so."},
 {"property": "C106", "status": "partial", "theorems": ["C106_refuted", "C106_followed", "C106_on_track"], "note": "REFUTED as stated: a resource that is created, downloaded by a run that then fails, and removed at the source stays in the copy for ever. Proved for all histories of runs, failed or not, in which no run meets such a resource."},
 {"property": "C107", "status": "partial", "theorems": ["C107_refuted", "C107_followed", "C107_copy", "C107_recorded"], "note": "REFUTED as stated: the baseline also records the time of local files that it deletes, so changes at the source before that time are never seen. Proved if no local file is later than the newest resource; and what is recorded in any case."},
 {"property": "C108", "status": "proved", "theorems": ["C108_followed", "C108_on_track", "C108_touched", "C108_moments"], "note": "Killed at any moment before the state is saved. What a kill while the state file is written does is C46."},
 {"property": "C109", "status": "partial", "theorems": ["C109_refuted", "C109_repeated", "C109_startable", "C109_moments"], "note": "REFUTED as stated: without a listed length a file cut short within a second of the listed time is taken for complete. Proved with lengths."},
 {"property": "C110", "status": "proved", "theorems": ["C110_spelling", "C110_one_meaning", "C110_written", "C110_read"], "note": "The grammar (XmlSpell.v) is independent of the reader. Characters up to U+00FF, no DOCTYPE."},
 {"property": "C111", "status": "proved", "theorems": ["C111_tree", "C111_text", "C111_extra", "C111_resource_list", "C111_change_list"], "note": "For every container and setting; the two round trip theorems combine this with C31 and C110."},
 {"property": "C112", "status": "partial", "theorems": ["C112_refuted", "C112_dumps", "C112_change_dump_manifest", "C112_archives", "C112_source_description", "C112_no_index", "C112_unwritten"], "note": "REFUTED for archives and source descriptions that need an index: their containers have no uris() or add(), so an index that was written cannot be read (AttributeError), and their constructors take no mapper, so none can be written as they come. Proved: resource dumps, resource dump manifests and change dumps of any length, and change dump manifests, archives and source descriptions that fit into one document, are read back."},
 {"property": "C113", "status": "partial", "theorems": ["C113_refuted", "C113_write", "C113_index", "C113_read"], "note": "REFUTED: ResourceDump, ResourceDumpManifest, ChangeDump and ChangeDumpManifest take allow_multifile but do not pass it on. Proved whenever the attribute is false (ResourceList, or any kind after setting it): nothing is written, indexes are refused."},
 {"property": "C114", "status": "partial", "theorems": ["C114_parts_refuted", "C114_again_refuted", "C114_count_refuted", "C114_write", "C114_counted", "C114_collection", "C114_uncounted"], "note": "REFUTED: parts asked for in turn lose resources, writing a second time leaves a document without entries, and a wrong count is believed. Proved: writing once is complete with any or no count; with the right count the first call of each kind gives what a list of the resources gives."},
 {"property": "C115", "status": "proved", "theorems": ["C115_text", "C115_refused", "C115_written", "C115_list", "C115_baseline", "C115_incremental"], "note": "Texts are sequences of characters; without --sitemap and --capabilitylist a cut description makes the client look in the other places, which is not covered."},
 {"property": "C116", "status": "partial", "theorems": ["C116_refuted", "C116_start", "C116_quit", "C116_no_input", "C116_ignored"], "note": "REFUTED: without --sitemap there is always an error, with exit status 0, because no mappings can be given, and --exclude, --multifile, --noauth and --max-sitemap-entries have no effect. Proved: with --sitemap, exploring starts there, and q ends it from every page."},
 {"property": "C117", "status": "partial", "theorems": ["C117_refuted", "C117_unreadable_refuted", "C117_serial", "C117_whole_writes", "C117_no_error", "C117_own"], "note": "REFUTED: without a lock, two clients that record times at the same time and both end without an exception can lose one of the times, or leave a file that cannot be read. Proved for every schedule: calls that do not overlap keep the last time of every site; if only the writes do not overlap, the file is readable and each time in it was stored for that site."},
 {"property": "C118", "status": "proved", "theorems": ["C118_only", "C118_exactly", "C118_refused", "C118_accepted"], "note": "DOCTYPE declarations and characters above U+00FF are outside the model and answered OutOfModel"},
 {"property": "C119", "status": "proved", "theorems": ["C119_times", "C119_moments", "C119_not_started", "C119_on_track", "C119_stuck", "C108_followed"], "note": "left_by is every file that completed and cut off calls can leave. C119_stuck is a defect: a kill can leave a file that no later call can read or write (client_state.py does not replace the file atomically). Hypotheses on the text of floats (python_floats, cut_floats) are listed in DESIGN.md; an instance meets both."},
 {"property": "C120", "status": "proved", "theorems": ["C120_column", "C120_told", "C120_runs"], "note": "Only the status lines; other log messages are not modelled."},
 {"property": "C121", "status": "proved", "theorems": ["C121_followed", "C121_on_track", "C121_moments", "C121_untouched", "C121_baseline"], "note": "As in C105, resources new since the recorded time and removed again must not be in the copy (none_left). The change list itself is read at one moment."},
 {"property": "C122", "status": "proved", "theorems": ["C122_baseline", "C122_incremental", "C122_quiet", "C122_kept"], "note": "Events of one resource are at least a second apart, and a run that fails or is killed is not made within a second of an event (clock_apart); without that a part left behind can look complete (C109). As in C105, resources new since the recorded time and removed again must not be in the copy (none_left), and extra local files must not be newer than all events (C107)."},
 {"property": "C123", "status": "partial", "theorems": ["C123_refuted", "C123_left_refuted", "C123_never", "C123_files", "C123_other"], "note": "REFUTED: WARC dumps always raise an exception (self.logging) and their records hold the names of files instead of data; an unknown format is refused after a manifest was written. Proved for all dumps, and that other formats write no archive and, without separate manifests, nothing. ZIP is C44."},
 {"property": "C124", "status": "proved", "theorems": ["C124_sync", "C124_build", "C124_explorer", "C124_same"], "note": "For options written with their full names (abbreviations: C125) and mapping arguments in one place (C126)."},
 {"property": "C125", "status": "partial", "theorems": ["C125_refuted", "C125_sync", "C125_build", "C125_explorer", "C125_ambiguous"], "note": "REFUTED: --change fits only the option --changelist-uri/--change-list-uri and is refused as ambiguous. Proved: a beginning of exactly one name is taken for it everywhere, one of several names is refused."},
 {"property": "C126", "status": "partial", "theorems": ["C126_refuted", "C126_sync", "C126_build"], "note": "REFUTED: resync-sync -b SRC -v DST is refused. Proved: every line with options between mapping arguments is refused; arguments in one place are read (C124)."},
 {"property": "C127", "status": "proved", "theorems": ["C127_sync", "C127_build", "C127_explorer", "C127_unknown", "C125_ambiguous"], "note": "An unknown option together with --help may show the help (status 0) instead; nothing is changed either."},
 {"property": "C128", "status": "partial", "theorems": ["C128_refuted", "C128_attributes", "C128_careful", "C128_values", "C128_shared", "C128_new_links"], "note": "REFUTED as stated: the copy constructor copies the reference to the list of links, so that link_set on a copy (for example on the entry of a change list made by add_changed_resources) changes the links of the original, and the other way round. Proved: all other attributes are independent in every session; everything is if only resources without links are copied or ln is given for the copy, and then all that is read is as in the model in which resources are values; otherwise copy and original have the same links until one of them is given a new list."},
 {"property": "C129", "status": "proved", "theorems": ["C129_object", "C129_uri", "C129_capability", "C129_name", "C129_no_uri", "C129_found"], "note": ""},
 {"property": "C130", "status": "proved", "theorems": ["C130_unambiguous", "C130_strings"], "note": "Code points below 256; the text of floats is an argument of the model, of which it is assumed that it differs for different floats and from those of integers."},
 {"property": "C131", "status": "proved", "theorems": ["C131_sync", "C131_build", "C131_sync_refused", "C131_build_refused"], "note": "For every line of options and mapping arguments before --, and every list of words after it, by the model of argparse (Python 3.12). Abbreviations before -- are in C125."},
 {"property": "C132", "status": "proved", "theorems": ["C132_same_version", "C132_same_change"], "note": "For all resources whose URIs and digests have no spaces. With a path a change and a path can be taken for each other, and nothing is claimed of them."},
 {"property": "C133", "status": "proved", "theorems": ["C133_change_list", "C133_reference", "C133_resource_list"], "note": "For positive limits. The texts of the entries are those of C132. That the note of parse_document wrongly says that entries are sorted by URI is C97."},
 {"property": "C134", "status": "partial", "theorems": ["C134_refuted", "C134_same_files", "C134_same_or_died"], "note": "REFUTED as stated: with --verbose resync-build dies of ValueError for a reference list with a time past the year 9999 as it is read, which without --verbose is processed (C134_refuted). Proved: whatever is done with --verbose is done without it, with the same files and archives (C134_same_files); every run ends alike with and without --verbose, with the same files, or with --verbose dies of ValueError before anything is written (C134_same_or_died)."}
]}

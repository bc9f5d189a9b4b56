{"id": "C01", "title": "Timestamp write/read round trip", "statement": "Formatting a timestamp with datetime_to_str and parsing the string with str_to_datetime gives back exactly the same number: for every whole second in years 1..9999, and (with the real binary64 rounding of the code) for every timestamp that is the double nearest to a whole number of microseconds between 2^14 s after the epoch and 2^33 s (year 2242).", "quantifier": "all integer second counts in years 1-9999; all microsecond counts in the stated range", "why_tests_cant": "there are about 10^16 such timestamps, and the failure modes (calendar carries, float double rounding) hide in isolated values", "anchors": ["resync/w3c_datetime.py:datetime_to_str", "resync/w3c_datetime.py:str_to_datetime"]}
{"id": "C02", "title": "Equivalent W3C datetime spellings denote the same time", "statement": "YYYY, YYYY-MM and YYYY-MM-DD parse to the same value as the corresponding full ...T00:00:00Z string; omitting the seconds is the same as :00; Z, +00:00 and -00:00 are the same zone.", "quantifier": "all years, months, days, hours and minutes (valid or not: either both spellings are rejected or both give the same value)", "why_tests_cant": "the spellings range over every calendar value", "anchors": ["resync/w3c_datetime.py:str_to_datetime"]}
{"id": "C03", "title": "Time zone offsets are honoured", "statement": "A W3C datetime with zone +hh:mm denotes an instant hh:mm earlier than the same wall-clock time in UTC, and -hh:mm one later.", "quantifier": "all wall-clock times and all offsets up to 23:59", "why_tests_cant": "the existing tests only compare the code with itself and have the sign of the offset built in", "anchors": ["resync/w3c_datetime.py:str_to_datetime"]}
{"id": "C04", "title": "Only W3C datetimes are accepted", "statement": "str_to_datetime on a string returns a value only if the string is one of the six W3C forms with an existing calendar date and a valid time of day, and raises ValueError otherwise; None gives None and the empty string raises ValueError.", "quantifier": "all strings", "why_tests_cant": "the input space is all strings; tests try about thirty", "anchors": ["resync/w3c_datetime.py:str_to_datetime"]}
{"id": "C05", "title": "Hash attribute round trip", "statement": "For any combination of md5, sha-1 and sha-256 values free of whitespace, assigning the value of the hash property of one resource to the hash property of another gives the second the same three digests.", "quantifier": "all digest strings without whitespace, all subsets of the three digests", "why_tests_cant": "digest values are arbitrary strings", "anchors": ["resync/resource.py:Resource.hash"]}
{"id": "C06", "title": "Hash string parsing", "statement": "Assigning an arbitrary string to Resource.hash keeps, for each supported digest type, exactly the first value given for it, drops digests previously set and not mentioned, and raises ValueError exactly when some entry has a repeated type, an unsupported type or no colon.", "quantifier": "all strings", "why_tests_cant": "all strings, including repeated and malformed entries in any order", "anchors": ["resync/resource.py:Resource.hash"]}
{"id": "C07", "title": "Resource equality is 'no proof of inequality'", "statement": "r == s holds exactly when the URIs agree, either neither has a timestamp or both have and they differ by less than one second, and md5, sha1, sha256 and length each agree when given on both sides. It is reflexive and symmetric (but not transitive). The documented near-equality r.equal(s, delta) is reflexive for every delta.", "quantifier": "all pairs of resources, all deltas", "why_tests_cant": "combinations of missing and present attributes and timestamp distances are unbounded", "anchors": ["resync/resource.py:Resource.equal", "resync/resource.py:Resource.__eq__"]}
{"id": "C08", "title": "Change attribute is always valid", "statement": "After any sequence of attribute assignments, link operations and copies, the change attribute of a resource is None, 'created', 'updated' or 'deleted'; an attempt to set anything else raises ChangeTypeError and leaves the resource as it was.", "quantifier": "all histories of operations on a resource, all values", "why_tests_cant": "histories of arbitrary length", "anchors": ["resync/resource.py:Resource.__setattr__", "resync/resource.py:Resource.__init__"]}
{"id": "C09", "title": "Copy constructor copies everything and arguments override", "statement": "Resource(resource=r, k=v,...) has every attribute of r except that each explicitly supplied value replaces that attribute; without a URI from either source it raises ValueError.", "quantifier": "all resources, all argument combinations", "why_tests_cant": "2^k combinations of attributes", "anchors": ["resync/resource.py:Resource.__init__"]}
{"id": "C10", "title": "Link set/get laws", "statement": "After link_set(rel, href, atts) the link for rel has that href and those attributes, every other rel looks up the same link as before, and no link is removed; link_add always adds one link and leaves the result of looking up every rel that already had a link unchanged.", "quantifier": "all link lists, rels, hrefs and attribute dictionaries, on resources and on lists", "why_tests_cant": "arbitrary prior link lists", "anchors": ["resync/resource.py:Resource.link_set", "resync/resource.py:Resource.link_add", "resync/resource_container.py:ResourceContainer.link_set"]}
{"id": "C11", "title": "A ResourceList behaves as a map from URI to resource", "statement": "After any sequence of add calls the list holds at most one resource per URI; adding a URI already present raises and changes nothing unless replace is set, in which case the new resource is the one found; the other entries never change.", "quantifier": "all sequences of add operations", "why_tests_cant": "histories of arbitrary length", "anchors": ["resync/resource_list.py:ResourceListDict.add", "resync/resource_list.py:ResourceList.add"]}
{"id": "C12", "title": "Iteration order of a ResourceList", "statement": "Iterating a default ResourceList yields every resource exactly once, in ascending URI order, whatever the insertion order; the ordered variant yields them in insertion order.", "quantifier": "all sets of resources and insertion orders", "why_tests_cant": "factorially many insertion orders", "anchors": ["resync/resource_list.py:SortedIterMixin.sorted_iter", "resync/resource_list.py:ResourceListOrdered.__iter__"]}
{"id": "C13", "title": "compare() is an exact partition", "statement": "dst.compare(src) returns four lists: same has exactly the URIs in both whose resources are equal (dst's copy), updated exactly the URIs in both whose resources differ (src's copy), deleted exactly those only in dst, created exactly those only in src.", "quantifier": "all pairs of resource lists", "why_tests_cant": "all pairs of lists of any length; the merge loop has boundary cases at every position", "anchors": ["resync/resource_list.py:ResourceList.compare"]}
{"id": "C14", "title": "Comparing a list with itself reports no difference", "statement": "rl.compare(rl) puts every resource in same, and nothing in updated, deleted or created.", "quantifier": "all resource lists", "why_tests_cant": "depends on aliasing of iterator state for every length", "anchors": ["resync/resource_list.py:ResourceList.compare", "resync/resource_list.py:SortedIterMixin"]}
{"id": "C15", "title": "A change list computed from two resource lists transforms one into the other", "statement": "Applying the updated/deleted/created entries that write_change_list derives from an old and a new resource list, in order, to the old list gives a list with exactly the URIs of the new one, carrying the new list's metadata for every created or updated URI.", "quantifier": "all pairs of resource lists", "why_tests_cant": "all pairs of lists", "anchors": ["resync/client.py:Client.write_change_list", "resync/change_list.py:ChangeList.add_changed_resources"]}
{"id": "C16", "title": "prune_dupes keeps exactly the last change per resource", "statement": "After prune_dupes each URI occurs at most once; the surviving entry is its last one; URIs whose first change is 'created' and last is 'deleted' vanish; survivors keep their relative order; the returned number is the number of entries removed.", "quantifier": "all change lists", "why_tests_cant": "all interleavings of changes for any number of URIs", "anchors": ["resync/resource_container.py:ResourceContainer.prune_dupes"]}
{"id": "C17", "title": "Pruning a change list does not change its effect", "statement": "Replaying a pruned change list on a destination gives the same final state as replaying the full list, provided resources whose first change is 'created' are not already at the destination.", "quantifier": "all change lists, all destination states meeting the proviso", "why_tests_cant": "all histories", "anchors": ["resync/resource_container.py:ResourceContainer.prune_dupes", "resync/client.py:Client.incremental"]}
{"id": "C18", "title": "prune_updates_before removes exactly the earlier changes", "statement": "prune_updates_before(t) keeps, in order, exactly the entries whose change time is at or after t and returns how many it removed; if some entry has no change time it raises and the list is unchanged.", "quantifier": "all change lists and cut-off times", "why_tests_cant": "boundary values at every entry", "anchors": ["resync/change_list.py:ChangeList.prune_updates_before"]}
{"id": "C19", "title": "Capability lists iterate in canonical order", "statement": "Iterating a capability set yields each entry exactly once; known capabilities come first in the order of the specification, same-capability entries in URI order, and entries with unknown capabilities last (documented as alphabetical by capability).", "quantifier": "all capability sets and insertion orders", "why_tests_cant": "all sets and insertion orders", "anchors": ["resync/capability_list.py:CapabilitySet.__iter__"]}
{"id": "C20", "title": "URI mapping replaces exactly the mapped prefix", "statement": "For a mapping whose source URI is free of regular-expression metacharacters, src_to_dst maps u to destination + rest exactly when u is the source URI followed by nothing or by '/...' ; every other URI is left unmapped. The same for dst_to_src.", "quantifier": "all mappings with literal bases, all URIs (without newlines)", "why_tests_cant": "all strings", "anchors": ["resync/mapper.py:Map.src_to_dst", "resync/mapper.py:Map.dst_to_src"]}
{"id": "C21", "title": "Mapping there and back is the identity", "statement": "For a single literal mapping, dst_to_src(src_to_dst(u)) == u and src_to_dst(dst_to_src(p)) == p for every u (p) below the base; with several mappings the same holds if no base is a path prefix of another.", "quantifier": "all mappings, all URIs and paths", "why_tests_cant": "all strings, all sets of mappings", "anchors": ["resync/mapper.py:Mapper.src_to_dst", "resync/mapper.py:Mapper.dst_to_src"]}
{"id": "C22", "title": "A mapping never applies to a URI outside its base", "statement": "If src_to_dst(u) succeeds with a map then u starts with that map's source URI.", "quantifier": "all mappings (including bases with '.', '?', '+', as ordinary URIs have) and all URIs", "why_tests_cant": "needs an adversarial URI for each base; the usual tests use URIs inside the base", "anchors": ["resync/mapper.py:Map.src_to_dst"]}
{"id": "C23", "title": "Trailing slashes on mapping arguments do not matter", "statement": "Map strips all trailing slashes from the source URI and destination path.", "quantifier": "all strings", "why_tests_cant": "any number of slashes", "anchors": ["resync/mapper.py:Map.strip_trailing_slashes"]}
{"id": "C24", "title": "Mapper argument parsing", "statement": "A list of uri=path arguments is either rejected with MapperError or yields one map per argument in order; no two maps share a source URI or a destination path; the two-argument form and the uri=path form give the same mapper.", "quantifier": "all argument lists", "why_tests_cant": "all lists of strings", "anchors": ["resync/mapper.py:Mapper.parse"]}
{"id": "C25", "title": "Unsafe mappings are detected", "statement": "If the source of a mapping is a local path and unsafe() is False, then neither of the (normalized) source and destination paths is equal to or inside the other.", "quantifier": "all pairs of paths", "why_tests_cant": "all path strings, including '.', '..', and file: URIs", "anchors": ["resync/mapper.py:Map.unsafe"]}
{"id": "C26", "title": "Default destination path derived from a URI is a safe single path component", "statement": "For a URI with a host, path_from_uri returns a string of word characters, '-', and '.' only, without '/', not beginning or ending in '.' or '_', and without '__'; in particular it is never '.' or '..'.", "quantifier": "all URIs", "why_tests_cant": "all strings", "anchors": ["resync/mapper.py:Mapper.path_from_uri"]}
{"id": "C27", "title": "URL authority, non-strict", "statement": "has_authority_over(u) is true exactly when u has the master's scheme and its network location is the master's or ends in '.'+master's. It is reflexive and transitive.", "quantifier": "all pairs of URLs", "why_tests_cant": "all URLs", "anchors": ["resync/url_authority.py:UrlAuthority.has_authority_over"]}
{"id": "C28", "title": "URL authority, strict, respects path boundaries", "statement": "In strict mode authority additionally requires u's directory to be the master's directory or below it in the path hierarchy.", "quantifier": "all pairs of URLs", "why_tests_cant": "needs sibling directories with a common name prefix", "anchors": ["resync/url_authority.py:UrlAuthority.has_authority_over"]}
{"id": "C29", "title": "Resource to XML element and back", "statement": "For every resource (URI non-empty; attribute values XML-safe) without at/completed/from/until attributes, writing it as a <url> element and parsing that element gives back a resource with the same uri, lastmod, datetime, length, type, hash, change, path, capability and links.", "quantifier": "all resources", "why_tests_cant": "2^10 combinations of optional attributes times all values", "anchors": ["resync/sitemap.py:Sitemap.resource_etree_element", "resync/sitemap.py:Sitemap.resource_from_etree"]}
{"id": "C30", "title": "All resource metadata written is read back", "statement": "Every <rs:md> attribute that is written for a resource is restored on parsing (in particular at, completed, from and until).", "quantifier": "all resources", "why_tests_cant": "all combinations of attributes", "anchors": ["resync/sitemap.py:Sitemap.resource_from_etree"]}
{"id": "C31", "title": "Document round trip", "statement": "Writing a resource list or change list as XML text and parsing that text gives a list with the same metadata, the same links and the same resources in the same order.", "quantifier": "all lists", "why_tests_cant": "all lists with all attribute combinations", "anchors": ["resync/sitemap.py:Sitemap.resources_as_xml", "resync/sitemap.py:Sitemap.parse_xml"]}
{"id": "C32", "title": "Sitemap structural errors are rejected", "statement": "parse_xml raises (and does not return a list) if the root is neither urlset nor sitemapindex, if an index is read where a sitemap was required or vice versa, if rs:md or rs:ln follows the first url, if there are two top-level rs:md, if a url has no loc, an empty loc or several, several lastmod or several rs:md, if a change type is unknown, a length is not an integer, a link lacks href or rel or has a priority outside 1..999999, or the capability is not the expected one.", "quantifier": "all element trees", "why_tests_cant": "all trees", "anchors": ["resync/sitemap.py:Sitemap.parse_xml", "resync/sitemap.py:Sitemap.md_from_etree", "resync/sitemap.py:Sitemap.ln_from_etree"]}
{"id": "C33", "title": "Splitting into component sitemaps loses and duplicates nothing", "statement": "The chunks produced when writing a large list concatenate to the original list, and every chunk but the last has exactly max_sitemap_entries entries.", "quantifier": "all lists and all positive limits", "why_tests_cant": "boundary at every multiple of the limit", "anchors": ["resync/list_base_with_index.py:ListBaseWithIndex.get_resources_chunk", "resync/list_base_with_index.py:ListBaseWithIndex.write"]}
{"id": "C34", "title": "No component sitemap exceeds the limit", "statement": "Every sitemap file written holds at most max_sitemap_entries resources.", "quantifier": "all lists and all positive limits, including 1", "why_tests_cant": "tests use limits 4 and larger", "anchors": ["resync/list_base_with_index.py:ListBaseWithIndex.get_resources_chunk"]}
{"id": "C35", "title": "Multi-file write followed by read gives the same list", "statement": "If a resource list is written (as one file or as an index with component files) and read back through the same mapper, the result has the same resources.", "quantifier": "all resource lists and limits >= 1, all file systems", "why_tests_cant": "all sizes", "anchors": ["resync/list_base_with_index.py:ListBaseWithIndex.write", "resync/list_base_with_index.py:ListBaseWithIndex.read"]}
{"id": "C36", "title": "Component file names do not collide", "statement": "part_name(basename, n) is injective in n and never equals basename, for names with and without .xml.", "quantifier": "all base names and part numbers (also beyond 99999)", "why_tests_cant": "all n", "anchors": ["resync/list_base_with_index.py:ListBaseWithIndex.part_name"]}
{"id": "C37", "title": "Component access by number agrees with the whole list", "statement": "as_xml_part(n) for n from 0 to requires_multifile()-1 cover the list exactly once in order, and a list that fits is never split.", "quantifier": "all lists and limits", "why_tests_cant": "all sizes", "anchors": ["resync/list_base_with_index.py:ListBaseWithIndex.requires_multifile", "resync/list_base_with_index.py:ListBaseWithIndex.as_xml_part"]}
{"id": "C38", "title": "Web URIs are not mistaken for local files", "statement": "is_file_uri is false for every http:, https: and ftp: URI and true for every file: URI and every scheme-less path.", "quantifier": "all URIs", "why_tests_cant": "scheme lengths", "anchors": ["resync/list_base_with_index.py:ListBaseWithIndex.is_file_uri"]}
{"id": "C39", "title": "Component sitemap authority check", "statement": "With check_url_authority set, a sitemap index is refused if it lists a component at a location the index has no authority over.", "quantifier": "all index URIs and component URIs", "why_tests_cant": "the check sits in a branch that depends on the kinds of both URIs", "anchors": ["resync/list_base_with_index.py:ListBaseWithIndex.read_component_sitemap"]}
{"id": "C40", "title": "A change list written with an index can be read back", "statement": "A ChangeList longer than max_sitemap_entries written to disk and read again gives the same changes.", "quantifier": "all change lists", "why_tests_cant": "all sizes", "anchors": ["resync/list_base_with_index.py:ListBaseWithIndex.read", "resync/change_list.py:ChangeList"]}
{"id": "C41", "title": "File digests do not depend on the block size", "statement": "compute_for_file gives the digest of the whole file content for every positive block size, for each requested digest type, and None for those not requested.", "quantifier": "all file contents, block sizes, subsets of digest types", "why_tests_cant": "all contents and block boundaries", "anchors": ["resync/hashes.py:Hashes.compute_for_file"]}
{"id": "C42", "title": "Dump partition covers the resources exactly", "statement": "partition_dumps yields manifests whose concatenation is the resource sequence; none is empty; each has at most max_files files, and without its last file is below max_size; all but the last have reached a limit.", "quantifier": "all resource lists and limits", "why_tests_cant": "all size sequences", "anchors": ["resync/dump.py:Dump.partition_dumps"]}
{"id": "C43", "title": "No dump exceeds the size limit", "statement": "The total size of the files in each dump is at most max_size.", "quantifier": "all resource lists whose files are each within max_size", "why_tests_cant": "needs size combinations straddling the limit", "anchors": ["resync/dump.py:Dump.partition_dumps"]}
{"id": "C44", "title": "Dump archive entries", "statement": "Every resource of a dump is stored under a path inside the archive root, distinct files under distinct names, and the manifest lists the name each file is stored under.", "quantifier": "all sets of file paths", "why_tests_cant": "all path sets; common string prefixes that are not directories", "anchors": ["resync/dump.py:Dump.write_zip", "resync/dump.py:Dump.archive_path", "resync/dump.py:Dump.check_files"]}
{"id": "C45", "title": "Client state: last write wins per site", "statement": "get_state(site) returns the timestamp most recently stored for site, None if none was stored or it was removed; storing for one site does not affect another.", "quantifier": "all sequences of set_state calls on all sites", "why_tests_cant": "all histories; name collisions", "anchors": ["resync/client_state.py:ClientState.set_state", "resync/client_state.py:ClientState.get_state"]}
{"id": "C46", "title": "Client state survives a crash", "statement": "If the process stops at any point during set_state, get_state afterwards returns either the old or the new value for the site, and the old values of all other sites.", "quantifier": "all crash points", "why_tests_cant": "crash points cannot be enumerated by unit tests", "anchors": ["resync/client_state.py:ClientState.set_state"]}
{"id": "C47", "title": "Baseline sync converges", "statement": "After a baseline sync with deletion allowed that completes without download failures, every resource listed by the source is at its mapped path with the source's content and a timestamp within a second of the listed one, every other file below the mapped paths is gone, and an audit or second baseline reports IN SYNC and transfers nothing.", "quantifier": "all source lists with timestamps, all source contents, all prior destination states", "why_tests_cant": "all pairs of source and destination states", "anchors": ["resync/client.py:Client.baseline_or_audit", "resync/client.py:Client.update_resource", "resync/client.py:Client.delete_resource", "resync/resource_list_builder.py:ResourceListBuilder.from_disk"]}
{"id": "C48", "title": "Audit changes nothing", "statement": "baseline_or_audit(audit_only=True) makes no change to the local file system or client state and makes no resource GET.", "quantifier": "all source and destination states and options", "why_tests_cant": "all states", "anchors": ["resync/client.py:Client.baseline_or_audit"]}
{"id": "C49", "title": "Dry run changes nothing", "statement": "With dryrun set, baseline and incremental sync change neither files nor directories nor client state.", "quantifier": "all states and options", "why_tests_cant": "all states; side effects hidden in helper calls", "anchors": ["resync/client.py:Client.update_resource", "resync/client.py:Client.delete_resource", "resync/client.py:Client.baseline_or_audit", "resync/client.py:Client.incremental"]}
{"id": "C50", "title": "Nothing is deleted unless deletion is allowed", "statement": "Without allow_deletion no local file is ever removed by baseline or incremental sync; with it only files mapped from resources reported deleted are removed.", "quantifier": "all states and lists", "why_tests_cant": "all states", "anchors": ["resync/client.py:Client.delete_resource"]}
{"id": "C51", "title": "Files outside the mapped directories are never touched", "statement": "Every file written or removed by a sync has a path produced by the mapper from a listed URI, i.e. a destination base followed by '/'.... ", "quantifier": "all source lists", "why_tests_cant": "hostile lists", "anchors": ["resync/client.py:Client.baseline_or_audit", "resync/mapper.py:Mapper.src_to_dst"]}
{"id": "C52", "title": "Unsafe or missing mappings abort before any effect", "statement": "If there is no mapping, or a mapping is unsafe (baseline and incremental), the client raises ClientFatalError before reading or writing anything.", "quantifier": "all mappers and states", "why_tests_cant": "all states", "anchors": ["resync/client.py:Client.baseline_or_audit", "resync/client.py:Client.incremental"]}
{"id": "C53", "title": "Authority is checked before any transfer", "statement": "Unless noauth is set, baseline sync raises before transferring or deleting anything if the list names a resource outside the sitemap's authority; incremental sync likewise for the change list.", "quantifier": "all lists, options", "why_tests_cant": "all lists; option combinations", "anchors": ["resync/client.py:Client.baseline_or_audit", "resync/client.py:Client.incremental"]}
{"id": "C54", "title": "Download retry policy", "statement": "update_resource makes at most `tries` requests; it retries only after timeouts; it stops at the first success or other error; on final failure it raises, or with ignore_failures reports 0 updated; it reports 1 exactly when a request succeeded.", "quantifier": "all sequences of network outcomes, all values of tries", "why_tests_cant": "all outcome sequences", "anchors": ["resync/client.py:Client.update_resource"]}
{"id": "C55", "title": "Failed download leaves the old copy intact", "statement": "If a download fails, the previous local copy of the resource is unchanged.", "quantifier": "all failure points during transfer", "why_tests_cant": "failure points inside the copy", "anchors": ["resync/client.py:Client.update_resource"]}
{"id": "C56", "title": "Incremental sync applies exactly the recent changes", "statement": "Incremental sync performs, for each resource, only the last change at or after the start time, in list order, and ends with every created or updated resource at its mapped path with the current source content and (if deletion is allowed) every deleted one absent; files of unmentioned resources are untouched.", "quantifier": "all change lists, start times and destination states", "why_tests_cant": "all histories", "anchors": ["resync/client.py:Client.incremental"]}
{"id": "C57", "title": "Incremental sync never skips a change", "statement": "A change not applied by one incremental sync (because deletion was not allowed, or because of a dry run) is still applied by a later incremental sync that allows it.", "quantifier": "all histories of incremental syncs", "why_tests_cant": "needs multi-run histories", "anchors": ["resync/client.py:Client.incremental", "resync/client_state.py:ClientState"]}
{"id": "C58", "title": "The recorded sync time never goes backwards", "statement": "The timestamp stored after a sync is at least the one stored before.", "quantifier": "all histories of syncs", "why_tests_cant": "needs multi-run histories", "anchors": ["resync/client.py:Client.baseline_or_audit", "resync/client.py:Client.incremental"]}
{"id": "C59", "title": "Requested hash types are used when the source provides them", "statement": "After reading the source list the client goes on to compute, on the destination, exactly the requested hash types that the source list uses.", "quantifier": "all requested sets and source sets", "why_tests_cant": "set combinations", "anchors": ["resync/client.py:Client.prune_hashes"]}
{"id": "C60", "title": "Status line is truthful", "statement": "The status logged says IN SYNC / NO CHANGES exactly when nothing was to be done, NOT IN SYNC for an audit with differences, SYNCED / CHANGES APPLIED when all was done, and PART SYNCED / PART APPLIED when deletions were withheld.", "quantifier": "all counts and modes, and every call made by baseline and incremental sync", "why_tests_cant": "decision table times call sites", "anchors": ["resync/client.py:Client.log_status", "resync/client.py:Client.incremental"]}
{"id": "C61", "title": "Disk scan lists exactly the eligible files", "statement": "from_disk lists exactly the regular files under the mapped paths that match no exclude pattern, are in no excluded directory and are not symlinks, each once, with URI from the mapper, the file's mtime, length, and path/hashes if requested.", "quantifier": "all directory trees, exclude patterns and options", "why_tests_cant": "all trees", "anchors": ["resync/resource_list_builder.py:ResourceListBuilder.from_disk", "resync/resource_list_builder.py:ResourceListBuilder.add_file"]}
{"id": "C62", "title": "Explorer navigation is a stack", "statement": "Following an entry and then going back returns to the document left, and going back from the starting document ends its exploration; quitting ends it at any depth.", "quantifier": "all navigation histories and document graphs (including cyclic ones)", "why_tests_cant": "all histories", "anchors": ["resync/explorer.py:Explorer.explore", "resync/explorer.py:Explorer.explore_uri"]}
{"id": "C63", "title": "Explorer menu", "statement": "Numbered options 1..n denote the first n entries in order, n being all entries if there are at most 21 and 20 otherwise; allowed_entries(X+'index') is [X] for every X except capabilitylist.", "quantifier": "all documents and capability names", "why_tests_cant": "all documents", "anchors": ["resync/explorer.py:Explorer.explore_show_summary", "resync/explorer.py:Explorer.allowed_entries"]}
{"id": "C64", "title": "Command line link and capability parsing", "statement": "parse_link accepts exactly the strings rel,href[,att=val...] with non-empty href, att and val, att and val without further '=' or ',', and returns those values, the last one given for an attribute; parse_capabilities accepts exactly comma separated name=uri pairs and returns them. Anything else is a ClientFatalError.", "quantifier": "all strings", "why_tests_cant": "all strings", "anchors": ["resync/client_utils.py:parse_link", "resync/client_utils.py:parse_capabilities"]}
{"id": "C65", "title": "Request pacing", "statement": "With a delay configured, the opener sleeps exactly once before each web request other than the very first request of the process, and never before a local file.", "quantifier": "all request sequences", "why_tests_cant": "all sequences", "anchors": ["resync/url_or_file_open.py:url_or_file_open"]}
{"id": "C66", "title": "Source discovery order", "statement": "find_resource_list returns the first readable resource list in the documented order of candidate locations, consults nothing else when an explicit sitemap or capability list is given, and raises ClientFatalError when none can be read.", "quantifier": "all source states", "why_tests_cant": "all combinations of present/absent/broken documents", "anchors": ["resync/client.py:Client.find_resource_list"]}
{"id": "C67", "title": "Local candidate locations keep their path", "statement": "For a local source directory the candidate files tried by find_resource_list are the ones under that directory.", "quantifier": "all local paths", "why_tests_cant": "path spellings; lstrip removes a character set, not a prefix", "anchors": ["resync/client.py:Client.find_resource_list"]}
{"id": "C68", "title": "Datetimes are read by the Gregorian calendar", "statement": "1970-01-01T00:00:00Z is 0; for every existing date the value at hh:mm:ss is the value at midnight plus hh*3600+mm*60+ss seconds; the value at the same time on the next calendar day (month lengths, leap years, year ends) is exactly 86400 seconds more.", "quantifier": "all dates of years 1-9999 and all times of day", "why_tests_cant": "3.6 million days, with the interesting ones at month, leap-year and century boundaries", "anchors": ["resync/w3c_datetime.py:str_to_datetime"]}
{"id": "C69", "title": "Looking up a capability", "statement": "capability_info(name) returns an entry with that capability, the one with the least URI if there are several, and None if there is none; has_capability(name) is true exactly if there is one.", "quantifier": "all capability lists, all capability names", "why_tests_cant": "all list contents and insertion orders", "anchors": ["resync/capability_list.py:CapabilityList.capability_info", "resync/capability_list.py:CapabilityList.has_capability"]}
{"id": "C70", "title": "Every entry of a change list says what changed", "statement": "After any history of add, add of an iterable, add_changed_resources, prune_dupes and prune_updates_before calls, including ones that raise, no entry of the change list has change None; add appends in order and raises ChangeTypeError at the first resource without a change, keeping what was added before.", "quantifier": "all histories of calls on a change list", "why_tests_cant": "histories of arbitrary length", "anchors": ["resync/change_list.py:ChangeList.add", "resync/change_list.py:ChangeList.add_if_changed", "resync/change_list.py:ChangeList.add_changed_resources"]}
{"id": "C71", "title": "Reading a sitemap raises only sitemap errors", "statement": "Whatever is wrong with a well-formed XML document, reading it as a sitemap raises SitemapParseError or SitemapIndexError and no other exception (resource_from_etree: 'All errors raised are SitemapParseError').", "quantifier": "all element trees", "why_tests_cant": "all trees and all attribute values", "anchors": ["resync/sitemap.py:Sitemap.resource_from_etree", "resync/sitemap.py:Sitemap.parse_xml"]}
{"id": "C72", "title": "There is no component sitemap beyond the last", "statement": "as_xml_part(n) for n >= requires_multifile() raises ListBaseIndexError.", "quantifier": "all lists, limits and part numbers", "why_tests_cant": "boundary when the length is a multiple of the limit", "anchors": ["resync/list_base_with_index.py:ListBaseWithIndex.as_xml_part"]}
{"id": "C73", "title": "Writing a list does not change it", "statement": "After write() the list has the same resources, metadata and links as before.", "quantifier": "all lists, base names and file systems", "why_tests_cant": "aliasing of link dictionaries between the list, its index and its parts depends on which links exist", "anchors": ["resync/list_base_with_index.py:ListBaseWithIndex.write", "resync/list_base_with_index.py:ListBaseWithIndex.get_resources_chunk"]}
{"id": "C74", "title": "A refused write touches no file", "statement": "If a list needs more than one file but multi-file output is disabled, or the mapper gives no URI for the index, write() raises ListBaseIndexError and no file is created or changed.", "quantifier": "all lists, limits, mappers and file systems", "why_tests_cant": "all file systems and lists", "anchors": ["resync/list_base_with_index.py:ListBaseWithIndex.write"]}
{"id": "C75", "title": "Writing a dump leaves the resources as they were", "statement": "Dump.write does not change the resources it is given, except that it fills in missing lengths; the same resources can be dumped again.", "quantifier": "all resource lists and file systems", "why_tests_cant": "the mutation happens to objects shared with the caller; every history of writes matters", "anchors": ["resync/dump.py:Dump.write", "resync/dump.py:Dump.write_zip"]}
{"id": "C76", "title": "Separate dump manifests agree with the archives", "statement": "The manifest written beside an archive lists, for each resource, the path it has in that archive, as the manifest inside the archive does.", "quantifier": "all resource lists, file systems and base names", "why_tests_cant": "relates two documents written at different times for all inputs", "anchors": ["resync/dump.py:Dump.write", "resync/resource_dump_manifest.py:ResourceDumpManifest"]}
{"id": "C77", "title": "Files are checked before a dump is made", "statement": "check_files succeeds exactly when every resource has a path to an existing file no bigger than max_size and (if checked) of the stated length; it then fills in the missing lengths, the total of the file sizes and the longest common prefix of the directories, and nothing else.", "quantifier": "all resource lists, file systems, limits and flags", "why_tests_cant": "all combinations of stated lengths, sizes and paths", "anchors": ["resync/dump.py:Dump.check_files"]}
{"id": "C78", "title": "Transfers are verified and discrepancies reported", "statement": "After a resource has been downloaded, the client logs a size discrepancy exactly if the source lists a length that differs from the number of bytes now in the file, and a hash discrepancy for a type exactly if that type was requested, the source lists a digest of that type and it differs from the digest of the bytes now in the file; nothing else is logged about the transfer.", "quantifier": "all resources (any combination of listed length and digests), requested hash types, responses of the server and prior contents of the file", "why_tests_cant": "The report has to be exact for every content, every subset of listed digests and every subset of requested ones.", "anchors": ["resync/client.py: Client.update_resource, Client.check_hashes", "resync/hashes.py: Hashes"]}
{"id": "C79", "title": "Directories made by synchronization", "statement": "Synchronization never removes a directory (a deletion leaves the directory of the file behind), and every directory it makes is the directory of the mapped path of a listed resource (for incremental sync: of a created or updated resource of the change list), or leads to one.", "quantifier": "all sources, mappings, destination trees and options, whether the run succeeds or fails", "why_tests_cant": "all trees, lists and failure points", "anchors": ["resync/client.py:Client.update_resource", "resync/client.py:Client.delete_resource", "resync/client.py:Client.baseline_or_audit", "resync/client.py:Client.incremental"]}
{"id": "C80", "title": "--checksum is --hash=md5", "statement": "Giving --checksum has the effect of giving --hash=md5, alone or together with other --hash options.", "quantifier": "all combinations of the shared options", "why_tests_cant": "all combinations of options", "anchors": ["resync/client_utils.py:process_shared_misc_options", "resync/client_utils.py:add_shared_misc_options"]}
{"id": "C81", "title": "The access token goes to the source's server", "statement": "An access token given with --access-token is sent with every request to the source's server, and with no other request; without the option no Authorization header is sent.", "quantifier": "all options, configurations and URIs", "why_tests_cant": "all sequences of requests", "anchors": ["resync/client_utils.py:process_shared_misc_options", "resync/url_or_file_open.py:url_or_file_open"]}
{"id": "C82", "title": "Request delay option", "statement": "A negative --delay is refused and leaves the delay setting as it was; a positive one becomes the delay of all later requests; none or 0 leaves the setting.", "quantifier": "all options and configurations", "why_tests_cant": "all values and combinations", "anchors": ["resync/client_utils.py:process_shared_misc_options", "resync/url_or_file_open.py:set_url_or_file_open_config"]}
{"id": "C83", "title": "Where exploring starts", "statement": "With a document named, exploring starts at that document only; else, for a source on a server, at the source's URI (unless it has no path) and then at the server's /.well-known/resourcesync; for a local file, at the file; for a local directory, at those of the likely files (resourcesync, capabilities.xml, resourcelist.xml, changelist.xml) that exist, in that order. Neither a document nor a source, or a directory with none of these files, is a fatal error.", "quantifier": "all document names, source URIs and local directories", "why_tests_cant": "all URIs and directory contents", "anchors": ["resync/explorer.py:Explorer.explore"]}
{"id": "C84", "title": "Headers of resources are checked", "statement": "Following the entry of a resource shows the size and modification time found there, each marked as matching what was listed exactly when it equals it, or with the listed value otherwise.", "quantifier": "all resources and listed values, local or remote", "why_tests_cant": "all combinations of listed and found values", "anchors": ["resync/explorer.py:Explorer.explore_show_head", "resync/explorer.py:Explorer.head_on_file"]}
{"id": "C85", "title": "Warnings about document types", "statement": "A document is reported as unexpected exactly when its type is not one of those the entry followed promised, and as of unknown type exactly when ResourceSync defines no such document type.", "quantifier": "all documents, expected types and entries", "why_tests_cant": "all document types", "anchors": ["resync/explorer.py:Explorer.explore_show_summary", "resync/explorer.py:Explorer.explore_uri"]}
{"id": "C86", "title": "A published resource list is the directory", "statement": "The resource list that Client.write_resource_list or resync-build --write-resourcelist makes from a directory and writes to a file (or, if it is too long, to an index and parts) is read by another client as exactly the files that are to be published: one entry per file that the mapping, the paths and the exclude patterns select, with the URI the mapping gives, the file's length and digests and its modification time to within two microseconds.", "quantifier": "all directory trees, mappings, path selections, exclude patterns, hash selections, links and limits", "why_tests_cant": "all directory trees", "anchors": ["resync/client.py:Client.write_resource_list", "resync-build:main", "resync/resource_list_builder.py:ResourceListBuilder.from_disk"]}
{"id": "C87", "title": "Unchanged disk gives an empty change list", "statement": "If nothing has changed on the disk since a resource list was written then write_change_list, or resync-build --write-changelist, with that resource list as reference gives an empty change list, whatever the modification times are (they lose precision in the resource list).", "quantifier": "all directory trees, modification times, mappings and options", "why_tests_cant": "rounding of arbitrary modification times", "anchors": ["resync/client.py:Client.write_change_list", "resync-build:main", "resync/resource.py:Resource.__eq__"]}
{"id": "C88", "title": "A published change list says what happened", "statement": "The change list that write_change_list, or resync-build --write-changelist, makes from a reference resource list and the disk and writes to a file is read by another client with exactly one entry for each URI whose file was added (created, with the new file's metadata), removed (deleted) or clearly changed (updated, with the new file's metadata), and none for files that clearly stayed the same.", "quantifier": "all pairs of directory trees, mappings and options", "why_tests_cant": "all pairs of trees", "anchors": ["resync/client.py:Client.write_change_list", "resync-build:main", "resync/change_list.py:ChangeList.add_changed_resources"]}
{"id": "C89", "title": "A published change list can be applied", "statement": "A change list that resync-build makes from the disk can be applied by the incremental synchronization of the same version of the client.", "quantifier": "all pairs of directory trees, clients and start times", "why_tests_cant": "all histories of a directory", "anchors": ["resync/client.py:Client.write_change_list", "resync/client.py:Client.incremental", "resync/change_list.py:ChangeList"]}
{"id": "C90", "title": "Capability lists and source descriptions lead on", "statement": "The capability list written for given capabilities lists each of them with its URI and no other, so that a client given it finds the resource list exactly if there is one; the source description written for given URIs lists each as a capability list and no other, so that a client given it goes on to the capability list exactly if there is only one.", "quantifier": "all sets of capabilities and URIs, links and options", "why_tests_cant": "all sets of capabilities", "anchors": ["resync/client.py:Client.write_capability_list", "resync/client.py:Client.write_source_description", "resync/client.py:Client.find_resource_list"]}
{"id": "C91", "title": "Links are written in the documented order", "statement": "Documents written by resync-build have the links asked for and no others, in this order: describedby, up (the source description for a capability list, the capability list for other documents but a source description), then those given with --link in the order given.", "quantifier": "all combinations of link options and modes", "why_tests_cant": "all combinations", "anchors": ["resync-build:main", "resync/client_utils.py:parse_links"]}
{"id": "C92", "title": "Standard output gets the document", "statement": "If no output file is given then exactly the document that would be in the file is printed, so that standard output is one XML document.", "quantifier": "all documents, modes and options", "why_tests_cant": "all documents", "anchors": ["resync/client.py:Client.write_resource_list", "resync/client.py:Client.write_change_list", "resync/client.py:Client.write_capability_list", "resync/client.py:Client.write_source_description", "resync/client.py:Client.write_dump_if_requested"]}
{"id": "C93", "title": "Dumps are written to the file asked for", "statement": "With --write-resourcedump or --write-changedump and --outfile a ZIP file with the content is written to the output file.", "quantifier": "all directory trees and output file names", "why_tests_cant": "all file names and trees", "anchors": ["resync/client.py:Client.write_resource_list", "resync/client.py:Client.write_dump_if_requested", "resync/dump.py:Dump.write"]}
{"id": "C94", "title": "A reference in several parts is followed", "statement": "A change list is the same whether the reference resource list is one document or an index with parts.", "quantifier": "all resource lists and limits", "why_tests_cant": "all sizes", "anchors": ["resync/client.py:Client.read_reference_resource_list", "resync/client.py:Client.write_change_list"]}
{"id": "C95", "title": "Lists too long to be printed are refused", "statement": "A list with more entries than the limit, that is to be printed, is refused with a fatal error that the script reports, and nothing is printed.", "quantifier": "all lists longer than the limit", "why_tests_cant": "all sizes", "anchors": ["resync/client.py:Client.write_resource_list", "resync/client.py:Client.write_change_list", "resync-build:main"]}
{"id": "C96", "title": "No file but the output file is touched", "statement": "Whatever the options and however the run ends, resync-build changes no file but the output file and the parts named after it, none without an output file, and does nothing at all if the options are incomplete.", "quantifier": "all options, file systems and ends of the run", "why_tests_cant": "all file systems and failures", "anchors": ["resync-build:main", "resync/client.py:Client.write_resource_list", "resync/client.py:Client.write_change_list"]}
{"id": "C97", "title": "Parsing reports the number of entries", "statement": "For every resource list and change list, parse_document reports the capability and the number of entries that reading the list gives; the first entries it shows are, as it says, sorted by URI.", "quantifier": "all documents", "why_tests_cant": "all documents", "anchors": ["resync/client.py:Client.parse_document"]}
{"id": "C98", "title": "Baseline synchronization succeeds", "statement": "If a source can be synchronized to an empty destination (its resources fit together as files, can be downloaded, and it has authority over them), a baseline synchronization with deletions also succeeds on the destination as any earlier synchronization left it.", "quantifier": "all sources, earlier sources, destinations and network behaviours within the tries allowed", "why_tests_cant": "all pairs of sources and histories of the destination", "anchors": ["resync/client.py:Client.baseline_or_audit", "resync/client.py:Client.update_resource"]}
{"id": "C99", "title": "What is published can be copied", "statement": "If a resource list is written for a directory tree and served together with the files, a baseline synchronization of a client that maps the same base URI to an empty directory succeeds and leaves below that directory exactly the published files, with the same contents and with modification times that differ by no more than about a second. A further audit or synchronization then reports that all is in sync and changes nothing.", "quantifier": "all directory trees that can be published in one list, all file contents, times and legal names, all clients with one mapping and safe options, all network behaviours that deliver the files within the tries allowed", "why_tests_cant": "all trees, names, contents and times; the two programs are tested apart on a few files", "anchors": ["resync/client.py:Client.write_resource_list", "resync/client.py:Client.baseline_or_audit", "resync/resource_list_builder.py:ResourceListBuilder.from_disk", "resync/sitemap.py:Sitemap"]}
{"id": "C100", "title": "The exit status of resync-sync tells failure", "statement": "When resync-sync exits with status 0 after --baseline --delete, the local files are those that the source lists; a failed synchronization gives another status.", "quantifier": "all sources, destinations, network behaviours and options", "why_tests_cant": "a test runs a few failures; the status must be right for each", "anchors": ["resync-sync:main"]}
{"id": "C101", "title": "resync-sync --exclude protects files", "statement": "A file whose name matches a pattern given with --exclude is neither changed nor removed by resync-sync.", "quantifier": "all patterns, trees and sources", "why_tests_cant": "all patterns and trees", "anchors": ["resync-sync:main", "resync/client.py:Client.baseline_or_audit", "resync/client.py:Client.incremental"]}
{"id": "C102", "title": "What the options of resync-sync promise", "statement": "--audit and --parse change nothing and download nothing; --dryrun changes no file and downloads nothing; without --delete no file is removed; without a mapping nothing is done and an error is shown.", "quantifier": "all combinations of options, sources, destinations, network behaviours", "why_tests_cant": "the combinations of options with sources and destinations are unbounded", "anchors": ["resync-sync:main", "resync/client.py:Client.baseline_or_audit", "resync/client.py:Client.incremental"]}
{"id": "C103", "title": "resync-sync --tries n", "statement": "With --tries n no resource is requested more than n times in a run, and every resource that is needed is requested; without the option no resource is requested more than 20 times.", "quantifier": "all numbers n, sources and network behaviours", "why_tests_cant": "all schedules of failures and answers over all resources of a run", "anchors": ["resync-sync:main", "resync/client.py:Client.update_resource"]}
{"id": "C104", "title": "The two scripts fit together", "statement": "The resource list that resync-build writes for a directory, served together with the files, makes resync-sync --baseline --delete into an empty directory end without an error and leave there the same files and no others.", "quantifier": "all directory trees that can be published in one list, all contents, times and legal names, all options for links and hashes", "why_tests_cant": "all trees, names, contents, times and options of both programs", "anchors": ["resync-build:main", "resync-sync:main"]}
{"id": "C105", "title": "A successful incremental run catches up", "statement": "If a source lists every change since the recorded time, in order and truthfully, then a successful incremental synchronization with deletion makes the local copy one of the source as it is now, provided the copy was right for everything that has not changed since.", "quantifier": "all histories of a source, all states of the local files and of the state file, all change lists that list these events among others, all contents", "why_tests_cant": "all histories of creations, updates and removals, and all local states, including those that an interrupted run leaves behind", "anchors": ["resync/client.py:Client.incremental", "resync/change_list.py", "resync/resource_container.py:prune_before", "resync/client_state.py"]}
{"id": "C106", "title": "Failed incremental runs do no harm", "statement": "Any number of incremental runs, each of which succeeds or fails anywhere, followed by one that succeeds, leave the same copy as if only the last had been made: one of the source as it is then.", "quantifier": "all sequences of runs, all histories of the source between them, all failures of requests and of the local disk", "why_tests_cant": "all failure points of all runs in a sequence of any length, interleaved with any history of the source", "anchors": ["resync/client.py:Client.incremental", "resync/client.py:Client.update_resource", "resync/client_state.py"]}
{"id": "C107", "title": "Baseline, then incremental", "statement": "A successful baseline synchronization with deletion, followed by incremental runs of which the last one succeeds, leaves a copy of the source as it is at that time.", "quantifier": "all local directories to start from, all histories of the source, all sequences of runs", "why_tests_cant": "all starting directories with all file times, all later histories and runs", "anchors": ["resync/client.py:Client.baseline_or_audit", "resync/client.py:Client.incremental", "resync/client_state.py"]}
{"id": "C108", "title": "A killed incremental run can be made up for", "statement": "If the process of an incremental run is killed at any moment, also while it records the time, then later runs lose nothing by it: the first run that succeeds leaves a copy of the source as it is then. What a run killed before it records the time has touched are only the files of changes that were due, and the recorded time is unchanged.", "quantifier": "all moments at which the process may be killed, including between any two bytes of a file, all histories of the source and sequences of failed, killed and successful runs", "why_tests_cant": "all crash points in all runs of all histories", "anchors": ["resync/client.py:Client.incremental", "resync/client.py:Client.update_resource", "resync/client_state.py"]}
{"id": "C109", "title": "A baseline that failed or was killed can be repeated", "statement": "After any number of baseline synchronizations that failed, or were killed at any moment, a baseline synchronization that succeeds leaves a copy of the source; no file cut short by one of them is taken for complete.", "quantifier": "all moments at which the process may be killed, all outcomes of requests, all numbers of repetitions, all sources and local directories", "why_tests_cant": "all crash points, all prefixes of files that may be left, all sequences of attempts", "anchors": ["resync/client.py:Client.baseline_or_audit", "resync/client.py:Client.update_resource", "resync/resource.py:Resource.equal"]}
{"id": "C110", "title": "However a document is written, it is read the same", "statement": "A document is read as the tree it stands for, however it is written: with any prefixes for the namespaces, with comments, processing instructions, CDATA sections and references anywhere they are allowed, either kind of quotes, any white space in tags, any line ends, with or without an XML declaration. Two ways to write the same tree are read alike, and what the library writes is well formed, so any other conforming reader can read it.", "quantifier": "all texts that conform to the grammar of XML 1.0 with namespaces (characters up to U+00FF, no DOCTYPE), all trees, all documents that are written", "why_tests_cant": "there are infinitely many ways to write each document; tests use the library's own spelling or a few samples", "anchors": ["resync/sitemap.py:Sitemap.parse_xml", "resync/sitemap.py:Sitemap.resources_as_xml"]}
{"id": "C111", "title": "What the specification does not define is ignored", "statement": "Reading a document depends only on the links, metadata and entries it has, and in these only on the attributes and elements the specification defines: other elements and attributes (extensions), the order of attributes, the order of loc, lastmod, md and ln within an entry, and text between elements do not change what is read, or whether it is refused. So a list that is written, then rewritten by other software in any of these ways and any spelling, is read back without loss.", "quantifier": "all pairs of documents that agree on what is defined, all kinds of lists, all settings, all spellings", "why_tests_cant": "all extensions anyone may add at any place of any document", "anchors": ["resync/sitemap.py:Sitemap.parse_xml", "resync/sitemap.py:Sitemap.resource_from_etree", "resync/sitemap.py:Sitemap.md_from_etree", "resync/sitemap.py:Sitemap.ln_from_etree"]}
{"id": "C112", "title": "Every kind of document is read back as it was written", "statement": "Resource dumps, change dumps, their manifests, archives and source descriptions that are written, to one file or as an index with component files, and read back into a new object of the same kind have the same entries, metadata and links.", "quantifier": "all kinds of documents, all contents, limits, file systems and mappers that lead back to the files", "why_tests_cant": "all sizes and contents of each kind; the kinds differ in the container they read into, which decides whether an index can be read at all", "anchors": ["resync/resource_dump.py:ResourceDump", "resync/resource_dump_manifest.py:ResourceDumpManifest", "resync/change_dump.py:ChangeDump", "resync/change_dump_manifest.py:ChangeDumpManifest", "resync/archives.py:ResourceListArchive", "resync/archives.py:ChangeListArchive", "resync/archives.py:ResourceDumpArchive", "resync/archives.py:ChangeDumpArchive", "resync/source_description.py:SourceDescription", "resync/list_base_with_index.py:ListBaseWithIndex.read"]}
{"id": "C113", "title": "allow_multifile=False is respected by every kind of document", "statement": "An object constructed with allow_multifile=False never writes more than one file and never reads a sitemap index: both are refused with ListBaseIndexError and no file is touched.", "quantifier": "all kinds of lists that take the argument, all contents, limits, documents read and file systems", "why_tests_cant": "all sizes, kinds and documents", "anchors": ["resync/list_base_with_index.py:ListBaseWithIndex.__init__", "resync/resource_list.py:ResourceList.__init__", "resync/resource_dump.py:ResourceDump.__init__", "resync/change_dump.py:ChangeDump.__init__"]}
{"id": "C114", "title": "A generator with a count serves as well as a list", "statement": "A list that is given a generator of resources and their count is serialised like a list of the same resources: write(), as_xml(), as_xml_index() and the parts of as_xml_part() contain every resource once, however often and in whatever order they are called.", "quantifier": "all sequences of resources, counts, limits and sequences of calls", "why_tests_cant": "depends on the history of calls, as each takes resources from the generator", "anchors": ["resync/list_base.py:ListBase.__len__", "resync/list_base_with_index.py:ListBaseWithIndex.as_xml_part", "resync/list_base_with_index.py:ListBaseWithIndex.write", "resync/list_base_with_index.py:ListBaseWithIndex.requires_multifile"]}
{"id": "C115", "title": "A document cut short is never taken for a shorter one", "statement": "If a document that would have been read arrives incomplete, cut off after any number of characters, then reading it raises an error or gives exactly what the whole document gives; it is an error whenever the document ends with its root element, as all documents written by the library do. So a synchronization with --sitemap or --capabilitylist, or an incremental one, with any of the documents it reads (lists, indexes, their components) cut off does exactly what it does with the whole documents, or raises an error and changes nothing.", "quantifier": "every document that can be read, every place to cut it, every list with or without index, every set of documents that are cut, every destination and state", "why_tests_cant": "A list can be cut at any of its characters, and a resource list read too short would delete local files; tests try a few places", "anchors": ["resync/sitemap.py:Sitemap.parse_xml", "resync/list_base_with_index.py:ListBaseWithIndex.read", "resync/client.py:Client.baseline_or_audit", "resync/client.py:Client.incremental"]}
{"id": "C116", "title": "The explorer script explores what its options name", "statement": "resync-explorer starts from the document that --sitemap names or, as its help says, from the default place of the source given by the mappings; q ends the exploration in good order from every page; the options it accepts have an effect; a failure shows in the exit status.", "quantifier": "every combination of options, every source, every sequence of inputs", "why_tests_cant": "The pages, links and inputs are unbounded; the script is interactive and not tested at all", "anchors": ["resync-explorer:main", "resync/explorer.py:Explorer.explore", "resync/explorer.py:Explorer.explore_uri"]}
{"id": "C117", "title": "Clients that share a status file", "statement": "When several clients record the time of their last synchronization in the same status file at the same time and none of them fails, the last time recorded for every site can be read afterwards.", "quantifier": "every number of processes, every set of sites and times, every interleaving of their reads, truncations and writes, every division of the written text into pieces", "why_tests_cant": "A race: the outcome depends on the schedule, which tests do not control, and the code itself says that a lock is missing", "anchors": ["resync/client_state.py:ClientState.set_state", "resync/client_state.py:ClientState.get_state"]}
{"id": "C118", "title": "Only well formed documents are read", "statement": "Parsing a sitemap, index or other ResourceSync document succeeds only if its text is a well formed XML document (every tag closed in order, attributes quoted and distinct, prefixes declared, no stray ']]>' or '--', a well formed declaration, one root), and then the content reported is the content that text stands for. From any other text nothing is read and an error is raised.", "quantifier": "every text (of characters up to U+00FF), every kind of document, every setting of the parser", "why_tests_cant": "There are unboundedly many malformed texts; a test can only show that some of them are refused", "anchors": ["resync/sitemap.py:Sitemap.parse_xml", "resync/list_base.py:ListBase.parse"]}
{"id": "C119", "title": "Killed while the time is recorded", "statement": "If a process is killed while it records the time of a synchronization, then every later incremental run, of this or any other site, either refuses to start and changes nothing, or starts from a time that is not after the one last recorded or being recorded, so that no change is skipped. (It may refuse for good: after some of these moments no time can be read or recorded until the status file is removed by hand.)", "quantifier": "all sequences of calls that record or remove times, for all sites and all times since 1970, each of which may be cut off before or after any byte of the file it writes", "why_tests_cant": "all crash points in all sequences of calls; what a cut file is read as depends on every place of the cut", "anchors": ["resync/client_state.py:ClientState.set_state", "resync/client_state.py:ClientState.get_state", "resync/client.py:Client.incremental"]}
{"id": "C120", "title": "Status lines can be relied on by programs", "statement": "Every status line a synchronization, audit or incremental run logs has one of seven words, which ends in the same column of every line and is followed by the numbers in parentheses. Two status lines are the same only if the outcome, all numbers, and what they are numbers of (done, to be done, or to be deleted with --delete) are the same.", "quantifier": "every run, of any kind, on any source and destination, successful or not; all numbers", "why_tests_cant": "injectivity over all numbers and combinations of outcomes; tests compare single lines", "anchors": ["resync/client.py:Client.log_status"]}
{"id": "C121", "title": "Changes at the source during a run are not lost", "statement": "If resources are created, updated or removed at the source while a baseline or incremental synchronization is reading from it, the next successful incremental synchronization brings these changes in: made when the source is quiet, it leaves a copy of the source as it is then. After a successful run during which the source changed, each file has the content its resource had at some moment between the making of the list and the end of the run, and files of resources that did not change are right.", "quantifier": "every source, every sequence of events before, during and between runs, every moment at which each request is answered, every number of runs that succeed, fail or are killed at any moment", "why_tests_cant": "interleavings of source changes with requests and with runs are unbounded; tests use a source that stands still", "anchors": ["resync/client.py:Client.incremental", "resync/client.py:Client.baseline_or_audit", "resync/client.py:Client.update_resource", "resync/client_state.py:ClientState.set_state"]}
{"id": "C122", "title": "Baselines and incremental runs can be mixed in any order", "statement": "Starting from an empty destination, after any sequence of baseline and incremental synchronizations in any order, each of which may succeed, fail or be killed at any moment (also while the state file is written), and while the source changes before, between and during them, the next synchronization that succeeds, of either kind, leaves each file as its resource was when the list was made or at a later moment of the run; if the source is quiet during that run, the copy is exactly that of the source.", "quantifier": "every source and every orderly sequence of events, every number and order of runs of both kinds, every failure of a request, every moment at which a run is killed, every moment at which each request is answered", "why_tests_cant": "the runs, the events and the moments at which runs end combine in infinitely many ways; tests run one synchronization on a source that stands still", "anchors": ["resync/client.py:Client.baseline_or_audit", "resync/client.py:Client.incremental", "resync/client.py:Client.update_resource", "resync/client_state.py:ClientState.set_state", "resync/resource_container.py:ResourceContainer.prune_before"]}
{"id": "C123", "title": "Dumps are written in the format asked for, or nothing is", "statement": "Writing a dump with format zip or warc writes archives of that format that hold the data of the resources; with any other format it fails and leaves no file.", "quantifier": "every list of resources, every size limit, with and without separate manifests, every behaviour of the WARC library", "why_tests_cant": "the WARC library is not installed where the tests run, and tests try one unknown format with one list", "anchors": ["resync/dump.py:Dump.write", "resync/dump.py:Dump.write_warc"]}
{"id": "C124", "title": "A script goes by what is said on its command line", "statement": "resync-sync, resync-build and resync-explorer do what the options on the command line say, whatever their order, whether they stand before or after the mapping arguments, and whichever of their spellings is used (--tries 5, --tries=5, -t5, -bv for -b -v): a flag is set if one of its names is given, an option with a value has the last value given, a repeatable option has all of them in order. Two command lines that say the same do the same.", "quantifier": "every sequence of options and values before and after every list of mapping arguments, every state of the world, every behaviour of float()", "why_tests_cant": "the command lines are infinitely many; tests run a few of them in one order", "anchors": ["resync-sync:main", "resync-build:main", "resync-explorer:main", "resync/client_utils.py:add_shared_misc_options"]}
{"id": "C125", "title": "Options may be abbreviated", "statement": "A beginning of the name of an option that fits no other option can be written for it, with and without a value after =, wherever the name can stand; one that fits several options is refused.", "quantifier": "every beginning of a name, every command line it stands in, for the three scripts", "why_tests_cant": "whether an abbreviation is accepted depends on all the names of all options; tests use full names", "anchors": ["resync-sync:main", "resync-build:main", "resync-explorer:main"]}
{"id": "C126", "title": "Mapping arguments may stand anywhere among the options", "statement": "The positional arguments that give the mapping are read wherever they stand among the options.", "quantifier": "every distribution of the arguments among any options", "why_tests_cant": "the ways to distribute arguments among options are unbounded", "anchors": ["resync-sync:main", "resync-build:main"]}
{"id": "C127", "title": "A refused command line changes nothing", "statement": "A command line without a mode, with two modes, with a value that is not of the type of its option, or with an unknown or ambiguous option is refused with exit status 2, and nothing is requested, written or shown but the message.", "quantifier": "every command line of options with such a fault, every state of the world", "why_tests_cant": "faults can be in infinitely many lines, and a test shows one of them", "anchors": ["resync-sync:main", "resync-build:main", "resync-explorer:main"]}
{"id": "C128", "title": "A copy of a resource can be changed without changing the original", "statement": "Resource(resource=r, ...) makes an independent resource: whatever is assigned to or called on the copy afterwards, and on any other resource, leaves everything that can be read from r as it was, and the other way round.", "quantifier": "every session of constructor calls, copies, attribute assignments and link operations on any number of resources", "why_tests_cant": "what is shared between objects depends on the whole history of copies and assignments", "anchors": ["resync/resource.py:Resource.__init__", "resync/resource.py:Resource.link_set", "resync/change_list.py:ChangeList.add_changed_resources"]}
{"id": "C129", "title": "Lists that are added as objects can be found", "statement": "add_capability_list with a list object adds an entry to a source description with the URI and the capability of the list and a link to its description if it has one; add_capability adds one to a capability list, with the URI of the object if it has one and the URI given otherwise. A list without URI is refused with ValueError, one whose URI is there with ResourceSetDupeError, and then nothing changes. capability_info gives the first list, by URI, with the capability among those that were added.", "quantifier": "every list object with any links, every earlier content, every sequence of additions", "why_tests_cant": "arbitrary contents, link lists and orders of addition", "anchors": ["resync/source_description.py:SourceDescription.add_capability_list", "resync/capability_list.py:CapabilityList.add_capability", "resync/capability_list.py:CapabilityList.capability_info"]}
{"id": "C130", "title": "The representation of a resource is unambiguous", "statement": "repr() of a resource is unambiguous, as its documentation says: two resources with the same representation have the same URI, timestamps, length, type, digests, change, path, links and further attributes, whatever characters the values hold.", "quantifier": "every two resources, with any strings (quotes, commas, braces, control characters) as values, any links and further attributes", "why_tests_cant": "the strings that could be taken for the syntax around them are unbounded", "anchors": ["resync/resource.py:Resource.__repr__"]}
{"id": "C131", "title": "What follows -- is a mapping argument", "statement": "On the command lines of resync-sync and resync-build every word after -- is a mapping argument, whatever it looks like (a name of an option, an empty word, a further --), after those before it and in the order given. The options before it mean what they mean without it, and a command line that is wrong before -- is refused whatever follows, with nothing changed.", "quantifier": "every line of options in any spelling, mapping arguments, --, and any list of any words after it", "why_tests_cant": "the words after -- and the options before it are unbounded in number and form", "anchors": ["resync-sync:main", "resync-build:main"]}
{"id": "C132", "title": "Messages tell versions of resources apart", "statement": "str() of a resource, as shown by the client, tells versions apart: two resources with the same text have the same URI, the same last modification time as written, the same length and the same digest shown (MD5, otherwise SHA-1, otherwise SHA-256), and if they have no paths the same change and the same time of change as written. URIs, digests and changes are taken to have no spaces, and a digest not to be the word None.", "quantifier": "every two resources with any times, lengths, digests, changes and paths", "why_tests_cant": "all pairs of resources, with URIs that hold separators", "anchors": ["resync/resource.py:Resource.__str__", "resync/client.py:Client.parse_document"]}
{"id": "C133", "title": "What is shown of a list is its beginning", "statement": "With verbose, parse_document on a change list or a resource list prints the number of entries, then, if there are more than the limit (max_sitemap_entries, 100 without it), a note with the limit, and then the texts of the first entries up to the limit, numbered from 0, in the order of the document. Reading a reference resource list prints such a note and the texts of the first entries in the order of their URIs. Nothing else happens, and what is read is what is read without verbose.", "quantifier": "every document, every positive limit, everything on disk and on the web", "why_tests_cant": "documents of any length against any limit", "anchors": ["resync/client.py:Client.parse_document", "resync/client.py:Client.read_reference_resource_list"]}
{"id": "C134", "title": "--verbose changes nothing but what is shown", "statement": "resync-build with --verbose ends as it does without it, and leaves the same files and archives; only what is printed differs.", "quantifier": "every command line of resync-build as parsed, everything on disk and on the web, every earlier content of the files", "why_tests_cant": "all modes, options, documents and disks; the difference appears only for particular times in a document that is read", "anchors": ["resync-build:main", "resync/client.py:Client.read_reference_resource_list"]}

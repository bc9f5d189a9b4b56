# Formal model of resync/resync in Rocq (Coq 8.16.1)

## Approach

The library is modelled function by function as total, executable Gallina
functions in `rocq/theories/`. Python exceptions are values (`Err e`), `None`
is `None : option`, dictionaries are insertion-ordered association lists,
mutation returns the new object, iterators with shared state carry that state
explicitly, and external services (web, clock, digests, disk) are function
arguments of the model, never axioms. Regular expressions are not replaced by
hand-written predicates: `Regex.v` is a small backtracking engine with Python's
priorities and group captures, and every regular expression of the code is run
through it (the ones the code builds from user strings are parsed by a model of
the pattern syntax).

Strings are sequences of code points below 256 (`list ascii`), with Python's
character classes (`\d`, `\w`, whitespace) for that range. Timestamps are exact
values of binary64 numbers in units of 2^-1074 s (`Z`), with the roundings the
code performs written into the model where they matter (datetime formatting).

Files: `X.v` model; `XSpec.v` independent specifications; `XFacts.v` proofs;
`Prop_X.v` property theorems only (statement, `exact`, `Print Assumptions`, and
an Example showing the hypotheses are met).

A property that is false of the code as it stands is kept in full, refuted by a
theorem named `..._refuted` with a concrete witness, and the part that is true
is proved; it is reported as `partial` in MANIFEST.json.

## Plan per property

- **C01** Timestamp write/read round trip. Float64.v models binary64 rounding exactly in Z (unit 2^-1074 s); W3C.v models both functions incl. the `+ 0.0000001` and the C rounding of utcfromtimestamp. Proof: calendar bijection (days<->civil) + rounding error bounds; induction-free arithmetic.
- **C02** Equivalent W3C datetime spellings denote the same time. W3C.v run through the regex engine of Regex.v; case analysis on the pattern of digits.
- **C03** Time zone offsets are honoured. W3C.v; the law the code obeys is proved and the property is refuted by witness (code adds the offset).
- **C04** Only W3C datetimes are accepted. W3C.v; acceptance characterised by an independent grammar predicate in a Spec file.
- **C05** Hash attribute round trip. Resource.v hash getter/setter over Py split/join; proof by string lemmas.
- **C06** Hash string parsing. Resource.v; independent spec 'first entry of each type'; induction on the entries.
- **C07** Resource equality is 'no proof of inequality'. Resource.v equal; spec as conjunction; counterexamples for transitivity and delta=0 as _refuted.
- **C08** Change attribute is always valid. Resource.v as state machine with attribute ops; invariant by induction over the op list.
- **C09** Copy constructor copies everything and arguments override. Resource.v constructor with optional args; spec: per-attribute override.
- **C10** Link set/get laws. Resource.v/Container.v links as association lists; laws by induction.
- **C11** A ResourceList behaves as a map from URI to resource. Container.v dict model (insertion-ordered assoc list); refinement to a finite map.
- **C12** Iteration order of a ResourceList. Container.v sorted_iter; StronglySorted + Permutation.
- **C13** compare() is an exact partition. Container.v compare as the merge loop (fuel-free recursion on the two sorted lists); partition spec by induction.
- **C14** Comparing a list with itself reports no difference. Container.v with the iterator state held in the shared object (SortedIterMixin stores the pending list on self): aliasing modelled explicitly; refuted with witness, true for distinct objects.
- **C15** A change list computed from two resource lists transforms one into the other. Client model write_change_list over compare; replay function as independent spec.
- **C16** prune_dupes keeps exactly the last change per resource. Container.v prune_dupes two-pass loop; spec by last/first occurrence.
- **C17** Pruning a change list does not change its effect. Replay semantics as independent spec; induction.
- **C18** prune_updates_before removes exactly the earlier changes. ChangeList.v.
- **C19** Capability lists iterate in canonical order. CapabilitySet.v; spec by rank; unknown order refuted (insertion order).
- **C20** URI mapping replaces exactly the mapped prefix. Mapper.v uses Regex.v on the pattern string the code builds; lemma: engine on metachar-free pattern = string prefix.
- **C21** Mapping there and back is the identity. Mapper.v corollary of C20.
- **C22** A mapping never applies to a URI outside its base. Mapper.v; refuted with '.' in host names.
- **C23** Trailing slashes on mapping arguments do not matter. Mapper.v; refuted for two slashes; true law proved.
- **C24** Mapper argument parsing. Mapper.v parse; refuted part: duplicates that differ in trailing slash are not detected.
- **C25** Unsafe mappings are detected. Mapper.v normpath/commonprefix; positive theorem for absolute paths; refuted for '.' and file: URIs.
- **C26** Default destination path derived from a URI is a safe single path component. Mapper.v path_from_uri via urlparse model and regex substitution.
- **C27** URL authority, non-strict. UrlAuthority.v over urlparse model.
- **C28** URL authority, strict, respects path boundaries. UrlAuthority.v; refuted for sibling prefix; positive law.
- **C29** Resource to XML element and back. Sitemap.v at element-tree level.
- **C30** All resource metadata written is read back. Sitemap.v; refuted for at/completed/from/until.
- **C31** Document round trip. Xml.v: serializer of ElementTree and an XML parser with namespaces at character level; round trip by induction on trees.
- **C32** Sitemap structural errors are rejected. Sitemap.v parse_xml; each rejection as implication.
- **C33** Splitting into component sitemaps loses and duplicates nothing. ListIndex.v chunk loop; induction on the rest of the iterator.
- **C34** No component sitemap exceeds the limit. ListIndex.v; refuted for limit 1, proved for limit >= 2.
- **C35** Multi-file write followed by read gives the same list. ListIndex.v write/read over a file system.
- **C36** Component file names do not collide. ListIndex.v part_name with decimal printing.
- **C37** Component access by number agrees with the whole list. ListIndex.v slices.
- **C38** Web URIs are not mistaken for local files. ListIndex.v; refuted for https.
- **C39** Component sitemap authority check. ListIndex.v; refuted.
- **C40** A change list written with an index can be read back. ListIndex.v; refuted (list has no uris()).
- **C41** File digests do not depend on the block size. Hashes.v with streaming digest as section variable (law update(a++b) assumed as hypothesis in the statement).
- **C42** Dump partition covers the resources exactly. Dump.v; induction with the running size.
- **C43** No dump exceeds the size limit. Dump.v; refuted; proved bound max_size + last file.
- **C44** Dump archive entries. Dump.v with relpath/commonprefix.
- **C45** Client state: last write wins per site. ClientState.v; refinement to map keyed by normalised site name; collision refuted.
- **C46** Client state survives a crash. ClientState.v with effect trace and crash prefix; refuted (truncate then write), positive part for crash before open.
- **C47** Baseline sync converges. Client.v over the disk tree of Disk.v; refuted as stated (a listed resource without time, two URIs at one path); proved for every source list and every prior tree under `synchronizable` (ConvergeSpec.v): invariant over the list of transfers and deletions, then a second scan compared with the list.
- **C48** Audit changes nothing. Client.v; effect trace empty.
- **C49** Dry run changes nothing. Client.v; refuted (mkpath, set_state).
- **C50** Nothing is deleted unless deletion is allowed. Client.v; invariant over the action list.
- **C51** Files outside the mapped directories are never touched. Client.v + C20.
- **C52** Unsafe or missing mappings abort before any effect. Client.v.
- **C53** Authority is checked before any transfer. Client.v; refuted for explicit change_list_uri.
- **C54** Download retry policy. Client.v download loop over outcome stream.
- **C55** Failed download leaves the old copy intact. Client.v; refuted.
- **C56** Incremental sync applies exactly the recent changes. Client.v incremental.
- **C57** Incremental sync never skips a change. Client.v; refuted by two-run history.
- **C58** The recorded sync time never goes backwards. Client.v; refuted by two-run history.
- **C59** Requested hash types are used when the source provides them. Client.v prune_hashes; refuted (inverted).
- **C60** Status line is truthful. Client.v log_status; call site of incremental refuted.
- **C61** Disk scan lists exactly the eligible files. Builder.v over directory trees.
- **C62** Explorer navigation is a stack. Explorer.v as machine driven by an input list.
- **C63** Explorer menu. Explorer.v.
- **C64** Command line link and capability parsing. ClientUtils.v.
- **C65** Request pacing. Opener.v state machine.
- **C66** Source discovery order. Client.v find_resource_list over abstract readers.
- **C67** Local candidate locations keep their path. Client.v; refuted (lstrip).
- **C68** Datetimes are read by the Gregorian calendar. W3C.v; epoch, time-of-day law and next-day law by arithmetic on the day count (W3CCal.v).
- **C69** Capability lookup. Capability.v; characterization of the result by least URI.
- **C70** Change list entries have a change. Container.v; invariant over histories of calls.
- **C71** Reading a sitemap raises only sitemap errors. Sitemap.v; refuted, with exact characterisation of the exceptions.
- **C72** No component beyond the last. ListIndex.v; refuted at the boundary (part number = number of parts when the length is a multiple of the limit), exact characterisation otherwise.
- **C73** Writing a list does not change it. ListIndex.v; refuted (a shared link dictionary is overwritten when the list has an index link), proved for lists without such a link.
- **C74** A refused write touches no file. ListIndex.v; file system before and after compared.
- **C75** Writing a dump leaves the resources alone. Dump.v; refuted (paths and lengths change), with the exact change proved.
- **C76** Separate manifests agree with archives. Dump.v; refuted, with what each contains.
- **C77** Files are checked before a dump. Dump.v; iff characterisation of check_files by induction over the resources.
- **C78** Transfers are verified. Client.v; the log after update_resource is determined from the bytes on disk and the entry.
- **C79** Directories made. Client.v/Disk.v; invariant of the tree over all actions.
- **C80** --checksum is --hash=md5. ClientUtils.v; refuted for --checksum alone (AttributeError), proved otherwise.
- **C81** Access token. ClientUtils.v; refuted (sent to every server), what is sent characterised.
- **C82** Delay option. ClientUtils.v.
- **C83** Where exploring starts. Explorer.v; case analysis on the mapper and the document name, for every file system.
- **C84** Headers are checked. Explorer.v; refuted for resources at URIs (TypeError), proved for local files.
- **C85** Warnings about document types. Explorer.v; refuted (descriptionindex and manifests are called unknown), unexpected-part proved.
- **C86** A published resource list is the directory. Build.v on top of Builder.v and ListIndex.v; composition of C41 (scan) and C35 (write and read) with the loss of clock times bounded (TimeLoss.v), for the client and for resync-build.
- **C87** Unchanged disk gives an empty change list. As C86, with the tolerance of resource equality against the rounding of times.
- **C88** A published change list says what happened. As C86, with C15_entries; per URI.
- **C89** A published change list can be applied. Refuted (no datetime in entries); proved to fail for every non-empty change list.
- **C90** Capability lists and source descriptions lead on. Build.v, BuildDocs.v, with the discovery functions of Client.v.
- **C91** Order of links. Build.v; case analysis on modes, then through the documents as read back.
- **C92** Standard output gets the document. Build.v; refuted for change lists of the script (XmlEnd.v: text that ends in a letter is no document), proved for the others.
- **C93** Dumps are written to the file asked for. Refuted; names of archives and absence of change dumps proved.
- **C94** A reference in several parts is followed. Refuted with --multifile, else part of C87 and C88.
- **C95** Lists too long to be printed are refused. Refuted for change lists, proved for resource lists.
- **C96** No file but the output file is touched. Frame lemmas for every writing function of Build.v.
- **C97** Parsing reports the number of entries. BuildParse.v: collecting entries commutes with adding them to a list; refuted for the order.
- **C98** Baseline synchronization succeeds. SucceedSpec.v says when it is expected to; ClientSucceed.v proves that it does, by an invariant on the places of the listed resources over the transfers; ClientBlocked.v proves when it cannot, whence the refutation.
- **C99** What is published can be copied. MirrorSpec.v says what a publisher, a copier and an honest server are; Mirror.v joins the theorems on publishing (C86), success (C98) and convergence (C47) into one about both programs.
- **C100** The exit status of resync-sync tells failure. Sync.v; refuted (fatal errors are shown but main() returns), with the theorem on when the status is not 0 and what an end without a message means (C47 for the script).
- **C101** --exclude protects files. Sync.v; refuted, with the theorem that the option makes no difference to any run.
- **C102** What the options of resync-sync promise. C48 to C52 for the script.
- **C103** --tries n. ClientTries.v bounds the requests of a whole run by induction over the transfers, since no URI occurs twice in a comparison or a pruned change list; refuted for 0 and for negative numbers.
- **C104** The two scripts fit together. C99 from the options of both scripts.
- **C105** A successful incremental run catches up. The source is a history of events (FollowSpec); one run is C55/C58 composed with the meaning of the pruned change list. Refuted for the newest resource, proved when no such resource is there.
- **C106** Failed incremental runs do no harm. Induction over a history of runs, with an invariant that says that the copy is right for all that did not change since the recorded time.
- **C107** Baseline, then incremental. The baseline establishes the invariant of C106. Refuted for a deleted local file with a late time, proved without one.
- **C108** A killed incremental run. Relations give the worlds a run passes through (directories made one by one, files opened and partly written, changes applied so far); the invariant of C106 is proved to hold in all of them, and the end of every run to be one of them. Kills while the time is saved are covered by C119's analysis of the status file.
- **C109** Repeated baselines. The same for a baseline; an invariant (whatever looks like what is listed is right) is proved to hold at every moment if the list gives lengths. Refuted without lengths.
- **C110** Spelling. A grammar of XML 1.0 with namespaces (XmlSpell.v), written after the W3C texts and without reference to the reader, says which texts stand for which trees; proved: every such text is read as its tree (induction over the grammar), and what is written conforms to it.
- **C111** Extensions. A relation between trees that agree on what the specification defines (SitemapAlike.v); proved: related documents are read the same, for every kind of list and setting, and in every spelling.
- **C112** Kinds of documents. The constructors and containers of all kinds (DocKinds.v); proved: dumps and their manifests of any length, and archives and source descriptions that fit into a file, are read back. Refuted for longer archives and source descriptions: no index can be read into them.
- **C113** allow_multifile. Refuted: dumps and manifests do not pass the argument on. Proved of resource lists, and of every kind if the attribute is set afterwards.
- **C114** Generators. The list is modelled with the resources still to come, so that each call changes it (GenList.v). Refuted for parts asked for in turn, for writing twice and for wrong counts; proved: the first call of each kind gives what a list gives, and writing needs no count.
- **C115** Cut documents. For every text the reader accepts and every beginning of it (XmlCut.v): the events only grow, and after the root nothing but white space, comments and instructions is accepted, so a beginning that is accepted has the same root. Carried through lists with an index (CutFacts.v) to both kinds of synchronization.
- **C116** The explorer script. main() from the parsed options on (ExplorerMain.v), on top of the explorer (Explorer.v). Refuted: no option gives mappings, so that without --sitemap there is only an error, with exit status 0, and four options have no effect; proved: with --sitemap it explores from there, and q ends it from every page that can be reached.
- **C117** Clients that share a status file. Processes in set_state with a step for the read, one for the open that empties the file and one for each piece written (StateRace.v); schedules are lists of turns. Refuted: two clients that both end well lose a time, or leave a file that cannot be read; proved: calls that do not overlap give the last time of every site, in every order; if only the writes do not overlap, the file is always readable and each time in it was stored for that site.
- **C118** Only well formed documents are read. The converse of C110, by induction over the reader's states and the builder's stack (XmlLexed.v, XmlOnly.v): a text that is read is derivable in the grammar of XmlSpell.v, with the tree read; with C32, the texts accepted as a list are exactly the well formed documents of the kind asked for with readable times.
- **C119** Killed while the time is recorded. The files that any sequence of completed and cut off calls can leave are an inductive relation (`left_by`); by induction such a file reads as options whose values are prefixes of those last written, or not at all (StateCut.v). That a prefix of a number since 1970 is no greater number is a hypothesis on Python's `repr` and `float` (`cut_floats`), as `python_floats` is; both are proved of an instance. C108's histories include runs killed while saving.
- **C120** Status lines. A predicate on logs is carried through the actions of both kinds of runs (StatusLine.v); the text is then shown to be injective, by its fixed columns and by the characters that end numbers.
- **C121** Changes during a run. The hypothesis of C106 and C108 on what requests give is weakened: the content of any moment from the change list on, another one for each request (`sees_while`). The invariant of C106 is carried through because no recorded time is after the events the list tells of, so that what happens later is told again (Follow.v `track_while`, MeanwhileFacts.v).
- **C122** Runs of both kinds in any order. `MixSpec.v` gives what the source does (`orderly`: events in order, those of one resource at least a second apart, since a file's time has whole seconds and times less than a second apart count as equal), what a run may see (`lists_while`, `sees_while`), and the runs (`mixed_run`, six cases). The invariant `kept` says that each file has the time of some event of its resource and the content of that moment or a later one, or has a time apart from all events (it is a part left by a run that failed; the clock is apart from the events), and that the copy is right, with times, for resources to which nothing happened since the recorded time. It is preserved by each kind of run (`MixFacts.v`, by the loop lemmas of C106, C108, C109 and C121).
- **C123** Formats of dumps. write_warc (Warc.v) with the library as an argument. Refuted: its last statement uses an attribute that a Dump does not have, and the records hold file names; an unknown format is refused only after the first separate manifest was written. Proved of all dumps: WARC never succeeds and leaves at most one file, other formats leave no archive.
- **C124** Command lines. The reading of command lines by argparse (Python 3.12) is modelled for the options the scripts define (Args.v: classification of words, abbreviations, flags in one word, values after = or as next word, the exclusive required modes, positional arguments); float() is an argument. What is meant by a line is specified apart from it (ArgsSpec.v: uses of options, what they say, the options from the documentation). By induction over the line (ArgsFacts.v, ArgsRead.v), then per script (ArgsMain.v).
- **C125** Abbreviations. Refuted: an abbreviation of an option with two names that begin alike is ambiguous. Proved for every beginning that fits one name, in every place of every line before `--` (also lines that are refused for other reasons), and refused for every one that fits two (ArgsOther.v).
- **C126** Place of the mapping arguments. Refuted: argparse reads positional arguments where the first ones stand; proved that all lines with options between them are refused, and all others read (C124).
- **C127** Refused command lines. The converse of C124; unknown and ambiguous options in any place of any line.
- **C128** Independent copies. Resource.v takes resources for values; Shared.v has a store of lists of links that copies refer to. Refuted; proved by a simulation that sessions in which no resource with links is copied are those of the model with values, and by an invariant that otherwise the links stay the same.
- **C129** Adding lists as objects. Listing.v on top of the constructor of Resource.v; the entry is given in full by `leads_to`; lookup by C69.
- **C130** Representation of resources. Repr.v has repr() of strings (as CPython, code points below 256), integers, lists and dictionaries; injectivity by showing that the texts are a prefix code before a comma or a closing bracket, by induction on the size of values.
- **C131** Arguments after `--`. On the model of argparse of C124: the reading of a line with `--` is that of the options alone with the words after it added (ArgsRest.v), so the theorems of C124 and C127 give the rest.
- **C132** Text of resources. `__str__` is in Build.v; the parts are read back one by one up to the next space (TextFacts.v), with the texts of times and numbers having none and not being `None`.
- **C133** What is shown when verbose. On Build.v, by induction over the entries (ShownFacts.v); what lines are expected is in ShownSpec.v.
- **C134** Effect of --verbose. On Build.v, by a simulation between the run with --verbose and the one without it (VerboseFacts.v, VerboseEnd.v); what counts as the same files is in VerboseSpec.v. False as stated: showing a time past the year 9999 is an error.

## Trusted base

- The Coq 8.16.1 kernel (including its virtual machine, used by `vm_compute` in concrete
  witnesses) and the checker that rebuilds the development.
- Axioms: `Print Assumptions` answers `Closed under the global context` for every theorem
  in the `Prop_*.v` files. No theory file states an axiom, parameter, or hypothesis
  outside a section. Loading the standard library brings seven declarations of
  `Coq.ssr.ssrunder` (`Under_rel`, `Under_rel_from_rel`, `Under_relE`, `Over_rel`,
  `over_rel`, `over_rel_done`, `under_rel_done`: a sealed module of the standard library)
  into the environment; no theorem depends on them.
- The reading of the Python code and of the parts of the Python standard library it
  calls (str, re, urllib.parse, os.path, datetime, xml.etree.ElementTree, configparser,
  zipfile, argparse) into Gallina. This is by hand; each definition cites
  the lines it models.

### What is modelled and what is not

| file | modelled | not modelled |
|---|---|---|
| w3c_datetime.py | everything, with binary64 rounding | - |
| resource.py | construction, properties, hashes text, links, equality, change types, `__repr__` (Repr.v), sharing of links between copies (Shared.v), `__str__` (Build.v, C132) | - |
| resource_container.py | metadata, default times, links, prune functions | `__str__` |
| resource_set.py, resource_list.py, change_list.py | everything but `__str__` | explicit `count` |
| capability_list.py | order of iteration, add, lookup | - |
| source_description.py, archives.py, resource_dump*.py, change_dump*.py | constructors and the kind of list they are (name, container; DocKinds.v), `add_capability_list` (Listing.v) | - |
| list_base.py, list_base_with_index.py | reading, writing, splitting, naming; explicit `count` and generators (GenList.v) | negative limits; logging; sizes read |
| sitemap.py | reading and writing, on XML trees and on text (Xml.v: elements, attributes, namespaces, entities and character references, comments, processing instructions, CDATA, the XML declaration) | DOCTYPE, characters above U+00FF (answered `OutOfModel`); encodings; the reader is proved to accept exactly the well formed texts (C110, C118), with any version number in the declaration, as expat does |
| hashes.py | everything; a digest object is the bytes it was given, the digest functions are arguments of the model | the digest algorithms |
| mapper.py, url_authority.py | everything; urllib.parse for code points < 256 | IPv6 brackets beyond the checks of urlsplit |
| url_or_file_open.py | configuration, delay, headers, file/URL decision | HTTP itself: what a request returns is an argument of the model |
| dump.py | check_files, partitioning, ZIP members and manifests, archive paths; WARC records (Warc.v) | the WARC library; compression; ZIP archives are kept apart from the file system |
| client_state.py | reading and writing of the state file as a map of sites to times; text of floats is an argument; interleaved calls (StateRace.v) | interpolation, CR translation |
| resource_list_builder.py | scan, exclusion, hashes, paths, lengths; times of the scan (Build.v) | permissions |
| client.py | sync, audit, incremental, discovery of resource lists (Client.v), building and writing of documents, parse_document (Build.v; the tree that is scanned and the files that documents are read from and written to are kept apart) | log messages other than those named in theorems; socket timeouts other than as an outcome of a request |
| client_utils.py | option parsing functions, shared options | logging set-up |
| explorer.py | start points, pages, menus, headers, history | line editing |
| resync-build | main(), all modes (Build.v, command line in Args.v) | the texts of help and usage messages, logging, --dryrun (no effect in the code) |
| resync-sync | main(), all modes, exit status (Sync.v, command line in Args.v) | the texts of help and usage messages, logging, --timeout, and --reference, --newreference and --empty, which have no effect in the code |
| resync-explorer | main() (ExplorerMain.v, command line in Args.v) | the texts of help and usage messages, logging, and the options the script does not look at |

The disk (Disk.v) is a tree of directories, files, links and special files; there are no
permissions, no hard links, `..` is resolved textually, links are not followed on the way.
Concurrency: the client is single-threaded; concurrent change of the source is modelled by
letting every fetch return anything. Crash points: Kill.v has relations that give the worlds
a run passes through before it saves its state (directories made one by one, files opened and
partly written, changes applied so far); what a crash while the state file is written leaves
is in ClientState.v, and is part of the histories of C108 and C119. That data written before a crash may not reach the disk in order (no
fsync) is not modelled.

(** * Build: model of the parts of client.py that write documents, and of resync-build *)

From Verif Require Import Py Float64 W3C Mapper Resource Container Capability Xml Sitemap Opener ListIndex
  Hashes Disk OsPath Builder Dump Client ClientUtils.

(** ** What the client works with *)

(** The client, client.py:45-69, as far as documents are written: mapper, hashes,
    exclude_patterns, allow_multifile, max_sitemap_entries, pretty_xml, dump_format and
    verbose. *)
Record bclient : Type := MkBClient {
  bc_mapper : mapper;
  bc_hashes : list str;
  bc_exclude : list str;
  bc_multifile : bool;
  bc_max : option Z;
  bc_pretty : bool;
  bc_format : option str;
  bc_verbose : bool }.

(** The surroundings: digest functions, current directory, the tree that is scanned, what
    requests to the network answer, the modification time a written file gets, and the
    times at which a scan starts and ends.  Simplification: the files that documents are
    read from and written to are a map from paths (in [written]), apart from the tree. *)
Record benv : Type := MkBEnv {
  be_digests : digests;
  be_cwd : list str;
  be_root : node;
  be_web : str -> res str;
  be_clock : str -> Z;
  be_start : Z;
  be_end : Z }.

(** What is written: standard output, files and ZIP files. *)
Record written : Type := MkWritten { o_out : str; o_fs : fsys; o_zips : list (str * zipfile) }.
Definition printed (line : str) (w : written) : written :=
  MkWritten (o_out w ++ line ++ [nl]) (o_fs w) (o_zips w).
Definition with_fs (fs : fsys) (w : written) : written := MkWritten (o_out w) fs (o_zips w).

(** Actions: they write, and return a value or raise an exception. *)
Definition wact (A : Type) : Type := written -> written * res A.
Definition wret {A} (a : A) : wact A := fun w => (w, Ok a).
Definition wlift {A} (r : res A) : wact A := fun w => (w, r).
Definition wbind {A B} (m : wact A) (f : A -> wact B) : wact B := fun w =>
  let '(w, r) := m w in match r with Ok a => f a w | Err e => (w, Err e) end.
Notation "'run' x <- m ;; f" := (wbind m (fun x => f)) (at level 100, x pattern, m at next level, right associativity).
(** print(line) *)
Definition print (line : str) : wact unit := fun w => (printed line w, Ok tt).
(** print(x), where x is what a function returns *)
Definition print_res (text : res str) : wact unit := run t <- wlift text ;; print t.

(** ** Building a resource list *)

(** self.max_sitemap_entries, or the default of the list, list_base_with_index.py:65 and
    client.py:237-238. *)
Definition limit (c : bclient) : option Z := match bc_max c with Some m => Some m | None => Some 50000 end.
Definition doc_settings (c : bclient) : settings := MkSettings (bc_pretty c) false false.

(** build_resource_list(paths, set_path), client.py:203-239, with the times of the scan
    that from_disk sets, resource_list_builder.py:122-131.  The scan itself raises no
    ValueError but that of a pattern or a time. *)
Definition build_resource_list (e : benv) (c : bclient) (paths : option str) (set_path : bool)
    : res (ixlist rdict) :=
  match bc_mapper c with
  | [] => Err ClientFatalError
  | ms =>
      let paths := match paths with Some p => Some (split_on "," p) | None => None end in
      let scanned :=
        let* b := add_exclude_patterns (bc_exclude c) (new_builder (Some ms) (bc_hashes c) true set_path) in
        let* at_ := datetime_to_str false (be_start e) in
        let* rl := from_disk (be_digests e) b (be_cwd e) (be_root e) paths [] in
        let* completed := datetime_to_str false (be_end e) in
        Ok (MkDoc [($"md_at", PStr at_); ($"md_completed", PStr completed)] [] rl) in
      let* d := match scanned with Err ValueError => Err ClientFatalError | x => x end in
      Ok (MkIx d (Some $"resourcelist") (limit c) (bc_multifile c) (Some ms) false false (doc_settings c))
  end.

(** ** Reading a reference *)

(** str(resource), resource.py:477-493. *)
Definition str_or_none (o : option str) : str := match o with Some s => s | None => $"None" end.
Definition resource_str (r : resource) : res str :=
  let* lastmod := get_dt (r_timestamp r) in
  let* change := match r_change r with
                 | None => Ok []
                 | Some ch => let* dt := get_dt (r_ts_datetime r) in
                              Ok [ch ++ match dt with Some s => $" @ " ++ s | None => [] end]
                 end in
  let digest := match r_md5 r with
                | Some (x :: s) => x :: s
                | _ => match r_sha1 r with Some (x :: s) => x :: s | _ => str_or_none (r_sha256 r) end
                end in
  let length := match r_length r with Some n => print_int n | None => $"None" end in
  Ok ($"[ " ++ join $" | " ([r_uri r; str_or_none lastmod; length; digest] ++ change
                              ++ match r_path r with Some p => [p] | None => [] end) ++ $" ]").

(** The entries shown when verbose, client.py:644-658 and 774-788: [prefix] is what
    stands before entry number n. *)
Fixpoint show_entries (prefix : Z -> str) (to_show n : Z) (rs : list resource) : wact unit :=
  match rs with
  | [] => wret tt
  | r :: rs' =>
      run s <- wlift (resource_str r) ;;
      run _ <- print (prefix n ++ s) ;;
      if to_show <=? n + 1 then wret tt else show_entries prefix to_show (n + 1) rs'
  end.
Definition show_verbose (c : bclient) (prefix : Z -> str) (rs : list resource) : wact unit :=
  if bc_verbose c then
    let '(to_show, override) := match bc_max c with
                                | Some m => if m =? 0 then (100, $" (override with --max-sitemap-entries)") else (m, [])
                                | None => (100, $" (override with --max-sitemap-entries)")
                                end in
    run _ <- (if to_show <? zlen rs
              then print ($"Showing first " ++ print_int to_show ++ $" entries sorted by URI" ++ override ++ $"...")
              else wret tt) ;;
    show_entries prefix to_show 0 rs
  else wret tt.

(** read_reference_resource_list(ref_sitemap, name), client.py:757-789. *)
Definition read_reference (e : benv) (c : bclient) (uri : str) : wact rdict := fun w =>
  (run l <- wlift (list_read resource_list_kind (open_uri (o_fs w) (be_web e)) (negb (bc_multifile c))
                     (new_list resource_list_kind $"resourcelist" true (Some (bc_mapper c))) uri) ;;
   run _ <- show_verbose c (fun _ => []) (rl_iter (d_items (l_doc l))) ;;
   wret (d_items (l_doc l))) w.

(** ** Writing *)

(** print(list.as_xml()) or list.write(basename=outfile). *)
Definition put_list {C} (k : kind C) (e : benv) (l : ixlist C) (outfile : option str) : wact unit :=
  match outfile with
  | None => print_res (list_as_xml k l false $"/tmp/sitemap.xml")
  | Some f => fun w =>
      let '(fs, r) := list_write k (of_md5 (be_digests e)) (be_clock e) l f (o_fs w) in
      (with_fs fs w, let* _ := r in Ok tt)
  end.

(** The links of resync-build as links of a list. *)
Definition as_link (l : list (str * str)) : link := map (fun kv => (fst kv, PStr (snd kv))) l.
Definition set_links (links : option (list link)) {C} (l : ixlist C) : ixlist C :=
  match links with
  | Some ln => with_doc (MkDoc (d_md (l_doc l)) ln (d_items (l_doc l))) (l_index l) l
  | None => l
  end.

(** Dump(resources=rl, format).write(basename), dump.py:23-57, with its limits; the current directory as text. *)
Definition DUMP_SIZE : Z := 100 * 1024 * 1024.
Definition put_dump (e : benv) (c : bclient) (rs : list resource) (outfile : str) : wact unit := fun w =>
  let format := match bc_format c with Some f => f | None => $"zip" end in
  let '(s, r) := dump_write (of_md5 (be_digests e)) (be_clock e) ($"/" ++ join $"/" (be_cwd e)) DUMP_SIZE 50000
                   format outfile true rs (o_fs w) in
  (MkWritten (o_out w) (w_fs s) (o_zips w ++ w_zips s), let* _ := r in Ok tt).

(** write_resource_list(paths, outfile, links, dump), client.py:660-690.  A list that
    needs an index is a fatal error when it is to be printed. *)
Definition write_resource_list (e : benv) (c : bclient) (paths outfile : option str) (links : option (list link))
    (dump : bool) : wact unit :=
  run rl <- wlift (build_resource_list e c paths dump) ;;
  let rl := set_links links rl in
  if dump then
    put_dump e c (rl_iter (d_items (l_doc rl))) (match outfile with Some f => f | None => $"resourcedump.zip" end)
  else
    match outfile with
    | None => print_res (match list_as_xml resource_list_kind rl false $"/tmp/sitemap.xml" with
                         | Err ListBaseIndexError => Err ClientFatalError
                         | x => x
                         end)
    | Some _ => put_list resource_list_kind e rl outfile
    end.

(** write_dump_if_requested(resource_list, dump), client.py:750-755. *)
Definition write_dump_if_requested (dump : option bool) : wact unit :=
  match dump with
  | None => wret tt
  | Some b => print ($"OOPS - FIXME - Wrinting dump to " ++ (if b then $"True" else $"False") ++ $" not yet implemented")
  end.

(** The change list between the reference and the files or the new reference,
    client.py:699-713. *)
Definition compute_changes (e : benv) (c : bclient) (paths : option str) (ref : str) (newref : option str)
    (dump : option bool) : wact (list resource) :=
  run old_rl <- read_reference e c ref ;;
  run new_rl <- (match newref with
                 | None => wlift (let* l := build_resource_list e c paths
                                              (match dump with Some b => b | None => false end) in
                                  Ok (d_items (l_doc l)))
                 | Some u => read_reference e c u
                 end) ;;
  wlift (change_list_between 0 1 old_rl new_rl).

(** write_change_list(paths, outfile, ref_sitemap, newref_sitemap, empty, links, dump),
    client.py:692-724.  [ref] is None with [empty] only. *)
Definition change_ixlist (c : bclient) (links : option (list link)) (changes : list resource) : ixlist (list resource) :=
  MkIx (MkDoc [] (match links with Some ln => ln | None => [] end) changes) (Some $"changelist") (limit c) true
    (Some (bc_mapper c)) false false (doc_settings c).
Definition write_change_list (e : benv) (c : bclient) (paths outfile ref newref : option str) (empty : bool)
    (links : option (list link)) (dump : option bool) : wact unit :=
  run changes <- (if empty then wret []
                  else match ref with
                       | Some u => compute_changes e c paths u newref dump
                       | None => wlift (Err OutOfModel)
                       end) ;;
  run _ <- put_list change_list_kind e (change_ixlist c links changes) outfile ;;
  write_dump_if_requested dump.

(** for name in capabilities.keys(): add_capability(name, uri), client.py:730-732 and
    capability_list.py:99-115. *)
Definition capability_entry (name uri : str) : resource := set_capability (Some name) (new_resource uri).
Fixpoint add_capabilities (caps : list (str * str)) (d : rdict) : res rdict :=
  match caps with
  | [] => Ok d
  | (name, uri) :: caps' => let* d := rs_add (capability_entry name uri) d in add_capabilities caps' d
  end.

(** write_capability_list(capabilities, outfile, links), client.py:726-737: a CapabilityList
    is written as one document, list_base.py:124-145. *)
Definition write_capability_list (e : benv) (c : bclient) (capabilities : option (list (str * str)))
    (outfile : option str) (links : option (list link)) : wact unit :=
  run d <- wlift (add_capabilities (match capabilities with Some l => l | None => [] end) []) ;;
  let doc := MkDoc [] (match links with Some ln => ln | None => [] end) d in
  match outfile with
  | None => print_res (as_xml cs_iter (doc_settings c) (Some $"capabilitylist") false doc)
  | Some f => fun w =>
      let doc := default_capability (Some $"capabilitylist") doc in
      let '(fs, x) := write_doc (be_clock e) (doc_settings c) false (MkDoc (d_md doc) (d_ln doc) (cs_iter (d_items doc)))
                        f (o_fs w) in
      (with_fs fs w, match x with Some x => Err x | None => Ok tt end)
  end.

(** for uri in capability_lists: add_capability_list(uri), client.py:744-746 and
    source_description.py:67-82. *)
Fixpoint add_capability_lists (uris : list str) (d : rdict) : res rdict :=
  match uris with
  | [] => Ok d
  | u :: uris' => let* d := rs_add (capability_entry $"capabilitylist" u) d in add_capability_lists uris' d
  end.

(** write_source_description(capability_lists, outfile, links), client.py:739-748; the
    constructor sets md['from'], source_description.py:45-53. *)
Definition write_source_description (e : benv) (c : bclient) (capability_lists : option (list str))
    (outfile : option str) (links : option (list link)) : wact unit :=
  run d <- wlift (add_capability_lists (match capability_lists with Some l => l | None => [] end) []) ;;
  put_list source_description_kind e
    (MkIx (MkDoc [($"from", PNone)] (match links with Some ln => ln | None => [] end) d) (Some $"description")
       (Some 50000) true None false false (doc_settings c)) outfile.

(** parse_document(), client.py:622-658; [uri] is self.sitemap and [open] is
    url_or_file_open. *)
Definition parse_opened (open : str -> res str) (c : bclient) (uri : str) : wact unit :=
  run d <- wlift (let* text := match open uri with Err IOError => Err ClientFatalError | x => x end in
                  let* (d, _) := parse_xml plain_settings (fun r l => Ok (l ++ [r])) None None (MkDoc [] [] []) text in
                  Ok d) ;;
  let capability := match sget $"capability" (d_md d) with
                    | Some (PStr s) => s
                    | Some (PInt n) => print_int n
                    | Some PNone => $"None"
                    | None => $"(unknown capability)"
                    end in
  run _ <- print ($"Parsed " ++ capability ++ $" document with " ++ print_int (zlen (d_items d)) ++ $" entries") ;;
  show_verbose c (fun n => $"[" ++ print_int n ++ $"] ") (d_items d).
Definition parse_document (e : benv) (c : bclient) (uri : str) : wact unit := fun w =>
  parse_opened (open_uri (o_fs w) (be_web e)) c uri w.

(** ** resync-build *)

(** The mode, resync-build:43-69; exactly one is given. *)
Inductive mode : Type :=
| ResourceListMode | ChangeListMode | CapabilityListMode (caps : str) | DescriptionMode (uris : str)
| ResourceDumpMode | ChangeDumpMode.

(** The other options, resync-build:71-120. *)
Record build_args : Type := MkArgs {
  a_mode : mode;
  a_map : list str;
  a_outfile : option str; a_paths : option str; a_reference : option str; a_newreference : option str;
  a_link : option (list str);
  a_describedby : option str; a_sourcedescription : option str; a_capabilitylist : option str;
  a_hash : option (list str); a_checksum : bool;
  a_exclude : list str; a_no_multifile : bool; a_max : option Z;
  a_empty : bool; a_warc : bool; a_verbose : bool }.

(** if (args.x): a string option that is given and not empty. *)
Definition given (o : option str) : option str := match o with Some (x :: s) => Some (x :: s) | _ => None end.

(** The links, resync-build:148-162. *)
Definition up_link (rel href : str) : list (str * str) := [($"rel", rel); ($"href", href)].
Definition build_links (a : build_args) : res (list link) :=
  let* links := parse_links (a_link a) in
  let links := match given (a_capabilitylist a), a_mode a with
               | Some u, CapabilityListMode (_ :: _) | Some u, DescriptionMode (_ :: _) => links
               | Some u, _ => up_link $"up" u :: links
               | None, _ => links
               end in
  let links := match given (a_sourcedescription a), a_mode a with
               | Some u, CapabilityListMode (_ :: _) => up_link $"up" u :: links
               | _, _ => links
               end in
  let links := match given (a_describedby a) with Some u => up_link $"describedby" u :: links | None => links end in
  Ok (map as_link links).

(** How the script ends: it returns, with exit status 0 also after a fatal error
    (resync-build:196-197), it stops at a usage error, or it dies of an exception. *)
Inductive ending : Type := Done | FatalShown | UsageError | Died (x : exn).

(** The client as it is set up, resync-build:130-146.  A maximum of 0 is ignored. *)
Definition build_client (a : build_args) (hash : option (list str)) (ms : mapper) : bclient :=
  MkBClient ms (client_hashes hash) (a_exclude a) (negb (a_no_multifile a))
    (match a_max a with Some m => if m =? 0 then None else Some m | None => None end) true
    (if a_warc a then Some $"warc" else None) (a_verbose a).

(** Writing the change list, resync-build:170-180: without a reference or --empty it is a usage error. *)
Definition build_changes (e : benv) (c : bclient) (a : build_args) (links : list link) (dump : bool) : wact (option unit) :=
  match given (a_reference a), a_empty a with
  | None, false => wret None
  | _, _ =>
      run _ <- write_change_list e c (a_paths a) (a_outfile a) (a_reference a) (given (a_newreference a))
                 (a_empty a) (Some links) (Some dump) ;;
      wret (Some tt)
  end.

(** The try block, resync-build:135-193: None stands for the usage error. *)
Definition build_body (e : benv) (a : build_args) (hash : option (list str)) : wact (option unit) :=
  run ms <- wlift (match a_map a with [] => Ok [] | maps => make_mapper maps true end) ;;
  let c := build_client a hash ms in
  run links <- wlift (build_links a) ;;
  match a_mode a with
  | ResourceListMode =>
      run _ <- write_resource_list e c (a_paths a) (a_outfile a) (Some links) false ;; wret (Some tt)
  | ResourceDumpMode =>
      run _ <- write_resource_list e c (a_paths a) (a_outfile a) (Some links) true ;; wret (Some tt)
  | ChangeListMode => build_changes e c a links false
  | ChangeDumpMode => build_changes e c a links true
  | CapabilityListMode ((_ :: _) as s) =>
      run caps <- wlift (parse_capabilities s) ;;
      run _ <- write_capability_list e c (Some caps) (a_outfile a) (Some links) ;; wret (Some tt)
  | DescriptionMode ((_ :: _) as s) =>
      run _ <- write_source_description e c (Some (parse_capability_lists s)) (a_outfile a) (Some links) ;;
      wret (Some tt)
  | CapabilityListMode [] | DescriptionMode [] => wret None
  end.

(** main(), resync-build:122-197, from the arguments on.  Logging and --dryrun, which has
    no effect, are left out. *)
Definition resync_build (e : benv) (a : build_args) (w : written) : written * ending :=
  match snd (process_options (MkOptions (a_hash a) (a_checksum a) None None) false config0) with
  | Err x => (w, Died x)
  | Ok hash =>
      match build_body e a hash w with
      | (w, Ok (Some _)) => (w, Done)
      | (w, Ok None) => (w, UsageError)
      | (w, Err ClientFatalError) => (w, FatalShown)
      | (w, Err x) => (w, Died x)
      end
  end.

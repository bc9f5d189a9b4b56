(** * Properties C90 to C97: resync-build *)

From Verif Require Import Py Float64 W3C Mapper MapperSpec Resource ResourceSpec Container ContainerSpec Capability Xml Sitemap SitemapSpec
  Url Opener ListIndex ListIndexSpec Hashes Disk DiskSpec OsPath Builder BuilderSpec Dump DumpSpec Client ClientUtils ClientExamples
  StoredSpec Build PublishSpec PublishEx BuildSpec BuildDocs BuildFacts BuildOut BuildDone BuildScript BuildParse BuildEx BuildRuns.

(** C90: a capability list says which capability has which URI, and no more, ... *)
Theorem C90_capability_list : forall e a hash ms user s caps w, options_give a hash ms user -> fine_option_links a user ->
  a_mode a = CapabilityListMode s -> s <> [] -> parse_capabilities s = Ok caps -> fine_capabilities caps ->
  exists text d, resync_build e a w = (put_document e (a_outfile a) text w, Done)
    /\ list_parse rs_add plain_settings (Some $"capabilitylist") (MkDoc [] [] []) text = Ok d
    /\ lists_capabilities caps (d_items d)
    /\ Forall2 (same_atts link_keys) (links_in_order a user) (d_ln d).
Proof. exact script_capability_list. Qed.
Print Assumptions C90_capability_list.
(** ... so a client finds the resource list in it if there is one; *)
Theorem C90_resource_list_found : forall e c caps links, fine_capabilities caps -> fine_links links ->
  exists text,
    (forall f w, write_capability_list e c (Some caps) (Some f) links w = (with_fs (put_file f text (be_clock e f) (o_fs w)) w, Ok tt))
    /\ (forall w, write_capability_list e c (Some caps) None links w = (printed text w, Ok tt))
    /\ forall fetch uri, fetch uri = Ok text ->
        (forall rl, In ($"resourcelist", rl) caps -> find_from_capability_list fetch uri = urljoin uri rl)
        /\ (~ In $"resourcelist" (map fst caps) -> find_from_capability_list fetch uri = Err ClientFatalError).
Proof. exact capability_list_found. Qed.
Print Assumptions C90_resource_list_found.
(** a source description says which capability lists there are, and no more, ... *)
Theorem C90_source_description : forall e a hash ms user s w, options_give a hash ms user -> fine_option_links a user ->
  a_mode a = DescriptionMode s -> s <> [] -> fine_uris (parse_capability_lists s) -> zlen (parse_capability_lists s) <= 50000 ->
  exists text d, resync_build e a w = (put_document e (a_outfile a) text w, Done)
    /\ (forall fetch uri, fetch uri = Ok text -> exists l,
          list_read source_description_kind fetch false (new_list source_description_kind $"description" true None) uri = Ok l /\ l_doc l = d)
    /\ lists_capabilities (map (fun u => ($"capabilitylist", u)) (parse_capability_lists s)) (d_items d)
    /\ Forall2 (same_atts link_keys) (links_in_order a user) (d_ln d).
Proof. exact script_description. Qed.
Print Assumptions C90_source_description.
(** ... so a client finds the capability list in it if there is one. *)
Theorem C90_capability_list_found : forall e c uris links, fine_uris uris -> fine_links links -> zlen uris <= 50000 ->
  exists text,
    (forall f w, write_source_description e c (Some uris) (Some f) links w
       = (with_fs (put_file f text (be_clock e f) (o_fs w)) w, Ok tt))
    /\ (forall w, write_source_description e c (Some uris) None links w = (printed text w, Ok tt))
    /\ forall fetch uri, fetch uri = Ok text ->
        (forall u, uris = [u] -> find_from_source_description fetch uri = let* u := urljoin uri u in find_from_capability_list fetch u)
        /\ (zlen uris <> 1 -> find_from_source_description fetch uri = Err ClientFatalError).
Proof. exact description_found. Qed.
Print Assumptions C90_capability_list_found.
Example C90_example :
  (options_give (args_pub (CapabilityListMode caps_text) (Some cl_file) None) (Some [$"md5"]) one_mapping [alternate]
   /\ fine_option_links (args_pub (CapabilityListMode caps_text) (Some cl_file) None) [alternate])
  /\ (parse_capabilities caps_text = Ok the_caps /\ fine_capabilities the_caps)
  /\ find_from_capability_list (fun _ => Ok caps_file) $"http://s.org/caps.xml" = Ok $"http://s.org/rl.xml"
  /\ (parse_capability_lists uris_text = [$"http://s.org/caps1.xml"; $"http://s.org/caps2.xml"]
      /\ fine_uris [$"http://s.org/caps1.xml"; $"http://s.org/caps2.xml"]).
Proof.
  exact (conj (conj (pub_options _ _ _) (pub_fine _ _ _)) (conj (conj caps_parsed caps_fine) (conj caps_found (conj uris_parsed uris_fine)))).
Qed.

(** C91: the links of documents are in the order of links_in_order: see also C86_script,
    C88_script, C90_capability_list and C90_source_description. *)
Theorem C91_link_order : forall a user links, parse_links (a_link a) = Ok user ->
  a_mode a <> CapabilityListMode [] -> a_mode a <> DescriptionMode [] ->
  build_links a = Ok links -> links = links_in_order a user.
Proof. exact link_order. Qed.
Print Assumptions C91_link_order.
Example C91_example :
  links_in_order (args_pub ResourceListMode (Some rl_file) None) [alternate]
  = [[($"rel", PStr $"describedby"); ($"href", PStr $"http://s.org/about")];
     [($"rel", PStr $"up"); ($"href", PStr $"http://s.org/caps.xml")];
     [($"rel", PStr $"alternate"); ($"href", PStr $"http://s.org/x"); ($"mime_type", PStr $"text/html")]]
  /\ links_in_order (args_pub (CapabilityListMode caps_text) (Some cl_file) None) [alternate]
  = [[($"rel", PStr $"describedby"); ($"href", PStr $"http://s.org/about")];
     [($"rel", PStr $"up"); ($"href", PStr $"http://s.org/sd.xml")];
     [($"rel", PStr $"alternate"); ($"href", PStr $"http://s.org/x"); ($"mime_type", PStr $"text/html")]].
Proof. exact (conj pub_order caps_order). Qed.

(** C92: without an output file the document that would be in the file is printed, and
    nothing but a line end.  This is true of the client ... *)
Theorem C92_resource_list : forall e c paths links w w', write_resource_list e c paths None links false w = (w', Ok tt) ->
  exists text, w' = printed text w
    /\ forall f v, write_resource_list e c paths (Some f) links false v = (with_fs (put_file f text (be_clock e f) (o_fs v)) v, Ok tt).
Proof. exact resource_list_printed. Qed.
Print Assumptions C92_resource_list.
Theorem C92_capability_list : forall e c caps links w w', write_capability_list e c caps None links w = (w', Ok tt) ->
  exists text, w' = printed text w
    /\ forall f v, write_capability_list e c caps (Some f) links v = (with_fs (put_file f text (be_clock e f) (o_fs v)) v, Ok tt).
Proof. exact capability_list_printed. Qed.
Print Assumptions C92_capability_list.
Theorem C92_source_description : forall e c uris links w w', write_source_description e c uris None links w = (w', Ok tt) ->
  exists text, w' = printed text w
    /\ forall f v, write_source_description e c uris (Some f) links v = (with_fs (put_file f text (be_clock e f) (o_fs v)) v, Ok tt).
Proof. exact description_printed. Qed.
Print Assumptions C92_source_description.
Theorem C92_change_list : forall e c paths ref newref empty links w w', bc_verbose c = false ->
  write_change_list e c paths None ref newref empty links None w = (w', Ok tt) ->
  exists text, w' = printed text w
    /\ forall f v, o_fs v = o_fs w ->
       write_change_list e c paths (Some f) ref newref empty links None v = (with_fs (put_file f text (be_clock e f) (o_fs v)) v, Ok tt).
Proof. exact change_list_printed. Qed.
Print Assumptions C92_change_list.
(** ... but false of change lists of the script: what it prints is never a document, *)
Theorem C92_changes_no_document : forall e a dump fs zips w', change_mode (a_mode a) = Some dump ->
  resync_build e a (MkWritten [] fs zips) = (w', Done) -> exists x, parse_text (o_out w') = Err x.
Proof. exact printed_changes_no_xml. Qed.
Print Assumptions C92_changes_no_document.
(** ... because a line follows, to a file or not, *)
Theorem C92_extra_line : forall e a dump w w', change_mode (a_mode a) = Some dump -> resync_build e a w = (w', Done) ->
  exists t, o_out w' = o_out w ++ t ++ oops dump ++ [nl].
Proof. exact build_oops. Qed.
Print Assumptions C92_extra_line.
(** ... even in the simplest case. *)
Theorem C92_refuted : (exists w', resync_build (pub_env before_tree) (args_empty None) pub_start = (w', Done)
    /\ exists t, o_out w' = t ++ oops false ++ [nl] /\ is_ok (parse_text t) = true)
  /\ exists w', resync_build (pub_env before_tree) (args_empty (Some cl_file)) pub_start = (w', Done) /\ xml_file cl_file w' = true.
Proof. exact (conj empty_printed empty_in_file). Qed.
Print Assumptions C92_refuted.
(** When the script succeeds with an output file there is a document in it. *)
Theorem C92_done : forall e a f w w', a_outfile a = Some f -> a_mode a <> ResourceDumpMode -> resync_build e a w = (w', Done) ->
  exists x rest, sget f (o_fs w') = Some x /\ f_data x = $"<?xml version='1.0' encoding='utf-8'?>" ++ [nl] ++ $"<" ++ rest.
Proof. exact written_there. Qed.
Print Assumptions C92_done.
(** If a URI is given twice nothing is written. *)
Theorem C92_dupes : forall e c uris outfile links w, ~ NoDup uris -> write_source_description e c (Some uris) outfile links w = (w, Err ResourceSetDupeError).
Proof. exact description_dupes. Qed.
Print Assumptions C92_dupes.
Theorem C92_capability_dupes : forall e c caps outfile links w, ~ NoDup (map snd caps) ->
  write_capability_list e c (Some caps) outfile links w = (w, Err ResourceSetDupeError).
Proof. exact capability_dupes. Qed.
Print Assumptions C92_capability_dupes.
Example C92_example_done : (exists w', resync_build (pub_env before_tree) (args_empty (Some cl_file)) pub_start = (w', Done))
  /\ a_outfile (args_empty (Some cl_file)) = Some cl_file /\ a_mode (args_empty (Some cl_file)) <> ResourceDumpMode
  /\ ~ NoDup [$"http://s.org/cl.xml"; $"http://s.org/sd.xml"; $"http://s.org/cl.xml"].
Proof.
  split; [destruct empty_in_file as (w' & H & _); exists w'; exact H|]. split; [reflexivity|]. split; [discriminate|].
  intros N. inversion N as [|x l NI _]. apply NI. right. left. reflexivity.
Qed.
Example C92_example : (exists w', write_capability_list (pub_env before_tree) pub_client (Some the_caps) None None pub_start = (w', Ok tt) /\ o_out w' <> [])
  /\ exists w', write_change_list (pub_env before_tree) pub_client None None None None true None None pub_start = (w', Ok tt) /\ o_out w' <> [].
Proof. exact printed_at_all. Qed.

(** C93: a dump is written to the file that is asked for.  This is false: the archives have
    other names, *)
Theorem C93_dump_names : forall e c paths f links w w' r, write_resource_list e c paths (Some f) links true w = (w', r) ->
  exists zs, o_zips w' = o_zips w ++ zs /\ Forall (fun x => named_after f (fst x)) zs.
Proof. exact resource_dump_names. Qed.
Print Assumptions C93_dump_names.
Theorem C93_other_name : forall b n, archive_name b n <> b.
Proof. exact archive_name_other. Qed.
Print Assumptions C93_other_name.
(** ... and a change dump is never written: in its place there is a change list. *)
Theorem C93_no_change_dump : forall e a w w' x, change_mode (a_mode a) = Some true -> resync_build e a w = (w', x) -> o_zips w' = o_zips w.
Proof. exact no_dump_of_changes. Qed.
Print Assumptions C93_no_change_dump.
Theorem C93_refuted :
  (exists w', resync_build (pub_env before_tree) (args ResourceDumpMode (Some $"/w/dump.zip") None) dump_start = (w', Done)
    /\ map fst (o_zips w') = [$"/w/dump.zip00000.zip"] /\ sget $"/w/dump.zip" (o_fs w') = None)
  /\ exists w', resync_build (pub_env after_tree) (args ChangeDumpMode (Some $"/w/cd.zip") (Some rl_file)) listed_before = (w', Done)
    /\ o_zips w' = [] /\ xml_file $"/w/cd.zip" w' = true.
Proof. exact (conj dump_elsewhere no_change_dump). Qed.
Print Assumptions C93_refuted.

(** C94: a change list from a resource list in several parts is the same as from one
    document.  With several parts allowed this is so (C87_script and C88_script); with
    --multifile it is false: the parts are taken for resources. *)
Theorem C94_refuted : exists w1 w2,
  resync_build (pub_env before_tree) (args_max ResourceListMode (Some $"/d/rl.xml") None false 2) pub_start = (w1, Done)
  /\ resync_build (pub_env before_tree) (args_max ChangeListMode (Some $"/d/cl.xml") (Some $"/d/rl.xml") true 10) w1 = (w2, Done)
  /\ changes_of w2 $"/d/cl.xml"
     = [($"http://s.org/r/rl00000.xml", Some $"deleted"); ($"http://s.org/r/rl00001.xml", Some $"deleted");
        ($"http://s.org/r/a", Some $"created"); ($"http://s.org/r/same", Some $"created"); ($"http://s.org/r/x/old", Some $"created")].
Proof. exact parts_taken_for_resources. Qed.
Print Assumptions C94_refuted.
Example C94_example : exists w2,
  resync_build (pub_env before_tree) (args_max ChangeListMode (Some $"/d/cl.xml") (Some $"/d/rl.xml") false 10) indexed = (w2, Done)
  /\ changes_of w2 $"/d/cl.xml" = [].
Proof. exact parts_followed. Qed.

(** C95: a list that is too long to be printed is refused as a fatal error and nothing
    is printed.  This is true of resource lists, *)
Theorem C95_resource_list : forall e c paths links w l max, limit c = Some max -> tree_ok (be_root e) -> scans_to e c paths false l ->
  0 < max < zlen (d_items (l_doc l)) ->
  write_resource_list e c paths None links false w = (w, Err ClientFatalError).
Proof. exact resource_list_too_long. Qed.
Print Assumptions C95_resource_list.
(** ... but change lists raise another exception, that the script does not handle. *)
Theorem C95_change_list : forall e c paths ref newref links dump w w1 changes max, limit c = Some max ->
  compute_changes e c paths ref newref dump w = (w1, Ok changes) -> 0 < max < zlen changes ->
  write_change_list e c paths None (Some ref) newref false links dump w = (w1, Err ListBaseIndexError).
Proof. exact change_list_too_long. Qed.
Print Assumptions C95_change_list.
Theorem C95_refuted : exists w1 w2,
  resync_build (pub_env bare_tree) (args ResourceListMode (Some rl_file) None) pub_start = (w1, Done)
  /\ resync_build (pub_env before_tree) (args_max ChangeListMode None (Some rl_file) false 2) w1 = (w2, Died ListBaseIndexError).
Proof. exact long_change_list. Qed.
Print Assumptions C95_refuted.
Example C95_example : resync_build (pub_env before_tree) (args_max ResourceListMode None None false 2) pub_start = (pub_start, FatalShown).
Proof. exact long_resource_list. Qed.

(** C96: whatever happens, no file but the one asked for and its parts is different, and
    without an output file none is, *)
Theorem C96_only_document : forall e a w w' x, is_dump (a_mode a) = false -> resync_build e a w = (w', x) ->
  only_document (a_outfile a) w w'.
Proof. exact build_frame. Qed.
Print Assumptions C96_only_document.
(** ... and nothing at all happens if the options are incomplete. *)
Theorem C96_usage : forall e a w w', resync_build e a w = (w', UsageError) -> w' = w.
Proof. exact usage_nothing. Qed.
Print Assumptions C96_usage.
Example C96_example : resync_build (pub_env before_tree) (args_pub ResourceListMode (Some rl_file) None) pub_start = (list_made, Done)
  /\ resync_build (pub_env before_tree) (args_pub ChangeListMode (Some cl_file) None) list_made = (list_made, UsageError).
Proof. exact (conj list_made_run usage_shown). Qed.

(** C97: the number of entries that is shown for a document is the number of its entries. *)
Theorem C97_resource_list : forall e c uri w l, bc_verbose c = false ->
  list_read resource_list_kind (open_uri (o_fs w) (be_web e)) true (new_list resource_list_kind $"resourcelist" true None) uri = Ok l ->
  exists cap, (cap = $"resourcelist" \/ cap = $"(unknown capability)")
    /\ parse_document e c uri w
       = (printed ($"Parsed " ++ cap ++ $" document with " ++ print_int (zlen (d_items (l_doc l))) ++ $" entries") w, Ok tt).
Proof. exact resource_list_counted. Qed.
Print Assumptions C97_resource_list.
Theorem C97_change_list : forall e c uri w l, bc_verbose c = false ->
  list_read change_list_kind (open_uri (o_fs w) (be_web e)) true (new_list change_list_kind $"changelist" true None) uri = Ok l ->
  parse_document e c uri w
  = (printed ($"Parsed changelist document with " ++ print_int (zlen (d_items (l_doc l))) ++ $" entries") w, Ok tt).
Proof. exact change_list_counted. Qed.
Print Assumptions C97_change_list.
(** What is shown of them is said to be sorted by URI.  This is false. *)
Theorem C97_refuted : parse_document (pub_env bare_tree) chatty $"/w/cl.xml" unsorted_start
  = (MkWritten ($"Parsed changelist document with 2 entries" ++ [nl] ++ $"Showing first 1 entries sorted by URI..." ++ [nl]
       ++ $"[0] [ http://s.org/b | 2001-01-01T00:00:00Z | None | None | created ]" ++ [nl]) (o_fs unsorted_start) [], Ok tt)
  /\ str_ltb $"http://s.org/a" $"http://s.org/b" = true.
Proof. exact (conj shown_unsorted eq_refl). Qed.
Print Assumptions C97_refuted.
Example C97_example : exists l,
  list_read change_list_kind (open_uri (o_fs unsorted_start) (be_web (pub_env bare_tree))) true (new_list change_list_kind $"changelist" true None) $"/w/cl.xml" = Ok l
  /\ zlen (d_items (l_doc l)) = 2
  /\ parse_document (pub_env bare_tree) quiet $"/w/cl.xml" unsorted_start
     = (printed $"Parsed changelist document with 2 entries" unsorted_start, Ok tt).
Proof. exact counted. Qed.

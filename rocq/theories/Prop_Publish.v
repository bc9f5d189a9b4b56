(** * Properties C86 to C89: documents made from the disk *)

From Verif Require Import Py Float64 W3C Mapper MapperSpec Resource ResourceSpec Container ContainerSpec Xml Sitemap SitemapSpec
  Opener ListIndex ListIndexSpec Hashes Disk DiskSpec DiskFacts OsPath Builder BuilderSpec Client ClientUtils ClientExamples
  StoredSpec Build PublishSpec PublishFacts PublishChanges PublishApply PublishEx BuildSpec BuildScript BuildChanges BuildEx BuildRuns.

(** C86: a resource list made from the disk and read by someone else lists exactly the files
    that are to be published, each with its URI, its length, its digests and its time. *)
Theorem C86_published : forall web e c paths links f w l,
  publishable e c paths -> fine_links links -> plain_path f -> scans_to e c paths false l -> room_for c f l ->
  exists fs' l2, write_resource_list e c paths (Some f) links false w = (with_fs fs' w, Ok tt)
    /\ list_read resource_list_kind (open_uri fs' web) false (reading c) f = Ok l2
    /\ (forall u file n, on_disk e c paths u file n ->
          exists r, sget u (d_items (l_doc l2)) = Some r /\ says e c false u file n r)
    /\ (forall u r, sget u (d_items (l_doc l2)) = Some r -> exists file n, on_disk e c paths u file n).
Proof. exact published_exactly. Qed.
Print Assumptions C86_published.

(** So does the script, from its options, with the links in their order. *)
Theorem C86_script : forall web e a hash ms user f w l, let c := build_client a hash ms in
  options_give a hash ms user -> fine_option_links a user -> a_mode a = ResourceListMode -> a_outfile a = Some f ->
  publishable e c (a_paths a) -> plain_path f -> scans_to e c (a_paths a) false l -> room_for c f l ->
  exists fs' l2, resync_build e a w = (with_fs fs' w, Done)
    /\ list_read resource_list_kind (open_uri fs' web) false (reading c) f = Ok l2
    /\ (forall u file n, on_disk e c (a_paths a) u file n ->
          exists r, sget u (d_items (l_doc l2)) = Some r /\ says e c false u file n r)
    /\ (forall u r, sget u (d_items (l_doc l2)) = Some r -> exists file n, on_disk e c (a_paths a) u file n)
    /\ (find_link $"index" (links_in_order a user) = None -> Forall2 (same_atts link_keys) (links_in_order a user) (d_ln (l_doc l2))).
Proof. exact script_resource_list. Qed.
Print Assumptions C86_script.

(** The scan succeeds when the mappings do not overlap, names are single lines, there is
    nothing but files, directories and links, and each destination is a directory or missing. *)
Theorem C86_scan_succeeds : forall e c path b at_ co, bc_mapper c <> [] ->
  scanner (bc_mapper c) (bc_hashes c) true path (bc_exclude c) = Ok b ->
  (forall h, In h (bc_hashes c) -> In h [$"md5"; $"sha-1"; $"sha-256"]) ->
  tree_ok (be_root e) -> mappings_apart (bc_mapper c) -> one_line_names (be_root e) -> bc_hashes c = [] \/ no_specials (be_root e) ->
  (forall k, In k (bc_mapper c) -> (exists es, lstat (be_cwd e) (be_root e) (dst_path k) = Ok (Dir es))
     \/ lstat (be_cwd e) (be_root e) (dst_path k) = Err IOError) ->
  datetime_to_str false (be_start e) = Ok at_ -> datetime_to_str false (be_end e) = Ok co ->
  exists l, scans_to e c None path l.
Proof. exact scan_possible. Qed.
Print Assumptions C86_scan_succeeds.

Example C86_example :
  (publishable (pub_env before_tree) pub_client None /\ fine_links (Some [up]) /\ plain_path rl_file
   /\ scans_to (pub_env before_tree) pub_client None false (listed_at before_tree false)
   /\ room_for pub_client rl_file (listed_at before_tree false))
  /\ (options_give (args_pub ResourceListMode (Some rl_file) None) (Some [$"md5"]) one_mapping [alternate]
      /\ fine_option_links (args_pub ResourceListMode (Some rl_file) None) [alternate])
  /\ read_from list_made rl_file
     = [($"http://s.org/r/a", Some 2, Some $"d1"); ($"http://s.org/r/same", Some 1, Some $"d1"); ($"http://s.org/r/x/old", Some 3, Some $"d1")].
Proof.
  exact (conj (conj before_publishable (conj up_fine (conj rl_plain (conj (before_scan false) before_room))))
    (conj (conj (pub_options _ _ _) (pub_fine _ _ _)) list_made_says)).
Qed.

(** C87: if nothing has changed on the disk since the resource list was written then the
    change list from it is empty. *)
Theorem C87_nothing : forall e e' c paths links links' f g w l l' dump,
  be_digests e = be_digests e' -> be_cwd e = be_cwd e' -> be_root e = be_root e' -> bc_multifile c = true -> bc_verbose c = false ->
  publishable e c paths -> publishable e' c paths -> fine_links links -> fine_links links' -> plain_path f -> plain_path g ->
  scans_to e c paths false l -> scans_to e' c paths (with_paths dump) l' -> room_for c f l ->
  exists w1 w2 d,
    write_resource_list e c paths (Some f) links false w = (w1, Ok tt)
    /\ write_change_list e' c paths (Some g) (Some f) None false links' dump w1 = (w2, Ok tt)
    /\ change_document (o_fs w2) g d
    /\ d_items d = [].
Proof. exact nothing_written. Qed.
Print Assumptions C87_nothing.
Theorem C87_script : forall e e' a a' hash ms user user' f g dump w l l', let c := build_client a hash ms in
  list_then_changes a a' f g dump -> options_give a hash ms user -> parse_links (a_link a') = Ok user' ->
  fine_option_links a user -> fine_option_links a' user' -> be_digests e = be_digests e' ->
  publishable e c (a_paths a) -> publishable e' c (a_paths a) -> plain_path f -> plain_path g ->
  scans_to e c (a_paths a) false l -> scans_to e' c (a_paths a) dump l' -> room_for c f l ->
  be_cwd e = be_cwd e' -> be_root e = be_root e' ->
  exists w1 w2 d, resync_build e a w = (w1, Done) /\ resync_build e' a' w1 = (w2, Done)
    /\ change_document (o_fs w2) g d /\ d_items d = [].
Proof. exact script_nothing. Qed.
Print Assumptions C87_script.
Example C87_example : exists w2,
  resync_build (pub_env before_tree) (args_pub ChangeListMode (Some cl_file) (Some rl_file)) list_made = (w2, Done)
  /\ changes_of w2 cl_file = [] /\ xml_file cl_file w2 = true.
Proof. exact no_changes_made. Qed.

(** C88: the change list from an earlier resource list, when it is read by someone else,
    has for each URI what has happened to its file, if that is clear, and no more. *)
Theorem C88_changes : forall e e' c paths links links' f g w l l' dump,
  be_digests e = be_digests e' -> bc_multifile c = true -> bc_verbose c = false ->
  publishable e c paths -> publishable e' c paths -> fine_links links -> fine_links links' -> plain_path f -> plain_path g ->
  scans_to e c paths false l -> scans_to e' c paths (with_paths dump) l' -> room_for c f l ->
  zlen (d_items (l_doc l)) + zlen (d_items (l_doc l')) <= at_most c ->
  exists w1 w2 d,
    write_resource_list e c paths (Some f) links false w = (w1, Ok tt)
    /\ write_change_list e' c paths (Some g) (Some f) None false links' dump w1 = (w2, Ok tt)
    /\ change_document (o_fs w2) g d
    /\ reports (be_digests e) (bc_hashes c) (with_paths dump) (on_disk e c paths) (on_disk e' c paths) (d_items d)
    /\ Forall (fun r => r_ts_datetime r = None) (d_items d)
    /\ Forall2 (same_atts link_keys) (match links' with Some ln => ln | None => [] end) (d_ln d).
Proof. exact changes_written. Qed.
Print Assumptions C88_changes.
Theorem C88_script : forall e e' a a' hash ms user user' f g dump w l l', let c := build_client a hash ms in
  list_then_changes a a' f g dump -> options_give a hash ms user -> parse_links (a_link a') = Ok user' ->
  fine_option_links a user -> fine_option_links a' user' -> be_digests e = be_digests e' ->
  publishable e c (a_paths a) -> publishable e' c (a_paths a) -> plain_path f -> plain_path g ->
  scans_to e c (a_paths a) false l -> scans_to e' c (a_paths a) dump l' -> room_for c f l ->
  zlen (d_items (l_doc l)) + zlen (d_items (l_doc l')) <= at_most c ->
  exists w1 w2 d, resync_build e a w = (w1, Done) /\ resync_build e' a' w1 = (w2, Done)
    /\ change_document (o_fs w2) g d
    /\ reports (be_digests e) (bc_hashes c) dump (on_disk e c (a_paths a)) (on_disk e' c (a_paths a)) (d_items d)
    /\ Forall2 (same_atts link_keys) (links_in_order a' user') (d_ln d).
Proof. exact script_changes. Qed.
Print Assumptions C88_script.
Example C88_example :
  list_then_changes (args_pub ResourceListMode (Some rl_file) None) (args_pub ChangeListMode (Some cl_file) (Some rl_file)) rl_file cl_file false
  /\ build_client (args_pub ResourceListMode (Some rl_file) None) (Some [$"md5"]) one_mapping = pub_client
  /\ (publishable (pub_env before_tree) pub_client None /\ publishable (pub_env after_tree) pub_client None)
  /\ (scans_to (pub_env before_tree) pub_client None false (listed_at before_tree false)
      /\ scans_to (pub_env after_tree) pub_client None false (listed_at after_tree false))
  /\ zlen (d_items (l_doc (listed_at before_tree false))) + zlen (d_items (l_doc (listed_at after_tree false))) <= at_most pub_client
  /\ exists w2, resync_build (pub_env after_tree) (args_pub ChangeListMode (Some cl_file) (Some rl_file)) list_made = (w2, Done)
     /\ changes_of w2 cl_file
        = [($"http://s.org/r/a", Some $"updated"); ($"http://s.org/r/x/old", Some $"deleted"); ($"http://s.org/r/new", Some $"created")].
Proof.
  exact (conj two_runs (conj (pub_client_is _ _ _) (conj (conj before_publishable after_publishable)
    (conj (conj (before_scan false) (after_scan false)) (conj both_few changes_made))))).
Qed.

(** C89: change lists that resync-build makes from the disk can be applied by clients of
    the same version.  This is false: no client can apply one that has an entry, because
    entries have no datetime. *)
Theorem C89_refuted : exists w1 w2 text,
  resync_build (pub_env before_tree) (args_pub ResourceListMode (Some rl_file) None) pub_start = (w1, Done)
  /\ resync_build (pub_env after_tree) (args_pub ChangeListMode (Some cl_file) (Some rl_file)) w1 = (w2, Done)
  /\ sget cl_file (o_fs w2) = Some text
  /\ forall E cl del uri from v v' r, c_spec_1_0 cl = false -> uri <> [] -> sitemap_uri cl uri = Ok uri ->
       e_fetch E uri = Ok (f_data text) ->
       incremental E cl del (Some uri) from v = (v', r) -> (exists x, r = Err x) /\ untouched v v'.
Proof. exact made_unusable. Qed.
Print Assumptions C89_refuted.
(** Whenever a file is new the change list is useless, though it does no harm. *)
Theorem C89_never : forall e e' a a' hash ms user user' f g dump w l l', let c := build_client a hash ms in
  list_then_changes a a' f g dump -> options_give a hash ms user -> parse_links (a_link a') = Ok user' ->
  fine_option_links a user -> fine_option_links a' user' -> be_digests e = be_digests e' ->
  publishable e c (a_paths a) -> publishable e' c (a_paths a) -> plain_path f -> plain_path g ->
  scans_to e c (a_paths a) false l -> scans_to e' c (a_paths a) dump l' -> room_for c f l ->
  forall u file n, zlen (d_items (l_doc l)) + zlen (d_items (l_doc l')) <= at_most c ->
  on_disk e' c (a_paths a) u file n -> none_of (on_disk e c (a_paths a)) u ->
  exists w1 w2 text, resync_build e a w = (w1, Done) /\ resync_build e' a' w1 = (w2, Done)
    /\ sget g (o_fs w2) = Some text
    /\ forall E cl del uri from v v' r, c_spec_1_0 cl = false -> uri <> [] -> sitemap_uri cl uri = Ok uri ->
         e_fetch E uri = Ok (f_data text) ->
         incremental E cl del (Some uri) from v = (v', r) -> (exists x, r = Err x) /\ untouched v v'.
Proof. exact script_unusable. Qed.
Print Assumptions C89_never.
Example C89_example : (exists file n, on_disk (pub_env after_tree) pub_client None $"http://s.org/r/new" file n)
  /\ none_of (on_disk (pub_env before_tree) pub_client None) $"http://s.org/r/new".
Proof. exact new_is_new. Qed.

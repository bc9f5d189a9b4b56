(** * Properties C62, C63, C83, C84, C85: the explorer *)

From Verif Require Import Py Float64 MapperSpec W3C Url UrlSpec Mapper Resource Xml Sitemap
  Explorer ExplorerSpec ExplorerFacts ExplorerNotes ExplorerEx.

(** C62: exploring is a stack of documents.  Following an entry puts its target on top, *)
Theorem C62_follow : forall e n x h l o t key r y rest,
  show_page e n x = (l, Ok (o, t)) -> sget key o = Some r -> follow t r = Ok y ->
  explore_from e n (x :: h) (key :: rest) = after (l ++ [prompt o h]) (explore_from e (S n) (y :: x :: h) rest).
Proof. intros e n x h l o t key r y rest P K F. exact (nav_follow e n x h l o t P key r y rest K F). Qed.
Print Assumptions C62_follow.
(** ... going back takes the top document away, whatever is below it, *)
Theorem C62_back : forall e n x h l o t rest,
  show_page e n x = (l, Ok (o, t)) ->
  explore_from e n (x :: h) ($"b" :: rest) = after (l ++ [prompt o h]) (explore_from e (S n) h rest).
Proof. intros e n x h l o t rest P. exact (nav_back e n x h l o t P rest). Qed.
Print Assumptions C62_back.
(** ... other input changes nothing but asks again, *)
Theorem C62_other_input : forall e n x h l o t inp rest,
  show_page e n x = (l, Ok (o, t)) -> sget inp o = None -> inp <> $"q" -> inp <> $"b" ->
  exists tail n' rest' r,
    explore_from e n (x :: h) rest = (l ++ tail, n', rest', r) /\
    explore_from e n (x :: h) (inp :: rest) = (l ++ prompt o h :: tail, n', rest', r).
Proof. intros e n x h l o t inp rest P. exact (nav_other e n x h l o t P inp rest). Qed.
Print Assumptions C62_other_input.
(** ... so following and going back returns to the document left, with the same documents
    below it, *)
Theorem C62_follow_back : forall e n x h l o t key r y l' o' t' rest,
  show_page e n x = (l, Ok (o, t)) -> sget key o = Some r -> follow t r = Ok y ->
  show_page e (S n) y = (l', Ok (o', t')) ->
  explore_from e n (x :: h) (key :: $"b" :: rest) =
  after (l ++ [prompt o h] ++ l' ++ [prompt o' (x :: h)]) (explore_from e (S (S n)) (x :: h) rest).
Proof. exact follow_back. Qed.
Print Assumptions C62_follow_back.
(** ... and so does any excursion, however deep. *)
Theorem C62_excursion : forall e n x ins n', excursion e n x ins n' -> forall h rest,
  exists l, explore_from e n (x :: h) (ins ++ rest) = after l (explore_from e n' (x :: h) rest).
Proof. exact excursion_returns. Qed.
Print Assumptions C62_excursion.
(** Quitting ends everything from any place that can be reached, *)
Theorem C62_quit : forall e n s starts ins n' x h l o t rest,
  reaches e n [s] ins n' (x :: h) -> show_page e n' x = (l, Ok (o, t)) ->
  exists ls, explore_all e n (s :: starts) (ins ++ $"q" :: rest) = (ls ++ [Bye], rest, Finished).
Proof. exact quit_anywhere. Qed.
Print Assumptions C62_quit.
(** ... going back from the starting document goes on with the next starting point, *)
Theorem C62_back_from_start : forall e n s starts ins n' rest,
  reaches e n [s] ins n' [] ->
  exists ls, explore_all e n (s :: starts) (ins ++ rest) =
  let '(l', rest', r) := explore_all e n' starts rest in (ls ++ l', rest', r).
Proof. exact back_out. Qed.
Print Assumptions C62_back_from_start.
(** ... and after the last one everything ends. *)
Theorem C62_no_more : forall e n inputs, explore_all e n [] inputs = ([Bye], inputs, Finished).
Proof. exact all_done. Qed.
Print Assumptions C62_no_more.
(** b and q are never entries of a menu. *)
Theorem C62_keys : forall e n x l o t,
  show_page e n x = (l, Ok (o, t)) -> sget $"b" o = None /\ sget $"q" o = None.
Proof. intros e n x l o t P. exact (conj (page_no_b e n x l o t P) (page_no_q e n x l o t P)). Qed.
Print Assumptions C62_keys.

(** What is shown of a document is what it says; one that cannot be read, or makes no sense,
    is said to be so and offers nothing, and exploring goes on. *)
Theorem C62_document : forall e n x text d index l o t, x_caps x <> ResourceItself -> xe_get e n (x_uri x) = Ok text ->
  parse_xml (MkSettings false false false) append_resource None None (MkDoc [] [] []) text = Ok (d, index) ->
  explore_show_summary d index (match x_caps x with OneOf w => Some w | _ => None end) (x_uri x) = (l, Ok (o, t)) ->
  show_page e n x = (Reading (x_uri x) :: l, Ok (o, Some t)).
Proof. exact read_page. Qed.
Print Assumptions C62_document.
Theorem C62_unreadable : forall e n x err, x_caps x <> ResourceItself -> xe_get e n (x_uri x) = Err err ->
  In err [IOError; SocketTimeout] ->
  show_page e n x = ([Reading (x_uri x); CannotRead (x_uri x)], Ok ([], None)).
Proof. exact unread. Qed.
Print Assumptions C62_unreadable.
Theorem C62_senseless : forall e n x text err, x_caps x <> ResourceItself -> xe_get e n (x_uri x) = Ok text ->
  parse_xml (MkSettings false false false) append_resource None None (MkDoc [] [] []) text = Err err ->
  ~ In err [IOError; SocketTimeout; OutOfModel] ->
  show_page e n x = ([Reading (x_uri x); CannotParse (x_uri x)], Ok ([], None)).
Proof. exact unparsed. Qed.
Print Assumptions C62_senseless.

(** From a capability list to a list, to a resource in it, back and back; then quit in the
    list, or back from the start. *)
Example C62_example :
  excursion ex_world 0 ex_start [$"1"; $"1"; $"b"; $"b"] 4 /\
  reaches ex_world 0 [ex_start] [$"1"] 1 [ex_list; ex_start] /\
  reaches ex_world 0 [ex_start] [$"1"; $"b"; $"b"] 3 [] /\
  xe_get ex_world 0 $"/s/none.xml" = Err IOError /\
  (let '(_, rest, r) := explore_all ex_world 0 [ex_start] [$"1"; $"7"; $"1"; $"b"; $"q"; $"x"] in (rest, r)) = ([$"x"], Finished).
Proof.
  split; [exact ex_excursion|]. split.
  { apply (goes_on _ _ _ _ _ _ _ _ _ _ _ _ _ (start_page 0) (proj1 (start_one 0)) (proj2 (start_one 0))). constructor. }
  split.
  { apply (goes_on _ _ _ _ _ _ _ _ _ _ _ _ _ (start_page 0) (proj1 (start_one 0)) (proj2 (start_one 0))).
    apply (goes_back _ _ _ _ _ _ _ _ _ _ (list_page 1)). apply (goes_back _ _ _ _ _ _ _ _ _ _ (start_page 2)). constructor. }
  split; [reflexivity|].
  vm_compute. reflexivity.
Qed.

(** C63: numbers 1 to n denote the first n entries in order, all of up to 21, else 20, *)
Theorem C63_numbers : forall d index expected context l o t k r,
  explore_show_summary d index expected context = (l, Ok (o, t)) ->
  (k < offered (List.length (d_items d)))%nat -> nth_error (d_items d) k = Some r ->
  exists r', sget (print_int (Z.of_nat (S k))) o = Some r' /\ entry_of context (allowed_entries t) r r'.
Proof. exact numbered. Qed.
Print Assumptions C63_numbers.
(** ... and are shown so, with how many are left out; *)
Theorem C63_shown : forall d index expected context l o t,
  explore_show_summary d index expected context = (l, Ok (o, t)) ->
  entries_shown l = numbered_uris 1 (firstn (offered (List.length (d_items d))) (d_items d)) /\
  left_out l = if (21 <? List.length (d_items d))%nat then [Z.of_nat (List.length (d_items d)) - 20] else [].
Proof. exact summary_lines. Qed.
Print Assumptions C63_shown.
(** ... d, u and i denote the describedby, up and index links; *)
Theorem C63_links : forall d index expected context l o t,
  explore_show_summary d index expected context = (l, Ok (o, t)) ->
  link_option context (d_ln d) $"describedby" (Some $"resource") (sget $"d" o) /\
  link_option context (d_ln d) $"up" None (sget $"u" o) /\
  link_option context (d_ln d) $"index" None (sget $"i" o).
Proof. exact summary_links. Qed.
Print Assumptions C63_links.
(** ... there is nothing else in a menu. *)
Theorem C63_only : forall d index expected context l o t key,
  explore_show_summary d index expected context = (l, Ok (o, t)) -> sget key o <> None ->
  In key [$"d"; $"u"; $"i"] \/
  exists k, (k < offered (List.length (d_items d)))%nat /\ key = print_int (Z.of_nat (S k)).
Proof. exact menu_keys. Qed.
Print Assumptions C63_only.
(** What is allowed in indexes, archives, descriptions, capability lists and the rest. *)
Theorem C63_allowed_index : forall x, x <> [] -> one_line x -> x <> $"capabilitylist" ->
  allowed_entries (x ++ $"index") = [x].
Proof. exact allowed_index. Qed.
Print Assumptions C63_allowed_index.
Theorem C63_allowed_archive : forall x, x <> [] -> one_line x -> allowed_entries (x ++ $"-archive") = [x].
Proof. exact allowed_archive. Qed.
Print Assumptions C63_allowed_archive.
Theorem C63_allowed_other : forall c, one_line c -> ~ ends_in $"index" c -> ~ ends_in $"-archive" c ->
  c <> $"description" -> c <> $"capabilitylist" -> allowed_entries c = [].
Proof. exact allowed_other. Qed.
Print Assumptions C63_allowed_other.
Theorem C63_allowed_named :
  allowed_entries $"description" = [$"capabilitylist"] /\
  allowed_entries $"capabilitylistindex" = [] /\
  forall c, In c (allowed_entries $"capabilitylist") <->
    In c [$"resourcelist"; $"resourcedump"; $"changelist"; $"changedump"; $"resourcelist-archive";
          $"resourcedump-archive"; $"changelist-archive"; $"changedump-archive"].
Proof. exact allowed_named. Qed.
Print Assumptions C63_allowed_named.

Example C63_example :
  offered 25 = 20%nat /\ offered 21 = 21%nat /\
  (exists l o, explore_show_summary many_doc false None $"http://s.org/r.xml" = (l, Ok (o, $"resourcelist")) /\
     left_out l = [5] /\ (exists r, sget $"20" o = Some r /\ r_uri r = $"http://s.org/19") /\ sget $"21" o = None) /\
  allowed_entries $"changelistindex" = [$"changelist"].
Proof.
  split; [reflexivity|]. split; [reflexivity|]. split; [|vm_compute; reflexivity].
  eexists. eexists. split; [vm_compute; reflexivity|]. split; [vm_compute; reflexivity|].
  split; [eexists; split; vm_compute; reflexivity|vm_compute; reflexivity].
Qed.

(** C83: where exploring starts.  At the document named, and nowhere else; *)
Theorem C83_named : forall e s m, start_points e (Some s) m = Ok [MkX s AnyDocument None].
Proof. exact start_sitemap. Qed.
Print Assumptions C83_named.
(** ... else, for a source on a server, at its URI, unless that has no path, and at the
    server's well-known URI, where capability lists are expected; *)
Theorem C83_server : forall e m u, default_src_uri m = Ok (url_text u) -> wf_url u -> q_host u <> [] ->
  start_points e None m =
  Ok ((match q_path u with [] => [] | _ => [MkX (url_text u) AnyDocument None] end)
      ++ [MkX (well_known_uri (lower (q_scheme u)) (q_host u)) (OneOf [$"capabilitylist"; $"capabilitylistindex"]) None]).
Proof. exact start_server. Qed.
Print Assumptions C83_server.
(** ... for a local file, there; *)
Theorem C83_file : forall e m p, default_src_uri m = Ok p -> absolute_path p -> xe_isdir e p = false ->
  start_points e None m = Ok [MkX p AnyDocument None].
Proof. exact start_file. Qed.
Print Assumptions C83_file.
(** ... for a local directory, at those of the likely files that are there; if there are
    none, that is an error, *)
Theorem C83_directory : forall e m p,
  default_src_uri m = Ok p -> absolute_path p -> endswith $"/" p = false -> xe_isdir e p = true ->
  start_points e None m =
  match filter (is_file e) (map (fun name => p ++ $"/" ++ name) likely_files) with
  | [] => Err ClientFatalError
  | files => Ok (map (fun f => MkX f AnyDocument None) files)
  end.
Proof. exact start_directory. Qed.
Print Assumptions C83_directory.
(** ... as it is to name neither a document nor a source. *)
Theorem C83_nothing : forall e, start_points e None [] = Err ClientFatalError.
Proof. exact start_none. Qed.
Print Assumptions C83_nothing.

Example C83_example :
  start_points ex_world None [MkMap $"/s" $"/d"] =
    Ok [MkX $"/s/resourcesync" AnyDocument None; MkX $"/s/resourcelist.xml" AnyDocument None] /\
  start_points ex_world None [MkMap $"http://s.org/r" $"/d"] =
    Ok [MkX $"http://s.org/r" AnyDocument None;
        MkX $"http://s.org/.well-known/resourcesync" (OneOf [$"capabilitylist"; $"capabilitylistindex"]) None] /\
  absolute_path $"/s" /\ (exists u, wf_url u /\ url_text u = $"http://s.org/r" /\ q_host u <> []).
Proof.
  split; [vm_compute; reflexivity|]. split; [vm_compute; reflexivity|]. split; [exact slash_s|exact s_org_r].
Qed.

(** C84: the headers of a resource followed should be shown and checked against what was
    listed about it.  For a resource at a URI, none are, *)
Theorem C84_refuted : exists e n t r x l o,
  follow t r = Ok x /\ x_caps x = ResourceItself /\ r_length r = Some 6 /\
  xe_head e n (x_uri x) = Ok tt /\ show_page e n x = (l, Ok o) /\
  l = [Reading (x_uri x); Head (x_uri x); CannotParse (x_uri x)].
Proof. exact remote_unchecked. Qed.
Print Assumptions C84_refuted.
(** ... whatever the answer to the request; *)
Theorem C84_never_at_uris : forall e n uri checks l r, looks_like_uri uri ->
  show_page e n (MkX uri ResourceItself checks) = (l, r) ->
  statuses l = [] /\ headers_shown l = [] /\
  (xe_head e n uri = Ok tt -> l = [Reading uri; Head uri; CannotParse uri] /\ r = Ok ([], None)).
Proof. exact uri_head. Qed.
Print Assumptions C84_never_at_uris.
(** ... for a local file they are: its size and time of modification, each with whether it
    is what was listed, if anything was. *)
Theorem C84_files_partial : forall e n t r x mtime size time lastmod,
  follow t r = Ok x -> x_caps x = ResourceItself -> ~ looks_like_uri (r_uri r) ->
  xe_file e (r_uri r) = Some (mtime, size) -> datetime_to_str false mtime = Ok time ->
  get_dt (r_timestamp r) = Ok lastmod ->
  exists c1 c2,
    show_page e n x =
      ([Reading (r_uri r); Head (r_uri r); HeadStatus $"200"; HeadLine $"content-length" (HInt size) c1;
        HeadLine $"last-modified" (HStr time) c2], Ok ([], None)) /\
    compared (HInt size) (option_map HInt (r_length r)) c1 /\
    compared (HStr time) (option_map HStr lastmod) c2.
Proof. exact followed_file. Qed.
Print Assumptions C84_files_partial.
Theorem C84_no_file : forall e n file checks, ~ looks_like_uri file -> xe_file e file = None ->
  show_page e n (MkX file ResourceItself checks) = ([Reading file; Head file; HeadStatus $"404"], Ok ([], None)).
Proof. exact no_file_head. Qed.
Print Assumptions C84_no_file.

(** A file listed with 5 bytes that has 7. *)
Example C84_example :
  follow (Some $"resourcelist") r2 = Ok ex_resource /\ ~ looks_like_uri (r_uri r2) /\
  show_page ex_world 2 ex_resource =
    ([Reading $"/s/a.txt"; Head $"/s/a.txt"; HeadStatus $"200"; HeadLine $"content-length" (HInt 7) (Expected (HInt 5));
      HeadLine $"last-modified" (HStr $"2020-01-01T00:00:00Z") Matches], Ok ([], None)).
Proof.
  split; [vm_compute; reflexivity|]. split.
  { intros U. apply uri_look in U. apply U. vm_compute. reflexivity. }
  vm_compute. reflexivity.
Qed.

(** C85: a document is said to be unexpected if its type is not one of those expected, and
    to be unknown if ResourceSync does not define its type.  Indexes of descriptions
    and manifests are defined, and said to be unknown, *)
Theorem C85_refuted : exists d l o t,
  explore_show_summary d true None $"http://s.org/d.xml" = (l, Ok (o, t)) /\
  In t defined_types /\ In (UnknownType t) l.
Proof. exact description_index_unknown. Qed.
Print Assumptions C85_refuted.
(** ... and no others. *)
Theorem C85_types_partial : forall d index expected context l o t,
  explore_show_summary d index expected context = (l, Ok (o, t)) ->
  (forall w, In (NotExpected w) l <-> expected = Some w /\ ~ In t w) /\
  (forall w, In (UnknownType w) l <->
     w = t /\ (~ In t defined_types \/ In t overlooked_types) /\ t <> $"descriptionoindex").
Proof. exact type_warnings. Qed.
Print Assumptions C85_types_partial.
(** Of each entry that is shown, the capability is shown, with what is allowed if it is not
    among that, or what it should be if it says none and only one is allowed. *)
Theorem C85_entries : forall d index expected context l o t,
  explore_show_summary d index expected context = (l, Ok (o, t)) ->
  exists ns, notes l = List.concat ns
    /\ Forall2 (note (allowed_entries t)) (firstn (offered (List.length (d_items d))) (d_items d)) ns.
Proof. exact summary_notes. Qed.
Print Assumptions C85_entries.
(** What is expected of the target of an entry: the resource itself for entries of lists and
    dumps that say nothing else; the type the entry says, if it says one; else what
    the type of the document allows. *)
Theorem C85_expected : forall t r x, follow (Some t) r = Ok x ->
  (x_caps x = ResourceItself <->
   r_capability r = Some $"resource" \/
   (r_capability r = None /\ In t [$"resourcelist"; $"changelist"; $"resourcedump"; $"changedump"])) /\
  (forall l, x_caps x = OneOf l ->
   (r_capability r = None /\ l = allowed_entries t) \/ (exists c, r_capability r = Some c /\ l = [c])).
Proof. exact follow_expects. Qed.
Print Assumptions C85_expected.

Example C85_example :
  (exists l o, explore_show_summary many_doc false (Some [$"changelist"]) $"http://s.org/r.xml" = (l, Ok (o, $"resourcelist")) /\
     In (NotExpected [$"changelist"]) l) /\
  (follow (Some $"capabilitylist") r1 = Ok ex_list /\ x_caps ex_list = OneOf [$"resourcelist"]) /\
  notes (page_of 0 ex_start) = [EntryIs $"resourcelist" None].
Proof.
  split; [|split; [split; vm_compute; reflexivity|vm_compute; reflexivity]].
  eexists. eexists. split; [vm_compute; reflexivity|]. right. left. reflexivity.
Qed.

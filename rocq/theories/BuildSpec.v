(** * BuildSpec: what the properties of capability lists and source descriptions mean *)

From Verif Require Import Py Mapper Resource ResourceSpec Container ContainerSpec Capability Xml Sitemap SitemapSpec Url Opener
  ListIndex ListIndexSpec Dump DumpSpec Client ClientUtils StoredSpec Build PublishSpec.

(** Capabilities that can be listed: texts, none of them and no URI given twice. *)
Definition fine_capabilities (caps : list (str * str)) : Prop :=
  NoDup (map fst caps) /\ NoDup (map snd caps)
  /\ Forall (fun nu => legal (fst nu) /\ snd nu <> [] /\ uri_text (snd nu)) caps.
Definition fine_uris (uris : list str) : Prop := NoDup uris /\ Forall (fun u => u <> [] /\ uri_text u) uris.

(** A document lists these URIs with these capabilities, and no others. *)
Definition lists_capabilities (caps : list (str * str)) (d : rdict) : Prop :=
  (forall name u, In (name, u) caps -> exists r, sget u d = Some r /\ r_uri r = u /\ r_capability r = Some name)
  /\ (forall u r, sget u d = Some r -> exists name, In (name, u) caps).

Definition the_links (links : option (list link)) : list link := match links with Some ln => ln | None => [] end.

(** No file but [b] and the parts that are named after it is any different. *)
Definition only_files_of (b : str) (fs fs' : fsys) : Prop :=
  forall p, p <> b -> (forall n, 0 <= n -> p <> part_name b n) -> sget p fs' = sget p fs.
(** Nor is anything printed or dumped. *)
Definition only_document (outfile : option str) (w w' : written) : Prop :=
  match outfile with
  | Some b => only_files_of b (o_fs w) (o_fs w')
  | None => o_fs w' = o_fs w
  end /\ o_zips w' = o_zips w.

(** The modes in which nothing but one document should be written. *)
Definition is_dump (m : mode) : bool := match m with ResourceDumpMode => true | _ => false end.

(** The document is in the file that was asked for, or printed. *)
Definition put_document (e : benv) (outfile : option str) (text : str) (w : written) : written :=
  match outfile with
  | Some f => with_fs (put_file f text (be_clock e f) (o_fs w)) w
  | None => printed text w
  end.

(** The options give these hash types, mappings and links: attributes are those of a link
    that have text as values. *)
Definition options_give (a : build_args) (hash : option (list str)) (ms : mapper) (user : list (list (str * str))) : Prop :=
  snd (process_options (MkOptions (a_hash a) (a_checksum a) None None) false config0) = Ok hash
  /\ match a_map a with [] => ms = [] | maps => make_mapper maps true = Ok ms end
  /\ parse_links (a_link a) = Ok user.
Definition fine_option_link (l : list (str * str)) : Prop :=
  NoDup (map fst l) /\ In $"rel" (map fst l) /\ In $"href" (map fst l)
  /\ forall k v, In (k, v) l -> In k [$"rel"; $"href"; $"hash"; $"modified"; $"path"; $"mime_type"] /\ legal v.
Definition fine_href (o : option str) : Prop := forall u, o = Some u -> legal u.
Definition fine_option_links (a : build_args) (user : list (list (str * str))) : Prop :=
  Forall fine_option_link user /\ fine_href (a_describedby a) /\ fine_href (a_sourcedescription a) /\ fine_href (a_capabilitylist a).

(** The links in their order: a description of the document first, then the document
    above it, which is a source description for a capability list and a capability
    list for the others but a source description, then those that were given. *)
Definition role (rel : str) (href : option str) : list (list (str * str)) :=
  match href with Some (x :: u) => [[($"rel", rel); ($"href", x :: u)]] | _ => [] end.
Definition links_in_order (a : build_args) (user : list (list (str * str))) : list link :=
  map (map (fun kv => (fst kv, PStr (snd kv))))
   (role $"describedby" (a_describedby a)
    ++ match a_mode a with
       | CapabilityListMode _ => role $"up" (a_sourcedescription a)
       | DescriptionMode _ => []
       | _ => role $"up" (a_capabilitylist a)
       end
    ++ user).

(** The line after a change list, and what the names of archives are. *)
Definition change_mode (m : mode) : option bool :=
  match m with ChangeListMode => Some false | ChangeDumpMode => Some true | _ => None end.
Definition oops (dump : bool) : str :=
  $"OOPS - FIXME - Wrinting dump to " ++ (if dump then $"True" else $"False") ++ $" not yet implemented".
Definition named_after (b : str) (name : str) : Prop := exists n, 0 <= n /\ name = archive_name b n.

(** Two runs of the script: one writes a resource list to the file [f], the other,
    with the same options for what is published, a change list from [f] to [g]. *)
Definition list_then_changes (a a' : build_args) (f g : str) (dump : bool) : Prop :=
  (a_mode a = ResourceListMode /\ a_outfile a = Some f)
  /\ (change_mode (a_mode a') = Some dump /\ a_outfile a' = Some g /\ a_reference a' = Some f /\ f <> []
      /\ given (a_newreference a') = None /\ a_empty a' = false)
  /\ (a_paths a' = a_paths a /\ a_map a' = a_map a /\ a_hash a' = a_hash a /\ a_checksum a' = a_checksum a
      /\ a_exclude a' = a_exclude a /\ a_max a' = a_max a /\ a_warc a' = a_warc a)
  /\ (a_no_multifile a = false /\ a_no_multifile a' = false /\ a_verbose a = false /\ a_verbose a' = false).

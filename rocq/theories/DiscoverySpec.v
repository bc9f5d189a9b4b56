(** * DiscoverySpec: where the client looks for the source's resource list *)

From Verif Require Import Py Url UrlSpec Mapper Resource Container Capability Xml Sitemap ListIndex Client.

(** The names in a path: not empty, no dots, and without the characters that have a
    meaning in URIs. *)
Definition path_part (s : str) : Prop :=
  s <> [] /\ s <> $"." /\ s <> $".." /\ avoids $"/?#;" s /\ no_breaks s.
Definition slashed (parts : list str) : str := List.concat (map (fun p => $"/" ++ p) parts).

(** A source on the web: the first mapping is from scheme://host/dir1/dir2... *)
Definition web_root (scheme host : str) : str := scheme ++ $"://" ++ host.
Definition web_source (scheme host : str) (dirs : list str) : Prop :=
  (scheme = $"http" \/ scheme = $"https") /\ host <> [] /\ avoids $"/?#[]" host /\ no_breaks host /\ Forall path_part dirs.

(** Nothing was said of where the list is, but for the mappings. *)
Definition unspecified (c : client) (src : str) : Prop :=
  c_sitemap_name c = None /\ c_capability_list c = None /\ default_src_uri (c_mapper c) = Ok src
  /\ path_part (c_resource_list_name c) /\ ~ In ":"%char (c_resource_list_name c).

(** The two ways to use a location: as that of a description of the source that leads
    to a capability list and on to a resource list, or as that of a resource list. *)
Inductive candidate : Type := Description (uri : str) | ResourceList (uri : str).
Definition attempt (fetch : str -> res str) (c : client) (p : candidate) : res rdict :=
  match p with
  | Description u => let* rl := find_from_source_description fetch u in read_resource_list fetch c rl
  | ResourceList u => read_resource_list fetch c u
  end.

(** There is nothing to be read at the location. *)
Definition unreadable (fetch : str -> res str) (p : candidate) : Prop :=
  exists e, fetch (match p with Description u | ResourceList u => u end) = Err e /\ e <> OutOfModel.

(** The first candidate that is not merely unreadable decides. *)
Definition decided_by_first (fetch : str -> res str) (c : client) (ps : list candidate) (x : res rdict) : Prop :=
  (exists before p after, ps = before ++ p :: after /\ Forall (fun q => attempt fetch c q = Err ClientError) before
     /\ attempt fetch c p <> Err ClientError /\ x = attempt fetch c p)
  \/ (Forall (fun q => attempt fetch c q = Err ClientError) ps /\ x = Err ClientFatalError).

(** The documented candidates for the source at [base] on the host [root]. *)
Definition documented (base root : str) : list candidate :=
  [Description (base ++ $"/.well-known/resourcesync"); Description (root ++ $"/.well-known/resourcesync");
   ResourceList (base ++ $"/resourcelist.xml"); ResourceList (base ++ $"/sitemap.xml"); ResourceList (root ++ $"/sitemap.xml")].

(** What reading the list at [uri] consults: the document there and, if it is an index,
    the components it names, at the places mapped for local indexes. *)
Definition consulted (fetch : str -> res str) (c : client) (uri u : str) : Prop :=
  u = uri \/ exists text d v, fetch uri = Ok text
    /\ parse_xml plain_settings (fun r => rl_add r false) (Some $"resourcelist") None (MkDoc [] [] []) text = Ok (d, true)
    /\ In v (map fst (d_items d)) /\ (u = v \/ src_to_dst (c_mapper c) v = Ok u).

(** A local source: a relative directory. *)
Definition local_dir (first : str) (dirs : list str) : str := first ++ slashed dirs.
Definition local_source (first : str) (dirs : list str) : Prop :=
  Forall path_part (first :: dirs) /\ ~ In ":"%char (local_dir first dirs)
  /\ exists a s, first = a :: s /\ (32 < code a)%N.
Definition local_candidates (base : str) : list candidate :=
  [Description (base ++ $"/.well-known/resourcesync"); Description $".well-known/resourcesync";
   ResourceList (base ++ $"/resourcelist.xml"); ResourceList (base ++ $"/sitemap.xml"); ResourceList $"sitemap.xml"].

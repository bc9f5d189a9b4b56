(** * Prop_Discovery: how the source's resource list is found *)

From Verif Require Import Py Url UrlSpec Mapper Resource Container Capability Xml Sitemap ListIndex Client ClientExamples
  DiscoverySpec DiscoveryFacts DiscoveryEx.

(** C66: of the documented candidates the first that is not unreadable decides, *)
Theorem C66_order : forall fetch c scheme host dirs, web_source scheme host dirs -> unspecified c (web_root scheme host ++ slashed dirs) ->
  decided_by_first fetch c (documented (web_root scheme host ++ slashed dirs) (web_root scheme host)) (find_resource_list fetch c).
Proof. exact discovery_web. Qed.
Print Assumptions C66_order.
(** so the first readable resource list is taken if there is nothing before it, *)
Theorem C66_first : forall fetch c scheme host dirs before u after d, web_source scheme host dirs -> unspecified c (web_root scheme host ++ slashed dirs) ->
  documented (web_root scheme host ++ slashed dirs) (web_root scheme host) = before ++ ResourceList u :: after ->
  Forall (unreadable fetch) before -> read_resource_list fetch c u = Ok d -> find_resource_list fetch c = Ok d.
Proof. exact web_first. Qed.
Print Assumptions C66_first.
(** and it is a fatal error if there is nothing at all. *)
Theorem C66_none : forall fetch c scheme host dirs, web_source scheme host dirs -> unspecified c (web_root scheme host ++ slashed dirs) ->
  Forall (unreadable fetch) (documented (web_root scheme host ++ slashed dirs) (web_root scheme host)) -> find_resource_list fetch c = Err ClientFatalError.
Proof. exact web_none. Qed.
Print Assumptions C66_none.
(** If a sitemap is given, the result depends on nothing but that document and the
    components it names. *)
Theorem C66_sitemap : forall fetch fetch' c s, c_sitemap_name c = Some s -> (forall u, consulted fetch c s u -> fetch' u = fetch u) ->
  find_resource_list fetch' c = find_resource_list fetch c.
Proof. exact explicit_sitemap. Qed.
Print Assumptions C66_sitemap.
(** If a capability list is given, on nothing but that and the list it leads to. *)
Theorem C66_capability : forall fetch fetch' c s, c_sitemap_name c = None -> c_capability_list c = Some s -> fetch' s = fetch s ->
  (forall rl u, find_from_capability_list fetch s = Ok rl -> consulted fetch c rl u -> fetch' u = fetch u) ->
  find_resource_list fetch' c = find_resource_list fetch c.
Proof. exact explicit_capability. Qed.
Print Assumptions C66_capability.

Example C66_example : web_source $"http" $"s.org" [$"r"; $"x"] /\ unspecified (seeker $"http://s.org/r/x") (web_root $"http" $"s.org" ++ slashed [$"r"; $"x"])
  /\ keys (find_resource_list (fetch_from host_docs) (seeker $"http://s.org/r/x")) = [$"http://s.org/r/x/a"]
  /\ keys (find_resource_list (fetch_from described_docs) (seeker $"http://s.org/r/x")) = [$"http://s.org/r/x/b"].
Proof. split; [exact example_source|]. split; [exact example_unspecified|]. split; vm_compute; reflexivity. Qed.

(** C67: the candidates for a local source are said to be under its directory.  A list
    there is not found if the path is absolute, *)
Theorem C67_refuted : exists fetch c dir, unspecified c dir /\ startswith $"/" dir = true
  /\ (exists d, read_resource_list fetch c (dir ++ $"/resourcelist.xml") = Ok d /\ d <> [])
  /\ find_resource_list fetch c = Err ClientFatalError.
Proof. exact local_lost. Qed.
Print Assumptions C67_refuted.
(** and that of another directory is taken if the path starts with certain letters. *)
Theorem C67_other_refuted : exists fetch c dir u other, unspecified c dir
  /\ (forall d, read_resource_list fetch c (dir ++ $"/resourcelist.xml") = Ok d -> ~ In u (map fst d))
  /\ fetch (dir ++ $"/resourcelist.xml") <> Err IOError
  /\ find_resource_list fetch c = Ok other /\ In u (map fst other).
Proof. exact local_other. Qed.
Print Assumptions C67_other_refuted.
(** For relative paths that start with other characters the candidates are those under
    the directory and two in the current directory. *)
Theorem C67_kept : forall fetch c first dirs, local_source first dirs -> (exists a s, first = a :: s /\ ~ In a $"file:/") -> unspecified c (local_dir first dirs) ->
  decided_by_first fetch c (local_candidates (local_dir first dirs)) (find_resource_list fetch c).
Proof. exact discovery_local. Qed.
Print Assumptions C67_kept.

Example C67_example : keys (find_resource_list (fetch_from [($"data/src/sitemap.xml", one_entry $"data/src/a")]) (seeker $"data/src")) = [$"data/src/a"].
Proof. vm_compute. reflexivity. Qed.

(** * C129: lists that are added as objects can be found *)

From Verif Require Import Py Resource Container ContainerSpec Capability Client Listing ListingSpec ListingFacts.

(** A list with a URI, added to a source description: a last entry with its URI, its capability
    and its describedby link, or refused because the URI is there. *)
Theorem C129_object : forall g u h d, g_uri g = Some u -> description_of g h ->
  (In u (map fst d) /\ add_capability_list (AnObject g) d = Err ResourceSetDupeError)
  \/ ~ In u (map fst d) /\ exists r, leads_to u (g_name g) h r /\ add_capability_list (AnObject g) d = Ok (d ++ [(u, r)]).
Proof. exact object_added. Qed.
Print Assumptions C129_object.

Theorem C129_uri : forall u d,
  (In u (map fst d) /\ add_capability_list (AUri u) d = Err ResourceSetDupeError)
  \/ ~ In u (map fst d) /\ exists r, leads_to u $"capabilitylist" None r /\ add_capability_list (AUri u) d = Ok (d ++ [(u, r)]).
Proof. exact uri_added. Qed.
Print Assumptions C129_uri.

(** A list added to a capability list: its own URI goes before the one given. *)
Theorem C129_capability : forall g uri name u d, (g_uri g = Some u \/ g_uri g = None /\ uri = Some u) ->
  (In u (map fst d) /\ add_capability (Some g) uri name d = Err ResourceSetDupeError)
  \/ ~ In u (map fst d) /\ exists r, leads_to u (g_name g) None r /\ add_capability (Some g) uri name d = Ok (d ++ [(u, r)]).
Proof. exact capability_added. Qed.
Print Assumptions C129_capability.

Theorem C129_name : forall name u d,
  (In u (map fst d) /\ add_capability None (Some u) (Some name) d = Err ResourceSetDupeError)
  \/ ~ In u (map fst d) /\ exists r, leads_to u name None r /\ add_capability None (Some u) (Some name) d = Ok (d ++ [(u, r)]).
Proof. exact name_added. Qed.
Print Assumptions C129_name.

(** Without a URI there is nothing to lead to. *)
Theorem C129_no_uri : (forall g d, g_uri g = None -> add_capability_list (AnObject g) d = Err ValueError)
  /\ (forall d, add_capability_list NotGiven d = Err ValueError)
  /\ (forall g name d, g_uri g = None -> add_capability (Some g) None name d = Err ValueError).
Proof. exact (conj no_uri_list (conj no_list no_uri_capability)). Qed.
Print Assumptions C129_no_uri.

(** In a capability list made of lists, looking up a capability gives the first, by URI, of the
    lists with that capability that were added. *)
Theorem C129_found : forall xs d name r, add_each (fun x => add_capability (Some x) None None) xs [] = Ok d ->
  capability_info (Some name) d = Some r <->
  (exists x, In x xs /\ g_name x = name /\ g_uri x = Some (r_uri r) /\ leads_to (r_uri r) name None r
     /\ forall y v, In y xs -> g_name y = name -> g_uri y = Some v -> v = r_uri r \/ str_ltb (r_uri r) v = true).
Proof. exact found. Qed.
Print Assumptions C129_found.

Definition some_capability_list : listing := MkListing (Some $"http://a/caps.xml") $"capabilitylist"
  [[($"rel", PStr $"up"); ($"href", PStr $"http://a/up")]; [($"rel", PStr $"describedby"); ($"href", PStr $"http://a/about")]].
Definition read_entries (x : res rdict) : res (list (str * option str * res (option pv))) :=
  let* d := x in Ok (map (fun e => (fst e, r_capability (snd e), link_href $"describedby" (snd e))) d).
Definition three_lists : list listing :=
  [MkListing (Some $"http://a/r2") $"resourcelist" []; MkListing (Some $"http://a/c") $"changelist" [];
   MkListing (Some $"http://a/r1") $"resourcelist" []].
Example C129_example :
  description_of some_capability_list (Some $"http://a/about") /\
  read_entries (add_each add_capability_list [AUri $"http://a/other.xml"; AnObject some_capability_list] [])
    = Ok [($"http://a/other.xml", Some $"capabilitylist", Ok None);
          ($"http://a/caps.xml", Some $"capabilitylist", Ok (Some (PStr $"http://a/about")))] /\
  (let* d := add_each (fun x => add_capability (Some x) None None) three_lists [] in
   Ok (option_map r_uri (capability_info (Some $"resourcelist") d))) = Ok (Some $"http://a/r1").
Proof.
  split; [|split; vm_compute; reflexivity].
  exists [[($"rel", PStr $"up"); ($"href", PStr $"http://a/up")]], [($"rel", PStr $"describedby"); ($"href", PStr $"http://a/about")], [].
  repeat split. intros x [<-|[]]. vm_compute. discriminate.
Qed.

(** * Listing: adding lists, as objects, to capability lists and source descriptions *)

From Verif Require Import Py Resource Container Capability ListIndex Client.

(** A list as add_capability and add_capability_list see it: the attributes uri,
    capability_name and ln of resource_container.py:57-65. *)
Record listing : Type := MkListing { g_uri : option str; g_name : str; g_ln : list link }.

(** Resource(uri, capability), as called in capability_list.py:115 and
    source_description.py:74-80. *)
Definition entry_args (uri name : option str) : rargs :=
  MkArgs uri None None None None None None None None None None name None None None None None None None None None None.

(** The property describedby of a container, resource_container.py:120-132,153-156. *)
Definition described_by (g : listing) : res (option pv) :=
  match find_link $"describedby" (g_ln g) with
  | None => Ok None
  | Some l => match sget $"href" l with Some v => Ok (Some v) | None => Err KeyError end
  end.

(** CapabilityList.add_capability(capability, uri, name), capability_list.py:101-115;
    CapabilitySet.add is ResourceSet.add. *)
Definition add_capability (capability : option listing) (uri name : option str) (d : rdict) : res rdict :=
  let name := match capability with Some g => Some (g_name g) | None => name end in
  let uri := match capability with
             | Some g => match g_uri g with Some u => Some u | None => uri end
             | None => uri
             end in
  let* r := make_resource None (entry_args uri name) in
  rs_add r d.

(** The argument of add_capability_list: an object with an attribute uri, a string,
    or nothing. *)
Inductive list_arg : Type := AnObject (g : listing) | AUri (u : str) | NotGiven.

(** SourceDescription.add_capability_list(capability_list), source_description.py:65-81.
    Simplification: a describedby link whose href is a number is not modelled. *)
Definition add_capability_list (x : list_arg) (d : rdict) : res rdict :=
  let* r :=
    match x with
    | AnObject g =>
        let* r := make_resource None (entry_args (g_uri g) (Some (g_name g))) in
        let* h := described_by g in
        match h with
        | Some (PStr h) => link_set $"describedby" h false [] r
        | Some PNone | None => Ok r
        | Some (PInt _) => Err OutOfModel
        end
    | AUri u => make_resource None (entry_args (Some u) (Some $"capabilitylist"))
    | NotGiven => make_resource None (entry_args None (Some $"capabilitylist"))
    end in
  rs_add r d.

(** Several calls one after the other. *)
Fixpoint add_each {X} (add : X -> rdict -> res rdict) (xs : list X) (d : rdict) : res rdict :=
  match xs with [] => Ok d | x :: xs' => let* d := add x d in add_each add xs' d end.

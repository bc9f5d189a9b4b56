(** * Specification: the entry for a list *)

From Verif Require Import Py Resource Container Listing.

(** The entry with URI and capability, and a link to the description if there is one. *)
Definition leads_to (u name : str) (description : option str) (r : resource) : Prop :=
  r = MkR u None None None None None None None None None
        (match description with Some h => Some [[($"rel", PStr $"describedby"); ($"href", PStr h)]] | None => None end)
        (Some name) None None None None.

(** The href of the first describedby link of the list. *)
Definition description_of (g : listing) (h : option str) : Prop :=
  match h with
  | Some h => exists l1 l l2, g_ln g = l1 ++ l :: l2 /\ (forall x, In x l1 -> sget $"rel" x <> Some (PStr $"describedby"))
      /\ sget $"rel" l = Some (PStr $"describedby") /\ sget $"href" l = Some (PStr h)
  | None => forall x, In x (g_ln g) -> sget $"rel" x <> Some (PStr $"describedby")
  end.

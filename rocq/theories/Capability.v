(** * Capability: model of CapabilitySet, capability_list.py, and of
    add_capability_list, source_description.py *)

From Verif Require Import Py Float64 W3C Resource Container.

(** self.order, capability_list.py:26-29. *)
Definition cs_order : list str :=
  [ $"resourcelist"; $"resourcedump"; $"changelist"; $"changedump";
    $"resourcelist-archive"; $"resourcedump-archive";
    $"changelist-archive"; $"changedump-archive" ].

(** Resource.capability (resource.py: capability property) of an entry. *)
Notation cap_eqb := (opt_eqb str_eqb).

(** The index from capability to URIs, capability_list.py:39-45: a dictionary, so
    capabilities stay in the order in which they were first met. *)
Definition cs_index_step (idx : list (option str * list str)) (e : str * resource) :=
  let cap := r_capability (snd e) in
  dset cap_eqb cap (match dget cap_eqb cap idx with Some us => us | None => [] end ++ [fst e]) idx.
Definition cs_index (d : rdict) : list (option str * list str) := fold_left cs_index_step d [].

(** The loop over the known capabilities, capability_list.py:46-51. *)
Fixpoint cs_known (order : list str) (idx : list (option str * list str)) (acc : list str)
  : list str * list (option str * list str) :=
  match order with
  | [] => (acc, idx)
  | cap :: order' =>
      match dget cap_eqb (Some cap) idx with
      | Some us => cs_known order' (ddel cap_eqb (Some cap) idx) (acc ++ sort_strs us)
      | None => cs_known order' idx acc
      end
  end.

(** The loop over what is left, capability_list.py:52-56. *)
Definition cs_rest (idx : list (option str * list str)) : list str :=
  flat_map (fun p => sort_strs (snd p)) idx.

(** A complete iteration, capability_list.py:31-64. *)
Definition cs_iter (d : rdict) : list resource :=
  let '(known, left_over) := cs_known cs_order (cs_index d) [] in
  lookups (known ++ cs_rest left_over) d.

(** capability_info(name), capability_list.py:121-129. *)
Definition capability_info (name : option str) (d : rdict) : option resource :=
  find (fun r => cap_eqb (r_capability r) name) (cs_iter d).
(** has_capability(name), capability_list.py:117-119. *)
Definition has_capability (name : option str) (d : rdict) : bool :=
  match capability_info name d with Some _ => true | None => false end.

(** * Container: models of resource_container.py, resource_list.py,
    resource_set.py and change_list.py (data manipulation, not I/O) *)

From Verif Require Import Py Float64 W3C Resource.

(** ** ResourceListDict and ResourceListOrdered, resource_list.py:48-96.
    A dictionary from URI to resource.  Simplification: resources are values, so
    changing the uri of a resource after adding it is not modelled. *)
Notation rdict := (list (str * resource)).

(** add(resource, replace), resource_list.py:65-71 and 90-96 (also
    resource_set.py:30-36, which raises ResourceSetDupeError instead). *)
Definition rl_add (r : resource) (replace : bool) (d : rdict) : res rdict :=
  if smem (r_uri r) d && negb replace then Err ResourceListDupeError
  else Ok (sset (r_uri r) r d).

(** ResourceList.add of an iterable, resource_list.py:159-169: stops at the first
    exception, keeping what was added before. *)
Fixpoint rl_add_all (rs : list resource) (replace : bool) (d : rdict) : rdict * option exn :=
  match rs with
  | [] => (d, None)
  | r :: rs' =>
      match rl_add r replace d with
      | Ok d' => rl_add_all rs' replace d'
      | Err e => (d, Some e)
      end
  end.

(** A sequence of add calls, each caught by the caller if it raises. *)
Inductive rl_op : Type :=
| AddOne (r : resource) (replace : bool)
| AddMany (rs : list resource) (replace : bool).
Definition rl_step (d : rdict) (o : rl_op) : rdict :=
  match o with
  | AddOne r replace => match rl_add r replace d with Ok d' => d' | Err _ => d end
  | AddMany rs replace => fst (rl_add_all rs replace d)
  end.
Definition rl_run (ops : list rl_op) : rdict := fold_left rl_step ops [].

(** Lookup of the keys in a list. *)
Fixpoint lookups (ks : list str) (d : rdict) : list resource :=
  match ks with
  | [] => []
  | k :: ks' => match sget k d with Some r => r :: lookups ks' d | None => lookups ks' d end
  end.

(** Complete iteration over a ResourceListDict (resource_list.py:36-45,57-59) or a
    ResourceSet (resource_set.py:18-28): keys in ascending order. *)
Definition rl_iter (d : rdict) : list resource := lookups (sort_strs (dkeys d)) d.
(** Iteration over a ResourceListOrdered, resource_list.py:82-84. *)
Definition rlo_iter (d : rdict) : list resource := map snd d.
(** uris(), resource_list.py:61-63. *)
Definition rl_uris (d : rdict) : list str := sort_strs (dkeys d).

(** ** Iterators and compare, resource_list.py:36-45,171-213.

    The list of keys still to come is stored on the dictionary object itself
    (self._sorted_iter_next_list), so two iterators over one object share it.
    [pend o] is that list for object [o], next key first (Python keeps it
    reversed and pops from the end). *)

Definition pending := nat -> list str.
Definition pend_set (o : nat) (l : list str) (p : pending) : pending :=
  fun o' => if Nat.eqb o' o then l else p o'.
Definition pend_none : pending := fun _ => [].

(** sorted_iter(), resource_list.py:36-39. *)
Definition start_iter (o : nat) (d : rdict) (p : pending) : pending :=
  pend_set o (sort_strs (dkeys d)) p.
(** next(iter, None), resource_list.py:41-45. *)
Definition next_iter (o : nat) (d : rdict) (p : pending) : option resource * pending :=
  match p o with
  | [] => (None, p)
  | k :: ks => (sget k d, pend_set o ks p)
  end.

Record cmp_result : Type := MkCmp
  { same : rdict; updated : rdict; deleted : rdict; created : rdict }.
Definition cmp_empty : cmp_result := MkCmp [] [] [] [].

Definition add_same r c : res cmp_result :=
  let* l := rl_add r false (same c) in Ok (MkCmp l (updated c) (deleted c) (created c)).
Definition add_updated r c : res cmp_result :=
  let* l := rl_add r false (updated c) in Ok (MkCmp (same c) l (deleted c) (created c)).
Definition add_deleted r c : res cmp_result :=
  let* l := rl_add r false (deleted c) in Ok (MkCmp (same c) (updated c) l (created c)).
Definition add_created r c : res cmp_result :=
  let* l := rl_add r false (created c) in Ok (MkCmp (same c) (updated c) (deleted c) l).

(** The loops of compare.  [fuel] bounds the number of iterations; [compare]
    supplies more than enough (C13 and C14 show the result is never the
    out-of-fuel error).  [od]/[os] are the identities of the two dictionaries. *)
Fixpoint cmp_loop (fuel : nat) (od os : nat) (dd ds : rdict)
    (p : pending) (dcur scur : option resource) (c : cmp_result) : res cmp_result :=
  match dcur, scur with
  | None, None => Ok c
  | _, _ =>
  match fuel with
  | O => Err OutOfModel
  | S f =>
      match dcur, scur with
      | Some d, Some s =>
          if str_eqb (r_uri d) (r_uri s) then
            let* c := if r_eqb d s then add_same d c else add_updated s c in
            let '(dcur, p) := next_iter od dd p in
            let '(scur, p) := next_iter os ds p in
            cmp_loop f od os dd ds p dcur scur c
          else if str_ltb (r_uri d) (r_uri s) then
            let* c := add_deleted d c in
            let '(dcur, p) := next_iter od dd p in
            cmp_loop f od os dd ds p dcur scur c
          else
            let* c := add_created s c in
            let '(scur, p) := next_iter os ds p in
            cmp_loop f od os dd ds p dcur scur c
      | Some d, None =>
          let* c := add_deleted d c in
          let '(dcur, p) := next_iter od dd p in
          cmp_loop f od os dd ds p dcur scur c
      | None, Some s =>
          let* c := add_created s c in
          let '(scur, p) := next_iter os ds p in
          cmp_loop f od os dd ds p dcur scur c
      | None, None => Ok c
      end
  end
  end.

(** dst.compare(src): [od], [os] identify the two resource dictionaries (equal
    when a list is compared with itself). *)
Definition compare (od os : nat) (dst src : rdict) : res cmp_result :=
  let p := start_iter od dst pend_none in
  let p := start_iter os src p in
  let '(dcur, p) := next_iter od dst p in
  let '(scur, p) := next_iter os src p in
  cmp_loop (S (List.length dst + List.length src)) od os dst src p dcur scur cmp_empty.

(** hashes(), resource_list.py:215-226: which digest types occur. *)
Definition rl_hashes (d : rdict) : list str :=
  let has f := existsb (fun r => match f r with Some _ => true | None => false end) (rl_iter d) in
  (if has r_md5 then [$"md5"] else []) ++ (if has r_sha1 then [$"sha-1"] else [])
  ++ (if has r_sha256 then [$"sha-256"] else []).

(** ** prune_dupes, resource_container.py:211-240 *)

(** First loop, over the reversed list: entries kept (in the order appended),
    URIs seen, the deletes dictionary, the count. *)
Fixpoint prune1 (rs : list resource) (pruned : list resource) (seen : list str)
    (deletes : list (str * option str)) (n : Z) : list resource * list (str * option str) * Z :=
  match rs with
  | [] => (pruned, deletes, n)
  | r :: rs' =>
      if in_strs (r_uri r) seen then
        prune1 rs' pruned seen
          (if smem (r_uri r) deletes then sset (r_uri r) (r_change r) deletes else deletes) (n + 1)
      else
        prune1 rs' (pruned ++ [r]) (r_uri r :: seen)
          (if opt_eqb str_eqb (r_change r) (Some $"deleted")
           then sset (r_uri r) (r_change r) deletes else deletes) n
  end.

(** Second loop: drop entries of URIs that were first created and last deleted. *)
Fixpoint prune2 (rs : list resource) (deletes : list (str * option str)) (n : Z)
    : list resource * Z :=
  match rs with
  | [] => ([], n)
  | r :: rs' =>
      match sget (r_uri r) deletes with
      | Some c =>
          if opt_eqb str_eqb c (Some $"created") then prune2 rs' deletes (n + 1)
          else let '(l, m) := prune2 rs' deletes n in (r :: l, m)
      | None => let '(l, m) := prune2 rs' deletes n in (r :: l, m)
      end
  end.

(** New contents of the list and the number returned. *)
Definition prune_dupes (rs : list resource) : list resource * Z :=
  let '(pruned1, deletes, n) := prune1 (rev rs) [] [] [] 0 in
  prune2 (rev pruned1) deletes n.

(** ** ChangeList, change_list.py *)

(** add_if_changed / add of one resource, change_list.py:38-55. *)
Definition cl_add (r : resource) (l : list resource) : res (list resource) :=
  match r_change r with Some _ => Ok (l ++ [r]) | None => Err ChangeTypeError end.

(** add of an iterable. *)
Fixpoint cl_add_all (rs : list resource) (l : list resource) : list resource * option exn :=
  match rs with
  | [] => (l, None)
  | r :: rs' => match cl_add r l with Ok l' => cl_add_all rs' l' | Err e => (l, Some e) end
  end.

Definition change_args (c : option str) : rargs :=
  MkArgs None None None None None None None c None None None None None None None None
         None None None None None None.

(** add_changed_resources(resources, change), change_list.py:57-65. *)
Fixpoint cl_add_changed (rs : list resource) (change : option str) (l : list resource)
    : list resource * option exn :=
  match rs with
  | [] => (l, None)
  | r :: rs' =>
      match (let* rc := make_resource (Some r) (change_args change) in cl_add rc l) with
      | Ok l' => cl_add_changed rs' change l'
      | Err e => (l, Some e)
      end
  end.

(** prune_updates_before(timestamp, spec_version), change_list.py:67-86.
    [use_timestamp] is spec_version == '1.0'. *)
Fixpoint prune_before_loop (use_timestamp : bool) (t : Z) (rs : list resource)
    : res (list resource * Z) :=
  match rs with
  | [] => Ok ([], 0)
  | r :: rs' =>
      match (if use_timestamp then r_timestamp r else r_ts_datetime r) with
      | None => Err PlainException
      | Some ts =>
          let* (kept, n) := prune_before_loop use_timestamp t rs' in
          if t <=? ts then Ok (r :: kept, n) else Ok (kept, n + 1)
      end
  end.

(** List after the call and its result or exception. *)
Definition prune_updates_before (use_timestamp : bool) (t : Z) (rs : list resource)
    : list resource * res Z :=
  match prune_before_loop use_timestamp t rs with
  | Ok (kept, n) => (kept, Ok n)
  | Err e => (rs, Err e)
  end.

(** ** The change list between two resource lists, as built in client.py:
    write_change_list (client.py:708-712): old.compare(new), then the updated, deleted
    and created resources are added, in that order. *)
Definition change_list_between (od os : nat) (old new : rdict) : res (list resource) :=
  let* c := compare od os old new in
  let '(l, e) := cl_add_changed (rl_iter (updated c)) (Some $"updated") [] in
  match e with Some x => Err x | None =>
  let '(l, e) := cl_add_changed (rl_iter (deleted c)) (Some $"deleted") l in
  match e with Some x => Err x | None =>
  let '(l, e) := cl_add_changed (rl_iter (created c)) (Some $"created") l in
  match e with Some x => Err x | None => Ok l end end end.

(** A history of calls on a ChangeList, each caught by the caller if it raises. *)
Inductive cl_op : Type :=
| ClAdd (r : resource)
| ClAddMany (rs : list resource)
| ClAddChanged (rs : list resource) (change : option str)
| ClPruneDupes
| ClPruneBefore (use_timestamp : bool) (t : Z).
Definition cl_step (l : list resource) (o : cl_op) : list resource :=
  match o with
  | ClAdd r => match cl_add r l with Ok l' => l' | Err _ => l end
  | ClAddMany rs => fst (cl_add_all rs l)
  | ClAddChanged rs change => fst (cl_add_changed rs change l)
  | ClPruneDupes => fst (prune_dupes l)
  | ClPruneBefore b t => fst (prune_updates_before b t l)
  end.
Definition cl_run (ops : list cl_op) : list resource := fold_left cl_step ops [].

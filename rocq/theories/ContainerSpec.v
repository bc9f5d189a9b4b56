(** * ContainerSpec: what the properties of resource and change lists mean *)

From Verif Require Import Py Float64 W3C Resource ResourceSpec Container.
From Coq Require Import Sorting.Sorted Permutation.

(** A map from URI to resource, as a function. *)
Definition rmap := str -> option resource.
Definition m_empty : rmap := fun _ => None.
Definition m_put (u : str) (r : resource) (m : rmap) : rmap :=
  fun x => if str_eqb x u then Some r else m x.
Definition m_del (u : str) (m : rmap) : rmap :=
  fun x => if str_eqb x u then None else m x.

(** What add means on maps: refused if present and replacement not asked for. *)
Definition spec_add_ok (r : resource) (replace : bool) (m : rmap) : bool :=
  replace || match m (r_uri r) with Some _ => false | None => true end.
Fixpoint spec_add_all (rs : list resource) (replace : bool) (m : rmap) : rmap :=
  match rs with
  | [] => m
  | r :: rs' =>
      if spec_add_ok r replace m then spec_add_all rs' replace (m_put (r_uri r) r m) else m
  end.
Definition spec_step (m : rmap) (o : rl_op) : rmap :=
  match o with
  | AddOne r replace => spec_add_all [r] replace m
  | AddMany rs replace => spec_add_all rs replace m
  end.

(** A well formed resource dictionary: keys distinct, each the URI of its resource. *)
Definition wf_rl (d : rdict) : Prop :=
  NoDup (map fst d) /\ forall u r, In (u, r) d -> r_uri r = u.

(** Strictly before in URI order. *)
Definition uri_before (a b : resource) : Prop := str_ltb (r_uri a) (r_uri b) = true.

(** The four parts of a comparison, for each URI. *)
Definition spec_same (dst src : rmap) : rmap := fun u =>
  match dst u, src u with
  | Some d, Some s => if r_eqb d s then Some d else None
  | _, _ => None
  end.
Definition spec_updated (dst src : rmap) : rmap := fun u =>
  match dst u, src u with
  | Some d, Some s => if r_eqb d s then None else Some s
  | _, _ => None
  end.
Definition spec_deleted (dst src : rmap) : rmap := fun u =>
  match dst u, src u with Some d, None => Some d | _, _ => None end.
Definition spec_created (dst src : rmap) : rmap := fun u =>
  match dst u, src u with None, Some s => Some s | _, _ => None end.

Definition map_of (d : rdict) : rmap := fun u => sget u d.

(** Effect of one change entry, and of a change list, on a map. *)
Definition apply_change (m : rmap) (r : resource) : rmap :=
  if opt_eqb str_eqb (r_change r) (Some $"deleted") then m_del (r_uri r) m
  else m_put (r_uri r) r m.
Definition replay (changes : list resource) (m : rmap) : rmap := fold_left apply_change changes m.

(** Entries for one URI. *)
Definition entries_for (u : str) (rs : list resource) : list resource :=
  filter (fun r => str_eqb (r_uri r) u) rs.
Definition first_entry (u : str) (rs : list resource) : option resource :=
  hd_error (entries_for u rs).
Definition last_entry (u : str) (rs : list resource) : option resource :=
  hd_error (rev (entries_for u rs)).

(** First created and finally deleted within the list. *)
Definition came_and_went (u : str) (rs : list resource) : Prop :=
  exists f l, first_entry u rs = Some f /\ last_entry u rs = Some l /\
              r_change f = Some $"created" /\ r_change l = Some $"deleted".

(** [subseq a b]: [a] is obtained from [b] by deleting elements. *)
Inductive subseq {A} : list A -> list A -> Prop :=
| sub_nil : subseq [] []
| sub_skip x a b : subseq a b -> subseq a (x :: b)
| sub_keep x a b : subseq a b -> subseq (x :: a) (x :: b).

(** The time of a change entry. *)
Definition change_time (use_timestamp : bool) (r : resource) : option Z :=
  if use_timestamp then r_timestamp r else r_ts_datetime r.

(** The resources of [rs] up to the first one without a change. *)
Fixpoint changed_prefix (rs : list resource) : list resource :=
  match rs with
  | r :: rs' => match r_change r with Some _ => r :: changed_prefix rs' | None => [] end
  | [] => []
  end.

(** * CapabilitySpec: the order in which a capability list is iterated *)

From Verif Require Import Py Float64 W3C Resource Container ContainerSpec.

(** ResourceSync specification section 7 and archives specification section 6. *)
Definition canonical : list str :=
  [ $"resourcelist"; $"resourcedump"; $"changelist"; $"changedump";
    $"resourcelist-archive"; $"resourcedump-archive";
    $"changelist-archive"; $"changedump-archive" ].

(** Position of the first element satisfying [p]; the length if there is none. *)
Fixpoint first_pos {A} (p : A -> bool) (l : list A) : nat :=
  match l with [] => O | x :: l' => if p x then O else S (first_pos p l') end.

Definition has_cap (c : option str) (e : str * resource) : bool :=
  opt_eqb str_eqb (r_capability (snd e)) c.
Definition rank (r : resource) : nat :=
  first_pos (fun c => opt_eqb str_eqb (r_capability r) (Some c)) canonical.
(** When the capability of [r] was first added to the set. *)
Definition cap_age (d : rdict) (r : resource) : nat :=
  first_pos (has_cap (r_capability r)) d.

(** Order of iteration: by canonical position, unknown capabilities last; then by
    the time the capability was first added; then by URI. *)
Definition cap_before (d : rdict) (a b : resource) : Prop :=
  (rank a < rank b)%nat \/
  (rank a = rank b /\
   ((cap_age d a < cap_age d b)%nat \/ (cap_age d a = cap_age d b /\ uri_before a b))).

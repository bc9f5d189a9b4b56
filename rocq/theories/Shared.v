(** * Shared: resources as objects whose lists of links may be shared

    Resource.v takes resources for values.  In Python the attribute ln of a
    resource is a reference to a list object, the copy constructor copies the
    reference (resource.py:97-100), and link_set changes the list in place
    (resource.py:358-375).  Here the lists live in a store, so that it can be told
    what the sharing leads to.  Simplifications: a list handed to a constructor or
    assigned to ln is a new one each time; the dictionaries for the links belong to
    one list. *)

From Verif Require Import Py Resource.

(** A Resource object: its attributes but ln, and where its list of links is. *)
Record object : Type := MkObj { o_res : resource; o_ln : option nat }.
Record store : Type := MkStore { lists : list (list link); objs : list object }.

(** What can be read from the object. *)
Definition view (m : list (list link)) (o : object) : resource :=
  set_ln (match o_ln o with Some a => nth_error m a | None => None end) (o_res o).
Definition seen (st : store) : list resource := map (view (lists st)) (objs st).

Fixpoint upd {A} (n : nat) (x : A) (l : list A) : list A :=
  match l, n with
  | [], _ => []
  | _ :: l', O => x :: l'
  | y :: l', S n' => y :: upd n' x l'
  end.

(** A session: constructor calls, resource.py:62-149, the resource to copy from
    being given by its number, and operations on the objects. *)
Inductive event : Type :=
| New (src : option nat) (a : rargs)
| Do (i : nat) (o : rop).

Definition is_given {A} (x : option A) : bool := match x with Some _ => true | None => false end.

(** The list with the links is a new one if it is given, resource.py:133-134, or if
    there was none, resource.py:361-363, and the one there was otherwise. *)
Definition place (new : bool) (ln : option (list link)) (old : option nat) (m : list (list link))
    : list (list link) * option nat :=
  match ln with
  | None => (m, None)
  | Some l =>
      match old, new with
      | Some a, false => (upd a l m, Some a)
      | _, _ => (m ++ [l], Some (List.length m))
      end
  end.

(** An assignment to ln, or a copy with ln given, that goes through. *)
Definition new_list (o : rop) (raised : option exn) : bool :=
  match raised with
  | Some _ => false
  | None => match o with OpLn _ => true | OpCopy a => is_given (a_ln a) | _ => false end
  end.

(** One event; a constructor that raises an exception makes no object. *)
Definition step (st : store) (e : event) : store :=
  match e with
  | New None a =>
      match make_resource None a with
      | Err _ => st
      | Ok r => let '(m, p) := place true (r_ln r) None (lists st) in
                MkStore m (objs st ++ [MkObj (set_ln None r) p])
      end
  | New (Some i) a =>
      match nth_error (objs st) i with
      | None => st
      | Some o =>
          match make_resource (Some (view (lists st) o)) a with
          | Err _ => st
          | Ok r => let '(m, p) := place (is_given (a_ln a)) (r_ln r) (o_ln o) (lists st) in
                    MkStore m (objs st ++ [MkObj (set_ln None r) p])
          end
      end
  | Do i op =>
      match nth_error (objs st) i with
      | None => st
      | Some o =>
          let '(r, raised) := apply_op op (view (lists st) o) in
          let '(m, p) := place (new_list op raised) (r_ln r) (o_ln o) (lists st) in
          MkStore m (upd i (MkObj (set_ln None r) p) (objs st))
      end
  end.

Definition run (es : list event) (st : store) : store := fold_left step es st.
Definition nothing : store := MkStore [] [].

(** * Specification for sessions with several resources: resources as values *)

From Verif Require Import Py Resource Shared.

(** The same session if every resource had links of its own. *)
Definition own_step (rs : list resource) (e : event) : list resource :=
  match e with
  | New None a => match make_resource None a with Ok r => rs ++ [r] | Err _ => rs end
  | New (Some i) a =>
      match nth_error rs i with
      | Some s => match make_resource (Some s) a with Ok r => rs ++ [r] | Err _ => rs end
      | None => rs
      end
  | Do i op => match nth_error rs i with Some r => upd i (fst (apply_op op r)) rs | None => rs end
  end.
Definition own_run (es : list event) (rs : list resource) : list resource := fold_left own_step es rs.

(** Only resources without links are copied, or links are given for the copy. *)
Fixpoint careful (rs : list resource) (es : list event) : Prop :=
  match es with
  | [] => True
  | e :: es' =>
      match e with
      | New (Some i) a => a_ln a <> None \/ forall r, nth_error rs i = Some r -> r_ln r = None
      | _ => True
      end /\ careful (own_step rs e) es'
  end.

(** The event is about that object. *)
Definition about (i : nat) (e : event) : Prop := match e with Do n _ => n = i | New _ _ => False end.

(** The event gives that object a new list of links. *)
Definition gives_links (i : nat) (e : event) : Prop :=
  about i e /\ match e with Do _ (OpLn _) => True | Do _ (OpCopy a) => a_ln a <> None | _ => False end.

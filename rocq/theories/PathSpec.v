(** * PathSpec: paths made of ordinary names *)

From Verif Require Import Py.

(** An ordinary file name. *)
Definition file_name (c : str) : Prop := c <> [] /\ c <> $"." /\ c <> $".." /\ ~ In "/"%char c.
(** The relative path through these names, and the absolute one. *)
Definition rel_path (names : list str) : str := join $"/" names.
Definition path_of (names : list str) : str := $"/" ++ rel_path names.
Definition local_path (abs : bool) (names : list str) : str := if abs then path_of names else rel_path names.

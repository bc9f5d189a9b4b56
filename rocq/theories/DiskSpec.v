(** * DiskSpec: what the properties of directory trees mean *)

From Verif Require Import Py PathSpec OsPath Disk.

(** A tree as a system would have it: in every directory the names are ordinary and
    distinct. *)
Definition tree_ok (root : node) : Prop :=
  forall names es, lookup names root = Some (Dir es) -> NoDup (map fst es) /\ Forall file_name (map fst es).

(** The path of what is at [rel] below the directory with path [top]. *)
Definition below (top : str) (rel : list str) : str :=
  (if endswith $"/" top then top else top ++ $"/") ++ rel_path rel.

(** What is at [q], if it is not a directory; whether a directory is there. *)
Definition leaf_at (root : node) (q : list str) : option node :=
  match lookup q root with Some (Dir _) => None | x => x end.
Definition dir_at (root : node) (q : list str) : Prop := exists es, lookup q root = Some (Dir es).
Definition is_leaf (n : node) : Prop := match n with Dir _ => False | _ => True end.

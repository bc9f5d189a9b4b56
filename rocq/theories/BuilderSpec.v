(** * BuilderSpec: what a scan of the disk should list *)

From Verif Require Import Py Regex PathSpec OsPath Mapper MapperSpec Resource Container Hashes Disk DiskSpec Builder.

(** A name that one of the patterns matches, from its first character on. *)
Definition excluded_by (pats : list str) (name : str) : Prop :=
  exists pat r g, In pat pats /\ compile pat = Ok r /\ re_match r name = Some g.

(** A regular or special file: no directory and no symbolic link. *)
Definition is_file (n : node) : Prop := (exists d m, n = File d m) \/ (exists m, n = Special m).
Definition mtime_of (n : node) : option Z :=
  match n with File _ m | Special m => Some m | _ => None end.
Definition data_of (n : node) : str := match n with File d _ => d | _ => [] end.

(** [n] is to be found by the scan that starts at [start]: at [rel] below that
    directory, where neither its name nor that of a directory in between is
    excluded, or at [start] itself (then [rel] is empty). *)
Definition found_at (pats : list str) (cwd : list str) (root : node) (start : str) (rel : list str)
    (file : str) (n : node) : Prop :=
  is_file n /\
  match rel with
  | [] => lstat cwd root start = Ok n /\ file = start /\ ~ excluded_by pats start
  | _ => exists es, lstat cwd root start = Ok (Dir es) /\ lookup rel (Dir es) = Some n
         /\ file = below start rel /\ Forall (fun c => ~ excluded_by pats c) rel
  end.

(** What is to be said of a file: its URI, modification time, path, length and
    digests, the last three if asked for, and nothing else. *)
Definition described (D : digests) (hashes : list str) (len path : bool) (u file : str) (n : node) : resource :=
  let digest (name : str) (f : str -> str) := if in_strs name hashes then Some (f (data_of n)) else None in
  MkR u (mtime_of n) (if len then Some (Z.of_nat (List.length (data_of n))) else None) None
    (digest $"md5" (of_md5 D)) (digest $"sha-1" (of_sha1 D)) (digest $"sha-256" (of_sha256 D))
    None None (if path then Some file else None) None None None None None None.

(** The starting points: those given, or the destinations of the mappings. *)
Definition start_points (ms : mapper) (paths : option (list str)) : list str :=
  match paths with Some ps => ps | None => map dst_path ms end.

(** A builder with a mapper, options and patterns. *)
Definition scanner (ms : mapper) (hashes : list str) (len path : bool) (pats : list str) : res builder :=
  add_exclude_patterns pats (new_builder (Some ms) hashes len path).

(** Mappings that keep to themselves: bases are ordinary text on one line, do not
    end in a slash, and no two of them apply to the same string. *)
Definition mappings_apart (ms : mapper) : Prop :=
  (forall k, In k ms -> plain (src_uri k) /\ plain (dst_path k) /\ one_line (src_uri k) /\ one_line (dst_path k)
     /\ no_end_slash (dst_path k)) /\
  (forall i j a b s, i <> j -> nth_error ms i = Some a -> nth_error ms j = Some b ->
     ~ (applies (src_uri a) s /\ applies (src_uri b) s) /\
     ~ (applies (dst_path a) s /\ applies (dst_path b) s)).

(** No name in the tree contains a line break. *)
Definition one_line_names (root : node) : Prop :=
  forall names n, lookup names root = Some n -> Forall one_line names.
(** There are no special files in the tree. *)
Definition no_specials (root : node) : Prop := forall names m, lookup names root <> Some (Special m).

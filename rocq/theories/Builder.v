(** * Builder: model of resource_list_builder.py *)

From Verif Require Import Py Regex OsPath Mapper Resource Container Hashes Disk.

(** ResourceListBuilder, resource_list_builder.py:33-63.  The logging interval is
    left out. *)
Record builder : Type := MkBuilder {
  b_mapper : option mapper;
  b_hashes : list str;           (* set_hashes; empty: none *)
  b_length : bool;               (* set_length *)
  b_path : bool;                 (* set_path *)
  b_exclude : list re;           (* compiled_exclude_patterns *)
  b_links : bool                 (* include_symlinks *)
}.

(** ResourceListBuilder(mapper, set_hashes, set_length, set_path),
    resource_list_builder.py:33-63. *)
Definition new_builder (ms : option mapper) (hashes : list str) (set_len set_path : bool) : builder :=
  MkBuilder ms hashes set_len set_path [] false.

(** add_exclude_patterns, resource_list_builder.py:65-84, on a new builder.  A bad
    pattern raises ValueError. *)
Definition compile_exclude (pat : str) : res re :=
  match compile pat with Err ReError => Err ValueError | x => x end.
Definition add_exclude_patterns (pats : list str) (b : builder) : res builder :=
  let* rs := mapM compile_exclude pats in
  Ok (MkBuilder (b_mapper b) (b_hashes b) (b_length b) (b_path b) (b_exclude b ++ rs) (b_links b)).

(** _exclude, resource_list_builder.py:86-91. *)
Definition excluded (b : builder) (file : str) : bool :=
  existsb (fun p => match re_match p file with Some _ => true | None => false end) (b_exclude b).

(** The size of the blocks in which files are read, hashes.py:66. *)
Definition HASH_BLOCK : Z := 2 ^ 14.

(** add_file, resource_list_builder.py:166-195.  [name] is the name tested against
    the patterns, [file] the whole path and [entry] what is there; a missing file
    makes os.stat fail.  Simplifications: the walk and os.stat see the same file;
    computing the digest of a special file and anything about the target of a
    link are outside the model. *)
Definition add_file (D : digests) (b : builder) (ms : mapper) (name file : str) (entry : option node)
    (rl : rdict) : res rdict :=
  if excluded b name then Ok rl
  else match entry with
       | Some (Link _) => if b_links b then Err OutOfModel else Ok rl
       | _ =>
           let* uri := dst_to_src ms file in
           match entry with
           | None => Ok rl
           | Some n =>
               let* (m, size) := match n with
                                 | File d m => Ok (m, Z.of_nat (List.length d))
                                 | Special m => Ok (m, 0)
                                 | Dir _ | Link _ => Err OutOfModel
                                 end in
               let r := set_timestamp (Some m) (new_resource uri) in
               let r := if b_path b then set_path (Some file) r else r in
               let* r := match b_hashes b with
                         | [] => Ok r
                         | names =>
                             let* h := new_hashes names in
                             match n with
                             | File d _ => Ok (hash_set D (compute_for_file HASH_BLOCK d h) r)
                             | _ => Err OutOfModel
                             end
                         end in
               let r := if b_length b then set_length (Some size) r else r in
               rl_add r false rl
           end
       end.

(** The loop over the files of a walk, resource_list_builder.py:146-152. *)
Fixpoint add_files (D : digests) (b : builder) (ms : mapper) (fs : list (str * str * node)) (rl : rdict)
    : res rdict :=
  match fs with
  | [] => Ok rl
  | (dir, name, n) :: fs' =>
      let* rl := add_file D b ms name (os_join dir name) (Some n) rl in
      add_files D b ms fs' rl
  end.

(** from_disk_add_path, resource_list_builder.py:134-164.  A starting point that is
    a link to a directory is outside the model. *)
Definition from_disk_add_path (D : digests) (b : builder) (cwd : list str) (root : node) (path : str)
    (rl : rdict) : res rdict :=
  match b_mapper b with
  | None => Err ValueError
  | Some ms =>
      match lstat cwd root path with
      | Ok (Dir es) => add_files D b ms (os_walk (excluded b) path (Dir es)) rl
      | Ok (Link true) => Err OutOfModel
      | Ok n => add_file D b ms path path (Some n) rl
      | Err _ => add_file D b ms path path None rl
      end
  end.

Fixpoint from_disk_paths (D : digests) (b : builder) (cwd : list str) (root : node) (paths : list str)
    (rl : rdict) : res rdict :=
  match paths with
  | [] => Ok rl
  | p :: ps => let* rl := from_disk_add_path D b cwd root p rl in from_disk_paths D b cwd root ps rl
  end.

(** from_disk(resource_list, paths), resource_list_builder.py:93-132, as to the
    resources; the times of the scan (md_at, md_completed) are left out. *)
Definition from_disk (D : digests) (b : builder) (cwd : list str) (root : node) (paths : option (list str))
    (rl : rdict) : res rdict :=
  match paths with
  | Some ps => from_disk_paths D b cwd root ps rl
  | None => match b_mapper b with
            | None => Err AttributeError
            | Some ms => from_disk_paths D b cwd root (map dst_path ms) rl
            end
  end.

(** * Disk: a directory tree and the operating system calls the client makes on it.

    Simplifications: permissions, full disks and other processes are not
    modelled; paths are resolved name by name, so a path that goes through a
    symbolic link to a directory finds nothing there. *)

From Verif Require Import Py OsPath.

(** What a directory entry may be: a regular file with its contents and
    modification time (in the units of Float64), a directory with its entries
    in the order in which the system lists them, a symbolic link (to a directory
    or to something else), or a special file (pipe, socket, device). *)
Inductive node : Type :=
| File (data : str) (mtime : Z)
| Dir (entries : list (str * node))
| Link (to_dir : bool)
| Special (mtime : Z).

(** What is found by going down through [names]. *)
Fixpoint lookup (names : list str) (n : node) : option node :=
  match names with
  | [] => Some n
  | x :: names' =>
      match n with
      | Dir es => match sget x es with Some m => lookup names' m | None => None end
      | _ => None
      end
  end.

(** The tree with [m] at [names]; the directory it is in must be there. *)
Fixpoint put (names : list str) (m : node) (n : node) : option node :=
  match names with
  | [] => Some m
  | x :: names' =>
      match n with
      | Dir es =>
          match names' with
          | [] => Some (Dir (sset x m es))
          | _ => match sget x es with
                 | Some k => match put names' m k with
                             | Some k' => Some (Dir (sset x k' es))
                             | None => None
                             end
                 | None => None
                 end
          end
      | _ => None
      end
  end.

(** The tree without the entry [names]. *)
Fixpoint remove (names : list str) (n : node) : option node :=
  match names with
  | [] => None
  | x :: names' =>
      match n with
      | Dir es =>
          match names' with
          | [] => if smem x es then Some (Dir (sdel x es)) else None
          | _ => match sget x es with
                 | Some k => match remove names' k with
                             | Some k' => Some (Dir (sset x k' es))
                             | None => None
                             end
                 | None => None
                 end
          end
      | _ => None
      end
  end.

(** The tree with directories at all of [names]: existing ones are kept; [None]
    if one of them is something else. *)
Fixpoint make_dirs (names : list str) (n : node) : option node :=
  match n with
  | Dir es =>
      match names with
      | [] => Some n
      | x :: names' =>
          match make_dirs names' (match sget x es with Some k => k | None => Dir [] end) with
          | Some k' => Some (Dir (sset x k' es))
          | None => None
          end
      end
  | _ => None
  end.

(** ** Paths *)

(** Where a path leads from a directory, name by name. *)
Fixpoint follow (dir : list str) (comps : list str) : list str :=
  match comps with
  | [] => dir
  | c :: comps' =>
      if str_eqb c [] || str_eqb c $"." then follow dir comps'
      else if str_eqb c $".." then follow (removelast dir) comps'
      else follow (dir ++ [c]) comps'
  end.
Definition resolve (cwd : list str) (p : str) : list str :=
  follow (if startswith $"/" p then [] else cwd) (split_on "/" p).

(** Paths that can only mean a directory: they end with a slash, "." or "..". *)
Definition means_dir (p : str) : bool :=
  let c := last (split_on "/" p) [] in
  str_eqb c [] || str_eqb c $"." || str_eqb c $"..".

(** os.lstat(p) *)
Definition lstat (cwd : list str) (root : node) (p : str) : res node :=
  match p with
  | [] => Err IOError
  | _ =>
      match lookup (resolve cwd p) root with
      | None => Err IOError
      | Some (Dir es) => Ok (Dir es)
      | Some n => if means_dir p then Err IOError else Ok n
      end
  end.

(** os.path.isdir(p) *)
Definition isdir (cwd : list str) (root : node) (p : str) : bool :=
  match lstat cwd root p with Ok (Dir _) => true | Ok (Link d) => d | _ => false end.

(** os.stat(p).st_mtime and st_size; the target of a link is outside the model. *)
Definition stat (cwd : list str) (root : node) (p : str) : res (Z * Z) :=
  let* n := lstat cwd root p in
  match n with
  | File d m => Ok (m, Z.of_nat (List.length d))
  | Special m => Ok (m, 0)
  | Dir _ | Link _ => Err OutOfModel
  end.

(** distutils.dir_util.mkpath(p): create the directory and those it is in.  An
    obstacle raises DistutilsFileError, which is not an IOError.  (The function
    remembers directories it has created and does not create them again; nothing
    in resync removes a directory.) *)
Definition mkpath (cwd : list str) (root : node) (p : str) : res node :=
  match p with
  | [] => Ok root
  | _ => match make_dirs (resolve cwd p) root with Some r => Ok r | None => Err PlainException end
  end.

(** with open(p, 'wb') as fh: fh.write(data), at time [now].  Writing through a
    link or to a special file is outside the model. *)
Definition write_file (cwd : list str) (root : node) (p data : str) (now : Z) : res node :=
  if means_dir p then Err IOError
  else match lookup (resolve cwd p) root with
       | Some (Dir _) => Err IOError
       | Some (Link _) | Some (Special _) => Err OutOfModel
       | _ => match put (resolve cwd p) (File data now) root with
              | Some r => Ok r
              | None => Err IOError
              end
       end.

(** os.utime(p, (t, t)) *)
Definition utime (cwd : list str) (root : node) (p : str) (t : Z) : res node :=
  let* n := lstat cwd root p in
  match n with
  | File d _ => match put (resolve cwd p) (File d t) root with Some r => Ok r | None => Err IOError end
  | _ => Err OutOfModel
  end.

(** os.unlink(p) *)
Definition unlink (cwd : list str) (root : node) (p : str) : res node :=
  let* n := lstat cwd root p in
  match n with
  | Dir _ => Err IOError
  | _ => match remove (resolve cwd p) root with Some r => Ok r | None => Err IOError end
  end.

(** ** os.walk *)

(** What os.scandir's is_dir() says of an entry. *)
Definition entry_is_dir (n : node) : bool :=
  match n with Dir _ => true | Link d => d | _ => false end.

(** for dirpath, dirs, files in os.walk(top, topdown=True), where the caller
    removes from dirs the names that [skip] tells: the files with their
    directories, in order.  Links to directories are not followed. *)
Fixpoint os_walk (skip : str -> bool) (top : str) (n : node) : list (str * str * node) :=
  match n with
  | Dir es =>
      map (fun e => (top, fst e, snd e)) (filter (fun e => negb (entry_is_dir (snd e))) es)
      ++ (fix go (es : list (str * node)) : list (str * str * node) :=
            match es with
            | [] => []
            | (x, m) :: es' =>
                (if skip x then [] else os_walk skip (os_join top x) m) ++ go es'
            end) es
  | _ => []
  end.

(** * Dump: model of dump.py *)

From Verif Require Import Py Float64 OsPath Mapper Resource Container Xml Sitemap Opener ListIndex.

(** os.path.getsize: files have the size of their contents. *)
Definition getsize (fs : fsys) (path : str) : res Z :=
  match sget path fs with Some f => Ok (zlen (f_data f)) | None => Err IOError end.

(** check_files, dump.py:117-162.  The resources after the call (with lengths set), the
    path prefix and the total size.  The state after an exception is not modelled. *)
Fixpoint check_loop (fs : fsys) (max_size : Z) (set_len check_len : bool) (rs : list resource)
    (prefix : option str) (total : Z) : res (list resource * option str * Z) :=
  match rs with
  | [] => Ok ([], prefix, total)
  | r :: rs' =>
      match r_path r with
      | None => Err DumpError
      | Some p =>
          let prefix := Some (match prefix with
                              | None => os_dirname p
                              | Some q => os_commonprefix q (os_dirname p)
                              end) in
          let* size := getsize fs p in
          let* r := match r_length r with
                    | Some n => if check_len && negb (n =? size) then Err DumpError else Ok r
                    | None => Ok (if set_len then set_length (Some size) r else r)
                    end in
          if max_size <? size then Err DumpError
          else
            let* (rest, total) := check_loop fs max_size set_len check_len rs' prefix (total + size) in
            let '(rs', prefix) := rest in
            Ok (r :: rs', prefix, total)
      end
  end.
Definition check_files (fs : fsys) (max_size : Z) (set_len check_len : bool) (rs : list resource)
    : res (list resource * option str * Z) :=
  check_loop fs max_size set_len check_len rs None 0.

(** partition_dumps, dump.py:164-187: the manifests that the generator yields and the
    exception that ends it, if any.  A manifest is a dictionary as in ResourceList. *)
Fixpoint partition_loop (max_size max_files : Z) (rs : list resource) (m : rdict) (size files : Z)
    : list rdict * option exn :=
  match rs with
  | [] => (if 0 <? files then [m] else [], None)
  | r :: rs' =>
      match rl_add r false m with
      | Err e => ([], Some e)
      | Ok m =>
          match r_length r with
          | None => ([], Some TypeError)
          | Some n =>
              if (max_size <=? size + n) || (max_files <=? files + 1)
              then let '(ms, e) := partition_loop max_size max_files rs' [] 0 0 in (m :: ms, e)
              else partition_loop max_size max_files rs' m (size + n) (files + 1)
          end
      end
  end.
Definition partition_dumps (max_size max_files : Z) (rs : list resource) : list rdict * option exn :=
  partition_loop max_size max_files rs [] 0 0.

(** archive_path, dump.py:189-198; [cwd] is the current directory. *)
Definition archive_path (cwd : str) (prefix : option str) (path : str) : res str :=
  match prefix with
  | None | Some [] => Ok path
  | Some q => os_relpath cwd path q
  end.

(** The name ZipFile.write gives an entry, zipfile/__init__.py:584-586. *)
Definition zip_name (arcname : str) : res str :=
  let fix drop s := match s with "/"%char :: s' => drop s' | _ => s end in
  match drop (os_normpath arcname) with [] => Err IndexError | n => Ok n end.

(** A ZIP file: the manifest and the other entries in the order they were written. *)
Record zipfile : Type := MkZip { z_manifest : str; z_entries : list (str * str) }.

(** The first loop of write_zip, dump.py:75-78: archive paths are stored in the
    resources and real_path leads back. *)
Fixpoint rename_loop (cwd : str) (prefix : option str) (rs : list resource) (real : list (str * str))
    : res (list resource * list (str * str)) :=
  match rs with
  | [] => Ok ([], real)
  | r :: rs' =>
      match r_path r with
      | None => Err TypeError
      | Some p =>
          let* a := archive_path cwd prefix p in
          let* (rs', real) := rename_loop cwd prefix rs' (sset a p real) in
          Ok (set_path (Some a) r :: rs', real)
      end
  end.
(** The second loop, dump.py:81-82. *)
Fixpoint entries_loop (fs : fsys) (real : list (str * str)) (rs : list resource) : res (list (str * str)) :=
  match rs with
  | [] => Ok []
  | r :: rs' =>
      match r_path r with
      | None => Err TypeError
      | Some a =>
          match sget a real with
          | None => Err KeyError
          | Some p =>
              match sget p fs with
              | None => Err IOError
              | Some f =>
                  let* n := zip_name a in
                  let* es := entries_loop fs real rs' in
                  Ok ((n, f_data f) :: es)
              end
          end
      end
  end.

(** The settings of a manifest made by default. *)
Definition default_settings : settings := MkSettings false false false.
Definition manifest_name : str := $"resourcedump-manifest".

(** write_zip, dump.py:59-88: the ZIP file and the resources of the manifest after the
    call, in the order of iteration.  as_xml refuses more than 50000 resources,
    list_base_with_index.py:199-218.  An incomplete ZIP file is not modelled. *)
Definition write_zip (cwd : str) (prefix : option str) (fs : fsys) (m : rdict)
    : res (zipfile * list resource) :=
  let* (rs, real) := rename_loop cwd prefix (rl_iter m) [] in
  let* text := if 50000 <? zlen rs then Err ListBaseIndexError
               else as_xml (fun l => l) default_settings (Some manifest_name) false (MkDoc [] [] rs) in
  let* es := entries_loop fs real rs in
  Ok (MkZip text es, rs).

(** The manifest as a list with index, resource_dump_manifest.py:24-33. *)
Definition manifest_list (m : rdict) : ixlist rdict :=
  MkIx (MkDoc [] [] m) (Some manifest_name) (Some 50000) true None false false default_settings.

(** The state while a dump is written: files, ZIP files (kept apart) and the resources
    written so far. *)
Record dumped : Type := MkDumped { w_fs : fsys; w_zips : list (str * zipfile); w_done : list resource }.

(** The loop of write, dump.py:44-56.  Simplification: the WARC library is not
    installed. *)
Fixpoint write_loop (md5 : str -> str) (clock : str -> Z) (cwd : str) (prefix : option str)
    (format basename : str) (separate : bool) (ms : list rdict) (n : Z) (s : dumped) : dumped * res Z :=
  match ms with
  | [] => (s, Ok n)
  | m :: ms' =>
      let base := basename ++ print_pad 5 n in
      let '(fs, e) := if separate then list_write resource_list_kind md5 clock (manifest_list m) (base ++ $".xml") (w_fs s)
                      else (w_fs s, Ok (manifest_list m)) in
      let s := MkDumped fs (w_zips s) (w_done s) in
      match e with
      | Err x => (s, Err x)
      | Ok _ =>
          if str_eqb format $"zip" then
            match write_zip cwd prefix fs m with
            | Err x => (s, Err x)
            | Ok (z, rs) =>
                write_loop md5 clock cwd prefix format basename separate ms' (n + 1)
                  (MkDumped fs (sset (base ++ $"." ++ format) z (w_zips s)) (w_done s ++ rs))
            end
          else (s, Err DumpError)
      end
  end.

(** write(basename, write_separate_manifests), dump.py:37-57. *)
Definition dump_write (md5 : str -> str) (clock : str -> Z) (cwd : str) (max_size max_files : Z)
    (format basename : str) (separate : bool) (rs : list resource) (fs : fsys) : dumped * res Z :=
  match check_files fs max_size true true rs with
  | Err x => (MkDumped fs [] [], Err x)
  | Ok (rs, prefix, _) =>
      let '(ms, e) := partition_dumps max_size max_files rs in
      let '(s, n) := write_loop md5 clock cwd prefix format basename separate ms 0 (MkDumped fs [] []) in
      (s, match n, e with Ok _, Some x => Err x | _, _ => n end)
  end.

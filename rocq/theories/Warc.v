(** * Warc: dumps in WARC format, dump.py:90-115

    The library warc is not part of the project.  It is an argument of the model: whether
    it is there, and which records it takes. *)

From Verif Require Import Py Float64 W3C OsPath Resource Container Xml Sitemap Opener ListIndex Dump.

(** A record as write_warc makes it, dump.py:104-112. *)
Record warc_record : Type := MkWarc { wr_url : str; wr_date : option str; wr_location : str; wr_payload : str }.
Definition warc_library : Type := option (warc_record -> res unit).

(** The loop of write_warc, dump.py:103-112: the records that were written, and the
    exception if there is one. *)
Fixpoint warc_loop (cwd : str) (prefix : option str) (take : warc_record -> res unit) (rs : list resource) : list warc_record * option exn :=
  match rs with
  | [] => ([], None)
  | r :: rs' =>
      match (let* date := get_dt (r_timestamp r) in
             match r_path r with
             | None => Err TypeError
             | Some p => let* a := archive_path cwd prefix p in
                         let w := MkWarc (r_uri r) date a p in
                         let* _ := take w in Ok w
             end) with
      | Err x => ([], Some x)
      | Ok w => let '(ws, e) := warc_loop cwd prefix take rs' in (w :: ws, e)
      end
  end.

(** write_warc(resources, dumpfile), dump.py:90-115: the records in the file, if there is
    one, and the exception.  The last statement uses an attribute that a Dump does not
    have. *)
Definition write_warc (lib : warc_library) (cwd : str) (prefix : option str) (m : rdict) : option (list warc_record) * exn :=
  match lib with
  | None => (None, DumpError)
  | Some take =>
      let '(ws, e) := warc_loop cwd prefix take (rl_iter m) in
      (Some ws, match e with Some x => x | None => AttributeError end)
  end.

(** The loop of write with the format warc, dump.py:44-56: the files, the WARC files and
    the result.  Since write_warc always raises an exception there is no second turn. *)
Definition write_loop_warc (lib : warc_library) (md5 : str -> str) (clock : str -> Z) (cwd : str) (prefix : option str)
    (basename : str) (separate : bool) (ms : list rdict) (n : Z) (fs : fsys) (warcs : list (str * list warc_record))
    : fsys * list (str * list warc_record) * res Z :=
  match ms with
  | [] => (fs, warcs, Ok n)
  | m :: _ =>
      let base := basename ++ print_pad 5 n in
      let '(fs, e) := if separate then list_write resource_list_kind md5 clock (manifest_list m) (base ++ $".xml") fs
                      else (fs, Ok (manifest_list m)) in
      match e with
      | Err x => (fs, warcs, Err x)
      | Ok _ =>
          let '(w, x) := write_warc lib cwd prefix m in
          (fs, match w with Some ws => sset (base ++ $".warc") ws warcs | None => warcs end, Err x)
      end
  end.
Definition dump_write_warc (lib : warc_library) (md5 : str -> str) (clock : str -> Z) (cwd : str) (max_size max_files : Z)
    (basename : str) (separate : bool) (rs : list resource) (fs : fsys) : fsys * list (str * list warc_record) * res Z :=
  match check_files fs max_size true true rs with
  | Err x => (fs, [], Err x)
  | Ok (rs, prefix, _) =>
      let '(ms, e) := partition_dumps max_size max_files rs in
      let '(fs, warcs, n) := write_loop_warc lib md5 clock cwd prefix basename separate ms 0 fs [] in
      (fs, warcs, match n, e with Ok _, Some x => Err x | _, _ => n end)
  end.

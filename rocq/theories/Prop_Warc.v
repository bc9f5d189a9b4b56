(** * Prop_Warc: formats of dumps *)

From Verif Require Import Py Float64 OsPath Resource Container Xml Sitemap Opener ListIndex Dump Warc DumpExamples WarcFacts.

(** C123 is false.  A dump in WARC format ends with an exception, even if the library is there
    and takes every record; and the records hold the names of the files, not their data. *)
Theorem C123_refuted : dump_write_warc any_record no_md5 no_clock $"/" 1000 50000 $"/tmp/rd_" false two_dirs two_files =
  (two_files, [($"/tmp/rd_00000.warc", [MkWarc $"http://ex.org/a" None $"../abc/x" $"/data/abc/x"; MkWarc $"http://ex.org/b" None $"../abd/y" $"/data/abd/y"])], Err AttributeError).
Proof. exact warc_example_is. Qed.
Print Assumptions C123_refuted.
(** When a format is refused, a manifest may already be written. *)
Theorem C123_left_refuted : exists s f, dump_write no_md5 no_clock $"/" 1000 50000 $"tar" $"/tmp/rd_" true two_dirs two_files = (s, Err DumpError)
  /\ sget $"/tmp/rd_00000.xml" two_files = None /\ sget $"/tmp/rd_00000.xml" (w_fs s) = Some f.
Proof. exact manifest_left. Qed.
Print Assumptions C123_left_refuted.
(** It is so for all resources and whatever the library does: WARC dumps never succeed, *)
Theorem C123_never : forall lib md5 clock cwd max_size max_files basename separate rs fs, rs <> [] ->
  exists x, snd (dump_write_warc lib md5 clock cwd max_size max_files basename separate rs fs) = Err x.
Proof. exact warc_never. Qed.
Print Assumptions C123_never.
(** and leave at most one file, for the first part of the dump, in which the payload of each
    record is the name of a file. *)
Theorem C123_files : forall lib md5 clock cwd max_size max_files basename separate rs fs fs' ws x,
  dump_write_warc lib md5 clock cwd max_size max_files basename separate rs fs = (fs', ws, x) ->
  ws = [] \/ exists rs' m ms e prefix t recs, check_files fs max_size true true rs = Ok (rs', prefix, t)
    /\ partition_dumps max_size max_files rs' = (m :: ms, e) /\ ws = [(basename ++ $"00000" ++ $".warc", recs)]
    /\ forall w, In w recs -> exists r, In r (rl_iter m) /\ r_uri r = wr_url w /\ r_path r = Some (wr_payload w).
Proof. exact warc_files. Qed.
Print Assumptions C123_files.
(** Formats other than zip and warc are refused; no archive is written, and without separate
    manifests nothing is. *)
Theorem C123_other : forall md5 clock cwd max_size max_files format basename separate rs fs, format <> $"zip" -> rs <> [] ->
  exists s x, dump_write md5 clock cwd max_size max_files format basename separate rs fs = (s, Err x) /\ w_zips s = []
    /\ (separate = false -> w_fs s = fs).
Proof. exact other_format. Qed.
Print Assumptions C123_other.

Example C123_example : two_dirs <> [] /\ $"tar" <> $"zip"
  /\ snd (dump_write_warc None no_md5 no_clock $"/" 1000 50000 $"/tmp/rd_" false two_dirs two_files) = Err DumpError
  /\ snd (dump_write no_md5 no_clock $"/" 1000 50000 $"tar" $"/tmp/rd_" false two_dirs two_files) = Err DumpError.
Proof. split; [discriminate|]. split; [discriminate|]. split; vm_compute; reflexivity. Qed.

(** * Properties C42 to C44 and C75 to C77: dumps *)

From Coq Require Import Permutation Sorted.
From Verif Require Import Py Float64 OsPath Resource ResourceSpec Container ContainerSpec
  Xml Sitemap SitemapSpec Opener ListIndex Dump PathSpec DumpSpec DumpFacts DumpWrite DumpProps DumpExamples.

(** C42: the manifests make up the resources, in order; each is filled until a limit is
    reached, and not beyond; only the last may have reached none.  This determines the
    partition. *)
Theorem C42_partition : forall max_size max_files rs ms, partition_dumps max_size max_files rs = (ms, None) ->
  exists parts, List.concat parts = rs /\ filled max_size max_files parts
    /\ Forall2 (fun m p => Permutation (rl_iter m) p /\ StronglySorted uri_before (rl_iter m)) ms parts.
Proof. exact partition_covers. Qed.
Print Assumptions C42_partition.
Theorem C42_unique : forall max_size max_files ps qs, filled max_size max_files ps -> filled max_size max_files qs ->
  List.concat ps = List.concat qs -> ps = qs.
Proof. exact filled_unique. Qed.
Print Assumptions C42_unique.
Theorem C42_files : forall max_size max_files parts p, filled max_size max_files parts -> In p parts ->
  zlen p <= Z.max 1 max_files.
Proof. exact filled_files. Qed.
Print Assumptions C42_files.
Theorem C42_succeeds : forall max_size max_files rs, NoDup (map r_uri rs) -> Forall (fun r => r_length r <> None) rs ->
  exists ms, partition_dumps max_size max_files rs = (ms, None).
Proof. exact partition_succeeds. Qed.
Print Assumptions C42_succeeds.

Example C42_example :
  NoDup (map r_uri three_sizes) /\ Forall (fun r => r_length r <> None) three_sizes
  /\ map rl_iter (fst (partition_dumps 12 2 three_sizes)) = [firstn 2 three_sizes; skipn 2 three_sizes]
  /\ map rl_iter (fst (partition_dumps 10 5 three_sizes)) = [firstn 2 three_sizes; skipn 2 three_sizes].
Proof. exact three_sizes_parts. Qed.

(** C43 is false: the file that reaches the limit is added to the dump. *)
Theorem C43_refuted : exists max_size max_files rs m,
  Forall (fun r => size_of r <= max_size) rs /\ partition_dumps max_size max_files rs = ([m], None)
  /\ max_size < total_size (rl_iter m).
Proof. exact size_exceeded. Qed.
Print Assumptions C43_refuted.
Theorem C43_bound : forall max_size max_files parts p, filled max_size max_files parts -> In p parts ->
  0 < max_size -> Forall (fun r => size_of r <= max_size) p -> total_size p < 2 * max_size.
Proof. exact filled_sizes. Qed.
Print Assumptions C43_bound.

(** C44 is false: names may lead out of the archive, the manifest may be there twice, and
    a name in the manifest may not be a name in the archive. *)
Theorem C44_refuted : exists s z,
  dump_write no_md5 no_clock $"/" 1000 50000 $"zip" $"/tmp/rd_" false two_dirs two_files = (s, Ok 1)
  /\ w_zips s = [($"/tmp/rd_00000.zip", z)] /\ map fst (z_entries z) = [$"../abc/x"; $"../abd/y"].
Proof. exact dots_in_archive. Qed.
Print Assumptions C44_refuted.
Theorem C44_manifest_refuted : exists s z,
  dump_write no_md5 no_clock $"/" 1000 50000 $"zip" $"/tmp/rd_" false manifest_dir manifest_files = (s, Ok 1)
  /\ w_zips s = [($"/tmp/rd_00000.zip", z)] /\ zip_namelist z = [$"manifest.xml"; $"manifest.xml"; $"y"].
Proof. exact manifest_twice. Qed.
Print Assumptions C44_manifest_refuted.
Theorem C44_names_refuted : exists s z d,
  dump_write no_md5 no_clock $"/" 1000 50000 $"zip" $"/tmp/rd_" false dotted dotted_files = (s, Ok 1)
  /\ w_zips s = [($"/tmp/rd_00000.zip", z)] /\ map fst (z_entries z) = [$"a/b"; $"c"]
  /\ list_parse (fun r => rl_add r false) default_settings (Some manifest_name) (MkDoc [] [] []) (z_manifest z) = Ok d
  /\ map r_path (rl_iter (d_items d)) = [Some $"a/./b"; Some $"c"].
Proof. exact names_disagree. Qed.
Print Assumptions C44_names_refuted.

(** If the longest text common to the names of the directories is a directory, the dump
    is written: the archives hold exactly the files, each under its name below that
    directory, and their manifests say so.  Files are left alone, except for separate
    manifests.  Of the resources, the paths are replaced, and missing lengths filled in. *)
Theorem C44_archives : forall md5 clock cwd max_size max_files basename separate rs fs abs top,
  Forall file_name cwd -> common_top abs top rs -> Forall (dumpable fs max_size true) rs -> NoDup (map r_uri rs) ->
  Forall good_resource rs -> Forall legal_resource rs -> max_files <= 50000 ->
  (separate = true -> forall r n, In r rs -> 0 <= n -> r_path r <> Some (manifest_file basename n)) ->
  exists s parts zs,
    dump_write md5 clock (path_of cwd) max_size max_files $"zip" basename separate rs fs = (s, Ok (zlen parts))
    /\ List.concat parts = map (measured fs) rs /\ filled max_size max_files parts
    /\ w_zips s = combine (map (fun i => archive_name basename (Z.of_nat i)) (seq 0 (List.length parts))) zs
    /\ Forall2 (archive_of fs abs top) parts zs
    /\ (separate = true -> forall i p, nth_error parts i = Some p -> manifest_at (w_fs s) (manifest_file basename (Z.of_nat i)) p)
    /\ (forall path, (separate = true -> forall n, 0 <= n -> path <> manifest_file basename n) -> sget path (w_fs s) = sget path fs)
    /\ exists order, Permutation (map (measured fs) rs) order /\ Forall2 (renamed abs top) order (w_done s).
Proof. exact dump_written. Qed.
Print Assumptions C44_archives.
Theorem C44_names : forall fs abs top p z, archive_of fs abs top p z ->
  (forall name, In name (map fst (z_entries z)) -> exists names, names <> [] /\ Forall file_name names /\ name = rel_path names)
  /\ (NoDup (map r_path p) -> NoDup (map fst (z_entries z)))
  /\ (NoDup (map r_path p) -> (forall r, In r p -> ~ lies_at abs (top ++ [$"manifest.xml"]) r) -> NoDup (zip_namelist z)).
Proof. exact archive_names. Qed.
Print Assumptions C44_names.

Example C44_example :
  (common_top true [$"data"] tree /\ Forall (dumpable tree_files 1000 true) tree /\ NoDup (map r_uri tree)
   /\ Forall good_resource tree /\ Forall legal_resource tree
   /\ (forall r n, In r tree -> 0 <= n -> r_path r <> Some (manifest_file $"/tmp/rd_" n)))
  /\ exists s z1 z2,
  dump_write no_md5 no_clock $"/" 7 50000 $"zip" $"/tmp/rd_" true tree tree_files = (s, Ok 2)
  /\ w_zips s = [($"/tmp/rd_00000.zip", z1); ($"/tmp/rd_00001.zip", z2)]
  /\ z_entries z1 = [($"x", $"one"); ($"sub/y", $"two!")] /\ z_entries z2 = [($"sub/z", $"three")].
Proof. exact (conj tree_ok tree_dump). Qed.

(** C75 is false: the paths of the resources are replaced by names in the archive, and
    the same resources cannot be dumped again. *)
Theorem C75_refuted : exists s s',
  dump_write no_md5 no_clock $"/" 1000 50000 $"zip" $"/tmp/rd_" false tree tree_files = (s, Ok 1)
  /\ map r_path (w_done s) = [Some $"x"; Some $"sub/y"; Some $"sub/z"]
  /\ dump_write no_md5 no_clock $"/" 1000 50000 $"zip" $"/tmp/rd_" false (w_done s) tree_files = (s', Err IOError).
Proof. exact paths_changed. Qed.
Print Assumptions C75_refuted.

(** C76 is false: a separate manifest has the local paths (C44_archives says so for all
    dumps, in [manifest_at]). *)
Theorem C76_refuted : exists s f d,
  dump_write no_md5 no_clock $"/" 1000 50000 $"zip" $"/tmp/rd_" true tree tree_files = (s, Ok 1)
  /\ sget $"/tmp/rd_00000.xml" (w_fs s) = Some f
  /\ list_parse (fun r => rl_add r false) default_settings (Some manifest_name) (MkDoc [] [] []) (f_data f) = Ok d
  /\ map r_path (rl_iter (d_items d)) = [Some $"/data/x"; Some $"/data/sub/y"; Some $"/data/sub/z"].
Proof. exact manifest_local_paths. Qed.
Print Assumptions C76_refuted.

(** C77: check_files accepts exactly the resources whose files are there, have the right
    size and are small enough, and gives the total size and the longest common prefix. *)
Theorem C77_accepts : forall fs max_size set_len check rs,
  (exists out, check_files fs max_size set_len check rs = Ok out) <-> Forall (dumpable fs max_size check) rs.
Proof. exact check_iff. Qed.
Print Assumptions C77_accepts.
Theorem C77_result : forall fs max_size set_len check rs rs' prefix total,
  check_files fs max_size set_len check rs = Ok (rs', prefix, total) ->
  total = fold_right Z.add 0 (map (fun r => zlen (content fs r)) rs)
  /\ Forall2 (fun r r' => r' = r \/ (set_len = true /\ r_length r = None /\ r' = measured fs r)) rs rs'
  /\ (set_len = true -> check = true -> rs' = map (measured fs) rs)
  /\ (rs = [] -> prefix = None)
  /\ (rs <> [] -> exists q, prefix = Some q
       /\ (forall r p, In r rs -> r_path r = Some p -> exists t, os_dirname p = q ++ t)
       /\ (forall q', (forall r p, In r rs -> r_path r = Some p -> exists t, os_dirname p = q' ++ t) -> exists t, q = q' ++ t)).
Proof. exact check_result. Qed.
Print Assumptions C77_result.

Example C77_example : exists rs', check_files tree_files 1000 true true tree = Ok (rs', Some $"/data", 12)
  /\ check_files tree_files 4 true true tree = Err DumpError
  /\ check_files [] 1000 true true tree = Err IOError.
Proof. eexists. split; [vm_compute; reflexivity|]. split; vm_compute; reflexivity. Qed.

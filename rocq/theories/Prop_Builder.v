(** * Property C61: scanning the disk *)

From Verif Require Import Py PathSpec OsPath Mapper MapperSpec Resource Container Hashes Disk DiskSpec Builder BuilderSpec BuilderFacts.

(** C61: a scan that ends lists exactly the files under the starting points that
    match no pattern, are in no directory that matches one and are not symbolic
    links, with the URI the mapper gives them and what is to be said of them. *)
Theorem C61_lists_exactly : forall D ms hashes len path pats b cwd root paths rl,
  scanner ms hashes len path pats = Ok b -> tree_ok root -> from_disk D b cwd root paths [] = Ok rl ->
  NoDup (map fst rl) /\
  forall u r, In (u, r) rl <-> exists start rel file n, In start (start_points ms paths)
    /\ found_at pats cwd root start rel file n /\ dst_to_src ms file = Ok u
    /\ r = described D hashes len path u file n.
Proof. exact (fun D ms hashes len path pats b cwd root paths rl B => scan_lists D ms hashes len path pats b B cwd root paths rl). Qed.
Print Assumptions C61_lists_exactly.

(** Each is listed once: no two files, and no file twice, have the same URI. *)
Theorem C61_each_once : forall D ms hashes len path pats b cwd root paths rl,
  scanner ms hashes len path pats = Ok b -> tree_ok root -> from_disk D b cwd root paths [] = Ok rl ->
  forall i j s t rel1 rel2 f1 f2 n1 n2 u,
  nth_error (start_points ms paths) i = Some s -> nth_error (start_points ms paths) j = Some t ->
  found_at pats cwd root s rel1 f1 n1 -> found_at pats cwd root t rel2 f2 n2 ->
  dst_to_src ms f1 = Ok u -> dst_to_src ms f2 = Ok u -> i = j /\ rel1 = rel2.
Proof. exact (fun D ms hashes len path pats b cwd root paths rl B => scan_once D ms hashes len path pats b B cwd root paths rl). Qed.
Print Assumptions C61_each_once.

(** The scan of the destinations of mappings that keep to themselves does not fail;
    the URI of a file is the base followed by its path below the destination. *)
Theorem C61_succeeds : forall D ms hashes len path pats b cwd root,
  scanner ms hashes len path pats = Ok b ->
  (forall h, In h hashes -> In h [$"md5"; $"sha-1"; $"sha-256"]) ->
  tree_ok root -> mappings_apart ms -> one_line_names root -> hashes = [] \/ no_specials root ->
  (forall k, In k ms -> (exists es, lstat cwd root (dst_path k) = Ok (Dir es)) \/ lstat cwd root (dst_path k) = Err IOError) ->
  exists rl, from_disk D b cwd root None [] = Ok rl /\
  forall u r, In (u, r) rl <-> exists m rel n, In m ms
     /\ found_at pats cwd root (dst_path m) rel (dst_path m ++ $"/" ++ rel_path rel) n
     /\ u = src_uri m ++ $"/" ++ rel_path rel
     /\ r = described D hashes len path u (dst_path m ++ $"/" ++ rel_path rel) n.
Proof. exact (fun D ms hashes len path pats b cwd root B Hh => scan_succeeds D ms hashes len path pats b B Hh cwd root). Qed.
Print Assumptions C61_succeeds.

(** A pattern that is not a regular expression raises ValueError. *)
Theorem C61_bad_pattern : forall ms hashes len path pats pat, In pat pats -> compile pat = Err ReError ->
  (forall q e, In q pats -> compile q = Err e -> e = ReError) -> scanner ms hashes len path pats = Err ValueError.
Proof. exact bad_pattern. Qed.
Print Assumptions C61_bad_pattern.

(** That only regular files are listed is not so: pipes, sockets and devices are too. *)
Theorem C61_regular_only_refuted : exists b rl u r, scanner one_map [] true false [] = Ok b
  /\ from_disk (MkDigests (fun s => s) (fun s => s) (fun s => s)) b [] fifo_tree None [] = Ok rl /\ In (u, r) rl
  /\ forall names d m, lookup names fifo_tree <> Some (File d m).
Proof. exact special_listed. Qed.
Print Assumptions C61_regular_only_refuted.

(** The hypotheses are met by a tree with directories, links and excluded names. *)
Example C61_example : mappings_apart one_map /\ tree_ok small_tree /\ one_line_names small_tree
  /\ exists b rl, scanner one_map [$"md5"] true true [$"skip"; $".*\.tmp$"] = Ok b
  /\ names_okb small_tree = true
  /\ from_disk (MkDigests (fun s => $"m" ++ s) (fun s => s) (fun s => s)) b [] small_tree None [] = Ok rl
  /\ map (fun e => (fst e, (r_timestamp (snd e), r_length (snd e)), (r_md5 (snd e), r_path (snd e)))) rl
     = [($"http://example.org/d/a.txt", (Some 7, Some 5), (Some $"mhello", Some $"/d/a.txt"));
        ($"http://example.org/d/sub/b", (Some 9, Some 0), (Some $"m", Some $"/d/sub/b"))].
Proof.
  split; [exact one_map_apart|]. split; [apply names_okb_ok; reflexivity|]. split; [apply names_okb_ok; reflexivity|].
  exact small_scan.
Qed.

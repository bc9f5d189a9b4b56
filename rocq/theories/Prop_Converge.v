(** * Prop_Converge: what a baseline synchronization leads to, and the directories it makes *)

From Verif Require Import Py Float64 PathSpec OsPath Mapper MapperSpec Resource ResourceSpec Container ListIndex Hashes Disk DiskSpec
  Builder BuilderSpec Client ClientSpec ClientExamples ClientThms ClientSyncEx ConvergeSpec ClientDirs ClientConverge ConvergeEx.

(** C47: it is said that all resources have the content of the source after a baseline
    synchronization.  A file of the right length and time is kept whatever is in it, even
    if digests are listed and asked for. *)
Theorem C47_refuted : exists E c w w' u r q d d' t, synchronizable E c w /\ honest E c
  /\ c_dryrun c = false /\ c_ignore_failures c = false /\ (0 < c_tries c)%nat
  /\ baseline_or_audit E c true false w = (w', Ok tt)
  /\ In $"md5" (w_hashes w) /\ source_entry E c u r /\ digest $"md5" r = Some (digest_function (e_digests E) $"md5" d)
  /\ (forall k, e_get E k u = Data d) /\ place_of E c u q /\ leaf_at (w_root w') q = Some (File d' t) /\ d' <> d.
Proof. exact stale. Qed.
Print Assumptions C47_refuted.

(** Every listed resource is where the mapper says: either it was downloaded during the
    run, or what was there is still there and agreed in time and length; its time is the
    listed one but for less than a second.  Every file below the destinations is listed. *)
Theorem C47_converges : forall E c w w', synchronizable E c w -> c_dryrun c = false -> c_ignore_failures c = false -> (0 < c_tries c)%nat ->
  baseline_or_audit E c true false w = (w', Ok tt) ->
  (forall u r, source_entry E c u r -> exists q n, place_of E c u q /\ leaf_at (w_root w') q = Some n
     /\ (downloaded E w w' r n \/ leaf_at (w_root w) q = Some n /\ agrees r n)
     /\ forall t, r_timestamp r = Some t -> exists m, mtime_of n = Some m /\ Z.abs (m - t) < SEC)
  /\ (forall file u, local_file E c w' file u -> listed E c u).
Proof. exact converged. Qed.
Print Assumptions C47_converges.

(** If the source gives times and correct lengths, all audits and baseline
    synchronizations that follow succeed, report IN SYNC and do nothing. *)
Theorem C47_again : forall E c w w', synchronizable E c w -> honest E c -> c_dryrun c = false -> c_ignore_failures c = false -> (0 < c_tries c)%nat ->
  (forall h, In h (w_hashes w) -> In h [$"md5"; $"sha-1"; $"sha-256"]) -> w_hashes w = [] \/ no_specials (w_root w) ->
  baseline_or_audit E c true false w = (w', Ok tt) ->
  in_sync E c w' /\ forall E' allow audit, e_fetch E' = e_fetch E -> e_cwd E' = e_cwd E ->
  exists w2 s, baseline_or_audit E' c allow audit w' = (w2, Ok tt) /\ no_effect w' w2 /\ w_log w2 = w_log w' ++ [Logged s] /\ st_word s = $"IN SYNC".
Proof. exact converged_again. Qed.
Print Assumptions C47_again.

(** With a resource without a time in the list there is no convergence at all. *)
Theorem C47_no_time : forall E c w u r, source_entry E c u r -> r_timestamp r = None -> ~ in_sync E c w.
Proof. exact no_time_never. Qed.
Print Assumptions C47_no_time.

Example C47_example : synchronizable two_env (ex_client one_mapping) (start old_tree None) /\ honest two_env (ex_client one_mapping)
  /\ exists w', baseline_or_audit two_env (ex_client one_mapping) true false (start old_tree None) = (w', Ok tt)
     /\ leaf_at (w_root w') [$"d"; $"x"; $"b"] = Some (File $"BBB" (day + SEC)) /\ leaf_at (w_root w') [$"d"; $"old"] = None.
Proof.
  split; [apply two_synchronizable|]. split; [apply two_honest|]. exists two_end. split; [exact two_end_run|]. split; apply two_end_tree.
Qed.

(** C79: no directory is removed, and those that are made are the directories of
    the files of listed resources, or lead to them; *)
Theorem C79_baseline : forall E c allow audit w w' x, world_ok E w -> baseline_or_audit E c allow audit w = (w', x) ->
  (forall q, dir_at (w_root w) q -> dir_at (w_root w') q)
  /\ forall q, dir_at (w_root w') q -> dir_at (w_root w) q \/
     exists u p rest, listed E c u /\ src_to_dst (c_mapper c) u = Ok p /\ denotes (e_cwd E) (os_dirname p) = q ++ rest.
Proof. exact made_by_baseline. Qed.
Print Assumptions C79_baseline.
(** with an incremental synchronization, of created or updated resources. *)
Theorem C79_incremental : forall E c allow clu from_dt w w' x, world_ok E w -> incremental E c allow clu from_dt w = (w', x) ->
  (forall q, dir_at (w_root w) q -> dir_at (w_root w') q)
  /\ forall q, dir_at (w_root w') q -> dir_at (w_root w) q \/
     exists uri changes r p rest, changes_read E c clu uri changes /\ In r changes
       /\ (r_change r = Some $"created" \/ r_change r = Some $"updated")
       /\ src_to_dst (c_mapper c) (r_uri r) = Ok p /\ denotes (e_cwd E) (os_dirname p) = q ++ rest.
Proof. exact made_by_incremental. Qed.
Print Assumptions C79_incremental.
(** A deletion leaves the directory of the file behind, empty or not. *)
Theorem C79_left_behind : forall E c r fn w w' x q, tree_ok (w_root w) -> delete_resource E c true r fn w = (w', x) ->
  (dir_at (w_root w') q <-> dir_at (w_root w) q).
Proof. exact deletion_dirs. Qed.
Print Assumptions C79_left_behind.

Example C79_example : exists w', baseline_or_audit two_env (ex_client one_mapping) true false (start old_tree None) = (w', Ok tt)
  /\ dir_at (w_root w') [$"d"; $"x"] /\ ~ dir_at old_tree [$"d"; $"x"].
Proof. exists two_end. split; [exact two_end_run|]. split; apply two_end_tree. Qed.

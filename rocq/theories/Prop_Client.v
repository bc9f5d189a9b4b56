(** * Properties of synchronization: what a run may touch *)

From Verif Require Import Py Float64 W3C UrlAuthority PathSpec OsPath Mapper MapperSpec Resource Disk DiskSpec Builder BuilderSpec Client ClientSpec
  ClientProps ClientPlaces ClientDownload ClientExamples ClientThms.

(** C48: an audit changes neither files nor directories nor the client state, and
    requests no resource. *)
Theorem C48_audit : forall E c allow w w' x,
  baseline_or_audit E c allow true w = (w', x) -> no_effect w w'.
Proof. exact audit_nothing. Qed.
Print Assumptions C48_audit.

Example C48_example : exists w', baseline_or_audit (ex_env two_resources two_contents) (ex_client one_mapping) true true (start old_tree None) = (w', Ok tt)
  /\ map (fun m => match m with Logged s => st_word s | _ => [] end) (w_log w') = [$"NOT IN SYNC"].
Proof. apply witness; vm_compute; reflexivity. Qed.

(** C49: a dry run is said to change nothing, but it makes directories, and records
    the time of deletions it has not done. *)
Theorem C49_refuted : exists E c allow w w' q, world_ok E w /\ c_dryrun c = true
  /\ baseline_or_audit E c allow false w = (w', Ok tt)
  /\ dir_at (w_root w') q /\ ~ dir_at (w_root w) q /\ w_state w' <> w_state w.
Proof. exact dry_refuted. Qed.
Print Assumptions C49_refuted.

(** ... but it changes no file and no directory goes, and it requests nothing. *)
Theorem C49_baseline : forall E c allow audit w w' x, world_ok E w -> c_dryrun c = true ->
  baseline_or_audit E c allow audit w = (w', x) ->
  (forall q, leaf_at (w_root w') q = leaf_at (w_root w) q)
  /\ (forall q, dir_at (w_root w) q -> dir_at (w_root w') q) /\ w_gets w' = w_gets w.
Proof. exact dry_baseline. Qed.
Print Assumptions C49_baseline.
Theorem C49_incremental : forall E c allow uri from w w' x, world_ok E w -> c_dryrun c = true ->
  incremental E c allow uri from w = (w', x) ->
  (forall q, leaf_at (w_root w') q = leaf_at (w_root w) q)
  /\ (forall q, dir_at (w_root w) q -> dir_at (w_root w') q) /\ w_gets w' = w_gets w.
Proof. exact dry_incremental. Qed.
Print Assumptions C49_incremental.
(** The client state is kept by the dry run of a baseline that has nothing to delete. *)
Theorem C49_state : forall E c allow audit w w' x, world_ok E w -> c_dryrun c = true ->
  (forall file u, local_file E c w file u -> listed E c u) ->
  baseline_or_audit E c allow audit w = (w', x) -> w_state w' = w_state w.
Proof. exact dry_state. Qed.
Print Assumptions C49_state.

Example C49_example : exists w', incremental (ex_env two_resources two_contents) (dry (ex_client one_mapping)) true None (Some $"2001") (start old_tree None)
    = (w', Ok tt) /\ leaf_at (w_root w') [$"d"; $"old"] = Some (File $"OLD" (day - SEC)).
Proof. apply witness; vm_compute; reflexivity. Qed.

(** C50: a file is removed only if deletion is allowed (and it is no dry run), and
    only if it is where a local file that the source does not list belongs ... *)
Theorem C50_baseline : forall E c allow audit w w' x, world_ok E w ->
  baseline_or_audit E c allow audit w = (w', x) ->
  forall q, file_at w q -> leaf_at (w_root w') q = None ->
  allow = true /\ c_dryrun c = false /\
  exists file u, local_file E c w file u /\ ~ listed E c u /\ place_of E c u q.
Proof. exact baseline_deletes. Qed.
Print Assumptions C50_baseline.
(** ... which is that file itself, if the mappings keep to themselves. *)
Theorem C50_that_file : forall E c allow audit w w' x, world_ok E w ->
  mappings_apart (c_mapper c) -> one_line_names (w_root w) ->
  baseline_or_audit E c allow audit w = (w', x) ->
  forall q, file_at w q -> leaf_at (w_root w') q = None ->
  exists file u, q = denotes (e_cwd E) file /\ local_file E c w file u /\ ~ listed E c u.
Proof. exact baseline_deletes_file. Qed.
Print Assumptions C50_that_file.
(** Incremental synchronization removes only what the change list says is deleted. *)
Theorem C50_incremental : forall E c allow clu from w w' x, world_ok E w ->
  incremental E c allow clu from w = (w', x) ->
  forall q, file_at w q -> leaf_at (w_root w') q = None ->
  allow = true /\ c_dryrun c = false /\
  exists uri changes r, changes_read E c clu uri changes /\ In r changes /\ r_change r = Some $"deleted"
    /\ place_of E c (r_uri r) q.
Proof. exact incremental_deletes. Qed.
Print Assumptions C50_incremental.

Example C50_example : world_ok (ex_env two_resources two_contents) (start old_tree None) /\ mappings_apart one_mapping /\ one_line_names old_tree
  /\ (exists w', baseline_or_audit (ex_env two_resources two_contents) (ex_client one_mapping) true false (start old_tree None) = (w', Ok tt)
       /\ leaf_at (w_root w') [$"d"; $"old"] = None)
  /\ (exists w', baseline_or_audit (ex_env two_resources two_contents) (ex_client one_mapping) false false (start old_tree None) = (w', Ok tt)
       /\ leaf_at (w_root w') [$"d"; $"old"] = Some (File $"OLD" (day - SEC)))
  /\ (exists w', incremental (ex_env two_resources two_contents) (ex_client one_mapping) true None (Some $"2001") (start old_tree None) = (w', Ok tt)
       /\ leaf_at (w_root w') [$"d"; $"old"] = None).
Proof.
  split; [apply old_world_ok|]. split; [apply one_mapping_apart|]. split; [apply old_tree_ok|].
  split; [apply witness; vm_compute; reflexivity|]. split; apply witness; vm_compute; reflexivity.
Qed.

(** C51: whatever is changed is at the place the mapper gives for a listed URI, or for
    the URI of a local file ... *)
Theorem C51_baseline : forall E c allow audit w w' x, world_ok E w ->
  baseline_or_audit E c allow audit w = (w', x) ->
  forall q, changed_at w w' q ->
  exists u, (listed E c u \/ exists file, local_file E c w file u) /\ place_of E c u q.
Proof. exact baseline_places. Qed.
Print Assumptions C51_baseline.
Theorem C51_incremental : forall E c allow clu from w w' x, world_ok E w ->
  incremental E c allow clu from w = (w', x) ->
  forall q, changed_at w w' q ->
  exists uri changes r, changes_read E c clu uri changes /\ In r changes /\ place_of E c (r_uri r) q.
Proof. exact incremental_places. Qed.
Print Assumptions C51_incremental.
(** ... but that place can be outside the mapped directories, *)
Theorem C51_refuted : exists E c allow w w' q, world_ok E w /\ mappings_apart (c_mapper c) /\ one_line_names (w_root w)
  /\ baseline_or_audit E c allow false w = (w', Ok tt) /\ changed_at w w' q /\ ~ in_mapped_dir E c q.
Proof. exact inside_refuted. Qed.
Print Assumptions C51_refuted.
(** unless no URI has two dots between slashes. *)
Theorem C51_inside : forall E c allow audit w w' x, world_ok E w ->
  mappings_apart (c_mapper c) -> one_line_names (w_root w) ->
  (forall u, listed E c u -> one_line u /\ no_dotdot u) ->
  baseline_or_audit E c allow audit w = (w', x) -> forall q, changed_at w w' q -> in_mapped_dir E c q.
Proof. exact baseline_inside. Qed.
Print Assumptions C51_inside.
Theorem C51_inside_incremental : forall E c allow clu from w w' x, world_ok E w ->
  (forall m, In m (c_mapper c) -> plain (src_uri m)) ->
  (forall uri changes r, changes_read E c clu uri changes -> In r changes -> one_line (r_uri r) /\ no_dotdot (r_uri r)) ->
  incremental E c allow clu from w = (w', x) -> forall q, changed_at w w' q -> in_mapped_dir E c q.
Proof. exact incremental_inside. Qed.
Print Assumptions C51_inside_incremental.

Example C51_example : (forall u, listed (ex_env two_resources two_contents) (ex_client one_mapping) u -> one_line u /\ no_dotdot u)
  /\ exists w', baseline_or_audit (ex_env two_resources two_contents) (ex_client one_mapping) true false (start old_tree None) = (w', Ok tt)
       /\ leaf_at (w_root w') [$"d"; $"x"; $"b"] = Some (File $"BBB" (day + SEC)).
Proof. split; [exact two_listed_plain|]. apply witness; vm_compute; reflexivity. Qed.

(** C52: without a mapping, or with an unsafe one, nothing happens but the error. *)
Theorem C52_none : forall E c allow audit w, c_mapper c = [] ->
  baseline_or_audit E c allow audit w = (w, Err ClientFatalError).
Proof. exact no_mapping. Qed.
Print Assumptions C52_none.
Theorem C52_none_incremental : forall E c allow clu from w, c_mapper c = [] ->
  incremental E c allow clu from w = (w, Err ClientFatalError).
Proof. exact no_mapping_incremental. Qed.
Print Assumptions C52_none_incremental.
Theorem C52_unsafe : forall E c allow clu from w, unsafe (c_mapper c) = Ok true ->
  baseline_or_audit E c allow false w = (w, Err ClientFatalError)
  /\ incremental E c allow clu from w = (w, Err ClientFatalError).
Proof. exact unsafe_mapping. Qed.
Print Assumptions C52_unsafe.
(** A source directory inside the destination, or the other way round, as far as C25
    says this is found. *)
Theorem C52_overlap : forall E c allow clu from w m cwd, In m (c_mapper c) ->
  ~ In ":"%char (src_uri m) \/ absolute (src_uri m) -> comparable (src_uri m) (dst_path m) ->
  inside (denotes cwd (src_uri m)) (denotes cwd (dst_path m)) \/ inside (denotes cwd (dst_path m)) (denotes cwd (src_uri m)) ->
  (exists e, baseline_or_audit E c allow false w = (w, Err e)) /\ exists e, incremental E c allow clu from w = (w, Err e).
Proof. exact overlapping. Qed.
Print Assumptions C52_overlap.

Example C52_example : unsafe [MkMap $"http://s.org/r" $"/d"; MkMap $"/a" $"/a/b"] = Ok true.
Proof. vm_compute. reflexivity. Qed.

(** C53: if the source lists a resource it has no authority over, nothing is done; the
    only call that does not fail is one that finds nothing to do. *)
Theorem C53_baseline : forall E c allow audit w w' x sm u, c_noauth c = false -> sitemap c = Ok sm ->
  listed E c u -> authority_over (c_strictauth c) sm u <> Ok true ->
  baseline_or_audit E c allow audit w = (w', x) ->
  no_effect w w' /\ (audit = false -> x = Ok tt -> exists s, w_log w' = w_log w ++ [Logged s] /\ st_word s = $"IN SYNC").
Proof. exact baseline_authority. Qed.
Print Assumptions C53_baseline.
(** The same for the change list the client finds by itself, *)
Theorem C53_incremental : forall E c allow clu from w w' x uri changes sm r, c_noauth c = false -> ~ explicit_uri clu ->
  changes_read E c clu uri changes -> sitemap c = Ok sm -> In r changes ->
  authority_over (c_strictauth c) uri (r_uri r) <> Ok true -> authority_over false sm (r_uri r) <> Ok true ->
  incremental E c allow clu from w = (w', x) -> no_effect w w' /\ exists e, x = Err e.
Proof. exact incremental_authority. Qed.
Print Assumptions C53_incremental.
(** but not for one whose URI is given. *)
Theorem C53_refuted : exists E c allow clu from w w' uri changes sm r q, world_ok E w /\ c_noauth c = false /\ sitemap c = Ok sm
  /\ changes_read E c clu uri changes /\ In r changes
  /\ authority_over (c_strictauth c) uri (r_uri r) = Ok false /\ authority_over false sm (r_uri r) = Ok false
  /\ incremental E c allow clu from w = (w', Ok tt) /\ place_of E c (r_uri r) q /\ changed_at w w' q.
Proof. exact foreign_refuted. Qed.
Print Assumptions C53_refuted.

Example C53_example : listed (ex_env foreign_list []) foreign_client $"http://other.net/r/x"
  /\ authority_over false $"http://s.org/r/resourcelist.xml" $"http://other.net/r/x" = Ok false
  /\ snd (baseline_or_audit (ex_env foreign_list []) foreign_client true false (start old_tree None)) = Err ClientFatalError.
Proof.
  split; [|split; vm_compute; reflexivity].
  eexists. split; [vm_compute; reflexivity|]. left. reflexivity.
Qed.

(** C54: at most [tries] requests are made, and another one only after a timeout. *)
Theorem C54_requests : forall E c r fn w w' x, update_resource E c r fn w = (w', x) ->
  exists k, (k <= if c_dryrun c then 0 else c_tries c)%nat /\ w_gets w' = w_gets w ++ repeat (r_uri r) k
  /\ forall i, (S i < k)%nat -> timed_out (e_get E (List.length (w_gets w) + i) (r_uri r)).
Proof. exact update_tries. Qed.
Print Assumptions C54_requests.
(** If the file can be written, the last of [k] requests succeeded, or failed with
    another error, or was the last one allowed; and the result says which. *)
Theorem C54_policy : forall E c r fn w w' x, c_dryrun c = false -> (0 < c_tries c)%nat -> can_write E w fn ->
  update_resource E c r fn w = (w', x) ->
  exists k o, (0 < k <= c_tries c)%nat /\ w_gets w' = w_gets w ++ repeat (r_uri r) k
  /\ (forall i, (S i < k)%nat -> timed_out (e_get E (List.length (w_gets w) + i) (r_uri r)))
  /\ o = e_get E (List.length (w_gets w) + (k - 1)) (r_uri r)
  /\ (timed_out o -> k = c_tries c)
  /\ match error_of o with
     | None => x = Ok 1
     | Some IOError | Some SocketTimeout => x = if c_ignore_failures c then Ok 0 else Err ClientFatalError
     | Some e => x = Err e
     end.
Proof. exact update_exact. Qed.
Print Assumptions C54_policy.

Example C54_example : can_write slow_env (start old_tree None) $"/d/a"
  /\ exists w', update_resource slow_env (ex_client one_mapping) resource_a $"/d/a" (start old_tree None) = (w', Ok 1)
       /\ w_gets w' = [$"http://s.org/r/a"; $"http://s.org/r/a"].
Proof.
  split; [do 2 eexists; split; vm_compute; reflexivity|]. apply witness; vm_compute; reflexivity.
Qed.

(** C55: a failed download is said to leave the old copy, but it does not if the
    failure comes after the answer has started. *)
Theorem C55_refuted : exists E c r fn w w' e, world_ok E w /\ c_dryrun c = false /\ can_write E w fn
  /\ update_resource E c r fn w = (w', Err e) /\ changed_at w w' (denotes (e_cwd E) fn) /\ file_at w (denotes (e_cwd E) fn).
Proof. exact broken_refuted. Qed.
Print Assumptions C55_refuted.
(** It does if all requests are refused, *)
Theorem C55_refused : forall E c r fn w w' x, (0 < c_tries c)%nat ->
  (forall n, exists e, e_get E n (r_uri r) = Refused e) ->
  update_resource E c r fn w = (w', x) -> forall q, leaf_at (w_root w') q = leaf_at (w_root w) q.
Proof. exact update_refused. Qed.
Print Assumptions C55_refused.
(** and in any case the file is as it was or holds what one of the requests made now has
    delivered (without a request only the time can differ). *)
Theorem C55_content : forall E c r fn w w' x, update_resource E c r fn w = (w', x) ->
  let q := denotes (e_cwd E) fn in
  leaf_at (w_root w') q = leaf_at (w_root w) q
  \/ exists d t, leaf_at (w_root w') q = Some (File d t)
     /\ ((exists n, (List.length (w_gets w) <= n < List.length (w_gets w'))%nat /\ delivered (e_get E n (r_uri r)) = Some d)
         \/ exists t0, c_tries c = O /\ leaf_at (w_root w) q = Some (File d t0)).
Proof. exact update_content. Qed.
Print Assumptions C55_content.

Example C55_example : forall n, exists e, e_get (ex_env two_resources []) n $"http://s.org/r/a" = Refused e.
Proof. intros n. exists IOError. reflexivity. Qed.

(** * Prop_ClientSync: what synchronization applies, records and reports *)

From Verif Require Import Py PyFacts Float64 W3C Url UrlAuthority PathSpec OsPath Mapper MapperSpec Resource Container
  ContainerSpec Capability Xml Sitemap ListIndex Hashes Disk DiskSpec Builder BuilderSpec ClientState ClientStateSpec ClientStateFacts
  Client ClientSpec ClientExamples ClientThms ClientSync ClientReport ClientStatus ClientSyncEx.

(** C56: only places of due changes can be different after an incremental run, *)
Theorem C56_only : forall E c allow clu from_dt w w' x, world_ok E w -> incremental E c allow clu from_dt w = (w', x) ->
  forall q, changed_at w w' q -> exists from uri changes r, started_from E c from_dt w from /\ changes_read E c clu uri changes
    /\ due c from changes r /\ place_of E c (r_uri r) q.
Proof. exact incremental_only. Qed.
Print Assumptions C56_only.
(** after a successful one all due changes are applied, *)
Theorem C56_applied : forall E c allow clu from_dt w w', world_ok E w -> c_dryrun c = false -> c_ignore_failures c = false -> (0 < c_tries c)%nat ->
  incremental E c allow clu from_dt w = (w', Ok tt) ->
  exists from uri changes, started_from E c from_dt w from /\ changes_read E c clu uri changes /\ applied E c allow from changes w w'.
Proof. exact incremental_applied. Qed.
Print Assumptions C56_applied.
(** and what is requested are due creations and updates, in the order of the list. *)
Theorem C56_order : forall E c allow clu from_dt w w' x, world_ok E w -> incremental E c allow clu from_dt w = (w', x) ->
  w_gets w' = w_gets w \/
  exists from uri changes asked, started_from E c from_dt w from /\ changes_read E c clu uri changes /\ subseq (map fst asked) changes
    /\ Forall (fun a => due c from changes (fst a) /\ (r_change (fst a) = Some $"created" \/ r_change (fst a) = Some $"updated")) asked
    /\ w_gets w' = w_gets w ++ in_turn asked.
Proof. exact incremental_order. Qed.
Print Assumptions C56_order.

Example C56_example : world_ok two_env (start old_tree None)
  /\ exists w', incremental two_env (ex_client one_mapping) true None (Some $"2001-01-01T00:00:00Z") (start old_tree None) = (w', Ok tt)
     /\ w_gets w' = [$"http://s.org/r/a"; $"http://s.org/r/x/b"].
Proof. split; [apply old_world_ok|]. exists all_done. split; [exact all_done_run|]. vm_compute. reflexivity. Qed.

(** C57: it is said that a change that is not applied is applied by a later run that
    allows it.  A deletion that is withheld is not, *)
Theorem C57_refuted : exists E c w w1 w2 from uri changes r q, world_ok E w /\ changes_read E c None uri changes
  /\ started_from E c (Some $"2001-01-01T00:00:00Z") w from /\ due c from changes r /\ r_change r = Some $"deleted" /\ place_of E c (r_uri r) q
  /\ incremental E c false None (Some $"2001-01-01T00:00:00Z") w = (w1, Ok tt)
  /\ incremental E c true None None w1 = (w2, Ok tt) /\ file_at w2 q.
Proof. exact withheld_lost. Qed.
Print Assumptions C57_refuted.
(** nor is a change that is shown in a dry run. *)
Theorem C57_dry_refuted : exists E c w w1 w2 from uri changes r q d, world_ok E w /\ changes_read E c None uri changes
  /\ started_from E c (Some $"2001-01-01T00:00:00Z") w from /\ due c from changes r /\ r_change r = Some $"updated" /\ place_of E c (r_uri r) q
  /\ incremental E (dry c) true None (Some $"2001-01-01T00:00:00Z") w = (w1, Ok tt)
  /\ incremental E c true None None w1 = (w2, Ok tt)
  /\ (forall n, e_get E n (r_uri r) = Data d) /\ (forall t, leaf_at (w_root w2) q <> Some (File d t)).
Proof. exact shown_lost. Qed.
Print Assumptions C57_dry_refuted.
(** If deletion is allowed and failures are not ignored, then a run, whether it succeeds
    or not, records nothing or has applied all due changes. *)
Theorem C57_applied_or_kept : forall E c clu from_dt w w' x, world_ok E w -> c_dryrun c = false -> c_ignore_failures c = false -> (0 < c_tries c)%nat ->
  incremental E c true clu from_dt w = (w', x) ->
  w_state w' = w_state w \/
  exists from uri changes, started_from E c from_dt w from /\ changes_read E c clu uri changes /\ applied E c true from changes w w'.
Proof. exact applied_or_kept. Qed.
Print Assumptions C57_applied_or_kept.
(** If all due changes are deletions that are not allowed, nothing is recorded. *)
Theorem C57_only_deletions : forall E c clu from_dt w w' x, world_ok E w ->
  (forall from uri changes r, started_from E c from_dt w from -> changes_read E c clu uri changes -> due c from changes r -> r_change r = Some $"deleted") ->
  incremental E c false clu from_dt w = (w', x) -> w_state w' = w_state w.
Proof. exact withheld_kept. Qed.
Print Assumptions C57_only_deletions.

Example C57_example : exists w', incremental two_env (ex_client one_mapping) true None (Some $"2001-01-01T00:00:00Z") (start old_tree None) = (w', Ok tt)
  /\ get_state unit_floats (w_state w') $"http://s.org/r/resourcelist.xml" = Ok (Some (day + 2 * SEC)).
Proof. exists all_done. split; [exact all_done_run|]. vm_compute. reflexivity. Qed.

(** C58: the time recorded is said not to go back.  It can in a baseline after an
    incremental run. *)
Theorem C58_refuted : exists E c w w1 w2 sm t1 t2, world_ok E w /\ sitemap c = Ok sm
  /\ incremental E c false None (Some $"2001-01-01T00:00:00Z") w = (w1, Ok tt) /\ get_state (e_floats E) (w_state w1) sm = Ok (Some t1)
  /\ baseline_or_audit E c true false w1 = (w2, Ok tt) /\ get_state (e_floats E) (w_state w2) sm = Ok (Some t2)
  /\ t2 < t1.
Proof. exact backwards. Qed.
Print Assumptions C58_refuted.
(** It does not in any number of incremental runs without a starting time: the times
    recorded for all sources are at least those before. *)
Theorem C58_incrementals : forall F f f', after_incrementals F f f' -> python_floats F ->
  forall calls, Forall call_ok calls -> f = file_after F calls ->
  forall site t, get_state F f site = Ok (Some t) -> exists t', get_state F f' site = Ok (Some t') /\ t <= t'.
Proof. exact incrementals_forward. Qed.
Print Assumptions C58_incrementals.
(** What is recorded is not before the start of the run nor before any change listed, and
    is the time of one of them. *)
Theorem C58_recorded : forall E c allow clu from_dt calls w w' x, world_ok E w -> python_floats (e_floats E) -> Forall call_ok calls ->
  w_state w = file_after (e_floats E) calls -> (forall sm, sitemap c = Ok sm -> sm <> []) ->
  incremental E c allow clu from_dt w = (w', x) ->
  w_state w' = w_state w \/
  exists sm from uri changes t, sitemap c = Ok sm /\ started_from E c from_dt w from /\ changes_read E c clu uri changes
    /\ Forall call_ok (calls ++ [Store sm t]) /\ w_state w' = file_after (e_floats E) (calls ++ [Store sm t])
    /\ (c_spec_1_0 c = false \/ c_dryrun c = false /\ c_ignore_failures c = false -> from <= t)
    /\ (forall r u, In r changes -> effective_time r = Some u -> u <= t)
    /\ (exists r, In r changes /\ (effective_time r = Some t \/ r_timestamp r = Some t)).
Proof. exact incremental_state. Qed.
Print Assumptions C58_recorded.

Example C58_example : python_floats unit_floats
  /\ exists w w', incremental two_env (ex_client one_mapping) true None None w = (w', Ok tt)
     /\ get_state unit_floats (w_state w) $"http://s.org/r/resourcelist.xml" = Ok (Some day)
     /\ get_state unit_floats (w_state w') $"http://s.org/r/resourcelist.xml" = Ok (Some (day + 2 * SEC)).
Proof. split; [exact unit_floats_ok|]. exact forward_example. Qed.

(** C59: a requested digest that the source provides is said to be used.  It is not: an
    audit finds a file with the wrong digest in sync. *)
Theorem C59_refuted : exists E c w w' u r n y, world_ok E w /\ In $"md5" (w_hashes w)
  /\ source_entry E c u r /\ digest $"md5" r = Some y /\ local_node E c w u n /\ y <> digest_function (e_digests E) $"md5" (data_of n)
  /\ baseline_or_audit E c false true w = (w', Ok tt) /\ map st_word (statuses (w_log w')) = [$"IN SYNC"] /\ w_hashes w' = [].
Proof. exact digest_unused. Qed.
Print Assumptions C59_refuted.
(** The digests left are those requested that the source does not provide, *)
Theorem C59_left : forall E c allow audit w w', world_ok E w -> baseline_or_audit E c allow audit w = (w', Ok tt) ->
  forall h, In h (w_hashes w') <-> In h (w_hashes w) /\ ~ source_uses E c h.
Proof. exact baseline_hashes. Qed.
Print Assumptions C59_left.
(** so a baseline never reports a digest that differs, *)
Theorem C59_silent : forall E c allow audit w w' x, world_ok E w -> baseline_or_audit E c allow audit w = (w', x) ->
  exists l, w_log w' = w_log w ++ l /\ forall n u, ~ In (HashDiffers n u) l.
Proof. exact baseline_digests. Qed.
Print Assumptions C59_silent.
(** and an incremental synchronization for which any are requested fails. *)
Theorem C59_incremental : forall E c allow clu from w w' x, w_hashes w <> [] -> incremental E c allow clu from w = (w', x) ->
  (exists e, x = Err e) /\ no_effect w w'.
Proof. exact incremental_hashes. Qed.
Print Assumptions C59_incremental.

(** C60: the status is said to be truthful.  It is not: the last status of an
    incremental run that did everything is NO CHANGES, *)
Theorem C60_refuted : exists E c w w' s s', world_ok E w /\ incremental E c true None (Some $"2001-01-01T00:00:00Z") w = (w', Ok tt)
  /\ statuses (w_log w') = [s; s'] /\ st_word s = $"CHANGES APPLIED"
  /\ st_word s' = $"NO CHANGES" /\ (st_created s', st_updated s', st_deleted s') = (1, 1, 1).
Proof. exact status_wrong. Qed.
Print Assumptions C60_refuted.
(** one in which all is withheld has CHANGES APPLIED, *)
Theorem C60_withheld_refuted : exists E c w w', world_ok E w /\ incremental E c false None (Some $"2001-01-01T00:00:00Z") w = (w', Ok tt)
  /\ w_root w' = w_root w /\ map st_word (statuses (w_log w')) = [$"CHANGES APPLIED"].
Proof. exact withheld_status. Qed.
Print Assumptions C60_withheld_refuted.
(** and a baseline that failed to download anything has SYNCED. *)
Theorem C60_failures_refuted : exists E c w w', world_ok E w /\ baseline_or_audit E c false false w = (w', Ok tt) /\ c_dryrun c = false
  /\ map st_word (statuses (w_log w')) = [$"NOT IN SYNC"; $"SYNCED"]
  /\ map (fun s => (st_created s, st_updated s)) (statuses (w_log w')) = [(1, 0); (0, 0)].
Proof. exact failures_synced. Qed.
Print Assumptions C60_failures_refuted.
(** A baseline or audit first reports truthfully what is to be done, and if something
    is and it is not an audit, then what was done. *)
Theorem C60_baseline : forall E c allow audit w w', world_ok E w -> baseline_or_audit E c allow audit w = (w', Ok tt) ->
  exists s, report E c w s /\
  (audit = true \/ in_sync E c w -> statuses (w_log w') = statuses (w_log w) ++ [s])
  /\ (audit = false -> ~ in_sync E c w -> exists s', statuses (w_log w') = statuses (w_log w) ++ [s; s'] /\ done_report E c allow w w' s').
Proof. exact baseline_status. Qed.
Print Assumptions C60_baseline.
(** An incremental run first reports truthfully whether changes are due; only the last
    status is always NO CHANGES. *)
Theorem C60_incremental : forall E c allow clu from_dt w w', world_ok E w -> incremental E c allow clu from_dt w = (w', Ok tt) ->
  exists from uri changes s, started_from E c from_dt w from /\ changes_read E c clu uri changes
  /\ (st_word s = $"NO CHANGES" <-> forall r, ~ due c from changes r) /\ (st_word s = $"CHANGES APPLIED" <-> exists r, due c from changes r)
  /\ ((forall r, due c from changes r -> allow = false /\ r_change r = Some $"deleted") -> statuses (w_log w') = statuses (w_log w) ++ [s] /\ no_effect w w')
  /\ ((exists r, due c from changes r /\ (allow = true \/ r_change r <> Some $"deleted")) ->
      exists s', statuses (w_log w') = statuses (w_log w) ++ [s; s'] /\ st_word s' = $"NO CHANGES").
Proof. exact incremental_status. Qed.
Print Assumptions C60_incremental.

Example C60_example : exists w', baseline_or_audit two_env (ex_client one_mapping) false false (start old_tree None) = (w', Ok tt)
  /\ map st_word (statuses (w_log w')) = [$"NOT IN SYNC"; $"PART SYNCED"].
Proof. exists part. split; [exact part_run|]. vm_compute. reflexivity. Qed.

(** C78: after a transfer the client says that the length differs exactly if it does,
    and that a digest does exactly if it was requested, is listed and differs. *)
Theorem C78_verified : forall E c r fn w w', update_resource E c r fn w = (w', Ok 1) ->
  exists l d t, w_log w' = w_log w ++ l /\ leaf_at (w_root w') (denotes (e_cwd E) fn) = Some (File d t)
  /\ (forall ev, In ev l -> (exists a b, ev = SizeDiffers (r_uri r) a b) \/ exists n, ev = HashDiffers n (r_uri r))
  /\ (forall a b, In (SizeDiffers (r_uri r) a b) l <-> r_length r = Some b /\ a = zlen d /\ a <> b)
  /\ (forall n, In (HashDiffers n (r_uri r)) l <-> In n (w_hashes w) /\ exists y, digest n r = Some y /\ y <> digest_function (e_digests E) n d).
Proof. exact transfer_verified. Qed.
Print Assumptions C78_verified.

Example C78_example : exists w', update_resource md5_env (ex_client one_mapping) listed_a $"/d/a" md5_start = (w', Ok 1)
  /\ w_log w' = [HashDiffers $"md5" $"http://s.org/r/a"].
Proof. apply witness; vm_compute; reflexivity. Qed.

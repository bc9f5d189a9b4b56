(** * Prop_Follow: following a source that changes *)

From Verif Require Import Py Float64 PathSpec OsPath Mapper MapperSpec Resource Container ContainerSpec ListIndex Disk DiskSpec Builder BuilderSpec
  ClientState ClientStateSpec ClientStateFacts Client ClientSpec ClientExamples ConvergeSpec ClientSyncEx FollowSpec Follow FollowEx.

(** C105: it is said that a successful incremental run makes the copy one of the source as
    it is now.  It does not if the copy has a resource that was created at the time
    recorded and is now removed: *)
Theorem C105_refuted : exists E c clu w w' from s es more u d,
  in_earnest c /\ well_mapped (e_cwd E) c /\ in_order (es ++ more) /\ (forall e, In e (es ++ more) -> below_base c (ev_uri e))
  /\ world_ok E w /\ copy_of (e_cwd E) c w (later s es) /\ recorded (e_floats E) c w from /\ (forall e, In e es -> ev_time e <= from)
  /\ sees E c clu from s (es ++ more) /\ incremental E c true clu None w = (w', Ok tt)
  /\ below_base c u /\ later s (es ++ more) u = None /\ has (e_cwd E) c w' u d.
Proof. exact newest_removed. Qed.
Print Assumptions C105_refuted.
(** If no such resource is there, then it does: whatever happened since the time from which
    the changes are read, the copy need only be right for what did not change since. *)
Theorem C105_caught_up : forall E c clu from_dt w w' x from s es,
  well_mapped (e_cwd E) c -> in_order es -> (forall e, In e es -> below_base c (ev_uri e)) ->
  world_ok E w -> started_from E c from_dt w from -> sees E c clu from s es -> right_before (e_cwd E) c w from s es ->
  incremental E c true clu from_dt w = (w', x) -> in_earnest c -> none_left (e_cwd E) c w from s es ->
  x = Ok tt \/ w_state w' <> w_state w -> copy_of (e_cwd E) c w' (later s es).
Proof. exact round_copy. Qed.
Print Assumptions C105_caught_up.
(** No such resource is there if the copy was one when the time was recorded, and those that
    were new then, at that time, still are. *)
Theorem C105_none_left : forall cwd c w from s es more, copy_of cwd c w (later s es) -> (forall e, In e more -> from <= ev_time e) ->
  (forall u, new_since from s es u -> later s es u <> None -> later s (es ++ more) u <> None) ->
  none_left cwd c w from s (es ++ more).
Proof. exact none_left_fresh. Qed.
Print Assumptions C105_none_left.

Example C105_example : well_mapped [] (ex_client one_mapping) /\ in_earnest (ex_client one_mapping)
  /\ in_order ((first_events ++ more_events) ++ last_events)
  /\ (forall e, In e ((first_events ++ more_events) ++ last_events) -> below_base (ex_client one_mapping) (ev_uri e))
  /\ sees env_2 (ex_client one_mapping) None (day + SEC + half) nothing ((first_events ++ more_events) ++ last_events)
  /\ none_left [] (ex_client one_mapping) run_1 (day + SEC + half) nothing ((first_events ++ more_events) ++ last_events)
  /\ incremental env_2 (ex_client one_mapping) true None None run_1 = (run_2, Ok tt)
  /\ leaf_at (w_root run_2) [$"d"; $"a"] = None /\ holds run_2 [$"d"; $"x"; $"b"] $"BBB" = true /\ holds run_2 [$"d"; $"c"] $"C" = true
  /\ holds run_1 [$"d"; $"a"] $"A2" = true.
Proof.
  split; [exact ac_mapped|]. split; [exact ac_earnest|]. split; [exact all_ordered|]. split; [exact all_below|]. split; [exact sees_2|].
  split; [exact none_2|]. split; [exact run_2_run|exact run_2_leaves].
Qed.

(** C106: it is said that any number of incremental runs, some of which fail, followed by
    one that succeeds, make the copy one of the source as it is then.  They do not if a
    resource is created, downloaded by a run that fails, and removed: *)
Theorem C106_refuted : exists cwd F c s es w es1 w1 more E clu from w' u d,
  python_floats F /\ (forall sm, sitemap c = Ok sm -> sm <> []) /\ well_mapped cwd c /\ in_earnest c
  /\ on_track cwd F c s es w /\ history cwd F c s es w es1 w1 /\ in_order (es1 ++ more) /\ (forall e, In e (es1 ++ more) -> below_base c (ev_uri e))
  /\ e_cwd E = cwd /\ e_floats E = F /\ recorded F c w1 from /\ (forall e, In e more -> from < ev_time e)
  /\ sees E c clu from s (es1 ++ more) /\ incremental E c true clu None w1 = (w', Ok tt)
  /\ below_base c u /\ later s es u = None /\ later s (es1 ++ more) u = None /\ has cwd c w' u d.
Proof. exact failed_then_removed. Qed.
Print Assumptions C106_refuted.
(** If no run meets such a resource, then they do, *)
Theorem C106_followed : forall cwd F c s, python_floats F -> (forall sm, sitemap c = Ok sm -> sm <> []) -> well_mapped cwd c -> in_earnest c ->
  forall es w es1 w1 more E clu from w', on_track cwd F c s es w -> history cwd F c s es w es1 w1 ->
  in_order (es1 ++ more) -> (forall e, In e (es1 ++ more) -> below_base c (ev_uri e)) ->
  e_cwd E = cwd -> e_floats E = F -> recorded F c w1 from -> sees E c clu from s (es1 ++ more) -> none_left cwd c w1 from s (es1 ++ more) ->
  incremental E c true clu None w1 = (w', Ok tt) -> copy_of cwd c w' (later s (es1 ++ more)).
Proof. exact followed. Qed.
Print Assumptions C106_followed.
(** and runs that fail do no harm: nothing is lost that a later run needs. *)
Theorem C106_on_track : forall cwd F c s, python_floats F -> (forall sm, sitemap c = Ok sm -> sm <> []) -> well_mapped cwd c -> in_earnest c ->
  forall es w es' w', history cwd F c s es w es' w' -> in_order es' -> (forall e, In e es' -> below_base c (ev_uri e)) ->
  on_track cwd F c s es w -> on_track cwd F c s es' w'.
Proof. exact history_track. Qed.
Print Assumptions C106_on_track.

Example C106_example : on_track [] unit_floats (ex_client one_mapping) nothing first_events copied
  /\ history [] unit_floats (ex_client one_mapping) nothing first_events copied (first_events ++ more_events) run_1
  /\ incremental env_1 (ex_client one_mapping) true None None copied = (run_1, Err ClientFatalError)
  /\ recorded unit_floats (ex_client one_mapping) run_1 (day + SEC + half).
Proof. split; [exact (proj2 copied_track)|]. split; [exact first_history|]. split; [exact run_1_run|exact run_1_time]. Qed.

(** C107: it is said that a baseline and then incremental runs make the copy one of the
    source as it is at the last successful run.  They do not if the baseline deletes a
    local file whose time is later than a change to come: *)
Theorem C107_refuted : exists E0 c w0 w s es more E clu from w' u d d',
  python_floats (e_floats E0) /\ (forall sm, sitemap c = Ok sm -> sm <> []) /\ in_earnest c /\ good_start E0 c w0 s es
  /\ baseline_or_audit E0 c true false w0 = (w, Ok tt) /\ copy_of (e_cwd E0) c w (later s es)
  /\ in_order (es ++ more) /\ (forall e, In e (es ++ more) -> below_base c (ev_uri e))
  /\ e_cwd E = e_cwd E0 /\ e_floats E = e_floats E0 /\ recorded (e_floats E0) c w from /\ sees E c clu from s (es ++ more)
  /\ none_left (e_cwd E0) c w from s (es ++ more) /\ incremental E c true clu None w = (w', Ok tt)
  /\ below_base c u /\ later s (es ++ more) u = Some d /\ has (e_cwd E0) c w' u d' /\ d <> d'.
Proof. exact late_missed. Qed.
Print Assumptions C107_refuted.
(** If no local file is that late, then they do, *)
Theorem C107_followed : forall E0 c w0 w s es es1 w1 more E clu from w', python_floats (e_floats E0) -> (forall sm, sitemap c = Ok sm -> sm <> []) -> in_earnest c ->
  good_start E0 c w0 s es -> no_later_file E0 c w0 es -> baseline_or_audit E0 c true false w0 = (w, Ok tt) ->
  history (e_cwd E0) (e_floats E0) c s es w es1 w1 ->
  in_order (es1 ++ more) -> (forall e, In e (es1 ++ more) -> below_base c (ev_uri e)) ->
  e_cwd E = e_cwd E0 -> e_floats E = e_floats E0 -> recorded (e_floats E0) c w1 from -> sees E c clu from s (es1 ++ more) ->
  none_left (e_cwd E0) c w1 from s (es1 ++ more) ->
  incremental E c true clu None w1 = (w', Ok tt) -> copy_of (e_cwd E0) c w' (later s (es1 ++ more)).
Proof. exact baseline_followed. Qed.
Print Assumptions C107_followed.
(** and after the baseline there is a copy in any case. *)
Theorem C107_copy : forall E c w w' s es, in_earnest c -> good_start E c w s es ->
  baseline_or_audit E c true false w = (w', Ok tt) -> copy_of (e_cwd E) c w' (later s es) /\ forall E', e_cwd E' = e_cwd E -> world_ok E' w'.
Proof. exact baseline_copy. Qed.
Print Assumptions C107_copy.
(** What a baseline records is the time of a listed resource or of a file that is not listed. *)
Theorem C107_recorded : forall E c allow calls w w', world_ok E w -> Forall call_ok calls ->
  w_state w = file_after (e_floats E) calls -> (forall sm, sitemap c = Ok sm -> sm <> []) ->
  (forall u n t, local_node E c w u n -> mtime_of n = Some t -> is_double t) ->
  baseline_or_audit E c allow false w = (w', Ok tt) ->
  w_state w' = w_state w \/
  exists sm t, sitemap c = Ok sm /\ Forall call_ok (calls ++ [Store sm t]) /\ w_state w' = file_after (e_floats E) (calls ++ [Store sm t])
    /\ ((exists u r, source_entry E c u r /\ r_timestamp r = Some t)
        \/ exists u n, local_node E c w u n /\ ~ listed E c u /\ mtime_of n = Some t).
Proof. exact baseline_state. Qed.
Print Assumptions C107_recorded.

Example C107_example : good_start two_env (ex_client one_mapping) empty_start nothing first_events
  /\ no_later_file two_env (ex_client one_mapping) empty_start first_events
  /\ baseline_or_audit two_env (ex_client one_mapping) true false empty_start = (copied, Ok tt)
  /\ recorded unit_floats (ex_client one_mapping) copied (day + SEC + half).
Proof. split; [exact first_start|]. split; [exact first_none|]. split; [exact copied_run|exact copied_time]. Qed.

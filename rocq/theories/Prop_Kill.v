(** * Prop_Kill: runs that are killed *)

From Verif Require Import Py Float64 PathSpec OsPath Mapper MapperSpec Resource Container ContainerSpec ListIndex Disk DiskSpec Builder BuilderSpec
  ClientState ClientStateSpec ClientStateFacts Client ClientSpec ClientExamples ConvergeEx ConvergeSpec ClientSyncEx FollowSpec FollowEx
  Kill KillSpec KillFacts KillBase KillRepeat KillEx.

(** C108: killing an incremental run, at any moment, also while it saves the time, does no
    more harm than a request that fails: if runs fail, or are killed, or are made anew, then
    the first one that succeeds makes the copy one of the source as it is then, *)
Theorem C108_followed : forall cwd F c s, python_floats F -> cut_floats F -> (forall sm, sitemap c = Ok sm -> sm <> []) -> well_mapped cwd c -> in_earnest c ->
  forall es w es1 w1 more E clu from w', on_track cwd F c s es w -> rough_history cwd F c s es w es1 w1 ->
  in_order (es1 ++ more) -> (forall e, In e (es1 ++ more) -> below_base c (ev_uri e)) ->
  e_cwd E = cwd -> e_floats E = F -> recorded F c w1 from -> sees E c clu from s (es1 ++ more) -> none_left cwd c w1 from s (es1 ++ more) ->
  incremental E c true clu None w1 = (w', Ok tt) -> copy_of cwd c w' (later s (es1 ++ more)).
Proof. exact rough_followed. Qed.
Print Assumptions C108_followed.
(** and nothing is lost that a later run needs. *)
Theorem C108_on_track : forall cwd F c s, python_floats F -> cut_floats F -> (forall sm, sitemap c = Ok sm -> sm <> []) -> well_mapped cwd c -> in_earnest c ->
  forall es w es' w', rough_history cwd F c s es w es' w' -> in_order es' -> (forall e, In e es' -> below_base c (ev_uri e)) ->
  on_track cwd F c s es w -> on_track cwd F c s es' w'.
Proof. exact rough_track. Qed.
Print Assumptions C108_on_track.
(** Wherever it is killed before it saves the time, the run has touched only places of changes that are due, and has
    not touched the recorded time. *)
Theorem C108_touched : forall E c allow clu from_dt w wk, world_ok E w -> while_incremental E c allow clu from_dt w wk ->
  world_ok E wk /\ w_state wk = w_state w /\
  exists from uri changes, started_from E c from_dt w from /\ changes_read E c clu uri changes /\
    forall q, changed_at w wk q -> exists r, due c from changes r /\ place_of E c (r_uri r) q.
Proof. exact killed_only. Qed.
Print Assumptions C108_touched.
(** The end of a run is one of the moments, as far as the files are concerned. *)
Theorem C108_moments : forall E c allow clu from_dt w w' x, world_ok E w -> incremental E c allow clu from_dt w = (w', x) ->
  w_root w' = w_root w \/ exists wk, while_incremental E c allow clu from_dt w wk /\ w_root w' = w_root wk.
Proof. exact incremental_end. Qed.
Print Assumptions C108_moments.

Example C108_example : on_track [] unit_floats (ex_client one_mapping) nothing first_events copied
  /\ while_incremental env_1 (ex_client one_mapping) true None None copied killed
  /\ rough_history [] unit_floats (ex_client one_mapping) nothing first_events copied (first_events ++ more_events) killed
  /\ recorded unit_floats (ex_client one_mapping) killed (day + SEC + half)
  /\ sees env_2 (ex_client one_mapping) None (day + SEC + half) nothing ((first_events ++ more_events) ++ last_events)
  /\ none_left [] (ex_client one_mapping) killed (day + SEC + half) nothing ((first_events ++ more_events) ++ last_events)
  /\ incremental env_2 (ex_client one_mapping) true None None killed = (after_kill, Ok tt)
  /\ holds killed [$"d"; $"x"; $"b"] $"B" = true /\ holds killed [$"d"; $"a"] $"A" = true
  /\ holds after_kill [$"d"; $"x"; $"b"] $"BBB" = true /\ leaf_at (w_root after_kill) [$"d"; $"a"] = None /\ holds after_kill [$"d"; $"c"] $"C" = true.
Proof.
  split; [exact (proj2 copied_track)|]. split; [exact killed_moment|]. split; [exact killed_history|]. split; [exact killed_time|].
  split; [exact sees_2|]. split; [exact killed_none|]. split; [exact after_kill_run|exact killed_leaves].
Qed.

(** C109: it is said that a baseline that failed or was killed need only be repeated.  That
    is not so if no length is listed and what was left is as new as the resource: *)
Theorem C109_refuted : exists E E' c s w w1 w' u d part,
  in_earnest c /\ startable E c w s /\ same_documents E E' /\ (forall v, listed E c v <-> s v <> None)
  /\ (forall k v x e, e_get E k v = Broken x e -> exists rest, s v = Some (x ++ rest)) /\ (forall k v x, e_get E k v <> Data x)
  /\ baseline_or_audit E c true false w = (w1, Err ClientFatalError)
  /\ below_base c u /\ s u = Some d /\ (forall k, e_get E' k u = Data d)
  /\ baseline_or_audit E' c true false w1 = (w', Ok tt) /\ has (e_cwd E') c w' u part /\ part <> d.
Proof. exact part_kept. Qed.
Print Assumptions C109_refuted.
(** If the list gives the lengths, then it is so: after any number of baselines that failed
    or were killed at any moment, the first that succeeds makes the copy one of the source. *)
Theorem C109_repeated : forall E E' c s w w1 w', in_earnest c -> startable E c w s -> repeated E c s w w1 -> same_documents E E' -> steady E' c s ->
  baseline_or_audit E' c true false w1 = (w', Ok tt) -> copy_of (e_cwd E) c w' s.
Proof. exact repeated_copy. Qed.
Print Assumptions C109_repeated.
(** Files that look like what is listed are right all the time. *)
Theorem C109_startable : forall E c s w w', (0 < c_tries c)%nat -> repeated E c s w w' -> startable E c w s -> startable E c w' s.
Proof. exact repeated_startable. Qed.
Print Assumptions C109_startable.
(** The end of a run is one of the moments, as far as the files are concerned. *)
Theorem C109_moments : forall E c allow w w' x, world_ok E w -> baseline_or_audit E c allow false w = (w', x) ->
  w_root w' = w_root w \/ exists wk, while_baseline E c allow w wk /\ w_root w' = w_root wk.
Proof. exact baseline_end. Qed.
Print Assumptions C109_moments.

Example C109_example : startable two_env (ex_client one_mapping) empty_start two_site
  /\ baseline_or_audit cut_env (ex_client one_mapping) true false empty_start = (base_1, Err ClientFatalError)
  /\ while_baseline two_env (ex_client one_mapping) true base_1 base_2
  /\ repeated two_env (ex_client one_mapping) two_site empty_start base_2
  /\ steady two_env (ex_client one_mapping) two_site
  /\ baseline_or_audit two_env (ex_client one_mapping) true false base_2 = (base_3, Ok tt)
  /\ holds base_1 [$"d"; $"x"; $"b"] $"B" = true /\ holds base_2 [$"d"; $"x"; $"b"] $"BB" = true
  /\ holds base_3 [$"d"; $"x"; $"b"] $"BBB" = true /\ holds base_3 [$"d"; $"a"] $"A" = true.
Proof.
  split; [exact empty_startable|]. split; [exact base_1_run|]. split; [exact base_2_moment|]. split; [exact two_repeated|].
  split; [exact two_steady|]. split; [exact base_3_run|exact base_leaves].
Qed.

(** * Prop_Meanwhile: a source that changes while the client is running *)

From Verif Require Import Py Float64 PathSpec OsPath Mapper MapperSpec Resource Container ContainerSpec ListIndex Disk DiskSpec Builder BuilderSpec
  ClientState ClientStateSpec ClientStateFacts Client ClientSpec ClientExamples ConvergeEx ConvergeSpec ClientSyncEx FollowSpec FollowEx
  Kill KillSpec MeanwhileSpec MeanwhileFacts MeanwhileEx.

(** C121: what happens at the source while the client is running is not lost.  Let there be
    any runs, in which requests give the content of the moment of the change list or of any
    later one, and which may succeed, fail or be killed.  Then the first run that succeeds
    while the source is quiet makes the copy one of the source as it is then, *)
Theorem C121_followed : forall cwd F c s, python_floats F -> cut_floats F -> (forall sm, sitemap c = Ok sm -> sm <> []) -> well_mapped cwd c -> in_earnest c ->
  forall es w es1 w1 more E clu from w', on_track cwd F c s es w -> busy_history cwd F c s es w es1 w1 ->
  in_order (es1 ++ more) -> (forall e, In e (es1 ++ more) -> below_base c (ev_uri e)) ->
  e_cwd E = cwd -> e_floats E = F -> recorded F c w1 from -> sees E c clu from s (es1 ++ more) -> none_left cwd c w1 from s (es1 ++ more) ->
  incremental E c true clu None w1 = (w', Ok tt) -> copy_of cwd c w' (later s (es1 ++ more)).
Proof. exact busy_copy. Qed.
Print Assumptions C121_followed.
(** and nothing is lost that a later run needs. *)
Theorem C121_on_track : forall cwd F c s, python_floats F -> cut_floats F -> (forall sm, sitemap c = Ok sm -> sm <> []) -> well_mapped cwd c -> in_earnest c ->
  forall es w es' w', busy_history cwd F c s es w es' w' -> in_order es' -> (forall e, In e es' -> below_base c (ev_uri e)) ->
  on_track cwd F c s es w -> on_track cwd F c s es' w'.
Proof. exact busy_track. Qed.
Print Assumptions C121_on_track.
(** When a run succeeds while the source is not quiet, each file is as its resource was at
    some moment of it, *)
Theorem C121_moments : forall cwd F c s, python_floats F -> cut_floats F -> (forall sm, sitemap c = Ok sm -> sm <> []) -> well_mapped cwd c -> in_earnest c ->
  forall es w es1 w1 more mid E clu from w', on_track cwd F c s es w -> busy_history cwd F c s es w es1 w1 ->
  in_order (es1 ++ more) -> (forall e, In e (es1 ++ more) -> below_base c (ev_uri e)) ->
  e_cwd E = cwd -> e_floats E = F -> recorded F c w1 from -> sees_while E c clu from s (es1 ++ more) mid -> none_left cwd c w1 from s (es1 ++ more) ->
  incremental E c true clu None w1 = (w', Ok tt) -> copy_while cwd c w' s (es1 ++ more) mid.
Proof. exact busy_followed. Qed.
Print Assumptions C121_moments.
(** so that the files of resources to which nothing happens meanwhile are right. *)
Theorem C121_untouched : forall cwd F c s, python_floats F -> cut_floats F -> (forall sm, sitemap c = Ok sm -> sm <> []) -> well_mapped cwd c -> in_earnest c ->
  forall es w es1 w1 more mid E clu from w' u, on_track cwd F c s es w -> busy_history cwd F c s es w es1 w1 ->
  in_order (es1 ++ more) -> (forall e, In e (es1 ++ more) -> below_base c (ev_uri e)) ->
  e_cwd E = cwd -> e_floats E = F -> recorded F c w1 from -> sees_while E c clu from s (es1 ++ more) mid -> none_left cwd c w1 from s (es1 ++ more) ->
  incremental E c true clu None w1 = (w', Ok tt) -> below_base c u -> (forall e, In e mid -> ev_uri e <> u) ->
  same_content cwd c w' (later s ((es1 ++ more) ++ mid)) u.
Proof. exact busy_untouched. Qed.
Print Assumptions C121_untouched.
(** It is the same with a baseline, and incremental runs can follow. *)
Theorem C121_baseline : forall E c w w' s es mid, python_floats (e_floats E) -> (forall sm, sitemap c = Ok sm -> sm <> []) -> in_earnest c ->
  good_start_while E c w s es mid -> no_later_file E c w es -> in_order (es ++ mid) ->
  baseline_or_audit E c true false w = (w', Ok tt) -> copy_while (e_cwd E) c w' s es mid /\ on_track (e_cwd E) (e_floats E) c s (es ++ mid) w'.
Proof. exact busy_baseline. Qed.
Print Assumptions C121_baseline.

(** A baseline and a run while the source is busy, and one when it is quiet.  After the
    second the copy is not that of a single moment. *)
Example C121_example : good_start_while env_b (ex_client one_mapping) empty_start nothing first_events mid_b
  /\ no_later_file env_b (ex_client one_mapping) empty_start first_events /\ in_order (first_events ++ mid_b)
  /\ baseline_or_audit env_b (ex_client one_mapping) true false empty_start = (busy_1, Ok tt)
  /\ sees_while env_r (ex_client one_mapping) None (day + SEC + half) nothing ((first_events ++ mid_b) ++ more_b) mid_r
  /\ incremental env_r (ex_client one_mapping) true None None busy_1 = (busy_2, Ok tt)
  /\ busy_history [] unit_floats (ex_client one_mapping) nothing (first_events ++ mid_b) busy_1 all_events busy_2
  /\ in_order (all_events ++ []) /\ (forall e, In e (all_events ++ []) -> below_base (ex_client one_mapping) (ev_uri e))
  /\ recorded unit_floats (ex_client one_mapping) busy_2 (day + 3 * SEC)
  /\ sees env_q (ex_client one_mapping) None (day + 3 * SEC) nothing (all_events ++ [])
  /\ none_left [] (ex_client one_mapping) busy_2 (day + 3 * SEC) nothing (all_events ++ [])
  /\ incremental env_q (ex_client one_mapping) true None None busy_2 = (busy_3, Ok tt)
  /\ holds busy_1 [$"d"; $"a"] $"A2" = true
  /\ holds busy_2 [$"d"; $"a"] $"A2" = true /\ holds busy_2 [$"d"; $"c"] $"CC" = true
  /\ holds busy_3 [$"d"; $"a"] $"A4" = true /\ holds busy_3 [$"d"; $"x"; $"b"] $"BBB" = true /\ holds busy_3 [$"d"; $"c"] $"CC" = true.
Proof.
  split; [exact busy_start|]. split; [exact busy_none|]. split; [exact order_b|]. split; [exact busy_1_run|]. split; [exact sees_r|].
  split; [exact busy_2_run|]. split; [exact busy_hist|]. split; [exact all_in_order|]. split; [exact all_are_below|].
  split; [exact busy_2_time|]. split; [exact sees_q|]. split; [exact none_q|]. split; [exact busy_3_run|exact busy_leaves].
Qed.

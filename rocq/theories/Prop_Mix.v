(** * Prop_Mix: baselines and incremental runs in any order *)

From Verif Require Import Py Float64 PathSpec OsPath Mapper MapperSpec Resource ResourceSpec Container ContainerSpec ListIndex Disk DiskSpec Builder BuilderSpec
  ClientState ClientStateSpec ClientStateFacts Client ClientSpec ClientExamples ClientSyncEx MirrorEx ConvergeSpec FollowSpec FollowEx Kill KillEx MeanwhileSpec MeanwhileEx MixSpec MixFacts MixEx.

(** C122: baselines and incremental runs can be mixed in any order.  Begin with an empty
    destination.  Let there be any runs of either kind, each of which may succeed, fail or be
    killed, also while it writes the state file; and let the source change before, between
    and during them.  Then the next run that succeeds makes the copy right: if it is a
    baseline, each file is as its resource was when the list was made, or at a later moment
    of the run, *)
Theorem C122_baseline : forall cwd F c w0 w w' es more mid E,
  python_floats F -> cut_floats F -> (forall sm, sitemap c = Ok sm -> sm <> []) -> in_earnest c ->
  orderly c ((es ++ more) ++ mid) -> empty_destination cwd c w0 -> mixed_history cwd F c ((es ++ more) ++ mid) [] w0 es w ->
  e_cwd E = cwd -> e_floats E = F -> lists_while E c (es ++ more) mid ->
  baseline_or_audit E c true false w = (w', Ok tt) -> copy_while cwd c w' void (es ++ more) mid.
Proof. exact mixed_baseline. Qed.
Print Assumptions C122_baseline.
(** and the same if it is an incremental run, whose change list goes back to the time that is
    recorded. *)
Theorem C122_incremental : forall cwd F c w0 w w' es more mid E,
  python_floats F -> cut_floats F -> (forall sm, sitemap c = Ok sm -> sm <> []) -> in_earnest c ->
  orderly c ((es ++ more) ++ mid) -> empty_destination cwd c w0 -> mixed_history cwd F c ((es ++ more) ++ mid) [] w0 es w ->
  e_cwd E = cwd -> e_floats E = F -> forall clu from, keeps_below E c -> recorded F c w from ->
  sees_while E c clu from void (es ++ more) mid -> gives_times E c clu -> none_left cwd c w from void (es ++ more) ->
  incremental E c true clu None w = (w', Ok tt) -> copy_while cwd c w' void (es ++ more) mid.
Proof. exact mixed_incremental. Qed.
Print Assumptions C122_incremental.
(** If the source is quiet during that run, the copy is one of the source. *)
Theorem C122_quiet : forall cwd c w s es, copy_while cwd c w s es [] -> copy_of cwd c w (later s es).
Proof. exact while_still. Qed.
Print Assumptions C122_quiet.
(** At all times between the runs the copy is right for the resources to which nothing
    happened since the time that is recorded, and no recorded time is after all events. *)
Theorem C122_kept : forall cwd F c w0 w es more mid,
  python_floats F -> cut_floats F -> (forall sm, sitemap c = Ok sm -> sm <> []) -> in_earnest c ->
  orderly c ((es ++ more) ++ mid) -> empty_destination cwd c w0 -> mixed_history cwd F c ((es ++ more) ++ mid) [] w0 es w ->
  kept cwd F c ((es ++ more) ++ mid) (es ++ more) w.
Proof. exact now_kept. Qed.
Print Assumptions C122_kept.

(** A history with a baseline that fails, one that is killed and one that succeeds while the
    source changes, an incremental run that fails and one that is killed while it writes
    the state file.  Then a resource is removed; a baseline follows, or an incremental run
    after the failed one, during which another resource is updated. *)
Example C122_example : in_earnest (ex_client one_mapping) /\ orderly (ex_client one_mapping) ((es_4 ++ more_f) ++ mid_f)
  /\ empty_destination [] (ex_client one_mapping) empty_start
  /\ mixed_history [] unit_floats (ex_client one_mapping) ((es_4 ++ more_f) ++ mid_f) [] empty_start es_4 mix_5
  /\ lists_while env_fb (ex_client one_mapping) (es_4 ++ more_f) mid_f
  /\ baseline_or_audit env_fb (ex_client one_mapping) true false mix_5 = (mix_6, Ok tt)
  /\ mixed_history [] unit_floats (ex_client one_mapping) ((es_4 ++ more_f) ++ mid_f) [] empty_start es_4 mix_4
  /\ keeps_below env_fi (ex_client one_mapping) /\ recorded unit_floats (ex_client one_mapping) mix_4 (day + SEC + half)
  /\ sees_while env_fi (ex_client one_mapping) None (day + SEC + half) void (es_4 ++ more_f) mid_f
  /\ gives_times env_fi (ex_client one_mapping) None /\ none_left [] (ex_client one_mapping) mix_4 (day + SEC + half) void (es_4 ++ more_f)
  /\ incremental env_fi (ex_client one_mapping) true None None mix_4 = (mix_7, Ok tt)
  /\ holds mix_6 [$"d"; $"c"] $"C" = true /\ holds mix_7 [$"d"; $"c"] $"CC" = true /\ leaf_at (w_root mix_7) [$"d"; $"a"] = None.
Proof.
  destruct mix_leaves as (_ & _ & _ & _ & _ & C6 & A7 & _ & C7).
  split; [exact ac_earnest|]. split; [exact es_all_orderly|]. split; [exact empty_ready|]. split; [exact mix_history_5|]. split; [exact lists_f|].
  split; [exact mix_6_run|]. split; [exact mix_history_4|]. split; [exact below_f|]. split; [exact mix_4_time|]. split; [exact sees_f|].
  split; [exact times_f|]. split; [exact none_f|]. split; [exact mix_7_run|]. split; [exact C6|]. split; [exact C7|exact A7].
Qed.

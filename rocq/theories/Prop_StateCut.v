(** * Prop_StateCut: runs that are killed while the time is recorded *)

From Verif Require Import Py Float64 PathSpec OsPath Mapper MapperSpec Resource Container ContainerSpec ListIndex Disk DiskSpec Builder BuilderSpec
  ClientState ClientStateSpec ClientStateFacts StateCut Client ClientSpec ClientExamples ConvergeEx ConvergeSpec ClientSyncEx FollowSpec FollowEx
  Kill KillSpec KillFacts KillEx.

(** C119: however often processes were killed while they stored times, the time found for a
    site is never after the one last stored, or being stored, for it: *)
Theorem C119_times : forall F f calls site t', python_floats F -> cut_floats F -> Forall (fun c => call_ok c /\ since_1970 c) calls -> left_by F f calls ->
  get_state F f site = Ok (Some t') -> exists t, remembers site calls (Some t) /\ t' <= t.
Proof. exact left_times. Qed.
Print Assumptions C119_times.
(** these are all moments at which a call may be cut off. *)
Theorem C119_moments : forall F f calls c f', left_by F f calls -> In f' (set_state_crash F f (site_of c) (time_of c)) ->
  left_by F f' calls \/ left_by F f' (calls ++ [c]).
Proof. exact crash_left. Qed.
Print Assumptions C119_moments.
(** If no time is found, an incremental run does not start and changes nothing. *)
Theorem C119_not_started : forall E c allow clu w w' x, (forall t, ~ recorded (e_floats E) c w t) ->
  incremental E c allow clu None w = (w', x) -> w' = w /\ exists e, x = Err e.
Proof. exact not_started. Qed.
Print Assumptions C119_not_started.
(** So a copy that is kept stays so when a run is killed while it saves the time. *)
Theorem C119_on_track : forall cwd F c s, python_floats F -> cut_floats F -> (forall sm, sitemap c = Ok sm -> sm <> []) -> well_mapped cwd c -> in_earnest c ->
  forall es more w E clu from w1 t, in_order (es ++ more) -> (forall e, In e (es ++ more) -> below_base c (ev_uri e)) -> on_track cwd F c s es w ->
  e_cwd E = cwd -> e_floats E = F -> recorded F c w from -> sees E c clu from s (es ++ more) -> none_left cwd c w from s (es ++ more) ->
  while_saving E c true clu None w w1 t -> SEC <= t -> on_track cwd F c s (es ++ more) w1.
Proof. exact saving_step. Qed.
Print Assumptions C119_on_track.
(** But it may take a person to go on: there are moments after which no time can be read or
    stored any more, for any site. *)
Theorem C119_stuck : exists F site t f, python_floats F /\ cut_floats F /\ call_ok (Store site t) /\ SEC <= t
  /\ In f (set_state_crash F None site (Some t))
  /\ forall site' ts, get_state F f site' = Err ConfigError /\ set_state F f site' ts = (f, Some ConfigError).
Proof. exact kill_blocks. Qed.
Print Assumptions C119_stuck.

Example C119_example : cut_floats unit_floats
  /\ while_saving env_s (ex_client one_mapping) true None None copied half_saved (day + 3 * SEC) /\ SEC <= day + 3 * SEC
  /\ rough_history [] unit_floats (ex_client one_mapping) nothing first_events copied (first_events ++ more_events) half_saved
  /\ recorded unit_floats (ex_client one_mapping) half_saved early /\ early < day + 3 * SEC
  /\ sees env_t (ex_client one_mapping) None early nothing ((first_events ++ more_events) ++ again_events)
  /\ none_left [] (ex_client one_mapping) half_saved early nothing ((first_events ++ more_events) ++ again_events)
  /\ incremental env_t (ex_client one_mapping) true None None half_saved = (after_half, Ok tt)
  /\ holds half_saved [$"d"; $"a"] $"A2" = true /\ holds after_half [$"d"; $"a"] $"A3" = true /\ holds after_half [$"d"; $"c"] $"C" = true.
Proof.
  split; [exact unit_cut|]. split; [exact half_moment|]. split; [apply Z.leb_le; vm_compute; reflexivity|]. split; [exact half_history|].
  split; [exact half_time|]. split; [apply Z.ltb_lt; vm_compute; reflexivity|]. split; [exact sees_half|]. split; [exact half_none_left|].
  split; [exact after_half_run|exact half_leaves].
Qed.
(** Times of two sites, the second one cut short. *)
Example C119_example_times :
  let f := file_after unit_floats [Store site_a (5 * SEC)] in let t := 7 * SEC in
  Forall (fun c => call_ok c /\ since_1970 c) [Store site_a (5 * SEC); Store site_c t]
  /\ exists f', left_by unit_floats f' [Store site_a (5 * SEC); Store site_c t]
     /\ In f' (set_state_crash unit_floats f site_c (Some t)) /\ f' <> f
     /\ get_state unit_floats f' site_a = Ok (Some (5 * SEC)) /\ exists t', get_state unit_floats f' site_c = Ok (Some t') /\ t' < t.
Proof. exact two_cut. Qed.

(** * MixSpec: baselines and incremental runs in any order *)

From Verif Require Import Py Float64 PathSpec OsPath Mapper MapperSpec Resource ResourceSpec Container ContainerSpec ListIndex Disk DiskSpec Builder BuilderSpec
  ClientState ClientStateSpec Client ClientSpec ConvergeSpec FollowSpec Kill MeanwhileSpec.

(** ** The source *)

(** There is nothing at first: all there is came by some event. *)
Definition void : site := fun _ => None.
(** The last that happened to a resource. *)
Definition last_event (u : str) (es : list happening) : option happening := find (fun e => str_eqb (ev_uri e) u) (rev es).
(** What happens to one resource happens at least a second apart. *)
Fixpoint spaced (es : list happening) : Prop :=
  match es with
  | [] => True
  | e :: es' => (forall e', In e' es' -> ev_uri e' = ev_uri e -> ev_time e + SEC <= ev_time e') /\ spaced es'
  end.
Record orderly (c : client) (es : list happening) : Prop := {
  od_order : in_order es;
  od_spaced : spaced es;
  od_since : forall e, In e es -> 0 <= ev_time e;
  od_below : forall e, In e es -> below_base c (ev_uri e)
}.
(** The source has a resource list that was made when these events had happened: it lists
    what there is, with the times of the last events, and lengths that are right if given.
    What is requested has the content of then, or of a later moment. *)
Record lists_while (E : env) (c : client) (es mid : list happening) : Prop := {
  lw_listed : forall u, listed E c u <-> later void es u <> None;
  lw_times : forall u r, source_entry E c u r -> exists e, last_event u es = Some e /\ r_timestamp r = Some (ev_time e);
  lw_lengths : forall u r d, source_entry E c u r -> later void es u = Some d -> agree (r_length r) (Some (zlen d));
  lw_content : forall k u d, e_get E k u = Data d -> exists a b, mid = a ++ b /\ later void (es ++ a) u = Some d
}.
(** The resource list has only resources below the bases of the mappings; and the entries of
    the change list have the time of the change as time of modification. *)
Definition keeps_below (E : env) (c : client) : Prop := forall u, listed E c u -> below_base c u.
Definition gives_times (E : env) (c : client) (clu : option str) : Prop :=
  forall uri changes r, changes_read E c clu uri changes -> In r changes -> r_change r = Some $"created" \/ r_change r = Some $"updated" ->
  exists t, change_time (c_spec_1_0 c) r = Some t /\ r_timestamp r = Some t.
(** Nothing happens within a second of the time of a run. *)
Definition clock_apart (E : env) (all : list happening) : Prop := forall e, In e all -> SEC <= Z.abs (e_now E - ev_time e).

(** ** The copy *)

(** The file for a resource is right, and has the time of the last event, in whole seconds. *)
Definition exact_copy (cwd : list str) (c : client) (w : world) (es : list happening) (u : str) : Prop :=
  match later void es u with
  | Some d => exists p e, src_to_dst (c_mapper c) u = Ok p /\ last_event u es = Some e
      /\ leaf_at (w_root w) (denotes cwd p) = Some (File d (whole_seconds (ev_time e)))
  | None => lacks cwd c w u
  end.
(** A file has the time of the last event of some moment, in whole seconds, and the content of
    that moment or of a later one. *)
Definition version (es : list happening) (u d : str) (t : Z) : Prop :=
  exists a x b e, es = a ++ x ++ b /\ last_event u a = Some e /\ t = whole_seconds (ev_time e) /\ later void (a ++ x) u = Some d.
(** It has a time at which nothing happens. *)
Definition off_times (all : list happening) (u : str) (t : Z) : Prop :=
  forall e, In e all -> ev_uri e = u -> SEC <= Z.abs (t - ev_time e).
(** The destination can be synchronized with any source that keeps below the bases. *)
Definition ready (cwd : list str) (c : client) (w : world) : Prop :=
  forall E, e_cwd E = cwd -> keeps_below E c -> synchronizable E c w.

Record kept (cwd : list str) (F : float_text) (c : client) (all es : list happening) (w : world) : Prop := {
  kp_ready : ready cwd c w;
  kp_state : exists calls, Forall call_ok calls /\ left_by F (w_state w) calls;
  kp_time : forall t, recorded F c w t -> exists e, In e es /\ t <= ev_time e;
  kp_files : forall u p n, below_base c u -> src_to_dst (c_mapper c) u = Ok p -> leaf_at (w_root w) (denotes cwd p) = Some n ->
    exists d t, n = File d t /\ (version es u d t \/ off_times all u t);
  kp_right : forall t, recorded F c w t -> forall u, below_base c u -> quiet_since t es u -> exact_copy cwd c w es u
}.

(** ** Runs *)

(** No local file that is not listed has a time that is after all events. *)
Definition no_later_extra (E : env) (c : client) (w : world) (es : list happening) : Prop :=
  forall u n t, local_node E c w u n -> ~ listed E c u -> mtime_of n = Some t -> is_double t /\ exists e, In e es /\ t <= ev_time e.
(** A run that would end in [w'] is killed while it writes the state file, client.py:321-323
    and 470-472: all files are as at the end, and some of the text is written. *)
Definition saved_in_part (E : env) (c : client) (w w' wk : world) : Prop :=
  exists sm, sitemap c = Ok sm /\ is_double (w_last w') /\ SEC <= w_last w'
    /\ set_state (e_floats E) (w_state w) sm (Some (w_last w')) = (w_state w', None)
    /\ w_root wk = w_root w' /\ In (w_state wk) (set_state_crash (e_floats E) (w_state w) sm (Some (w_last w'))).

(** A run of one or the other kind, which begins when the events [es] have happened; [mid]
    happens while it is running, and [all] is everything that ever happens. *)
Inductive mixed_run (cwd : list str) (F : float_text) (c : client) (all es mid : list happening) (w : world) : world -> Prop :=
| mr_baseline E w1 x :
    e_cwd E = cwd -> e_floats E = F -> lists_while E c es mid -> no_later_extra E c w es ->
    baseline_or_audit E c true false w = (w1, x) -> x = Ok tt \/ clock_apart E all -> mixed_run cwd F c all es mid w w1
| mr_baseline_killed E w1 :
    e_cwd E = cwd -> e_floats E = F -> lists_while E c es mid -> clock_apart E all ->
    while_baseline E c true w w1 -> mixed_run cwd F c all es mid w w1
| mr_baseline_saving E w' w1 :
    e_cwd E = cwd -> e_floats E = F -> lists_while E c es mid -> no_later_extra E c w es ->
    baseline_or_audit E c true false w = (w', Ok tt) -> saved_in_part E c w w' w1 -> mixed_run cwd F c all es mid w w1
| mr_incremental E clu from w1 x :
    e_cwd E = cwd -> e_floats E = F -> keeps_below E c -> recorded F c w from -> sees_while E c clu from void es mid -> gives_times E c clu ->
    none_left cwd c w from void es ->
    incremental E c true clu None w = (w1, x) -> x = Ok tt \/ clock_apart E all -> mixed_run cwd F c all es mid w w1
| mr_incremental_killed E clu from w1 :
    e_cwd E = cwd -> e_floats E = F -> keeps_below E c -> recorded F c w from -> sees_while E c clu from void es mid -> gives_times E c clu ->
    clock_apart E all -> while_incremental E c true clu None w w1 -> mixed_run cwd F c all es mid w w1
| mr_incremental_saving E clu from w' w1 :
    e_cwd E = cwd -> e_floats E = F -> keeps_below E c -> recorded F c w from -> sees_while E c clu from void es mid -> gives_times E c clu ->
    none_left cwd c w from void es ->
    incremental E c true clu None w = (w', Ok tt) -> saved_in_part E c w w' w1 -> mixed_run cwd F c all es mid w w1.

(** Any number of such runs, in any order. *)
Inductive mixed_history (cwd : list str) (F : float_text) (c : client) (all : list happening) : list happening -> world -> list happening -> world -> Prop :=
| mx_end es w : mixed_history cwd F c all es w es w
| mx_restart es w w1 es' w' : same_disk w w1 -> mixed_history cwd F c all es w1 es' w' -> mixed_history cwd F c all es w es' w'
| mx_run es w more mid w1 es' w' : mixed_run cwd F c all (es ++ more) mid w w1 ->
    mixed_history cwd F c all ((es ++ more) ++ mid) w1 es' w' -> mixed_history cwd F c all es w es' w'.

(** One can begin with a destination without files and without a record: no place of a
    resource is taken. *)
Record empty_destination (cwd : list str) (c : client) (w : world) : Prop := {
  em_ready : ready cwd c w;
  em_state : w_state w = None;
  em_files : forall u p, below_base c u -> src_to_dst (c_mapper c) u = Ok p -> leaf_at (w_root w) (denotes cwd p) = None
}.

(** * MeanwhileSpec: a source that changes while the client is running *)

From Verif Require Import Py Float64 PathSpec OsPath Mapper MapperSpec Resource Container ContainerSpec ListIndex Disk DiskSpec Builder BuilderSpec
  ClientState ClientStateSpec Client ClientSpec ConvergeSpec FollowSpec Kill.

(** Each file is as its resource was at some moment: when the list was made, or after some of
    what happened since.  It need not be the same moment for all files. *)
Definition copy_while (cwd : list str) (c : client) (w : world) (s : site) (es mid : list happening) : Prop :=
  forall u, below_base c u -> exists a b, mid = a ++ b /\ same_content cwd c w (later s (es ++ a)) u.

(** A history of incremental runs as in KillSpec, in which more happens at the source while
    the client is running, that is after the change list was made.  For a run that is killed
    before it saves the time it does not matter what the content is. *)
Inductive busy_history (cwd : list str) (F : float_text) (c : client) (s : site) : list happening -> world -> list happening -> world -> Prop :=
| bh_end es w : busy_history cwd F c s es w es w
| bh_restart es w w1 es' w' : same_disk w w1 -> busy_history cwd F c s es w1 es' w' -> busy_history cwd F c s es w es' w'
| bh_run es w more mid E clu from w1 x es' w' :
    e_cwd E = cwd -> e_floats E = F -> recorded F c w from ->
    sees_while E c clu from s (es ++ more) mid -> none_left cwd c w from s (es ++ more) ->
    incremental E c true clu None w = (w1, x) ->
    busy_history cwd F c s ((es ++ more) ++ mid) w1 es' w' -> busy_history cwd F c s es w es' w'
| bh_killed es w more E clu from w1 es' w' :
    e_cwd E = cwd -> e_floats E = F -> recorded F c w from ->
    changes_told E c clu from s (es ++ more) ->
    while_incremental E c true clu None w w1 ->
    busy_history cwd F c s (es ++ more) w1 es' w' -> busy_history cwd F c s es w es' w'
| bh_saving es w more mid E clu from w1 t es' w' :
    e_cwd E = cwd -> e_floats E = F -> recorded F c w from ->
    sees_while E c clu from s (es ++ more) mid -> none_left cwd c w from s (es ++ more) ->
    while_saving E c true clu None w w1 t -> SEC <= t ->
    busy_history cwd F c s ((es ++ more) ++ mid) w1 es' w' -> busy_history cwd F c s es w es' w'.

(** A source and a destination from which to start with a baseline, as in FollowSpec, but
    what is requested may have the content of a moment after the list was made. *)
Record good_start_while (E : env) (c : client) (w : world) (s : site) (es mid : list happening) : Prop := {
  gw_places : synchronizable E c w;
  gw_state : exists calls, Forall call_ok calls /\ left_by (e_floats E) (w_state w) calls;
  gw_listed : forall u, listed E c u <-> later s es u <> None;
  gw_content : forall k u d, e_get E k u = Data d -> exists a b, mid = a ++ b /\ later s (es ++ a) u = Some d;
  gw_listed_times : forall u r t, source_entry E c u r -> r_timestamp r = Some t -> exists e, In e es /\ t <= ev_time e;
  gw_recorded : forall t, recorded (e_floats E) c w t -> exists e, In e es /\ t <= ev_time e;
  gw_files : forall u q n, below_base c u -> place_of E c u q -> leaf_at (w_root w) q = Some n -> is_file n;
  gw_right : forall u r n, source_entry E c u r -> local_node E c w u n -> agrees r n -> exists d t, n = File d t /\ later s es u = Some d
}.

(** * KillSpec: runs that are killed, and runs that are repeated *)

From Verif Require Import Py Float64 PathSpec OsPath Mapper MapperSpec Resource Container ContainerSpec ListIndex Disk DiskSpec Builder BuilderSpec
  ClientState ClientStateSpec Client ClientSpec ConvergeSpec FollowSpec Kill.

(** A history of incremental runs as in FollowSpec, in which runs may also be killed
    before they save the state, or while they save it, and the program may be started
    anew. *)
Inductive rough_history (cwd : list str) (F : float_text) (c : client) (s : site) : list happening -> world -> list happening -> world -> Prop :=
| rh_end es w : rough_history cwd F c s es w es w
| rh_restart es w w1 es' w' : same_disk w w1 -> rough_history cwd F c s es w1 es' w' -> rough_history cwd F c s es w es' w'
| rh_run es w more E clu from w1 x es' w' :
    e_cwd E = cwd -> e_floats E = F -> recorded F c w from ->
    sees E c clu from s (es ++ more) -> none_left cwd c w from s (es ++ more) ->
    incremental E c true clu None w = (w1, x) ->
    rough_history cwd F c s (es ++ more) w1 es' w' -> rough_history cwd F c s es w es' w'
| rh_killed es w more E clu from w1 es' w' :
    e_cwd E = cwd -> e_floats E = F -> recorded F c w from ->
    sees E c clu from s (es ++ more) ->
    while_incremental E c true clu None w w1 ->
    rough_history cwd F c s (es ++ more) w1 es' w' -> rough_history cwd F c s es w es' w'
| rh_saving es w more E clu from w1 t es' w' :
    e_cwd E = cwd -> e_floats E = F -> recorded F c w from ->
    sees E c clu from s (es ++ more) -> none_left cwd c w from s (es ++ more) ->
    while_saving E c true clu None w w1 t -> SEC <= t ->
    rough_history cwd F c s (es ++ more) w1 es' w' -> rough_history cwd F c s es w es' w'.

(** ** Repeated baselines *)

(** A source that does not change: the list says what there is, with the lengths; what
    arrives is the content, or the beginning of it if the transfer breaks off. *)
Record steady (E : env) (c : client) (s : site) : Prop := {
  sd_listed : forall u, listed E c u <-> s u <> None;
  sd_lengths : forall u r d, source_entry E c u r -> s u = Some d -> r_length r = Some (zlen d);
  sd_content : forall k u d, e_get E k u = Data d -> s u = Some d;
  sd_parts : forall k u d e, e_get E k u = Broken d e -> exists rest, s u = Some (d ++ rest)
}.
(** The destination has only files below the mapped directories, and those that look like
    what is listed have the right content. *)
Record startable (E : env) (c : client) (w : world) (s : site) : Prop := {
  st_places : synchronizable E c w;
  st_files : forall u q n, below_base c u -> place_of E c u q -> leaf_at (w_root w) q = Some n -> is_file n;
  st_right : forall u r n, source_entry E c u r -> local_node E c w u n -> agrees r n -> exists d t, n = File d t /\ s u = Some d
}.
(** Baseline runs with the same documents, which fail or are killed; requests may turn out
    differently each time.  Between them anything may become of the status file: a run may
    also have been killed while it saved the time. *)
Definition same_documents (E E' : env) : Prop := e_fetch E' = e_fetch E /\ e_cwd E' = e_cwd E.
Inductive repeated (E : env) (c : client) (s : site) : world -> world -> Prop :=
| rp_end w : repeated E c s w w
| rp_restart w w1 w' : w_root w1 = w_root w -> repeated E c s w1 w' -> repeated E c s w w'
| rp_run w E1 allow w1 x w' : same_documents E E1 -> steady E1 c s ->
    baseline_or_audit E1 c allow false w = (w1, x) -> repeated E c s w1 w' -> repeated E c s w w'
| rp_killed w E1 allow w1 w' : same_documents E E1 -> steady E1 c s ->
    while_baseline E1 c allow w w1 -> repeated E c s w1 w' -> repeated E c s w w'.

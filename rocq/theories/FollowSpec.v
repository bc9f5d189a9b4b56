(** * FollowSpec: a source that changes, and a local copy that follows it *)

From Verif Require Import Py Float64 PathSpec OsPath Mapper MapperSpec Resource Container ContainerSpec ListIndex Disk DiskSpec Builder BuilderSpec
  ClientState ClientStateSpec Client ClientSpec ConvergeSpec.

(** ** The source *)

(** Something happens at the source: at a time, the resource with some URI gets a
    content (it is created or updated) or is removed. *)
Record happening : Type := Ev { ev_time : Z; ev_uri : str; ev_content : option str }.
(** What the source has: for each URI the content, if there is such a resource. *)
Definition site : Type := str -> option str.
Definition step (s : site) (e : happening) : site := fun u => if str_eqb (ev_uri e) u then ev_content e else s u.
(** What it has after some events, in this order. *)
Definition later (s : site) (es : list happening) : site := fold_left step es s.
(** The events are in order of time. *)
Fixpoint in_order (es : list happening) : Prop :=
  match es with
  | [] => True
  | e :: es' => (forall e', In e' es' -> ev_time e <= ev_time e') /\ in_order es'
  end.

(** The word for an event. *)
Definition word_for (s : site) (e : happening) : str :=
  match ev_content e with
  | None => $"deleted"
  | Some _ => match s (ev_uri e) with None => $"created" | Some _ => $"updated" end
  end.
(** An entry of a change list for an event: it has the URI, the word and the time of the
    event, and no time after that. *)
Definition entry_for (c : client) (s : site) (e : happening) (r : resource) : Prop :=
  r_uri r = ev_uri e /\ r_change r = Some (word_for s e) /\ change_time (c_spec_1_0 c) r = Some (ev_time e)
  /\ (forall t, r_timestamp r = Some t \/ r_ts_datetime r = Some t -> t <= ev_time e).
(** The entries of a change list tell what happened, starting with what there was. *)
Fixpoint tells (c : client) (s : site) (es : list happening) (rs : list resource) : Prop :=
  match es, rs with
  | [], [] => True
  | e :: es', r :: rs' => entry_for c s e r /\ tells c (step s e) es' rs'
  | _, _ => False
  end.
(** The first that happened to a resource at or after some time is that it was created. *)
Definition new_since (from : Z) (s : site) (es : list happening) (u : str) : Prop :=
  exists before e after, es = before ++ e :: after /\ from <= ev_time e /\ ev_uri e = u /\ ev_content e <> None
    /\ later s before u = None /\ (forall e', In e' before -> ev_uri e' = u -> ev_time e' < from).

(** ** The copy *)

(** The file for a URI has some content; there is no file for a URI. *)
Definition has (cwd : list str) (c : client) (w : world) (u d : str) : Prop :=
  exists p t, src_to_dst (c_mapper c) u = Ok p /\ leaf_at (w_root w) (denotes cwd p) = Some (File d t).
Definition lacks (cwd : list str) (c : client) (w : world) (u : str) : Prop :=
  exists p, src_to_dst (c_mapper c) u = Ok p /\ leaf_at (w_root w) (denotes cwd p) = None.
Definition same_content (cwd : list str) (c : client) (w : world) (s : site) (u : str) : Prop :=
  match s u with Some d => has cwd c w u d | None => lacks cwd c w u end.
(** The files for all URIs below the bases of the mappings have the content of the source. *)
Definition copy_of (cwd : list str) (c : client) (w : world) (s : site) : Prop :=
  forall u, below_base c u -> same_content cwd c w s u.

(** Nothing happened to the resource at or after some time. *)
Definition quiet_since (from : Z) (es : list happening) (u : str) : Prop :=
  forall e, In e es -> ev_uri e = u -> ev_time e < from.
(** The copy is right for resources to which nothing happened at or after some time. *)
Definition right_before (cwd : list str) (c : client) (w : world) (from : Z) (s : site) (es : list happening) : Prop :=
  forall u, below_base c u -> quiet_since from es u -> same_content cwd c w (later s es) u.
(** Resources that are new since some time and are not there any more are not in the copy. *)
Definition none_left (cwd : list str) (c : client) (w : world) (from : Z) (s : site) (es : list happening) : Prop :=
  forall u, below_base c u -> new_since from s es u -> later s es u = None -> lacks cwd c w u.

(** ** The client *)

(** The mappings keep to themselves, and so do their destinations. *)
Definition well_mapped (cwd : list str) (c : client) : Prop :=
  mappings_apart (c_mapper c)
  /\ (forall m, In m (c_mapper c) -> dst_path m <> [])
  /\ forall m m' q, In m (c_mapper c) -> In m' (c_mapper c) ->
       inside (denotes cwd (dst_path m)) q -> inside (denotes cwd (dst_path m')) q -> m = m'.
(** Nothing is only shown, and failures are not ignored. *)
Definition in_earnest (c : client) : Prop := c_dryrun c = false /\ c_ignore_failures c = false /\ (0 < c_tries c)%nat.
Definition recorded (F : float_text) (c : client) (w : world) (t : Z) : Prop :=
  exists sm, sitemap c = Ok sm /\ get_state F (w_state w) sm = Ok (Some t).

(** There is a change list that goes back to the time [from] and tells of these events. *)
Definition changes_told (E : env) (c : client) (clu : option str) (from : Z) (s : site) (es : list happening) : Prop :=
  exists old new uri changes, es = old ++ new /\ (forall e, In e old -> ev_time e < from)
    /\ changes_read E c clu uri changes /\ tells c (later s old) new changes.
(** What the client sees when these events have happened: a change list that goes back to
    the time [from] and tells of them, and the present content. *)
Record sees (E : env) (c : client) (clu : option str) (from : Z) (s : site) (es : list happening) : Prop := {
  se_list : changes_told E c clu from s es;
  se_content : forall k u d, e_get E k u = Data d -> later s es u = Some d
}.

(** The same if more happens after the change list was made and while the client reads:
    what is requested has the content of that moment or of a later one, which may be
    another one for each request. *)
Record sees_while (E : env) (c : client) (clu : option str) (from : Z) (s : site) (es mid : list happening) : Prop := {
  sw_list : changes_told E c clu from s es;
  sw_content : forall k u d, e_get E k u = Data d -> exists a b, mid = a ++ b /\ later s (es ++ a) u = Some d
}.

(** A copy that is kept: no time is recorded that is after all events, and the copy is
    right for resources to which nothing happened since the time recorded. *)
Record on_track (cwd : list str) (F : float_text) (c : client) (s : site) (es : list happening) (w : world) : Prop := {
  ot_world : forall E, e_cwd E = cwd -> world_ok E w;
  ot_state : exists calls, Forall call_ok calls /\ left_by F (w_state w) calls;
  ot_time : forall t, recorded F c w t -> exists e, In e es /\ t <= ev_time e;
  ot_right : forall t, recorded F c w t -> right_before cwd c w t s es
}.

(** A source and a destination from which to start with a baseline.  The list says what
    there is, what is requested has the present content, and no time is after all events.
    The destination has only files below the mapped directories, and those that look
    like what is listed are right. *)
Record good_start (E : env) (c : client) (w : world) (s : site) (es : list happening) : Prop := {
  gs_places : synchronizable E c w;
  gs_state : exists calls, Forall call_ok calls /\ left_by (e_floats E) (w_state w) calls;
  gs_listed : forall u, listed E c u <-> later s es u <> None;
  gs_content : forall k u d, e_get E k u = Data d -> later s es u = Some d;
  gs_listed_times : forall u r t, source_entry E c u r -> r_timestamp r = Some t -> exists e, In e es /\ t <= ev_time e;
  gs_recorded : forall t, recorded (e_floats E) c w t -> exists e, In e es /\ t <= ev_time e;
  gs_files : forall u q n, below_base c u -> place_of E c u q -> leaf_at (w_root w) q = Some n -> is_file n;
  gs_right : forall u r n, source_entry E c u r -> local_node E c w u n -> agrees r n -> exists d t, n = File d t /\ later s es u = Some d
}.

(** No local file has a time that is after all events. *)
Definition no_later_file (E : env) (c : client) (w : world) (es : list happening) : Prop :=
  forall u n t, local_node E c w u n -> mtime_of n = Some t -> is_double t /\ exists e, In e es /\ t <= ev_time e.

(** A history: between runs of incremental synchronization more happens at the source.
    The runs may fail, and may be made with different change lists. *)
Inductive history (cwd : list str) (F : float_text) (c : client) (s : site) : list happening -> world -> list happening -> world -> Prop :=
| hs_end es w : history cwd F c s es w es w
| hs_more es w more E clu from w1 x es' w' :
    e_cwd E = cwd -> e_floats E = F -> recorded F c w from ->
    sees E c clu from s (es ++ more) -> none_left cwd c w from s (es ++ more) ->
    incremental E c true clu None w = (w1, x) ->
    history cwd F c s (es ++ more) w1 es' w' -> history cwd F c s es w es' w'.

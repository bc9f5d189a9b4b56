(** * ClientSpec: what the properties of synchronization mean *)

From Verif Require Import Py Float64 W3C ClientState PathSpec OsPath Mapper MapperSpec UrlAuthority Resource ResourceSpec Container ContainerSpec
  Hashes Capability Xml Sitemap ListIndex Disk DiskSpec Builder BuilderSpec Client.

(** Where the client puts the resource with some URI. *)
Definition place_of (E : env) (c : client) (u : str) (q : list str) : Prop :=
  exists p, src_to_dst (c_mapper c) u = Ok p /\ q = denotes (e_cwd E) p.
Definition target (E : env) (c : client) (r : resource) (q : list str) : Prop := place_of E c (r_uri r) q.

(** A directory tree and a current directory as a system would have them. *)
Definition world_ok (E : env) (w : world) : Prop :=
  tree_ok (w_root w) /\ dir_at (w_root w) [] /\ Forall file_name (e_cwd E).

(** Neither the files nor the client state were changed, and nothing was requested. *)
Definition no_effect (w w' : world) : Prop :=
  w_root w' = w_root w /\ w_state w' = w_state w /\ w_gets w' = w_gets w.

(** What the source says: the URIs of its resource list. *)
Definition listed (E : env) (c : client) (u : str) : Prop :=
  exists src, find_resource_list (e_fetch E) c = Ok src /\ In u (map fst src).

(** What is found locally: files below the mapped directories, with the URI the
    mapper gives them. *)
Definition local_file (E : env) (c : client) (w : world) (file u : str) : Prop :=
  exists m rel n, In m (c_mapper c) /\ found_at [] (e_cwd E) (w_root w) (dst_path m) rel file n
    /\ dst_to_src (c_mapper c) file = Ok u.

(** The change list that is read: at the URI given or at the default one. *)
Definition explicit_uri (change_list_uri : option str) : Prop :=
  match change_list_uri with Some (_ :: _) => True | _ => False end.
Definition changes_read (E : env) (c : client) (change_list_uri : option str) (uri : str) (changes : list resource) : Prop :=
  sitemap_uri c (match change_list_uri with Some (x :: u) => x :: u | _ => c_change_list_name c end) = Ok uri
  /\ exists l, list_read change_list_kind (e_fetch E) false (new_list change_list_kind $"changelist" true None) uri = Ok l
     /\ changes = d_items (l_doc l).

(** There is a file (or anything else that is not a directory) at [q]. *)
Definition file_at (w : world) (q : list str) : Prop := leaf_at (w_root w) q <> None.
(** What is at [q] is different. *)
Definition changed_at (w w' : world) (q : list str) : Prop := leaf_at (w_root w') q <> leaf_at (w_root w) q.

(** The place is one of the mapped directories or below one. *)
Definition in_mapped_dir (E : env) (c : client) (q : list str) : Prop :=
  exists m, In m (c_mapper c) /\ inside (denotes (e_cwd E) (dst_path m ++ $"/")) q.
Definition no_dotdot (u : str) : Prop := ~ In $".." (split_on "/" u).

(** ** Requests *)
Definition timed_out (o : outcome) : Prop := o = Refused SocketTimeout \/ exists part, o = Broken part SocketTimeout.
Definition error_of (o : outcome) : option exn := match o with Refused e | Broken _ e => Some e | Data _ => None end.
Definition delivered (o : outcome) : option str := match o with Data d | Broken d _ => Some d | Refused _ => None end.

(** The directories of the file can be made and the file can be written. *)
Definition can_write (E : env) (w : world) (filename : str) : Prop :=
  exists root1 root2, mkpath (e_cwd E) (w_root w) (os_dirname filename) = Ok root1
    /\ write_file (e_cwd E) root1 filename [] 0 = Ok root2.

(** What there is to be after the resource was downloaded between [w] and [w']: the
    body of an answer to a request for it made in between, with the time listed, in
    whole seconds, or the present time. *)
Definition downloaded (E : env) (w w' : world) (r : resource) (n : node) : Prop :=
  exists k d, (List.length (w_gets w) <= k < List.length (w_gets w'))%nat /\ e_get E k (r_uri r) = Data d
    /\ n = File d (match r_timestamp r with Some t => whole_seconds t | None => e_now E end).

(** The changes to be applied: of those at or after the starting time, the last one for
    each resource, without resources that were created and deleted since. *)
Definition since (c : client) (from : Z) (changes : list resource) : list resource :=
  filter (fun r => match change_time (c_spec_1_0 c) r with Some t => from <=? t | None => false end) changes.
Definition due (c : client) (from : Z) (changes : list resource) (r : resource) : Prop :=
  last_entry (r_uri r) (since c from changes) = Some r /\ ~ came_and_went (r_uri r) (since c from changes).

(** Where an incremental synchronization starts: at the time given or the one stored. *)
Definition started_from (E : env) (c : client) (from_datetime : option str) (w : world) (from : Z) : Prop :=
  match from_datetime with
  | Some s => str_to_datetime s = Ok from
  | None => exists sm, sitemap c = Ok sm /\ get_state (e_floats E) (w_state w) sm = Ok (Some from)
  end.
(** Something there may be a file at: not empty, and not ending in a slash or a dot. *)
Definition file_path (p : str) : Prop := p <> [] /\ means_dir p = false.

(** Some resources are requested one after the other, each some number of times. *)
Definition in_turn (asked : list (resource * nat)) : list str := List.concat (map (fun a => repeat (r_uri (fst a)) (snd a)) asked).

(** All due changes were applied: what was created or updated is where the mapper says,
    with the content and time of the source, and what was deleted is gone, if deletion
    is allowed -- unless another due change has the same place. *)
Definition alone (E : env) (c : client) (from : Z) (changes : list resource) (r : resource) (q : list str) : Prop :=
  forall r', due c from changes r' -> place_of E c (r_uri r') q -> r_uri r' = r_uri r.
Definition applied (E : env) (c : client) (allow : bool) (from : Z) (changes : list resource) (w w' : world) : Prop :=
  forall r, due c from changes r ->
  (r_change r = Some $"created" \/ r_change r = Some $"updated" ->
   exists p, src_to_dst (c_mapper c) (r_uri r) = Ok p /\
     (alone E c from changes r (denotes (e_cwd E) p) ->
      exists f, leaf_at (w_root w') (denotes (e_cwd E) p) = Some f /\ downloaded E w w' r f))
  /\ (r_change r = Some $"deleted" -> allow = true ->
   exists p, src_to_dst (c_mapper c) (r_uri r) = Ok p /\
     (alone E c from changes r (denotes (e_cwd E) p) -> file_path p -> leaf_at (w_root w') (denotes (e_cwd E) p) = None)).

(** The client state file after some incremental synchronizations without a starting
    time, for any sources and into any destinations; between them the files may change. *)
Inductive after_incrementals (F : float_text) : option str -> option str -> Prop :=
| no_more f : after_incrementals F f f
| one_more E c allow clu w w' x f : e_floats E = F -> world_ok E w ->
    (forall sm, sitemap c = Ok sm -> sm <> []) ->
    c_spec_1_0 c = false \/ c_dryrun c = false /\ c_ignore_failures c = false ->
    incremental E c allow clu None w = (w', x) -> after_incrementals F (w_state w') f ->
    after_incrementals F (w_state w) f.

(** ** Reports *)

(** The digests of a resource by the names used in requests. *)
Definition digest (name : str) (r : resource) : option str :=
  if str_eqb name $"md5" then r_md5 r else if str_eqb name $"sha-1" then r_sha1 r
  else if str_eqb name $"sha-256" then r_sha256 r else None.
Definition digest_function (D : digests) (name data : str) : str :=
  if str_eqb name $"md5" then of_md5 D data else if str_eqb name $"sha-1" then of_sha1 D data else of_sha256 D data.
(** Some resource of the source list has a digest of this type. *)
Definition source_uses (E : env) (c : client) (name : str) : Prop :=
  exists src u r, find_resource_list (e_fetch E) c = Ok src /\ In (u, r) src /\ digest name r <> None.

(** The status lines in the log. *)
Definition statuses (l : list event) : list status := List.concat (map (fun ev => match ev with Logged s => [s] | _ => [] end) l).

(** What the source says of a resource, what there is locally, and that the two agree:
    the times differ by less than a second (as floats) and the lengths do not differ. *)
Definition source_entry (E : env) (c : client) (u : str) (r : resource) : Prop :=
  exists src, find_resource_list (e_fetch E) c = Ok src /\ In (u, r) src.
Definition local_node (E : env) (c : client) (w : world) (u : str) (n : node) : Prop :=
  exists m rel file, In m (c_mapper c) /\ found_at [] (e_cwd E) (w_root w) (dst_path m) rel file n
    /\ dst_to_src (c_mapper c) file = Ok u.
Definition agrees (r : resource) (n : node) : Prop :=
  (exists t m, r_timestamp r = Some t /\ mtime_of n = Some m /\ Z.abs (fsub m t) < SEC)
  /\ agree (r_length r) (Some (zlen (data_of n))).

(** What is to be done. *)
Definition to_create (E : env) (c : client) (w : world) (u : str) : Prop :=
  listed E c u /\ ~ exists n, local_node E c w u n.
Definition to_update (E : env) (c : client) (w : world) (u : str) : Prop :=
  exists r n, source_entry E c u r /\ local_node E c w u n /\ ~ agrees r n.
Definition to_delete (E : env) (c : client) (w : world) (u : str) : Prop :=
  ~ listed E c u /\ exists n, local_node E c w u n.
Definition in_sync (E : env) (c : client) (w : world) : Prop :=
  forall u, ~ to_create E c w u /\ ~ to_update E c w u /\ ~ to_delete E c w u.
(** There are [n] such URIs. *)
Definition counted (P : str -> Prop) (n : Z) : Prop := exists l, NoDup l /\ (forall u, In u l <-> P u) /\ zlen l = n.

(** A truthful report of what is to be done, and of what was done: PART SYNCED if
    deletions were withheld or failed. *)
Definition report (E : env) (c : client) (w : world) (s : status) : Prop :=
  (st_word s = $"IN SYNC" <-> in_sync E c w) /\ (st_word s = $"NOT IN SYNC" <-> ~ in_sync E c w)
  /\ counted (to_create E c w) (st_created s) /\ counted (to_update E c w) (st_updated s) /\ counted (to_delete E c w) (st_deleted s).
Definition done_report (E : env) (c : client) (allow : bool) (w w' : world) (s : status) : Prop :=
  (st_word s = $"SYNCED" \/ st_word s = $"PART SYNCED")
  /\ counted (to_delete E c w) (st_deleted s)
  /\ (st_word s = $"SYNCED" -> forall u, to_delete E c w u -> exists q, place_of E c u q /\ leaf_at (w_root w') q = None)
  /\ (allow = false \/ c_dryrun c = true -> (st_word s = $"SYNCED" <-> forall u, ~ to_delete E c w u))
  /\ (c_dryrun c = false -> c_ignore_failures c = false -> (0 < c_tries c)%nat ->
      counted (to_create E c w) (st_created s) /\ counted (to_update E c w) (st_updated s)).

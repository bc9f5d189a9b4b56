(** * Kill: the moments of a run at which the process may be killed

    What is left then are the files and the client state file; the rest of the world
    is only in the memory of the process.  The relations say which worlds a run passes
    through; they allow for more moments than there are, since the checks that come
    before the transfers, the number of tries and how files are buffered are left out. *)

From Verif Require Import Py Float64 OsPath Mapper Resource Container Sitemap ListIndex Disk Builder ClientState Client ClientSpec.

(** distutils.dir_util.mkpath(path), client.py:497-498: one directory is made after the
    other. *)
Definition while_making_dirs (E : env) (filename : str) (w wk : world) : Prop :=
  os_dirname filename <> [] /\ exists k root, make_dirs (firstn k (resolve (e_cwd E) (os_dirname filename))) (w_root w) = Some root /\ wk = with_root root w.

(** The requests, client.py:506-532: before one; after the file was opened, which empties
    it, with some of the data written; or after a time out. *)
Inductive while_downloading (E : env) (uri filename : str) : world -> world -> Prop :=
| dl_asking w : while_downloading E uri filename w w
| dl_writing w d1 d2 root : delivered (e_get E (List.length (w_gets w)) uri) = Some (d1 ++ d2) ->
    write_file (e_cwd E) (w_root w) filename d1 (e_now E) = Ok root ->
    while_downloading E uri filename w (with_root root (with_gets (w_gets w ++ [uri]) w))
| dl_again w w1 wk : attempt E uri filename w = (w1, Err SocketTimeout) ->
    while_downloading E uri filename w1 wk -> while_downloading E uri filename w wk.

(** update_resource(resource, filename), client.py:481-548: while directories are made,
    during the requests, or at the end. *)
Inductive while_updating (E : env) (c : client) (r : resource) (filename : str) (w : world) : world -> Prop :=
| up_dirs wk : while_making_dirs E filename w wk -> while_updating E c r filename w wk
| up_transfer root wk : c_dryrun c = false -> mkpath (e_cwd E) (w_root w) (os_dirname filename) = Ok root ->
    while_downloading E (r_uri r) filename (with_root root w) wk -> while_updating E c r filename w wk
| up_end wk x : update_resource E c r filename w = (wk, x) -> while_updating E c r filename w wk.

(** The loop over the changes, client.py:449-467: during an update or a creation, or
    between changes.  A file is removed at once. *)
Inductive while_applying (E : env) (c : client) (allow_deletion : bool) : list resource -> world -> world -> Prop :=
| ap_start rs w : while_applying E c allow_deletion rs w w
| ap_update r rs p w wk : change_is $"updated" r || change_is $"created" r = true -> src_to_dst (c_mapper c) (r_uri r) = Ok p ->
    while_updating E c r p w wk -> while_applying E c allow_deletion (r :: rs) w wk
| ap_next r rs w w1 n wk : apply_changes E c allow_deletion [r] w = (w1, Ok n) ->
    while_applying E c allow_deletion rs w1 wk -> while_applying E c allow_deletion (r :: rs) w wk.

(** incremental(...), client.py:331-479, up to the writing of the state file. *)
Definition same_disk (w w' : world) : Prop := w_root w' = w_root w /\ w_state w' = w_state w.
Definition while_incremental (E : env) (c : client) (allow_deletion : bool) (change_list_uri from_datetime : option str) (w wk : world) : Prop :=
  exists from uri l kept n w0, start_time E c from_datetime w = Ok from
    /\ sitemap_uri c (match change_list_uri with Some (x :: u) => x :: u | _ => c_change_list_name c end) = Ok uri
    /\ list_read change_list_kind (e_fetch E) false (new_list change_list_kind $"changelist" true None) uri = Ok l
    /\ prune_updates_before (c_spec_1_0 c) from (d_items (l_doc l)) = (kept, Ok n)
    /\ same_disk w w0 /\ w_gets w0 = w_gets w /\ while_applying E c allow_deletion (fst (prune_dupes kept)) w0 wk.

(** The writing of the state file, client.py:470-472: all files are as at the end of the
    run, and some of the text with the time t is written. *)
Definition while_saving (E : env) (c : client) (allow_deletion : bool) (change_list_uri from_datetime : option str) (w wk : world) (t : Z) : Prop :=
  exists w' x sm, incremental E c allow_deletion change_list_uri from_datetime w = (w', x) /\ sitemap c = Ok sm /\ w_last w' = t /\ is_double t
    /\ set_state (e_floats E) (w_state w) sm (Some t) = (w_state w', None)
    /\ w_root wk = w_root w' /\ In (w_state wk) (set_state_crash (e_floats E) (w_state w) sm (Some t)).

(** The first two loops of baseline_or_audit, client.py:303-312. *)
Inductive while_transferring (E : env) (c : client) : list resource -> world -> world -> Prop :=
| tr_start rs w : while_transferring E c rs w w
| tr_update r rs p w wk : src_to_dst (c_mapper c) (r_uri r) = Ok p -> while_updating E c r p w wk -> while_transferring E c (r :: rs) w wk
| tr_next r rs w w1 n wk : for_each c (update_resource E c) [r] w = (w1, Ok n) ->
    while_transferring E c rs w1 wk -> while_transferring E c (r :: rs) w wk.
(** The third one, client.py:313-317. *)
Inductive while_deleting (E : env) (c : client) (allow_deletion : bool) : list resource -> world -> world -> Prop :=
| de_start rs w : while_deleting E c allow_deletion rs w w
| de_next r rs w w1 n wk : for_each c (delete_resource E c allow_deletion) [r] w = (w1, Ok n) ->
    while_deleting E c allow_deletion rs w1 wk -> while_deleting E c allow_deletion (r :: rs) w wk.

(** baseline_or_audit(allow_deletion, False), client.py:244-329, up to the writing of the
    state file. *)
Definition while_baseline (E : env) (c : client) (allow_deletion : bool) (w wk : world) : Prop :=
  exists src dst cmp w0, find_resource_list (e_fetch E) c = Ok src /\ same_disk w w0 /\ w_gets w0 = w_gets w
    /\ w_hashes w0 = discard_all (rl_hashes src) (w_hashes w)
    /\ scan E c w0 = Ok dst /\ compare 0 1 dst src = Ok cmp
    /\ (while_transferring E c (rl_iter (created cmp) ++ rl_iter (updated cmp)) w0 wk
        \/ exists w1 n, for_each c (update_resource E c) (rl_iter (created cmp) ++ rl_iter (updated cmp)) w0 = (w1, Ok n)
           /\ while_deleting E c allow_deletion (rl_iter (deleted cmp)) w1 wk).

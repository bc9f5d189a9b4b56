(** * Prop_Sync: properties of resync-sync *)

From Verif Require Import Py Float64 W3C PathSpec OsPath UrlAuthority Mapper MapperSpec Resource ResourceSpec Container ContainerSpec Opener Hashes ListIndex ListIndexSpec
  Disk DiskSpec Builder BuilderSpec ClientState Client ClientSpec ClientExamples ClientSyncEx ConvergeSpec ConvergeEx
  StoredSpec Build PublishSpec PublishEx BuildSpec BuildRuns MirrorSpec MirrorEx Sync SyncSpec SyncFacts SyncEx.

(** C100: the exit status does not tell that a synchronization failed: when a resource
    cannot be downloaded it is 0, and the listed resource is not there. *)
Theorem C100_refuted : exists E a hash ms c w w' u q, sync_options a hash ms /\ as_options a ms c /\ full_baseline a /\ synchronizable E c w
  /\ resync_sync E a w = (w', [], FatalShown) /\ exit_status FatalShown = 0
  /\ listed E c u /\ place_of E c u q /\ leaf_at (w_root w') q = None.
Proof. exact unnoticed. Qed.
Print Assumptions C100_refuted.
(** It is not 0 only after an exception that is not one of the client's fatal errors. *)
Theorem C100_status : forall E a w w' out x, resync_sync E a w = (w', out, x) ->
  (exit_status x = 0 <-> x = Done \/ x = FatalShown) /\ (exit_status x <> 0 -> exists e, x = Died e /\ e <> ClientFatalError).
Proof. exact sync_status. Qed.
Print Assumptions C100_status.
(** If no error is shown either, a full baseline synchronization has left every listed
    resource in its place, and no other file below the destinations. *)
Theorem C100_done : forall E a hash ms c w w' out, sync_options a hash ms -> as_options a ms c -> full_baseline a -> synchronizable E c w ->
  resync_sync E a w = (w', out, Done) ->
  (forall u r, source_entry E c u r -> exists q n, place_of E c u q /\ leaf_at (w_root w') q = Some n
     /\ (downloaded E w w' r n \/ leaf_at (w_root w) q = Some n /\ agrees r n)
     /\ forall t, r_timestamp r = Some t -> exists m, mtime_of n = Some m /\ Z.abs (m - t) < SEC)
  /\ (forall file u, local_file E c w' file u -> listed E c u).
Proof. exact sync_done. Qed.
Print Assumptions C100_done.

Example C100_example : sync_options (options Baseline None (Some 2)) None one_mapping /\ full_baseline (options Baseline None (Some 2))
  /\ as_options (options Baseline None (Some 2)) one_mapping (ex_client one_mapping)
  /\ synchronizable two_env (ex_client one_mapping) (start old_tree None)
  /\ exists w', resync_sync two_env (options Baseline None (Some 2)) (start old_tree None) = (w', [], Done)
     /\ leaf_at (w_root w') [$"d"; $"x"; $"b"] = Some (File $"BBB" (day + SEC)) /\ leaf_at (w_root w') [$"d"; $"old"] = None.
Proof. split; [apply options_say|]. split; [exact full_options|]. split; [apply is_as_options|]. split; [exact two_synchronizable|exact two_done]. Qed.

(** C101: --exclude does not protect files: with --delete a file whose name matches goes. *)
Theorem C101_refuted : exists E a w w' dir name pats, world_ok E w
  /\ s_exclude a = Some pats /\ excluded_by pats name
  /\ resync_sync E a w = (w', [], Done) /\ file_at w (dir ++ [name]) /\ ~ file_at w' (dir ++ [name]).
Proof. exact excluded_removed. Qed.
Print Assumptions C101_refuted.
(** The option makes no difference at all to what is done. *)
Theorem C101_ignored : forall E a w l, s_mode a <> Parse -> resync_sync E (excluding l a) w = resync_sync E a w.
Proof. exact sync_excluding. Qed.
Print Assumptions C101_ignored.

(** C102: what the options promise: --audit and --parse change nothing and download
    nothing, *)
Theorem C102_look : forall E a w w' out x, s_mode a = Audit \/ s_mode a = Parse ->
  resync_sync E a w = (w', out, x) -> no_effect w w'.
Proof. exact sync_looks. Qed.
Print Assumptions C102_look.
(** --dryrun changes no file, removes no directory and downloads nothing, *)
Theorem C102_dryrun : forall E a w w' out x, world_ok E w -> s_dryrun a = true -> resync_sync E a w = (w', out, x) ->
  (forall q, leaf_at (w_root w') q = leaf_at (w_root w) q)
  /\ (forall q, dir_at (w_root w) q -> dir_at (w_root w') q) /\ w_gets w' = w_gets w.
Proof. exact sync_dry. Qed.
Print Assumptions C102_dryrun.
(** without --delete no file goes, *)
Theorem C102_keeps : forall E a w w' out x, world_ok E w -> s_delete a = false -> resync_sync E a w = (w', out, x) ->
  forall q, file_at w q -> file_at w' q.
Proof. exact sync_keeps. Qed.
Print Assumptions C102_keeps.
(** and without a mapping nothing is done and an error shown, whatever else is asked for. *)
Theorem C102_no_map : forall E a w hash, s_map a = [] -> s_mode a <> Parse -> sync_options a hash [] ->
  exists w', resync_sync E a w = (w', [], FatalShown) /\ no_effect w w'.
Proof. exact sync_nowhere. Qed.
Print Assumptions C102_no_map.

Example C102_example : exists w', resync_sync two_env (options Incremental None (Some 2)) (start old_tree None) = (w', [], Done)
  /\ leaf_at (w_root w') [$"d"; $"x"; $"b"] = Some (File $"BBB" (day + SEC)) /\ leaf_at (w_root w') [$"d"; $"old"] = None.
Proof. exact incremental_done. Qed.

(** C103: with --tries n each resource is requested at most n times in a run, 20 times
    without the option and never in a dry run ... *)
Theorem C103_bound : forall E a w w' out x, world_ok E w -> resync_sync E a w = (w', out, x) ->
  forall u, exists k, requested w w' u k
    /\ (forall n, s_tries a = Some n -> n <> 0 -> Z.of_nat k <= Z.max 0 n)
    /\ (s_tries a = None \/ s_tries a = Some 0 -> Z.of_nat k <= 20)
    /\ (s_dryrun a = true -> k = O).
Proof. exact sync_tries_bound. Qed.
Print Assumptions C103_bound.
(** ... but with --tries 0, too, there are 20 requests, *)
Theorem C103_refuted : exists E a w w' u, world_ok E w /\ s_tries a = Some 0
  /\ resync_sync E a w = (w', [], FatalShown) /\ requested w w' u 20.
Proof. exact never_means_twenty. Qed.
Print Assumptions C103_refuted.
(** and with --tries -1 there is none, but an old file is given the new time: the run ends
    well and the next audit finds everything in sync although the data is old. *)
Theorem C103_negative : exists E a hash ms c w w' w2 u q d d', world_ok E w /\ sync_options a hash ms /\ as_options a ms c /\ s_mode a = Baseline
  /\ s_dryrun a = false /\ s_ignore_failures a = false /\ s_tries a = Some (-1)
  /\ resync_sync E a w = (w', [], Done) /\ w_gets w' = w_gets w
  /\ listed E c u /\ place_of E c u q /\ (forall k, e_get E k u = Data d)
  /\ (exists t, leaf_at (w_root w') q = Some (File d' t)) /\ d' <> d
  /\ resync_sync E (options Audit None None) w' = (w2, [], Done)
  /\ exists s, w_log w2 = w_log w' ++ [Logged s] /\ st_word s = $"IN SYNC".
Proof. exact touched_only. Qed.
Print Assumptions C103_negative.

Example C103_example : exists w', resync_sync silent_env (options Baseline None (Some 3)) (start old_tree None) = (w', [], FatalShown)
  /\ requested (start old_tree None) w' $"http://s.org/r/x/b" 3.
Proof. exact as_often_as_allowed. Qed.

(** C104: the list that resync-build writes for a directory, served together with the
    files, makes resync-sync --baseline --delete leave the same files, and no others,
    in an empty directory. *)
Theorem C104_scripts : forall e b hashb msb user base srcdir l f wp,
  options_give b hashb msb user -> fine_option_links b user -> a_mode b = ResourceListMode -> a_outfile b = Some f -> a_paths b = None ->
  publisher e (build_client b hashb msb) base srcdir l -> plain_path f ->
  exists fs' file, resync_build e b wp = (with_fs fs' wp, Done) /\ sget f fs' = Some file
    /\ forall E a hash ms c w dstdir sm, sync_options a hash ms -> as_options a ms c -> full_baseline a ->
       copier E c (prepared hash w) base dstdir sm -> serves E c e base srcdir sm (f_data file) ->
       exists w', resync_sync E a w = (w', [], Done) /\ mirrored E w' dstdir e srcdir.
Proof. exact scripts_mirror. Qed.
Print Assumptions C104_scripts.

Example C104_example :
  (options_give (args_pub ResourceListMode (Some rl_file) None) (Some [$"md5"]) one_mapping [alternate]
   /\ fine_option_links (args_pub ResourceListMode (Some rl_file) None) [alternate] /\ plain_path rl_file
   /\ publisher (pub_env before_tree) (build_client (args_pub ResourceListMode (Some rl_file) None) (Some [$"md5"]) one_mapping) mirror_base $"/d"
        (listed_at before_tree false))
  /\ sync_options (options Baseline None (Some 2)) None one_mapping /\ full_baseline (options Baseline None (Some 2))
  /\ as_options (options Baseline None (Some 2)) one_mapping (ex_client one_mapping)
  /\ forall text, copier (mirror_env text) (ex_client one_mapping) (prepared None (start (Dir []) None)) mirror_base $"/d" mirror_sm
       /\ serves (mirror_env text) (ex_client one_mapping) (pub_env before_tree) mirror_base $"/d" mirror_sm text.
Proof. exact scripts_agree. Qed.

(** * SyncEx: runs of resync-sync *)

From Verif Require Import Py PyFacts Float64 W3C PathSpec OsPath UrlAuthority Regex Mapper MapperSpec Resource ResourceSpec Container ContainerSpec Hashes ListIndex ListIndexSpec
  Disk DiskSpec Builder BuilderSpec ClientState ClientStateFacts Client ClientSpec ClientExamples ClientSyncEx ConvergeSpec ConvergeEx SucceedSpec ClientUtils
  StoredSpec Build PublishSpec PublishEx BuildSpec BuildRuns MirrorSpec MirrorEx BuilderFacts Sync SyncSpec SyncFacts.

Definition source_list : str := $"http://s.org/r/resourcelist.xml".
Definition options (m : sync_mode) (excl : option (list str)) (tries : option Z) : sync_args :=
  MkSync m [$"http://s.org/r"; $"/d"] (Some source_list) None None (Some $"2001") None false None None excl false false false
    true false false None tries false false.
Lemma options_say m excl tries : sync_options (options m excl tries) None one_mapping.
Proof. split; vm_compute; reflexivity. Qed.
Lemma client_is m excl : sync_client (options m excl (Some 2)) one_mapping = ex_client one_mapping.
Proof. reflexivity. Qed.

Definition run_of (x : world * str * ending) : world := fst (fst x).
Lemma this_run (x : world * str * ending) o e (P : world -> Prop) : (snd (fst x), snd x) = (o, e) -> P (run_of x) -> exists w', x = (w', o, e) /\ P w'.
Proof. destruct x as [[a b] c]. cbn. intros [= -> ->] H. eauto. Qed.

(** Nothing can be downloaded. *)
Definition refused_env : env := ex_env two_resources [].
Lemma unnoticed : exists E a hash ms c w w' u q, sync_options a hash ms /\ as_options a ms c /\ full_baseline a /\ synchronizable E c w
  /\ resync_sync E a w = (w', [], FatalShown) /\ exit_status FatalShown = 0
  /\ listed E c u /\ place_of E c u q /\ leaf_at (w_root w') q = None.
Proof.
  destruct (this_run (resync_sync refused_env (options Baseline None (Some 2)) (start old_tree None)) [] FatalShown
    (fun w' => leaf_at (w_root w') [$"d"; $"x"; $"b"] = None)) as (w' & R & L); [vm_compute; reflexivity|vm_compute; reflexivity|].
  exists refused_env, (options Baseline None (Some 2)), None, one_mapping, (ex_client one_mapping), (start old_tree None), w', $"http://s.org/r/x/b", [$"d"; $"x"; $"b"].
  split; [apply options_say|]. split; [apply is_as_options|]. split; [split; [reflexivity|]; split; [reflexivity|]; split; [reflexivity|]; split; [reflexivity|intros n [= <-]; discriminate]|].
  split; [destruct two_synchronizable as [A B C D F]; split; assumption|]. split; [exact R|]. split; [reflexivity|].
  split; [|split; [|exact L]].
  - exists two_list. split; [exact two_found|]. vm_compute. auto.
  - exists $"/d/x/b". split; vm_compute; reflexivity.
Qed.

(** A file that the options say to leave out is removed. *)
Lemma leaves_out : excluded_by [$"old"] $"old".
Proof.
  destruct (compile $"old") as [r|] eqn:C; [|vm_compute in C; discriminate].
  destruct (re_match r $"old") as [g|] eqn:M.
  - exists $"old", r, g. split; [left; reflexivity|]. auto.
  - vm_compute in C. injection C as <-. vm_compute in M. discriminate.
Qed.
Lemma excluded_removed : exists E a w w' dir name pats, world_ok E w
  /\ s_exclude a = Some pats /\ excluded_by pats name
  /\ resync_sync E a w = (w', [], Done) /\ file_at w (dir ++ [name]) /\ ~ file_at w' (dir ++ [name]).
Proof.
  destruct (this_run (resync_sync two_env (options Baseline (Some [$"old"]) (Some 2)) (start old_tree None)) [] Done
    (fun w' => leaf_at (w_root w') [$"d"; $"old"] = None)) as (w' & R & L); [vm_compute; reflexivity|vm_compute; reflexivity|].
  exists two_env, (options Baseline (Some [$"old"]) (Some 2)), (start old_tree None), w', [$"d"], $"old", [$"old"].
  split; [apply old_world_ok|]. split; [reflexivity|]. split; [exact leaves_out|]. split; [exact R|]. split; [discriminate|].
  intros F. apply F. exact L.
Qed.

(** The server never answers. *)
Definition silent_env : env :=
  MkEnv [] (fetch_from two_resources) (fun _ _ => Refused SocketTimeout) (2000000000 * SEC) plain_digests unit_floats.
Lemma never_means_twenty : exists E a w w' u, world_ok E w /\ s_tries a = Some 0
  /\ resync_sync E a w = (w', [], FatalShown) /\ requested w w' u 20.
Proof.
  destruct (this_run (resync_sync silent_env (options Baseline None (Some 0)) (start old_tree None)) [] FatalShown
    (fun w' => w_gets w' = repeat $"http://s.org/r/x/b" 20)) as (w' & R & L); [vm_compute; reflexivity|vm_compute; reflexivity|].
  exists silent_env, (options Baseline None (Some 0)), (start old_tree None), w', $"http://s.org/r/x/b".
  split; [apply (old_world_ok [] [] None)|]. split; [reflexivity|]. split; [exact R|]. exists (repeat $"http://s.org/r/x/b" 20). split; [exact L|]. vm_compute. reflexivity.
Qed.
Lemma as_often_as_allowed : exists w', resync_sync silent_env (options Baseline None (Some 3)) (start old_tree None) = (w', [], FatalShown)
  /\ requested (start old_tree None) w' $"http://s.org/r/x/b" 3.
Proof.
  destruct (this_run (resync_sync silent_env (options Baseline None (Some 3)) (start old_tree None)) [] FatalShown
    (fun w' => w_gets w' = repeat $"http://s.org/r/x/b" 3)) as (w' & R & L); [vm_compute; reflexivity|vm_compute; reflexivity|].
  exists w'. split; [exact R|]. exists (repeat $"http://s.org/r/x/b" 3). split; [exact L|]. vm_compute. reflexivity.
Qed.

(** With a negative number of tries nothing is requested, but the old file gets the new time. *)
Definition touched_docs : list (str * str) :=
  [(source_list, list_text $"resourcelist" [entry $"http://s.org/r/a" $"2001-01-01T00:00:00Z" $"length='1'"])].
Definition touched_env : env := ex_env touched_docs [($"http://s.org/r/a", $"N")].
Definition touched_tree : node := Dir [($"d", Dir [($"a", File $"O" (day - SEC))])].
Definition in_sync_status : status := MkStatus $"IN SYNC" (Some 1) 0 0 0 ($"to create", $"to update", $"to delete").
Lemma touched_listed : listed touched_env (sync_client (options Baseline None (Some (-1))) one_mapping) $"http://s.org/r/a".
Proof.
  assert (match find_resource_list (e_fetch touched_env) (sync_client (options Baseline None (Some (-1))) one_mapping) with
          | Ok src => map fst src = [$"http://s.org/r/a"] | Err _ => False end) as H by (vm_compute; reflexivity).
  unfold listed. destruct (find_resource_list _ _) as [src|]; [|contradiction]. exists src. split; [reflexivity|]. rewrite H. left. reflexivity.
Qed.
Lemma touched_only : exists E a hash ms c w w' w2 u q d d', world_ok E w /\ sync_options a hash ms /\ as_options a ms c /\ s_mode a = Baseline
  /\ s_dryrun a = false /\ s_ignore_failures a = false /\ s_tries a = Some (-1)
  /\ resync_sync E a w = (w', [], Done) /\ w_gets w' = w_gets w
  /\ listed E c u /\ place_of E c u q /\ (forall k, e_get E k u = Data d)
  /\ (exists t, leaf_at (w_root w') q = Some (File d' t)) /\ d' <> d
  /\ resync_sync E (options Audit None None) w' = (w2, [], Done)
  /\ exists s, w_log w2 = w_log w' ++ [Logged s] /\ st_word s = $"IN SYNC".
Proof.
  destruct (this_run (resync_sync touched_env (options Baseline None (Some (-1))) (start touched_tree None)) [] Done
    (fun w' => w_gets w' = [] /\ leaf_at (w_root w') [$"d"; $"a"] = Some (File $"O" day)
       /\ let w2 := resync_sync touched_env (options Audit None None) w' in
          (snd (fst w2), snd w2) = ([], Done) /\ w_log (run_of w2) = w_log w' ++ [Logged in_sync_status]))
     as (w' & R & G & L & A & Lg); [vm_compute; reflexivity| |].
  { split; [vm_compute; reflexivity|]. split; [vm_compute; reflexivity|]. split; vm_compute; reflexivity. }
  destruct (this_run _ _ _ (fun w2 => w_log w2 = _) A Lg) as (w2 & R2 & Lg2).
  exists touched_env, (options Baseline None (Some (-1))), None, one_mapping, (sync_client (options Baseline None (Some (-1))) one_mapping), (start touched_tree None), w', w2, $"http://s.org/r/a", [$"d"; $"a"], $"N", $"O".
  split; [split; [apply names_okb_ok; reflexivity|]; split; [eexists; reflexivity|constructor]|].
  split; [apply options_say|]. split; [apply is_as_options|]. split; [reflexivity|]. split; [reflexivity|]. split; [reflexivity|]. split; [reflexivity|].
  split; [exact R|]. split; [exact G|]. split; [|split; [|split; [|split; [|split; [|split]]]]].
  - exact touched_listed.
  - exists $"/d/a". split; vm_compute; reflexivity.
  - intros k. vm_compute. reflexivity.
  - exists day. exact L.
  - discriminate.
  - exact R2.
  - eexists. split; [exact Lg2|]. reflexivity.
Qed.

(** What is written by one script and copied by the other. *)
Lemma full_options : full_baseline (options Baseline None (Some 2)).
Proof. split; [reflexivity|]. split; [reflexivity|]. split; [reflexivity|]. split; [reflexivity|]. intros n [= <-]. discriminate. Qed.
Lemma scripts_agree :
  (options_give (args_pub ResourceListMode (Some rl_file) None) (Some [$"md5"]) one_mapping [alternate]
   /\ fine_option_links (args_pub ResourceListMode (Some rl_file) None) [alternate] /\ plain_path rl_file
   /\ publisher (pub_env before_tree) (build_client (args_pub ResourceListMode (Some rl_file) None) (Some [$"md5"]) one_mapping) mirror_base $"/d"
        (listed_at before_tree false))
  /\ sync_options (options Baseline None (Some 2)) None one_mapping /\ full_baseline (options Baseline None (Some 2))
  /\ as_options (options Baseline None (Some 2)) one_mapping (ex_client one_mapping)
  /\ forall text, copier (mirror_env text) (ex_client one_mapping) (prepared None (start (Dir []) None)) mirror_base $"/d" mirror_sm
       /\ serves (mirror_env text) (ex_client one_mapping) (pub_env before_tree) mirror_base $"/d" mirror_sm text.
Proof.
  split; [split; [apply pub_options|]; split; [apply pub_fine|]; split; [exact rl_plain|exact mirror_publisher]|].
  split; [apply options_say|]. split; [exact full_options|]. split; [apply is_as_options|]. intros text. split; [apply mirror_copier|apply mirror_serves].
Qed.
Lemma two_done : exists w', resync_sync two_env (options Baseline None (Some 2)) (start old_tree None) = (w', [], Done)
  /\ leaf_at (w_root w') [$"d"; $"x"; $"b"] = Some (File $"BBB" (day + SEC)) /\ leaf_at (w_root w') [$"d"; $"old"] = None.
Proof. apply this_run; [vm_compute; reflexivity|]. split; vm_compute; reflexivity. Qed.
Lemma incremental_done : exists w', resync_sync two_env (options Incremental None (Some 2)) (start old_tree None) = (w', [], Done)
  /\ leaf_at (w_root w') [$"d"; $"x"; $"b"] = Some (File $"BBB" (day + SEC)) /\ leaf_at (w_root w') [$"d"; $"old"] = None.
Proof. apply this_run; [vm_compute; reflexivity|]. split; vm_compute; reflexivity. Qed.

(** * ClientSyncEx: runs that show what fails *)

From Verif Require Import Py PyFacts Float64 W3C Url UrlAuthority PathSpec OsPath Mapper MapperSpec Resource Container
  ContainerSpec Capability Xml Sitemap ListIndex Hashes Disk DiskSpec Builder BuilderSpec BuilderFacts ClientState ClientStateSpec ClientStateFacts Client ClientSpec ClientExamples ClientThms.

(** A deletion that is listed before an update. *)
Definition deleted_first : list (str * str) :=
  [($"http://s.org/r/changelist.xml",
    list_text $"changelist" [entry $"http://s.org/r/old" $"2001-01-01T00:00:00Z" $"change='deleted' datetime='2001-01-01T00:00:00Z'";
                             entry $"http://s.org/r/a" $"2001-01-01T00:00:01Z" $"change='updated' datetime='2001-01-01T00:00:01Z'"])].
Definition deleted_env : env := ex_env deleted_first two_contents.
Definition the_deletion : resource :=
  MkR $"http://s.org/r/old" (Some day) None None None None None (Some $"deleted") (Some day) None None None None None None None.
Definition first_day : option str := Some $"2001-01-01T00:00:00Z".
Lemma run_is {A} (r : world * res A) x : snd r = x -> r = (fst r, x). Proof. destruct r. cbn. now intros ->. Qed.
Definition run1 : world := Eval vm_compute in fst (incremental deleted_env (ex_client one_mapping) false None first_day (start old_tree None)).
Lemma run1_run : incremental deleted_env (ex_client one_mapping) false None first_day (start old_tree None) = (run1, Ok tt). Proof. vm_compute. reflexivity. Qed.
Definition run2 : world := Eval vm_compute in fst (incremental deleted_env (ex_client one_mapping) true None None run1).
Lemma run2_run : incremental deleted_env (ex_client one_mapping) true None None run1 = (run2, Ok tt). Proof. vm_compute. reflexivity. Qed.

Definition read_by (E : env) (c : client) (uri : str) : list resource :=
  match list_read change_list_kind (e_fetch E) false (new_list change_list_kind $"changelist" true None) uri with
  | Ok l => d_items (l_doc l)
  | Err _ => []
  end.
Lemma read_changes_by E c l uri : sitemap_uri c (c_change_list_name c) = Ok uri -> read_by E c uri = l -> match l with [] => false | _ => true end = true -> changes_read E c None uri l.
Proof.
  intros U R N. split; [exact U|]. unfold read_by in R.
  destruct (list_read change_list_kind (e_fetch E) false (new_list change_list_kind $"changelist" true None) uri) as [x|e]; [eauto|subst; discriminate].
Qed.

Definition the_changes : list resource := read_by deleted_env (ex_client one_mapping) $"http://s.org/r/changelist.xml".
Lemma the_changes_read : changes_read deleted_env (ex_client one_mapping) None $"http://s.org/r/changelist.xml" the_changes.
Proof. apply read_changes_by; [vm_compute; reflexivity|reflexivity|vm_compute; reflexivity]. Qed.

Lemma due_last c from changes r : last_entry (r_uri r) (since c from changes) = Some r ->
  match first_entry (r_uri r) (since c from changes) with Some f => change_is $"created" f | None => true end = false -> due c from changes r.
Proof.
  intros L F. split; [exact L|]. intros (f & l & A & _ & C & _). rewrite A in F. unfold change_is in F. rewrite C in F. discriminate.
Qed.
Definition nth_change (k : nat) (l : list resource) : resource := nth k l (new_resource []).
Lemma place E c u p : src_to_dst (c_mapper c) u = Ok p -> place_of E c u (denotes (e_cwd E) p).
Proof. intros H. exists p. auto. Qed.
Definition holds (w : world) (q : list str) (d : str) : bool := match leaf_at (w_root w) q with Some (File x _) => str_eqb x d | _ => false end.
Lemma holds_at w q d : holds w q d = true <-> exists t, leaf_at (w_root w) q = Some (File d t).
Proof.
  unfold holds. destruct (leaf_at (w_root w) q) as [[x t| | |]|]; split; try discriminate; try (intros [? ?]; discriminate).
  - intros H. apply str_eqb_eq in H. subst. eauto.
  - intros [t' H]. injection H as -> ->. apply str_eqb_refl.
Qed.

(** A deletion that is withheld once is not done later. *)
Lemma withheld_lost : exists E c w w1 w2 from uri changes r q, world_ok E w /\ changes_read E c None uri changes
  /\ started_from E c (Some $"2001-01-01T00:00:00Z") w from /\ due c from changes r /\ r_change r = Some $"deleted" /\ place_of E c (r_uri r) q
  /\ incremental E c false None (Some $"2001-01-01T00:00:00Z") w = (w1, Ok tt)
  /\ incremental E c true None None w1 = (w2, Ok tt) /\ file_at w2 q.
Proof.
  exists deleted_env, (ex_client one_mapping), (start old_tree None), run1, run2, day, $"http://s.org/r/changelist.xml", the_changes,
    (nth_change 0 the_changes), [$"d"; $"old"].
  split; [apply old_world_ok|]. split; [apply the_changes_read|]. split; [vm_compute; reflexivity|].
  split; [apply due_last; vm_compute; reflexivity|]. split; [vm_compute; reflexivity|].
  split; [apply (place _ _ _ $"/d/old"); vm_compute; reflexivity|].
  split; [exact run1_run|]. split; [exact run2_run|].
  assert (holds run2 [$"d"; $"old"] $"OLD" = true) as H by (vm_compute; reflexivity). apply holds_at in H. destruct H as [t H].
  unfold file_at. congruence.
Qed.
(** A change that is only shown in a dry run is not done later. *)
Definition new_contents : list (str * str) := [($"http://s.org/r/a", $"new"); ($"http://s.org/r/x/b", $"BBB")].
Definition new_env : env := ex_env two_resources new_contents.
Definition dry1 : world := Eval vm_compute in fst (incremental new_env (dry (ex_client one_mapping)) true None first_day (start old_tree None)).
Lemma dry1_run : incremental new_env (dry (ex_client one_mapping)) true None first_day (start old_tree None) = (dry1, Ok tt). Proof. vm_compute. reflexivity. Qed.
Definition dry2 : world := Eval vm_compute in fst (incremental new_env (ex_client one_mapping) true None None dry1).
Lemma dry2_run : incremental new_env (ex_client one_mapping) true None None dry1 = (dry2, Ok tt). Proof. vm_compute. reflexivity. Qed.
Definition new_changes : list resource := read_by new_env (ex_client one_mapping) $"http://s.org/r/changelist.xml".
Lemma new_changes_read : changes_read new_env (ex_client one_mapping) None $"http://s.org/r/changelist.xml" new_changes.
Proof. apply read_changes_by; [vm_compute; reflexivity|reflexivity|vm_compute; reflexivity]. Qed.
Lemma shown_lost : exists E c w w1 w2 from uri changes r q d, world_ok E w /\ changes_read E c None uri changes
  /\ started_from E c (Some $"2001-01-01T00:00:00Z") w from /\ due c from changes r /\ r_change r = Some $"updated" /\ place_of E c (r_uri r) q
  /\ incremental E (dry c) true None (Some $"2001-01-01T00:00:00Z") w = (w1, Ok tt)
  /\ incremental E c true None None w1 = (w2, Ok tt)
  /\ (forall n, e_get E n (r_uri r) = Data d) /\ (forall t, leaf_at (w_root w2) q <> Some (File d t)).
Proof.
  exists new_env, (ex_client one_mapping), (start old_tree None), dry1, dry2, day, $"http://s.org/r/changelist.xml", new_changes,
    (nth_change 0 new_changes), [$"d"; $"a"], $"new".
  split; [apply old_world_ok|]. split; [apply new_changes_read|]. split; [vm_compute; reflexivity|].
  split; [apply due_last; vm_compute; reflexivity|]. split; [vm_compute; reflexivity|].
  split; [apply (place _ _ _ $"/d/a"); vm_compute; reflexivity|].
  split; [exact dry1_run|]. split; [exact dry2_run|]. split.
  { assert (r_uri (nth_change 0 new_changes) = $"http://s.org/r/a") as -> by (vm_compute; reflexivity). reflexivity. }
  assert (holds dry2 [$"d"; $"a"] $"A" = true) as H by (vm_compute; reflexivity). apply holds_at in H. destruct H as [t H].
  intros t'. rewrite H. intros X; injection X as X _; discriminate X.
Qed.

(** An incremental synchronization without deletion, then a baseline with it: the time
    of the local file that is deleted is recorded. *)
Definition two_env : env := ex_env two_resources two_contents.
Definition back1 : world := Eval vm_compute in fst (incremental two_env (ex_client one_mapping) false None first_day (start old_tree None)).
Lemma back1_run : incremental two_env (ex_client one_mapping) false None first_day (start old_tree None) = (back1, Ok tt). Proof. vm_compute. reflexivity. Qed.
Definition back2 : world := Eval vm_compute in fst (baseline_or_audit two_env (ex_client one_mapping) true false back1).
Lemma back2_run : baseline_or_audit two_env (ex_client one_mapping) true false back1 = (back2, Ok tt). Proof. vm_compute. reflexivity. Qed.
Lemma backwards : exists E c w w1 w2 sm t1 t2, world_ok E w /\ sitemap c = Ok sm
  /\ incremental E c false None (Some $"2001-01-01T00:00:00Z") w = (w1, Ok tt) /\ get_state (e_floats E) (w_state w1) sm = Ok (Some t1)
  /\ baseline_or_audit E c true false w1 = (w2, Ok tt) /\ get_state (e_floats E) (w_state w2) sm = Ok (Some t2)
  /\ t2 < t1.
Proof.
  exists two_env, (ex_client one_mapping), (start old_tree None), back1, back2, $"http://s.org/r/resourcelist.xml", (day + 2 * SEC), (day - SEC).
  split; [apply old_world_ok|]. split; [vm_compute; reflexivity|].
  split; [exact back1_run|]. split; [vm_compute; reflexivity|].
  split; [exact back2_run|]. split; [vm_compute; reflexivity|vm_compute; reflexivity].
Qed.

(** The digest of a listed resource differs from that of the local file, and digests are
    asked for, but an audit says IN SYNC. *)
Definition with_md5 : list (str * str) :=
  [($"http://s.org/r/resourcelist.xml", list_text $"resourcelist" [entry $"http://s.org/r/a" $"2001-01-01T00:00:00Z" $"length='1' hash='md5:mB'"])].
Definition md5_env : env := ex_env with_md5 two_contents.
Definition one_tree : node := Dir [($"d", Dir [($"a", File $"A" day)])].
Definition md5_start : world := with_hashes [$"md5"] (start one_tree None).
Definition md5_end : world := Eval vm_compute in fst (baseline_or_audit md5_env (ex_client one_mapping) false true md5_start).
Lemma md5_end_run : baseline_or_audit md5_env (ex_client one_mapping) false true md5_start = (md5_end, Ok tt). Proof. vm_compute. reflexivity. Qed.
Definition source_of (E : env) (c : client) : rdict := match find_resource_list (e_fetch E) c with Ok s => s | Err _ => [] end.
Lemma md5_source : find_resource_list (e_fetch md5_env) (ex_client one_mapping) = Ok (source_of md5_env (ex_client one_mapping)).
Proof. unfold source_of. assert (match find_resource_list (e_fetch md5_env) (ex_client one_mapping) with Ok _ => true | _ => false end = true) by (vm_compute; reflexivity).
  destruct (find_resource_list (e_fetch md5_env) (ex_client one_mapping)); [reflexivity|discriminate].
Qed.
Lemma one_world_ok E st : e_cwd E = [] -> world_ok E (start one_tree st).
Proof.
  intros C. split; [apply names_okb_ok; vm_compute; reflexivity|]. split; [eexists; reflexivity|]. rewrite C. constructor.
Qed.
Definition listed_a : resource :=
  MkR $"http://s.org/r/a" (Some day) (Some 1) None (Some $"mB") None None None None None None None None None None None.
Lemma md5_entry : source_entry md5_env (ex_client one_mapping) $"http://s.org/r/a" listed_a.
Proof.
  exists [($"http://s.org/r/a", listed_a)]. split; [|left; reflexivity]. rewrite md5_source. apply f_equal. vm_compute. reflexivity.
Qed.
Lemma none_excluded name : ~ excluded_by [] name. Proof. intros (p & r & g & [] & _). Qed.
Lemma md5_found : found_at [] [] one_tree $"/d" [$"a"] $"/d/a" (File $"A" day).
Proof.
  split; [left; eauto|]. exists [($"a", File $"A" day)]. split; [reflexivity|]. split; [reflexivity|]. split; [reflexivity|].
  constructor; [apply none_excluded|constructor].
Qed.
Lemma digest_unused : exists E c w w' u r n y, world_ok E w /\ In $"md5" (w_hashes w)
  /\ source_entry E c u r /\ digest $"md5" r = Some y /\ local_node E c w u n /\ y <> digest_function (e_digests E) $"md5" (data_of n)
  /\ baseline_or_audit E c false true w = (w', Ok tt) /\ map st_word (statuses (w_log w')) = [$"IN SYNC"] /\ w_hashes w' = [].
Proof.
  exists md5_env, (ex_client one_mapping), md5_start, md5_end, $"http://s.org/r/a", listed_a, (File $"A" day), $"mB".
  split; [apply (one_world_ok md5_env None eq_refl)|]. split; [left; reflexivity|].
  split; [apply md5_entry|]. split; [reflexivity|].
  split; [exists (MkMap $"http://s.org/r" $"/d"), [$"a"], $"/d/a"; split; [left; reflexivity|]; split; [apply md5_found|vm_compute; reflexivity]|].
  split; [vm_compute; discriminate|]. split; [exact md5_end_run|]. split; vm_compute; reflexivity.
Qed.

(** The last status of an incremental synchronization that has created, updated and
    deleted a resource is NO CHANGES. *)
Definition all_done : world := Eval vm_compute in fst (incremental two_env (ex_client one_mapping) true None first_day (start old_tree None)).
Lemma all_done_run : incremental two_env (ex_client one_mapping) true None first_day (start old_tree None) = (all_done, Ok tt). Proof. vm_compute. reflexivity. Qed.
Lemma status_wrong : exists E c w w' s s', world_ok E w /\ incremental E c true None (Some $"2001-01-01T00:00:00Z") w = (w', Ok tt)
  /\ statuses (w_log w') = [s; s'] /\ st_word s = $"CHANGES APPLIED"
  /\ st_word s' = $"NO CHANGES" /\ (st_created s', st_updated s', st_deleted s') = (1, 1, 1).
Proof.
  exists two_env, (ex_client one_mapping), (start old_tree None), all_done,
    (nth 0 (statuses (w_log all_done)) (MkStatus [] None 0 0 0 ([], [], []))), (nth 1 (statuses (w_log all_done)) (MkStatus [] None 0 0 0 ([], [], []))).
  split; [apply old_world_ok|]. split; [exact all_done_run|]. do 3 (split; [vm_compute; reflexivity|]). vm_compute. reflexivity.
Qed.
(** Deletions are withheld and the status is CHANGES APPLIED; *)
Definition only_deleted : list (str * str) :=
  [($"http://s.org/r/changelist.xml",
    list_text $"changelist" [entry $"http://s.org/r/old" $"2001-01-01T00:00:00Z" $"change='deleted' datetime='2001-01-01T00:00:00Z'"])].
Definition kept : world := Eval vm_compute in fst (incremental (ex_env only_deleted []) (ex_client one_mapping) false None first_day (start old_tree None)).
Lemma kept_run : incremental (ex_env only_deleted []) (ex_client one_mapping) false None first_day (start old_tree None) = (kept, Ok tt). Proof. vm_compute. reflexivity. Qed.
Lemma withheld_status : exists E c w w', world_ok E w /\ incremental E c false None (Some $"2001-01-01T00:00:00Z") w = (w', Ok tt)
  /\ w_root w' = w_root w /\ map st_word (statuses (w_log w')) = [$"CHANGES APPLIED"].
Proof.
  exists (ex_env only_deleted []), (ex_client one_mapping), (start old_tree None), kept.
  split; [apply old_world_ok|]. split; [exact kept_run|]. split; vm_compute; reflexivity.
Qed.
(** nothing could be downloaded and the status is SYNCED. *)
Definition lenient (c : client) : client :=
  MkClient (c_mapper c) (c_sitemap_name c) (c_capability_list c) (c_resource_list_name c) (c_change_list_name c)
    (c_multifile c) (c_noauth c) (c_strictauth c) (c_dryrun c) true (c_tries c) (c_spec_1_0 c).
Definition failed : world := Eval vm_compute in fst (baseline_or_audit (ex_env two_resources []) (lenient (ex_client one_mapping)) false false (start one_tree None)).
Lemma failed_run : baseline_or_audit (ex_env two_resources []) (lenient (ex_client one_mapping)) false false (start one_tree None) = (failed, Ok tt). Proof. vm_compute. reflexivity. Qed.
Lemma failures_synced : exists E c w w', world_ok E w /\ baseline_or_audit E c false false w = (w', Ok tt) /\ c_dryrun c = false
  /\ map st_word (statuses (w_log w')) = [$"NOT IN SYNC"; $"SYNCED"]
  /\ map (fun s => (st_created s, st_updated s)) (statuses (w_log w')) = [(1, 0); (0, 0)].
Proof.
  exists (ex_env two_resources []), (lenient (ex_client one_mapping)), (start one_tree None), failed.
  split; [apply one_world_ok; reflexivity|]. split; [exact failed_run|]. split; [reflexivity|]. split; vm_compute; reflexivity.
Qed.

(** A later incremental synchronization, from the time stored by an earlier one. *)
Definition stored : world := with_state (fst (set_state unit_floats None $"http://s.org/r/resourcelist.xml" (Some day))) (start old_tree None).
Definition later : world := Eval vm_compute in fst (incremental two_env (ex_client one_mapping) true None None stored).
Lemma later_run : incremental two_env (ex_client one_mapping) true None None stored = (later, Ok tt). Proof. vm_compute. reflexivity. Qed.
Lemma forward_example : exists w w', incremental two_env (ex_client one_mapping) true None None w = (w', Ok tt)
     /\ get_state unit_floats (w_state w) $"http://s.org/r/resourcelist.xml" = Ok (Some day)
     /\ get_state unit_floats (w_state w') $"http://s.org/r/resourcelist.xml" = Ok (Some (day + 2 * SEC)).
Proof. exists stored, later. split; [exact later_run|]. split; vm_compute; reflexivity. Qed.
Definition part : world := Eval vm_compute in fst (baseline_or_audit two_env (ex_client one_mapping) false false (start old_tree None)).
Lemma part_run : baseline_or_audit two_env (ex_client one_mapping) false false (start old_tree None) = (part, Ok tt). Proof. vm_compute. reflexivity. Qed.

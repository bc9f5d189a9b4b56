(** * ClientThms: the properties of synchronization, from the effects of the runs *)

From Verif Require Import Py PyFacts Float64 Float64Facts W3C Url UrlAuthority PathSpec OsPath OsPathFacts Regex RegexFacts
  Mapper MapperSpec MapperFacts MapperFacts2 Resource Container ContainerSpec ContainerFacts Capability Xml Sitemap Hashes ListIndex
  Disk DiskSpec DiskFacts DiskChange Builder BuilderSpec BuilderFacts ClientState ClientStateSpec ClientStateFacts
  Client ClientSpec ClientLists ClientFacts ClientRuns ClientInc ClientCompare ClientPlaces ClientProps ClientDownload ClientExamples.

(** ** Audits *)

Lemma audit_nothing E c allow w w' x : baseline_or_audit E c allow true w = (w', x) -> no_effect w w'.
Proof.
  intros H. apply baseline_inv in H. destruct H as [(e & _ & N & _)|(src & dst & cmp & _ & _ & _ & _ & _ & _ & H)]; [exact N|].
  destruct H as [-> _]. apply after_report_same.
Qed.

(** ** Dry runs *)

Lemma dry_baseline E c allow audit w w' x : world_ok E w -> c_dryrun c = true -> baseline_or_audit E c allow audit w = (w', x) ->
  (forall q, leaf_at (w_root w') q = leaf_at (w_root w) q) /\ (forall q, dir_at (w_root w) q -> dir_at (w_root w') q) /\ w_gets w' = w_gets w.
Proof.
  intros OK D H. destruct (baseline_effect _ _ _ _ _ _ _ OK H) as [[_ R2 _ _ R5 _] _]. destruct (R5 D). auto.
Qed.
Lemma dry_incremental E c allow clu from w w' x : world_ok E w -> c_dryrun c = true -> incremental E c allow clu from w = (w', x) ->
  (forall q, leaf_at (w_root w') q = leaf_at (w_root w) q) /\ (forall q, dir_at (w_root w) q -> dir_at (w_root w') q) /\ w_gets w' = w_gets w.
Proof.
  intros OK D H. destruct (incremental_effect _ _ _ _ _ _ _ _ OK H) as [(A & _ & B)|(uri & ch & _ & [_ R2 _ _ R5 _])].
  - rewrite A. auto.
  - destruct (R5 D). auto.
Qed.
Lemma dry_state E c allow audit w w' x : world_ok E w -> c_dryrun c = true ->
  (forall file u, local_file E c w file u -> listed E c u) -> baseline_or_audit E c allow audit w = (w', x) -> w_state w' = w_state w.
Proof. intros OK D L H. destruct (baseline_effect _ _ _ _ _ _ _ OK H) as (_ & _ & S). auto. Qed.

(** What a run comes to. *)
Lemma witness {A} (r : world * res A) x (P : world -> Prop) : snd r = x -> P (fst r) -> exists w', r = (w', x) /\ P w'.
Proof. destruct r as [w y]. cbn. intros -> H. eauto. Qed.
Lemma checked {A} (r : world * res A) x (P : world -> bool) : (let (w, y) := r in (y, P w)) = (x, true) -> exists w', r = (w', x) /\ P w' = true.
Proof. destruct r as [w y]. intros [= -> H]. eauto. Qed.
Definition dirb (root : node) (q : list str) : bool := match lookup q root with Some (Dir _) => true | _ => false end.
Lemma dirb_at root q : dirb root q = true <-> dir_at root q.
Proof. unfold dirb, dir_at. destruct (lookup q root) as [[]|]; split; try discriminate; try (intros [? ?]; discriminate); eauto. Qed.

(** The dry run of the example creates the directory of the new resource and records
    the time of a deletion. *)
Lemma dry_refuted : exists E c allow w w' q, world_ok E w /\ c_dryrun c = true /\ baseline_or_audit E c allow false w = (w', Ok tt)
  /\ dir_at (w_root w') q /\ ~ dir_at (w_root w) q /\ w_state w' <> w_state w.
Proof.
  exists (ex_env two_resources two_contents), (dry (ex_client one_mapping)), true, (start old_tree None).
  destruct (checked (baseline_or_audit (ex_env two_resources two_contents) (dry (ex_client one_mapping)) true false (start old_tree None))
    (Ok tt) (fun w' => dirb (w_root w') [$"d"; $"x"] && match w_state w' with Some _ => true | None => false end)) as (w' & R & D).
  { vm_compute. reflexivity. }
  apply andb_true_iff in D. destruct D as [D S].
  exists w', [$"d"; $"x"]. split; [apply old_world_ok|]. split; [reflexivity|]. split; [exact R|].
  split; [apply dirb_at, D|]. split; [intros H; apply dirb_at in H; discriminate|]. destruct (w_state w'); [discriminate|discriminate S].
Qed.

(** ** Deletions *)

Lemma baseline_deletes E c allow audit w w' x : world_ok E w -> baseline_or_audit E c allow audit w = (w', x) ->
  forall q, file_at w q -> leaf_at (w_root w') q = None ->
  allow = true /\ c_dryrun c = false /\ exists file u, local_file E c w file u /\ ~ listed E c u /\ place_of E c u q.
Proof.
  intros OK H q F G. destruct (baseline_effect _ _ _ _ _ _ _ OK H) as [[_ _ R _ _ _] _].
  destruct (R q (conj F G)) as (A & D & u & (N & file & L) & P). split; [exact A|]. split; [exact D|]. eauto.
Qed.
Lemma baseline_deletes_file E c allow audit w w' x : world_ok E w -> mappings_apart (c_mapper c) -> one_line_names (w_root w) ->
  baseline_or_audit E c allow audit w = (w', x) ->
  forall q, file_at w q -> leaf_at (w_root w') q = None ->
  exists file u, q = denotes (e_cwd E) file /\ local_file E c w file u /\ ~ listed E c u.
Proof.
  intros OK MA OL H q F G. destruct (baseline_deletes _ _ _ _ _ _ _ OK H q F G) as (_ & _ & file & u & L & N & P).
  exists file, u. split; [apply (local_file_place _ _ _ _ _ _ OK MA OL L P)|auto].
Qed.
Lemma incremental_deletes E c allow clu from w w' x : world_ok E w -> incremental E c allow clu from w = (w', x) ->
  forall q, file_at w q -> leaf_at (w_root w') q = None ->
  allow = true /\ c_dryrun c = false /\
  exists uri changes r, changes_read E c clu uri changes /\ In r changes /\ r_change r = Some $"deleted" /\ place_of E c (r_uri r) q.
Proof.
  intros OK H q F G. destruct (incremental_effect _ _ _ _ _ _ _ _ OK H) as [(A & _)|(uri & ch & C & [_ _ R _ _ _])].
  - rewrite A in G. destruct (F G).
  - destruct (R q (conj F G)) as (A & D & u & (r & I & <- & K) & P). split; [exact A|]. split; [exact D|]. exists uri, ch, r. auto.
Qed.

(** ** Places *)

Lemma baseline_places E c allow audit w w' x : world_ok E w -> baseline_or_audit E c allow audit w = (w', x) ->
  forall q, changed_at w w' q -> exists u, (listed E c u \/ exists file, local_file E c w file u) /\ place_of E c u q.
Proof. intros OK H. destruct (baseline_effect _ _ _ _ _ _ _ OK H) as [[R _ _ _ _ _] _]. exact R. Qed.
Lemma incremental_places E c allow clu from w w' x : world_ok E w -> incremental E c allow clu from w = (w', x) ->
  forall q, changed_at w w' q -> exists uri changes r, changes_read E c clu uri changes /\ In r changes /\ place_of E c (r_uri r) q.
Proof.
  intros OK H q C. destruct (incremental_effect _ _ _ _ _ _ _ _ OK H) as [(A & _)|(uri & ch & CR & [R _ _ _ _ _])].
  - elim C. unfold changed_at. now rewrite A.
  - destruct (R q C) as (u & I & P). apply in_map_iff in I. destruct I as (r & <- & I). exists uri, ch, r. auto.
Qed.
Lemma baseline_inside E c allow audit w w' x : world_ok E w -> mappings_apart (c_mapper c) -> one_line_names (w_root w) ->
  (forall u, listed E c u -> one_line u /\ no_dotdot u) ->
  baseline_or_audit E c allow audit w = (w', x) -> forall q, changed_at w w' q -> in_mapped_dir E c q.
Proof.
  intros OK MA OL D H q C. destruct (baseline_places _ _ _ _ _ _ _ OK H q C) as (u & [L|(file & L)] & P).
  - destruct (D u L) as [O N]. apply (place_inside _ _ _ _ (fun k K => proj1 (proj1 MA k K)) O N P).
  - apply (local_file_inside _ _ _ _ _ _ OK MA OL L P).
Qed.
Lemma incremental_inside E c allow clu from w w' x : world_ok E w -> (forall m, In m (c_mapper c) -> plain (src_uri m)) ->
  (forall uri changes r, changes_read E c clu uri changes -> In r changes -> one_line (r_uri r) /\ no_dotdot (r_uri r)) ->
  incremental E c allow clu from w = (w', x) -> forall q, changed_at w w' q -> in_mapped_dir E c q.
Proof.
  intros OK P D H q C. destruct (incremental_places _ _ _ _ _ _ _ _ OK H q C) as (uri & ch & r & CR & I & PL).
  destruct (D uri ch r CR I) as [O N]. apply (place_inside _ _ _ _ P O N PL).
Qed.

Lemma inside_refuted : exists E c allow w w' q, world_ok E w /\ mappings_apart (c_mapper c) /\ one_line_names (w_root w)
  /\ baseline_or_audit E c allow false w = (w', Ok tt) /\ changed_at w w' q /\ ~ in_mapped_dir E c q.
Proof.
  exists (ex_env dotdot_list dotdot_contents), (ex_client one_mapping), false, (start old_tree None).
  destruct (witness (baseline_or_audit (ex_env dotdot_list dotdot_contents) (ex_client one_mapping) false false (start old_tree None))
    (Ok tt) (fun w' => leaf_at (w_root w') [$"etc"; $"passwd"] = Some (File $"mine!" day))) as (w' & R & D).
  { vm_compute. reflexivity. } { vm_compute. reflexivity. }
  exists w', [$"etc"; $"passwd"]. split; [apply old_world_ok|]. split; [apply one_mapping_apart|]. split; [apply old_tree_ok|].
  split; [exact R|]. split; [unfold changed_at; rewrite D; vm_compute; discriminate|].
  intros (m & [<-|[]] & (rest & I)). vm_compute in I. discriminate.
Qed.

Lemma two_listed u : listed (ex_env two_resources two_contents) (ex_client one_mapping) u ->
  u = $"http://s.org/r/a" \/ u = $"http://s.org/r/x/b".
Proof.
  intros (src & F & I). vm_compute in F. injection F as <-. destruct I as [<-|[<-|[]]]; auto.
Qed.
Lemma two_listed_plain u : listed (ex_env two_resources two_contents) (ex_client one_mapping) u -> one_line u /\ no_dotdot u.
Proof.
  intros L. destruct (two_listed u L) as [-> | ->]; (split; [apply has_char_false; reflexivity|]);
    intros I; vm_compute in I; repeat destruct I as [I|I]; try discriminate I; exact I.
Qed.

(** ** Mappings *)

Lemma no_mapping E c allow audit w : c_mapper c = [] -> baseline_or_audit E c allow audit w = (w, Err ClientFatalError).
Proof. intros M. unfold baseline_or_audit. rewrite M. reflexivity. Qed.
Lemma no_mapping_incremental E c allow clu from w : c_mapper c = [] -> incremental E c allow clu from w = (w, Err ClientFatalError).
Proof. intros M. unfold incremental. rewrite M. reflexivity. Qed.
Lemma unsafe_mapping E c allow clu from w : unsafe (c_mapper c) = Ok true ->
  baseline_or_audit E c allow false w = (w, Err ClientFatalError) /\ incremental E c allow clu from w = (w, Err ClientFatalError).
Proof.
  intros U. unfold baseline_or_audit, incremental. rewrite U. destruct (c_mapper c); split; reflexivity.
Qed.
Lemma overlapping E c allow clu from w m cwd : In m (c_mapper c) -> ~ In ":"%char (src_uri m) \/ absolute (src_uri m) ->
  comparable (src_uri m) (dst_path m) ->
  inside (denotes cwd (src_uri m)) (denotes cwd (dst_path m)) \/ inside (denotes cwd (dst_path m)) (denotes cwd (src_uri m)) ->
  (exists e, baseline_or_audit E c allow false w = (w, Err e)) /\ exists e, incremental E c allow clu from w = (w, Err e).
Proof.
  intros I A C IN. assert (unsafe (c_mapper c) <> Ok false) as U.
  { intros U. rewrite unsafe_all in U. apply U in I. destruct m as [s d]. destruct (safe_separate s d cwd A C I). tauto. }
  unfold baseline_or_audit, incremental. destruct (c_mapper c) as [|m' ms]; [split; eexists; reflexivity|].
  destruct (unsafe (m' :: ms)) as [[]|e]; [split; eexists; reflexivity|congruence|split; eexists; reflexivity].
Qed.

(** ** Authority *)

Lemma foreign_refuted : exists E c allow clu from w w' uri changes sm r q, world_ok E w /\ c_noauth c = false /\ sitemap c = Ok sm
  /\ changes_read E c clu uri changes /\ In r changes
  /\ authority_over (c_strictauth c) uri (r_uri r) = Ok false /\ authority_over false sm (r_uri r) = Ok false
  /\ incremental E c allow clu from w = (w', Ok tt) /\ place_of E c (r_uri r) q /\ changed_at w w' q.
Proof.
  destruct (witness (incremental foreign_env foreign_client false (Some $"http://s.org/r/recent.xml") (Some $"2000") (start old_tree None))
    (Ok tt) (fun w' => leaf_at (w_root w') [$"e"; $"x"] = Some (File $"foreign" day))) as (w' & R & D).
  { vm_compute. reflexivity. } { vm_compute. reflexivity. }
  exists foreign_env, foreign_client, false, (Some $"http://s.org/r/recent.xml"), (Some $"2000"), (start old_tree None), w'.
  destruct (list_read change_list_kind (e_fetch foreign_env) false (new_list change_list_kind $"changelist" true None) $"http://s.org/r/recent.xml")
    as [l|] eqn:L; [|vm_compute in L; discriminate].
  exists $"http://s.org/r/recent.xml", (d_items (l_doc l)), $"http://s.org/r/resourcelist.xml".
  vm_compute in L. injection L as <-. eexists. exists [$"e"; $"x"].
  split; [apply old_world_ok|]. split; [reflexivity|]. split; [reflexivity|].
  split; [split; [vm_compute; reflexivity|]; eexists; split; [vm_compute; reflexivity|reflexivity]|].
  split; [left; reflexivity|]. split; [vm_compute; reflexivity|]. split; [vm_compute; reflexivity|]. split; [exact R|].
  split; [eexists; split; vm_compute; reflexivity|]. unfold changed_at. rewrite D. vm_compute. discriminate.
Qed.

(** ** Downloads *)

Lemma broken_refuted : exists E c r fn w w' e, world_ok E w /\ c_dryrun c = false /\ can_write E w fn
  /\ update_resource E c r fn w = (w', Err e) /\ changed_at w w' (denotes (e_cwd E) fn) /\ file_at w (denotes (e_cwd E) fn).
Proof.
  destruct (witness (update_resource broken_env (ex_client one_mapping) resource_a $"/d/a" (start old_tree None))
    (Err ClientFatalError) (fun w' => leaf_at (w_root w') [$"d"; $"a"] = Some (File $"par" (2000000000 * SEC)))) as (w' & R & D).
  { vm_compute. reflexivity. } { vm_compute. reflexivity. }
  exists broken_env, (ex_client one_mapping), resource_a, $"/d/a", (start old_tree None), w', ClientFatalError.
  split; [apply (old_world_ok [] [])|]. split; [reflexivity|].
  split; [do 2 eexists; split; vm_compute; reflexivity|]. split; [exact R|].
  assert (denotes (e_cwd broken_env) $"/d/a" = [$"d"; $"a"]) as -> by (vm_compute; reflexivity).
  split; [unfold changed_at; rewrite D|unfold file_at]; vm_compute; discriminate.
Qed.

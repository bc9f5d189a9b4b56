(** * KillEx: runs that are killed *)

From Verif Require Import Py PyFacts Float64 W3C Url UrlAuthority PathSpec OsPath OsPathFacts Mapper MapperSpec Resource ResourceSpec Container
  ContainerSpec Capability Xml Sitemap ListIndex Hashes Disk DiskSpec DiskFacts Builder BuilderSpec BuilderFacts ClientState ClientStateSpec ClientStateFacts StateCut
  Client ClientSpec ClientLists ClientFacts ClientRuns ClientExamples ClientThms ClientSync ClientReport ClientStatus ClientSyncEx ClientDirs
  ConvergeSpec ClientConverge ConvergeEx Mirror MirrorEx FollowSpec Follow FollowEx Kill KillSpec KillFacts KillBase KillRepeat.

(** ** Killed while a file is written *)

(** The world when the first of the data is written. *)
Definition root_of (r : res node) : node := match r with Ok n => n | Err _ => Dir [] end.
Definition opened (E : env) (w : world) (p : str) : world := with_root (root_of (mkpath (e_cwd E) (w_root w) (os_dirname p))) w.
Definition cut (E : env) (w : world) (u p d : str) : world :=
  with_root (root_of (write_file (e_cwd E) (w_root (opened E w p)) p d (e_now E))) (with_gets (w_gets (opened E w p) ++ [u]) (opened E w p)).
Definition is_ok {A} (r : res A) : bool := match r with Ok _ => true | Err _ => false end.
Lemma root_of_is r : is_ok r = true -> r = Ok (root_of r). Proof. destruct r; [reflexivity|discriminate]. Qed.
Lemma cut_moment E c r p d1 d2 w : c_dryrun c = false ->
  is_ok (mkpath (e_cwd E) (w_root w) (os_dirname p)) = true ->
  is_ok (write_file (e_cwd E) (w_root (opened E w p)) p d1 (e_now E)) = true ->
  delivered (e_get E (List.length (w_gets w)) (r_uri r)) = Some (d1 ++ d2) ->
  while_updating E c r p w (cut E w (r_uri r) p d1).
Proof.
  intros D M W G. apply (up_transfer _ _ _ _ _ (root_of (mkpath (e_cwd E) (w_root w) (os_dirname p)))); [exact D|apply root_of_is, M|].
  apply (dl_writing E (r_uri r) p (opened E w p) d1 d2); [exact G|apply root_of_is, W].
Qed.

(** ** An incremental run that is killed *)

(** A run with [env_1] is killed when it has written one byte of the second resource. *)
Definition killed : world := cut env_1 copied url_b $"/d/x/b" $"B".
Definition due_1 : list resource := fst (prune_dupes (fst (prune_updates_before false (day + SEC + half) (read_by env_1 ac $"http://s.org/r/changelist.xml")))).
Definition starts_with (u p word : str) (c : client) (rs : list resource) : bool :=
  match rs with
  | r :: _ => str_eqb (r_uri r) u && change_is word r && match src_to_dst (c_mapper c) (r_uri r) with Ok x => str_eqb x p | Err _ => false end
  | [] => false
  end.
Lemma starts_inv u p word c rs : starts_with u p word c rs = true -> exists r rs', rs = r :: rs' /\ r_uri r = u /\ change_is word r = true /\ src_to_dst (c_mapper c) u = Ok p.
Proof.
  destruct rs as [|r rs]; [discriminate|]. cbn [starts_with]. rewrite !andb_true_iff. intros ((A & B) & C). apply str_eqb_eq in A.
  exists r, rs. rewrite <- A. destruct (src_to_dst (c_mapper c) (r_uri r)) as [x|]; [|discriminate]. apply str_eqb_eq in C. subst x. auto.
Qed.
Lemma due_1_first : starts_with url_b $"/d/x/b" $"created" ac due_1 = true. Proof. vm_compute. reflexivity. Qed.
Lemma pruned_1 : is_ok (snd (prune_updates_before false (day + SEC + half) (read_by env_1 ac $"http://s.org/r/changelist.xml"))) = true.
Proof. vm_compute. reflexivity. Qed.
Lemma started_1 : start_time env_1 ac None copied = Ok (day + SEC + half).
Proof.
  pose proof copied_time as (sm & S & G). unfold start_time. rewrite S. cbn [bind]. change (e_floats env_1) with unit_floats. rewrite G. reflexivity.
Qed.
Lemma killed_moment : while_incremental env_1 ac true None None copied killed.
Proof.
  assert (changes_read env_1 ac None $"http://s.org/r/changelist.xml" (read_by env_1 ac $"http://s.org/r/changelist.xml")) as (U & l & R & I).
  { apply read_changes_by; [vm_compute; reflexivity|reflexivity|vm_compute; reflexivity]. }
  destruct (starts_inv _ _ _ _ _ due_1_first) as (r & rs & Q & RU & CH & SD). unfold due_1 in Q.
  pose proof pruned_1 as P. rewrite I in *. change (c_spec_1_0 ac) with false.
  destruct (prune_updates_before false (day + SEC + half) (d_items (l_doc l))) as [kept [n|e]] eqn:PB; [|discriminate P].
  cbn [fst] in Q. exists (day + SEC + half), $"http://s.org/r/changelist.xml", l, kept, n, copied.
  split; [exact started_1|]. split; [exact U|]. split; [exact R|]. split; [exact PB|]. split; [split; reflexivity|]. split; [reflexivity|].
  rewrite Q. apply (ap_update _ _ _ _ _ $"/d/x/b"); [rewrite CH; apply orb_true_r|rewrite RU; exact SD|].
  unfold killed. rewrite <- RU. apply (cut_moment _ _ _ _ _ $"BB"); [reflexivity|vm_compute; reflexivity|vm_compute; reflexivity|].
  rewrite RU. vm_compute. reflexivity.
Qed.
Definition after_kill : world := Eval vm_compute in fst (incremental env_2 ac true None None killed).
Lemma after_kill_run : incremental env_2 ac true None None killed = (after_kill, Ok tt).
Proof. vm_compute. reflexivity. Qed.
Lemma killed_leaves : holds killed [$"d"; $"x"; $"b"] $"B" = true /\ holds killed [$"d"; $"a"] $"A" = true
  /\ holds after_kill [$"d"; $"x"; $"b"] $"BBB" = true /\ leaf_at (w_root after_kill) [$"d"; $"a"] = None /\ holds after_kill [$"d"; $"c"] $"C" = true.
Proof. split; [vm_compute; reflexivity|]. split; [vm_compute; reflexivity|]. split; [vm_compute; reflexivity|]. split; vm_compute; reflexivity. Qed.
Lemma killed_history : rough_history [] unit_floats ac nothing first_events copied (first_events ++ more_events) killed.
Proof.
  apply (rh_killed _ _ _ _ first_events copied more_events env_1 None (day + SEC + half) killed);
    [reflexivity|reflexivity|exact copied_time|exact sees_1|exact killed_moment|apply rh_end].
Qed.
Lemma killed_time : recorded unit_floats ac killed (day + SEC + half).
Proof. apply recorded_is. vm_compute. reflexivity. Qed.
Lemma killed_none : none_left [] ac killed (day + SEC + half) nothing ((first_events ++ more_events) ++ last_events).
Proof.
  intros u _ N L. apply (new_in _ _ _ _ [url_b; url_c]) in N; [|vm_compute; reflexivity].
  destruct N as [N|[N|[]]]; rewrite <- N in L; vm_compute in L; discriminate.
Qed.

(** ** Killed while the time is recorded *)

(** A run that is killed when all but the last nine digits of the time are written. *)
Definition env_s : env := ex_env (told (told_first ++ told_more)) [(url_a, $"A2"); (url_b, $"BBB"); (url_c, $"C")].
Definition saved : world := Eval vm_compute in fst (incremental env_s ac true None None copied).
Lemma saved_run : incremental env_s ac true None None copied = (saved, Ok tt).
Proof. vm_compute. reflexivity. Qed.
Definition text_of (f : option str) : str := match f with Some x => x | None => [] end.
Definition cut_state (n : nat) (w : world) : world := with_state (Some (firstn (List.length (text_of (w_state w)) - n) (text_of (w_state w)))) w.
Lemma cut_root n w : w_root (cut_state n w) = w_root w. Proof. reflexivity. Qed.
Lemma cut_is n w t : w_state w = Some t -> w_state (cut_state n w) = Some (firstn (List.length t - n) t).
Proof. intros Q. unfold cut_state. cbn [w_state with_state]. rewrite Q. reflexivity. Qed.
Definition half_saved : world := cut_state 11 saved.
Definition early : Z := Z.shiftr (day + 3 * SEC) 1064 / 100000000.
Lemma saved_last : w_last saved =? day + 3 * SEC = true. Proof. vm_compute. reflexivity. Qed.
Lemma day_double : is_double (day + 3 * SEC). Proof. vm_compute. reflexivity. Qed.
Lemma saved_crash : match state_text unit_floats (w_state copied) $"http://s.org/r/resourcelist.xml" (Some (day + 3 * SEC)) with
  | Ok t => opt_eqb str_eqb (w_state saved) (Some t) | Err _ => false end = true.
Proof. vm_compute. reflexivity. Qed.
Lemma half_moment : while_saving env_s ac true None None copied half_saved (day + 3 * SEC).
Proof.
  exists saved, (Ok tt), $"http://s.org/r/resourcelist.xml". split; [exact saved_run|]. split; [reflexivity|].
  split; [apply Z.eqb_eq; exact saved_last|]. split; [exact day_double|].
  change (e_floats env_s) with unit_floats. pose proof saved_crash as C.
  destruct (state_text unit_floats (w_state copied) $"http://s.org/r/resourcelist.xml" (Some (day + 3 * SEC))) as [t|] eqn:T; [|discriminate C].
  assert (w_state saved = Some t) as W by (destruct (w_state saved) as [x|]; [|discriminate C]; cbn [opt_eqb] in C; apply str_eqb_eq in C; congruence).
  split; [unfold set_state; rewrite T, W; reflexivity|]. split; [exact (cut_root 11 saved)|].
  rewrite (cut_is 11 saved t W : w_state half_saved = _).
  apply crash_part; [exact T|lia].
Qed.
Lemma half_history : rough_history [] unit_floats ac nothing first_events copied (first_events ++ more_events) half_saved.
Proof.
  apply (rh_saving _ _ _ _ first_events copied more_events env_s None (day + SEC + half) half_saved (day + 3 * SEC));
    [reflexivity|reflexivity|exact copied_time| |exact none_1|exact half_moment| |apply rh_end].
  - apply sees_all; [vm_compute; reflexivity|vm_compute; reflexivity|]. apply gives. vm_compute. reflexivity.
  - apply Z.leb_le. vm_compute. reflexivity.
Qed.
Lemma half_time : recorded unit_floats ac half_saved early.
Proof. apply recorded_is. vm_compute. reflexivity. Qed.
(** The next run reads the whole of a change list. *)
Definition again_events : list happening := [Ev (day + 4 * SEC) url_a (Some $"A3")].
Definition env_t : env :=
  ex_env (told (told_first ++ told_more ++ [change url_a $"2001-01-01T00:00:04Z" $"updated"])) [(url_a, $"A3"); (url_b, $"BBB"); (url_c, $"C")].
Definition after_half : world := Eval vm_compute in fst (incremental env_t ac true None None half_saved).
Lemma after_half_run : incremental env_t ac true None None half_saved = (after_half, Ok tt).
Proof. vm_compute. reflexivity. Qed.
Lemma sees_half : sees env_t ac None early nothing ((first_events ++ more_events) ++ again_events).
Proof. apply sees_all; [vm_compute; reflexivity|vm_compute; reflexivity|]. apply gives. vm_compute. reflexivity. Qed.
Lemma half_none_left : none_left [] ac half_saved early nothing ((first_events ++ more_events) ++ again_events).
Proof.
  intros u _ N L. apply (new_in _ _ _ _ [url_a; url_b; url_c]) in N; [|vm_compute; reflexivity].
  destruct N as [N|[N|[N|[]]]]; rewrite <- N in L; vm_compute in L; discriminate.
Qed.
Lemma half_leaves : holds half_saved [$"d"; $"a"] $"A2" = true /\ holds after_half [$"d"; $"a"] $"A3" = true /\ holds after_half [$"d"; $"c"] $"C" = true.
Proof. split; [vm_compute; reflexivity|]. split; vm_compute; reflexivity. Qed.

(** A run that is killed when only some of the first line is written. *)
Definition stuck_state : option str := Some $"[incremen".
Lemma stuck_left : In stuck_state (set_state_crash unit_floats None $"http://s.org/r/resourcelist.xml" (Some SEC)).
Proof.
  assert (exists t, state_text unit_floats None $"http://s.org/r/resourcelist.xml" (Some SEC) = Ok t /\ Nat.leb 9 (List.length t) = true /\ str_eqb (firstn 9 t) $"[incremen" = true) as (t & T & L & Q).
  { eexists. split; [vm_compute; reflexivity|]. split; vm_compute; reflexivity. }
  apply str_eqb_eq in Q. unfold stuck_state. rewrite <- Q. apply crash_part; [exact T|]. apply Nat.leb_le, L.
Qed.
Lemma stuck_forever : ini_of_file stuck_state = Err ConfigError. Proof. vm_compute. reflexivity. Qed.
Lemma kill_blocks : exists F site t f, python_floats F /\ cut_floats F /\ call_ok (Store site t) /\ SEC <= t
  /\ In f (set_state_crash F None site (Some t))
  /\ forall site' ts, get_state F f site' = Err ConfigError /\ set_state F f site' ts = (f, Some ConfigError).
Proof.
  exists unit_floats, $"http://s.org/r/resourcelist.xml", SEC, stuck_state. split; [exact unit_floats_ok|]. split; [exact unit_cut|].
  split; [split; [discriminate|vm_compute; reflexivity]|]. split; [apply Z.le_refl|]. split; [exact stuck_left|].
  intros site' ts. unfold get_state, set_state, state_text. rewrite stuck_forever. split; reflexivity.
Qed.

(** ** Baselines that fail and are killed *)

Definition two_site : site := later nothing first_events.
(** A source from which one resource arrives only in part. *)
Definition cutting (u0 part : str) (files : list (str * str)) (n : nat) (u : str) : outcome :=
  if str_eqb u u0 then Broken part IOError else get_from files n u.
Definition cut_env : env := MkEnv [] (fetch_from two_resources) (cutting url_b $"B" two_contents) (2000000000 * SEC) plain_digests unit_floats.
Lemma two_lengths E u r d : e_fetch E = e_fetch two_env -> source_entry E ac u r -> two_site u = Some d -> r_length r = Some (zlen d).
Proof.
  intros FE (src & F & I) S. rewrite FE, two_found in F. apply Ok_inj in F. subst src.
  pose proof (proj1 (forallb_forall _ _) two_all _ I) as H. unfold honest_entry in H. cbn [fst snd] in H.
  destruct (r_timestamp r); [|discriminate]. destruct (r_length r) as [n|]; [|discriminate].
  destruct (get_from two_contents 0 u) as [e|d'|d' e] eqn:G; [discriminate H| |discriminate H]. apply Z.eqb_eq in H. subst n.
  assert (two_site u = Some d') as S' by (apply (gives two_contents two_site) with (k := O); [vm_compute; reflexivity|exact G]). congruence.
Qed.
Lemma two_steady : steady two_env ac two_site.
Proof.
  split.
  - apply first_listed.
  - intros u r d. apply (two_lengths two_env). reflexivity.
  - apply (gives two_contents). vm_compute. reflexivity.
  - intros k u d e G. change (get_from two_contents k u = Broken d e) in G. unfold get_from in G. destruct (sget u two_contents); discriminate.
Qed.
Lemma cut_steady : steady cut_env ac two_site.
Proof.
  split.
  - apply first_listed.
  - intros u r d. apply (two_lengths cut_env). reflexivity.
  - intros k u d G. change (cutting url_b $"B" two_contents k u = Data d) in G. unfold cutting in G. destruct (str_eqb u url_b); [discriminate|].
    apply (gives two_contents two_site) with (k := k); [vm_compute; reflexivity|exact G].
  - intros k u d e G. change (cutting url_b $"B" two_contents k u = Broken d e) in G. unfold cutting in G. destruct (str_eqb_spec u url_b) as [->|_].
    + injection G as <- _. exists $"BB". vm_compute. reflexivity.
    + unfold get_from in G. destruct (sget u two_contents); discriminate.
Qed.
Lemma empty_startable : startable two_env ac empty_start two_site.
Proof.
  split; [exact empty_sync|intros u q n _ _ L; elim (empty_leaf _ _ L)|intros u r n _ L; elim (empty_local u n L)].
Qed.
(** The first run breaks off with one byte of the second resource, the second one is
    killed when it has written two. *)
Definition base_1 : world := Eval vm_compute in fst (baseline_or_audit cut_env ac true false empty_start).
Lemma base_1_run : baseline_or_audit cut_env ac true false empty_start = (base_1, Err ClientFatalError).
Proof. vm_compute. reflexivity. Qed.
Definition base_2 : world := cut two_env base_1 url_b $"/d/x/b" $"BB".
Definition scanned (E : env) (c : client) (w : world) : rdict := match scan E c w with Ok d => d | Err _ => [] end.
Definition compared (dst src : rdict) : cmp_result := match compare 0 1 dst src with Ok x => x | Err _ => MkCmp [] [] [] [] end.
Definition todo_2 : list resource :=
  let x := compared (scanned two_env ac base_1) two_list in rl_iter (created x) ++ rl_iter (updated x).
Definition leads (u p : str) (c : client) (rs : list resource) : bool :=
  match rs with r :: _ => str_eqb (r_uri r) u && match src_to_dst (c_mapper c) (r_uri r) with Ok x => str_eqb x p | Err _ => false end | [] => false end.
Lemma leads_inv u p c rs : leads u p c rs = true -> exists r rs', rs = r :: rs' /\ r_uri r = u /\ src_to_dst (c_mapper c) u = Ok p.
Proof.
  destruct rs as [|r rs]; [discriminate|]. cbn [leads]. rewrite andb_true_iff. intros [A C]. apply str_eqb_eq in A.
  exists r, rs. rewrite <- A. destruct (src_to_dst (c_mapper c) (r_uri r)) as [x|]; [|discriminate]. apply str_eqb_eq in C. subst x. auto.
Qed.
Lemma todo_2_first : leads url_b $"/d/x/b" ac todo_2 = true. Proof. vm_compute. reflexivity. Qed.
Lemma scan_ok : is_ok (scan two_env ac base_1) = true. Proof. vm_compute. reflexivity. Qed.
Lemma compare_ok : is_ok (compare 0 1 (scanned two_env ac base_1) two_list) = true. Proof. vm_compute. reflexivity. Qed.
Lemma base_2_moment : while_baseline two_env ac true base_1 base_2.
Proof.
  exists two_list, (scanned two_env ac base_1), (compared (scanned two_env ac base_1) two_list), base_1.
  split; [exact two_found|]. split; [split; reflexivity|]. split; [reflexivity|]. split; [vm_compute; reflexivity|].
  split. { pose proof scan_ok as S. unfold scanned. destruct (scan two_env ac base_1); [reflexivity|discriminate S]. }
  split. { pose proof compare_ok as S. unfold compared. destruct (compare 0 1 (scanned two_env ac base_1) two_list); [reflexivity|discriminate S]. }
  left. change (while_transferring two_env ac todo_2 base_1 base_2).
  destruct (leads_inv _ _ _ _ todo_2_first) as (r & rs & Q & RU & SD). rewrite Q.
  apply (tr_update _ _ _ _ $"/d/x/b"); [rewrite RU; exact SD|]. unfold base_2. rewrite <- RU.
  apply (cut_moment _ _ _ _ _ $"B"); [reflexivity|vm_compute; reflexivity|vm_compute; reflexivity|rewrite RU; vm_compute; reflexivity].
Qed.
Lemma two_repeated : repeated two_env ac two_site empty_start base_2.
Proof.
  apply (rp_run _ _ _ empty_start cut_env true base_1 (Err ClientFatalError)); [split; reflexivity|exact cut_steady|exact base_1_run|].
  apply (rp_killed _ _ _ base_1 two_env true base_2); [split; reflexivity|exact two_steady|exact base_2_moment|apply rp_end].
Qed.
Definition base_3 : world := Eval vm_compute in fst (baseline_or_audit two_env ac true false base_2).
Lemma base_3_run : baseline_or_audit two_env ac true false base_2 = (base_3, Ok tt).
Proof. vm_compute. reflexivity. Qed.
Lemma base_leaves : holds base_1 [$"d"; $"x"; $"b"] $"B" = true /\ holds base_2 [$"d"; $"x"; $"b"] $"BB" = true
  /\ holds base_3 [$"d"; $"x"; $"b"] $"BBB" = true /\ holds base_3 [$"d"; $"a"] $"A" = true.
Proof. repeat split; vm_compute; reflexivity. Qed.

(** ** A list without lengths, and a resource that is as new as the request *)

Definition new_list_docs : list (str * str) :=
  [($"http://s.org/r/resourcelist.xml", list_text $"resourcelist" [entry url_a $"2001-01-01T00:00:00Z" $""])].
Definition new_contents : list (str * str) := [(url_a, $"ABC")].
Definition part_env : env := MkEnv [] (fetch_from new_list_docs) (cutting url_a $"A" []) (day + half) plain_digests unit_floats.
Definition whole_env : env := MkEnv [] (fetch_from new_list_docs) (get_from new_contents) (day + SEC) plain_digests unit_floats.
Definition new_site : site := fun u => if str_eqb url_a u then Some $"ABC" else None.
Definition new_source : rdict := source_of part_env ac.
Lemma new_found : find_resource_list (e_fetch part_env) ac = Ok new_source.
Proof.
  unfold new_source, source_of. assert (is_ok (find_resource_list (e_fetch part_env) ac) = true) by (vm_compute; reflexivity).
  destruct (find_resource_list (e_fetch part_env) ac); [reflexivity|discriminate].
Qed.
Lemma new_names : map fst new_source = [url_a]. Proof. vm_compute. reflexivity. Qed.
Lemma new_listed u : listed part_env ac u <-> new_site u <> None.
Proof.
  unfold new_site. split.
  - intros (src & F & I). rewrite new_found in F. apply Ok_inj in F. subst src. rewrite new_names in I. destruct I as [<-|[]]. rewrite str_eqb_refl. discriminate.
  - intros N. exists new_source. split; [exact new_found|]. rewrite new_names. destruct (str_eqb_spec url_a u) as [Q|]; [left; exact Q|congruence].
Qed.
Lemma new_sync : synchronizable part_env ac empty_start.
Proof.
  split.
  - apply empty_ok. reflexivity.
  - split; [|constructor]. apply (names_okb_ok (Dir [])). reflexivity.
  - split; [apply one_mapping_apart|apply one_mapping_alone].
  - intros m [<-|[]]. split; [discriminate|reflexivity].
  - intros u L. apply new_listed in L. unfold new_site in L. destruct (str_eqb_spec url_a u) as [Q|]; [rewrite <- Q; apply base_a|congruence].
Qed.
Lemma new_startable : startable part_env ac empty_start new_site.
Proof.
  split; [exact new_sync|intros u q n _ _ L; elim (empty_leaf _ _ L)|].
  intros u r n _ L. exfalso. destruct (node_base _ _ _ new_sync _ _ _ (sy_world _ _ _ new_sync) (proj1 (sy_names _ _ _ new_sync)) (sy_free _ _ _ new_sync) L)
      as (_ & _ & q & _ & Q). apply (empty_leaf _ _ Q).
Qed.
Definition part_run : world := Eval vm_compute in fst (baseline_or_audit part_env ac true false empty_start).
Lemma part_run_run : baseline_or_audit part_env ac true false empty_start = (part_run, Err ClientFatalError).
Proof. vm_compute. reflexivity. Qed.
Definition whole_run : world := Eval vm_compute in fst (baseline_or_audit whole_env ac true false part_run).
Lemma whole_run_run : baseline_or_audit whole_env ac true false part_run = (whole_run, Ok tt).
Proof. vm_compute. reflexivity. Qed.
Lemma whole_kept : holds whole_run [$"d"; $"a"] $"A" = true. Proof. vm_compute. reflexivity. Qed.
Lemma part_kept : exists E E' c s w w1 w' u d part,
  in_earnest c /\ startable E c w s /\ same_documents E E' /\ (forall v, listed E c v <-> s v <> None)
  /\ (forall k v x e, e_get E k v = Broken x e -> exists rest, s v = Some (x ++ rest)) /\ (forall k v x, e_get E k v <> Data x)
  /\ baseline_or_audit E c true false w = (w1, Err ClientFatalError)
  /\ below_base c u /\ s u = Some d /\ (forall k, e_get E' k u = Data d)
  /\ baseline_or_audit E' c true false w1 = (w', Ok tt) /\ has (e_cwd E') c w' u part /\ part <> d.
Proof.
  exists part_env, whole_env, ac, new_site, empty_start, part_run, whole_run, url_a, $"ABC", $"A".
  split; [exact ac_earnest|]. split; [exact new_startable|]. split; [split; reflexivity|]. split; [exact new_listed|].
  split. { intros k v x e G. change (cutting url_a $"A" [] k v = Broken x e) in G. unfold cutting in G. destruct (str_eqb_spec v url_a) as [->|_]; [|discriminate].
    injection G as <- _. exists $"BC". vm_compute. reflexivity. }
  split. { intros k v x G. change (cutting url_a $"A" [] k v = Data x) in G. unfold cutting in G. destruct (str_eqb v url_a); discriminate. }
  split; [exact part_run_run|]. split; [apply base_a|]. split; [vm_compute; reflexivity|]. split; [intros k; vm_compute; reflexivity|].
  split; [exact whole_run_run|]. split; [|discriminate].
  apply (has_is _ _ $"/d/a"); [vm_compute; reflexivity|exact whole_kept].
Qed.

(** * FollowEx: small histories of a source and its copy *)

From Verif Require Import Py PyFacts Float64 W3C Url UrlAuthority PathSpec OsPath OsPathFacts Mapper MapperSpec Resource ResourceSpec Container
  ContainerSpec Capability Xml Sitemap ListIndex Hashes Disk DiskSpec DiskFacts Builder BuilderSpec BuilderFacts ClientState ClientStateSpec ClientStateFacts
  Client ClientSpec ClientLists ClientFacts ClientRuns ClientExamples ClientThms ClientSync ClientReport ClientStatus ClientSyncEx ClientDirs
  ConvergeSpec ClientConverge ConvergeEx Mirror MirrorEx FollowSpec Follow.

(** ** Deciding about events *)

Fixpoint in_orderb (es : list happening) : bool :=
  match es with [] => true | e :: es' => forallb (fun e' => ev_time e <=? ev_time e') es' && in_orderb es' end.
Lemma in_orderb_ok es : in_orderb es = true -> in_order es.
Proof.
  induction es as [|e es IH]; cbn [in_orderb in_order]; [auto|]. rewrite andb_true_iff, forallb_forall. intros [A B]. split; [|auto].
  intros e' I. apply Z.leb_le, A, I.
Qed.
Definition not_after (t : option Z) (e : Z) : bool := match t with Some t => t <=? e | None => true end.
Definition entryb (c : client) (s : site) (e : happening) (r : resource) : bool :=
  str_eqb (r_uri r) (ev_uri e) && opt_eqb str_eqb (r_change r) (Some (word_for s e))
  && opt_eqb Z.eqb (change_time (c_spec_1_0 c) r) (Some (ev_time e)) && not_after (r_timestamp r) (ev_time e) && not_after (r_ts_datetime r) (ev_time e).
Fixpoint tellsb (c : client) (s : site) (es : list happening) (rs : list resource) : bool :=
  match es, rs with
  | [], [] => true
  | e :: es', r :: rs' => entryb c s e r && tellsb c (step s e) es' rs'
  | _, _ => false
  end.
Lemma tellsb_ok c es : forall s rs, tellsb c s es rs = true -> tells c s es rs.
Proof.
  induction es as [|e es IH]; intros s [|r rs]; cbn [tellsb tells]; auto; try discriminate.
  rewrite andb_true_iff. intros [A B]. split; [|auto]. unfold entryb in A. rewrite !andb_true_iff in A. destruct A as ((((A1 & A2) & A3) & A4) & A5).
  split; [apply str_eqb_eq, A1|]. split.
  - destruct (r_change r) as [x|]; [|discriminate]. cbn in A2. apply str_eqb_eq in A2. congruence.
  - split.
    + destruct (change_time (c_spec_1_0 c) r) as [x|]; [|discriminate]. cbn [opt_eqb] in A3. apply Z.eqb_eq in A3. congruence.
    + intros t [Q|Q]; rewrite Q in *; cbn [not_after] in *; apply Z.leb_le; assumption.
Qed.
Fixpoint news (from : Z) (s : site) (es : list happening) : list str :=
  match es with
  | [] => []
  | e :: es' => (if (from <=? ev_time e) && match ev_content e, s (ev_uri e) with Some _, None => true | _, _ => false end then [ev_uri e] else [])
                ++ news from (step s e) es'
  end.
Lemma new_news from es u : forall s, new_since from s es u -> In u (news from s es).
Proof.
  induction es as [|x es IH]; intros s (a & e & b & Q & L & U & C & N & A); [destruct a; discriminate|].
  cbn [news]. apply in_app_iff. destruct a as [|y a].
  - injection Q as <- <-. left. apply Z.leb_le in L. cbn in N. subst u. rewrite L, N. destruct (ev_content x); [left; reflexivity|congruence].
  - injection Q as <- Q. right. apply IH. exists a, e, b. repeat (split; [assumption|]). intros e' I. apply A. right. exact I.
Qed.
Lemma new_in from s es u l : news from s es = l -> new_since from s es u -> In u l.
Proof. intros <-. apply new_news. Qed.
Lemma gives files s : forallb (fun f => opt_eqb str_eqb (s (fst f)) (Some (snd f))) files = true ->
  forall k u d, get_from files k u = Data d -> s u = Some d.
Proof.
  intros H k u d G. unfold get_from in G. destruct (sget u files) as [x|] eqn:S; [|discriminate]. injection G as ->.
  apply sget_in in S. rewrite forallb_forall in H. specialize (H _ S). cbn [fst snd] in H.
  destruct (s u) as [y|]; [|discriminate]. cbn in H. apply str_eqb_eq in H. congruence.
Qed.

(** ** A source with two resources, copied to an empty destination *)

Notation ac := (ex_client one_mapping).
Definition url_a : str := $"http://s.org/r/a".
Definition url_b : str := $"http://s.org/r/x/b".
Definition url_c : str := $"http://s.org/r/c".
Definition half : Z := 2 ^ 1073.
Definition nothing : site := fun _ => None.
Definition first_events : list happening := [Ev day url_a (Some $"A"); Ev (day + SEC + half) url_b (Some $"BBB")].
Definition empty_start : world := start (Dir []) None.
Lemma base_c : below_base ac url_c.
Proof.
  exists (MkMap $"http://s.org/r" $"/d"), [$"c"]. split; [left; reflexivity|]. split; [discriminate|].
  split; [constructor; [|constructor]; repeat split; try discriminate; apply has_char_false; reflexivity|].
  split; [constructor; [|constructor]; apply has_char_false; reflexivity|reflexivity].
Qed.
Lemma empty_ok E : e_cwd E = [] -> world_ok E empty_start.
Proof.
  intros C. split; [|split; [exists []; reflexivity|rewrite C; constructor]].
  apply (names_okb_ok (Dir [])). reflexivity.
Qed.
Lemma empty_leaf q n : leaf_at (w_root empty_start) q = Some n -> False.
Proof. destruct q; cbn; discriminate. Qed.
Lemma empty_sync : synchronizable two_env ac empty_start.
Proof.
  split.
  - apply empty_ok. reflexivity.
  - split; [|constructor]. apply (names_okb_ok (Dir [])). reflexivity.
  - split; [apply one_mapping_apart|apply one_mapping_alone].
  - intros m [<-|[]]. split; [discriminate|reflexivity].
  - intros u L. destruct (two_listed u L) as [-> | ->]; [apply base_a|apply base_b].
Qed.
Definition timed_entry (x : str * resource) : bool :=
  match r_timestamp (snd x) with Some t => t <=? day + SEC + half | None => true end.
Lemma two_timed : forallb timed_entry two_list = true.
Proof. vm_compute. reflexivity. Qed.
Lemma first_listed u : listed two_env ac u <-> later nothing first_events u <> None.
Proof.
  split.
  - intros L. destruct (two_listed u L) as [-> | ->]; vm_compute; discriminate.
  - intros H. exists two_list. split; [apply two_found|]. assert (map fst two_list = [url_a; url_b]) as -> by (vm_compute; reflexivity). unfold later in H. cbn [fold_left first_events] in H. unfold step at 1 in H. cbn [ev_uri ev_content] in H.
    destruct (str_eqb_spec url_b u) as [Q|]; [right; left; exact Q|]. unfold step in H. cbn [ev_uri ev_content] in H.
    destruct (str_eqb_spec url_a u) as [Q|]; [left; exact Q|]. unfold nothing in H. congruence.
Qed.
Lemma first_times u r t : source_entry two_env ac u r -> r_timestamp r = Some t -> exists e, In e first_events /\ t <= ev_time e.
Proof.
  intros (src & F & I) T. rewrite two_found in F. apply Ok_inj in F. subst src.
  pose proof (proj1 (forallb_forall _ _) two_timed _ I) as H. unfold timed_entry in H. cbn [snd] in H. rewrite T in H. apply Z.leb_le in H.
  exists (Ev (day + SEC + half) url_b (Some $"BBB")). split; [right; left; reflexivity|exact H].
Qed.
Lemma no_record st t : st = None -> (exists sm, sitemap ac = Ok sm /\ get_state unit_floats st sm = Ok (Some t)) -> False.
Proof.
  intros -> (sm & S & G). apply Ok_inj in S. subst sm.
  assert (get_state unit_floats None $"http://s.org/r/resourcelist.xml" = Ok None) as Q by (vm_compute; reflexivity).
  change (get_state unit_floats None $"http://s.org/r/resourcelist.xml" = Ok (Some t)) in G. rewrite Q in G. discriminate.
Qed.
Lemma empty_local u n : local_node two_env ac empty_start u n -> False.
Proof.
  intros L. destruct (node_base _ _ _ empty_sync _ _ _ (sy_world _ _ _ empty_sync) (proj1 (sy_names _ _ _ empty_sync)) (sy_free _ _ _ empty_sync) L)
      as (_ & _ & q & _ & Q). apply (empty_leaf _ _ Q).
Qed.
Lemma first_start : good_start two_env ac empty_start nothing first_events.
Proof.
  split.
  - apply empty_sync.
  - exists []. split; constructor.
  - apply first_listed.
  - apply (gives two_contents). vm_compute. reflexivity.
  - apply first_times.
  - intros t R. elim (no_record _ t eq_refl R).
  - intros u q n _ _ L. elim (empty_leaf _ _ L).
  - intros u r n _ L. elim (empty_local u n L).
Qed.
Lemma first_none : no_later_file two_env ac empty_start first_events.
Proof. intros u n t L. elim (empty_local u n L). Qed.
Definition copied : world := Eval vm_compute in fst (baseline_or_audit two_env ac true false empty_start).
Lemma copied_run : baseline_or_audit two_env ac true false empty_start = (copied, Ok tt).
Proof. vm_compute. reflexivity. Qed.
Lemma ac_sm : forall sm, sitemap ac = Ok sm -> sm <> [].
Proof. intros sm S. apply Ok_inj in S. subst sm. discriminate. Qed.
Lemma ac_earnest : in_earnest ac.
Proof. split; [reflexivity|]. split; [reflexivity|]. cbn. lia. Qed.
Lemma copied_track : copy_of [] ac copied (later nothing first_events) /\ on_track [] unit_floats ac nothing first_events copied.
Proof. apply (baseline_track two_env ac empty_start copied nothing first_events unit_floats_ok ac_sm ac_earnest first_start first_none copied_run). Qed.
Lemma recorded_is w t : get_state unit_floats (w_state w) $"http://s.org/r/resourcelist.xml" = Ok (Some t) -> recorded unit_floats ac w t.
Proof. intros G. exists $"http://s.org/r/resourcelist.xml". split; [reflexivity|exact G]. Qed.
Lemma copied_time : recorded unit_floats ac copied (day + SEC + half).
Proof. apply recorded_is. vm_compute. reflexivity. Qed.

(** ** Two runs later, the first of which fails *)

Definition more_events : list happening := [Ev (day + 2 * SEC) url_a (Some $"A2"); Ev (day + 3 * SEC) url_c (Some $"C")].
Definition last_events : list happening := [Ev (day + 4 * SEC) url_a None].
Definition told (l : list str) : list (str * str) := [($"http://s.org/r/changelist.xml", list_text $"changelist" l)].
Definition change (loc time word : str) : str := entry loc time ($"change='" ++ word ++ $"' datetime='" ++ time ++ $"'").
Definition told_first : list str :=
  [change url_a $"2001-01-01T00:00:00Z" $"created"; change url_b $"2001-01-01T00:00:01.5Z" $"created"].
Definition told_more : list str := [change url_a $"2001-01-01T00:00:02Z" $"updated"; change url_c $"2001-01-01T00:00:03Z" $"created"].
Definition told_last : list str := [change url_a $"2001-01-01T00:00:04Z" $"deleted"].
(** Requests for one resource fail. *)
Definition failing (u0 : str) (files : list (str * str)) (n : nat) (u : str) : outcome :=
  if str_eqb u u0 then Refused IOError else get_from files n u.
Definition env_1 : env :=
  MkEnv [] (fetch_from (told (told_first ++ told_more))) (failing url_c [(url_a, $"A2"); (url_b, $"BBB")]) (2000000000 * SEC) plain_digests unit_floats.
Definition env_2 : env := ex_env (told (told_first ++ told_more ++ told_last)) [(url_b, $"BBB"); (url_c, $"C")].
Definition run_1 : world := Eval vm_compute in fst (incremental env_1 ac true None None copied).
Lemma run_1_run : incremental env_1 ac true None None copied = (run_1, Err ClientFatalError).
Proof. vm_compute. reflexivity. Qed.
Definition run_2 : world := Eval vm_compute in fst (incremental env_2 ac true None None run_1).
Lemma run_2_run : incremental env_2 ac true None None run_1 = (run_2, Ok tt).
Proof. vm_compute. reflexivity. Qed.
Lemma failing_gives u0 files s : forallb (fun f => opt_eqb str_eqb (s (fst f)) (Some (snd f))) files = true ->
  forall k u d, failing u0 files k u = Data d -> s u = Some d.
Proof. intros H k u d. unfold failing. destruct (str_eqb u u0); [discriminate|]. apply (gives files s H k u d). Qed.
Lemma sees_all E from s es : tellsb ac s es (read_by E ac $"http://s.org/r/changelist.xml") = true ->
  match read_by E ac $"http://s.org/r/changelist.xml" with [] => false | _ => true end = true ->
  (forall k u d, e_get E k u = Data d -> later s es u = Some d) -> sees E ac None from s es.
Proof.
  intros T N G. split; [|exact G]. exists [], es, $"http://s.org/r/changelist.xml", (read_by E ac $"http://s.org/r/changelist.xml").
  split; [reflexivity|]. split; [intros e []|]. split; [|apply tellsb_ok; exact T].
  apply read_changes_by; [reflexivity|reflexivity|exact N].
Qed.
Lemma sees_1 : sees env_1 ac None (day + SEC + half) nothing (first_events ++ more_events).
Proof. apply sees_all; [vm_compute; reflexivity|vm_compute; reflexivity|]. apply (failing_gives url_c). vm_compute. reflexivity. Qed.
Lemma sees_2 : sees env_2 ac None (day + SEC + half) nothing ((first_events ++ more_events) ++ last_events).
Proof. apply sees_all; [vm_compute; reflexivity|vm_compute; reflexivity|]. apply gives. vm_compute. reflexivity. Qed.
Lemma none_1 : none_left [] ac copied (day + SEC + half) nothing (first_events ++ more_events).
Proof.
  intros u _ N L. apply (new_in _ _ _ _ [url_b; url_c]) in N; [|vm_compute; reflexivity].
  destruct N as [N|[N|[]]]; rewrite <- N in L; vm_compute in L; discriminate.
Qed.
Lemma none_2 : none_left [] ac run_1 (day + SEC + half) nothing ((first_events ++ more_events) ++ last_events).
Proof.
  intros u _ N L. apply (new_in _ _ _ _ [url_b; url_c]) in N; [|vm_compute; reflexivity].
  destruct N as [N|[N|[]]]; rewrite <- N in L; vm_compute in L; discriminate.
Qed.
Lemma run_1_time : recorded unit_floats ac run_1 (day + SEC + half).
Proof. apply recorded_is. vm_compute. reflexivity. Qed.
Lemma first_history : history [] unit_floats ac nothing first_events copied (first_events ++ more_events) run_1.
Proof.
  apply (hs_more _ _ _ _ first_events copied more_events env_1 None (day + SEC + half) run_1 (Err ClientFatalError));
    [reflexivity|reflexivity|exact copied_time|exact sees_1|exact none_1|exact run_1_run|apply hs_end].
Qed.
Lemma all_ordered : in_order ((first_events ++ more_events) ++ last_events).
Proof. apply in_orderb_ok. vm_compute. reflexivity. Qed.
Lemma all_below e : In e ((first_events ++ more_events) ++ last_events) -> below_base ac (ev_uri e).
Proof. intros [<-|[<-|[<-|[<-|[<-|[]]]]]]; [apply base_a|apply base_b|apply base_a|apply base_c|apply base_a]. Qed.
Lemma ac_mapped : well_mapped [] ac.
Proof. apply (sync_mapped two_env ac empty_start empty_sync). Qed.
Lemma run_2_leaves : leaf_at (w_root run_2) [$"d"; $"a"] = None /\ holds run_2 [$"d"; $"x"; $"b"] $"BBB" = true /\ holds run_2 [$"d"; $"c"] $"C" = true
  /\ holds run_1 [$"d"; $"a"] $"A2" = true.
Proof. split; [vm_compute; reflexivity|]. split; [vm_compute; reflexivity|]. split; vm_compute; reflexivity. Qed.

(** ** What goes wrong *)

(** The newest resource is removed: *)
Definition gone_events : list happening := [Ev (day + 2 * SEC) url_b None].
Definition gone_env : env := ex_env (told (told_first ++ [change url_b $"2001-01-01T00:00:02Z" $"deleted"])) [(url_a, $"A")].
Definition gone_run : world := Eval vm_compute in fst (incremental gone_env ac true None None copied).
Lemma gone_run_run : incremental gone_env ac true None None copied = (gone_run, Ok tt).
Proof. vm_compute. reflexivity. Qed.
Lemma gone_kept : holds gone_run [$"d"; $"x"; $"b"] $"BBB" = true. Proof. vm_compute. reflexivity. Qed.
Lemma has_is w u p d : src_to_dst (c_mapper ac) u = Ok p -> holds w (denotes [] p) d = true -> has [] ac w u d.
Proof. intros S H. apply holds_at in H. destruct H as [t H]. exists p, t. auto. Qed.
Lemma newest_removed : exists E c clu w w' from s es more u d,
  in_earnest c /\ well_mapped (e_cwd E) c /\ in_order (es ++ more) /\ (forall e, In e (es ++ more) -> below_base c (ev_uri e))
  /\ world_ok E w /\ copy_of (e_cwd E) c w (later s es) /\ recorded (e_floats E) c w from /\ (forall e, In e es -> ev_time e <= from)
  /\ sees E c clu from s (es ++ more) /\ incremental E c true clu None w = (w', Ok tt)
  /\ below_base c u /\ later s (es ++ more) u = None /\ has (e_cwd E) c w' u d.
Proof.
  exists gone_env, ac, None, copied, gone_run, (day + SEC + half), nothing, first_events, gone_events, url_b, $"BBB".
  split; [exact ac_earnest|]. split; [exact ac_mapped|]. split; [apply in_orderb_ok; vm_compute; reflexivity|].
  split; [intros e [<-|[<-|[<-|[]]]]; [apply base_a|apply base_b|apply base_b]|].
  split; [apply (ot_world _ _ _ _ _ _ (proj2 copied_track)); reflexivity|]. split; [exact (proj1 copied_track)|]. split; [exact copied_time|].
  split. { intros e [<-|[<-|[]]]; apply Z.leb_le; vm_compute; reflexivity. }
  split; [apply sees_all; [vm_compute; reflexivity|vm_compute; reflexivity|apply gives; vm_compute; reflexivity]|].
  split; [exact gone_run_run|]. split; [apply base_b|]. split; [vm_compute; reflexivity|].
  apply (has_is _ _ $"/d/x/b"); [vm_compute; reflexivity|exact gone_kept].
Qed.

(** A resource that was created when a run failed is removed: *)
Definition half_env : env :=
  MkEnv [] (fetch_from (told (told_first ++ [change url_c $"2001-01-01T00:00:02Z" $"created"; change url_a $"2001-01-01T00:00:03Z" $"updated"])))
    (failing url_a [(url_b, $"BBB"); (url_c, $"C")]) (2000000000 * SEC) plain_digests unit_floats.
Definition half_events : list happening := [Ev (day + 2 * SEC) url_c (Some $"C"); Ev (day + 3 * SEC) url_a (Some $"A2")].
Definition rest_events : list happening := [Ev (day + 4 * SEC) url_c None].
Definition rest_env : env :=
  ex_env (told (told_first ++ [change url_c $"2001-01-01T00:00:02Z" $"created"; change url_a $"2001-01-01T00:00:03Z" $"updated"; change url_c $"2001-01-01T00:00:04Z" $"deleted"]))
    [(url_a, $"A2"); (url_b, $"BBB")].
Definition half_run : world := Eval vm_compute in fst (incremental half_env ac true None None copied).
Lemma half_run_run : incremental half_env ac true None None copied = (half_run, Err ClientFatalError).
Proof. vm_compute. reflexivity. Qed.
Definition rest_run : world := Eval vm_compute in fst (incremental rest_env ac true None None half_run).
Lemma rest_run_run : incremental rest_env ac true None None half_run = (rest_run, Ok tt).
Proof. vm_compute. reflexivity. Qed.
Lemma rest_kept : holds rest_run [$"d"; $"c"] $"C" = true. Proof. vm_compute. reflexivity. Qed.
Lemma half_none : none_left [] ac copied (day + SEC + half) nothing (first_events ++ half_events).
Proof.
  intros u _ N L. apply (new_in _ _ _ _ [url_b; url_c]) in N; [|vm_compute; reflexivity].
  destruct N as [N|[N|[]]]; rewrite <- N in L; vm_compute in L; discriminate.
Qed.
Lemma failed_then_removed : exists cwd F c s es w es1 w1 more E clu from w' u d,
  python_floats F /\ (forall sm, sitemap c = Ok sm -> sm <> []) /\ well_mapped cwd c /\ in_earnest c
  /\ on_track cwd F c s es w /\ history cwd F c s es w es1 w1 /\ in_order (es1 ++ more) /\ (forall e, In e (es1 ++ more) -> below_base c (ev_uri e))
  /\ e_cwd E = cwd /\ e_floats E = F /\ recorded F c w1 from /\ (forall e, In e more -> from < ev_time e)
  /\ sees E c clu from s (es1 ++ more) /\ incremental E c true clu None w1 = (w', Ok tt)
  /\ below_base c u /\ later s es u = None /\ later s (es1 ++ more) u = None /\ has cwd c w' u d.
Proof.
  exists [], unit_floats, ac, nothing, first_events, copied, (first_events ++ half_events), half_run, rest_events, rest_env, None, (day + SEC + half), rest_run, url_c, $"C".
  split; [exact unit_floats_ok|]. split; [exact ac_sm|]. split; [exact ac_mapped|]. split; [exact ac_earnest|].
  split; [exact (proj2 copied_track)|]. split.
  { apply (hs_more _ _ _ _ first_events copied half_events half_env None (day + SEC + half) half_run (Err ClientFatalError));
      [reflexivity|reflexivity|exact copied_time| |exact half_none|exact half_run_run|apply hs_end].
    apply sees_all; [vm_compute; reflexivity|vm_compute; reflexivity|]. apply (failing_gives url_a). vm_compute. reflexivity. }
  split; [apply in_orderb_ok; vm_compute; reflexivity|].
  split; [intros e [<-|[<-|[<-|[<-|[<-|[]]]]]]; [apply base_a|apply base_b|apply base_c|apply base_a|apply base_c]|].
  split; [reflexivity|]. split; [reflexivity|]. split; [apply recorded_is; vm_compute; reflexivity|].
  split; [intros e [<-|[]]; apply Z.ltb_lt; vm_compute; reflexivity|].
  split; [apply sees_all; [vm_compute; reflexivity|vm_compute; reflexivity|apply gives; vm_compute; reflexivity]|].
  split; [exact rest_run_run|]. split; [apply base_c|]. split; [vm_compute; reflexivity|]. split; [vm_compute; reflexivity|].
  apply (has_is _ _ $"/d/c"); [vm_compute; reflexivity|exact rest_kept].
Qed.

(** A local file with a late time, that a baseline deletes: *)
Definition junk_start : world := start (Dir [($"d", Dir [($"junk", File $"J" (day + 10 * SEC))])]) None.
Definition junk_run : world := Eval vm_compute in fst (baseline_or_audit two_env ac true false junk_start).
Lemma junk_run_run : baseline_or_audit two_env ac true false junk_start = (junk_run, Ok tt).
Proof. vm_compute. reflexivity. Qed.
Lemma junk_time : recorded unit_floats ac junk_run (day + 10 * SEC).
Proof. apply recorded_is. vm_compute. reflexivity. Qed.
Definition late_events : list happening := [Ev (day + 2 * SEC) url_a (Some $"A2")].
Definition late_env : env := ex_env (told (told_first ++ [change url_a $"2001-01-01T00:00:02Z" $"updated"])) [(url_a, $"A2"); (url_b, $"BBB")].
Definition late_run : world := Eval vm_compute in fst (incremental late_env ac true None None junk_run).
Lemma late_run_run : incremental late_env ac true None None junk_run = (late_run, Ok tt).
Proof. vm_compute. reflexivity. Qed.
Lemma late_kept : holds late_run [$"d"; $"a"] $"A" = true. Proof. vm_compute. reflexivity. Qed.

Lemma some_inj {A} (a b : A) : Some a = Some b -> a = b. Proof. congruence. Qed.
Lemma junk_leaf q n : leaf_at (w_root junk_start) q = Some n -> q = [$"d"; $"junk"] /\ n = File $"J" (day + 10 * SEC).
Proof.
  unfold junk_start, start. cbn [w_root]. destruct q as [|x q]; [discriminate|]. rewrite leaf_step. cbn [sget].
  destruct (str_eqb_spec x $"d") as [->|_]; [|discriminate]. destruct q as [|y q]; [discriminate|]. rewrite leaf_step. cbn [sget].
  destruct (str_eqb_spec y $"junk") as [->|_]; [|discriminate]. destruct q; [|discriminate]. intros H. apply some_inj in H. auto.
Qed.
Lemma junk_sync : synchronizable two_env ac junk_start.
Proof.
  assert (tree_ok (w_root junk_start) /\ one_line_names (w_root junk_start)) as [T O] by (apply names_okb_ok; vm_compute; reflexivity).
  split.
  - split; [exact T|]. split; [eexists; reflexivity|constructor].
  - split; [exact O|constructor].
  - split; [apply one_mapping_apart|apply one_mapping_alone].
  - intros m [<-|[]]. split; [discriminate|reflexivity].
  - intros u L. destruct (two_listed u L) as [-> | ->]; [apply base_a|apply base_b].
Qed.
Lemma junk_good : good_start two_env ac junk_start nothing first_events.
Proof.
  split.
  - apply junk_sync.
  - exists []. split; constructor.
  - apply first_listed.
  - apply (gives two_contents). vm_compute. reflexivity.
  - apply first_times.
  - intros t R. elim (no_record _ t eq_refl R).
  - intros u q n _ _ L. apply junk_leaf in L. destruct L as [_ ->]. left. eauto.
  - intros u r n SE L. exfalso. destruct (entry_uri _ _ _ _ SE) as [_ LI].
    destruct (node_base _ _ _ junk_sync _ _ _ (sy_world _ _ _ junk_sync) (proj1 (sy_names _ _ _ junk_sync)) (sy_free _ _ _ junk_sync) L)
      as (_ & _ & q & (p & S & ->) & Q). apply junk_leaf in Q. destruct Q as [Q _].
    destruct (two_listed u LI) as [-> | ->].
    + assert (src_to_dst one_mapping $"http://s.org/r/a" = Ok $"/d/a") as S' by (vm_compute; reflexivity).
      change (src_to_dst one_mapping $"http://s.org/r/a" = Ok p) in S. rewrite S' in S. apply Ok_inj in S. subst p. vm_compute in Q. discriminate Q.
    + assert (src_to_dst one_mapping $"http://s.org/r/x/b" = Ok $"/d/x/b") as S' by (vm_compute; reflexivity).
      change (src_to_dst one_mapping $"http://s.org/r/x/b" = Ok p) in S. rewrite S' in S. apply Ok_inj in S. subst p. vm_compute in Q. discriminate Q.
Qed.
Lemma late_missed : exists E0 c w0 w s es more E clu from w' u d d',
  python_floats (e_floats E0) /\ (forall sm, sitemap c = Ok sm -> sm <> []) /\ in_earnest c /\ good_start E0 c w0 s es
  /\ baseline_or_audit E0 c true false w0 = (w, Ok tt) /\ copy_of (e_cwd E0) c w (later s es)
  /\ in_order (es ++ more) /\ (forall e, In e (es ++ more) -> below_base c (ev_uri e))
  /\ e_cwd E = e_cwd E0 /\ e_floats E = e_floats E0 /\ recorded (e_floats E0) c w from /\ sees E c clu from s (es ++ more)
  /\ none_left (e_cwd E0) c w from s (es ++ more) /\ incremental E c true clu None w = (w', Ok tt)
  /\ below_base c u /\ later s (es ++ more) u = Some d /\ has (e_cwd E0) c w' u d' /\ d <> d'.
Proof.
  exists two_env, ac, junk_start, junk_run, nothing, first_events, late_events, late_env, None, (day + 10 * SEC), late_run, url_a, $"A2", $"A".
  split; [exact unit_floats_ok|]. split; [exact ac_sm|]. split; [exact ac_earnest|]. split; [exact junk_good|]. split; [exact junk_run_run|].
  split; [apply (baseline_copy two_env ac junk_start junk_run nothing first_events ac_earnest junk_good junk_run_run)|].
  split; [apply in_orderb_ok; vm_compute; reflexivity|]. split; [intros e [<-|[<-|[<-|[]]]]; [apply base_a|apply base_b|apply base_a]|].
  split; [reflexivity|]. split; [reflexivity|]. split; [exact junk_time|].
  split; [apply sees_all; [vm_compute; reflexivity|vm_compute; reflexivity|apply gives; vm_compute; reflexivity]|].
  split; [intros u _ N; apply (new_in _ _ _ _ []) in N; [destruct N|vm_compute; reflexivity]|].
  split; [exact late_run_run|]. split; [apply base_a|]. split; [vm_compute; reflexivity|].
  split; [apply (has_is _ _ $"/d/a"); [vm_compute; reflexivity|exact late_kept]|discriminate].
Qed.

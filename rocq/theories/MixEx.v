(** * MixEx: baselines and incremental runs, some of which fail or are killed *)

From Verif Require Import Py PyFacts Float64 W3C Url UrlAuthority PathSpec OsPath OsPathFacts Mapper MapperSpec Resource ResourceSpec Container
  ContainerSpec Capability Xml Sitemap ListIndex Hashes Disk DiskSpec DiskFacts Builder BuilderSpec BuilderFacts ClientState ClientStateSpec ClientStateFacts StateCut
  Client ClientSpec ClientLists ClientCompare ClientFacts ClientRuns ClientExamples ClientThms ClientSync ClientReport ClientStatus ClientSyncEx ClientDirs
  ConvergeSpec ClientConverge ConvergeEx Mirror MirrorEx FollowSpec Follow FollowEx Kill KillSpec KillFacts KillBase KillRepeat KillEx MeanwhileSpec MeanwhileFacts
  MeanwhileEx MixSpec MixFacts.

(** ** Deciding about lists and events *)

Fixpoint spacedb (es : list happening) : bool :=
  match es with [] => true | e :: es' => forallb (fun e' => negb (str_eqb (ev_uri e') (ev_uri e)) || (ev_time e + SEC <=? ev_time e')) es' && spacedb es' end.
Lemma spacedb_ok es : spacedb es = true -> spaced es.
Proof.
  induction es as [|e es IH]; cbn [spacedb spaced]; [auto|]. rewrite andb_true_iff, forallb_forall. intros [A B]. split; [|auto].
  intros e' I Q. specialize (A e' I). rewrite Q, str_eqb_refl in A. apply Z.leb_le, A.
Qed.
Lemma apartb_ok E all : forallb (fun e => SEC <=? Z.abs (e_now E - ev_time e)) all = true -> clock_apart E all.
Proof. rewrite forallb_forall. intros H e I. apply Z.leb_le, H, I. Qed.
Lemma later_in u es : forall s, s u = None -> later s es u <> None -> In u (map ev_uri es).
Proof.
  induction es as [|e es IH]; intros s N L; [cbn in L; congruence|]. cbn [map]. destruct (str_eqb_spec (ev_uri e) u) as [Q|Q]; [left; exact Q|right].
  apply (IH (step s e)); [|exact L]. unfold step. destruct (str_eqb_spec (ev_uri e) u); [contradiction|exact N].
Qed.
Definition given {A} (o : option A) : bool := match o with Some _ => true | None => false end.
Definition entry_right (es : list happening) (x : str * resource) : bool :=
  match later void es (fst x), last_event (fst x) es with
  | Some d, Some e => opt_eqb Z.eqb (r_timestamp (snd x)) (Some (ev_time e)) && match r_length (snd x) with Some n => n =? zlen d | None => true end
  | _, _ => false
  end.
Definition all_there (es : list happening) (src : rdict) : bool :=
  forallb (fun e => negb (given (later void es (ev_uri e))) || existsb (str_eqb (ev_uri e)) (map fst src)) es.
Lemma found_is E : is_ok (find_resource_list (e_fetch E) ac) = true -> find_resource_list (e_fetch E) ac = Ok (source_of E ac).
Proof. unfold source_of. destruct (find_resource_list (e_fetch E) ac); [reflexivity|discriminate]. Qed.
Lemma lists_is E es mid : is_ok (find_resource_list (e_fetch E) ac) = true -> forallb (entry_right es) (source_of E ac) = true -> all_there es (source_of E ac) = true ->
  (forall k u d, e_get E k u = Data d -> exists a b, mid = a ++ b /\ later void (es ++ a) u = Some d) -> lists_while E ac es mid.
Proof.
  intros F R A G. apply found_is in F. rewrite forallb_forall in R. unfold all_there in A. rewrite forallb_forall in A.
  assert (forall u r, source_entry E ac u r -> entry_right es (u, r) = true) as S by (intros u r (src & F' & I); rewrite F in F'; apply Ok_inj in F'; subst src; auto).
  split; [| | |exact G].
  - intros u. split.
    + intros (src & F' & I). rewrite F in F'. apply Ok_inj in F'. subst src. apply in_map_iff in I. destruct I as ((u' & r) & Q & I). cbn [fst] in Q. subst u'.
      specialize (R _ I). unfold entry_right in R. cbn [fst] in R. destruct (later void es u); [discriminate|discriminate R].
    + intros L. exists (source_of E ac). split; [exact F|]. pose proof (later_in u es void eq_refl L) as I. apply in_map_iff in I. destruct I as (e & <- & I).
      specialize (A e I). destruct (later void es (ev_uri e)) as [d|]; [|congruence]. cbn [given negb orb] in A. apply existsb_exists in A.
      destruct A as (x & I' & Q). apply str_eqb_eq in Q. rewrite Q. exact I'.
  - intros u r I. specialize (S u r I). unfold entry_right in S. cbn [fst snd] in S. destruct (later void es u) as [d|]; [|discriminate].
    destruct (last_event u es) as [e|]; [|discriminate]. exists e. split; [reflexivity|]. apply andb_true_iff in S. destruct S as [S _].
    destruct (r_timestamp r) as [t|]; [|discriminate]. cbn [opt_eqb] in S. apply Z.eqb_eq in S. congruence.
  - intros u r d I L. specialize (S u r I). unfold entry_right in S. cbn [fst snd] in S. rewrite L in S.
    destruct (last_event u es) as [e|]; [|discriminate]. apply andb_true_iff in S. destruct S as [_ S].
    intros x y X Y. rewrite X in S. apply Z.eqb_eq in S. congruence.
Qed.
Definition entry_timed (r : resource) : bool :=
  negb (change_is $"created" r || change_is $"updated" r)
  || match change_time false r, r_timestamp r with Some a, Some b => a =? b | _, _ => false end.
Lemma times_given E : forallb entry_timed (read_by E ac $"http://s.org/r/changelist.xml") = true -> gives_times E ac None.
Proof.
  intros H uri changes r (U & l & R & ->) I C. apply Ok_inj in U. rewrite <- U in R. unfold read_by in H.
  change (sitemap_uri ac (c_change_list_name ac)) with (@Ok str $"http://s.org/r/changelist.xml") in U.
  change (list_read change_list_kind (e_fetch E) false (new_list change_list_kind $"changelist" true None) $"http://s.org/r/changelist.xml" = Ok l) in R.
  rewrite R in H. rewrite forallb_forall in H. specialize (H r I). unfold entry_timed in H.
  assert (change_is $"created" r || change_is $"updated" r = true) as Q.
  { unfold change_is. destruct C as [-> | ->]; vm_compute; reflexivity. }
  rewrite Q in H. cbn [negb orb] in H. change (c_spec_1_0 ac) with false. destruct (change_time false r) as [a|]; [|discriminate].
  destruct (r_timestamp r) as [b|]; [|discriminate]. apply Z.eqb_eq in H. subst b. eauto.
Qed.
Lemma no_list_below E : is_ok (find_resource_list (e_fetch E) ac) = false -> keeps_below E ac.
Proof. intros H u (src & F & _). rewrite F in H. discriminate. Qed.
Lemma none_extra E w es : tree_ok (w_root w) -> is_ok (scan E ac w) = true -> is_ok (find_resource_list (e_fetch E) ac) = true ->
  forallb (fun u => existsb (str_eqb u) (map fst (source_of E ac))) (map fst (scanned E ac w)) = true -> no_later_extra E ac w es.
Proof.
  intros T S F H u n t (m & rel & file & I & FA & D) N. elim N. exists (source_of E ac). split; [apply found_is, F|].
  assert (scan E ac w = Ok (scanned E ac w)) as S' by (unfold scanned; destruct (scan E ac w); [reflexivity|discriminate]).
  rewrite forallb_forall in H. assert (In u (map fst (scanned E ac w))) as J.
  { apply (scan_local_iff E ac w _ u T S'). exists file, m, rel, n. auto. }
  specialize (H u J). apply existsb_exists in H. destruct H as (x & I' & Q). apply str_eqb_eq in Q. rewrite Q. exact I'.
Qed.

(** ** A history *)

(** A baseline fails and one is killed; the third succeeds, while a resource is updated.
    Then there is a third resource, and an incremental run fails for it.  The next one
    succeeds, but is killed while it writes the state file.  At last a resource is removed,
    and another one updated while a run is reading. *)
Definition more_f : list happening := [Ev (day + 4 * SEC) url_a None].
Definition mid_f : list happening := [Ev (day + 5 * SEC) url_c (Some $"CC")].
Definition es_3 : list happening := first_events ++ mid_b.
Definition es_4 : list happening := es_3 ++ more_b.
Definition es_all : list happening := (es_4 ++ more_f) ++ mid_f.
Lemma es_all_orderly : orderly ac es_all.
Proof.
  split; [apply in_orderb_ok; vm_compute; reflexivity|apply spacedb_ok; vm_compute; reflexivity| |].
  - assert (forallb (fun e => 0 <=? ev_time e) es_all = true) as H by (vm_compute; reflexivity). rewrite forallb_forall in H.
    intros e I. apply Z.leb_le, H, I.
  - intros e [<-|[<-|[<-|[<-|[<-|[<-|[]]]]]]]; [apply base_a|apply base_b|apply base_a|apply base_c|apply base_a|apply base_c].
Qed.
Lemma empty_ready : empty_destination [] ac empty_start.
Proof.
  split; [|reflexivity|].
  - intros E C KB. destruct empty_sync as [_ B [A1 _] D _]. split.
    + apply empty_ok, C.
    + rewrite C. exact B.
    + split; [exact A1|apply one_mapping_alone].
    + intros m I. destruct (D m I) as [D1 D2]. change (e_cwd two_env) with (@nil str) in D1, D2. rewrite C. split; assumption.
    + exact KB.
  - intros u p _ _. destruct (leaf_at (w_root empty_start) (denotes [] p)) as [n|] eqn:L; [|reflexivity]. elim (empty_leaf _ _ L).
Qed.
Definition mix_3 : world := Eval vm_compute in fst (baseline_or_audit env_b ac true false base_2).
Lemma mix_3_run : baseline_or_audit env_b ac true false base_2 = (mix_3, Ok tt).
Proof. vm_compute. reflexivity. Qed.
Definition mix_4 : world := Eval vm_compute in fst (incremental env_1 ac true None None mix_3).
Lemma mix_4_run : incremental env_1 ac true None None mix_3 = (mix_4, Err ClientFatalError).
Proof. vm_compute. reflexivity. Qed.
Definition mix_4' : world := Eval vm_compute in fst (incremental env_s ac true None None mix_4).
Lemma mix_4'_run : incremental env_s ac true None None mix_4 = (mix_4', Ok tt).
Proof. vm_compute. reflexivity. Qed.
Definition mix_5 : world := cut_state 11 mix_4'.

Lemma cut_gives k u d es : e_get cut_env k u = Data d -> es = first_events -> exists a b, [] = a ++ b /\ later void (es ++ a) u = Some d.
Proof.
  intros G ->. exists [], []. split; [reflexivity|]. change (cutting url_b $"B" two_contents k u = Data d) in G. unfold cutting in G.
  destruct (str_eqb u url_b); [discriminate|]. apply (gives two_contents (later void (first_events ++ []))) with (k := k); [vm_compute; reflexivity|exact G].
Qed.
Lemma mix_step_1 : mixed_run [] unit_floats ac es_all first_events [] empty_start base_1.
Proof.
  apply (mr_baseline _ _ _ _ _ _ _ cut_env base_1 (Err ClientFatalError)); [reflexivity|reflexivity| | |exact base_1_run|right].
  - apply lists_is; [vm_compute; reflexivity|vm_compute; reflexivity|vm_compute; reflexivity|]. intros k u d G. apply (cut_gives k u d _ G eq_refl).
  - intros u n t L. elim (empty_local u n L).
  - apply apartb_ok. vm_compute. reflexivity.
Qed.
Lemma mix_step_2 : mixed_run [] unit_floats ac es_all first_events [] base_1 base_2.
Proof.
  apply (mr_baseline_killed _ _ _ _ _ _ _ two_env); [reflexivity|reflexivity| | |exact base_2_moment].
  - apply lists_is; [vm_compute; reflexivity|vm_compute; reflexivity|vm_compute; reflexivity|]. apply (gives_while two_contents). vm_compute. reflexivity.
  - apply apartb_ok. vm_compute. reflexivity.
Qed.
Lemma base_2_tree : tree_ok (w_root base_2). Proof. apply names_okb_ok. vm_compute. reflexivity. Qed.
Lemma mix_step_3 : mixed_run [] unit_floats ac es_all first_events mid_b base_2 mix_3.
Proof.
  apply (mr_baseline _ _ _ _ _ _ _ env_b mix_3 (Ok tt)); [reflexivity|reflexivity| | |exact mix_3_run|left; reflexivity].
  - apply lists_is; [vm_compute; reflexivity|vm_compute; reflexivity|vm_compute; reflexivity|]. apply (gives_while [(url_a, $"A2"); (url_b, $"BBB")]). vm_compute. reflexivity.
  - apply none_extra; [exact base_2_tree|vm_compute; reflexivity|vm_compute; reflexivity|vm_compute; reflexivity].
Qed.
Lemma mix_3_time : recorded unit_floats ac mix_3 (day + SEC + half). Proof. apply recorded_is. vm_compute. reflexivity. Qed.
Lemma mix_4_time : recorded unit_floats ac mix_4 (day + SEC + half). Proof. apply recorded_is. vm_compute. reflexivity. Qed.
Lemma sees_this E from es mid : tellsb ac void es (read_by E ac $"http://s.org/r/changelist.xml") = true ->
  match read_by E ac $"http://s.org/r/changelist.xml" with [] => false | _ => true end = true ->
  (forall k u d, e_get E k u = Data d -> exists a b, mid = a ++ b /\ later void (es ++ a) u = Some d) -> sees_while E ac None from void es mid.
Proof.
  intros T N G. split; [|exact G]. exists [], es, $"http://s.org/r/changelist.xml", (read_by E ac $"http://s.org/r/changelist.xml").
  split; [reflexivity|]. split; [intros e []|]. split; [|apply tellsb_ok; exact T].
  apply read_changes_by; [reflexivity|reflexivity|exact N].
Qed.
Lemma mix_step_4 : mixed_run [] unit_floats ac es_all es_4 [] mix_3 mix_4.
Proof.
  apply (mr_incremental _ _ _ _ _ _ _ env_1 None (day + SEC + half) mix_4 (Err ClientFatalError)); [reflexivity|reflexivity| |exact mix_3_time| | | |exact mix_4_run|right].
  - apply no_list_below. vm_compute. reflexivity.
  - apply sees_this; [vm_compute; reflexivity|vm_compute; reflexivity|]. intros k u d G. exists [], []. split; [reflexivity|].
    apply (failing_gives url_c [(url_a, $"A2"); (url_b, $"BBB")] (later void (es_4 ++ []))) with (k := k); [vm_compute; reflexivity|exact G].
  - apply times_given. vm_compute. reflexivity.
  - intros u _ N L. apply (new_in _ _ _ _ [url_b; url_c]) in N; [|vm_compute; reflexivity].
    destruct N as [N|[N|[]]]; rewrite <- N in L; vm_compute in L; discriminate.
  - apply apartb_ok. vm_compute. reflexivity.
Qed.
Lemma mix_4_last : w_last mix_4' =? day + 3 * SEC = true. Proof. vm_compute. reflexivity. Qed.
Lemma mix_4_crash : match state_text unit_floats (w_state mix_4) $"http://s.org/r/resourcelist.xml" (Some (day + 3 * SEC)) with
  | Ok t => opt_eqb str_eqb (w_state mix_4') (Some t) | Err _ => false end = true.
Proof. vm_compute. reflexivity. Qed.
Lemma mix_5_part : saved_in_part env_s ac mix_4 mix_4' mix_5.
Proof.
  pose proof mix_4_last as W. apply Z.eqb_eq in W. exists $"http://s.org/r/resourcelist.xml". split; [reflexivity|]. rewrite W.
  split; [exact day_double|]. split; [apply Z.leb_le; vm_compute; reflexivity|]. change (e_floats env_s) with unit_floats. pose proof mix_4_crash as C.
  destruct (state_text unit_floats (w_state mix_4) $"http://s.org/r/resourcelist.xml" (Some (day + 3 * SEC))) as [t|] eqn:T; [|discriminate C].
  assert (w_state mix_4' = Some t) as V by (destruct (w_state mix_4') as [x|]; [|discriminate C]; cbn [opt_eqb] in C; apply str_eqb_eq in C; congruence).
  split; [unfold set_state; rewrite T, V; reflexivity|]. split; [exact (cut_root 11 mix_4')|].
  rewrite (cut_is 11 mix_4' t V : w_state mix_5 = _). apply crash_part; [exact T|lia].
Qed.
Lemma mix_step_5 : mixed_run [] unit_floats ac es_all es_4 [] mix_4 mix_5.
Proof.
  apply (mr_incremental_saving _ _ _ _ _ _ _ env_s None (day + SEC + half) mix_4' mix_5); [reflexivity|reflexivity| |exact mix_4_time| | | |exact mix_4'_run|exact mix_5_part].
  - apply no_list_below. vm_compute. reflexivity.
  - apply sees_this; [vm_compute; reflexivity|vm_compute; reflexivity|]. apply (gives_while [(url_a, $"A2"); (url_b, $"BBB"); (url_c, $"C")]). vm_compute. reflexivity.
  - apply times_given. vm_compute. reflexivity.
  - intros u _ N L. apply (new_in _ _ _ _ [url_b; url_c]) in N; [|vm_compute; reflexivity].
    destruct N as [N|[N|[]]]; rewrite <- N in L; vm_compute in L; discriminate.
Qed.
Lemma mix_history_4 : mixed_history [] unit_floats ac es_all [] empty_start es_4 mix_4.
Proof.
  apply (mx_run _ _ _ _ [] _ first_events [] base_1); [exact mix_step_1|].
  apply (mx_run _ _ _ _ first_events _ [] [] base_2); [exact mix_step_2|].
  apply (mx_run _ _ _ _ first_events _ [] mid_b mix_3); [exact mix_step_3|].
  apply (mx_run _ _ _ _ es_3 _ more_b [] mix_4); [exact mix_step_4|]. apply mx_end.
Qed.
Lemma mix_history_5 : mixed_history [] unit_floats ac es_all [] empty_start es_4 mix_5.
Proof.
  apply (mx_run _ _ _ _ [] _ first_events [] base_1); [exact mix_step_1|].
  apply (mx_run _ _ _ _ first_events _ [] [] base_2); [exact mix_step_2|].
  apply (mx_run _ _ _ _ first_events _ [] mid_b mix_3); [exact mix_step_3|].
  apply (mx_run _ _ _ _ es_3 _ more_b [] mix_4); [exact mix_step_4|].
  apply (mx_run _ _ _ _ es_4 _ [] [] mix_5); [exact mix_step_5|]. apply mx_end.
Qed.

(** A baseline after the last, *)
Definition list_f : list (str * str) :=
  [($"http://s.org/r/resourcelist.xml",
    list_text $"resourcelist" [entry url_b $"2001-01-01T00:00:01.5Z" $"length='3'"; entry url_c $"2001-01-01T00:00:03Z" $""])].
Definition env_fb : env := ex_env list_f [(url_b, $"BBB"); (url_c, $"CC")].
Definition mix_6 : world := Eval vm_compute in fst (baseline_or_audit env_fb ac true false mix_5).
Lemma mix_6_run : baseline_or_audit env_fb ac true false mix_5 = (mix_6, Ok tt).
Proof. vm_compute. reflexivity. Qed.
Lemma lists_f : lists_while env_fb ac (es_4 ++ more_f) mid_f.
Proof. apply lists_is; [vm_compute; reflexivity|vm_compute; reflexivity|vm_compute; reflexivity|]. apply (gives_while [(url_b, $"BBB"); (url_c, $"CC")]). vm_compute. reflexivity. Qed.
(** or an incremental run after the one before. *)
Definition env_fi : env := ex_env (told (told_first ++ told_b ++ [change url_a $"2001-01-01T00:00:04Z" $"deleted"])) [(url_b, $"BBB"); (url_c, $"CC")].
Definition mix_7 : world := Eval vm_compute in fst (incremental env_fi ac true None None mix_4).
Lemma mix_7_run : incremental env_fi ac true None None mix_4 = (mix_7, Ok tt).
Proof. vm_compute. reflexivity. Qed.
Lemma below_f : keeps_below env_fi ac. Proof. apply no_list_below. vm_compute. reflexivity. Qed.
Lemma sees_f : sees_while env_fi ac None (day + SEC + half) void (es_4 ++ more_f) mid_f.
Proof. apply sees_this; [vm_compute; reflexivity|vm_compute; reflexivity|]. apply (gives_while [(url_b, $"BBB"); (url_c, $"CC")]). vm_compute. reflexivity. Qed.
Lemma times_f : gives_times env_fi ac None. Proof. apply times_given. vm_compute. reflexivity. Qed.
Lemma none_f : none_left [] ac mix_4 (day + SEC + half) void (es_4 ++ more_f).
Proof.
  intros u _ N L. apply (new_in _ _ _ _ [url_b; url_c]) in N; [|vm_compute; reflexivity].
  destruct N as [N|[N|[]]]; rewrite <- N in L; vm_compute in L; discriminate.
Qed.
Lemma mix_leaves : holds base_2 [$"d"; $"x"; $"b"] $"BB" = true /\ holds mix_4 [$"d"; $"a"] $"A2" = true /\ holds mix_5 [$"d"; $"c"] $"C" = true
  /\ leaf_at (w_root mix_6) [$"d"; $"a"] = None /\ holds mix_6 [$"d"; $"x"; $"b"] $"BBB" = true /\ holds mix_6 [$"d"; $"c"] $"C" = true
  /\ leaf_at (w_root mix_7) [$"d"; $"a"] = None /\ holds mix_7 [$"d"; $"x"; $"b"] $"BBB" = true /\ holds mix_7 [$"d"; $"c"] $"CC" = true.
Proof. repeat (split; [vm_compute; reflexivity|]). vm_compute. reflexivity. Qed.

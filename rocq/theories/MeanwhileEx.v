(** * MeanwhileEx: a source that is busy during a baseline and a run *)

From Verif Require Import Py PyFacts Float64 W3C Url UrlAuthority PathSpec OsPath OsPathFacts Mapper MapperSpec Resource ResourceSpec Container
  ContainerSpec Capability Xml Sitemap ListIndex Hashes Disk DiskSpec DiskFacts Builder BuilderSpec BuilderFacts ClientState ClientStateSpec ClientStateFacts
  Client ClientSpec ClientLists ClientFacts ClientRuns ClientExamples ClientThms ClientSync ClientReport ClientStatus ClientSyncEx ClientDirs
  ConvergeSpec ClientConverge ConvergeEx Mirror MirrorEx FollowSpec Follow FollowEx Kill KillSpec MeanwhileSpec MeanwhileFacts.

(** The list was made when there were two resources; one of them is updated before it is requested. *)
Definition mid_b : list happening := [Ev (day + 2 * SEC) url_a (Some $"A2")].
Definition env_b : env := ex_env two_resources [(url_a, $"A2"); (url_b, $"BBB")].
(** Then there is a third.  After the change list was made, two are updated; the old
    content of the one and the new content of the other come. *)
Definition more_b : list happening := [Ev (day + 3 * SEC) url_c (Some $"C")].
Definition mid_r : list happening := [Ev (day + 4 * SEC) url_a (Some $"A4"); Ev (day + 5 * SEC) url_c (Some $"CC")].
Definition told_b : list str := [change url_a $"2001-01-01T00:00:02Z" $"updated"; change url_c $"2001-01-01T00:00:03Z" $"created"].
Definition told_r : list str := [change url_a $"2001-01-01T00:00:04Z" $"updated"; change url_c $"2001-01-01T00:00:05Z" $"updated"].
Definition env_r : env := ex_env (told (told_first ++ told_b)) [(url_a, $"A2"); (url_b, $"BBB"); (url_c, $"CC")].
Definition env_q : env := ex_env (told (told_first ++ told_b ++ told_r)) [(url_a, $"A4"); (url_b, $"BBB"); (url_c, $"CC")].
Definition busy_1 : world := Eval vm_compute in fst (baseline_or_audit env_b ac true false empty_start).
Lemma busy_1_run : baseline_or_audit env_b ac true false empty_start = (busy_1, Ok tt).
Proof. vm_compute. reflexivity. Qed.
Definition busy_2 : world := Eval vm_compute in fst (incremental env_r ac true None None busy_1).
Lemma busy_2_run : incremental env_r ac true None None busy_1 = (busy_2, Ok tt).
Proof. vm_compute. reflexivity. Qed.
Definition busy_3 : world := Eval vm_compute in fst (incremental env_q ac true None None busy_2).
Lemma busy_3_run : incremental env_q ac true None None busy_2 = (busy_3, Ok tt).
Proof. vm_compute. reflexivity. Qed.

(** Each content is that of some moment. *)
Fixpoint prefixes (mid : list happening) : list (list happening) :=
  match mid with [] => [[]] | e :: mid' => [] :: map (cons e) (prefixes mid') end.
Lemma prefix_in mid a : In a (prefixes mid) -> exists b, mid = a ++ b.
Proof.
  revert a. induction mid as [|e mid IH]; intros a; cbn [prefixes].
  - intros [<-|[]]. exists []. reflexivity.
  - intros [<-|I]; [exists (e :: mid); reflexivity|]. apply in_map_iff in I. destruct I as (a' & <- & I). destruct (IH a' I) as (b & ->).
    exists b. reflexivity.
Qed.
Lemma gives_while files s es mid :
  forallb (fun f => existsb (fun a => opt_eqb str_eqb (later s (es ++ a) (fst f)) (Some (snd f))) (prefixes mid)) files = true ->
  forall k u d, get_from files k u = Data d -> exists a b, mid = a ++ b /\ later s (es ++ a) u = Some d.
Proof.
  intros H k u d G. unfold get_from in G. destruct (sget u files) as [x|] eqn:S; [|discriminate]. injection G as ->.
  apply sget_in in S. rewrite forallb_forall in H. specialize (H _ S). cbn [fst snd] in H. apply existsb_exists in H. destruct H as (a & I & Q).
  destruct (prefix_in _ _ I) as (b & ->). exists a, b. split; [reflexivity|].
  destruct (later s (es ++ a) u) as [y|]; [|discriminate]. cbn in Q. apply str_eqb_eq in Q. congruence.
Qed.
Lemma busy_sync : synchronizable env_b ac empty_start.
Proof.
  destruct empty_sync as [A B C D L]. split; [apply empty_ok; reflexivity|exact B|exact C|exact D|exact L].
Qed.
Lemma busy_start : good_start_while env_b ac empty_start nothing first_events mid_b.
Proof.
  split.
  - apply busy_sync.
  - exists []. split; constructor.
  - exact first_listed.
  - apply gives_while. vm_compute. reflexivity.
  - exact first_times.
  - intros t R. elim (no_record _ t eq_refl R).
  - intros u q n _ _ L. elim (empty_leaf _ _ L).
  - intros u r n _ L. elim (empty_local u n L).
Qed.
Lemma busy_none : no_later_file env_b ac empty_start first_events.
Proof. intros u n t L. elim (empty_local u n L). Qed.
Lemma order_b : in_order (first_events ++ mid_b).
Proof. apply in_orderb_ok. vm_compute. reflexivity. Qed.
Lemma busy_1_track : copy_while [] ac busy_1 nothing first_events mid_b /\ on_track [] unit_floats ac nothing (first_events ++ mid_b) busy_1.
Proof. apply (busy_baseline env_b ac empty_start busy_1 nothing first_events mid_b unit_floats_ok ac_sm ac_earnest busy_start busy_none order_b busy_1_run). Qed.
Lemma busy_1_time : recorded unit_floats ac busy_1 (day + SEC + half).
Proof. apply recorded_is. vm_compute. reflexivity. Qed.
Lemma busy_2_time : recorded unit_floats ac busy_2 (day + 3 * SEC).
Proof. apply recorded_is. vm_compute. reflexivity. Qed.

Lemma sees_r : sees_while env_r ac None (day + SEC + half) nothing ((first_events ++ mid_b) ++ more_b) mid_r.
Proof.
  split; [|apply gives_while; vm_compute; reflexivity].
  exists [], ((first_events ++ mid_b) ++ more_b), $"http://s.org/r/changelist.xml", (read_by env_r ac $"http://s.org/r/changelist.xml").
  split; [reflexivity|]. split; [intros e []|]. split; [|apply tellsb_ok; vm_compute; reflexivity].
  apply read_changes_by; [reflexivity|reflexivity|vm_compute; reflexivity].
Qed.
Lemma none_r : none_left [] ac busy_1 (day + SEC + half) nothing ((first_events ++ mid_b) ++ more_b).
Proof.
  intros u _ N L. apply (new_in _ _ _ _ [url_b; url_c]) in N; [|vm_compute; reflexivity].
  destruct N as [N|[N|[]]]; rewrite <- N in L; vm_compute in L; discriminate.
Qed.
Definition all_events : list happening := ((first_events ++ mid_b) ++ more_b) ++ mid_r.
Lemma sees_q : sees env_q ac None (day + 3 * SEC) nothing (all_events ++ []).
Proof. apply sees_all; [vm_compute; reflexivity|vm_compute; reflexivity|]. apply gives. vm_compute. reflexivity. Qed.
Lemma none_q : none_left [] ac busy_2 (day + 3 * SEC) nothing (all_events ++ []).
Proof.
  intros u _ N L. apply (new_in _ _ _ _ [url_c]) in N; [|vm_compute; reflexivity].
  destruct N as [N|[]]; rewrite <- N in L; vm_compute in L; discriminate.
Qed.
Lemma busy_hist : busy_history [] unit_floats ac nothing (first_events ++ mid_b) busy_1 all_events busy_2.
Proof.
  apply (bh_run _ _ _ _ (first_events ++ mid_b) busy_1 more_b mid_r env_r None (day + SEC + half) busy_2 (Ok tt));
    [reflexivity|reflexivity|exact busy_1_time|exact sees_r|exact none_r|exact busy_2_run|apply bh_end].
Qed.
Lemma all_in_order : in_order (all_events ++ []).
Proof. apply in_orderb_ok. vm_compute. reflexivity. Qed.
Lemma all_are_below e : In e (all_events ++ []) -> below_base ac (ev_uri e).
Proof. intros [<-|[<-|[<-|[<-|[<-|[<-|[]]]]]]]; [apply base_a|apply base_b|apply base_a|apply base_c|apply base_a|apply base_c]. Qed.
Lemma busy_leaves : holds busy_1 [$"d"; $"a"] $"A2" = true
  /\ holds busy_2 [$"d"; $"a"] $"A2" = true /\ holds busy_2 [$"d"; $"c"] $"CC" = true
  /\ holds busy_3 [$"d"; $"a"] $"A4" = true /\ holds busy_3 [$"d"; $"x"; $"b"] $"BBB" = true /\ holds busy_3 [$"d"; $"c"] $"CC" = true.
Proof. repeat (split; [vm_compute; reflexivity|]). vm_compute. reflexivity. Qed.

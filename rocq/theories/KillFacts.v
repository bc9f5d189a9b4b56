(** * KillFacts: what is there when a run is killed *)

From Verif Require Import Py PyFacts Float64 Float64Facts W3C PathSpec OsPath OsPathFacts Regex RegexFacts Mapper MapperSpec MapperFacts MapperFacts2
  Resource ResourceSpec Container ContainerSpec ContainerFacts Capability Xml Sitemap Hashes ListIndex Disk DiskSpec DiskFacts DiskChange
  Builder BuilderSpec BuilderFacts ClientState ClientStateSpec ClientStateFacts StateCut
  Client ClientSpec ClientLists ClientFacts ClientRuns ClientInc ClientCompare ClientPlaces ClientProps
  ClientDownload ClientChanges ClientThms ClientSync ClientReport ClientStatus ClientDirs ConvergeSpec ClientConverge FollowSpec Follow Kill KillSpec.

(** ** Only the places of what is transferred are touched *)

Lemma making_only E P fn w wk : while_making_dirs E fn w wk -> only_at (e_cwd E) P w wk.
Proof.
  intros (_ & k & root & M & ->). split; cbn; auto.
  - intros q _. apply (make_dirs_leaf _ _ _ M).
  - intros q D. apply (make_dirs_dir _ _ _ M). auto.
  - intros T F. apply (tree_make_dirs _ _ _ T) in M; [exact M|]. apply Forall_forall. intros x I.
    pose proof (resolve_names (e_cwd E) (os_dirname fn) F) as R. rewrite Forall_forall in R. apply R.
    rewrite <- (firstn_skipn k). apply in_app_iff. auto.
  - exists []. now rewrite app_nil_r.
Qed.
Lemma mkpath_only E P p root w : mkpath (e_cwd E) (w_root w) p = Ok root -> only_at (e_cwd E) P w (with_root root w).
Proof.
  intros M. apply mkpath_ok in M. destruct M as (M1 & M2 & _ & M4). split; cbn; auto. exists []. now rewrite app_nil_r.
Qed.
Lemma downloading_only E uri fn w wk : while_downloading E uri fn w wk -> only_at (e_cwd E) (is_at (resolve (e_cwd E) fn)) w wk.
Proof.
  induction 1 as [w|w d1 d2 root D W|w w1 wk A _ IH].
  - apply only_at_refl.
  - apply write_file_ok in W. destruct W as (M & L & D' & T). split; cbn; auto.
    + intros q N. rewrite L. destruct (path_eq_dec _ _) as [->|]; [destruct (N eq_refl)|reflexivity].
    + intros q. apply D'.
    + exists [uri]. reflexivity.
  - apply attempt_effect in A. destruct A as (O & _). apply (only_at_trans _ _ _ _ _ O IH).
Qed.
Lemma updating_only E c r fn w wk : while_updating E c r fn w wk -> only_at (e_cwd E) (is_at (resolve (e_cwd E) fn)) w wk.
Proof.
  intros [wk' M|root wk' _ M D|wk' x U].
  - apply (making_only _ _ _ _ _ M).
  - apply (only_at_trans _ _ _ _ _ (mkpath_only E _ _ _ _ M) (downloading_only _ _ _ _ _ D)).
  - apply update_effect in U. apply U.
Qed.
Lemma applying_only E c allow rs w wk : Forall file_name (e_cwd E) -> while_applying E c allow rs w wk -> tree_ok (w_root w) ->
  only_at (e_cwd E) (places E c rs) w wk.
Proof.
  intros F. induction 1 as [rs w|r rs p w wk _ S U|r rs w w1 n wk A _ IH]; intros T.
  - apply only_at_refl.
  - apply (only_at_mono _ (is_at (resolve (e_cwd E) p))); [|apply (updating_only _ _ _ _ _ _ U)].
    intros q Q. unfold is_at in Q. subst q. apply (places_head E c r rs p S). reflexivity.
  - apply apply_changes_effect in A; auto. destruct A as (O & _).
    assert (only_at (e_cwd E) (places E c (r :: rs)) w w1) as O'.
    { apply (only_at_mono _ (places E c [r])); [|exact O]. intros q (r' & [<-|[]] & Tq). exists r. split; [left; reflexivity|exact Tq]. }
    apply (only_at_trans _ _ _ _ _ O'). apply (only_at_mono _ (places E c rs)); [apply places_tail|]. apply IH.
    apply (oa_tree _ _ _ _ O T F).
Qed.

(** What an incremental run has touched when it is killed. *)
Lemma killed_only E c allow clu from_dt w wk : world_ok E w -> while_incremental E c allow clu from_dt w wk ->
  world_ok E wk /\ w_state wk = w_state w /\
  exists from uri changes, started_from E c from_dt w from /\ changes_read E c clu uri changes /\
    forall q, changed_at w wk q -> exists r, due c from changes r /\ place_of E c (r_uri r) q.
Proof.
  intros (T & D & F) (from & uri & l & kept & n & w0 & ST & SU & LR & PB & [R0 S0] & G0 & A).
  assert (tree_ok (w_root w0)) as T0 by (rewrite R0; exact T).
  pose proof (applying_only E c allow _ _ _ F A T0) as O. split.
  { split; [apply (oa_tree _ _ _ _ O T0 F)|]. split; [|exact F]. apply (oa_dir _ _ _ _ O). rewrite R0. exact D. }
  split; [rewrite (oa_state _ _ _ _ O); exact S0|].
  exists from, uri, (d_items (l_doc l)). split; [apply start_time_from, ST|]. split; [split; [exact SU|]; exists l; auto|].
  intros q C. pose proof (prune_before_in _ _ _ _ _ PB) as [KE KT]. destruct (prune_dupes kept) as [todo n'] eqn:PE. cbn [fst] in *.
  pose proof (prune_dupes_spec _ _ _ PE) as (_ & _ & MEM & _).
  destruct (places_dec E c todo q) as [(r & I & P)|N].
  - exists r. split; [|exact P]. unfold due, since. rewrite <- KE. apply MEM, I.
  - exfalso. apply C. rewrite (oa_leaf _ _ _ _ O q N), R0. reflexivity.
Qed.

(** ** The copy after a run that was killed *)

Lemma killed_quiet E c clu from_dt w wk from s es : well_mapped (e_cwd E) c -> in_order es -> (forall e, In e es -> below_base c (ev_uri e)) ->
  world_ok E w -> started_from E c from_dt w from -> changes_told E c clu from s es -> right_before (e_cwd E) c w from s es ->
  while_incremental E c true clu from_dt w wk -> right_before (e_cwd E) c wk from s es.
Proof.
  intros WM OR BB OK SF SE RB K u B Q. destruct (base_goes E c WM u B) as (m & rel & _ & _ & _ & _ & S & _).
  destruct (killed_only _ _ _ _ _ _ _ OK K) as (_ & _ & from' & uri & ch & SF' & CR & ON).
  rewrite (started_once _ _ _ _ _ _ SF' SF) in *. clear SF'.
  apply (same_moves _ c w wk _ u _ S); [|apply RB; assumption].
  destruct (leaf_dec (w_root wk) (w_root w) (denotes (e_cwd E) (dst_path m ++ $"/" ++ rel_path rel))) as [L|C]; [exact L|]. exfalso.
  destruct (ON _ C) as (r & D & P).
  destruct (round_events E c clu from s es OR SE ch uri CR) as (e1 & e2 & Qe & _ & G & T).
  destruct D as [D _]. apply last_entry_in in D. destruct D as [D _].
  destruct (tells_in _ _ _ _ _ T D) as (a & e & b & -> & (EU & _)).
  assert (In e (a ++ e :: b)) as I by (apply in_app_iff; right; left; reflexivity).
  assert (In e es) as J by (rewrite Qe; apply in_app_iff; right; exact I).
  assert (r_uri r = u) as U.
  { apply (base_one E c WM _ _ (denotes (e_cwd E) (dst_path m ++ $"/" ++ rel_path rel))); [rewrite EU; apply BB, J|exact B|exact P|].
    eexists. split; [exact S|reflexivity]. }
  specialize (G e I). specialize (Q e J ltac:(congruence)). lia.
Qed.

Lemma track_disk cwd F c s es w w1 : same_disk w w1 -> on_track cwd F c s es w -> on_track cwd F c s es w1.
Proof.
  intros [R S] [A B C D]. assert (forall t, recorded F c w1 t -> recorded F c w t) as RE by (intros t (sm & P & G); exists sm; rewrite <- S; auto).
  split.
  - intros E EC. unfold world_ok. rewrite R. apply (A E EC).
  - rewrite S. exact B.
  - intros t H. apply (C t), RE, H.
  - intros t H u Bu Q. specialize (D t (RE t H) u Bu Q). unfold same_content, has, lacks in *. rewrite R. exact D.
Qed.

Section Rough.
Variables (cwd : list str) (F : float_text) (c : client) (s : site).
Hypothesis (PF : python_floats F) (CF : cut_floats F) (SM : forall sm, sitemap c = Ok sm -> sm <> []) (WM : well_mapped cwd c) (IE : in_earnest c).

Lemma killed_step es more w E clu from w1 : in_order (es ++ more) -> (forall e, In e (es ++ more) -> below_base c (ev_uri e)) -> on_track cwd F c s es w ->
  e_cwd E = cwd -> e_floats E = F -> recorded F c w from -> changes_told E c clu from s (es ++ more) ->
  while_incremental E c true clu None w w1 -> on_track cwd F c s (es ++ more) w1.
Proof.
  intros O B T EC EF R S K. pose proof (track_more cwd F c s _ _ _ _ O T R) as RB.
  pose proof (ot_world _ _ _ _ _ _ T E EC) as OK. subst cwd F.
  assert (started_from E c None w from) as SF by exact R.
  destruct (killed_only _ _ _ _ _ _ _ OK K) as (OK1 & ST & _).
  assert (forall t, recorded (e_floats E) c w1 t -> t = from) as RO.
  { intros t (sm & A & G). rewrite ST in G. apply (recorded_once (e_floats E) c w); [exists sm; auto|exact R]. }
  split.
  - intros E' EC'. unfold world_ok in *. rewrite EC'. exact OK1.
  - rewrite ST. apply (ot_state _ _ _ _ _ _ T).
  - intros t Rt. rewrite (RO t Rt). destruct (ot_time _ _ _ _ _ _ T from R) as (e & I & L). exists e. split; [apply in_app_iff; auto|exact L].
  - intros t Rt. rewrite (RO t Rt). apply (killed_quiet E c clu None w w1 from s (es ++ more)); assumption.
Qed.
Lemma saving_while es more mid w E clu from w1 t : in_order ((es ++ more) ++ mid) -> (forall e, In e (es ++ more) -> below_base c (ev_uri e)) -> on_track cwd F c s es w ->
  e_cwd E = cwd -> e_floats E = F -> recorded F c w from -> sees_while E c clu from s (es ++ more) mid -> none_left cwd c w from s (es ++ more) ->
  while_saving E c true clu None w w1 t -> SEC <= t -> on_track cwd F c s ((es ++ more) ++ mid) w1.
Proof.
  intros O B T EC EF R S N (w2 & x & sm & X & Q & LT & DB & SS & RT & CR) LATE.
  pose proof (track_while cwd F c s PF SM WM IE es more mid w E clu from w2 x O B T EC EF R S N X) as T2.
  pose proof (ot_world _ _ _ _ _ _ T E EC) as OK. subst cwd F.
  destruct (ot_state _ _ _ _ _ _ T) as (calls & CO & L).
  assert (CO' : Forall call_ok (calls ++ [Store sm t])).
  { apply Forall_app. split; [exact CO|]. constructor; [|constructor]. split; [exact (SM sm Q)|exact DB]. }
  destruct (left_stored _ _ _ _ _ _ _ PF CO' L SS) as [[_ G]|[G _]]; [|now elim G].
  assert (R2 : recorded (e_floats E) c w2 t) by (exists sm; auto).
  assert (FT : from <= t).
  { destruct (incremental_saves E c true clu None w w2 x OK X) as [Q2|(sm' & from' & uri & ch & t0 & QS & SF' & CRd & _ & _ & T0 & LE & _)].
    - rewrite Q2 in G. assert (t = from) as -> by (apply (recorded_once (e_floats E) c w); [exists sm; auto|exact R]). lia.
    - assert (from' = from) as -> by (apply (recorded_once (e_floats E) c w); [exact SF'|exact R]). rewrite LT in T0. subst t0. apply LE. right.
      destruct IE as (A1 & A2 & _). auto. }
  assert (LE : forall t', recorded (e_floats E) c w1 t' -> t' <= t).
  { intros t' (sm' & A & G'). rewrite Q in A. injection A as <-.
    destruct (crash_time _ _ _ _ _ _ _ PF CF CO' LATE L CR G') as [E1|E1]; [|exact E1].
    rewrite E1 in G'. assert (t' = from) as -> by (apply (recorded_once (e_floats E) c w); [exists sm; auto|exact R]). exact FT. }
  split.
  - intros E' EC'. unfold world_ok. rewrite RT. apply (ot_world _ _ _ _ _ _ T2 E' EC').
  - destruct (crash_left (e_floats E) (w_state w) calls (Store sm t) (w_state w1) L CR) as [L1|L1]; eauto.
  - intros t' Rt. destruct (ot_time _ _ _ _ _ _ T2 t R2) as (e & I & L1). exists e. split; [exact I|]. specialize (LE t' Rt). lia.
  - intros t' Rt u Bu Qu. specialize (LE t' Rt).
    assert (Q' : quiet_since t ((es ++ more) ++ mid) u) by (intros e I Ue; specialize (Qu e I Ue); lia).
    pose proof (ot_right _ _ _ _ _ _ T2 t R2 u Bu Q') as SC. unfold same_content, has, lacks in *. rewrite RT. exact SC.
Qed.
Lemma saving_step es more w E clu from w1 t : in_order (es ++ more) -> (forall e, In e (es ++ more) -> below_base c (ev_uri e)) -> on_track cwd F c s es w ->
  e_cwd E = cwd -> e_floats E = F -> recorded F c w from -> sees E c clu from s (es ++ more) -> none_left cwd c w from s (es ++ more) ->
  while_saving E c true clu None w w1 t -> SEC <= t -> on_track cwd F c s (es ++ more) w1.
Proof.
  intros O B T EC EF R S N H L. rewrite <- (app_nil_r (es ++ more)). apply (saving_while es more [] w E clu from w1 t); auto.
  - rewrite app_nil_r. exact O.
  - apply sees_still, S.
Qed.
Lemma rough_grows es w es' w' : rough_history cwd F c s es w es' w' -> exists more, es' = es ++ more.
Proof.
  induction 1 as [es w|es w w1 es' w' _ _ IH|es w more E clu from w1 x es' w' _ _ _ _ _ _ _ (m & ->)|es w more E clu from w1 es' w' _ _ _ _ _ _ (m & ->)|es w more E clu from w1 t es' w' _ _ _ _ _ _ _ _ (m & ->)].
  - exists []. now rewrite app_nil_r.
  - exact IH.
  - exists (more ++ m). now rewrite app_assoc.
  - exists (more ++ m). now rewrite app_assoc.
  - exists (more ++ m). now rewrite app_assoc.
Qed.
Lemma rough_track es w es' w' : rough_history cwd F c s es w es' w' -> in_order es' -> (forall e, In e es' -> below_base c (ev_uri e)) ->
  on_track cwd F c s es w -> on_track cwd F c s es' w'.
Proof.
  intros H. induction H as [es w|es w w1 es' w' D H IH|es w more E clu from w1 x es' w' EC EF R S N X H IH|es w more E clu from w1 es' w' EC EF R S X H IH|es w more E clu from w1 t es' w' EC EF R S N X LT H IH]; intros O B T; [exact T| | | |].
  - apply (IH O B), (track_disk _ _ _ _ _ _ _ D T).
  - apply (IH O B). destruct (rough_grows _ _ _ _ H) as (m & ->).
    apply (track_step cwd F c s PF SM WM IE es more w E clu from w1 x); auto.
    + apply in_order_app in O. apply O.
    + intros e I. apply B, in_app_iff. auto.
  - apply (IH O B). destruct (rough_grows _ _ _ _ H) as (m & ->).
    apply (killed_step es more w E clu from w1); auto.
    + apply in_order_app in O. apply O.
    + intros e I. apply B, in_app_iff. auto.
    + apply (se_list _ _ _ _ _ _ S).
  - apply (IH O B). destruct (rough_grows _ _ _ _ H) as (m & ->).
    apply (saving_step es more w E clu from w1 t); auto.
    + apply in_order_app in O. apply O.
    + intros e I. apply B, in_app_iff. auto.
Qed.
Lemma rough_followed es w es1 w1 more E clu from w' : on_track cwd F c s es w -> rough_history cwd F c s es w es1 w1 ->
  in_order (es1 ++ more) -> (forall e, In e (es1 ++ more) -> below_base c (ev_uri e)) ->
  e_cwd E = cwd -> e_floats E = F -> recorded F c w1 from -> sees E c clu from s (es1 ++ more) -> none_left cwd c w1 from s (es1 ++ more) ->
  incremental E c true clu None w1 = (w', Ok tt) -> copy_of cwd c w' (later s (es1 ++ more)).
Proof.
  intros T H O B EC EF R S N X. assert (on_track cwd F c s es1 w1) as T1.
  { apply (rough_track _ _ _ _ H); [apply in_order_app in O; apply O| |exact T]. intros e I. apply B, in_app_iff. auto. }
  apply (followed cwd F c s PF SM WM IE es1 w1 es1 w1 more E clu from w' T1 (hs_end _ _ _ _ _ _)); auto.
Qed.
End Rough.
Lemma not_started E c allow clu w w' x : (forall t, ~ recorded (e_floats E) c w t) -> incremental E c allow clu None w = (w', x) ->
  w' = w /\ exists e, x = Err e.
Proof.
  intros N H. unfold incremental in H. destruct (c_mapper c) as [|m ms]; [injection H as <- <-; eauto|].
  unfold andthen at 1 in H. unfold lift in H at 1. destruct (unsafe (m :: ms)) as [bad|e]; [|injection H as <- <-; eauto].
  destruct bad; [injection H as <- <-; eauto|]. unfold andthen at 1 in H.
  destruct (start_time E c None w) as [from|e] eqn:S; [|injection H as <- <-; eauto].
  exfalso. apply (N from). unfold start_time in S. destruct (sitemap c) as [sm|] eqn:Q; [|discriminate]. cbn [bind] in S.
  destruct (get_state (e_floats E) (w_state w) sm) as [[t|]|] eqn:G; try discriminate. injection S as ->. exists sm. auto.
Qed.

(** * MixFacts: proofs about baselines and incremental runs in any order *)

From Coq Require Import Lia.
From Verif Require Import Py PyFacts Float64 Float64Facts W3C PathSpec OsPath OsPathFacts Regex RegexFacts Mapper MapperSpec MapperFacts MapperFacts2
  Resource ResourceSpec Container ContainerSpec ContainerFacts Capability Xml Sitemap Hashes ListIndex Disk DiskSpec DiskFacts DiskChange
  Builder BuilderSpec BuilderFacts ClientState ClientStateSpec ClientStateFacts StateCut
  Client ClientSpec ClientLists ClientFacts ClientRuns ClientInc ClientCompare ClientPlaces ClientProps
  ClientDownload ClientChanges ClientThms ClientSync ClientReport ClientStatus ClientDirs ConvergeSpec ClientConverge FollowSpec Follow
  Kill KillSpec KillFacts KillBase KillRepeat MeanwhileSpec MeanwhileFacts MixSpec.

(** ** The events *)

Lemma find_app_last {A} (f : A -> bool) a b : find f (a ++ b) = match find f a with Some x => Some x | None => find f b end.
Proof. induction a as [|x a IH]; [reflexivity|]. cbn. destruct (f x); [reflexivity|exact IH]. Qed.
Lemma last_event_app u a b : last_event u (a ++ b) = match last_event u b with Some e => Some e | None => last_event u a end.
Proof. unfold last_event. rewrite rev_app_distr. apply find_app_last. Qed.
Lemma last_event_in u es e : last_event u es = Some e -> In e es /\ ev_uri e = u.
Proof.
  unfold last_event. intros H. apply find_some in H. destruct H as [I Q]. split; [apply in_rev, I|]. now destruct (str_eqb_spec (ev_uri e) u).
Qed.
Lemma last_event_none u es : last_event u es = None <-> forall e, In e es -> ev_uri e <> u.
Proof.
  unfold last_event. split.
  - intros H e I Q. apply in_rev in I. pose proof (find_none _ _ H e I) as N. cbn in N. rewrite Q, str_eqb_refl in N. discriminate.
  - intros N. destruct (find _ (rev es)) as [e|] eqn:Q; [|reflexivity]. apply find_some in Q. destruct Q as [I Q]. apply in_rev in I.
    destruct (str_eqb_spec (ev_uri e) u); [|discriminate]. elim (N e I). assumption.
Qed.
Lemma last_event_cons u e es : last_event u (e :: es) = match last_event u es with Some x => Some x | None => if str_eqb (ev_uri e) u then Some e else None end.
Proof. change (e :: es) with ([e] ++ es). rewrite last_event_app. unfold last_event at 2. cbn [rev app find]. reflexivity. Qed.
Lemma later_last u es : forall s, later s es u = match last_event u es with Some e => ev_content e | None => s u end.
Proof.
  induction es as [|e es IH]; intros s; [reflexivity|]. rewrite later_cons, IH, last_event_cons. destruct (last_event u es); [reflexivity|].
  unfold step. destruct (str_eqb (ev_uri e) u); reflexivity.
Qed.
Lemma later_some u es d : later void es u = Some d -> exists e, last_event u es = Some e.
Proof. rewrite later_last. destruct (last_event u es); [eauto|discriminate]. Qed.
Lemma spaced_app a b : spaced (a ++ b) -> spaced a /\ spaced b /\ forall e e', In e a -> In e' b -> ev_uri e' = ev_uri e -> ev_time e + SEC <= ev_time e'.
Proof.
  induction a as [|x a IH]; cbn [app spaced]; intros H; [split; [exact I|split; [exact H|intros e e' []]]|].
  destruct H as [A B]. destruct (IH B) as (C & D & F). split; [split; [intros e I; apply A, in_app_iff; auto|exact C]|].
  split; [exact D|]. intros e e' [<-|I] J; [apply A, in_app_iff; auto|auto].
Qed.
Lemma orderly_app c a b : orderly c (a ++ b) -> orderly c a.
Proof.
  intros [O S T B]. apply in_order_app in O. apply spaced_app in S. split; try apply O; try apply S.
  - intros e I. apply T, in_app_iff. auto.
  - intros e I. apply B, in_app_iff. auto.
Qed.
(** No event of a resource is within a second of the last one, and none after. *)
Lemma last_latest es u e e' : spaced es -> last_event u es = Some e -> In e' es -> ev_uri e' = u -> e' = e \/ ev_time e' + SEC <= ev_time e.
Proof.
  induction es as [|x es IH]; intros S L I U; [contradiction|]. rewrite last_event_cons in L. destruct S as [S1 S2].
  destruct (last_event u es) as [y|] eqn:Ly.
  - injection L as ->. destruct I as [<-|I]; [|apply IH; auto]. right. destruct (last_event_in _ _ _ Ly) as [J V]. apply S1; [exact J|congruence].
  - destruct I as [<-|I]; [|elim (proj1 (last_event_none u es) Ly e' I U)]. left. rewrite U, str_eqb_refl in L. congruence.
Qed.

(** ** Times *)

Lemma whole_low t : 0 <= t -> whole_seconds t <= t.
Proof. intros H. pose proof (whole_seconds_diff t). pose proof (Z.rem_nonneg t SEC ltac:(pose proof SEC_pos; lia) H). lia. Qed.
Lemma close_enough m t : Z.abs (fsub m t) < SEC -> Z.abs (m - t) < SEC.
Proof.
  intros H. destruct (Z.lt_ge_cases (Z.abs (m - t)) SEC) as [L|G]; [exact L|]. exfalso. rewrite fsub_abs in H.
  assert (SEC <= rnd (Z.abs (m - t)) 1) by (unfold SEC in *; apply rnd_ge_pow2; [lia|exact G]). lia.
Qed.

(** ** Versions *)

Lemma version_more es more u d t : version es u d t -> version (es ++ more) u d t.
Proof. intros (a & x & b & e & -> & L & T & C). exists a, x, (b ++ more), e. rewrite <- !app_assoc. auto. Qed.
(** A version that has about the time of the last event is the present one. *)
Lemma version_right c es u d t e : orderly c es -> version es u d t -> last_event u es = Some e -> Z.abs (t - ev_time e) < SEC ->
  later void es u = Some d /\ t = whole_seconds (ev_time e).
Proof.
  intros [_ SP NN _] (a & x & b & e' & -> & L' & -> & C) L CL.
  destruct (last_event_in _ _ _ L') as [I' U']. destruct (last_event_in _ _ _ L) as [I U].
  assert (In e' (a ++ x ++ b)) as J by (apply in_app_iff; auto).
  destruct (last_latest _ _ _ _ SP L J U') as [<-|G].
  2:{ exfalso. pose proof (whole_low (ev_time e') (NN _ J)). lia. }
  split; [|reflexivity]. assert (forall y, In y (x ++ b) -> ev_uri y <> u) as N.
  { intros y Iy Uy. destruct (last_latest _ _ _ y SP L ltac:(apply in_app_iff; auto) Uy) as [->|G];
      apply spaced_app in SP; destruct SP as (_ & _ & SP); pose proof SEC_pos.
    - specialize (SP e' e' I' Iy eq_refl). lia.
    - specialize (SP e' y I' Iy ltac:(congruence)). lia. }
  rewrite app_assoc, later_app, later_other; [exact C|]. intros y Iy. apply N, in_app_iff. auto.
Qed.

(** ** What is on the disk at any moment of a run *)

(** Files for L have come in part or as a whole, files for D may be gone. *)
Record moment (E : env) (c : client) (L D : list resource) (w wk : world) : Prop := {
  mo_touched : touched E c (L ++ D) w wk;
  mo_leaf : forall q, leaf_at (w_root wk) q = leaf_at (w_root w) q \/ leaf_at (w_root wk) q = None
    \/ exists r n, In r L /\ target E c r q /\ leaf_at (w_root wk) q = Some n /\ partly E (r_uri r) (r_timestamp r) n
}.
Lemma moment_refl E c L D w : moment E c L D w w.
Proof. split; [apply touched_refl|auto]. Qed.
Lemma moment_trans E c L D a b d : moment E c L D a b -> moment E c L D b d -> moment E c L D a d.
Proof.
  intros [A1 A2] [B1 B2]. split; [apply (touched_trans _ _ _ _ _ _ A1 B1)|].
  intros q. destruct (B2 q) as [Q|[Q|Q]]; [rewrite Q; apply A2|auto|auto].
Qed.
Lemma moment_updates E c L L' D w wk : incl L L' -> touched E c L w wk -> moment E c L' D w wk.
Proof.
  intros I T. split; [apply (touched_incl _ _ L); [apply incl_appl, I|exact T]|].
  intros q. destruct (tc_leaf _ _ _ _ _ T q) as [Q|[Q|(r & n & J & R)]]; [auto|auto|]. right; right. exists r, n. auto.
Qed.
Lemma moment_deletes E c L D D' w wk : incl D D' -> touched E c D w wk ->
  (forall q, leaf_at (w_root wk) q = None \/ leaf_at (w_root wk) q = leaf_at (w_root w) q) -> moment E c L D' w wk.
Proof.
  intros I T N. split; [apply (touched_incl _ _ D); [apply incl_appr, I|exact T]|]. intros q. destruct (N q); auto.
Qed.
Lemma deleting_leaf E c allow rs w wk : Forall file_name (e_cwd E) -> while_deleting E c allow rs w wk -> tree_ok (w_root w) ->
  forall q, leaf_at (w_root wk) q = None \/ leaf_at (w_root wk) q = leaf_at (w_root w) q.
Proof.
  intros F. induction 1 as [rs w|r rs w w1 n wk A _ IH]; intros T q; [auto|].
  pose proof (for_each_delete _ _ _ _ _ _ _ T F A) as (O & _ & _ & _ & _ & L & _).
  destruct (IH (oa_tree _ _ _ _ O T F) q) as [Q|Q]; [auto|]. rewrite Q. apply L.
Qed.

Lemma baseline_moment E c w wk : (0 < c_tries c)%nat -> world_ok E w -> while_baseline E c true w wk ->
  w_state wk = w_state w /\ exists w0 L D, w_root w0 = w_root w /\ moment E c L D w0 wk
    /\ (forall r, In r L -> source_entry E c (r_uri r) r /\ (to_create E c w (r_uri r) \/ to_update E c w (r_uri r)))
    /\ forall r, In r D -> to_delete E c w (r_uri r).
Proof.
  intros TR (T & _ & F) (src & dst & cmp & w0 & FR & [R0 S0] & G0 & H0 & SC & C & H).
  assert (tree_ok (w_root w0)) as T0 by (rewrite R0; exact T).
  assert (scan E c (pruned_world src w) = Ok dst) as SP.
  { rewrite <- SC. unfold scan. rewrite H0, R0. unfold pruned_world. destruct (w_hashes w) eqn:HH; [rewrite HH, <- discard_none|]; reflexivity. }
  pose proof (compare_work E c w src dst cmp T FR SP C) as WK.
  assert (list_ok src) as [WS _] by (apply (find_resource_list_ok _ _ _ FR)). destruct (scan_is E c w0 dst T0 SC) as [WD _].
  destruct (compare_parts _ _ _ WD WS C) as (_ & _ & _ & _ & IC & IU & _).
  assert (exists wk', moment E c (rl_iter (created cmp) ++ rl_iter (updated cmp)) (rl_iter (deleted cmp)) w0 wk' /\ wk' = wk) as (wk' & MO & ->).
  { exists wk. split; [|reflexivity]. destruct H as [H|(w1 & n & U & H)].
    - apply (moment_updates _ _ _ _ _ _ _ (incl_refl _)), (transferring_touched _ _ _ _ _ TR H).
    - pose proof (updates_touched _ _ _ _ _ _ TR U) as TU. apply (moment_trans _ _ _ _ _ w1).
      + apply (moment_updates _ _ _ _ _ _ _ (incl_refl _) TU).
      + pose proof (oa_tree _ _ _ _ (tc_only _ _ _ _ _ TU) T0 F) as T1.
        apply (moment_deletes _ _ _ _ _ _ _ (incl_refl _)); [apply (deleting_touched _ _ _ _ _ _ F H T1)|apply (deleting_leaf _ _ _ _ _ _ F H T1)]. }
  split; [rewrite (oa_state _ _ _ _ (tc_only _ _ _ _ _ (mo_touched _ _ _ _ _ _ MO))); exact S0|].
  exists w0, (rl_iter (created cmp) ++ rl_iter (updated cmp)), (rl_iter (deleted cmp)). split; [exact R0|]. split; [exact MO|]. split.
  - intros r I. apply in_app_iff in I. split.
    + exists src. split; [exact FR|]. apply sget_in. destruct I as [I|I]; [apply IC in I|apply IU in I]; apply I.
    + destruct I as [I|I]; apply (in_map r_uri) in I; [left; apply (wk_created _ _ _ _ WK), I|right; apply (wk_updated _ _ _ _ WK), I].
  - intros r I. apply (in_map r_uri) in I. apply (wk_deleted _ _ _ _ WK), I.
Qed.

Lemma delete_touched E c allow r p w w1 y : tree_ok (w_root w) -> Forall file_name (e_cwd E) -> src_to_dst (c_mapper c) (r_uri r) = Ok p ->
  delete_resource E c allow r p w = (w1, Ok y) ->
  touched E c [r] w w1 /\ forall q, leaf_at (w_root w1) q = None \/ leaf_at (w_root w1) q = leaf_at (w_root w) q.
Proof.
  intros T F S U. pose proof (for_each_one c (delete_resource E c allow) r p w w1 y S U) as A.
  pose proof (for_each_delete _ _ _ _ _ _ _ T F A) as (O & _ & _ & _ & _ & L & _). split; [|exact L].
  split; [exact O|apply (deletes_dirs _ _ _ _ _ _ _ _ T F A)|]. intros q. destruct (L q); auto.
Qed.
Lemma applying_moment E c allow rs w wk : (0 < c_tries c)%nat -> Forall file_name (e_cwd E) -> while_applying E c allow rs w wk -> tree_ok (w_root w) ->
  moment E c (filter is_update rs) rs w wk.
Proof.
  intros TR F. induction 1 as [rs w|r rs p w wk U S H|r rs w w1 n wk A _ IH]; intros T.
  - apply moment_refl.
  - apply (moment_updates _ _ [r]); [|apply (updating_touched _ _ _ _ _ _ TR S H)]. intros x [<-|[]]. apply filter_In. split; [left; reflexivity|exact U].
  - pose proof (apply_changes_effect _ _ _ _ _ _ _ T F A) as (O & _).
    assert (moment E c (filter is_update (r :: rs)) (r :: rs) w w1) as M1.
    { apply apply_changes_cons in A. destruct A as [(e & _ & _ & X)|(p & S & [(_ & _ & _ & X)|(w2 & y & U & A)])]; try discriminate.
      destruct A as [(e & _ & _ & X)|(k & z & -> & A & _)]; [discriminate|]. cbn in A. injection A as <- _.
      destruct (is_update r) eqn:UR.
      - apply (moment_updates _ _ [r]); [|apply (updating_touched _ _ _ _ _ _ TR S), (up_end _ _ _ _ _ _ _ U)].
        intros x [<-|[]]. apply filter_In. split; [left; reflexivity|exact UR].
      - destruct U as [_ U]. destruct (delete_touched _ _ _ _ _ _ _ _ T F S U) as [TD LD].
        apply (moment_deletes _ _ _ [r]); [intros x [<-|[]]; left; reflexivity|exact TD|exact LD]. }
    apply (moment_trans _ _ _ _ _ w1 _ M1). destruct (IH (oa_tree _ _ _ _ O T F)) as [I1 I2]. split.
    + apply (touched_incl _ _ (filter is_update rs ++ rs)); [|exact I1]. intros x. rewrite !in_app_iff. intros [J|J]; [left|right; right; exact J].
      cbn [filter]. destruct (is_update r); [right|]; exact J.
    + intros q. destruct (I2 q) as [Q|[Q|(r' & k & J & R)]]; [auto|auto|]. right; right. exists r', k. split; [|exact R].
      cbn [filter]. destruct (is_update r); [right|]; exact J.
Qed.
Lemma incremental_moment E c clu from_dt w wk : (0 < c_tries c)%nat -> world_ok E w -> while_incremental E c true clu from_dt w wk ->
  w_state wk = w_state w /\ exists w0 L D from uri changes, w_root w0 = w_root w /\ moment E c L D w0 wk
    /\ started_from E c from_dt w from /\ changes_read E c clu uri changes
    /\ (forall r, In r L -> due c from changes r /\ (r_change r = Some $"created" \/ r_change r = Some $"updated"))
    /\ forall r, In r D -> due c from changes r.
Proof.
  intros TR (T & D & F) (from & uri & l & kept & n & w0 & ST & SU & LR & PB & [R0 S0] & G0 & A).
  assert (tree_ok (w_root w0)) as T0 by (rewrite R0; exact T).
  pose proof (applying_moment E c true _ _ _ TR F A T0) as MO.
  split; [rewrite (oa_state _ _ _ _ (tc_only _ _ _ _ _ (mo_touched _ _ _ _ _ _ MO))); exact S0|].
  pose proof (prune_before_in _ _ _ _ _ PB) as [KE KT]. destruct (prune_dupes kept) as [todo n'] eqn:PE. cbn [fst] in *.
  pose proof (prune_dupes_spec _ _ _ PE) as (_ & _ & MEM & _).
  assert (forall r, In r todo -> due c from (d_items (l_doc l)) r) as DU by (intros r I; unfold due, since; rewrite <- KE; apply MEM, I).
  exists w0, (filter is_update todo), todo, from, uri, (d_items (l_doc l)). split; [exact R0|]. split; [exact MO|].
  split; [apply start_time_from, ST|]. split; [split; [exact SU|]; exists l; auto|]. split; [|exact DU].
  intros r I. apply filter_In in I. destruct I as [I U]. split; [apply DU, I|apply update_change, U].
Qed.

(** ** The invariant *)

Lemma sync_ready E c w : synchronizable E c w -> ready (e_cwd E) c w.
Proof.
  intros [A B C D _] E' EC KB. split; unfold world_ok, destinations_apart, destinations_free in *; rewrite ?EC; auto.
Qed.
Lemma exact_more cwd c w es more u : (forall e, In e more -> ev_uri e <> u) -> exact_copy cwd c w es u -> exact_copy cwd c w (es ++ more) u.
Proof.
  intros N. unfold exact_copy. rewrite later_app, (later_other more u N), last_event_app, (proj2 (last_event_none u more) N). auto.
Qed.
Lemma exact_moves cwd c w w' es u p : src_to_dst (c_mapper c) u = Ok p -> leaf_at (w_root w') (denotes cwd p) = leaf_at (w_root w) (denotes cwd p) ->
  exact_copy cwd c w es u -> exact_copy cwd c w' es u.
Proof.
  intros S L. unfold exact_copy. destruct (later void es u) as [d|].
  - intros (p' & e & S' & V & L'). exists p', e. split; [exact S'|]. split; [exact V|]. rewrite S in S'. injection S' as <-. congruence.
  - intros (p' & S' & L'). exists p'. split; [exact S'|]. rewrite S in S'. injection S' as <-. congruence.
Qed.
Lemma exact_same cwd c w es u : exact_copy cwd c w es u -> same_content cwd c w (later void es) u.
Proof. unfold exact_copy, same_content. destruct (later void es u) as [d|]; [|auto]. intros (p & e & S & _ & L). exists p, (whole_seconds (ev_time e)). auto. Qed.
Lemma late_quiet t es mid u : in_order (es ++ mid) -> (exists e, In e es /\ t <= ev_time e) -> quiet_since t (es ++ mid) u ->
  quiet_since t es u /\ forall e, In e mid -> ev_uri e <> u.
Proof.
  intros O (e0 & I0 & L0) Q. split; [intros e I; apply Q, in_app_iff; auto|]. intros e I U.
  apply in_order_app in O. destruct O as (_ & _ & O). specialize (O e0 e I0 I). specialize (Q e ltac:(apply in_app_iff; auto) U). lia.
Qed.

Section Kept.
Variables (cwd : list str) (F : float_text) (c : client) (all : list happening).

Lemma kept_disk es w w1 : same_disk w w1 -> kept cwd F c all es w -> kept cwd F c all es w1.
Proof.
  intros [R S] [A B C D G]. assert (forall t, recorded F c w1 t -> recorded F c w t) as RE by (intros t (sm & P & H); exists sm; rewrite <- S; auto).
  split.
  - intros E EC KB. destruct (A E EC KB) as [A1 A2 A3 A4 A5]. split; unfold world_ok, destinations_free in *; rewrite ?R; auto.
  - rewrite S. exact B.
  - intros t H. apply (C t), RE, H.
  - rewrite R. exact D.
  - intros t H u Bu Q. specialize (G t (RE t H) u Bu Q). unfold exact_copy, lacks in *. rewrite R. exact G.
Qed.
Lemma kept_more es more w : in_order (es ++ more) -> kept cwd F c all es w -> kept cwd F c all (es ++ more) w.
Proof.
  intros O [A B C D G]. split; auto.
  - intros t R. destruct (C t R) as (e & I & L). exists e. split; [apply in_app_iff; auto|exact L].
  - intros u p n Bu S L. destruct (D u p n Bu S L) as (d & t & Q & [V|V]); exists d, t; (split; [exact Q|]); [left; apply version_more, V|auto].
  - intros t R u Bu Q. destruct (late_quiet t es more u O (C t R) Q) as [Q1 Q2]. apply exact_more; [exact Q2|]. apply (G t R u Bu Q1).
Qed.

Lemma moment_kept E es mid w w0 wk L D : e_cwd E = cwd -> keeps_below E c -> in_order (es ++ mid) -> kept cwd F c all es w ->
  (forall k u d, e_get E k u = Data d -> exists a b, mid = a ++ b /\ later void (es ++ a) u = Some d) ->
  w_root w0 = w_root w -> w_state wk = w_state w -> moment E c L D w0 wk ->
  (forall r, In r (L ++ D) -> below_base c (r_uri r)) ->
  (forall r, In r L -> exists e, last_event (r_uri r) es = Some e /\ r_timestamp r = Some (ev_time e)) ->
  (forall r t, In r (L ++ D) -> recorded F c w t -> quiet_since t es (r_uri r) -> False) ->
  clock_apart E all -> kept cwd F c all (es ++ mid) wk.
Proof.
  intros EC KB O K CT R0 ST MO BB TL NQ CA. pose proof (kp_ready _ _ _ _ _ _ K E EC KB) as SY.
  assert (synchronizable E c w0) as SY0 by (destruct SY as [A1 A2 A3 A4 A5]; split; unfold world_ok, destinations_free in *; rewrite ?R0; auto).
  assert (forall t, recorded F c wk t -> recorded F c w t) as RE by (intros t (sm & P & H); exists sm; rewrite <- ST; auto).
  assert (forall u p r, below_base c u -> src_to_dst (c_mapper c) u = Ok p -> In r (L ++ D) -> target E c r (denotes cwd p) -> r_uri r = u) as ONE.
  { intros u p r Bu S I P. apply (base_inj E c w SY _ _ (denotes cwd p) (BB r I) Bu P). exists p. rewrite EC. auto. }
  split.
  - rewrite <- EC. apply sync_ready, (touched_places E c (L ++ D) w0 wk SY0 BB), (mo_touched _ _ _ _ _ _ MO).
  - rewrite ST. apply (kp_state _ _ _ _ _ _ K).
  - intros t R. destruct (kp_time _ _ _ _ _ _ K t (RE t R)) as (e & I & LE). exists e. split; [apply in_app_iff; auto|exact LE].
  - intros u p n Bu S Lf. destruct (mo_leaf _ _ _ _ _ _ MO (denotes cwd p)) as [Q|[Q|(r & n' & I & P & Q & PA)]].
    + rewrite Lf, R0 in Q. symmetry in Q. destruct (kp_files _ _ _ _ _ _ K u p n Bu S Q) as (d & t & E1 & [V|V]); exists d, t; (split; [exact E1|]); [left; apply version_more, V|auto].
    + congruence.
    + rewrite Lf in Q. injection Q as <-. assert (r_uri r = u) as U by (apply (ONE u p r Bu S); [apply in_app_iff; auto|exact P]).
      destruct PA as (k & d1 & d2 & t & _ & -> & [->|(GE & t0 & RT & ->)]); exists d1; eexists; (split; [reflexivity|]).
      * right. intros e Ie _. apply (CA e Ie).
      * left. destruct (TL r I) as (e & LE & RT'). rewrite U in *. rewrite RT in RT'. injection RT' as ->.
        destruct (CT k u d1 GE) as (a & b & Qm & LA). exists es, a, b, e. rewrite Qm. auto.
  - intros t R u Bu Q. destruct (late_quiet t es mid u O (kp_time _ _ _ _ _ _ K t (RE t R)) Q) as [Q1 Q2].
    apply exact_more; [exact Q2|]. destruct (base_place E c w SY u Bu) as (m & rel & _ & _ & _ & _ & _ & S & _).
    apply (exact_moves cwd c w wk es u _ S); [|apply (kp_right _ _ _ _ _ _ K t (RE t R) u Bu Q1)].
    rewrite <- R0. apply (oa_leaf _ _ _ _ (tc_only _ _ _ _ _ (mo_touched _ _ _ _ _ _ MO))). intros (r & I & P).
    apply (NQ r t I (RE t R)). rewrite (ONE u _ r Bu S I P). exact Q1.
Qed.

(** After a run that succeeds. *)
Definition whole (w : world) (es mid : list happening) : Prop :=
  forall u, below_base c u -> exact_copy cwd c w es u \/ exists p e d a b, src_to_dst (c_mapper c) u = Ok p /\ last_event u es = Some e
    /\ mid = a ++ b /\ later void (es ++ a) u = Some d /\ leaf_at (w_root w) (denotes cwd p) = Some (File d (whole_seconds (ev_time e))).
Lemma whole_while w es mid : whole w es mid -> copy_while cwd c w void es mid.
Proof.
  intros W u B. destruct (W u B) as [X|(p & e & d & a & b & S & L & Q & C & Lf)].
  - exists [], mid. rewrite app_nil_r. split; [reflexivity|apply exact_same, X].
  - exists a, b. split; [exact Q|]. unfold same_content. rewrite C. exists p, (whole_seconds (ev_time e)). auto.
Qed.
Lemma whole_kept w es mid : in_order (es ++ mid) -> whole w es mid -> ready cwd c w ->
  (exists calls, Forall call_ok calls /\ left_by F (w_state w) calls) ->
  (forall t, recorded F c w t -> exists e, In e es /\ t <= ev_time e) -> kept cwd F c all (es ++ mid) w.
Proof.
  intros O W RD ST TI. split; auto.
  - intros t R. destruct (TI t R) as (e & I & L). exists e. split; [apply in_app_iff; auto|exact L].
  - intros u p n Bu S Lf. destruct (W u Bu) as [X|(p' & e & d & a & b & S' & L & Q & C & Lf')].
    + unfold exact_copy in X. destruct (later void es u) as [d|] eqn:LA.
      * destruct X as (p' & e & S' & LE & Lf'). rewrite S in S'. injection S' as <-. rewrite Lf in Lf'. injection Lf' as ->.
        exists d, (whole_seconds (ev_time e)). split; [reflexivity|]. left. exists es, [], mid, e. rewrite app_nil_r. auto.
      * destruct X as (p' & S' & Lf'). rewrite S in S'. injection S' as <-. congruence.
    + rewrite S in S'. injection S' as <-. rewrite Lf in Lf'. injection Lf' as ->. exists d, (whole_seconds (ev_time e)). split; [reflexivity|].
      left. exists es, a, b, e. rewrite Q. auto.
  - intros t R u Bu Q. destruct (late_quiet t es mid u O (TI t R) Q) as [Q1 Q2].
    destruct (W u Bu) as [X|(p' & e & d & a & b & S' & L & Qm & C & Lf')]; [apply exact_more; assumption|].
    unfold exact_copy. rewrite later_app, later_other by exact Q2. rewrite later_app, later_other in C.
    2:{ intros y Iy. apply Q2. rewrite Qm. apply in_app_iff. auto. }
    rewrite C. exists p', e. split; [exact S'|]. split; [|exact Lf']. rewrite last_event_app, (proj2 (last_event_none u mid) Q2). exact L.
Qed.
End Kept.

(** ** Baselines *)

Section Base.
Variables (E : env) (c : client) (all es mid : list happening) (w : world).
Hypothesis (OD : orderly c es) (IN : incl es all) (IE : in_earnest c) (LW : lists_while E c es mid) (K : kept (e_cwd E) (e_floats E) c all es w).

Lemma lists_below : keeps_below E c.
Proof.
  intros u L. apply (lw_listed _ _ _ _ LW) in L. destruct (later void es u) as [d|] eqn:Q; [|congruence].
  destruct (later_some _ _ _ Q) as (e & LE). apply last_event_in in LE. destruct LE as [I <-]. apply (od_below _ _ OD e I).
Qed.
Lemma base_sync : synchronizable E c w.
Proof. apply (kp_ready _ _ _ _ _ _ K E eq_refl lists_below). Qed.
Lemma agreeing_exact u r n : source_entry E c u r -> local_node E c w u n -> agrees r n -> exact_copy (e_cwd E) c w es u.
Proof.
  intros SE LN ((t & m & RT & MT & CL) & _). pose proof base_sync as SY.
  destruct (node_base E c w SY w u _ (sy_world _ _ _ SY) (proj1 (sy_names _ _ _ SY)) (sy_free _ _ _ SY) LN) as (B & _ & q & (p & S & ->) & LF).
  destruct (lw_times _ _ _ _ LW u r SE) as (e & LE & RT'). rewrite RT in RT'. injection RT' as ->.
  destruct (last_event_in _ _ _ LE) as [I U].
  destruct (kp_files _ _ _ _ _ _ K u p n B S LF) as (d & t & -> & V). cbn in MT. injection MT as ->. apply close_enough in CL.
  destruct V as [V|V]; [|specialize (V e (IN e I) U); lia].
  destruct (version_right c es u d m e OD V LE CL) as [C ->]. unfold exact_copy. rewrite C. exists p, e. auto.
Qed.
Lemma exact_agrees u r n : source_entry E c u r -> local_node E c w u n -> exact_copy (e_cwd E) c w es u -> agrees r n.
Proof.
  intros SE LN X. pose proof base_sync as SY.
  destruct (node_base E c w SY w u _ (sy_world _ _ _ SY) (proj1 (sy_names _ _ _ SY)) (sy_free _ _ _ SY) LN) as (B & _ & q & (p & S & ->) & LF).
  unfold exact_copy in X. destruct (later void es u) as [d|] eqn:C.
  2:{ destruct X as (p' & S' & L'). rewrite S in S'. injection S' as <-. congruence. }
  destruct X as (p' & e & S' & LE & L'). rewrite S in S'. injection S' as <-. rewrite LF in L'. injection L' as ->.
  destruct (lw_times _ _ _ _ LW u r SE) as (e' & LE' & RT). rewrite LE in LE'. injection LE' as <-. split.
  - exists (ev_time e), (whole_seconds (ev_time e)). split; [exact RT|]. split; [reflexivity|]. apply whole_seconds_equal.
    destruct SE as (src & FR & I). destruct (find_resource_list_ok _ _ _ FR) as [_ EO]. destruct (EO _ _ I) as (DB & _). rewrite RT in DB. exact DB.
  - apply (lw_lengths _ _ _ _ LW u r d SE C).
Qed.
Lemma exact_idle u : below_base c u -> exact_copy (e_cwd E) c w es u -> ~ to_create E c w u /\ ~ to_update E c w u /\ ~ to_delete E c w u.
Proof.
  intros B X. pose proof base_sync as SY. split; [|split].
  - intros (LI & N). apply (lw_listed _ _ _ _ LW) in LI. unfold exact_copy in X. destruct (later void es u) as [d|]; [|congruence].
    destruct X as (p & e & S & _ & LF). apply N. eexists. apply (base_node E c w SY w u (denotes (e_cwd E) p)); [exact B|exists p; auto|exact LF|unfold is_file; eauto].
  - intros (r & n & SE & LN & NA). apply NA, (exact_agrees u r n SE LN X).
  - intros (NL & n & LN). rewrite (lw_listed _ _ _ _ LW) in NL.
    destruct (node_base E c w SY w u _ (sy_world _ _ _ SY) (proj1 (sy_names _ _ _ SY)) (sy_free _ _ _ SY) LN) as (_ & _ & q & (p & S & ->) & LF).
    unfold exact_copy in X. destruct (later void es u) as [d|]; [apply NL; discriminate|].
    destruct X as (p' & S' & L'). rewrite S in S'. injection S' as <-. congruence.
Qed.

Lemma base_whole w' x : baseline_or_audit E c true false w = (w', x) -> x = Ok tt \/ w_state w' <> w_state w -> whole (e_cwd E) c w' es mid.
Proof.
  intros H X. destruct IE as (DR & IF & TR). pose proof base_sync as SY.
  destruct (baseline_ended E c w SY w' x DR IF TR H X) as (T & D & R).
  intros u B. destruct (base_place E c w SY u B) as (m & rel & _ & _ & _ & _ & _ & S & _).
  set (p := dst_path m ++ $"/" ++ rel_path rel) in *. assert (place_of E c u (denotes (e_cwd E) p)) as P by (exists p; auto).
  assert (forall r u', source_entry E c u' r -> r_uri r = u' /\ listed E c u') as EU by (intros r u' I; apply (entry_uri E c u' r I)).
  destruct (later void es u) as [d|] eqn:L.
  - assert (exists r, source_entry E c u r) as (r & SE).
    { assert (listed E c u) as (src & FR & I) by (apply (lw_listed _ _ _ _ LW); congruence). apply in_map_iff in I. destruct I as ((u' & r) & <- & I).
      exists r, src. auto. }
    destruct (EU _ _ SE) as [RU LI]. destruct (lw_times _ _ _ _ LW u r SE) as (e & LE & RT).
    assert (T r -> exists p e d a b, src_to_dst (c_mapper c) u = Ok p /\ last_event u es = Some e
      /\ mid = a ++ b /\ later void (es ++ a) u = Some d /\ leaf_at (w_root w') (denotes (e_cwd E) p) = Some (File d (whole_seconds (ev_time e)))) as HT.
    { intros Tr. destruct (rn_transferred _ _ _ _ _ _ R r Tr) as (_ & q & f & (p' & S' & ->) & LF & k & d' & _ & GE & ->).
      rewrite RU in *. rewrite RT in LF. destruct (lw_content _ _ _ _ LW k u d' GE) as (a & b & Q & C). exists p', e, d', a, b. auto. }
    destruct (rn_entries _ _ _ _ _ _ R u r SE) as [Tr|(n & LN & AG)]; [auto|].
    destruct (rn_rest _ _ _ _ _ _ R (denotes (e_cwd E) p)) as [(r' & Tr & P')|[(u' & Du & P')|Q]].
    + right. destruct (rn_transferred _ _ _ _ _ _ R r' Tr) as (SE' & _). destruct (EU _ _ SE') as [_ LI'].
      assert (u = r_uri r') as -> by (apply (base_inj E c w SY _ _ (denotes (e_cwd E) p)); auto; apply (sy_listed _ _ _ SY), LI').
      apply HT. rewrite (entry_unique E c _ _ _ SE SE'). exact Tr.
    + destruct (rn_deleted _ _ _ _ _ _ R u' Du) as (NL & B' & _).
      assert (u = u') as <- by (apply (base_inj E c w SY _ _ (denotes (e_cwd E) p)); auto). contradiction.
    + left. apply (exact_moves _ _ _ _ _ _ _ S Q). apply (agreeing_exact u r n SE LN AG).
  - assert (~ listed E c u) as NL by (rewrite (lw_listed _ _ _ _ LW); congruence). left. unfold exact_copy. rewrite L. exists p. split; [exact S|].
    destruct (rn_rest _ _ _ _ _ _ R (denotes (e_cwd E) p)) as [(r' & Tr & P')|[(u' & Du & P')|Q]].
    + exfalso. destruct (rn_transferred _ _ _ _ _ _ R r' Tr) as (SE' & _). destruct (EU _ _ SE') as [_ LI'].
      apply NL. rewrite (base_inj E c w SY u (r_uri r') (denotes (e_cwd E) p)); auto. apply (sy_listed _ _ _ SY), LI'.
    + destruct (rn_deleted _ _ _ _ _ _ R u' Du) as (_ & B' & q & (p' & S' & ->) & LF).
      assert (u = u') as <- by (apply (base_inj E c w SY _ _ (denotes (e_cwd E) p)); auto). rewrite S in S'. injection S' as <-. exact LF.
    + destruct (leaf_at (w_root w) (denotes (e_cwd E) p)) as [n|] eqn:LF; [|exact Q].
      destruct (kp_files _ _ _ _ _ _ K u p n B S LF) as (d & t & -> & _).
      assert (is_file (File d t)) as FN by (unfold is_file; eauto). pose proof (base_node E c w SY w u _ _ B P LF FN) as LN.
      destruct (rn_local _ _ _ _ _ _ R u _ LN) as [Du|]; [|contradiction].
      destruct (rn_deleted _ _ _ _ _ _ R u Du) as (_ & _ & q & (p' & S' & ->) & LF'). rewrite S in S'. injection S' as <-. exact LF'.
Qed.
Lemma base_killed wk : in_order (es ++ mid) -> clock_apart E all -> while_baseline E c true w wk -> kept (e_cwd E) (e_floats E) c all (es ++ mid) wk.
Proof.
  intros O CA H. pose proof base_sync as SY. destruct (baseline_moment E c w wk (proj2 (proj2 IE)) (sy_world _ _ _ SY) H) as (ST & w0 & L & D & R0 & MO & HL & HD).
  assert (forall r, In r (L ++ D) -> below_base c (r_uri r) /\ (to_create E c w (r_uri r) \/ to_update E c w (r_uri r) \/ to_delete E c w (r_uri r))) as BB.
  { intros r I. apply in_app_iff in I. destruct I as [I|I].
    - destruct (HL r I) as [SE HW]. split; [apply lists_below, (entry_uri E c _ _ SE)|tauto].
    - pose proof (HD r I) as TD. split; [|tauto]. destruct TD as (_ & n & LN).
      apply (node_base E c w SY w _ n (sy_world _ _ _ SY) (proj1 (sy_names _ _ _ SY)) (sy_free _ _ _ SY) LN). }
  apply (moment_kept (e_cwd E) (e_floats E) c all E es mid w w0 wk L D); auto.
  - apply lists_below.
  - apply (lw_content _ _ _ _ LW).
  - intros r I. apply BB, I.
  - intros r I. apply (lw_times _ _ _ _ LW), (proj1 (HL r I)).
  - intros r t I R Q. destruct (BB r I) as [B HW]. destruct (exact_idle _ B (kp_right _ _ _ _ _ _ K t R _ B Q)) as (N1 & N2 & N3). tauto.
Qed.
Lemma base_ready w' x : baseline_or_audit E c true false w = (w', x) -> ready (e_cwd E) c w'.
Proof.
  intros H. pose proof base_sync as SY. apply sync_ready.
  assert (forall w1, w_root w1 = w_root w' -> synchronizable E c w1 -> synchronizable E c w') as MV.
  { intros w1 R [A1 A2 A3 A4 A5]. split; unfold world_ok, destinations_free in *; rewrite <- ?R; auto. }
  destruct (baseline_end E c true w w' x (sy_world _ _ _ SY) H) as [R|(wk & KL & R)]; [apply (MV w); auto|].
  apply (MV wk); [auto|]. destruct (baseline_moment E c w wk (proj2 (proj2 IE)) (sy_world _ _ _ SY) KL) as (ST & w0 & L & D & R0 & MO & HL & HD).
  apply (touched_places E c (L ++ D) w0 wk); [|..|apply (mo_touched _ _ _ _ _ _ MO)].
  - destruct SY as [A1 A2 A3 A4 A5]. split; unfold world_ok, destinations_free in *; rewrite ?R0; auto.
  - intros r I. apply in_app_iff in I. destruct I as [I|I].
    + destruct (HL r I) as [SE _]. apply lists_below, (entry_uri E c _ _ SE).
    + destruct (HD r I) as (_ & n & LN). apply (node_base E c w SY w _ n (sy_world _ _ _ SY) (proj1 (sy_names _ _ _ SY)) (sy_free _ _ _ SY) LN).
Qed.
End Base.

(** A run that is killed while it writes the state file. *)
Lemma saved_kept E c all es mid w w' wk : python_floats (e_floats E) -> cut_floats (e_floats E) -> (forall sm, sitemap c = Ok sm -> sm <> []) ->
  in_order (es ++ mid) -> kept (e_cwd E) (e_floats E) c all es w -> whole (e_cwd E) c w' es mid -> ready (e_cwd E) c w' ->
  (forall t, recorded (e_floats E) c w' t -> exists e, In e es /\ t <= ev_time e) ->
  saved_in_part E c w w' wk -> kept (e_cwd E) (e_floats E) c all (es ++ mid) wk.
Proof.
  intros PF CF SM O K W RD TI (sm & QS & DB & LATE & SS & RT & CR).
  destruct (kp_state _ _ _ _ _ _ K) as (calls & CO & L).
  assert (CO' : Forall call_ok (calls ++ [Store sm (w_last w')])).
  { apply Forall_app. split; [exact CO|]. constructor; [|constructor]. split; [exact (SM sm QS)|exact DB]. }
  destruct (left_stored _ _ _ _ _ _ _ PF CO' L SS) as [[_ G]|[G _]]; [|now elim G].
  apply whole_kept; auto.
  - unfold whole, exact_copy, lacks in *. rewrite RT. exact W.
  - intros E' EC KB. destruct (RD E' EC KB) as [A1 A2 A3 A4 A5]. split; unfold world_ok, destinations_free in *; rewrite ?RT; auto.
  - destruct (crash_left (e_floats E) (w_state w) calls (Store sm (w_last w')) (w_state wk) L CR) as [L1|L1]; eauto.
  - intros t (sm' & Q & GT). rewrite QS in Q. injection Q as <-.
    destruct (crash_time _ _ _ _ _ _ _ PF CF CO' LATE L CR GT) as [Q|Q].
    + apply (kp_time _ _ _ _ _ _ K t). exists sm. rewrite <- Q. auto.
    + destruct (TI (w_last w') ltac:(exists sm; auto)) as (e & I & LE). exists e. split; [exact I|lia].
Qed.

Section BaseRun.
Variables (E : env) (c : client) (all es mid : list happening) (w : world).
Hypothesis (PF : python_floats (e_floats E)) (SM : forall sm, sitemap c = Ok sm -> sm <> []).
Hypothesis (OD : orderly c es) (IN : incl es all) (IE : in_earnest c) (LW : lists_while E c es mid) (K : kept (e_cwd E) (e_floats E) c all es w).
Hypothesis (NL : no_later_extra E c w es) (O : in_order (es ++ mid)).

Lemma base_times w' x : baseline_or_audit E c true false w = (w', x) ->
  (exists calls, Forall call_ok calls /\ left_by (e_floats E) (w_state w') calls)
  /\ forall t, recorded (e_floats E) c w' t -> exists e, In e es /\ t <= ev_time e.
Proof.
  intros H. destruct (kp_state _ _ _ _ _ _ K) as (calls & CO & ST). pose proof (base_sync E c all es mid w OD LW K) as SY.
  destruct (baseline_saves E c true w w' x (sy_world _ _ _ SY)) as [Q|(sm & t & QS & DB & ST' & WHO)]; [|exact H| |].
  - intros u n t L N M. apply (NL u n t L N M).
  - split; [exists calls; split; [exact CO|rewrite Q; exact ST]|]. intros t (sm & S & GT). apply (kp_time _ _ _ _ _ _ K t). exists sm. split; [exact S|congruence].
  - destruct (saved_again (e_floats E) (w_state w) calls sm t (w_state w') PF CO ST (SM sm QS) DB ST') as (CO' & L' & GG).
    split; [eauto|]. intros t' (sm' & S & GT). destruct GG as [GG|GG]; [|apply (kp_time _ _ _ _ _ _ K t'); exists sm'; split; [exact S|congruence]].
    rewrite QS in S. injection S as <-. rewrite GG in GT. injection GT as <-.
    destruct WHO as [(u & r & SE & RT)|(u & n & LN & N & MT)]; [|apply (NL u n t LN N MT)].
    destruct (lw_times _ _ _ _ LW u r SE) as (e & LE & RT'). rewrite RT in RT'. injection RT' as ->. exists e. split; [apply (last_event_in _ _ _ LE)|lia].
Qed.
Lemma base_run w' x : baseline_or_audit E c true false w = (w', x) -> x = Ok tt \/ clock_apart E all -> kept (e_cwd E) (e_floats E) c all (es ++ mid) w'.
Proof.
  intros H X. pose proof (base_sync E c all es mid w OD LW K) as SY. destruct (base_times w' x H) as [TS TI].
  assert (x = Ok tt \/ w_state w' <> w_state w -> kept (e_cwd E) (e_floats E) c all (es ++ mid) w') as WH.
  { intros X'. apply whole_kept; auto; [apply (base_whole E c all es mid w OD IN IE LW K w' x H X')|apply (base_ready E c all es mid w OD IE LW K w' x H)]. }
  destruct X as [X|CA]; [auto|].
  assert ({w_state w' = w_state w} + {w_state w' <> w_state w}) as [Q|Q] by (repeat decide equality); [|auto].
  destruct (baseline_end E c true w w' x (sy_world _ _ _ SY) H) as [R|(wk & KL & R)].
  - apply (kept_disk _ _ _ _ _ w); [split; assumption|]. apply (kept_more _ _ _ _ _ _ _ O K).
  - apply (kept_disk _ _ _ _ _ wk); [|apply (base_killed E c all es mid w OD IE LW K wk O CA KL)]. split; [exact R|].
    destruct (baseline_moment E c w wk (proj2 (proj2 IE)) (sy_world _ _ _ SY) KL) as (ST & _). congruence.
Qed.
End BaseRun.

(** ** Incremental runs *)

Lemma tells_last_event c u es : forall s rs r, tells c s es rs -> last_entry u rs = Some r ->
  exists e, last_event u es = Some e /\ change_time (c_spec_1_0 c) r = Some (ev_time e).
Proof.
  induction es as [|e es IH]; intros s rs r T L; destruct rs as [|r0 rs]; try contradiction; [discriminate|].
  destruct T as [(EU & EC & ET & _) T]. rewrite last_entry_cons in L. rewrite last_event_cons.
  pose proof (tells_last c u es _ _ T) as TL.
  destruct (last_entry u rs) as [l|] eqn:LE.
  - injection L as ->. destruct (IH _ _ _ T LE) as (e' & -> & Q). eauto.
  - apply last_event_none in TL. rewrite TL. rewrite EU in L. destruct (str_eqb (ev_uri e) u); [|discriminate]. injection L as <-. eauto.
Qed.

Section Inc.
Variables (E : env) (c : client) (all es mid : list happening) (w : world) (clu : option str) (from : Z).
Hypothesis (OD : orderly c es) (IE : in_earnest c) (KB : keeps_below E c) (K : kept (e_cwd E) (e_floats E) c all es w).
Hypothesis (RC : recorded (e_floats E) c w from) (SW : sees_while E c clu from void es mid) (GT : gives_times E c clu).

Lemma inc_sync : synchronizable E c w.
Proof. apply (kp_ready _ _ _ _ _ _ K E eq_refl KB). Qed.
Lemma inc_mapped : well_mapped (e_cwd E) c.
Proof. apply (sync_mapped E c w inc_sync). Qed.
Lemma inc_events changes uri : changes_read E c clu uri changes -> exists e1 e2, es = e1 ++ e2 /\ (forall e, In e e1 -> ev_time e < from)
  /\ (forall e, In e e2 -> from <= ev_time e) /\ tells c (later void e1) e2 (since c from changes).
Proof. apply (round_events E c clu from void es (od_order _ _ OD) (sw_list _ _ _ _ _ _ _ SW)). Qed.
(** What is due happened since, and has the time of the last event. *)
Lemma due_event changes uri r : changes_read E c clu uri changes -> due c from changes r ->
  below_base c (r_uri r) /\ ~ quiet_since from es (r_uri r) /\ exists e, last_event (r_uri r) es = Some e /\ change_time (c_spec_1_0 c) r = Some (ev_time e).
Proof.
  intros CR [D _]. destruct (inc_events _ _ CR) as (e1 & e2 & Q & L1 & G & T).
  destruct (tells_last_event _ _ _ _ _ _ T D) as (e & LE & CT). destruct (last_event_in _ _ _ LE) as [I U].
  assert (In e es) as J by (rewrite Q; apply in_app_iff; auto). split; [rewrite <- U; apply (od_below _ _ OD e J)|]. split.
  - intros N. specialize (N e J U). specialize (G e I). lia.
  - exists e. split; [|exact CT]. rewrite Q, last_event_app, LE. reflexivity.
Qed.
Lemma due_time changes uri r : changes_read E c clu uri changes -> due c from changes r -> r_change r = Some $"created" \/ r_change r = Some $"updated" ->
  exists e, last_event (r_uri r) es = Some e /\ r_timestamp r = Some (ev_time e).
Proof.
  intros CR D C. destruct (due_event _ _ _ CR D) as (_ & _ & e & LE & CT). exists e. split; [exact LE|].
  destruct (GT uri changes r CR) as (t & CT' & RT); [|exact C|congruence]. destruct D as [D _]. apply last_entry_in in D. destruct D as [D _].
  unfold since in D. apply filter_In in D. apply D.
Qed.

Lemma inc_whole w' x : none_left (e_cwd E) c w from void es -> incremental E c true clu None w = (w', x) -> x = Ok tt \/ w_state w' <> w_state w ->
  whole (e_cwd E) c w' es mid.
Proof.
  intros NL H X u B. pose proof inc_mapped as WM. pose proof (sy_world _ _ _ inc_sync) as OK.
  destruct (base_goes E c WM u B) as (m & rel & _ & _ & _ & _ & S & FP & _).
  set (p := dst_path m ++ $"/" ++ rel_path rel) in *. assert (started_from E c None w from) as SF by exact RC.
  destruct (incremental_effects _ _ _ _ _ _ _ _ OK H) as [(e & XE & N)|(from' & uri & ch & SF' & CR & I)].
  { exfalso. destruct X as [X|X]; [congruence|]. apply X, N. }
  rewrite (started_once _ _ _ _ _ _ SF' SF) in *. clear SF' from'.
  pose proof IE as (DR & IF & TR). pose proof (ie_applied _ _ _ _ _ _ _ _ _ _ _ I X DR IF TR) as AP.
  assert (KEPT : (forall r, due c from ch r -> r_uri r <> u) -> leaf_at (w_root w') (denotes (e_cwd E) p) = leaf_at (w_root w) (denotes (e_cwd E) p)).
  { apply (round_kept E c clu None w w' x from void es WM (od_order _ _ OD) (od_below _ _ OD) OK SF (sw_list _ _ _ _ _ _ _ SW) H u p ch uri B S CR). }
  destruct (inc_events _ _ CR) as (e1 & e2 & Q & L1 & G & T).
  assert (later void es u = later (later void e1) e2 u) as LS by (rewrite Q, later_app; reflexivity).
  pose proof (tells_last c u _ _ _ T) as TL.
  destruct (last_entry u (since c from ch)) as [r|] eqn:LE.
  - assert (r_uri r = u) as RU by (apply last_entry_in in LE; apply LE).
    destruct (came_dec u (since c from ch)) as [CW|CW].
    + destruct (tells_came _ _ _ _ _ _ T G CW) as [CS LN]. rewrite <- LS in LN.
      left. apply (exact_moves _ c w w' _ u p S).
      * apply KEPT. intros r' [_ D] U. apply D. rewrite U. exact CW.
      * unfold exact_copy. rewrite LN. apply NL; [exact B| |exact LN]. rewrite Q. apply created_more; [exact L1|exact CS].
    + assert (due c from ch r) as D by (split; rewrite RU; assumption).
      assert (alone E c from ch r (denotes (e_cwd E) p)) as AL.
      { intros r' D' P'. rewrite RU. apply (base_one E c WM _ _ (denotes (e_cwd E) p)); [|exact B|exact P'|exists p; auto].
        apply (due_event _ _ _ CR D'). }
      destruct (AP r D) as [A1 A2]. rewrite RU, S in *.
      destruct TL as [[RCh LN]|[RCh (d & LD)]].
      * left. unfold exact_copy. rewrite LS, LN. destruct (A2 RCh eq_refl) as (p' & [= <-] & A). exists p. split; [exact S|]. apply A; [exact AL|exact FP].
      * right. destruct (A1 RCh) as (p' & [= <-] & A). destruct (A AL) as (f & LF & k & d' & _ & GE & ->).
        destruct (due_time _ _ _ CR D RCh) as (e & LEv & RT). rewrite RU in *. rewrite RT in LF.
        destruct (sw_content _ _ _ _ _ _ _ SW k u d' GE) as (a & b & Qm & C). exists p, e, d', a, b. auto.
  - left. apply (exact_moves _ c w w' _ u p S).
    + apply KEPT. intros r' [D _] U. rewrite U in D. congruence.
    + apply (kp_right _ _ _ _ _ _ K from RC u B). intros e J U. rewrite Q in J. apply in_app_iff in J. destruct J as [J|J]; [auto|]. elim (TL e J U).
Qed.
Lemma inc_killed wk : in_order (es ++ mid) -> clock_apart E all -> while_incremental E c true clu None w wk -> kept (e_cwd E) (e_floats E) c all (es ++ mid) wk.
Proof.
  intros O CA H. destruct (incremental_moment E c clu None w wk (proj2 (proj2 IE)) (sy_world _ _ _ inc_sync) H)
    as (ST & w0 & L & D & from' & uri & ch & R0 & MO & SF & CR & HL & HD).
  assert (from' = from) as -> by (apply (recorded_once (e_floats E) c w); [exact SF|exact RC]).
  assert (forall r, In r (L ++ D) -> due c from ch r) as DU by (intros r I; apply in_app_iff in I; destruct I as [I|I]; [apply (HL r I)|apply (HD r I)]).
  apply (moment_kept (e_cwd E) (e_floats E) c all E es mid w w0 wk L D); auto.
  - apply (sw_content _ _ _ _ _ _ _ SW).
  - intros r I. apply (due_event _ _ _ CR (DU r I)).
  - intros r I. destruct (HL r I) as [A B]. apply (due_time _ _ _ CR A B).
  - intros r t I R Q. assert (t = from) as -> by (apply (recorded_once (e_floats E) c w); assumption). apply (due_event _ _ _ CR (DU r I)), Q.
Qed.
Lemma inc_ready w' x : incremental E c true clu None w = (w', x) -> ready (e_cwd E) c w'.
Proof.
  intros H. pose proof inc_sync as SY. apply sync_ready.
  assert (forall w1, w_root w1 = w_root w' -> synchronizable E c w1 -> synchronizable E c w') as MV.
  { intros w1 R [A1 A2 A3 A4 A5]. split; unfold world_ok, destinations_free in *; rewrite <- ?R; auto. }
  destruct (incremental_end E c true clu None w w' x (sy_world _ _ _ SY) H) as [R|(wk & KL & R)]; [apply (MV w); auto|].
  apply (MV wk); [auto|]. destruct (incremental_moment E c clu None w wk (proj2 (proj2 IE)) (sy_world _ _ _ SY) KL)
    as (ST & w0 & L & D & from' & uri & ch & R0 & MO & SF & CR & HL & HD).
  assert (from' = from) as -> by (apply (recorded_once (e_floats E) c w); [exact SF|exact RC]).
  apply (touched_places E c (L ++ D) w0 wk); [|..|apply (mo_touched _ _ _ _ _ _ MO)].
  - destruct SY as [A1 A2 A3 A4 A5]. split; unfold world_ok, destinations_free in *; rewrite ?R0; auto.
  - intros r I. apply (due_event ch uri r CR). apply in_app_iff in I. destruct I as [I|I]; [apply (HL r I)|apply (HD r I)].
Qed.
Lemma inc_times w' x : python_floats (e_floats E) -> (forall sm, sitemap c = Ok sm -> sm <> []) -> incremental E c true clu None w = (w', x) ->
  (exists calls, Forall call_ok calls /\ left_by (e_floats E) (w_state w') calls)
  /\ forall t, recorded (e_floats E) c w' t -> exists e, In e es /\ t <= ev_time e.
Proof.
  intros PF SM H. destruct (kp_state _ _ _ _ _ _ K) as (calls & CO & ST).
  destruct (incremental_saves E c true clu None w w' x (sy_world _ _ _ inc_sync) H) as [Q|(sm & from' & uri & ch & t0 & QS & SF' & CR & DB & ST' & _ & _ & _ & (r & Ir & Rt))].
  - rewrite Q. split; [eauto|]. intros t (sm & S & G). apply (kp_time _ _ _ _ _ _ K t). exists sm. split; [exact S|congruence].
  - destruct (saved_again (e_floats E) (w_state w) calls sm t0 (w_state w') PF CO ST (SM sm QS) DB ST') as (CO' & L' & G').
    split; [eauto|]. intros t (sm' & A & G). destruct G' as [G'|G']; [|apply (kp_time _ _ _ _ _ _ K t); exists sm'; split; [exact A|congruence]].
    rewrite QS in A. injection A as <-. rewrite G' in G. injection G as <-.
    destruct (sw_list _ _ _ _ _ _ _ SW) as (old & new & uri' & ch' & Qe & _ & CR' & TL). rewrite (read_once _ _ _ _ _ _ _ CR CR') in Ir.
    destruct (tells_in _ _ _ _ _ TL Ir) as (a & e & b & -> & (_ & _ & _ & LE)). exists e.
    split; [rewrite Qe; apply in_app_iff; right; apply in_app_iff; right; left; reflexivity|].
    apply LE. destruct Rt as [Rt|Rt]; [|auto]. unfold effective_time in Rt. destruct (r_ts_datetime r); auto.
Qed.
Lemma inc_run w' x : python_floats (e_floats E) -> (forall sm, sitemap c = Ok sm -> sm <> []) -> in_order (es ++ mid) -> none_left (e_cwd E) c w from void es ->
  incremental E c true clu None w = (w', x) -> x = Ok tt \/ clock_apart E all -> kept (e_cwd E) (e_floats E) c all (es ++ mid) w'.
Proof.
  intros PF SM O NL H X. destruct (inc_times w' x PF SM H) as [TS TI].
  assert (x = Ok tt \/ w_state w' <> w_state w -> kept (e_cwd E) (e_floats E) c all (es ++ mid) w') as WH.
  { intros X'. apply whole_kept; auto; [apply (inc_whole w' x NL H X')|apply (inc_ready w' x H)]. }
  destruct X as [X|CA]; [auto|].
  assert ({w_state w' = w_state w} + {w_state w' <> w_state w}) as [Q|Q] by (repeat decide equality); [|auto].
  destruct (incremental_end E c true clu None w w' x (sy_world _ _ _ inc_sync) H) as [R|(wk & KL & R)].
  - apply (kept_disk _ _ _ _ _ w); [split; assumption|]. apply (kept_more _ _ _ _ _ _ _ O K).
  - apply (kept_disk _ _ _ _ _ wk); [|apply (inc_killed wk O CA KL)]. split; [exact R|].
    destruct (incremental_moment E c clu None w wk (proj2 (proj2 IE)) (sy_world _ _ _ inc_sync) KL) as (ST & _). congruence.
Qed.
End Inc.

(** ** Histories *)

Lemma start_kept cwd F c all w : empty_destination cwd c w -> kept cwd F c all [] w.
Proof.
  intros [RD ST NF]. assert (forall t, ~ recorded F c w t) as NR.
  { intros t (sm & _ & G). rewrite ST in G. cbn in G. discriminate. }
  split; [exact RD| | | |].
  - exists []. split; [constructor|]. rewrite ST. apply (calls_left F []).
  - intros t R. elim (NR t R).
  - intros u p n B S L. rewrite (NF u p B S) in L. discriminate.
  - intros t R. elim (NR t R).
Qed.

Section Mix.
Variables (cwd : list str) (F : float_text) (c : client) (all : list happening).
Hypothesis (PF : python_floats F) (CF : cut_floats F) (SM : forall sm, sitemap c = Ok sm -> sm <> []) (IE : in_earnest c) (OA : orderly c all).

Lemma mixed_step es mid rest w w1 : all = (es ++ mid) ++ rest -> kept cwd F c all es w -> mixed_run cwd F c all es mid w w1 ->
  kept cwd F c all (es ++ mid) w1.
Proof.
  intros Q K R. pose proof OA as OM. rewrite Q in OM. apply orderly_app in OM. pose proof (orderly_app _ _ _ OM) as OD.
  pose proof (od_order _ _ OM) as O. assert (IN : incl es all) by (rewrite Q, <- app_assoc; apply incl_appl, incl_refl).
  destruct R as [E w1 x EC EF LW NL H X|E w1 EC EF LW CA H|E w' w1 EC EF LW NL H S|E clu from w1 x EC EF KB RC SW GT N H X|E clu from w1 EC EF KB RC SW GT CA H|E clu from w' w1 EC EF KB RC SW GT N H S]; subst cwd F.
  - apply (base_run E c all es mid w PF SM OD IN IE LW K NL O w1 x H X).
  - apply (base_killed E c all es mid w OD IE LW K w1 O CA H).
  - apply (saved_kept E c all es mid w w' w1 PF CF SM O K).
    + apply (base_whole E c all es mid w OD IN IE LW K w' _ H). auto.
    + apply (base_ready E c all es mid w OD IE LW K w' _ H).
    + apply (base_times E c all es mid w PF SM OD LW K NL w' _ H).
    + exact S.
  - apply (inc_run E c all es mid w clu from OD IE KB K RC SW GT w1 x PF SM O N H X).
  - apply (inc_killed E c all es mid w clu from OD IE KB K RC SW GT w1 O CA H).
  - apply (saved_kept E c all es mid w w' w1 PF CF SM O K).
    + apply (inc_whole E c all es mid w clu from OD IE KB K RC SW GT w' _ N H). auto.
    + apply (inc_ready E c all es mid w clu from OD IE KB K RC SW w' _ H).
    + apply (inc_times E c all es mid w clu from KB K SW w' _ PF SM H).
    + exact S.
Qed.
Lemma mixed_grows es w es' w' : mixed_history cwd F c all es w es' w' -> exists more, es' = es ++ more.
Proof.
  induction 1 as [es w|es w w1 es' w' _ _ IH|es w more mid w1 es' w' _ _ (m & ->)].
  - exists []. now rewrite app_nil_r.
  - exact IH.
  - exists (more ++ mid ++ m). now rewrite <- !app_assoc.
Qed.
Lemma mixed_kept es w es' w' rest : mixed_history cwd F c all es w es' w' -> all = es' ++ rest -> kept cwd F c all es w -> kept cwd F c all es' w'.
Proof.
  intros H. induction H as [es w|es w w1 es' w' D H IH|es w more mid w1 es' w' R H IH]; intros Q K; [exact K|..].
  - apply (IH Q), (kept_disk _ _ _ _ _ _ _ D K).
  - apply (IH Q). destruct (mixed_grows _ _ _ _ H) as (m & ->). apply (mixed_step (es ++ more) mid (m ++ rest) w w1).
    + rewrite Q. now rewrite <- !app_assoc.
    + apply kept_more; [|exact K]. pose proof OA as OM. rewrite Q, <- !app_assoc, app_assoc in OM. apply (od_order _ _ (orderly_app _ _ _ OM)).
    + exact R.
Qed.
End Mix.

Section Ends.
Variables (cwd : list str) (F : float_text) (c : client) (w0 w w' : world) (es more mid : list happening) (E : env).
Hypothesis (PF : python_floats F) (CF : cut_floats F) (SM : forall sm, sitemap c = Ok sm -> sm <> []) (IE : in_earnest c).
Hypothesis (OA : orderly c ((es ++ more) ++ mid)) (ST : empty_destination cwd c w0) (H : mixed_history cwd F c ((es ++ more) ++ mid) [] w0 es w).
Hypothesis (EC : e_cwd E = cwd) (EF : e_floats E = F).

Lemma now_kept : kept cwd F c ((es ++ more) ++ mid) (es ++ more) w.
Proof.
  apply kept_more; [apply (od_order _ _ (orderly_app _ _ _ OA))|].
  apply (mixed_kept cwd F c _ PF CF SM IE OA [] w0 es w (more ++ mid) H); [now rewrite app_assoc|]. apply start_kept, ST.
Qed.
Lemma mixed_baseline : lists_while E c (es ++ more) mid -> baseline_or_audit E c true false w = (w', Ok tt) -> copy_while cwd c w' void (es ++ more) mid.
Proof.
  intros LW X. pose proof now_kept as K. rewrite <- EC, <- EF in K. rewrite <- EC. apply whole_while.
  apply (base_whole E c _ (es ++ more) mid w (orderly_app _ _ _ OA) ltac:(apply incl_appl, incl_refl) IE LW K w' (Ok tt) X). auto.
Qed.
Lemma mixed_incremental clu from : keeps_below E c -> recorded F c w from -> sees_while E c clu from void (es ++ more) mid -> gives_times E c clu ->
  none_left cwd c w from void (es ++ more) -> incremental E c true clu None w = (w', Ok tt) -> copy_while cwd c w' void (es ++ more) mid.
Proof.
  intros KB RC SW GT NL X. pose proof now_kept as K. rewrite <- EF in RC. rewrite <- EC, <- EF in K. rewrite <- EC in NL |- *. apply whole_while.
  apply (inc_whole E c _ (es ++ more) mid w clu from (orderly_app _ _ _ OA) IE KB K RC SW GT w' (Ok tt) NL X). auto.
Qed.
End Ends.
(** If nothing happens meanwhile. *)
Lemma while_still cwd c w s es : copy_while cwd c w s es [] -> copy_of cwd c w (later s es).
Proof. intros C u B. destruct (C u B) as (a & b & Q & S). symmetry in Q. apply app_eq_nil in Q. destruct Q as [-> _]. rewrite app_nil_r in S. exact S. Qed.

(** * SyncFacts: facts about resync-sync *)

From Verif Require Import Py PyFacts Float64 W3C PathSpec OsPath OsPathFacts UrlAuthority Mapper MapperSpec Resource ResourceSpec Container ContainerSpec ContainerFacts
  Xml Sitemap Opener Hashes ListIndex ListIndexSpec Disk DiskSpec DiskFacts DiskChange Builder BuilderSpec BuilderFacts ClientState
  Client ClientSpec ClientLists ClientFacts ClientRuns ClientInc ClientCompare ClientProps ClientThms ClientDownload ClientChanges ClientTries
  ConvergeSpec ClientConverge SucceedSpec ClientUtils Build StoredSpec BuildSpec BuildFacts BuildScript PublishSpec PublishFacts MirrorSpec Mirror Sync SyncSpec.

(** What the run of the script is. *)
Lemma sync_is E a w w' out x : resync_sync E a w = (w', out, x) ->
  (no_effect w w' /\ x <> Done) \/ (s_mode a = Parse /\ no_effect w w') \/
  exists hash ms y, sync_options a hash ms /\ x = ended y /\
    match s_mode a with
    | Baseline => baseline_or_audit E (sync_client a ms) (s_delete a) false (prepared hash w) = (w', y)
    | Audit => baseline_or_audit E (sync_client a ms) (s_delete a) true (prepared hash w) = (w', y)
    | Incremental => incremental E (sync_client a ms) (s_delete a) (s_changelist_uri a) (s_from a) (prepared hash w) = (w', y)
    | Parse => False
    end.
Proof.
  unfold resync_sync, sync_options. destruct (snd (process_options _ _ _)) as [hash|e].
  2:{ intros [= <- <- <-]. left. split; [repeat split|discriminate]. }
  fold (prepared hash w). unfold sync_body.
  destruct (match s_map a with [] => Ok [] | _ => _ end) as [ms|e] eqn:M.
  2:{ intros H. left. destruct e; injection H as <- <- <-; (split; [repeat split|discriminate]). }
  assert (match s_map a with [] => ms = [] | maps => make_mapper maps true = Ok ms end) as M' by (destruct (s_map a); [now injection M|exact M]).
  destruct (s_mode a) eqn:K.
  1-3: match goal with
    | |- context [baseline_or_audit ?p ?q ?r ?s ?t] => destruct (baseline_or_audit p q r s t) as [w1 y] eqn:R
    | |- context [incremental ?p ?q ?r ?s ?t ?u] => destruct (incremental p q r s t u) as [w1 y] eqn:R
    end; intros H; right; right; exists hash, ms, y;
    (split; [split; [reflexivity|exact M']|]); assert (w1 = w' /\ x = ended y) as [<- ->] by (destruct y as [[]|[]]; injection H as <- <- <-; split; reflexivity); (split; [reflexivity|exact R]).
  intros H. right. left. split; [reflexivity|]. revert H. destruct (sitemap _) as [uri|e].
  - destruct (parse_opened _ _ _ _) as [o [[]|[]]]; intros [= <- <- <-]; repeat split.
  - destruct e; intros [= <- <- <-]; repeat split.
Qed.

Lemma prepared_ok E hash w : world_ok E w -> world_ok E (prepared hash w).
Proof. intros H. exact H. Qed.
Lemma no_effect_prepared hash w w' : no_effect (prepared hash w) w' -> no_effect w w'.
Proof. intros H. exact H. Qed.

(** There is one client that the options ask for. *)
Lemma as_options_is a ms c : as_options a ms c -> c = sync_client a ms.
Proof.
  intros [A B C [D D'] F [G G'] H I [J J'] K]. destruct c. cbn in *. unfold sync_client. subst.
  assert (c_multifile = negb (s_no_multifile a)) as -> by (destruct c_multifile, (s_no_multifile a); cbn; intuition congruence).
  assert (c_tries = tries_of (s_tries a)) as ->.
  { unfold tries_of. destruct (s_tries a) as [n|]; [|lia]. destruct (Z.eqb_spec n 0) as [->|N]; [specialize (J' eq_refl)|specialize (J N)]; lia. }
  unfold given. destruct (s_sitemap a) as [[|]|], (s_capabilitylist a) as [[|]|]; reflexivity.
Qed.
Lemma is_as_options a ms : as_options a ms (sync_client a ms).
Proof.
  split; cbn; try reflexivity; auto.
  - destruct (s_no_multifile a); cbn; split; congruence.
  - unfold tries_of. destruct (s_tries a) as [n|]; [|split; [reflexivity|discriminate]]. split.
    + intros N. apply Z.eqb_neq in N. rewrite N. lia.
    + intros [= ->]. reflexivity.
Qed.

(** --audit and --parse *)
Lemma sync_looks E a w w' out x : s_mode a = Audit \/ s_mode a = Parse -> resync_sync E a w = (w', out, x) -> no_effect w w'.
Proof.
  intros M H. apply sync_is in H. destruct H as [[H _]|[[_ H]|(hash & ms & y & _ & _ & H)]]; auto.
  destruct M as [M|M]; rewrite M in H; [|contradiction]. apply (audit_nothing _ _ _ _ _ _ H).
Qed.
(** --dryrun *)
Lemma sync_dry E a w w' out x : world_ok E w -> s_dryrun a = true -> resync_sync E a w = (w', out, x) ->
  (forall q, leaf_at (w_root w') q = leaf_at (w_root w) q)
  /\ (forall q, dir_at (w_root w) q -> dir_at (w_root w') q) /\ w_gets w' = w_gets w.
Proof.
  intros OK D H. assert (no_effect w w' -> (forall q, leaf_at (w_root w') q = leaf_at (w_root w) q)
    /\ (forall q, dir_at (w_root w) q -> dir_at (w_root w') q) /\ w_gets w' = w_gets w) as Z.
  { intros (R & S & G). rewrite R. auto. }
  apply sync_is in H. destruct H as [[H _]|[[_ H]|(hash & ms & y & _ & _ & H)]]; auto.
  pose proof (prepared_ok E hash w OK) as OK'.
  destruct (s_mode a); [exact (dry_baseline _ (sync_client a ms) _ _ _ _ _ OK' D H)|exact (dry_incremental _ (sync_client a ms) _ _ _ _ _ _ OK' D H)|exact (dry_baseline _ (sync_client a ms) _ _ _ _ _ OK' D H)|contradiction].
Qed.
(** --delete *)
Lemma sync_keeps E a w w' out x : world_ok E w -> s_delete a = false -> resync_sync E a w = (w', out, x) ->
  forall q, file_at w q -> file_at w' q.
Proof.
  intros OK D H q F. unfold file_at in *. intros L. apply sync_is in H. destruct H as [[H _]|[[_ H]|(hash & ms & y & _ & _ & H)]].
  1,2: destruct H as [R _]; rewrite R in L; contradiction.
  pose proof (prepared_ok E hash w OK) as OK'. rewrite D in H.
  destruct (s_mode a).
  - destruct (baseline_deletes _ _ _ _ _ _ _ OK' H q F L); discriminate.
  - destruct (incremental_deletes _ _ _ _ _ _ _ _ OK' H q F L); discriminate.
  - destruct (baseline_deletes _ _ _ _ _ _ _ OK' H q F L); discriminate.
  - contradiction.
Qed.
(** No --map *)
Lemma sync_no_map E a w hash : s_map a = [] -> s_mode a <> Parse -> sync_options a hash [] ->
  resync_sync E a w = (prepared hash w, [], FatalShown).
Proof.
  intros M K [O _]. unfold resync_sync. rewrite O. unfold sync_body. rewrite M.
  destruct (s_mode a); try contradiction; rewrite ?no_mapping, ?no_mapping_incremental by reflexivity; reflexivity.
Qed.
(** --exclude *)
Lemma sync_excluding E a w l : s_mode a <> Parse -> resync_sync E (excluding l a) w = resync_sync E a w.
Proof. intros K. unfold resync_sync, sync_body. cbn [excluding s_mode]. destruct (s_mode a); try contradiction; reflexivity. Qed.

(** --tries *)
Lemma sync_tries E a w w' out x : world_ok E w -> resync_sync E a w = (w', out, x) ->
  forall u, exists n, requested w w' u n /\ (n <= if s_dryrun a then 0 else tries_of (s_tries a))%nat.
Proof.
  intros OK H u. assert (forall k P, modest k P w w' -> exists n, requested w w' u n /\ (n <= k)%nat) as Z.
  { intros k P (l & G & _ & T). exists (times u l). split; [exists l; auto|apply T]. }
  assert (no_effect w w' -> forall k, exists n, requested w w' u n /\ (n <= k)%nat) as Z0.
  { intros (_ & _ & G) k. exists O. split; [exists []; rewrite app_nil_r; auto|lia]. }
  apply sync_is in H. destruct H as [[H _]|[[_ H]|(hash & ms & y & _ & _ & H)]]; auto.
  pose proof (prepared_ok E hash w OK) as OK'.
  destruct (s_mode a); try contradiction.
  - apply baseline_asks in H; [|exact OK']. eapply Z. exact H.
  - apply incremental_asks in H; [|exact OK']. eapply Z. exact H.
  - apply audit_nothing in H. apply Z0. exact H.
Qed.

(** The end of a run *)
Lemma ended_done x : ended x = Done -> x = Ok tt.
Proof. destruct x as [[]|[]]; (reflexivity || discriminate). Qed.
Lemma tries_positive a : (forall n, s_tries a = Some n -> 0 <= n) -> (0 < tries_of (s_tries a))%nat.
Proof.
  intros P. unfold tries_of. destruct (s_tries a) as [n|]; [|lia]. specialize (P n eq_refl).
  destruct (Z.eqb_spec n 0); lia.
Qed.
Lemma synchronizable_prepared E c w hash : synchronizable E c w -> synchronizable E c (prepared hash w).
Proof. intros [A B C D F]. split; assumption. Qed.
Lemma sync_done E a hash ms c w w' out : sync_options a hash ms -> as_options a ms c -> full_baseline a -> synchronizable E c w ->
  resync_sync E a w = (w', out, Done) ->
  (forall u r, source_entry E c u r -> exists q n, place_of E c u q /\ leaf_at (w_root w') q = Some n
     /\ (downloaded E w w' r n \/ leaf_at (w_root w) q = Some n /\ agrees r n)
     /\ forall t, r_timestamp r = Some t -> exists m, mtime_of n = Some m /\ Z.abs (m - t) < SEC)
  /\ (forall file u, local_file E c w' file u -> listed E c u).
Proof.
  intros O AO (M & D & DR & IF & T) SY H. apply as_options_is in AO. subst c. apply sync_is in H. destruct H as [[_ H]|[[M' _]|(hash' & ms' & y & O' & X & H)]]; [contradiction|congruence|].
  rewrite M, D in H. symmetry in X. apply ended_done in X. subst y.
  assert (hash' = hash /\ ms' = ms) as [-> ->].
  { destruct O as [O1 O2], O' as [P1 P2]. split; [congruence|]. destruct (s_map a); congruence. }
  apply (converged E (sync_client a ms) (prepared hash w) w' (synchronizable_prepared _ _ _ hash SY) DR IF); [|exact H].
  apply tries_positive, T.
Qed.
Lemma sync_status E a w w' out x : resync_sync E a w = (w', out, x) ->
  (exit_status x = 0 <-> x = Done \/ x = FatalShown) /\ (exit_status x <> 0 -> exists e, x = Died e /\ e <> ClientFatalError).
Proof.
  intros H. assert (x <> UsageError /\ x <> Died ClientFatalError) as [N1 N2].
  { unfold resync_sync in H. destruct (snd (process_options _ _ _)) as [hash|e] eqn:P.
    - destruct (sync_body _ _ _ _) as [[w1 o] [[]|[]]]; injection H as <- <- <-; split; discriminate.
    - injection H as <- <- <-. split; [discriminate|]. intros [= ->]. revert P.
      unfold process_options. cbn [o_checksum o_hash o_delay o_token]. destruct (s_checksum a), (s_hash a); try discriminate;
        (destruct (s_delay a) as [d|]; [|discriminate]; destruct (d =? 0); [discriminate|]; destruct (d <? 0); discriminate). }
  split; [destruct x; cbn; (split; [intros K|intros [K|K]]); try discriminate; auto; congruence|].
  destruct x; cbn; intros K; try congruence. eexists. split; [reflexivity|congruence].
Qed.

(** Both scripts *)
Lemma sync_runs E a hash ms w w' y : sync_options a hash ms -> s_mode a = Baseline \/ s_mode a = Audit ->
  baseline_or_audit E (sync_client a ms) (s_delete a) (match s_mode a with Audit => true | _ => false end) (prepared hash w) = (w', y) ->
  resync_sync E a w = (w', [], ended y).
Proof.
  intros [O1 O2] M H. unfold resync_sync. rewrite O1. fold (prepared hash w). unfold sync_body.
  assert (match s_map a with [] => Ok [] | maps => make_mapper maps true end = Ok ms) as -> by (destruct (s_map a); [now rewrite O2|exact O2]).
  destruct M as [M|M]; rewrite M in H |- *; rewrite H; destruct y as [[]|[]]; reflexivity.
Qed.
Lemma scripts_mirror e b hashb msb user base srcdir l f wp :
  options_give b hashb msb user -> fine_option_links b user -> a_mode b = ResourceListMode -> a_outfile b = Some f -> a_paths b = None ->
  publisher e (build_client b hashb msb) base srcdir l -> plain_path f ->
  exists fs' file, resync_build e b wp = (with_fs fs' wp, Done) /\ sget f fs' = Some file
    /\ forall E a hash ms c w dstdir sm, sync_options a hash ms -> as_options a ms c -> full_baseline a ->
       copier E c (prepared hash w) base dstdir sm -> serves E c e base srcdir sm (f_data file) ->
       exists w', resync_sync E a w = (w', [], Done) /\ mirrored E w' dstdir e srcdir.
Proof.
  intros O FO M OF P PB PP. destruct (mirror e _ (Some (links_in_order b user)) f wp base srcdir l PB (links_fine b user FO) PP) as (fs' & file & W & G & C).
  exists fs', file. split; [|split; [exact G|]].
  - rewrite (script_runs e b hashb msb user wp O) by (rewrite M; congruence). rewrite M, OF, P. unfold wbind at 1. rewrite W. reflexivity.
  - intros E a hash ms c w dstdir sm SO AO (SM & SD & _) CP SV. apply as_options_is in AO. subst c. destruct (C E _ _ _ _ CP SV) as (w' & B & MR & _).
    exists w'. split; [|exact MR]. apply (sync_runs E a hash ms w w' (Ok tt) SO); [auto|]. rewrite SM, SD. exact B.
Qed.

Lemma sync_nowhere E a w hash : s_map a = [] -> s_mode a <> Parse -> sync_options a hash [] ->
  exists w', resync_sync E a w = (w', [], FatalShown) /\ no_effect w w'.
Proof. intros M K O. exists (prepared hash w). split; [apply (sync_no_map E a w hash M K O)|repeat split]. Qed.
Lemma sync_tries_bound E a w w' out x : world_ok E w -> resync_sync E a w = (w', out, x) ->
  forall u, exists k, requested w w' u k
    /\ (forall n, s_tries a = Some n -> n <> 0 -> Z.of_nat k <= Z.max 0 n)
    /\ (s_tries a = None \/ s_tries a = Some 0 -> Z.of_nat k <= 20)
    /\ (s_dryrun a = true -> k = O).
Proof.
  intros OK H u. destruct (sync_tries _ _ _ _ _ _ OK H u) as (k & R & K). exists k. split; [exact R|].
  assert (k <= tries_of (s_tries a))%nat as K' by (destruct (s_dryrun a); lia).
  unfold tries_of in K'. split; [|split].
  - intros n T N. rewrite T in K'. apply Z.eqb_neq in N. rewrite N in K'. lia.
  - intros [T|T]; rewrite T in K'; [lia|]. cbn in K'. lia.
  - intros D. rewrite D in K. lia.
Qed.

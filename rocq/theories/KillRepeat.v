(** * KillRepeat: baseline runs that fail or are killed, and are repeated *)

From Verif Require Import Py PyFacts Float64 Float64Facts W3C PathSpec OsPath OsPathFacts Regex RegexFacts Mapper MapperSpec MapperFacts MapperFacts2
  Resource ResourceSpec Container ContainerSpec ContainerFacts Capability Xml Sitemap Hashes ListIndex Disk DiskSpec DiskFacts DiskChange
  Builder BuilderSpec BuilderFacts ClientState ClientStateSpec ClientStateFacts
  Client ClientSpec ClientLists ClientFacts ClientRuns ClientInc ClientCompare ClientPlaces ClientProps
  ClientDownload ClientChanges ClientThms ClientSync ClientReport ClientStatus ClientDirs ConvergeSpec ClientConverge FollowSpec Follow Kill KillSpec KillFacts KillBase.

(** ** What is in a file after a transfer that did not end, or did *)

(** It has the time of the run, or it is complete and has the time that is listed. *)
Definition partly (E : env) (u : str) (ts : option Z) (n : node) : Prop :=
  exists k d1 d2 t, delivered (e_get E k u) = Some (d1 ++ d2) /\ n = File d1 t
    /\ (t = e_now E \/ e_get E k u = Data d1 /\ exists t0, ts = Some t0 /\ t = whole_seconds t0).
(** The leaf is the one that was there, or what has arrived so far. *)
Definition same_or_part (E : env) (u : str) (ts : option Z) (q : list str) (w wk : world) : Prop :=
  leaf_at (w_root wk) q = leaf_at (w_root w) q \/ exists n, leaf_at (w_root wk) q = Some n /\ partly E u ts n.
Lemma sop_refl E u ts q w wk : w_root wk = w_root w -> same_or_part E u ts q w wk.
Proof. intros R. left. now rewrite R. Qed.
Lemma sop_trans E u ts q a b c : same_or_part E u ts q a b -> same_or_part E u ts q b c -> same_or_part E u ts q a c.
Proof. intros A [B|B]; [|right; exact B]. destruct A as [A|(n & A & P)]; [left; congruence|right; exists n; split; [congruence|exact P]]. Qed.

Lemma write_part E u ts fn w k d1 d2 root : delivered (e_get E k u) = Some (d1 ++ d2) ->
  write_file (e_cwd E) (w_root w) fn d1 (e_now E) = Ok root ->
  leaf_at root (resolve (e_cwd E) fn) = Some (File d1 (e_now E)) /\ partly E u ts (File d1 (e_now E)).
Proof.
  intros D W. apply write_file_ok in W. destruct W as (_ & L & _). rewrite L. destruct (path_eq_dec _ _); [|congruence].
  split; [reflexivity|]. exists k, d1, d2, (e_now E). auto 6.
Qed.
Lemma attempt_part E uri ts fn w w' x : attempt E uri fn w = (w', x) -> same_or_part E uri ts (resolve (e_cwd E) fn) w w'.
Proof.
  unfold attempt. change (w_root (with_gets (w_gets w ++ [uri]) w)) with (w_root w).
  assert (forall d root', delivered (e_get E (List.length (w_gets w)) uri) = Some d -> write_file (e_cwd E) (w_root w) fn d (e_now E) = Ok root' ->
    same_or_part E uri ts (resolve (e_cwd E) fn) w (with_root root' (with_gets (w_gets w ++ [uri]) w))) as W.
  { intros d root' D H. rewrite <- (app_nil_r d) in D. destruct (write_part E uri ts fn w _ d [] root' D H). right. eexists. split; [eassumption|assumption]. }
  destruct (e_get E _ uri) as [e|d|d e] eqn:G; [intros [= <- <-]; apply sop_refl; reflexivity|destruct (write_file _ _ _ d _) eqn:WF..].
  all: intros [= <- <-]; try (apply sop_refl; reflexivity); apply (W d); auto.
Qed.
Lemma downloading_part E uri ts fn w wk : while_downloading E uri fn w wk -> same_or_part E uri ts (resolve (e_cwd E) fn) w wk.
Proof.
  induction 1 as [w|w d1 d2 root D W|w w1 wk A _ IH].
  - apply sop_refl. reflexivity.
  - right. eexists. apply (write_part _ _ _ _ _ _ _ _ _ D W).
  - apply (sop_trans _ _ _ _ _ _ _ (attempt_part _ _ _ _ _ _ _ A) IH).
Qed.
Lemma download_part E c uri ts fn : forall left w w' x, download E c left uri fn w = (w', x) -> same_or_part E uri ts (resolve (e_cwd E) fn) w w'.
Proof.
  induction left as [|left IH]; cbn [download]; intros w w' x H; [injection H as <- <-; apply sop_refl; reflexivity|].
  destruct (attempt E uri fn w) as [w1 a] eqn:A. apply (attempt_part _ _ ts) in A.
  destruct a as [u|e]; [injection H as <- <-; exact A|].
  destruct e; try (injection H as <- <-; exact A).
  destruct left; [injection H as <- <-; exact A|]. apply IH in H. apply (sop_trans _ _ _ _ _ _ _ A H).
Qed.
Lemma update_part E c r fn w w' x : (0 < c_tries c)%nat -> update_resource E c r fn w = (w', x) -> same_or_part E (r_uri r) (r_timestamp r) (resolve (e_cwd E) fn) w w'.
Proof.
  intros TR. unfold update_resource. intros H. apply andthen_inv in H.
  assert (forall w1 y, match mkpath (e_cwd E) (w_root w) (os_dirname fn) with Ok root => (with_root root w, Ok tt) | Err e => (w, Err e) end = (w1, y) ->
    same_or_part E (r_uri r) (r_timestamp r) (resolve (e_cwd E) fn) w w1) as MK.
  { intros w1 y. destruct (mkpath (e_cwd E) (w_root w) (os_dirname fn)) as [root'|e] eqn:M; intros [= <- <-]; [|apply sop_refl; reflexivity].
    apply mkpath_ok in M. destruct M as (M & _). left. apply M. }
  destruct H as [(w1 & [] & M & H)|(e & M & ->)]; [|apply (MK _ _ M)]. apply MK in M. clear MK.
  apply (sop_trans _ _ _ _ _ _ _ M). clear M.
  destruct (c_dryrun c); [injection H as <- <-; apply sop_refl; reflexivity|].
  apply andthen_inv in H. destruct H as [(w2 & got & D & H)|(e & D & ->)]; [|apply (download_part _ _ _ _ _ _ _ _ _ D)].
  destruct got as [b|]; [|injection H as <- <-; apply (download_part _ _ _ _ _ _ _ _ _ D)].
  apply download_effect in D. destruct D as (_ & _ & _ & _ & _ & D & DF & _).
  assert (b = true) as -> by (destruct b; [reflexivity|specialize (DF eq_refl); lia]).
  destruct (D eq_refl) as (k & d & _ & G & _ & L). clear D DF.
  assert (forall t, t = e_now E \/ (exists t0, r_timestamp r = Some t0 /\ t = whole_seconds t0) -> partly E (r_uri r) (r_timestamp r) (File d t)) as P.
  { intros t C. exists k, d, [], t. rewrite app_nil_r, G. split; [reflexivity|]. split; [reflexivity|]. destruct C; auto. }
  apply (sop_trans _ _ _ _ _ w2); [right; eauto 6|].
  apply andthen_inv in H.
  assert (forall y w3, match r_timestamp r with
        | None => ret tt
        | Some t =>
            (fun w => match utime (e_cwd E) (w_root w) fn (whole_seconds t) with
                      | Ok root => (with_root root w, Ok tt)
                      | Err e => (w, Err e)
                      end) ;;;
            modify (fun w => if w_last w <? t then with_last t w else w)
        end w2 = (w3, y) -> same_or_part E (r_uri r) (r_timestamp r) (resolve (e_cwd E) fn) w2 w3) as U.
  { intros y w3. destruct (r_timestamp r) as [t|] eqn:RT; [|intros [= <- <-]; apply sop_refl; reflexivity].
    intros U. apply andthen_inv in U.
    destruct (utime (e_cwd E) (w_root w2) fn (whole_seconds t)) as [root2|e] eqn:UT.
    - destruct U as [(w4 & [] & U & V)|(e & U & ->)]; [|discriminate]. injection U as <-. unfold modify in V. injection V as <- _.
      apply utime_ok in UT. destruct UT as (d' & m & _ & L' & UT & _). rewrite L in L'. injection L' as <- <-.
      right. exists (File d (whole_seconds t)). split; [|apply P; eauto].
      change (leaf_at (w_root (if w_last (with_root root2 w2) <? t then with_last t (with_root root2 w2) else with_root root2 w2)) (resolve (e_cwd E) fn) = Some (File d (whole_seconds t))).
      assert (leaf_at root2 (resolve (e_cwd E) fn) = Some (File d (whole_seconds t))) as Z by (rewrite UT; destruct (path_eq_dec _ _); [reflexivity|congruence]).
      destruct (_ <? t); exact Z.
    - destruct U as [(w4 & [] & U & V)|(e' & U & ->)]; [discriminate|]. injection U as <- _. apply sop_refl. reflexivity. }
  destruct H as [(w3 & [] & S & H)|(e & S & ->)]; apply U in S; [|exact S]. apply (sop_trans _ _ _ _ _ _ _ S). clear U S.
  apply andthen_inv in H. destruct H as [(w4 & data & F & H)|(e & F & ->)]; injection F as <- F; [|apply sop_refl; reflexivity].
  apply sop_refl. apply andthen_inv in H.
  assert (forall y w5, match r_length r with
        | Some n => if n =? zlen data then ret tt else log (SizeDiffers (r_uri r) (zlen data) n)
        | None => ret tt
        end w3 = (w5, y) -> w_root w5 = w_root w3) as LL.
  { intros y w5. destruct (r_length r) as [n|]; [destruct (n =? _)|]; intros [= <- <-]; reflexivity. }
  destruct H as [(w5 & [] & S & H)|(e & S & ->)]; apply LL in S; [|exact S]. rewrite <- S. clear LL S.
  apply andthen_inv in H. destruct H as [(w6 & [] & C & H)|(e & C & ->)]; apply check_hashes_effect in C; [|apply C].
  injection H as <- <-. apply C.
Qed.
Lemma updating_part E c r fn w wk : (0 < c_tries c)%nat -> while_updating E c r fn w wk -> same_or_part E (r_uri r) (r_timestamp r) (resolve (e_cwd E) fn) w wk.
Proof.
  intros TR [wk' (ND & k & root & M & ->)|root wk' _ M D|wk' x U].
  - left. apply (make_dirs_leaf _ _ _ M).
  - apply (sop_trans _ _ _ _ _ (with_root root w)).
    + apply mkpath_ok in M. destruct M as (M & _). left. apply M.
    + apply (downloading_part _ _ _ _ _ _ D).
  - apply (update_part _ _ _ _ _ _ _ TR U).
Qed.
Lemma updating_dirs E c r fn w wk : while_updating E c r fn w wk -> dirs_by (dir_of (e_cwd E) fn) w wk.
Proof.
  assert (forall w wk, while_downloading E (r_uri r) fn w wk -> dirs_by (dir_of (e_cwd E) fn) w wk) as DL.
  { clear. induction 1 as [w|w d1 d2 root D W|w w1 wk A _ IH].
    - apply dirs_refl.
    - intros q Dq. apply write_file_ok in W. destruct W as (_ & _ & W & _). left. apply W, Dq.
    - apply (dirs_trans _ _ _ _ (attempt_dirs _ _ _ _ _ _ _ A) IH). }
  intros [wk' (ND & k & root & M & ->)|root wk' _ M D|wk' x U].
  - intros q Dq. apply (make_dirs_dir _ _ _ M) in Dq. destruct Dq as [Dq|(rest & Q)]; [auto|].
    right. split; [exact ND|]. exists (rest ++ skipn k (resolve (e_cwd E) (os_dirname fn))). rewrite <- resolve_denotes.
    rewrite app_assoc, <- Q, firstn_skipn. reflexivity.
  - apply (dirs_trans _ _ (with_root root w)); [|apply DL, D].
    intros q Dq. destruct (os_dirname fn) as [|ch d] eqn:N.
    + cbn in M. injection M as <-. auto.
    + apply mkpath_ok in M. destruct M as (_ & _ & M & _). apply M in Dq; [|discriminate]. destruct Dq as [Dq|(rest & Dq)]; [auto|].
      right. split; [rewrite N; discriminate|]. rewrite N, <- resolve_denotes. eauto.
  - apply (update_dirs _ _ _ _ _ _ _ U).
Qed.

(** ** Many transfers *)

Record touched (E : env) (c : client) (L : list resource) (w wk : world) : Prop := {
  tc_only : only_at (e_cwd E) (places E c L) w wk;
  tc_dirs : dirs_by (dirs_of E c L) w wk;
  tc_leaf : forall q, leaf_at (w_root wk) q = leaf_at (w_root w) q \/ leaf_at (w_root wk) q = None
    \/ exists r n, In r L /\ target E c r q /\ leaf_at (w_root wk) q = Some n /\ partly E (r_uri r) (r_timestamp r) n
}.
Lemma touched_refl E c L w : touched E c L w w.
Proof. split; [apply only_at_refl|apply dirs_refl|auto]. Qed.
Lemma touched_trans E c L a b d : touched E c L a b -> touched E c L b d -> touched E c L a d.
Proof.
  intros [A1 A2 A3] [B1 B2 B3]. split; [apply (only_at_trans _ _ _ _ _ A1 B1)|apply (dirs_trans _ _ _ _ A2 B2)|].
  intros q. destruct (B3 q) as [Q|[Q|Q]]; [rewrite Q; apply A3|auto|auto].
Qed.
Lemma touched_incl E c L L' w wk : incl L L' -> touched E c L w wk -> touched E c L' w wk.
Proof.
  intros I [A1 A2 A3]. split.
  - apply (only_at_mono _ (places E c L)); [|exact A1]. intros q (r & J & T). exists r. auto.
  - apply (dirs_mono (dirs_of E c L)); [|exact A2]. intros q. apply dirs_incl, I.
  - intros q. destruct (A3 q) as [Q|[Q|(r & n & J & R)]]; [auto|auto|]. right; right. exists r, n. auto.
Qed.
Lemma updating_touched E c r p w wk : (0 < c_tries c)%nat -> src_to_dst (c_mapper c) (r_uri r) = Ok p ->
  while_updating E c r p w wk -> touched E c [r] w wk.
Proof.
  intros TR S U. pose proof (updating_only _ _ _ _ _ _ U) as O. split.
  - apply (only_at_mono _ (is_at (resolve (e_cwd E) p))); [|exact O]. apply places_head, S.
  - apply (dirs_mono (dir_of (e_cwd E) p)); [|apply (updating_dirs _ _ _ _ _ _ U)]. apply dirs_head, S.
  - intros q. destruct (path_eq_dec q (resolve (e_cwd E) p)) as [->|N]; [|left; apply (oa_leaf _ _ _ _ O), N].
    destruct (updating_part _ _ _ _ _ _ TR U) as [Q|(n & Q & P)]; [auto|]. right; right. exists r, n. split; [left; reflexivity|].
    split; [apply target_resolve; eauto|auto].
Qed.
Lemma transferring_touched E c rs w wk : (0 < c_tries c)%nat -> while_transferring E c rs w wk -> touched E c rs w wk.
Proof.
  intros TR. induction 1 as [rs w|r rs p w wk S U|r rs w w1 n wk A _ IH].
  - apply touched_refl.
  - apply (touched_incl _ _ [r]); [intros x [<-|[]]; left; reflexivity|apply (updating_touched _ _ _ _ _ _ TR S U)].
  - apply (touched_trans _ _ _ _ w1); [|apply (touched_incl _ _ rs); [apply incl_tl, incl_refl|exact IH]].
    cbn [for_each] in A. apply andthen_inv in A. destruct A as [(w2 & p & S & A)|(e & S & Q)]; unfold lift in S; injection S as <- S; [|discriminate].
    apply andthen_inv in A. destruct A as [(w3 & m & U & A)|(e & U & Q)]; [|discriminate]. injection A as <- _.
    apply (touched_incl _ _ [r]); [intros x [<-|[]]; left; reflexivity|].
    apply (updating_touched _ _ _ p _ _ TR S). apply (up_end _ _ _ _ _ _ _ U).
Qed.
Lemma deleting_touched E c allow rs w wk : Forall file_name (e_cwd E) -> while_deleting E c allow rs w wk -> tree_ok (w_root w) -> touched E c rs w wk.
Proof.
  intros F. induction 1 as [rs w|r rs w w1 n wk A _ IH]; intros T.
  - apply touched_refl.
  - pose proof (for_each_delete _ _ _ _ _ _ _ T F A) as (O & _ & _ & _ & _ & L & _).
    apply (touched_trans _ _ _ _ w1); [|apply (touched_incl _ _ rs); [apply incl_tl, incl_refl|apply IH, (oa_tree _ _ _ _ O T F)]].
    apply (touched_incl _ _ [r]); [intros x [<-|[]]; left; reflexivity|]. split; [exact O|apply (deletes_dirs _ _ _ _ _ _ _ _ T F A)|].
    intros q. destruct (L q); auto.
Qed.
Lemma updates_touched E c rs w w' x : (0 < c_tries c)%nat -> for_each c (update_resource E c) rs w = (w', x) -> touched E c rs w w'.
Proof. intros TR H. apply (transferring_touched _ _ _ _ _ TR (transferring_end _ _ _ _ _ _ H)). Qed.

(** ** A baseline run touches what is listed and what is there *)

Lemma baseline_touched E c allow w wk s : (0 < c_tries c)%nat -> startable E c w s -> while_baseline E c allow w wk ->
  exists w0 L, w_root w0 = w_root w /\ (forall r, In r L -> below_base c (r_uri r)) /\ touched E c L w0 wk.
Proof.
  intros TR SB (src & dst & cmp & w0 & FR & [R0 S0] & G0 & H0 & SC & C & H). pose proof (st_places _ _ _ _ SB) as SY.
  destruct (sy_world _ _ _ SY) as (T & D & F). assert (tree_ok (w_root w0)) as T0 by (rewrite R0; exact T).
  exists w0, ((rl_iter (created cmp) ++ rl_iter (updated cmp)) ++ rl_iter (deleted cmp)). split; [exact R0|]. split.
  - assert (list_ok src) as [WS _] by (apply (find_resource_list_ok _ _ _ FR)).
    destruct (scan_is E c w0 dst T0 SC) as [WD SI].
    destruct (compare_parts _ _ _ WD WS C) as (_ & _ & _ & _ & IC & IU & ID & _).
    intros r I. apply in_app_iff in I. destruct I as [I|I].
    + apply (sy_listed _ _ _ SY). apply (find_listed E c src _ FR). apply in_app_iff in I.
      destruct I as [I|I]; [apply IC in I|apply IU in I]; destruct I; congruence.
    + apply ID in I. destruct I as [I _]. apply sget_in in I. apply SI in I. destruct I as (m' & rel & file & n & Im & FA & DS & _).
      apply in_map_iff in Im. destruct Im as (m & <- & Im). rewrite R0 in FA.
      apply (node_base E c w SY w _ n (sy_world _ _ _ SY) (proj1 (sy_names _ _ _ SY)) (sy_free _ _ _ SY)). exists m, rel, file. auto.
  - destruct H as [H|(w1 & n & U & H)].
    + apply (touched_incl _ _ (rl_iter (created cmp) ++ rl_iter (updated cmp))); [apply incl_appl, incl_refl|apply (transferring_touched _ _ _ _ _ TR H)].
    + pose proof (updates_touched _ _ _ _ _ _ TR U) as TU. apply (touched_trans _ _ _ _ w1).
      * apply (touched_incl _ _ (rl_iter (created cmp) ++ rl_iter (updated cmp))); [apply incl_appl, incl_refl|exact TU].
      * apply (touched_incl _ _ (rl_iter (deleted cmp))); [apply incl_appr, incl_refl|].
        apply (deleting_touched _ _ _ _ _ _ F H). apply (oa_tree _ _ _ _ (tc_only _ _ _ _ _ TU) T0 F).
Qed.

(** ** One can still start from what is left *)

Lemma startable_disk E c w w1 s : w_root w1 = w_root w -> startable E c w s -> startable E c w1 s.
Proof.
  intros R [[A B C D F] G H]. split; [split|..]; unfold world_ok, destinations_free, local_node in *; rewrite ?R; auto.
Qed.
Lemma startable_env E E' c w s : same_documents E E' -> startable E c w s -> startable E' c w s.
Proof.
  destruct E, E'. intros [Q1 Q2]. cbn in Q1, Q2. subst. intros [[A B C D F] G H]. split; [split; assumption|exact G|exact H].
Qed.

Lemma touched_places E c L w wk : synchronizable E c w -> (forall r, In r L -> below_base c (r_uri r)) ->
  touched E c L w wk -> synchronizable E c wk.
Proof.
  intros SY BB [O DR LF]. destruct (sy_world _ _ _ SY) as (T & D & F). destruct (sy_names _ _ _ SY) as [O1 O2].
  assert (forall u p, below_base c u -> src_to_dst (c_mapper c) u = Ok p -> one_line p) as OP.
  { intros u p B S. destruct (base_place E c w SY u B) as (m & rel & I & _ & _ & ON & _ & S' & _). rewrite S in S'. injection S' as ->.
    destruct (proj1 (proj1 (sy_apart _ _ _ SY)) m I) as (_ & _ & _ & O' & _). intros J. rewrite !in_app_iff in J.
    destruct J as [J|[J|J]]; [apply O', J|cbn in J; intuition discriminate|exact (rel_path_one_line _ ON J)]. }
  assert (world_ok E wk) as OK by (split; [apply (oa_tree _ _ _ _ O T F)|split; [apply (oa_dir _ _ _ _ O), D|exact F]]).
  assert (one_line_names (w_root wk)) as NM.
  { intros names n Lk. assert (leaf_at (w_root wk) names <> None \/ dir_at (w_root wk) names) as [Lf|Dr].
    { unfold leaf_at, dir_at. rewrite Lk. destruct n; eauto; left; discriminate. }
    - destruct (LF names) as [Q|[Q|(r & k & I & (p & S & ->) & _)]]; [|contradiction|].
      + rewrite Q in Lf. unfold leaf_at in Lf. destruct (lookup names (w_root w)) as [k|] eqn:K; [|congruence]. apply (O1 _ _ K).
      + apply one_line_denotes; [exact O2|]. apply (OP (r_uri r)); [apply BB, I|exact S].
    - apply DR in Dr. destruct Dr as [[es K]|(r & p & I & S & _ & rest & DN)]; [apply (O1 _ _ K)|].
      assert (Forall one_line (names ++ rest)) as Z.
      { rewrite <- DN. apply one_line_denotes; [exact O2|]. intros J. apply dirname_incl in J. exact (OP _ p (BB r I) S J). }
      apply Forall_app in Z. apply Z. }
  assert (destinations_free E c wk) as FR.
  { intros m I. destruct (sy_free _ _ _ SY m I) as [N Z]. split; [exact N|].
    destruct (LF (denotes (e_cwd E) (dst_path m))) as [Q|[Q|(r & k & J & P & _)]]; [congruence|exact Q|]. exfalso.
    destruct (base_place E c w SY _ (BB r J)) as (m' & rel & I' & NR & _ & _ & _ & S & _ & Dn). apply (place_of_is E c _ _ _ S) in P. rewrite Dn in P.
    assert (m = m') as <-.
    { apply (proj2 (sy_apart _ _ _ SY) m m' (denotes (e_cwd E) (dst_path m)) I I'); [exists []; now rewrite app_nil_r|exists rel; exact P]. }
    rewrite <- (app_nil_r (denotes (e_cwd E) (dst_path m))) in P at 1. apply app_inv_head in P. congruence. }
  split; [exact OK|split; assumption|apply SY|exact FR|apply SY].
Qed.
Lemma touched_startable E c L w wk s : steady E c s -> startable E c w s -> (forall r, In r L -> below_base c (r_uri r)) ->
  touched E c L w wk -> startable E c wk s.
Proof.
  intros SD SB BB TC. pose proof (st_places _ _ _ _ SB) as SY. pose proof (touched_places _ _ _ _ _ SY BB TC) as SK. destruct TC as [O DR LF].
  split; [exact SK| |].
  - intros u q n B P Lq. destruct (LF q) as [Q|[Q|(r & k & I & _ & Q & (j & d1 & d2 & t & _ & -> & _))]].
    + apply (st_files _ _ _ _ SB u q n B P). congruence.
    + congruence.
    + rewrite Lq in Q. injection Q as ->. unfold is_file; eauto.
  - intros u r n SE LN AG. destruct (node_base E c w SY wk u n (sy_world _ _ _ SK) (proj1 (sy_names _ _ _ SK)) (sy_free _ _ _ SK) LN) as (B & FN & q & P & Lq).
    destruct (LF q) as [Q|[Q|(r' & k & I & P' & Q & (j & d1 & d2 & t & DV & -> & _))]].
    + apply (st_right _ _ _ _ SB u r n SE); [|exact AG]. apply (base_node E c w SY w u q n B P); [congruence|exact FN].
    + congruence.
    + rewrite Lq in Q. injection Q as ->. assert (r_uri r' = u) as U by (apply (base_inj E c w SY _ _ q (BB r' I) B P' P)). rewrite U in DV.
      assert (exists rest, s u = Some (d1 ++ rest)) as (rest & SU).
      { destruct (e_get E j u) as [e|d|d e] eqn:G; cbn in DV; [discriminate| |]; injection DV as ->.
        - exists d2. apply (sd_content _ _ _ SD _ _ _ G).
        - destruct (sd_parts _ _ _ SD _ _ _ _ G) as (rest & SU). exists (d2 ++ rest). rewrite SU. now rewrite app_assoc. }
      pose proof (sd_lengths _ _ _ SD u r _ SE SU) as LE. destruct AG as [_ AG]. rewrite LE in AG. cbn in AG.
      assert (rest = []) as ->.
      { unfold zlen in AG. rewrite app_length in AG. destruct rest; [reflexivity|]; cbn [List.length data_of] in AG; specialize (AG _ _ eq_refl eq_refl); lia. }
      rewrite app_nil_r in SU. exists d1, t. auto.
Qed.

Lemma killed_startable E c allow w wk s : (0 < c_tries c)%nat -> steady E c s -> startable E c w s -> while_baseline E c allow w wk -> startable E c wk s.
Proof.
  intros TR SD SB K. destruct (baseline_touched _ _ _ _ _ _ TR SB K) as (w0 & L & R & BB & TC).
  apply (touched_startable E c L w0 wk s SD (startable_disk _ _ _ _ _ R SB) BB TC).
Qed.
Lemma ended_startable E c allow w w' x s : (0 < c_tries c)%nat -> steady E c s -> startable E c w s ->
  baseline_or_audit E c allow false w = (w', x) -> startable E c w' s.
Proof.
  intros TR SD SB H. destruct (baseline_end _ _ _ _ _ _ (sy_world _ _ _ (st_places _ _ _ _ SB)) H) as [R|(wk & K & R)].
  - apply (startable_disk _ _ w _ _ R SB).
  - apply (startable_disk _ _ wk _ _ R), (killed_startable _ _ _ _ _ _ TR SD SB K).
Qed.
Lemma repeated_startable E c s w w' : (0 < c_tries c)%nat -> repeated E c s w w' -> startable E c w s -> startable E c w' s.
Proof.
  intros TR. induction 1 as [w|w w1 w' R _ IH|w E1 allow w1 x w' SD ST H _ IH|w E1 allow w1 w' SD ST H _ IH]; intros SB; [exact SB|..]; apply IH.
  - apply (startable_disk _ _ _ _ _ R SB).
  - assert (same_documents E1 E) as SD' by (destruct SD; split; auto).
    apply (startable_env _ _ _ _ _ SD'). apply (startable_env _ _ _ _ _ SD) in SB. apply (ended_startable _ _ _ _ _ _ _ TR ST SB H).
  - assert (same_documents E1 E) as SD' by (destruct SD; split; auto).
    apply (startable_env _ _ _ _ _ SD'). apply (startable_env _ _ _ _ _ SD) in SB. apply (killed_startable _ _ _ _ _ _ TR ST SB H).
Qed.
Lemma repeated_copy E E' c s w w1 w' : in_earnest c -> startable E c w s -> repeated E c s w w1 -> same_documents E E' -> steady E' c s ->
  baseline_or_audit E' c true false w1 = (w', Ok tt) -> copy_of (e_cwd E) c w' s.
Proof.
  intros IE SB R SD ST H. assert (startable E' c w1 s) as [SY SF SR].
  { apply (startable_env _ _ _ _ _ SD). apply (repeated_startable E c s w w1); [apply IE|exact R|exact SB]. }
  replace (e_cwd E) with (e_cwd E') by apply SD.
  apply (baseline_copies E' c w1 w' s IE SY (sd_listed _ _ _ ST) (sd_content _ _ _ ST) SF SR H).
Qed.

(** * ClientStatus: the status lines *)

From Verif Require Import Py PyFacts Float64 Float64Facts W3C Url UrlAuthority PathSpec OsPath OsPathFacts Regex RegexFacts
  Mapper MapperSpec MapperFacts MapperFacts2 Resource ResourceSpec Container ContainerSpec ContainerFacts Capability Xml Sitemap Hashes ListIndex
  Disk DiskSpec DiskFacts DiskChange Builder BuilderSpec BuilderFacts ClientState ClientStateSpec ClientStateFacts
  Client ClientSpec ClientLists ClientFacts ClientRuns ClientInc ClientCompare ClientPlaces ClientProps ClientDownload ClientChanges
  ClientExamples ClientThms ClientSync ClientReport.
From Coq Require Import Permutation.

Lemma statuses_app a b : statuses (a ++ b) = statuses a ++ statuses b.
Proof. unfold statuses. rewrite map_app, concat_app. reflexivity. Qed.
Lemma quiet_statuses l : (forall s, ~ In (Logged s) l) -> statuses l = [].
Proof.
  induction l as [|ev l IH]; intros Q; [reflexivity|]. unfold statuses in *. cbn.
  rewrite IH by (intros s I; apply (Q s); right; exact I). destruct ev as [s| |]; [destruct (Q s); left; reflexivity|reflexivity|reflexivity].
Qed.

(** ** Transfers log no status *)

Lemma updates_statuses E c rs w w' x : for_each c (update_resource E c) rs w = (w', x) -> statuses (w_log w') = statuses (w_log w).
Proof.
  intros H. apply for_each_log in H. destruct H as (l & -> & _ & Q). rewrite statuses_app, (quiet_statuses l), app_nil_r; [reflexivity|].
  intros s I. destruct (Q _ I) as [(? & ? & ? & X)|(? & ? & _ & X & _)]; discriminate.
Qed.
Lemma transfers_statuses E c allow cmp w w' x : tree_ok (w_root w) -> Forall file_name (e_cwd E) ->
  transfers E c allow cmp w = (w', x) -> statuses (w_log w') = statuses (w_log w).
Proof.
  intros T F H. unfold transfers in H.
  apply andthen_inv in H. destruct H as [(w1 & nc & C & H)|(e & C & ->)]; [|apply (updates_statuses _ _ _ _ _ _ C)].
  pose proof (for_each_update _ _ _ _ _ _ C) as (O1 & _). pose proof (oa_tree _ _ _ _ O1 T F) as T1. apply updates_statuses in C. rewrite <- C.
  apply andthen_inv in H. destruct H as [(w2 & nu & U & H)|(e & U & ->)]; [|apply (updates_statuses _ _ _ _ _ _ U)].
  pose proof (for_each_update _ _ _ _ _ _ U) as (O2 & _). pose proof (oa_tree _ _ _ _ O2 T1 F) as T2. apply updates_statuses in U. rewrite <- U.
  apply andthen_inv in H. destruct H as [(w3 & nd & D & H)|(e & D & ->)].
  - injection H as <- _. apply for_each_delete in D; auto. destruct D as (_ & _ & _ & -> & _). reflexivity.
  - apply for_each_delete in D; auto. destruct D as (_ & _ & _ & -> & _). reflexivity.
Qed.
Lemma apply_changes_statuses E c allow rs : forall w w' x, tree_ok (w_root w) -> Forall file_name (e_cwd E) ->
  apply_changes E c allow rs w = (w', x) -> statuses (w_log w') = statuses (w_log w).
Proof.
  induction rs as [|r rs IH]; intros w w' x T F H.
  - injection H as <- <-. reflexivity.
  - apply apply_changes_cons in H. destruct H as [(e & S & -> & ->)|(p & S & [(_ & _ & -> & ->)|(w1 & y & O & H)])]; auto.
    assert (tree_ok (w_root w1)) as T1 by (pose proof (one_change _ _ _ _ _ _ _ _ T F O) as (O1 & _); apply (oa_tree _ _ _ _ O1 T F)).
    assert (statuses (w_log w1) = statuses (w_log w)) as <-.
    { destruct (is_update r).
      - apply update_log in O. destruct O as (l & -> & Q & _). rewrite statuses_app, (quiet_statuses l), app_nil_r; [reflexivity|].
        intros s I. destruct (Q _ I) as [(? & ? & X)|(? & X & _)]; discriminate.
      - destruct O as [_ O]. apply delete_effect in O; [|exact T]. destruct O as (_ & _ & _ & -> & _). reflexivity. }
    destruct H as [(e & -> & -> & ->)|(n & z & -> & A & H)]; [reflexivity|apply (IH _ _ _ T1 F A)].
Qed.

(** ** What is to be done *)

Lemma local_file_node E c w u : (exists file, local_file E c w file u) <-> exists n, local_node E c w u n.
Proof. split; [intros (file & m & rel & n & H)|intros (n & m & rel & file & H)]; [exists n, m, rel, file|exists file, m, rel, n]; exact H. Qed.

Lemma agree_clash (a b : option str) : clash str_eqb a b = false <-> agree a b.
Proof.
  unfold clash, agree. destruct a as [x|], b as [y|]; split; intros H; try reflexivity; try (intros; discriminate).
  - intros x' y' [= <-] [= <-]. apply negb_false_iff in H. now apply str_eqb_eq.
  - rewrite (H x y eq_refl eq_refl). rewrite str_eqb_refl. reflexivity.
Qed.
Lemma agree_clashZ (a b : option Z) : clash Z.eqb a b = false <-> agree a b.
Proof.
  unfold clash, agree. destruct a as [x|], b as [y|]; split; intros H; try reflexivity; try (intros; discriminate).
  - intros x' y' [= <-] [= <-]. apply negb_false_iff in H. now apply Z.eqb_eq.
  - rewrite (H x y eq_refl eq_refl), Z.eqb_refl. reflexivity.
Qed.
Lemma equal_agrees E src w u file n r : wf_rl src -> is_file n -> In (u, r) src ->
  (r_eqb (described (e_digests E) (w_hashes (pruned_world src w)) true false u file n) r = true <-> agrees r n).
Proof.
  intros W FN I. assert (r_uri r = u) as RU by (apply (proj2 W) in I; congruence).
  assert (forall name d, digest name r = Some d -> in_strs name (w_hashes (pruned_world src w)) = false) as NH.
  { intros name d D. apply in_strs_false. rewrite pruned_hashes. intros [_ N]. apply N. apply (rl_hashes_in _ _ W). exists u, r. split; [exact I|congruence]. }
  assert (forall name (f : resource -> option str) g, digest name r = f r ->
    clash str_eqb (if in_strs name (w_hashes (pruned_world src w)) then Some (g (data_of n)) else None) (f r) = false) as NC.
  { intros name f g D. destruct (f r) as [d|] eqn:FD; [|destruct (in_strs _ _); reflexivity]. rewrite (NH name d D). reflexivity. }
  assert (exists m, mtime_of n = Some m) as (m & MT) by (destruct FN as [(d & m & ->)|(m & ->)]; eexists; reflexivity).
  unfold r_eqb, equal, described. cbn [r_uri r_timestamp r_md5 r_sha1 r_sha256 r_length].
  rewrite (NC $"md5" r_md5 _ eq_refl), (NC $"sha-1" r_sha1 _ eq_refl), (NC $"sha-256" r_sha256 _ eq_refl).
  rewrite RU, str_eqb_refl, MT. cbn [negb]. fold (zlen (data_of n)). unfold agrees. rewrite MT.
  destruct (r_timestamp r) as [t|] eqn:TS.
  - destruct (Z.leb_spec SEC (Z.abs (fsub m t))) as [LE|LT].
    + split; [discriminate|]. intros [(t' & m' & [= <-] & [= <-] & L) _]. lia.
    + destruct (clash Z.eqb (Some (zlen (data_of n))) (r_length r)) eqn:CL.
      * split; [discriminate|]. intros [_ A]. assert (clash Z.eqb (Some (zlen (data_of n))) (r_length r) = false); [|congruence].
        apply agree_clashZ. intros x y X Y. symmetry. apply (A y x Y X).
      * split; [|reflexivity]. intros _. split; [exists t, m; auto|]. apply agree_clashZ in CL. intros x y X Y. symmetry. apply (CL y x Y X).
  - split; [discriminate|]. intros [(t & m' & X & _) _]. discriminate.
Qed.

Record work (E : env) (c : client) (w : world) (cmp : cmp_result) : Prop := {
  wk_created : forall u, to_create E c w u <-> In u (map r_uri (rl_iter (created cmp)));
  wk_updated : forall u, to_update E c w u <-> In u (map r_uri (rl_iter (updated cmp)));
  wk_deleted : forall u, to_delete E c w u <-> In u (map r_uri (rl_iter (deleted cmp)));
  wk_counts : counted (to_create E c w) (zlen (created cmp)) /\ counted (to_update E c w) (zlen (updated cmp)) /\ counted (to_delete E c w) (zlen (deleted cmp))
}.
Lemma counted_iter (P : str -> Prop) d : wf_rl d -> (forall u, P u <-> In u (map r_uri (rl_iter d))) -> counted P (zlen d).
Proof.
  intros W H. exists (map r_uri (rl_iter d)). split; [apply iter_uris, W|]. split; [intros u; symmetry; apply H|].
  rewrite <- (iter_len d W). unfold zlen. now rewrite map_length.
Qed.
Lemma compare_work E c w src dst cmp : tree_ok (w_root w) -> find_resource_list (e_fetch E) c = Ok src ->
  scan E c (pruned_world src w) = Ok dst -> compare 0 1 dst src = Ok cmp -> work E c w cmp.
Proof.
  intros T F S C. assert (list_ok src) as [WS _] by (apply (find_resource_list_ok _ _ _ F)).
  assert (w_root (pruned_world src w) = w_root w) as PR by (unfold pruned_world; destruct (w_hashes w); reflexivity).
  assert (tree_ok (w_root (pruned_world src w))) as TP by (rewrite PR; exact T).
  destruct (scan_is _ _ _ _ TP S) as [WD SI].
  assert (forall u, map_of dst u <> None <-> exists n, local_node E c w u n) as LOC.
  { intros u. rewrite (scan_local _ _ _ _ u TP S), <- local_file_node. split; intros (f & L); exists f; apply (local_root E c _ _ f u PR); exact L. }
  assert (forall u n, local_node E c w u n -> exists file, is_file n /\ In (u, described (e_digests E) (w_hashes (pruned_world src w)) true false u file n) dst) as LD.
  { intros u n (m & rel & file & I & FA & D). exists file. split; [apply FA|]. apply SI. exists (dst_path m), rel, file, n. rewrite PR.
    split; [now apply in_map|auto]. }
  assert (forall u r, In (u, r) dst -> exists file n, is_file n /\ local_node E c w u n /\ r = described (e_digests E) (w_hashes (pruned_world src w)) true false u file n) as DL.
  { intros u r I. apply SI in I. destruct I as (s & rel & file & n & I & FA & D & ->). rewrite PR in FA. apply in_map_iff in I. destruct I as (m & <- & I).
    exists file, n. split; [apply FA|]. split; [|reflexivity]. exists m, rel, file. auto. }
  destruct (compare_parts _ _ _ WD WS C) as (W1 & W2 & W3 & W4 & IC & IU & ID & ND & _).
  assert (forall u r, map_of src u = Some r -> r_uri r = u) as SU by (intros u r M; apply sget_in in M; apply (proj2 WS) in M; congruence).
  assert (forall u r, map_of dst u = Some r -> r_uri r = u) as DU by (intros u r M; apply sget_in in M; apply (proj2 WD) in M; congruence).
  assert (forall u, to_create E c w u <-> In u (map r_uri (rl_iter (created cmp)))) as K1.
  { intros u. unfold to_create. rewrite (find_listed E c src u F), <- LOC, in_map_iff. split.
    - intros [A B]. destruct (map_of src u) as [r|] eqn:MS; [|congruence]. exists r. split; [apply (SU _ _ MS)|]. apply IC.
      rewrite (SU _ _ MS). split; [exact MS|]. destruct (map_of dst u); [|reflexivity]. elim B. discriminate.
    - intros (r & <- & I). apply IC in I. destruct I as [A B]. split; [congruence|]. intros N. congruence. }
  assert (forall u, to_delete E c w u <-> In u (map r_uri (rl_iter (deleted cmp)))) as K3.
  { intros u. unfold to_delete. rewrite (find_listed E c src u F), <- LOC, in_map_iff. split.
    - intros [A B]. destruct (map_of dst u) as [r|] eqn:MD; [|congruence]. exists r. split; [apply (DU _ _ MD)|]. apply ID.
      rewrite (DU _ _ MD). split; [exact MD|]. destruct (map_of src u); [|reflexivity]. elim A. discriminate.
    - intros (r & <- & I). apply ID in I. destruct I as [A B]. split; [|congruence]. intros N. congruence. }
  assert (forall u, to_update E c w u <-> In u (map r_uri (rl_iter (updated cmp)))) as K2.
  { intros u. rewrite in_map_iff. split.
    - intros (r & n & (src' & F' & I) & L & NA). rewrite F in F'. injection F' as <-.
      pose proof (proj2 WS _ _ I) as RU. destruct (LD _ _ L) as (file & FN & J). exists r. split; [congruence|]. apply IU.
      rewrite RU. split; [apply in_sget; [apply WS|exact I]|].
      eexists. split; [apply in_sget; [apply WD|exact J]|]. apply not_true_iff_false. intros Q. apply NA.
      apply (equal_agrees E src w u file n r WS FN I), Q.
    - intros (r & <- & I). apply IU in I. destruct I as [A (d & B & Q)]. apply sget_in in A, B.
      destruct (DL _ _ B) as (file & n & FN & L & ->). exists r, n. split; [exists src; auto|]. split; [exact L|].
      intros AG. apply (equal_agrees E src w _ file n r WS FN A) in AG. congruence. }
  split; auto. split; [|split]; apply counted_iter; auto.
Qed.
Lemma work_none E c w cmp : work E c w cmp -> wf_rl (created cmp) -> wf_rl (updated cmp) -> wf_rl (deleted cmp) -> (differences cmp = 0 <-> in_sync E c w).
Proof.
  intros [K1 K2 K3 _] W1 W2 W3. unfold in_sync. unfold differences.
  rewrite <- (iter_len _ W1), <- (iter_len _ W2), <- (iter_len _ W3). unfold zlen. split.
  - intros H u. rewrite K1, K2, K3.
    destruct (rl_iter (created cmp)); [|cbn [List.length] in H; lia]. destruct (rl_iter (updated cmp)); [|cbn [List.length] in H; lia].
    destruct (rl_iter (deleted cmp)); [|cbn [List.length] in H; lia]. cbn. tauto.
  - intros H. destruct (rl_iter (created cmp)) as [|r l] eqn:Q1; [|exfalso; destruct (H (r_uri r)) as (A & _); apply A, K1; left; reflexivity].
    destruct (rl_iter (updated cmp)) as [|r l] eqn:Q2; [|exfalso; destruct (H (r_uri r)) as (_ & A & _); apply A, K2; left; reflexivity].
    destruct (rl_iter (deleted cmp)) as [|r l] eqn:Q3; [|exfalso; destruct (H (r_uri r)) as (_ & _ & A); apply A, K3; left; reflexivity].
    reflexivity.
Qed.

(** ** The deletions reported *)

Lemma deletes_count E c allow rs : forall w w' n, tree_ok (w_root w) -> Forall file_name (e_cwd E) ->
  for_each c (delete_resource E c allow) rs w = (w', Ok n) ->
  0 <= n <= zlen rs /\ (allow = false \/ c_dryrun c = true -> n = 0)
  /\ (n = zlen rs -> forall r, In r rs -> exists q, target E c r q /\ leaf_at (w_root w') q = None).
Proof.
  induction rs as [|r rs IH]; intros w w' n T F H.
  - injection H as <- <-. unfold zlen. cbn. split; [lia|]. split; [reflexivity|]. intros _ r [].
  - apply for_each_cons in H. destruct H as [(e & _ & _ & X)|(p & w1 & y & S & U & [(e & _ & _ & X)|(k & z & -> & H & [(e & _ & X)|(m & -> & [= ->])])])]; try discriminate.
    apply delete_effect in U; [|exact T]. destruct U as (O & _ & _ & _ & (k' & [= <-] & K & K0 & K1) & _).
    pose proof (oa_tree _ _ _ _ O T F) as T1. pose proof (for_each_delete _ _ _ _ _ _ _ T1 F H) as (_ & _ & _ & _ & _ & GONE & _).
    destruct (IH _ _ _ T1 F H) as (B & Z & A). unfold zlen in *. cbn [List.length]. split; [lia|]. split.
    + intros Q. specialize (Z Q). destruct K as [->|K]; [lia|]. destruct (K1 K) as (Q1 & Q2 & _). destruct Q; congruence.
    + intros Q r' [<-|I].
      * exists (resolve (e_cwd E) p). split; [apply target_resolve; eauto|].
        assert (k = 1) as Q1 by lia. destruct (K1 Q1) as (_ & _ & _ & L). destruct (GONE (resolve (e_cwd E) p)) as [G|G]; [exact G|congruence].
      * apply A; [lia|exact I].
Qed.
Lemma transfers_deletes E c allow cmp w w' nc nu nd : tree_ok (w_root w) -> Forall file_name (e_cwd E) ->
  transfers E c allow cmp w = (w', Ok (nc, nu, nd)) -> let de := rl_iter (deleted cmp) in
  0 <= nd <= zlen de /\ (allow = false \/ c_dryrun c = true -> nd = 0)
  /\ (nd = zlen de -> forall r, In r de -> exists q, target E c r q /\ leaf_at (w_root w') q = None).
Proof.
  intros T F H de. unfold transfers in H.
  apply andthen_inv in H. destruct H as [(w1 & mc & C & H)|(e & C & X)]; [|discriminate].
  pose proof (for_each_update _ _ _ _ _ _ C) as (O1 & _). pose proof (oa_tree _ _ _ _ O1 T F) as T1.
  apply andthen_inv in H. destruct H as [(w2 & mu & U & H)|(e & U & X)]; [|discriminate].
  pose proof (for_each_update _ _ _ _ _ _ U) as (O2 & _). pose proof (oa_tree _ _ _ _ O2 T1 F) as T2.
  apply andthen_inv in H. destruct H as [(w3 & md & D & H)|(e & D & X)]; [|discriminate]. injection H as <- <- <- <-.
  apply (deletes_count _ _ _ _ _ _ _ T2 F D).
Qed.

(** ** The status lines of a baseline *)

Lemma baseline_status E c allow audit w w' : world_ok E w -> baseline_or_audit E c allow audit w = (w', Ok tt) ->
  exists s, report E c w s /\
  (audit = true \/ in_sync E c w -> statuses (w_log w') = statuses (w_log w) ++ [s])
  /\ (audit = false -> ~ in_sync E c w -> exists s', statuses (w_log w') = statuses (w_log w) ++ [s; s'] /\ done_report E c allow w w' s').
Proof.
  intros OK H. apply baseline_inv in H. destruct H as [(e & X & _)|(src & dst & cmp & M & U & F & NE & S & C & H)]; [discriminate|].
  assert (tree_ok (w_root w)) as T by apply OK.
  pose proof (compare_work _ _ _ _ _ _ T F S C) as W.
  assert (list_ok src) as [WS _] by (apply (find_resource_list_ok _ _ _ F)).
  assert (w_root (pruned_world src w) = w_root w) as PR by (unfold pruned_world; destruct (w_hashes w); reflexivity).
  assert (tree_ok (w_root (pruned_world src w))) as TP by (rewrite PR; exact T).
  destruct (scan_is _ _ _ _ TP S) as [WD _].
  destruct (compare_parts _ _ _ WD WS C) as (W1 & W2 & W3 & W4 & IC & IU & ID & ND & _).
  pose proof (work_none _ _ _ _ W W4 W2 W3) as WN.
  set (s := status_of (differences cmp =? 0) false true (Some (zlen (same cmp))) (zlen (created cmp)) (zlen (updated cmp)) (zlen (deleted cmp)) 0).
  assert (w_log (after_report src cmp w) = w_log w ++ [Logged s]) as L0 by (unfold after_report; destruct (w_hashes w); reflexivity).
  pose proof (after_report_same src cmp w) as [(R0 & _) _].
  exists s. split.
  { unfold report. destruct W as [_ _ _ (A & B & D)]. subst s. unfold status_of.
    destruct (Z.eqb_spec (differences cmp) 0) as [Q|Q]; cbn [st_word st_created st_updated st_deleted];
      (split; [|split; [|auto]]); rewrite <- WN; (split; intros X; [try discriminate X|]); try exact Q; try contradiction; try reflexivity; try lia. }
  assert (statuses (w_log (after_report src cmp w)) = statuses (w_log w) ++ [s]) as ST by (rewrite L0, statuses_app; reflexivity).
  set (w0 := after_report src cmp w) in *. clearbody w0.
  destruct (Z.eqb_spec (differences cmp) 0) as [Q|Q].
  { rewrite orb_true_r in H. destruct H as [-> _]. split; [auto|]. intros _ NS. elim NS. now apply WN. }
  rewrite orb_false_r in H. destruct audit.
  { destruct H as [-> _]. split; [auto|discriminate]. }
  split; [intros [X|X]; [discriminate|elim Q; now apply WN]|]. intros _ _.
  apply synchronize_inv in H. destruct H as [(e & _ & _ & X)|(_ & [(e & _ & X)|(w1 & nc & nu & nd & H & [(e & _ & X)|(w2 & St & Lg)])])]; try discriminate.
  assert (tree_ok (w_root (with_last 0 w0))) as T0 by (cbn; rewrite R0; exact T).
  pose proof (transfers_statuses _ _ _ _ _ _ _ T0 (proj2 (proj2 OK)) H) as TS. cbn [w_log with_last] in TS.
  pose proof (transfers_deletes _ _ _ _ _ _ _ _ _ T0 (proj2 (proj2 OK)) H) as (D1 & D2 & D3).
  apply transfers_effect in H; [|exact T0|apply OK]. destruct H as (O & _ & _ & _ & _ & _ & _ & TE).
  apply store_if_any_effect in St. destruct St as (S1 & _ & S3 & _ & S4 & _). rewrite log_status_is in Lg. injection Lg as <-.
  eexists. split; [cbn [w_log with_log]; unfold logged; cbn [w_log with_log]; rewrite S3, statuses_app, TS, ST, <- app_assoc; reflexivity|].
  rewrite (proj2 (Z.eqb_neq _ _) Q). unfold done_report. cbn [w_root with_log logged]. rewrite S1.
  destruct W as [K1 K2 K3 (A & B & D)]. rewrite (iter_len _ W3) in D1, D3. unfold status_of.
  assert (forall u, to_delete E c w u -> nd = zlen (deleted cmp) -> exists q, place_of E c u q /\ leaf_at (w_root w1) q = None) as GONE.
  { intros u TD X. apply K3 in TD. apply in_map_iff in TD. destruct TD as (r & <- & I). apply (D3 X r I). }
  assert (zlen (deleted cmp) = 0 <-> forall u, ~ to_delete E c w u) as ZD.
  { rewrite <- (iter_len _ W3). unfold zlen. split.
    - intros X u. rewrite K3. destruct (rl_iter (deleted cmp)); [cbn; tauto|cbn [List.length] in X; lia].
    - intros X. destruct (rl_iter (deleted cmp)) as [|r l] eqn:RD; [reflexivity|]. exfalso. apply (X (r_uri r)), K3. left. reflexivity. }
  assert (c_dryrun c = false -> c_ignore_failures c = false -> (0 < c_tries c)%nat -> nc = zlen (created cmp) /\ nu = zlen (updated cmp)) as NN.
  { intros Q1 Q2 Q3. destruct (TE _ _ _ eq_refl Q1 Q2 Q3 ND) as (-> & -> & _). rewrite !iter_len by assumption. auto. }
  destruct (Z.ltb_spec nd (zlen (deleted cmp))) as [LT|LE]; cbn [st_word st_created st_updated st_deleted].
  - split; [auto|]. split; [exact D|]. split; [discriminate|]. split.
    + intros X. rewrite <- ZD. split; [discriminate|]. intros Y. specialize (D2 X). lia.
    + intros Q1 Q2 Q3. destruct (NN Q1 Q2 Q3) as [-> ->]. auto.
  - assert (nd = zlen (deleted cmp)) as EQ by lia. split; [auto|]. split; [rewrite EQ; exact D|]. split; [intros _ u TD; apply (GONE u TD EQ)|]. split.
    + intros X. rewrite <- ZD. specialize (D2 X). split; [intros _; lia|reflexivity].
    + intros Q1 Q2 Q3. destruct (NN Q1 Q2 Q3) as [-> ->]. auto.
Qed.

(** ** The status lines of an incremental synchronization *)

Lemma incremental_status E c allow clu from_dt w w' : world_ok E w -> incremental E c allow clu from_dt w = (w', Ok tt) ->
  exists from uri changes s, started_from E c from_dt w from /\ changes_read E c clu uri changes
  /\ (st_word s = $"NO CHANGES" <-> forall r, ~ due c from changes r) /\ (st_word s = $"CHANGES APPLIED" <-> exists r, due c from changes r)
  /\ ((forall r, due c from changes r -> allow = false /\ r_change r = Some $"deleted") -> statuses (w_log w') = statuses (w_log w) ++ [s] /\ no_effect w w')
  /\ ((exists r, due c from changes r /\ (allow = true \/ r_change r <> Some $"deleted")) ->
      exists s', statuses (w_log w') = statuses (w_log w) ++ [s; s'] /\ st_word s' = $"NO CHANGES").
Proof.
  intros OK H. apply incremental_stages in H. destruct H as [e X N L|from uri changes todo last M U HW SF CR LT CT CC TD ND SS KN H]; [discriminate|].
  exists from, uri, changes, (first_status todo). split; [exact SF|]. split; [exact CR|].
  assert (nothing_to_do todo = true <-> todo = []) as NT.
  { split; [intros Z; apply nothing_none; auto|intros ->; reflexivity]. }
  assert (nothing_to_do todo = true <-> forall r, ~ due c from changes r) as NT1.
  { rewrite NT. split; [intros Z r D; apply TD in D; subst; destruct D|]. intros Z. destruct todo as [|r l]; [reflexivity|]. elim (Z r). apply TD. left. reflexivity. }
  assert (nothing_to_do todo = false <-> exists r, due c from changes r) as NT2.
  { rewrite <- not_true_iff_false, NT. split.
    - intros Z. destruct todo as [|r l]; [congruence|]. exists r. apply TD. left. reflexivity.
    - intros (r & D) ->. apply TD in D. destruct D. }
  split; [|split].
  - rewrite <- NT1. unfold first_status, status_of. destruct (nothing_to_do todo); cbn [st_word]; [split; reflexivity|].
    pose proof (count_nonneg $"deleted" todo). destruct (Z.ltb_spec (count_changes $"deleted" todo) 0); [lia|]. split; discriminate.
  - rewrite <- NT2. unfold first_status, status_of. destruct (nothing_to_do todo); cbn [st_word]; [split; discriminate|].
    pose proof (count_nonneg $"deleted" todo). destruct (Z.ltb_spec (count_changes $"deleted" todo) 0); [lia|]. split; reflexivity.
  - assert (nothing_to_do todo || only_deletions todo && negb allow = true <-> forall r, due c from changes r -> allow = false /\ r_change r = Some $"deleted") as EX.
    { rewrite orb_true_iff, andb_true_iff, negb_true_iff, NT1. unfold only_deletions. rewrite Z.eqb_eq. split.
      - intros [Z|[Z A]] r D; [destruct (Z r D)|]. split; [exact A|]. apply TD in D. pose proof (no_changes _ Z r D) as NU. specialize (KN r D).
        apply known_change_iff in KN. destruct KN as [K|[K|K]]; [| |exact K]; exfalso; assert (is_update r = true) by (apply is_update_iff; tauto); congruence.
      - intros Z. destruct allow; [left; intros r D; destruct (Z r D); discriminate|]. right. split; [|reflexivity].
        assert (forall n, n <> $"deleted" -> count_changes n todo = 0) as CZ.
        { intros n NE. unfold count_changes, zlen. replace (filter (change_is n) todo) with (@nil resource); [reflexivity|].
          symmetry. destruct (filter (change_is n) todo) as [|r t] eqn:FE; [reflexivity|].
          assert (In r (filter (change_is n) todo)) as J by (rewrite FE; left; reflexivity). apply filter_In in J. destruct J as [J K].
          apply change_is_iff in K. apply TD in J. destruct (Z r J) as [_ Q]. congruence. }
        rewrite !CZ by discriminate. reflexivity. }
    destruct (nothing_to_do todo || only_deletions todo && negb allow).
    + destruct H as [-> _]. split.
      * intros _. split; [unfold logged; cbn [w_log with_log with_last]; rewrite statuses_app; reflexivity|repeat split].
      * intros (r & D & Q). destruct (proj1 EX eq_refl r D) as [A B]. destruct Q; congruence.
    + split; [intros Z; apply EX in Z; discriminate|]. intros _.
      destruct H as (w1 & y & A & [(e & _ & _ & X)|(nc & nu & nd & -> & St)]); [discriminate|].
      set (w0 := logged (first_status todo) (with_last last w)) in *.
      assert (tree_ok (w_root w0)) as T0 by apply OK.
      pose proof (apply_changes_statuses _ _ _ _ _ _ _ T0 (proj2 (proj2 OK)) A) as TS.
      apply store_if_any_effect in St. destruct St as (_ & _ & S3 & _).
      eexists. rewrite S3. unfold logged at 1. cbn [w_log with_log]. rewrite statuses_app, TS. subst w0. unfold logged at 1. cbn [w_log with_log with_last].
      rewrite statuses_app, <- app_assoc. split; reflexivity.
Qed.

(** * ClientReport: what synchronization reports *)

From Verif Require Import Py PyFacts Float64 Float64Facts W3C Url UrlAuthority PathSpec OsPath OsPathFacts Regex RegexFacts
  Mapper MapperSpec MapperFacts MapperFacts2 Resource ResourceSpec Container ContainerSpec ContainerFacts Capability Xml Sitemap Hashes ListIndex
  Disk DiskSpec DiskFacts DiskChange Builder BuilderSpec BuilderFacts ClientState ClientStateSpec ClientStateFacts
  Client ClientSpec ClientLists ClientFacts ClientRuns ClientInc ClientCompare ClientPlaces ClientProps ClientDownload ClientChanges
  ClientExamples ClientThms ClientSync.
From Coq Require Import Permutation.

(** ** Digests that are not used *)

Lemma discard_all_in hs : forall own h, In h (discard_all hs own) <-> In h own /\ ~ In h hs.
Proof.
  induction hs as [|x hs IH]; intros own h; cbn [discard_all In]; [tauto|]. rewrite IH, filter_In, negb_true_iff.
  assert (str_eqb h x = false <-> x <> h) as -> by (destruct (str_eqb_spec h x); split; congruence). tauto.
Qed.
Lemma rl_hashes_in src h : wf_rl src -> (In h (rl_hashes src) <-> exists u r, In (u, r) src /\ digest h r <> None).
Proof.
  intros W. pose proof (rl_iter_perm src W) as P.
  assert (forall f, existsb (fun r => match f r with Some _ => true | None => false end) (rl_iter src) = true
    <-> exists u (r : resource), In (u, r) src /\ f r <> (None : option str)) as EX.
  { intros f. rewrite existsb_exists. split.
    - intros (r & I & B). apply (Permutation_in _ P) in I. apply in_map_iff in I. destruct I as ([u r'] & <- & I).
      exists u, r'. split; [exact I|]. cbn in B. destruct (f r'); [discriminate|discriminate B].
    - intros (u & r & I & N). exists r. split; [|destruct (f r); [reflexivity|congruence]].
      apply (Permutation_in _ (Permutation_sym P)). apply in_map_iff. exists (u, r). auto. }
  unfold rl_hashes. rewrite !in_app_iff.
  assert (forall f n, In h (if existsb (fun r => match f r with Some _ => true | None => false end) (rl_iter src) then [n] else [])
    <-> h = n /\ exists u (r : resource), In (u, r) src /\ f r <> (None : option str)) as ONE.
  { intros f n. rewrite <- EX. destruct (existsb _ _); cbn; split; try tauto; [intros [<-|[]]; auto|intros [-> _]; auto|intros [_ ?]; discriminate]. }
  rewrite !ONE. unfold digest. split.
  - intros [[-> (u & r & I & N)]|[[-> (u & r & I & N)]|[-> (u & r & I & N)]]]; exists u, r; auto.
  - intros (u & r & I & N). destruct (str_eqb_spec h $"md5"); [left; eauto|].
    destruct (str_eqb_spec h $"sha-1"); [right; left; eauto|]. destruct (str_eqb_spec h $"sha-256"); [right; right; eauto|congruence].
Qed.

Lemma pruned_hashes src w h : In h (w_hashes (pruned_world src w)) <-> In h (w_hashes w) /\ ~ In h (rl_hashes src).
Proof.
  unfold pruned_world. destruct (w_hashes w) as [|x hs] eqn:HW; [rewrite HW; cbn; tauto|]. cbn [w_hashes with_hashes prune_hashes].
  apply discard_all_in.
Qed.

(** ** Reports of a transfer *)

Lemma check_hashes_log E data r w : exists l, check_hashes E data r w = (with_log (w_log w ++ l) w, Ok tt)
  /\ (forall ev, In ev l -> exists n, ev = HashDiffers n (r_uri r))
  /\ forall n, In (HashDiffers n (r_uri r)) l <-> In n (w_hashes w) /\ exists x, digest n r = Some x /\ x <> digest_function (e_digests E) n data.
Proof.
  unfold check_hashes. eexists. split; [reflexivity|].
  assert (forall name (expected : option str) f ev,
    In ev (match expected with
      | Some x => if in_strs name (w_hashes w) && negb (str_eqb x (f data)) then [HashDiffers name (r_uri r)] else []
      | None => []
      end) <-> ev = HashDiffers name (r_uri r) /\ In name (w_hashes w) /\ exists x, expected = Some x /\ x <> f data) as ONE.
  { intros name expected f ev. destruct expected as [x|]; [|cbn; split; [tauto|intros (_ & _ & x & N & _); discriminate]].
    destruct (in_strs name (w_hashes w)) eqn:I; cbn [andb].
    - apply in_strs_In in I. destruct (str_eqb_spec x (f data)); cbn [negb In].
      + split; [tauto|]. intros (_ & _ & y & [= <-] & N). contradiction.
      + split; [intros [<-|[]]; eauto|]. intros (-> & _). auto.
    - cbn. split; [tauto|]. intros (_ & J & _). apply in_strs_In in J. congruence. }
  split.
  - intros ev. rewrite !in_app_iff, !ONE. intros [(-> & _)|[(-> & _)|(-> & _)]]; eauto.
  - intros n. rewrite !in_app_iff, !ONE. unfold digest, digest_function. split.
    + intros [(Q & I & X)|[(Q & I & X)|(Q & I & X)]]; injection Q as ->; split; auto.
    + intros (I & X). destruct (str_eqb_spec n $"md5") as [->|]; [left; auto|].
      destruct (str_eqb_spec n $"sha-1") as [->|]; [right; left; auto|].
      destruct (str_eqb_spec n $"sha-256") as [->|]; [right; right; auto|]. destruct X as (x & N & _). discriminate.
Qed.

Lemma update_log E c r fn w w' x : update_resource E c r fn w = (w', x) ->
  exists l, w_log w' = w_log w ++ l
  /\ (forall ev, In ev l -> (exists a b, ev = SizeDiffers (r_uri r) a b) \/ exists n, ev = HashDiffers n (r_uri r) /\ In n (w_hashes w) /\ digest n r <> None)
  /\ (x = Ok 1 -> exists d t, means_dir fn = false /\ leaf_at (w_root w') (resolve (e_cwd E) fn) = Some (File d t)
      /\ (forall a b, In (SizeDiffers (r_uri r) a b) l <-> r_length r = Some b /\ a = zlen d /\ a <> b)
      /\ (forall n, In (HashDiffers n (r_uri r)) l <-> In n (w_hashes w) /\ exists y, digest n r = Some y /\ y <> digest_function (e_digests E) n d)).
Proof.
  unfold update_resource. unfold andthen at 1.
  destruct (mkpath (e_cwd E) (w_root w) (os_dirname fn)) as [root1|e].
  2:{ intros [= <- <-]. exists []. rewrite app_nil_r. split; [reflexivity|]. split; [intros ev []|discriminate]. }
  destruct (c_dryrun c).
  { intros [= <- <-]. exists []. rewrite app_nil_r. split; [reflexivity|]. split; [intros ev []|discriminate]. }
  unfold andthen at 1. destruct (download E c (c_tries c) (r_uri r) fn (with_root root1 w)) as [w1 g] eqn:DL.
  apply download_effect in DL. destruct DL as (D1 & _ & _ & D4 & _ & D6 & _).
  pose proof (oa_hashes _ _ _ _ D1) as H1. cbn [w_log w_hashes with_root] in *.
  destruct g as [[b|]|e].
  2,3: (intros [= <- <-]; exists []; rewrite app_nil_r; split; [exact D4|]; split; [intros ev []|discriminate]).
  match goal with |- (?st ;;; _) w1 = _ -> _ => set (stamp := st) end.
  unfold andthen at 1. destruct (stamp w1) as [w2 y] eqn:ST.
  assert (w_log w2 = w_log w1 /\ w_hashes w2 = w_hashes w1) as (L2 & H2).
  { subst stamp. destruct (r_timestamp r) as [t|]; [|injection ST as <- <-; auto].
    unfold andthen, modify in ST. destruct (utime (e_cwd E) (w_root w1) fn (whole_seconds t)) as [root2|e]; injection ST as <- <-; [|auto].
    cbn. destruct (_ <? t); auto. }
  destruct y as [[]|e].
  2:{ intros [= <- <-]. exists []. rewrite app_nil_r. split; [congruence|]. split; [intros ev []|discriminate]. }
  unfold andthen at 1. destruct (file_data E w2 fn) as [data|e] eqn:FD.
  2:{ intros [= <- <-]. exists []. rewrite app_nil_r. split; [congruence|]. split; [intros ev []|discriminate]. }
  match goal with |- (?st ;;; _) w2 = _ -> _ => set (size := st) end.
  unfold andthen at 1. destruct (size w2) as [w3 y] eqn:SZ.
  assert (exists l1, w_log w3 = w_log w2 ++ l1 /\ w_root w3 = w_root w2 /\ w_hashes w3 = w_hashes w2 /\ y = Ok tt
    /\ (forall ev, In ev l1 <-> exists n, r_length r = Some n /\ n <> zlen data /\ ev = SizeDiffers (r_uri r) (zlen data) n)) as (l1 & L3 & R3 & H3 & -> & S1).
  { subst size. destruct (r_length r) as [n|].
    - destruct (Z.eqb_spec n (zlen data)); injection SZ as <- <-.
      + exists []. rewrite app_nil_r. repeat (split; [reflexivity|]). intros ev. split; [intros []|]. intros (m & [= <-] & N & _). contradiction.
      + exists [SizeDiffers (r_uri r) (zlen data) n]. repeat (split; [reflexivity|]). intros ev. split; [intros [<-|[]]; eauto|].
        intros (m & [= <-] & _ & ->). left. reflexivity.
    - injection SZ as <- <-. exists []. rewrite app_nil_r. repeat (split; [reflexivity|]). intros ev. split; [intros []|]. intros (m & X & _). discriminate. }
  unfold andthen at 1. destruct (check_hashes_log E data r w3) as (l2 & -> & HD & HI). intros [= <- <-].
  exists (l1 ++ l2). cbn [w_log with_log w_root]. split; [rewrite L3, L2, D4, app_assoc; reflexivity|]. rewrite H3, H2, H1 in HI. split.
  - intros ev I. apply in_app_iff in I. destruct I as [I|I].
    + apply S1 in I. destruct I as (n & _ & _ & ->). left. eauto.
    + right. destruct (HD ev I) as (n & ->). exists n. split; [reflexivity|]. apply HI in I. destruct I as (I & x & X & _).
      split; [exact I|congruence].
  - intros X. destruct b; [|discriminate]. destruct (D6 eq_refl) as (k & d0 & _ & _ & M & L).
    assert (exists t, leaf_at (w_root w3) (resolve (e_cwd E) fn) = Some (File data t)) as (t & LF).
    { rewrite R3. unfold file_data in FD. destruct (lstat (e_cwd E) (w_root w2) fn) as [n|] eqn:LS; [|discriminate].
      destruct n as [d t| | |]; try discriminate. injection FD as ->. exists t.
      assert (fn <> []) as N by (intros ->; discriminate).
      apply (proj1 (lstat_leaf_iff _ _ fn (File data t) N M ltac:(constructor)) LS). }
    exists data, t. split; [exact M|]. split; [exact LF|]. split.
    + intros a bb. rewrite in_app_iff, S1. split.
      * intros [(n & A & B & C)|I]; [injection C as -> ->; split; [exact A|]; split; [reflexivity|congruence]|].
        destruct (HD _ I) as (n & C). discriminate.
      * intros (A & -> & B). left. exists bb. split; [exact A|]. split; [congruence|reflexivity].
    + intros n. rewrite in_app_iff, HI. split; [|tauto]. intros [I|I]; [|exact I]. apply S1 in I. destruct I as (m & _ & _ & C). discriminate.
Qed.

(** ** Wrong digests are never reported by a baseline *)

Lemma for_each_cons c f r rs w w' x : for_each c f (r :: rs) w = (w', x) ->
  (exists e, src_to_dst (c_mapper c) (r_uri r) = Err e /\ w' = w /\ x = Err e) \/
  exists p w1 y, src_to_dst (c_mapper c) (r_uri r) = Ok p /\ f r p w = (w1, y) /\
    ((exists e, y = Err e /\ w' = w1 /\ x = Err e) \/
     exists n z, y = Ok n /\ for_each c f rs w1 = (w', z) /\ ((exists e, z = Err e /\ x = Err e) \/ exists m, z = Ok m /\ x = Ok (n + m))).
Proof.
  cbn [for_each]. intros H. apply andthen_inv in H. destruct H as [(w1 & p & S & H)|(e & S & ->)]; unfold lift in S; injection S as <- S; [right|left; eauto].
  apply andthen_inv in H. destruct H as [(w1 & n & F & H)|(e & F & ->)].
  - exists p, w1, (Ok n). split; [exact S|]. split; [exact F|]. right.
    apply andthen_inv in H. destruct H as [(w2 & m & G & H)|(e & G & ->)].
    + injection H as <- <-. exists n, (Ok m). split; [reflexivity|]. split; [exact G|]. right. eauto.
    + exists n, (Err e). split; [reflexivity|]. split; [exact G|]. left. eauto.
  - exists p, w', (Err e). split; [exact S|]. split; [exact F|]. left. eauto.
Qed.
Lemma for_each_log E c rs : forall w w' x, for_each c (update_resource E c) rs w = (w', x) ->
  exists l, w_log w' = w_log w ++ l /\ w_hashes w' = w_hashes w
  /\ forall ev, In ev l -> (exists u a b, ev = SizeDiffers u a b) \/ exists r n, In r rs /\ ev = HashDiffers n (r_uri r) /\ In n (w_hashes w) /\ digest n r <> None.
Proof.
  induction rs as [|r rs IH]; intros w w' x H.
  - injection H as <- <-. exists []. rewrite app_nil_r. repeat (split; [reflexivity|]). intros ev [].
  - apply for_each_cons in H. destruct H as [(e & _ & -> & _)|(p & w1 & y & S & U & H)].
    { exists []. rewrite app_nil_r. repeat (split; [reflexivity|]). intros ev []. }
    pose proof (update_effect _ _ _ _ _ _ _ U) as (O & _). pose proof (oa_hashes _ _ _ _ O) as H1.
    apply update_log in U. destruct U as (l1 & L1 & K1 & _).
    assert (exists l2, w_log w' = w_log w1 ++ l2 /\ w_hashes w' = w_hashes w1
      /\ forall ev, In ev l2 -> (exists u a b, ev = SizeDiffers u a b) \/ exists r n, In r rs /\ ev = HashDiffers n (r_uri r) /\ In n (w_hashes w1) /\ digest n r <> None)
      as (l2 & L2 & H2 & K2).
    { destruct H as [(e & _ & -> & _)|(n & z & _ & F & _)]; [|apply (IH _ _ _ F)].
      exists []. rewrite app_nil_r. repeat (split; [reflexivity|]). intros ev []. }
    exists (l1 ++ l2). split; [rewrite L2, L1, app_assoc; reflexivity|]. split; [congruence|].
    intros ev I. apply in_app_iff in I. destruct I as [I|I].
    + destruct (K1 ev I) as [(a & b & ->)|(n & -> & I1 & I2)]; [left; eauto|]. right. exists r, n. split; [left; reflexivity|auto].
    + destruct (K2 ev I) as [X|(r' & n & I1 & -> & I2 & I3)]; [left; exact X|]. right. exists r', n. rewrite H1 in I2. split; [right; exact I1|auto].
Qed.

Definition no_digest_report (l : list event) : Prop := forall n u, ~ In (HashDiffers n u) l.
Lemma transfers_log E c allow cmp w w' x : tree_ok (w_root w) -> Forall file_name (e_cwd E) ->
  (forall r n, In r (rl_iter (created cmp) ++ rl_iter (updated cmp)) -> In n (w_hashes w) -> digest n r = None) ->
  transfers E c allow cmp w = (w', x) -> exists l, w_log w' = w_log w ++ l /\ no_digest_report l.
Proof.
  intros T F N H. unfold transfers in H.
  assert (forall rs w w' x, (forall r n, In r rs -> In n (w_hashes w) -> digest n r = None) -> for_each c (update_resource E c) rs w = (w', x) ->
    exists l, w_log w' = w_log w ++ l /\ no_digest_report l /\ w_hashes w' = w_hashes w) as FE.
  { intros rs v v' y K U. apply for_each_log in U. destruct U as (l & L & HH & Q). exists l. split; [exact L|]. split; [|exact HH].
    intros n u I. destruct (Q _ I) as [(? & ? & ? & X)|(r & m & I1 & _ & I2 & I3)]; [discriminate|]. apply I3. apply K; auto. }
  apply andthen_inv in H. destruct H as [(w1 & nc & C & H)|(e & C & ->)].
  2:{ apply FE in C; [|intros r n I; apply N, in_app_iff; auto]. destruct C as (l & A & B & _). eauto. }
  pose proof (for_each_update _ _ _ _ _ _ C) as (O1 & _). pose proof (oa_tree _ _ _ _ O1 T F) as T1.
  apply FE in C; [|intros r n I; apply N, in_app_iff; auto]. destruct C as (l1 & A1 & B1 & H1).
  apply andthen_inv in H. destruct H as [(w2 & nu & U & H)|(e & U & ->)].
  2:{ apply FE in U; [|intros r n I; rewrite H1; apply N, in_app_iff; auto]. destruct U as (l & A & B & _).
      exists (l1 ++ l). split; [rewrite A, A1, app_assoc; reflexivity|]. intros n u I. apply in_app_iff in I. destruct I as [I|I]; [apply B1 in I|apply B in I]; exact I. }
  pose proof (for_each_update _ _ _ _ _ _ U) as (O2 & _). pose proof (oa_tree _ _ _ _ O2 T1 F) as T2.
  apply FE in U; [|intros r n I; rewrite H1; apply N, in_app_iff; auto]. destruct U as (l2 & A2 & B2 & H2).
  assert (w_log w' = w_log w2) as LW.
  { apply andthen_inv in H. destruct H as [(w3 & nd & D & H)|(e & D & ->)].
    - injection H as <- _. apply for_each_delete in D; auto. destruct D as (_ & _ & _ & D & _). exact D.
    - apply for_each_delete in D; auto. destruct D as (_ & _ & _ & D & _). exact D. }
  exists (l1 ++ l2). split; [rewrite LW, A2, A1, app_assoc; reflexivity|]. intros n u I. apply in_app_iff in I. destruct I as [I|I]; [apply B1 in I|apply B2 in I]; exact I.
Qed.

Lemma baseline_digests E c allow audit w w' x : world_ok E w -> baseline_or_audit E c allow audit w = (w', x) ->
  exists l, w_log w' = w_log w ++ l /\ no_digest_report l.
Proof.
  intros OK H. apply baseline_inv in H. destruct H as [(e & _ & _ & L & _)|(src & dst & cmp & M & U & F & NE & S & C & H)].
  { exists []. rewrite app_nil_r. split; [exact L|]. intros n u []. }
  assert (list_ok src) as [WS _] by (apply (find_resource_list_ok _ _ _ F)).
  assert (w_root (pruned_world src w) = w_root w) as PR by (unfold pruned_world; destruct (w_hashes w); reflexivity).
  assert (tree_ok (w_root (pruned_world src w))) as TP by (rewrite PR; apply OK).
  destruct (scan_is _ _ _ _ TP S) as [WD _].
  assert (exists s, w_log (after_report src cmp w) = w_log w ++ [Logged s]) as (s & L0) by (unfold after_report; destruct (w_hashes w); eexists; reflexivity).
  assert (w_hashes (after_report src cmp w) = w_hashes (pruned_world src w)) as H0 by (unfold after_report, pruned_world; destruct (w_hashes w); reflexivity).
  pose proof (after_report_same src cmp w) as [(R0 & _) _].
  assert (no_digest_report [Logged s]) as N0 by (intros n u [X|[]]; discriminate).
  destruct (audit || (differences cmp =? 0)); [destruct H as [-> _]; eauto|].
  destruct (compare_parts _ _ _ WD WS C) as (_ & _ & _ & _ & IC & IU & _).
  set (w0 := after_report src cmp w) in *. clearbody w0.
  assert (forall w1 y, transfers E c allow cmp (with_last 0 w0) = (w1, y) -> exists l, w_log w1 = w_log w ++ l /\ no_digest_report l) as TR.
  { intros w1 y T. apply transfers_log in T.
    - destruct T as (l & A & B). exists (Logged s :: l). split; [rewrite A; cbn; rewrite L0, <- app_assoc; reflexivity|].
      intros n u [X|I]; [discriminate|]. apply B in I. exact I.
    - cbn. rewrite R0. apply OK.
    - apply OK.
    - cbn. intros r n I J. rewrite H0 in J. apply pruned_hashes in J. destruct J as [_ J].
      destruct (digest n r) eqn:D; [|reflexivity]. elim J. apply (rl_hashes_in _ _ WS). exists (r_uri r), r. split; [|congruence].
      apply in_app_iff in I. destruct I as [I|I]; [apply IC in I|apply IU in I]; destruct I as [I _]; apply sget_in in I; exact I. }
  apply synchronize_inv in H. destruct H as [(e & _ & -> & _)|(_ & [(e & H & _)|(w1 & nc & nu & nd & H & [(e & St & _)|(w2 & St & Lg)])])].
  - eauto.
  - apply (TR _ _ H).
  - apply store_if_any_effect in St. destruct St as (_ & _ & -> & _). apply (TR _ _ H).
  - apply store_if_any_effect in St. destruct St as (_ & _ & S3 & _). rewrite log_status_is in Lg. injection Lg as <- <-.
    destruct (TR _ _ H) as (l & A & B). eexists. split; [cbn; rewrite S3, A, <- app_assoc; reflexivity|].
    intros n u I. apply in_app_iff in I. destruct I as [I|[I|[]]]; [apply B in I; exact I|discriminate].
Qed.

Lemma baseline_hashes E c allow audit w w' : world_ok E w -> baseline_or_audit E c allow audit w = (w', Ok tt) ->
  forall h, In h (w_hashes w') <-> In h (w_hashes w) /\ ~ source_uses E c h.
Proof.
  intros OK H. apply baseline_inv in H. destruct H as [(e & X & _)|(src & dst & cmp & M & U & F & NE & S & C & H)]; [discriminate|].
  assert (list_ok src) as [WS _] by (apply (find_resource_list_ok _ _ _ F)).
  assert (forall h, In h (w_hashes (pruned_world src w)) <-> In h (w_hashes w) /\ ~ source_uses E c h) as PH.
  { intros h. rewrite pruned_hashes, (rl_hashes_in _ _ WS). unfold source_uses. split; intros [A B]; (split; [exact A|]).
    - intros (src' & u & r & F' & R). rewrite F in F'. injection F' as <-. apply B. eauto.
    - intros (u & r & R). apply B. eauto. }
  assert (w_hashes (after_report src cmp w) = w_hashes (pruned_world src w)) as H0 by (unfold after_report, pruned_world; destruct (w_hashes w); reflexivity).
  pose proof (after_report_same src cmp w) as [(R0 & _) _].
  rewrite <- H0 in PH. set (w0 := after_report src cmp w) in *. clearbody w0.
  destruct (audit || (differences cmp =? 0)); [destruct H as [-> _]; exact PH|].
  apply synchronize_inv in H. destruct H as [(e & _ & _ & X)|(_ & [(e & _ & X)|(w1 & nc & nu & nd & H & [(e & _ & X)|(w2 & St & Lg)])])]; try discriminate.
  apply transfers_effect in H; [|cbn; rewrite R0; apply OK|apply OK]. destruct H as (O & _). pose proof (oa_hashes _ _ _ _ O) as HH. cbn in HH.
  apply store_if_any_effect in St. destruct St as (_ & _ & _ & _ & S3 & _). rewrite log_status_is in Lg. injection Lg as <-.
  intros h. cbn. rewrite S3, HH. apply PH.
Qed.

Lemma incremental_hashes E c allow clu from w w' x : w_hashes w <> [] -> incremental E c allow clu from w = (w', x) ->
  (exists e, x = Err e) /\ no_effect w w'.
Proof.
  intros N H. apply incremental_stages in H. destruct H as [e -> NE _|]; [eauto|contradiction].
Qed.

Lemma transfer_verified E c r fn w w' : update_resource E c r fn w = (w', Ok 1) ->
  exists l d t, w_log w' = w_log w ++ l /\ leaf_at (w_root w') (denotes (e_cwd E) fn) = Some (File d t)
  /\ (forall ev, In ev l -> (exists a b, ev = SizeDiffers (r_uri r) a b) \/ exists n, ev = HashDiffers n (r_uri r))
  /\ (forall a b, In (SizeDiffers (r_uri r) a b) l <-> r_length r = Some b /\ a = zlen d /\ a <> b)
  /\ (forall n, In (HashDiffers n (r_uri r)) l <-> In n (w_hashes w) /\ exists y, digest n r = Some y /\ y <> digest_function (e_digests E) n d).
Proof.
  intros H. apply update_log in H. destruct H as (l & L & EV & H). destruct (H eq_refl) as (d & t & _ & F & A & B).
  exists l, d, t. split; [exact L|]. split; [rewrite <- resolve_denotes; exact F|]. split; [|auto].
  intros ev I. destruct (EV ev I) as [X|(n & X & _)]; eauto.
Qed.

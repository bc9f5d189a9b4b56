(** * ClientCompare: the two lists that a baseline synchronization compares *)

From Verif Require Import Py PyFacts Float64 Resource Container ContainerSpec ContainerFacts PathSpec OsPath Mapper MapperSpec
  Hashes ListIndex Disk DiskSpec Builder BuilderSpec BuilderFacts Client ClientSpec ClientLists ClientFacts ClientRuns.
From Coq Require Import Permutation.

Lemma iter_in d r : wf_rl d -> (In r (rl_iter d) <-> map_of d (r_uri r) = Some r).
Proof.
  intros W. pose proof (rl_iter_perm d W) as P. destruct W as [N K]. split.
  - intros I. apply (Permutation_in _ P) in I. apply in_map_iff in I. destruct I as ([u r'] & <- & I). cbn.
    rewrite (K _ _ I). apply in_sget; auto.
  - intros M. apply (Permutation_in _ (Permutation_sym P)). apply in_map_iff. exists (r_uri r, r). split; [reflexivity|].
    unfold map_of in M. now apply sget_in in M.
Qed.
Lemma iter_uris d : wf_rl d -> NoDup (map r_uri (rl_iter d)).
Proof.
  intros W. pose proof (rl_iter_perm d W) as P. destruct W as [N K].
  apply (Permutation_NoDup (l := map r_uri (map snd d))); [apply Permutation_map, Permutation_sym, P|].
  rewrite map_map. rewrite (map_ext_in _ fst); [exact N|]. intros [u r] I. cbn. apply K, I.
Qed.
Lemma iter_len d : wf_rl d -> zlen (rl_iter d) = zlen d.
Proof. intros W. unfold zlen. rewrite (Permutation_length (rl_iter_perm d W)), map_length. reflexivity. Qed.

Lemma compare_parts dst src cmp : wf_rl dst -> wf_rl src -> compare 0 1 dst src = Ok cmp ->
  wf_rl (same cmp) /\ wf_rl (updated cmp) /\ wf_rl (deleted cmp) /\ wf_rl (created cmp)
  /\ (forall r, In r (rl_iter (created cmp)) <-> map_of src (r_uri r) = Some r /\ map_of dst (r_uri r) = None)
  /\ (forall r, In r (rl_iter (updated cmp)) <-> map_of src (r_uri r) = Some r /\ exists d, map_of dst (r_uri r) = Some d /\ r_eqb d r = false)
  /\ (forall r, In r (rl_iter (deleted cmp)) <-> map_of dst (r_uri r) = Some r /\ map_of src (r_uri r) = None)
  /\ NoDup (map r_uri (rl_iter (created cmp) ++ rl_iter (updated cmp) ++ rl_iter (deleted cmp)))
  /\ (forall u, map_of (same cmp) u = spec_same (map_of dst) (map_of src) u).
Proof.
  intros WD WS C. destruct (compare_spec 0 1 dst src ltac:(lia) WD WS) as (cmp' & C' & W1 & W2 & W3 & W4 & M).
  rewrite C in C'. injection C' as <-. split; [exact W1|]. split; [exact W2|]. split; [exact W3|]. split; [exact W4|].
  assert (forall r, In r (rl_iter (created cmp)) <-> map_of src (r_uri r) = Some r /\ map_of dst (r_uri r) = None) as IC.
  { intros r. rewrite iter_in by exact W4. destruct (M (r_uri r)) as (_ & _ & _ & ->). unfold spec_created.
    destruct (map_of dst (r_uri r)), (map_of src (r_uri r)); split; intros H; try discriminate; try (split; congruence); destruct H; congruence. }
  assert (forall r, In r (rl_iter (updated cmp)) <-> map_of src (r_uri r) = Some r /\ exists d, map_of dst (r_uri r) = Some d /\ r_eqb d r = false) as IU.
  { intros r. rewrite iter_in by exact W2. destruct (M (r_uri r)) as (_ & -> & _ & _). unfold spec_updated.
    destruct (map_of dst (r_uri r)) as [d|], (map_of src (r_uri r)) as [s|]; try (split; [discriminate|intros (A & d' & B & _); congruence]).
    destruct (r_eqb d s) eqn:E; split.
    - discriminate.
    - intros (A & d' & B & Q). congruence.
    - intros [= ->]. split; [reflexivity|]. exists d. auto.
    - intros (A & _). exact A. }
  assert (forall r, In r (rl_iter (deleted cmp)) <-> map_of dst (r_uri r) = Some r /\ map_of src (r_uri r) = None) as ID.
  { intros r. rewrite iter_in by exact W3. destruct (M (r_uri r)) as (_ & _ & -> & _). unfold spec_deleted.
    destruct (map_of dst (r_uri r)), (map_of src (r_uri r)); split; intros H; try discriminate; try (split; congruence); destruct H; congruence. }
  split; [exact IC|]. split; [exact IU|]. split; [exact ID|]. split; [|intros u; apply M].
  rewrite !map_app. apply NoDup_app_disj; [apply iter_uris, W4| |].
  - apply NoDup_app_disj; [apply iter_uris, W2|apply iter_uris, W3|]. intros u I J.
    apply in_map_iff in I. destruct I as (r & <- & I). apply in_map_iff in J. destruct J as (r' & Eu & J).
    apply IU in I. apply ID in J. rewrite Eu in J. destruct I, J. congruence.
  - intros u I J. apply in_map_iff in I. destruct I as (r & <- & I). apply IC in I.
    apply in_app_iff in J. destruct J as [J|J]; apply in_map_iff in J; destruct J as (r' & Eu & J).
    + apply IU in J. rewrite Eu in J. destruct J as (_ & d & J & _), I. congruence.
    + apply ID in J. rewrite Eu in J. destruct I, J. congruence.
Qed.

(** ** The scan *)

Lemma client_scanner ms hashes len path : scanner ms hashes len path [] = Ok (new_builder (Some ms) hashes len path).
Proof. reflexivity. Qed.

Lemma scan_is E c w dst : tree_ok (w_root w) -> scan E c w = Ok dst ->
  wf_rl dst /\ forall u r, In (u, r) dst <-> exists start rel file n, In start (map dst_path (c_mapper c))
    /\ found_at [] (e_cwd E) (w_root w) start rel file n /\ dst_to_src (c_mapper c) file = Ok u
    /\ r = described (e_digests E) (w_hashes w) true false u file n.
Proof.
  intros T S. unfold scan in S.
  destruct (scan_lists (e_digests E) (c_mapper c) (w_hashes w) true false [] _ (client_scanner _ _ _ _) _ _ _ _ T S) as [N L].
  split; [|exact L]. split; [exact N|]. intros u r I. apply L in I. destruct I as (s & rel & f & n & _ & _ & _ & ->). reflexivity.
Qed.

Lemma scan_local E c w dst u : tree_ok (w_root w) -> scan E c w = Ok dst ->
  (map_of dst u <> None <-> exists file, local_file E c w file u).
Proof.
  intros T S. destruct (scan_is E c w dst T S) as [[N K] L]. split.
  - intros M. destruct (map_of dst u) as [r|] eqn:G; [|congruence]. apply sget_in in G; auto. apply L in G.
    destruct G as (s & rel & f & n & I & F & D & _). apply in_map_iff in I. destruct I as (m & <- & I).
    exists f, m, rel, n. auto.
  - intros (f & m & rel & n & I & F & D) M. apply sget_none in M. apply M.
    apply in_map_iff. exists (u, described (e_digests E) (w_hashes w) true false u f n). split; [reflexivity|].
    apply L. exists (dst_path m), rel, f, n. split; [now apply in_map|]. auto.
Qed.
Lemma scan_local_iff E c w dst u : tree_ok (w_root w) -> scan E c w = Ok dst ->
  (In u (map fst dst) <-> exists file, local_file E c w file u).
Proof.
  intros T S. rewrite <- (scan_local E c w dst u T S). unfold map_of. split.
  - intros I M. apply sget_none in M. contradiction.
  - intros M. destruct (in_dec (list_eq_dec ascii_dec) u (map fst dst)) as [|N]; [assumption|]. elim M. now apply sget_none.
Qed.

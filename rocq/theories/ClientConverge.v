(** * ClientConverge: the destination after a baseline synchronization *)

From Verif Require Import Py PyFacts Float64 Float64Facts W3C PathSpec OsPath OsPathFacts Regex RegexFacts Mapper MapperSpec MapperFacts MapperFacts2
  Resource ResourceSpec Container ContainerSpec ContainerFacts Capability Xml Sitemap Hashes ListIndex Disk DiskSpec DiskFacts DiskChange
  Builder BuilderSpec BuilderFacts Client ClientSpec ClientLists ClientFacts ClientRuns ClientInc ClientCompare ClientPlaces ClientProps
  ClientDownload ClientChanges ClientThms ClientSync ClientReport ClientStatus ClientDirs ConvergeSpec.

(** ** Paths *)

Lemma means_dir_below d rel : rel <> [] -> Forall file_name rel -> means_dir (d ++ $"/" ++ rel_path rel) = false.
Proof.
  intros N F. unfold means_dir. change ($"/" ++ rel_path rel) with ("/"%char :: rel_path rel). rewrite split_on_app_any.
  unfold rel_path. rewrite split_join; [|exact N|eapply Forall_impl; [|exact F]; intros a (_ & _ & _ & Q); exact Q].
  destruct (exists_last N) as (l & x & ->). rewrite app_assoc, last_last. apply Forall_app in F. destruct F as [_ F].
  inversion F as [|? ? (A & B & C & _) _]; subst.
  destruct (str_eqb_spec x []); [contradiction|]. destruct (str_eqb_spec x $"."); [contradiction|].
  destruct (str_eqb_spec x $".."); [contradiction|]. reflexivity.
Qed.
Lemma denotes_below cwd d rel : d <> [] -> Forall file_name rel -> denotes cwd (d ++ $"/" ++ rel_path rel) = denotes cwd d ++ rel.
Proof.
  intros N F. rewrite denotes_base, denotes_slash by exact N. unfold rel_path. rewrite walk_split_join.
  - apply walk_names, F.
  - eapply Forall_impl; [|exact F]. intros a (_ & _ & _ & Q). exact Q.
Qed.
Lemma found_below E root m rel n : rel <> [] -> Forall file_name rel -> dst_path m <> [] -> no_end_slash (dst_path m) -> is_file n ->
  leaf_at root (denotes (e_cwd E) (dst_path m) ++ rel) = Some n ->
  found_at [] (e_cwd E) root (dst_path m) rel (dst_path m ++ $"/" ++ rel_path rel) n.
Proof.
  intros NR F ND NS FN L. split; [exact FN|]. destruct rel as [|x rel]; [congruence|].
  unfold leaf_at in L. rewrite lookup_app in L. destruct (lookup (denotes (e_cwd E) (dst_path m)) root) as [k|] eqn:K; [|discriminate].
  destruct k as [|es| |]; try discriminate. exists es. split.
  { unfold lstat. rewrite resolve_denotes, K. destruct (dst_path m); [congruence|reflexivity]. }
  split. { destruct (lookup (x :: rel) (Dir es)) as [[]|]; try discriminate; exact L. }
  split; [symmetry; apply below_no_slash, NS|]. apply Forall_forall. intros y _ (pat & ? & ? & [] & _).
Qed.

Section Converge.
Variables (E : env) (c : client) (w : world).
Hypothesis SY : synchronizable E c w.

Lemma base_place u : below_base c u -> exists m rel, In m (c_mapper c) /\ rel <> [] /\ Forall file_name rel /\ Forall one_line rel
  /\ u = src_uri m ++ $"/" ++ rel_path rel /\ src_to_dst (c_mapper c) u = Ok (dst_path m ++ $"/" ++ rel_path rel)
  /\ dst_to_src (c_mapper c) (dst_path m ++ $"/" ++ rel_path rel) = Ok u
  /\ denotes (e_cwd E) (dst_path m ++ $"/" ++ rel_path rel) = denotes (e_cwd E) (dst_path m) ++ rel.
Proof.
  intros (m & rel & I & N & F & O & ->). exists m, rel. repeat (split; [assumption|]). split; [reflexivity|].
  destruct (sy_apart _ _ _ SY) as [[M1 M2] _].
  destruct (multi_round_trip_plain (c_mapper c) m (rel_path rel) I) as [A B]; auto.
  - intros k K. destruct (M1 k K) as (? & ? & ? & ? & _). auto.
  - apply rel_path_one_line, O.
  - split; [exact A|]. split; [exact B|]. apply denotes_below; [|exact F]. apply (sy_free _ _ _ SY m I).
Qed.
Lemma place_of_is u p q : src_to_dst (c_mapper c) u = Ok p -> (place_of E c u q <-> q = denotes (e_cwd E) p).
Proof. intros S. split; [intros (p' & S' & ->); congruence|intros ->; exists p; auto]. Qed.
Lemma base_inj u u' q : below_base c u -> below_base c u' -> place_of E c u q -> place_of E c u' q -> u = u'.
Proof.
  intros B B' P P'. destruct (base_place u B) as (m & rel & I & _ & _ & _ & -> & S & _ & D).
  destruct (base_place u' B') as (m' & rel' & I' & _ & _ & _ & -> & S' & _ & D').
  apply (place_of_is _ _ q S) in P. apply (place_of_is _ _ q S') in P'. rewrite D in P. rewrite D' in P'.
  assert (m = m') as <- by (apply (proj2 (sy_apart _ _ _ SY) m m' q I I'); [exists rel|exists rel']; assumption).
  rewrite P in P'. apply app_inv_head in P'. congruence.
Qed.

(** Local files have such URIs, now or later. *)
Lemma node_base w1 u n : world_ok E w1 -> one_line_names (w_root w1) -> destinations_free E c w1 -> local_node E c w1 u n ->
  below_base c u /\ is_file n /\ exists q, place_of E c u q /\ leaf_at (w_root w1) q = Some n.
Proof.
  intros W O FR (m0 & rel0 & file & I0 & F0 & D0).
  assert (local_file E c w1 file u) as LF by (exists m0, rel0, n; auto).
  destruct (local_file_uri _ _ _ _ _ W (proj1 (sy_apart _ _ _ SY)) O LF) as (m & rel & n' & I & F & FN & OL & L & D & -> & p & S & DP).
  assert (n' = n) as ->.
  { destruct (proj1 (proj1 (sy_apart _ _ _ SY)) m0 I0) as (_ & _ & _ & _ & NS).
    destruct (found_inside _ _ _ _ _ _ F0 (proj1 W) NS) as (_ & _ & _ & L0 & _). rewrite resolve_denotes in L0. congruence. }
  split; [|split; [apply F|exists (denotes (e_cwd E) p); split; [exists p; auto|rewrite DP; exact L]]].
  exists m, rel. split; [exact I|]. split; [|auto]. intros ->. rewrite app_nil_r in D. destruct (FR m I) as [_ Z]. congruence.
Qed.
Lemma base_node w1 u q n : below_base c u -> place_of E c u q -> leaf_at (w_root w1) q = Some n -> is_file n -> local_node E c w1 u n.
Proof.
  intros B P L FN. destruct (base_place u B) as (m & rel & I & N & F & O & U & S & DS & D).
  apply (place_of_is _ _ _ S) in P. subst q. rewrite D in L. exists m, rel, (dst_path m ++ $"/" ++ rel_path rel).
  split; [exact I|]. split; [|exact DS]. destruct (proj1 (proj1 (sy_apart _ _ _ SY)) m I) as (_ & _ & _ & _ & NS).
  apply found_below; auto. apply (sy_free _ _ _ SY m I).
Qed.
Lemma node_unique u n n' w1 : world_ok E w1 -> one_line_names (w_root w1) -> destinations_free E c w1 ->
  local_node E c w1 u n -> local_node E c w1 u n' -> n = n'.
Proof.
  intros W O FR A B. destruct (node_base _ _ _ W O FR A) as (_ & _ & q & (p & S & ->) & L).
  destruct (node_base _ _ _ W O FR B) as (_ & _ & q' & (p' & S' & ->) & L'). congruence.
Qed.

Lemma entry_unique u r r' : source_entry E c u r -> source_entry E c u r' -> r = r'.
Proof.
  intros (src & F & I) (src' & F' & I'). rewrite F in F'. injection F' as <-.
  assert (list_ok src) as [[ND _] _] by (apply (find_resource_list_ok _ _ _ F)).
  apply in_sget in I; [|exact ND]. apply in_sget in I'; [|exact ND]. congruence.
Qed.
Lemma entry_uri u r : source_entry E c u r -> r_uri r = u /\ listed E c u.
Proof.
  intros (src & F & I). assert (list_ok src) as [[_ K] _] by (apply (find_resource_list_ok _ _ _ F)).
  split; [apply K, I|]. exists src. split; [exact F|]. apply (in_map fst) in I. exact I.
Qed.

(** What a complete run did: [T] were transferred, [D] deleted. *)
Record ran (w' : world) (T : resource -> Prop) (D : str -> Prop) : Prop := {
  rn_transferred : forall r, T r -> source_entry E c (r_uri r) r /\
    exists q f, place_of E c (r_uri r) q /\ leaf_at (w_root w') q = Some f /\ downloaded E w w' r f;
  rn_deleted : forall u, D u -> ~ listed E c u /\ below_base c u /\ exists q, place_of E c u q /\ leaf_at (w_root w') q = None;
  rn_entries : forall u r, source_entry E c u r -> T r \/ exists n, local_node E c w u n /\ agrees r n;
  rn_local : forall u n, local_node E c w u n -> D u \/ listed E c u;
  rn_rest : forall q, (exists r, T r /\ place_of E c (r_uri r) q) \/ (exists u, D u /\ place_of E c u q)
    \/ leaf_at (w_root w') q = leaf_at (w_root w) q;
  rn_dirs : forall q, dir_at (w_root w) q -> dir_at (w_root w') q;
  rn_tree : tree_ok (w_root w');
  rn_hashes : incl (w_hashes w') (w_hashes w)
}.

Lemma baseline_ended w' x : c_dryrun c = false -> c_ignore_failures c = false -> (0 < c_tries c)%nat ->
  baseline_or_audit E c true false w = (w', x) -> x = Ok tt \/ w_state w' <> w_state w -> exists T D, ran w' T D.
Proof.
  intros DR IG TR H OX. destruct (sy_world _ _ _ SY) as (TO & RD & FN).
  apply baseline_inv in H. destruct H as [(e & X & (_ & NS & _) & _)|(src & dst & cmp & _ & _ & F & NE & S & C & H)].
  { exfalso. destruct OX as [OX|OX]; [congruence|contradiction]. }
  pose proof (after_report_same src cmp w) as [(N0 & NS & G0) _].
  assert (incl (w_hashes (after_report src cmp w)) (w_hashes w)) as HI.
  { intros h Ih. change (w_hashes (after_report src cmp w)) with (w_hashes (pruned_world src w)) in Ih. apply pruned_hashes in Ih. apply Ih. }
  assert (list_ok src) as [WS _] by (apply (find_resource_list_ok _ _ _ F)).
  assert (w_root (pruned_world src w) = w_root w) as PR by (unfold pruned_world; destruct (w_hashes w); reflexivity).
  assert (tree_ok (w_root (pruned_world src w))) as TP by (rewrite PR; exact TO).
  destruct (scan_is _ _ _ _ TP S) as [WD SI].
  pose proof (compare_work E c w src dst cmp TO F S C) as WK.
  destruct (compare_parts _ _ _ WD WS C) as (W1 & W2 & W3 & W4 & IC & IU & ID & ND & _).
  assert (forall u r, source_entry E c u r -> map_of src u = Some r /\ r_uri r = u) as SE.
  { intros u r (src' & F' & I). rewrite F in F'. injection F' as <-. split; [apply in_sget; [apply WS|exact I]|apply (proj2 WS), I]. }
  assert (forall u r, map_of src u = Some r -> source_entry E c u r) as SE'.
  { intros u r M. apply sget_in in M. exists src. auto. }
  assert (forall u r, source_entry E c u r -> In r (rl_iter (created cmp) ++ rl_iter (updated cmp)) \/ exists n, local_node E c w u n /\ agrees r n) as EN.
  { intros u r I. destruct (SE u r I) as [M RU]. destruct (map_of dst u) as [d|] eqn:MD.
    - destruct (r_eqb d r) eqn:Q.
      + right. pose proof (sget_in _ _ _ MD) as J. apply SI in J. destruct J as (s & rel & file & n & Is & FA & DS & ->).
        rewrite PR in FA. apply in_map_iff in Is. destruct Is as (m & <- & Im). exists n. split; [exists m, rel, file; auto|].
        apply (equal_agrees E src w u file n r WS (proj1 FA) (sget_in _ _ _ M)), Q.
      + left. apply in_app_iff. right. apply IU. rewrite RU. split; [exact M|]. exists d. auto.
    - left. apply in_app_iff. left. apply IC. rewrite RU. auto. }
  assert (forall u n, local_node E c w u n -> In u (map r_uri (rl_iter (deleted cmp))) \/ listed E c u) as LO.
  { intros u n L. destruct (map_of src u) as [r|] eqn:M.
    - right. apply (find_listed E c src u F). congruence.
    - left. apply (wk_deleted _ _ _ _ WK). split; [|exists n; exact L]. rewrite (find_listed E c src u F). congruence. }
  destruct (false || (differences cmp =? 0)) eqn:DZ.
  { destruct H as [-> _]. exists (fun _ => False), (fun _ => False). split; rewrite ?N0; auto; try tauto.
    - intros u r I. right. destruct (EN u r I) as [J|]; [|assumption]. exfalso.
      assert (differences cmp = 0) as Z by lia.
      pose proof (proj1 (work_none _ _ _ _ WK W4 W2 W3) Z u) as (A & B & _). apply in_app_iff in J.
      destruct (SE u r I) as [_ RU]. destruct J as [J|J]; apply (in_map r_uri) in J; rewrite RU in J;
        [apply A, (wk_created _ _ _ _ WK), J|apply B, (wk_updated _ _ _ _ WK), J].
    - intros u n L. right. destruct (LO u n L) as [J|]; [|assumption]. exfalso.
      assert (differences cmp = 0) as Z by lia.
      pose proof (proj1 (work_none _ _ _ _ WK W4 W2 W3) Z u) as (_ & _ & A). apply A, (wk_deleted _ _ _ _ WK), J. }
  clear DZ. apply synchronize_inv in H.
  assert (exists w1 nc nu nd w2, transfers E c true cmp (with_last 0 (after_report src cmp w)) = (w1, Ok (nc, nu, nd))
    /\ w_root w2 = w_root w1 /\ w_gets w2 = w_gets w1 /\ w_hashes w2 = w_hashes w1
    /\ w_root w' = w_root w2 /\ w_gets w' = w_gets w2 /\ w_hashes w' = w_hashes w2) as (w1 & nc & nu & nd & w2 & Tr & S1 & S2 & S5 & R3 & G3 & H3).
  { destruct H as [(e & _ & -> & X)|(_ & [(e & Tr & X)|(w1 & nc & nu & nd & Tr & [(e & St & X)|(w2 & St & Lg)])])].
    - exfalso. destruct OX as [OX|OX]; [congruence|]. apply OX, NS.
    - exfalso. destruct OX as [OX|OX]; [congruence|]. apply OX.
      pose proof (transfers_effect E c true cmp (with_last 0 (after_report src cmp w)) w' _ ltac:(change (tree_ok (w_root (after_report src cmp w))); rewrite N0; exact TO) FN Tr) as (O & _).
      rewrite (oa_state _ _ _ _ O). exact NS.
    - apply store_if_any_effect in St. destruct St as (S1 & S2 & _ & _ & S5 & _). exists w1, nc, nu, nd, w'. repeat (split; [assumption|]). auto.
    - apply store_if_any_effect in St. destruct St as (S1 & S2 & _ & _ & S5 & _). rewrite log_status_is in Lg. injection Lg as <- _.
      exists w1, nc, nu, nd, w2. repeat (split; [assumption|]). auto. }
  clear H OX.
  pose proof (transfers_effect E c true cmp (with_last 0 (after_report src cmp w)) w1 _ ltac:(change (tree_ok (w_root (after_report src cmp w))); rewrite N0; exact TO) FN Tr)
    as (O & _ & _ & _ & _ & _ & _ & TE).
  destruct (TE nc nu nd eq_refl DR IG TR ND) as (_ & _ & T1 & T2). clear TE.
  destruct (T2 ltac:(change (dir_at (w_root (after_report src cmp w)) []); rewrite N0; exact RD) eq_refl) as (T3 & _). clear T2.
  assert (forall r, In r (rl_iter (created cmp) ++ rl_iter (updated cmp)) -> source_entry E c (r_uri r) r) as TS.
  { intros r I. apply SE'. apply in_app_iff in I. destruct I as [I|I]; [apply IC in I|apply IU in I]; apply I. }
  assert (forall r, In r (rl_iter (deleted cmp)) -> ~ listed E c (r_uri r) /\ below_base c (r_uri r)) as DS.
  { intros r I. apply (in_map r_uri) in I. apply (wk_deleted _ _ _ _ WK) in I. destruct I as [NL (n & L)]. split; [exact NL|].
    apply (node_base w _ n (sy_world _ _ _ SY) (proj1 (sy_names _ _ _ SY)) (sy_free _ _ _ SY) L). }
  assert (forall r, In r (rl_iter (created cmp) ++ rl_iter (updated cmp) ++ rl_iter (deleted cmp)) -> below_base c (r_uri r)) as BB.
  { intros r I. rewrite app_assoc in I. apply in_app_iff in I. destruct I as [I|I]; [|apply DS, I].
    apply (sy_listed _ _ _ SY). apply (entry_uri (r_uri r) r), TS, I. }
  exists (fun r => In r (rl_iter (created cmp) ++ rl_iter (updated cmp))), (fun u => In u (map r_uri (rl_iter (deleted cmp)))).
  rewrite <- R3 in S1.
  split.
  - intros r I. split; [apply TS, I|]. destruct (T1 r I) as (p & SD & _ & Q). exists (resolve (e_cwd E) p).
    assert (In r (rl_iter (created cmp) ++ rl_iter (updated cmp) ++ rl_iter (deleted cmp))) as I3 by (rewrite app_assoc, in_app_iff; auto).
    destruct Q as (f & L & DL).
    { intros r' I' Tg. apply (base_inj _ _ (resolve (e_cwd E) p)); [apply BB, I'|apply BB, I3|exact Tg|].
      exists p. split; [exact SD|apply resolve_denotes]. }
    exists f. split; [exists p; split; [exact SD|apply resolve_denotes]|]. split; [rewrite S1; exact L|].
    destruct DL as (k & d & K & G & Z). exists k, d. split; [|auto]. rewrite G3, S2.
    change (w_gets (with_last 0 (after_report src cmp w))) with (w_gets (after_report src cmp w)) in K. rewrite G0 in K. exact K.
  - intros u I. apply in_map_iff in I. destruct I as (r & <- & I). destruct (DS r I) as [NL B]. split; [exact NL|]. split; [exact B|].
    destruct (T3 r I) as (p & SD & Q). exists (resolve (e_cwd E) p). split; [exists p; split; [exact SD|apply resolve_denotes]|].
    rewrite S1. apply Q. destruct (base_place _ B) as (m & rel & _ & N & FR & _ & _ & SD' & _). rewrite SD in SD'. injection SD' as ->.
    split; [destruct (dst_path m); discriminate|apply means_dir_below; auto].
  - exact EN.
  - exact LO.
  - intros q. rewrite S1. destruct (places_dec E c (rl_iter (created cmp) ++ rl_iter (updated cmp) ++ rl_iter (deleted cmp)) q) as [(r & I & Tg)|NP].
    + rewrite app_assoc in I. apply in_app_iff in I. destruct I as [I|I]; [left; exists r; auto|right; left; exists (r_uri r); split; [now apply in_map|exact Tg]].
    + right; right. rewrite (oa_leaf _ _ _ _ O q NP). change (leaf_at (w_root (after_report src cmp w)) q = leaf_at (w_root w) q). now rewrite N0.
  - intros q D. rewrite S1. apply (oa_dir _ _ _ _ O). change (dir_at (w_root (after_report src cmp w)) q). now rewrite N0.
  - rewrite S1. apply (oa_tree _ _ _ _ O); [|exact FN]. change (tree_ok (w_root (after_report src cmp w))). now rewrite N0.
  - rewrite H3, S5, (oa_hashes _ _ _ _ O). exact HI.
Qed.
Lemma baseline_ran w' : c_dryrun c = false -> c_ignore_failures c = false -> (0 < c_tries c)%nat ->
  baseline_or_audit E c true false w = (w', Ok tt) -> exists T D, ran w' T D.
Proof. intros DR IG TR H. apply (baseline_ended w' (Ok tt) DR IG TR H). auto. Qed.

(** ** The tree afterwards *)

Lemma one_line_walk comps : Forall one_line comps -> forall dir, Forall one_line dir -> Forall one_line (walk dir comps).
Proof.
  induction comps as [|x comps IH]; cbn [walk]; intros F dir D; [exact D|]. inversion F; subst.
  destruct (str_eqb x [] || str_eqb x $"."); [auto|]. destruct (str_eqb x $".."); apply IH; auto.
  - clear -D. induction dir as [|y dir IH]; cbn; [constructor|]. inversion D; subst. destruct dir; [constructor|]. constructor; auto.
  - apply Forall_app. auto.
Qed.
Lemma split_on_incl ch s x : In x (split_on ch s) -> incl x s.
Proof.
  revert x. induction s as [|a s IH]; cbn [split_on]; intros x I.
  - destruct I as [<-|[]]. apply incl_refl.
  - destruct (ceqb a ch).
    + destruct I as [<-|I]; [intros y []|apply incl_tl, IH, I].
    + destruct (split_on ch s) as [|h t]; [destruct I as [<-|[]]; intros y [<-|[]]; left; reflexivity|].
      destruct I as [<-|I]; [|apply incl_tl, IH; right; exact I].
      intros y [<-|J]; [left; reflexivity|right; apply (IH h); [left; reflexivity|exact J]].
Qed.
Lemma one_line_denotes cwd p : Forall one_line cwd -> one_line p -> Forall one_line (denotes cwd p).
Proof.
  intros C O. unfold denotes. apply one_line_walk; [|destruct (startswith _ _); auto].
  apply Forall_forall. intros x I J. apply O. apply (split_on_incl _ _ _ I), J.
Qed.
Lemma rsplit1_incl ch s a b : rsplit1 ch s = Some (a, b) -> incl a s.
Proof. intros H. apply rsplit1_spec in H. destruct H as (x & -> & -> & _). intros z I. apply in_app_iff in I. apply in_app_iff. destruct I as [I|[<-|[]]]; [auto|right; left; reflexivity]. Qed.
Lemma lstrip_incl cs s : incl (lstrip cs s) s.
Proof. induction s as [|a s IH]; cbn; [apply incl_refl|]. destruct (has_char a cs); [apply incl_tl, IH|apply incl_refl]. Qed.
Lemma dirname_incl p : incl (os_dirname p) p.
Proof.
  unfold os_dirname. destruct (rsplit1 "/" p) as [[h t]|] eqn:R; [|intros x []]. apply rsplit1_incl in R.
  destruct (forallb _ h); [exact R|]. intros x I. apply R. unfold rstrip in I. apply in_rev in I. apply lstrip_incl in I. now apply in_rev.
Qed.

Lemma names_after w' T D : baseline_or_audit E c true false w = (w', Ok tt) -> ran w' T D -> one_line_names (w_root w').
Proof.
  intros H R names n L. destruct (sy_names _ _ _ SY) as [O1 O2].
  assert (forall u p, below_base c u -> src_to_dst (c_mapper c) u = Ok p -> one_line p) as OP.
  { intros u p B S. destruct (base_place u B) as (m & rel & I & _ & _ & O & _ & S' & _). rewrite S in S'. injection S' as ->.
    destruct (proj1 (proj1 (sy_apart _ _ _ SY)) m I) as (_ & _ & _ & O' & _). intros J. rewrite !in_app_iff in J.
    destruct J as [J|[J|J]]; [apply O', J|cbn in J; intuition discriminate|exact (rel_path_one_line _ O J)]. }
  assert (leaf_at (w_root w') names <> None \/ dir_at (w_root w') names) as [Lf|Dr].
  { unfold leaf_at, dir_at. rewrite L. destruct n; eauto; left; discriminate. }
  - destruct (rn_rest _ _ _ R names) as [(r & Tr & p & S & ->)|[(u & Du & p & S & ->)|Q]].
    + apply one_line_denotes; [exact O2|]. apply (OP (r_uri r)); [|exact S]. apply (sy_listed _ _ _ SY).
      destruct (rn_transferred _ _ _ R r Tr) as [SE _]. apply (entry_uri _ _ SE).
    + apply one_line_denotes; [exact O2|]. apply (OP u); [|exact S]. apply (rn_deleted _ _ _ R u Du).
    + rewrite Q in Lf. unfold leaf_at in Lf. destruct (lookup names (w_root w)) as [k|] eqn:K; [|congruence]. apply (O1 _ _ K).
  - apply (baseline_dirs E c true false w w' (Ok tt) (sy_world _ _ _ SY) H) in Dr.
    destruct Dr as [[es K]|(u & p & Lu & S & _ & rest & DN)]; [apply (O1 _ _ K)|].
    assert (Forall one_line (names ++ rest)) as Z.
    { rewrite <- DN. apply one_line_denotes; [exact O2|]. intros J. apply dirname_incl in J. exact (OP u p (sy_listed _ _ _ SY u Lu) S J). }
    apply Forall_app in Z. apply Z.
Qed.
Lemma free_after w' T D : ran w' T D -> destinations_free E c w'.
Proof.
  intros R m I. destruct (sy_free _ _ _ SY m I) as [N L]. split; [exact N|].
  assert (forall u, below_base c u -> ~ place_of E c u (denotes (e_cwd E) (dst_path m))) as NP.
  { intros u B P. destruct (base_place u B) as (m' & rel & I' & NR & _ & _ & _ & S & _ & Dn). apply (place_of_is _ _ _ S) in P. rewrite Dn in P.
    assert (m = m') as <-.
    { apply (proj2 (sy_apart _ _ _ SY) m m' (denotes (e_cwd E) (dst_path m)) I I'); [exists []; now rewrite app_nil_r|exists rel; exact P]. }
    rewrite <- (app_nil_r (denotes (e_cwd E) (dst_path m))) in P at 1. apply app_inv_head in P. congruence. }
  destruct (rn_rest _ _ _ R (denotes (e_cwd E) (dst_path m))) as [(r & Tr & P)|[(u & Du & P)|Q]].
  - elim (NP (r_uri r)); [|exact P]. apply (sy_listed _ _ _ SY). destruct (rn_transferred _ _ _ R r Tr) as [SE _]. apply (entry_uri _ _ SE).
  - elim (NP u); [|exact P]. apply (rn_deleted _ _ _ R u Du).
  - congruence.
Qed.
Lemma world_after w' T D : ran w' T D -> world_ok E w'.
Proof. intros R. destruct (sy_world _ _ _ SY) as (A & B & F). split; [apply R|]. split; [apply R, B|exact F]. Qed.
Lemma synchronizable_after w' T D : baseline_or_audit E c true false w = (w', Ok tt) -> ran w' T D -> synchronizable E c w'.
Proof.
  intros H R. split.
  - apply (world_after _ _ _ R).
  - split; [apply (names_after _ _ _ H R)|apply SY].
  - apply SY.
  - apply (free_after _ _ _ R).
  - apply SY.
Qed.

(** ** Source and destination afterwards *)

Lemma entries_after w' T D u r : ran w' T D -> source_entry E c u r ->
  exists q n, place_of E c u q /\ leaf_at (w_root w') q = Some n /\ is_file n
    /\ (downloaded E w w' r n \/ leaf_at (w_root w) q = Some n /\ agrees r n).
Proof.
  intros R SE. destruct (entry_uri u r SE) as [RU Lu].
  assert (T r -> exists q n, place_of E c u q /\ leaf_at (w_root w') q = Some n /\ is_file n
    /\ (downloaded E w w' r n \/ leaf_at (w_root w) q = Some n /\ agrees r n)) as TR.
  { intros Tr. destruct (rn_transferred _ _ _ R r Tr) as (_ & q & f & P & L & DL). rewrite RU in P. exists q, f. split; [exact P|]. split; [exact L|].
    split; [|auto]. destruct DL as (k & d & _ & _ & ->). left. eauto. }
  destruct (rn_entries _ _ _ R u r SE) as [Tr|(n & LN & AG)]; [auto|].
  destruct (node_base w u n (sy_world _ _ _ SY) (proj1 (sy_names _ _ _ SY)) (sy_free _ _ _ SY) LN) as (B & FN & q & P & L).
  destruct (rn_rest _ _ _ R q) as [(r' & Tr & P')|[(u' & Du & P')|Q]].
  - destruct (rn_transferred _ _ _ R r' Tr) as [SE' _]. destruct (entry_uri _ _ SE') as [_ Lu'].
    assert (r_uri r' = u) as Ru by (apply (base_inj _ _ q); auto; apply (sy_listed _ _ _ SY); auto).
    rewrite Ru in SE'. rewrite <- (entry_unique u r' r SE' SE) in TR. apply TR in Tr.
    rewrite (entry_unique u r r' SE SE'). exact Tr.
  - destruct (rn_deleted _ _ _ R u' Du) as (NL & B' & _). assert (u' = u) as -> by (apply (base_inj _ _ q); auto). contradiction.
  - exists q, n. split; [exact P|]. split; [congruence|]. split; [exact FN|]. right. auto.
Qed.
Lemma nodes_after w' T D u n : baseline_or_audit E c true false w = (w', Ok tt) -> ran w' T D -> local_node E c w' u n ->
  exists r, source_entry E c u r /\ (downloaded E w w' r n \/ local_node E c w u n).
Proof.
  intros H R LN. pose proof (synchronizable_after _ _ _ H R) as SY'.
  destruct (node_base w' u n (sy_world _ _ _ SY') (proj1 (sy_names _ _ _ SY')) (sy_free _ _ _ SY') LN) as (B & FN & q & P & L).
  destruct (rn_rest _ _ _ R q) as [(r' & Tr & P')|[(u' & Du & P')|Q]].
  - destruct (rn_transferred _ _ _ R r' Tr) as (SE' & q' & f & P2 & L2 & DL). destruct (entry_uri _ _ SE') as [_ Lu'].
    assert (r_uri r' = u) as Ru by (apply (base_inj _ _ q); auto; apply (sy_listed _ _ _ SY); auto).
    rewrite Ru in *. exists r'. split; [exact SE'|]. left. destruct P as (p & S & ->), P2 as (p2 & S2 & ->).
    assert (f = n) as <- by congruence. exact DL.
  - destruct (rn_deleted _ _ _ R u' Du) as (NL & B' & q' & P2 & L2). assert (u' = u) as -> by (apply (base_inj _ _ q); auto).
    destruct P as (p & S & ->), P2 as (p2 & S2 & ->). congruence.
  - rewrite Q in L. pose proof (base_node w u q n B P L FN) as LW.
    destruct (rn_local _ _ _ R u n LW) as [Du|Lu].
    + destruct (rn_deleted _ _ _ R u Du) as (NL & B' & q' & P2 & L2). destruct P as (p & S & ->), P2 as (p2 & S2 & ->). congruence.
    + destruct Lu as (src & F & I). apply in_map_iff in I. destruct I as ([u0 r] & <- & I). exists r. split; [exists src; auto|]. auto.
Qed.
Lemma downloaded_agrees w' u r n : honest E c -> source_entry E c u r -> downloaded E w w' r n -> agrees r n.
Proof.
  intros HO SE (k & d & _ & G & ->). destruct (HO u r SE) as [TS LN]. destruct (entry_uri u r SE) as [RU _]. rewrite RU in G.
  split; [|apply (LN k d G)]. destruct (r_timestamp r) as [t|] eqn:Et; [|congruence].
  exists t, (whole_seconds t). split; [reflexivity|]. split; [reflexivity|]. apply whole_seconds_equal.
  destruct SE as (src & F & I). assert (list_ok src) as [_ EO] by (apply (find_resource_list_ok _ _ _ F)).
  destruct (EO u r I) as (TD & _). rewrite Et in TD. exact TD.
Qed.
Lemma in_sync_after w' T D : honest E c -> baseline_or_audit E c true false w = (w', Ok tt) -> ran w' T D -> in_sync E c w'.
Proof.
  intros HO H R u. split; [|split].
  - intros [(src & F & I) N]. apply in_map_iff in I. destruct I as ([u0 r] & <- & I). cbn [fst] in *.
    assert (source_entry E c u0 r) as SE by (exists src; auto).
    destruct (entries_after _ _ _ _ _ R SE) as (q & n & P & L & FN & _). apply N. exists n.
    apply (base_node w' u0 q n); auto. apply (sy_listed _ _ _ SY), (entry_uri u0 r SE).
  - intros (r & n & SE & LN & NA). destruct (nodes_after _ _ _ _ _ H R LN) as (r' & SE' & Q).
    rewrite (entry_unique u r' r SE' SE) in Q. destruct Q as [Q|Q]; [apply NA, (downloaded_agrees w' u r n HO SE Q)|].
    destruct (entries_after _ _ _ _ _ R SE) as (q & n' & P & L & FN & [DL|[L' AG]]).
    + pose proof (synchronizable_after _ _ _ H R) as SY'.
      assert (n' = n) as ->.
      { apply (node_unique u n' n w' (sy_world _ _ _ SY') (proj1 (sy_names _ _ _ SY')) (sy_free _ _ _ SY')); [|exact LN].
        apply (base_node w' u q n'); auto. apply (sy_listed _ _ _ SY), (entry_uri u r SE). }
      apply NA, (downloaded_agrees w' u r n HO SE DL).
    + assert (n' = n) as ->.
      { apply (node_unique u n' n w (sy_world _ _ _ SY) (proj1 (sy_names _ _ _ SY)) (sy_free _ _ _ SY)); [|exact Q].
        apply (base_node w u q n'); auto. apply (sy_listed _ _ _ SY), (entry_uri u r SE). }
      contradiction.
  - intros [NL (n & LN)]. destruct (nodes_after _ _ _ _ _ H R LN) as (r & SE & _). apply NL, (entry_uri u r SE).
Qed.
End Converge.

(** ** Running again *)

Lemma in_sync_env E E' c w : e_fetch E' = e_fetch E -> e_cwd E' = e_cwd E -> in_sync E c w -> in_sync E' c w.
Proof.
  intros F C H u. specialize (H u). unfold to_create, to_update, to_delete, listed, source_entry, local_node in *. rewrite F, C. exact H.
Qed.
Lemma no_specials_after E c w w' T D : ran E c w w' T D -> no_specials (w_root w) -> no_specials (w_root w').
Proof.
  intros R N names m L. assert (leaf_at (w_root w') names = Some (Special m)) as Lf by (unfold leaf_at; now rewrite L).
  destruct (rn_rest _ _ _ _ _ _ R names) as [(r & Tr & p & S & ->)|[(u & Du & p & S & ->)|Q]].
  - destruct (rn_transferred _ _ _ _ _ _ R r Tr) as (_ & q & f & (p' & S' & ->) & L' & k & d & _ & _ & ->).
    assert (p' = p) by congruence. subst p'. congruence.
  - destruct (rn_deleted _ _ _ _ _ _ R u Du) as (_ & _ & q & (p' & S' & ->) & L'). assert (p' = p) by congruence. subst p'. congruence.
  - rewrite Q in Lf. apply (N names m). unfold leaf_at in Lf. destruct (lookup names (w_root w)) as [[]|]; congruence.
Qed.

(** In a world in sync, a run that can scan the destinations reports IN SYNC and does nothing. *)
Lemma in_sync_again E c w src : synchronizable E c w -> in_sync E c w -> c_mapper c <> [] -> unsafe (c_mapper c) = Ok false ->
  find_resource_list (e_fetch E) c = Ok src -> src <> [] ->
  (forall h, In h (w_hashes w) -> In h [$"md5"; $"sha-1"; $"sha-256"]) -> w_hashes w = [] \/ no_specials (w_root w) ->
  forall allow audit, exists w' s, baseline_or_audit E c allow audit w = (w', Ok tt) /\ no_effect w w'
    /\ w_log w' = w_log w ++ [Logged s] /\ st_word s = $"IN SYNC".
Proof.
  intros SY IS M U F NE HK HS allow audit.
  assert (w_root (pruned_world src w) = w_root w) as PR by (unfold pruned_world; destruct (w_hashes w); reflexivity).
  assert (exists dst, scan E c (pruned_world src w) = Ok dst) as (dst & S).
  { unfold scan. rewrite PR. destruct (scan_succeeds (e_digests E) (c_mapper c) (w_hashes (pruned_world src w)) true false [] _ (client_scanner _ _ _ _)) with (cwd := e_cwd E) (root := w_root w) as (dst & S & _).
    - intros h I. apply HK. apply pruned_hashes in I. apply I.
    - apply SY.
    - apply SY.
    - apply SY.
    - destruct HS as [Z|Z]; [left|right; exact Z]. unfold pruned_world. rewrite Z. exact Z.
    - intros m I. destruct (sy_free _ _ _ SY m I) as [N L]. unfold lstat, leaf_at in *. rewrite resolve_denotes.
      destruct (dst_path m); [congruence|]. destruct (lookup _ (w_root w)) as [[]|]; try discriminate; [left; eauto|right; reflexivity].
    - exists dst. exact S. }
  assert (list_ok src) as [WS _] by (apply (find_resource_list_ok _ _ _ F)).
  assert (tree_ok (w_root w)) as T by apply SY.
  assert (tree_ok (w_root (pruned_world src w))) as TP by (rewrite PR; exact T).
  destruct (scan_is _ _ _ _ TP S) as [WD _].
  destruct (compare_spec 0 1 dst src ltac:(lia) WD WS) as (cmp & C & W1 & W2 & W3 & W4 & _).
  pose proof (compare_work E c w src dst cmp T F S C) as WK.
  assert (differences cmp = 0) as DZ by (apply (work_none E c w cmp WK W4 W2 W3), IS).
  exists (after_report src cmp w).
  assert (baseline_or_audit E c allow audit w = (after_report src cmp w, Ok tt)) as RUN.
  { unfold baseline_or_audit. destruct (c_mapper c) as [|m ms] eqn:CM; [congruence|]. unfold andthen at 1. unfold lift at 1.
    assert ((if audit then Ok false else unsafe (m :: ms)) = Ok false) as -> by (destruct audit; auto).
    unfold andthen at 1. unfold lift at 1. rewrite F. destruct src as [|x src]; [congruence|].
    unfold andthen at 1. fold (pruned_world (x :: src) w).
    replace (match w_hashes w with [] => (w, Ok tt) | _ :: _ => prune_hashes (rl_hashes (x :: src)) w end) with (pruned_world (x :: src) w, Ok tt)
      by (unfold pruned_world, prune_hashes, modify; destruct (w_hashes w); reflexivity).
    unfold andthen at 1. rewrite S. unfold andthen at 1. unfold lift. rewrite C.
    replace (zlen (updated cmp) + zlen (deleted cmp) + zlen (created cmp)) with (differences cmp) by (unfold differences; lia).
    replace (zlen (created cmp) + zlen (updated cmp) + zlen (deleted cmp)) with (differences cmp) by (unfold differences; lia).
    unfold andthen. unfold after_report. fold (pruned_world (x :: src) w).
    destruct (log_status _ _ _ _ _ _ _ _ (pruned_world (x :: src) w)) as [w1 y] eqn:L.
    assert (y = Ok tt) as -> by (injection L as _ <-; reflexivity). rewrite DZ. cbn [fst]. destruct audit; reflexivity. }
  pose proof (after_report_same src cmp w) as [N0 _].
  unfold after_report at 3. fold (pruned_world src w). rewrite log_status_is. cbn [fst].
  eexists. split; [exact RUN|]. split; [exact N0|]. split; [cbn; unfold pruned_world; destruct (w_hashes w); reflexivity|].
  rewrite DZ. reflexivity.
Qed.

Lemma converged E c w w' : synchronizable E c w -> c_dryrun c = false -> c_ignore_failures c = false -> (0 < c_tries c)%nat ->
  baseline_or_audit E c true false w = (w', Ok tt) ->
  (forall u r, source_entry E c u r -> exists q n, place_of E c u q /\ leaf_at (w_root w') q = Some n
     /\ (downloaded E w w' r n \/ leaf_at (w_root w) q = Some n /\ agrees r n)
     /\ forall t, r_timestamp r = Some t -> exists m, mtime_of n = Some m /\ Z.abs (m - t) < SEC)
  /\ (forall file u, local_file E c w' file u -> listed E c u).
Proof.
  intros SY DR IG TR H. destruct (baseline_ran E c w SY w' DR IG TR H) as (T & D & R). split.
  - intros u r SE. destruct (entries_after E c w SY w' T D u r R SE) as (q & n & P & L & _ & Q). exists q, n.
    split; [exact P|]. split; [exact L|]. split; [exact Q|]. intros t Et. destruct Q as [(k & d & _ & _ & ->)|[_ [(t' & m & Et' & Em & A) _]]].
    + rewrite Et. exists (whole_seconds t). split; [reflexivity|]. apply whole_seconds_close.
    + assert (t' = t) as -> by congruence. exists m. split; [exact Em|]. apply equal_close, A.
  - intros file u (m & rel & n & I & F & Ds). assert (local_node E c w' u n) as LN by (exists m, rel, file; auto).
    destruct (nodes_after E c w SY w' T D u n H R LN) as (r & SE & _). apply (entry_uri E c u r SE).
Qed.
Lemma converged_again E c w w' : synchronizable E c w -> honest E c -> c_dryrun c = false -> c_ignore_failures c = false -> (0 < c_tries c)%nat ->
  (forall h, In h (w_hashes w) -> In h [$"md5"; $"sha-1"; $"sha-256"]) -> w_hashes w = [] \/ no_specials (w_root w) ->
  baseline_or_audit E c true false w = (w', Ok tt) ->
  in_sync E c w' /\ forall E' allow audit, e_fetch E' = e_fetch E -> e_cwd E' = e_cwd E ->
  exists w2 s, baseline_or_audit E' c allow audit w' = (w2, Ok tt) /\ no_effect w' w2 /\ w_log w2 = w_log w' ++ [Logged s] /\ st_word s = $"IN SYNC".
Proof.
  intros SY HO DR IG TR HK HS H. destruct (baseline_ran E c w SY w' DR IG TR H) as (T & D & R).
  pose proof (in_sync_after E c w SY w' T D HO H R) as IS. split; [exact IS|]. intros E' allow audit EF EC.
  pose proof (synchronizable_after E c w SY w' T D H R) as SY'.
  pose proof (rn_hashes _ _ _ _ _ _ R) as HI.
  assert (w_hashes w' = [] \/ no_specials (w_root w')) as HS'.
  { destruct HS as [Z|Z]; [left; rewrite Z in HI; destruct (w_hashes w') as [|h hs]; [reflexivity|destruct (HI h); left; reflexivity]|].
    right. apply (no_specials_after _ _ _ _ _ _ R Z). }
  apply baseline_inv in H. destruct H as [(e & X & _)|(src & dst & cmp & M & U & F & NE & _)]; [discriminate|].
  apply (in_sync_again E' c w' src); auto.
  - destruct SY' as [A1 A2 A3 A4 A5]. unfold world_ok, destinations_apart, destinations_free, listed in *.
    split; unfold world_ok, destinations_apart, destinations_free, listed; rewrite ?EC, ?EF; assumption.
  - apply (in_sync_env E E' c w' EF EC IS).
  - rewrite EF. exact F.
Qed.
Lemma no_time_never E c w u r : source_entry E c u r -> r_timestamp r = None -> ~ in_sync E c w.
Proof.
  intros SE N IS. destruct (IS u) as (A & B & _). apply A. split; [apply (entry_uri E c u r SE)|]. intros (n & L).
  apply B. exists r, n. split; [exact SE|]. split; [exact L|]. intros [(t & m & T & _) _]. congruence.
Qed.

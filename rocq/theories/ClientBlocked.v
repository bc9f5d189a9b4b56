(** * ClientBlocked: baseline synchronizations that cannot succeed *)

From Verif Require Import Py PyFacts Float64 Float64Facts PathSpec OsPath OsPathFacts Mapper MapperSpec MapperFacts MapperFacts2
  Resource ResourceSpec Container ContainerSpec ContainerFacts Capability Xml Sitemap Hashes ListIndex Disk DiskSpec DiskFacts DiskChange
  Builder BuilderSpec BuilderFacts Client ClientSpec ClientLists ClientFacts ClientRuns ClientInc ClientCompare ClientPlaces ClientProps
  ClientDownload ClientChanges ClientThms ClientSync ClientReport ClientStatus ClientDirs ConvergeSpec ClientConverge SucceedSpec ClientSucceed.

Lemma dir_not_leaf root q : dir_at root q -> leaf_at root q = None.
Proof. intros [es H]. unfold leaf_at. rewrite H. reflexivity. Qed.
Lemma dir_prefix : forall p root q, dir_at root (p ++ q) -> dir_at root p.
Proof.
  induction p as [|x p IH]; intros root q [es H].
  - destruct root; cbn in H; [destruct q; discriminate H| eexists; reflexivity|destruct q; discriminate H|destruct q; discriminate H].
  - cbn in H. destruct root as [|es'| |]; try discriminate. unfold dir_at in *. cbn. destruct (sget x es') as [k|]; [|discriminate].
    apply (IH k q). exists es. exact H.
Qed.

Lemma sset_same {A} x (k : A) es : sget x es = Some k -> sset x k es = es.
Proof.
  induction es as [|[y v] es IH]; cbn; [discriminate|]. destruct (str_eqb_spec x y) as [->|Q]; intros H; [injection H as ->; reflexivity|].
  now rewrite IH.
Qed.
Lemma make_dirs_again : forall names n, dir_at n names -> make_dirs names n = Some n.
Proof.
  induction names as [|x names IH]; intros n [es H]; cbn in H; [injection H as ->; reflexivity|].
  destruct n as [|es'| |]; try discriminate. cbn [make_dirs]. destruct (sget x es') as [k|] eqn:G; [|discriminate].
  rewrite (IH k (ex_intro _ es H)). now rewrite sset_same.
Qed.
Lemma mkpath_again cwd root p : dir_at root (resolve cwd p) -> mkpath cwd root p = Ok root.
Proof. intros D. unfold mkpath. destruct p; [reflexivity|]. now rewrite make_dirs_again. Qed.

(** An update that ends made the directory of the file. *)
Lemma update_made E c r fn w w' n : update_resource E c r fn w = (w', Ok n) -> os_dirname fn <> [] -> dir_at (w_root w') (denotes (e_cwd E) (os_dirname fn)).
Proof.
  unfold update_resource. intros H NE. apply andthen_inv in H. destruct H as [(w1 & [] & M & H)|(e & _ & X)]; [|discriminate].
  destruct (mkpath (e_cwd E) (w_root w) (os_dirname fn)) as [root'|e] eqn:MK; [|discriminate]. injection M as <-.
  assert (dir_at root' (denotes (e_cwd E) (os_dirname fn))) as D.
  { apply mkpath_ok in MK. destruct MK as (_ & _ & M & _). apply (M NE). right. exists []. now rewrite app_nil_r, resolve_denotes. }
  destruct (c_dryrun c) eqn:DR; [injection H as <- _; exact D|].
  assert (update_resource E c r fn (with_root root' w) = (w', Ok n)) as U.
  { unfold update_resource. rewrite DR. unfold andthen at 1. cbn [w_root with_root].
    assert (mkpath (e_cwd E) root' (os_dirname fn) = Ok root') as ->; [|exact H].
    apply mkpath_again. rewrite resolve_denotes. exact D. }
  apply update_effect in U. apply (oa_dir _ _ _ _ (proj1 U)), D.
Qed.
Lemma updates_made E c rs : forall w w' n, for_each c (update_resource E c) rs w = (w', Ok n) ->
  forall r p, In r rs -> src_to_dst (c_mapper c) (r_uri r) = Ok p -> os_dirname p <> [] -> dir_at (w_root w') (denotes (e_cwd E) (os_dirname p)).
Proof.
  induction rs as [|r0 rs IH]; intros w w' n H r p I S NE; [destruct I|]. cbn [for_each] in H.
  apply andthen_inv in H. destruct H as [(w1 & fn & F & H)|(e & _ & X)]; [|discriminate]. unfold lift in F. injection F as <- F.
  apply andthen_inv in H. destruct H as [(w2 & k & U & H)|(e & _ & X)]; [|discriminate].
  apply andthen_inv in H. destruct H as [(w3 & k' & L & H)|(e & _ & X)]; [|discriminate]. injection H as <- _.
  destruct I as [->|I]; [|eapply IH; eauto]. rewrite F in S. injection S as ->.
  apply for_each_update in L as (O & _). apply (oa_dir _ _ _ _ O). eapply update_made; eauto.
Qed.

Section Blocked.
Variables (E : env) (c : client) (w : world).
Hypothesis SY : synchronizable E c w.

(** What is listed and not there is transferred. *)
Lemma must_transfer src dst cmp u r : find_resource_list (e_fetch E) c = Ok src -> scan E c (pruned_world src w) = Ok dst -> compare 0 1 dst src = Ok cmp ->
  source_entry E c u r -> (forall n, ~ local_node E c w u n) ->
  In r (rl_iter (created cmp)) /\ r_uri r = u /\ differences cmp <> 0.
Proof.
  intros F S C SE NL. destruct (sy_world _ _ _ SY) as (TO & _).
  assert (w_root (pruned_world src w) = w_root w) as PR by (unfold pruned_world; destruct (w_hashes w); reflexivity).
  assert (tree_ok (w_root (pruned_world src w))) as TP by (rewrite PR; exact TO).
  destruct (scan_is _ _ _ _ TP S) as [WD SI].
  assert (list_ok src) as [WS _] by (apply (find_resource_list_ok _ _ _ F)).
  pose proof (compare_work E c w src dst cmp TO F S C) as WK.
  destruct (compare_parts _ _ _ WD WS C) as (W1 & W2 & W3 & W4 & IC & _).
  destruct SE as (src' & F' & I). rewrite F in F'. injection F' as <-.
  assert (r_uri r = u) as RU by (apply (proj2 WS), I). assert (In r (rl_iter (created cmp))) as J.
  { apply IC. rewrite RU. split; [apply in_sget; [apply WS|exact I]|]. destruct (map_of dst u) as [d|] eqn:MD; [exfalso|reflexivity].
    apply sget_in in MD. apply SI in MD. destruct MD as (s & rel & file & n & Is & FA & DS & _). rewrite PR in FA.
    apply in_map_iff in Is. destruct Is as (m & <- & Im). apply (NL n). exists m, rel, file. auto. }
  split; [exact J|]. split; [exact RU|]. intros Z. pose proof (proj1 (work_none _ _ _ _ WK W4 W2 W3) Z u) as (A & _).
  apply A, (wk_created _ _ _ _ WK). apply (in_map r_uri) in J. rewrite RU in J. exact J.
Qed.

(** A file on the way to the place of a listed resource. *)
Lemma file_in_the_way u q p x rest : listed E c u -> place_of E c u q -> q = p ++ x :: rest -> leaf_at (w_root w) p <> None ->
  forall allow w', baseline_or_audit E c allow false w <> (w', Ok tt).
Proof.
  intros L P -> LF allow w' H. assert (exists r, source_entry E c u r) as (r & SE).
  { destruct L as (src & F & I). apply in_map_iff in I. destruct I as ([u0 r] & <- & I). exists r, src. auto. }
  apply baseline_inv in H. destruct H as [(e & X & _)|(src & dst & cmp & _ & _ & F & NE & S & C & H)]; [discriminate|].
  assert (forall n, ~ local_node E c w u n) as NL.
  { intros n LN. destruct (node_base E c w SY w u n (sy_world _ _ _ SY) (proj1 (sy_names _ _ _ SY)) (sy_free _ _ _ SY) LN) as (_ & _ & q & (p1 & S1 & ->) & Lq).
    destruct P as (p2 & S2 & Q). rewrite S1 in S2. injection S2 as <-. rewrite <- Q in Lq. unfold leaf_at in Lq, LF. rewrite lookup_app in Lq.
    destruct (lookup p (w_root w)) as [[]|]; cbn in Lq; congruence. }
  destruct (must_transfer src dst cmp u r F S C SE NL) as (J & RU & DN). rewrite (proj2 (Z.eqb_neq _ _) DN) in H. cbn [orb] in H.
  pose proof (after_report_same src cmp w) as [(N0 & _) _].
  apply synchronize_inv in H. destruct H as [(e & _ & _ & X)|(_ & [(e & _ & X)|(w1 & nc & nu & nd & Tr & _)])]; try discriminate.
  unfold transfers in Tr. apply andthen_inv in Tr. destruct Tr as [(w2 & n & U & _)|(e & _ & X)]; [|discriminate].
  destruct (base_place E c w SY u (sy_listed _ _ _ SY u L)) as (m & rel & Im & NR & FR & _ & _ & SD & _ & DEN).
  apply (place_of_is _ _ _ _ _ SD) in P. rewrite DEN in P. destruct (exists_last NR) as (l & y & ->).
  assert (dst_path m <> []) as ND by apply (sy_free _ _ _ SY m Im).
  assert (no_end_slash (dst_path m)) as NS by (destruct (proj1 (proj1 (sy_apart _ _ _ SY)) m Im) as (_ & _ & _ & _ & NS); exact NS).
  pose proof (updates_made _ _ _ _ _ _ U r _ J ltac:(rewrite RU; exact SD)) as MD. rewrite dirname_below in MD by auto.
  rewrite denotes_below_dir in MD by (auto; apply Forall_app in FR; apply FR).
  specialize (MD ltac:(unfold below_dir; destruct l; [exact ND|destruct (dst_path m); discriminate])).
  assert (exists z, denotes (e_cwd E) (dst_path m) ++ l = p ++ z) as (z & Q).
  { destruct (exists_last (l := x :: rest) ltac:(discriminate)) as (z & y' & Z). rewrite Z in P. rewrite !app_assoc in P. apply app_inj_tail in P. exists z. symmetry. apply P. }
  rewrite Q in MD. apply dir_prefix, dir_not_leaf in MD. apply for_each_update in U. destruct U as (_ & K & _).
  apply (K p); [|exact MD]. change (leaf_at (w_root (after_report src cmp w)) p <> None). rewrite N0. exact LF.
Qed.

(** A directory at the place of a listed resource. *)
Lemma directory_in_the_way u q : listed E c u -> place_of E c u q -> dir_at (w_root w) q ->
  c_dryrun c = false -> c_ignore_failures c = false -> (0 < c_tries c)%nat ->
  forall allow w', baseline_or_audit E c allow false w <> (w', Ok tt).
Proof.
  intros L P D DR IG TR allow w' H. assert (exists r, source_entry E c u r) as (r & SE).
  { destruct L as (src & F & I). apply in_map_iff in I. destruct I as ([u0 r] & <- & I). exists r, src. auto. }
  destruct (sy_world _ _ _ SY) as (TO & RD & FN).
  apply baseline_inv in H. destruct H as [(e & X & _)|(src & dst & cmp & _ & _ & F & NE & S & C & H)]; [discriminate|].
  assert (forall n, ~ local_node E c w u n) as NL.
  { intros n LN. destruct (node_base E c w SY w u n (sy_world _ _ _ SY) (proj1 (sy_names _ _ _ SY)) (sy_free _ _ _ SY) LN) as (_ & _ & q' & (p1 & S1 & ->) & Lq).
    destruct P as (p2 & S2 & Q). rewrite S1 in S2. injection S2 as <-. rewrite <- Q in Lq. rewrite (dir_not_leaf _ _ D) in Lq. discriminate. }
  destruct (must_transfer src dst cmp u r F S C SE NL) as (J & RU & DN). rewrite (proj2 (Z.eqb_neq _ _) DN) in H. cbn [orb] in H.
  pose proof (after_report_same src cmp w) as [(N0 & _) _].
  apply synchronize_inv in H. destruct H as [(e & _ & _ & X)|(_ & [(e & _ & X)|(w1 & nc & nu & nd & Tr & _)])]; try discriminate.
  unfold transfers in Tr. apply andthen_inv in Tr. destruct Tr as [(w2 & n & U & _)|(e & _ & X)]; [|discriminate].
  apply for_each_update in U. destruct U as (O & _ & _ & _ & _ & T & _).
  assert (list_ok src) as [WS _] by (apply (find_resource_list_ok _ _ _ F)).
  assert (w_root (pruned_world src w) = w_root w) as PR by (unfold pruned_world; destruct (w_hashes w); reflexivity).
  assert (tree_ok (w_root (pruned_world src w))) as TP by (rewrite PR; exact TO).
  destruct (scan_is _ _ _ _ TP S) as [WD SI].
  destruct (compare_parts _ _ _ WD WS C) as (W1 & W2 & W3 & W4 & IC & IU & ID & ND & _).
  assert (NoDup (map r_uri (rl_iter (created cmp)))) as NDC by (rewrite map_app in ND; apply NoDup_app_l in ND; exact ND).
  destruct (T n eq_refl DR IG TR NDC) as [_ T1]. destruct (T1 r J) as (p & SD & _ & X).
  destruct P as (p' & SD' & ->). rewrite RU, SD' in SD. injection SD as ->. rewrite resolve_denotes in X.
  destruct X as (f & Lf & _).
  { intros r' I' Tg. rewrite RU. apply (base_inj E c w SY _ _ (denotes (e_cwd E) p)); [|apply (sy_listed _ _ _ SY u L)|exact Tg|exists p; auto].
    apply (sy_listed _ _ _ SY). apply IC in I'. destruct I' as [I' _]. apply sget_in in I'. apply (in_map fst) in I'. exists src. auto. }
  rewrite (dir_not_leaf (w_root w2) (denotes (e_cwd E) p)) in Lf; [discriminate|]. apply (oa_dir _ _ _ _ O).
  change (dir_at (w_root (after_report src cmp w)) (denotes (e_cwd E) p)). rewrite N0. exact D.
Qed.
End Blocked.

(** * Mirror: publishing a tree of files and copying it *)

From Verif Require Import Py PyFacts Float64 Float64Facts W3C W3CSpec W3CFacts PathSpec OsPath OsPathFacts UrlAuthority Mapper MapperSpec MapperFacts MapperFacts2
  Resource ResourceSpec ResourceFacts Container ContainerSpec ContainerFacts Capability Xml Sitemap SitemapSpec SitemapText Opener ListIndex ListIndexSpec ListIndexFacts ListIndexWrite FileTime ListIndexRound ListIndexProps TimeLoss Hashes Disk DiskSpec DiskFacts DiskChange
  Builder BuilderSpec BuilderFacts ClientState ClientStateSpec ClientStateFacts Client ClientSpec ClientLists ClientFacts ClientRuns ClientInc ClientCompare ClientPlaces ClientProps
  ClientDownload ClientChanges ClientThms ClientSync ClientReport ClientStatus ClientDirs ConvergeSpec ClientConverge SucceedSpec ClientSucceed
  StoredSpec StoredFacts Build PublishSpec PublishFacts PublishChanges MirrorSpec.

Lemma prefix_split {A} (a b p r : list A) : a ++ b = p ++ r -> (exists k, a = p ++ k) \/ exists z k, p = a ++ z :: k.
Proof.
  revert p. induction a as [|x a IH]; intros [|y p] H; try (left; eexists; reflexivity).
  - right. exists y, p. reflexivity.
  - injection H as -> H. destruct (IH p H) as [(k & ->)|(z & k & ->)]; [left; exists k|right; exists z, k]; reflexivity.
Qed.

Lemma rel_path_inj a b : a <> [] -> b <> [] -> Forall file_name a -> Forall file_name b -> rel_path a = rel_path b -> a = b.
Proof.
  intros N M F G H. unfold rel_path in H. apply (f_equal (split_on "/")) in H.
  rewrite !split_join in H; [exact H|exact M| |exact N|]; [eapply Forall_impl; [|exact G]|eapply Forall_impl; [|exact F]]; intros x (_ & _ & _ & Q); exact Q.
Qed.

(** ** The list as a document *)

Lemma resource_list_stored e c paths links f fs l : publishable e c paths -> fine_links links -> plain_path f ->
  scans_to e c paths false l -> zlen (d_items (l_doc l)) <= at_most c ->
  exists fs' l' d, list_write resource_list_kind (of_md5 (be_digests e)) (be_clock e) (set_links links l) f fs = (fs', Ok l')
    /\ resource_document fs' f d /\ wf_rl (d_items d)
    /\ (forall u, match sget u (d_items (l_doc l)), sget u (d_items d) with
                  | Some r, Some r' => read_close (MkSettings false false false) r r'
                  | None, None => True
                  | _, _ => False
                  end).
Proof.
  intros Pu FL PP H Few. pose proof (published_list_recorded e c paths false links l Pu FL H) as Rec.
  destruct (scan_exactly e c paths false l (proj1 Pu) H) as [W _].
  destruct (scan_is _ _ _ _ _ H) as (b & rl & a & z & _ & _ & _ & _ & NE & El).
  set (l0 := set_links links l) in *.
  assert (IT : d_items (l_doc l0) = d_items (l_doc l)) by (unfold l0; now destruct links).
  assert (F1 : l_name l0 = Some $"resourcelist" /\ l_index l0 = false /\ l_max l0 = limit c /\ l_sm l0 = doc_settings c)
    by (unfold l0; rewrite El; destruct links; repeat split).
  destruct F1 as (F1 & F2 & F3 & F4).
  set (l1 := MkIx (l_doc l0) (l_name l0) (l_max l0) false None false (l_index l0) (l_sm l0)).
  assert (LM : limit c = Some (match bc_max c with Some m => m | None => 50000 end)) by (unfold limit; now destruct (bc_max c)).
  assert (Few' : zlen (rl_iter (d_items (l_doc l0))) <= at_most c) by (unfold zlen; rewrite IT, length_rl_iter by exact W; exact Few).
  destruct (write_read_close (of_md5 (be_digests e)) (be_clock e) (fun _ => Err IOError) l1 f fs (bc_mapper c)
              (match bc_max c with Some m => m | None => 50000 end)) as (fs' & l' & l2 & V1 & V2 & V3 & _).
  - exact (proj1 (proj1 (proj2 Pu))).
  - exact (proj1 (proj2 (proj2 Pu))).
  - change (wf_rl (d_items (l_doc l0))). now rewrite IT.
  - exact Rec.
  - exact F1.
  - exact F2.
  - change (l_max l0 = Some (match bc_max c with Some m => m | None => 50000 end)). rewrite F3. exact LM.
  - exact PP.
  - left. exact Few'.
  - unfold list_read in V2. rewrite plain_path_open in V2 by exact PP.
    destruct (sget f fs') as [file|] eqn:G; [|discriminate]. cbn [bind] in V2.
    destruct (parse_xml _ _ _ _ _ (f_data file)) as [[d ix]|] eqn:P; [|discriminate]. cbn [bind] in V2.
    destruct ix; [discriminate|]. cbn [negb] in V2. injection V2 as <-. cbn [with_doc l_doc d_items] in V3.
    assert (Wd : wf_rl (d_items d)).
    { eapply (parse_xml_keeps wf_rl (k_add resource_list_kind)); [| |exact P]; [intros r x x'; apply rl_add_wf|apply wf_nil]. }
    exists fs', l0, d. split; [|split; [|split; [exact Wd|]]].
    + rewrite (list_write_single resource_list_kind _ _ l1 f fs _ (eq_trans F3 LM) Few') in V1.
      rewrite (list_write_single resource_list_kind _ _ l0 f fs _ (eq_trans F3 LM) Few').
      change (write_doc (be_clock e) (l_sm l0) (l_index l0)
              (MkDoc (written_md l0) (d_ln (l_doc l0)) (k_iter resource_list_kind (d_items (l_doc l0)))) f fs)
        with (write_doc (be_clock e) (l_sm l1) (l_index l1)
              (MkDoc (written_md l1) (d_ln (l_doc l1)) (k_iter resource_list_kind (d_items (l_doc l1)))) f fs).
      destruct (write_doc _ _ _ _ _ _) as [fs1 [x|]]; [discriminate|]. now injection V1 as -> _.
    + exists file. split; [exact G|]. intros fetch uri mf ms F. eexists. split; [|shelve]. unfold list_read. rewrite F. cbn [bind].
      rewrite (parse_xml_settings (l_sm (new_list resource_list_kind $"resourcelist" mf ms)) (l_sm (emptied resource_list_kind l1)) _ _ _ _ _
                 (eq_sym (f_equal s_spec_1_0 F4))).
      change (l_name (emptied resource_list_kind l1)) with (l_name l0) in P. rewrite F1 in P.
      change (l_name (new_list resource_list_kind $"resourcelist" mf ms)) with (Some $"resourcelist").
      change (l_doc (new_list resource_list_kind $"resourcelist" mf ms)) with (l_doc (emptied resource_list_kind l1)).
      rewrite P. cbn [bind negb]. reflexivity. Unshelve. reflexivity.
    + change (d_items (l_doc l1)) with (d_items (l_doc l0)) in V3. change (l_sm l1) with (l_sm l0) in V3. rewrite IT, F4 in V3. intros u.
      pose proof (iter_pairs (d_items (l_doc l)) (d_items d) (read_close (doc_settings c)) W Wd (fun r r' X => proj1 X) V3 u) as X.
      destruct (sget u (d_items (l_doc l))), (sget u (d_items d)); exact X.
Qed.

(** ** The files that are listed *)

Section Source.
Variables (e : benv) (bc : bclient) (base srcdir : str) (l : ixlist rdict).
Hypothesis PB : publisher e bc base srcdir l.
Let m0 : smap := MkMap base srcdir.
(** found_inside is about the directory of a client *)
Let E0 : env := MkEnv (be_cwd e) (fun _ => Err IOError) (fun _ _ => Refused IOError) 0 (be_digests e) unit_floats.

Lemma plain_mapping : plain base /\ plain srcdir /\ one_line base /\ one_line srcdir /\ no_end_slash srcdir.
Proof. destruct (pb_apart _ _ _ _ _ PB) as [M _]. rewrite (pb_mapper _ _ _ _ _ PB) in M. apply (M m0). left. reflexivity. Qed.
Lemma source_names rel d t : source_file e srcdir rel d t -> rel <> [] /\ Forall file_name rel /\ Forall one_line rel.
Proof.
  unfold source_file, leaf_at. intros H. destruct (lookup (denotes (be_cwd e) srcdir ++ rel) (be_root e)) as [n|] eqn:L; [|discriminate].
  split.
  - intros ->. rewrite app_nil_r in L. destruct (pb_dir _ _ _ _ _ PB) as [_ Z]. unfold leaf_at in Z. rewrite L in Z. destruct n; discriminate.
  - split.
    + pose proof (lookup_names _ _ _ (proj1 (pb_able _ _ _ _ _ PB)) L) as X. apply Forall_app in X. apply X.
    + pose proof (pb_names _ _ _ _ _ PB _ _ L) as X. apply Forall_app in X. apply X.
Qed.
Lemma source_on_disk u file n : on_disk e bc None u file n <->
  exists rel d t, source_file e srcdir rel d t /\ n = File d t /\ u = base ++ $"/" ++ rel_path rel /\ file = srcdir ++ $"/" ++ rel_path rel.
Proof.
  destruct plain_mapping as (P1 & P2 & O1 & O2 & NS).
  assert (forall rel, Forall one_line rel -> dst_to_src (bc_mapper bc) (srcdir ++ $"/" ++ rel_path rel) = Ok (base ++ $"/" ++ rel_path rel)) as RT.
  { intros rel O. destruct (multi_round_trip_plain (bc_mapper bc) m0 (rel_path rel)) as [_ B].
    - rewrite (pb_mapper _ _ _ _ _ PB). left. reflexivity.
    - intros k K. destruct (proj1 (pb_apart _ _ _ _ _ PB) k K) as (? & ? & ? & ? & _). auto.
    - apply (pb_apart _ _ _ _ _ PB).
    - apply rel_path_one_line, O.
    - exact B. }
  assert (In srcdir (start_points (bc_mapper bc) None)) as IS by (rewrite (pb_mapper _ _ _ _ _ PB); left; reflexivity).
  split.
  - intros (start & rel & Is & F & D). rewrite (pb_mapper _ _ _ _ _ PB) in Is. destruct Is as [<-|[]]. rewrite (pb_exclude _ _ _ _ _ PB) in F.
    destruct (found_inside E0 (be_root e) m0 rel file n F (proj1 (pb_able _ _ _ _ _ PB)) NS) as (FN & _ & R & L & Q).
    cbn [dst_path m0 e_cwd E0] in *. rewrite R in L. destruct F as [[(d & t & ->)|(t & ->)] _].
    + destruct (source_names rel d t L) as (NR & _ & OL). exists rel, d, t. split; [exact L|]. split; [reflexivity|]. rewrite (Q NR) in *.
      rewrite (RT rel OL) in D. injection D as <-. auto.
    + exfalso. unfold leaf_at in L. destruct (lookup _ (be_root e)) as [k|] eqn:K; [|discriminate]. apply (pb_plain _ _ _ _ _ PB (denotes (be_cwd e) srcdir ++ rel) t). rewrite K. f_equal.
      destruct k; try discriminate; injection L as ->; reflexivity.
  - intros (rel & d & t & S & -> & -> & ->). destruct (source_names rel d t S) as (NR & FN & OL). exists srcdir, rel. split; [exact IS|].
    split; [|apply RT, OL]. rewrite (pb_exclude _ _ _ _ _ PB).
    apply (found_below E0 (be_root e) m0 rel (File d t) NR FN (proj1 (pb_dir _ _ _ _ _ PB)) NS); [left; eauto|exact S].
Qed.
Lemma source_rel_inj rel rel' d t d' t' : source_file e srcdir rel d t -> source_file e srcdir rel' d' t' ->
  base ++ $"/" ++ rel_path rel = base ++ $"/" ++ rel_path rel' -> rel = rel'.
Proof.
  intros S S' H. destruct (source_names _ _ _ S) as (N & F & _), (source_names _ _ _ S') as (N' & F' & _).
  apply app_inv_head in H. change ($"/" ++ rel_path rel) with ("/"%char :: rel_path rel) in H. change ($"/" ++ rel_path rel') with ("/"%char :: rel_path rel') in H.
  injection H as H. apply rel_path_inj; auto.
Qed.

(** What the published document says. *)
Variables (d : doc rdict).
Hypothesis WD : wf_rl (d_items d).
Hypothesis SAY : forall u, match sget u (d_items (l_doc l)), sget u (d_items d) with
                  | Some r, Some r' => read_close (MkSettings false false false) r r'
                  | None, None => True
                  | _, _ => False
                  end.
Lemma document_says u : 
  (forall r, sget u (d_items d) = Some r -> exists rel b t t', source_file e srcdir rel b t /\ u = base ++ $"/" ++ rel_path rel
     /\ r_timestamp r = Some t' /\ 1000000 * Z.abs (t' - t) < 2 * SEC /\ r_length r = Some (zlen b) /\ file_time t)
  /\ (forall rel b t, source_file e srcdir rel b t -> u = base ++ $"/" ++ rel_path rel -> exists r, sget u (d_items d) = Some r).
Proof.
  destruct (scan_exactly e bc None false l (proj1 (pb_able _ _ _ _ _ PB)) (pb_scans _ _ _ _ _ PB)) as [W S]. specialize (SAY u). split.
  - intros r G. rewrite G in SAY. destruct (sget u (d_items (l_doc l))) as [r0|] eqn:G0; [|contradiction].
    apply sget_in in G0. apply S in G0. destruct G0 as (file & n & O & ->).
    destruct (pb_able _ _ _ _ _ PB) as (_ & _ & _ & _ & FT). destruct (FT u file n O) as (_ & _ & _ & TM).
    apply source_on_disk in O. destruct O as (rel & b & t & SF & -> & -> & ->). destruct SAY as (_ & C & _ & LN & _). cbn in C, LN.
    destruct (r_timestamp r) as [t'|]; [|contradiction]. exists rel, b, t, t'. split; [exact SF|]. split; [reflexivity|]. split; [reflexivity|].
    split; [exact C|]. split; [exact LN|]. apply TM. reflexivity.
  - intros rel b t SF ->. assert (In (base ++ $"/" ++ rel_path rel, described (be_digests e) (bc_hashes bc) true false (base ++ $"/" ++ rel_path rel) (srcdir ++ $"/" ++ rel_path rel) (File b t)) (d_items (l_doc l))) as I.
    { apply S. exists (srcdir ++ $"/" ++ rel_path rel), (File b t). split; [|reflexivity]. apply source_on_disk. exists rel, b, t. auto. }
    apply (in_sget _ _ _ (proj1 W)) in I. rewrite I in SAY. destruct (sget _ (d_items d)); [eauto|contradiction].
Qed.

(** ** The copy *)

Section Copy.
Variables (E : env) (c : client) (w : world) (dstdir sm text : str).
Hypothesis CP : copier E c w base dstdir sm.
Hypothesis SV : serves E c e base srcdir sm text.
Hypothesis READ : find_resource_list (e_fetch E) c = Ok (d_items d).

Lemma entry_says u r : source_entry E c u r -> exists rel b t t', source_file e srcdir rel b t /\ u = base ++ $"/" ++ rel_path rel
     /\ r_timestamp r = Some t' /\ 1000000 * Z.abs (t' - t) < 2 * SEC /\ r_length r = Some (zlen b) /\ file_time t.
Proof.
  intros (src & F & I). rewrite READ in F. injection F as <-. apply (proj1 (document_says u)). apply in_sget; [apply WD|exact I].
Qed.
Lemma listed_says u : listed E c u <-> exists rel b t, source_file e srcdir rel b t /\ u = base ++ $"/" ++ rel_path rel.
Proof.
  split.
  - intros (src & F & I). apply in_map_iff in I. destruct I as ([u0 r] & <- & I). destruct (entry_says u0 r) as (rel & b & t & t' & S & U & _); [exists src; auto|]. eauto.
  - intros (rel & b & t & S & U). destruct (proj2 (document_says u) rel b t S U) as (r & G). exists (d_items d). split; [exact READ|].
    apply sget_in in G. apply (in_map fst) in G. exact G.
Qed.
Lemma copy_base rel b t : source_file e srcdir rel b t -> below_base c (base ++ $"/" ++ rel_path rel).
Proof.
  intros S. destruct (source_names rel b t S) as (N & F & O). exists (MkMap base dstdir), rel. rewrite (cp_mapper _ _ _ _ _ _ CP). cbn. auto.
Qed.
Lemma copy_synchronizable : synchronizable E c w.
Proof.
  split.
  - apply CP.
  - apply CP.
  - split; [apply CP|]. intros m m' q I I' _ _. rewrite (cp_mapper _ _ _ _ _ _ CP) in I, I'. destruct I as [<-|[]], I' as [<-|[]]. reflexivity.
  - intros m I. rewrite (cp_mapper _ _ _ _ _ _ CP) in I. destruct I as [<-|[]]. destruct (cp_dir _ _ _ _ _ _ CP) as [N L]. split; [exact N|].
    apply (L _ []). now rewrite app_nil_r.
  - intros u L. apply listed_says in L. destruct L as (rel & b & t & S & ->). eapply copy_base; eauto.
Qed.
Lemma copy_place rel b t q : source_file e srcdir rel b t -> place_of E c (base ++ $"/" ++ rel_path rel) q <-> q = denotes (e_cwd E) dstdir ++ rel.
Proof.
  intros S. destruct (base_place E c w copy_synchronizable _ (copy_base rel b t S)) as (m & rel' & I & N' & F' & O' & U & SD & _ & DN).
  rewrite (cp_mapper _ _ _ _ _ _ CP) in I. destruct I as [<-|[]]. cbn [src_uri dst_path] in *.
  assert (rel' = rel) as ->.
  { destruct (source_names _ _ _ S) as (N & F & _). apply app_inv_head in U.
    change ($"/" ++ rel_path rel) with ("/"%char :: rel_path rel) in U. change ($"/" ++ rel_path rel') with ("/"%char :: rel_path rel') in U.
    injection U as U. symmetry. apply rel_path_inj; auto. }
  rewrite (place_of_is E c _ _ q SD), DN. reflexivity.
Qed.
Lemma copy_nothing rest x : lookup (denotes (e_cwd E) dstdir ++ x :: rest) (w_root w) = None.
Proof. pose proof (cp_empty _ _ _ _ _ _ CP x) as H. change (x :: rest) with ([x] ++ rest). rewrite app_assoc, lookup_app, H. reflexivity. Qed.
Lemma copy_favourable : favourable E c w.
Proof.
  pose proof copy_synchronizable as SY. split.
  - exact SY.
  - destruct (pb_some _ _ _ _ _ PB) as (rel & b & t & S). exists (base ++ $"/" ++ rel_path rel). apply listed_says. eauto.
  - apply CP.
  - intros u q L P. apply listed_says in L. destruct L as (rel & b & t & S & ->). apply (copy_place rel b t q S) in P. subst q.
    destruct (source_names rel b t S) as (N & _). destruct rel as [|x rel]; [congruence|].
    split; [intros [es X]; rewrite copy_nothing in X; discriminate|]. split; [intros n X; unfold leaf_at in X; rewrite copy_nothing in X; discriminate|]. split.
    + intros p y rest X. destruct (prefix_split (denotes (e_cwd E) dstdir) (x :: rel) p (y :: rest) X) as [(k & D)|(z & k & ->)].
      * apply (proj2 (cp_dir _ _ _ _ _ _ CP) p k D).
      * unfold leaf_at. rewrite copy_nothing. reflexivity.
    + intros u' y rest L' P'. apply listed_says in L'. destruct L' as (rel' & b' & t' & S' & ->). apply (copy_place rel' b' t' _ S') in P'.
      rewrite <- app_assoc in P'. apply app_inv_head in P'. subst rel'. unfold source_file, leaf_at in S, S'.
      rewrite app_assoc, lookup_app in S'. destruct (lookup (denotes (be_cwd e) srcdir ++ x :: rel) (be_root e)) as [[]|]; cbn in S'; congruence.
  - intros u L k. apply listed_says in L. destruct L as (rel & b & t & S & ->). exists O, b. split; [apply CP|]. split; [|intros i X; lia].
    destruct SV as [_ G]. apply (G rel b t S).
  - destruct (c_noauth c) eqn:NA; [left; exact NA|right]. exists sm. split; [unfold sitemap; rewrite (cp_sitemap _ _ _ _ _ _ CP); reflexivity|].
    intros u L. apply listed_says in L. destruct L as (rel & b & t & S & ->). destruct SV as [_ G]. destruct (G rel b t S) as (_ & [X|X]); [rewrite X in NA; discriminate|exact X].
  - split.
    + intros u r t0 SE T. destruct (entry_says u r SE) as (rel & b & t & t' & _ & _ & TS & C & _ & FT). rewrite TS in T. injection T as ->.
      unfold before_10000. unfold file_time in FT. pose proof SEC_pos. change (2 ^ 32) with 4294967296 in FT. lia.
    + intros u n t LN _. exfalso. destruct (node_base E c w SY w u n (sy_world _ _ _ SY) (proj1 (sy_names _ _ _ SY)) (sy_free _ _ _ SY) LN) as (B & _ & q & P & L).
      destruct (base_place E c w SY u B) as (m & rel & I & N & _ & _ & _ & SD & _ & DN). apply (place_of_is E c _ _ _ SD) in P. rewrite DN in P. subst q.
      rewrite (cp_mapper _ _ _ _ _ _ CP) in I. destruct I as [<-|[]]. destruct rel as [|x rel]; [congruence|]. cbn [dst_path] in L. unfold leaf_at in L. rewrite copy_nothing in L. discriminate.
  - apply CP.
  - apply CP.
Qed.
Lemma copy_honest : honest E c.
Proof.
  intros u r SE. destruct (entry_says u r SE) as (rel & b & t & t' & S & -> & TS & _ & LN & _). split; [congruence|].
  intros k b' G x y X Y. destruct SV as [_ GE]. rewrite (proj1 (GE rel b t S) k) in G. injection G as <-. congruence.
Qed.
Lemma copied : exists w', baseline_or_audit E c true false w = (w', Ok tt) /\ mirrored E w' dstdir e srcdir
  /\ forall E' allow audit, e_fetch E' = e_fetch E -> e_cwd E' = e_cwd E ->
     exists w2 s, baseline_or_audit E' c allow audit w' = (w2, Ok tt) /\ no_effect w' w2 /\ w_log w2 = w_log w' ++ [Logged s] /\ st_word s = $"IN SYNC".
Proof.
  pose proof copy_synchronizable as SY. destruct (cp_options _ _ _ _ _ _ CP) as (DR & IG & TR).
  destruct (baseline_succeeds E c w copy_favourable DR true) as (w' & H). exists w'. split; [exact H|]. split.
  - destruct (baseline_ran E c w SY w' DR IG TR H) as (T & D & R). destruct (converged E c w w' SY DR IG TR H) as [CV _]. intros rel. split.
    + intros b t S. destruct (proj2 (document_says _) rel b t S eq_refl) as (r & G).
      assert (source_entry E c (base ++ $"/" ++ rel_path rel) r) as SE by (exists (d_items d); split; [exact READ|apply sget_in, G]).
      destruct (CV _ r SE) as (q & n & P & L & Q & TM). apply (copy_place rel b t q S) in P. subst q.
      destruct (entry_says _ r SE) as (rel' & b' & t0 & t' & S' & U & TS & C & _). pose proof (source_rel_inj _ _ _ _ _ _ S S' U) as <-.
      assert (t0 = t) as -> by (unfold source_file in S, S'; congruence).
      destruct (TM t' TS) as (mt & M & CL). destruct Q as [(k & b1 & _ & GE & ->)|[L0 _]].
      * destruct (entry_uri E c _ r SE) as [RU _]. rewrite RU in GE. destruct SV as [_ SG]. rewrite (proj1 (SG rel b t S) k) in GE. injection GE as <-.
        eexists. split; [exact L|]. rewrite TS in *. cbn in M. injection M as <-. pose proof SEC_pos. lia.
      * destruct (source_names rel b t S) as (N & _). destruct rel as [|x rel]; [congruence|]. unfold leaf_at in L0. rewrite copy_nothing in L0. discriminate.
    + intros n L. destruct (rn_rest _ _ _ _ _ _ R (denotes (e_cwd E) dstdir ++ rel)) as [(r & Tr & P)|[(u & Du & P)|Q]].
      * destruct (rn_transferred _ _ _ _ _ _ R r Tr) as [SE _]. destruct (entry_says _ r SE) as (rel' & b & t & t' & S & U & _).
        rewrite U in P. apply (copy_place rel' b t _ S) in P. apply app_inv_head in P. subst rel'. eauto.
      * destruct (rn_deleted _ _ _ _ _ _ R u Du) as (_ & _ & q & P' & L'). destruct P as (p & S1 & Q1), P' as (p' & S2 & ->). congruence.
      * rewrite Q in L. destruct rel as [|x rel].
        -- exfalso. rewrite app_nil_r in L. rewrite (proj2 (cp_dir _ _ _ _ _ _ CP) _ []) in L; [discriminate|now rewrite app_nil_r].
        -- unfold leaf_at in L. rewrite copy_nothing in L. discriminate.
  - destruct (cp_hashes _ _ _ _ _ _ CP) as [HK HS]. apply (converged_again E c w w' SY copy_honest DR IG TR HK HS H).
Qed.
End Copy.
End Source.

(** ** From the publisher's disk to the client's *)

Lemma mirror e bc links f wp base srcdir l : publisher e bc base srcdir l -> fine_links links -> plain_path f ->
  exists fs' file, write_resource_list e bc None (Some f) links false wp = (with_fs fs' wp, Ok tt) /\ sget f fs' = Some file
    /\ forall E c w dstdir sm, copier E c w base dstdir sm -> serves E c e base srcdir sm (f_data file) ->
       exists w', baseline_or_audit E c true false w = (w', Ok tt) /\ mirrored E w' dstdir e srcdir
       /\ forall E' allow audit, e_fetch E' = e_fetch E -> e_cwd E' = e_cwd E ->
          exists w2 s, baseline_or_audit E' c allow audit w' = (w2, Ok tt) /\ no_effect w' w2 /\ w_log w2 = w_log w' ++ [Logged s] /\ st_word s = $"IN SYNC".
Proof.
  intros PB FL PP. destruct (resource_list_stored e bc None links f (o_fs wp) l) as (fs' & l' & d & W1 & (file & G & RD) & WD & SAY); [apply PB|exact FL|exact PP|apply PB|apply PB|].
  exists fs', file. split; [|split; [exact G|]].
  - unfold write_resource_list, wbind, wlift. pose proof (pb_scans _ _ _ _ _ PB) as H. unfold scans_to in H. rewrite H. unfold put_list. rewrite W1. reflexivity.
  - intros E c w dstdir sm CP SV. apply (copied e bc base srcdir l PB d WD SAY E c w dstdir sm (f_data file) CP SV).
    unfold find_resource_list. rewrite (cp_sitemap _ _ _ _ _ _ CP). unfold read_resource_list.
    destruct (RD (e_fetch E) sm (c_multifile c) (Some (c_mapper c)) (proj1 SV)) as (l2 & -> & <-). reflexivity.
Qed.

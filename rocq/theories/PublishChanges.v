(** * PublishChanges: change lists made from a reference and the disk *)

From Verif Require Import Py PyFacts Float64 Float64Facts W3C W3CSpec W3CFacts W3CRound Mapper MapperSpec Resource ResourceSpec
  Container ContainerSpec ContainerFacts Xml Sitemap SitemapSpec SitemapFacts SitemapText SitemapLists Opener ListIndex
  ListIndexSpec ListIndexFacts ListIndexWrite FileTime ListIndexRound ListIndexProps Hashes Disk DiskSpec OsPath Builder
  BuilderSpec BuilderFacts Client TimeLoss StoredSpec StoredFacts Build PublishSpec PublishFacts.

(** ** Change lists, entry by entry *)

Lemma entries_app u a b : entries_for u (a ++ b) = entries_for u a ++ entries_for u b.
Proof. apply filter_app. Qed.

Lemma entries_changed u c rs : NoDup (map r_uri rs) ->
  entries_for u (map (store_change c) rs) = match look u rs with Some r => [store_change c r] | None => [] end.
Proof.
  induction rs as [|r rs IH]; intros ND; [reflexivity|]. cbn [map] in *. inversion ND as [|? ? NI ND']; subst.
  unfold entries_for in *. cbn [filter]. rewrite look_cons. cbn [r_uri store_change].
  destruct (str_eqb_spec (r_uri r) u) as [<-|N]; [|auto]. f_equal. rewrite IH by auto.
  replace (look (r_uri r) rs) with (@None resource); [reflexivity|]. symmetry. now apply look_none.
Qed.

Lemma change_entries od os old new : od <> os -> wf_rl old -> wf_rl new ->
  exists l, change_list_between od os old new = Ok l /\
  forall u, entries_for u l =
    match map_of old u, map_of new u with
    | None, None => []
    | Some d, None => [store_change (Some $"deleted") d]
    | None, Some s => [store_change (Some $"created") s]
    | Some d, Some s => if r_eqb d s then [] else [store_change (Some $"updated") s]
    end.
Proof.
  intros NE Wo Wn. destruct (compare_spec od os old new NE Wo Wn) as (c & E & V1 & V2 & V3 & V4 & R).
  unfold change_list_between. rewrite E. cbn [bind].
  rewrite !cl_add_changed_ok by (apply valid_updated || apply valid_deleted || apply valid_created).
  eexists. split; [reflexivity|]. intros u. cbn [app].
  rewrite !entries_app, !entries_changed by now apply rl_iter_NoDup.
  rewrite !look_iter by assumption. destruct (R u) as (_ & R2 & R3 & R4). unfold map_of in R2, R3, R4.
  rewrite R2, R3, R4. unfold spec_updated, spec_deleted, spec_created, map_of.
  destruct (sget u old), (sget u new); cbn [app]; try reflexivity. destruct (r_eqb _ _); reflexivity.
Qed.

(** ** Close descriptions *)

Lemma fsub_small a b : 1000000 * Z.abs (a - b) <= 999999 * SEC -> Z.abs (fsub a b) < SEC.
Proof.
  intros H. rewrite fsub_abs. pose proof SEC_pos as SP. pose proof U_pos as UP. pose proof SEC_U as SU.
  set (n := Z.abs (a - b)) in *. assert (N : 0 <= n) by (unfold n; lia). clearbody n.
  assert (X : 2 * Z.abs (rnd n 1 - n) <= 2 ^ (1020 + 1)).
  { apply rnd_err; [lia|]. replace (1020 + 1 + 53) with 1074 by lia. fold SEC. lia. }
  rewrite pow_U in X by lia. change (2 ^ 1) with 2 in X. change (2 ^ 54) with 18014398509481984 in SU. lia.
Qed.

Lemma fsub_large a b : SEC <= Z.abs (a - b) -> SEC <= Z.abs (fsub a b).
Proof. intros H. rewrite fsub_abs. unfold SEC in *. apply rnd_ge_pow2; [lia|exact H]. Qed.

Lemma clash_in {A} (eqb : A -> A -> bool) (cond : bool) (x y : A) : (eqb x y = true <-> x = y) ->
  clash eqb (if cond then Some x else None) (if cond then Some y else None) = true <-> (cond = true /\ x <> y).
Proof.
  intros E. destruct cond; cbn [clash].
  - destruct (eqb x y) eqn:Q; cbn [negb]; split; try easy.
    + intros [_ N]. exfalso. apply N, E. reflexivity.
    + intros _. split; [reflexivity|]. intros X. apply E in X. discriminate.
  - split; [discriminate|intros [X _]; discriminate].
Qed.

Section Compare.
Variables (D : digests) (hashes : list str) (sm : settings).

Lemma old_equal path path' u file file' n n' old :
  read_close sm (described D hashes true path u file n) old -> clearly_same D hashes n n' ->
  r_eqb old (described D hashes true path' u file' n') = true.
Proof.
  intros (HU & HT & _ & HL & _ & H1 & H2 & H3 & _) (SL & (S1 & S2 & S3) & t & t' & T1 & T2 & TD).
  unfold r_eqb, equal. rewrite HU. cbn [described r_uri]. rewrite str_eqb_refl. cbn [negb].
  unfold described in HT, HL, H1, H2, H3 |- *. cbn [r_timestamp r_length r_md5 r_sha1 r_sha256] in *.
  rewrite T1 in HT. rewrite T2. destruct (r_timestamp old) as [t0|]; [|contradiction]. cbn [close_to] in HT.
  pose proof SEC_pos as SP.
  destruct (Z.leb_spec SEC (Z.abs (fsub t0 t'))) as [X|_].
  { pose proof (fsub_small t0 t' ltac:(lia)). lia. }
  rewrite H1, H2, H3, HL.
  assert (Q : forall (name : str) (f : str -> str), (In name hashes -> f (data_of n) = f (data_of n')) ->
    clash str_eqb (if in_strs name hashes then Some (f (data_of n)) else None)
      (if in_strs name hashes then Some (f (data_of n')) else None) = false).
  { intros name f Hf. destruct (clash _ _ _) eqn:C; [|reflexivity]. apply clash_in in C; [|apply str_eqb_eq].
    destruct C as [I N]. apply in_strs_In in I. exfalso. auto. }
  rewrite !Q by assumption. cbn [clash]. rewrite SL, Z.eqb_refl. reflexivity.
Qed.

Lemma old_different path path' u file file' n n' old :
  read_close sm (described D hashes true path u file n) old -> clearly_different D hashes n n' ->
  r_eqb old (described D hashes true path' u file' n') = false.
Proof.
  intros (HU & HT & _ & HL & _ & H1 & H2 & H3 & _) Di.
  unfold r_eqb, equal. rewrite HU. cbn [described r_uri]. rewrite str_eqb_refl. cbn [negb].
  unfold described in HT, HL, H1, H2, H3 |- *. cbn [r_timestamp r_length r_md5 r_sha1 r_sha256] in *.
  rewrite H1, H2, H3, HL. clear H1 H2 H3 HL HU.
  assert (Q : forall (name : str) (f : str -> str), In name hashes /\ f (data_of n) <> f (data_of n') ->
    clash str_eqb (if in_strs name hashes then Some (f (data_of n)) else None)
      (if in_strs name hashes then Some (f (data_of n')) else None) = true).
  { intros name f [I N]. apply clash_in; [apply str_eqb_eq|]. split; [now apply in_strs_In|exact N]. }
  destruct (match r_timestamp old, mtime_of n' with None, None => false | _, _ => _ end) eqn:TE; [reflexivity|].
  destruct Di as [Di|[Di|[Di|[Di|Di]]]].
  - destruct (clash str_eqb _ _); [reflexivity|]. destruct (clash str_eqb _ _); [reflexivity|].
    destruct (clash str_eqb _ _); [reflexivity|]. cbn [clash].
    destruct (Z.eqb_spec (Z.of_nat (List.length (data_of n))) (Z.of_nat (List.length (data_of n')))); [lia|reflexivity].
  - rewrite (Q $"md5" (of_md5 D) Di). reflexivity.
  - rewrite (Q $"sha-1" (of_sha1 D) Di). destruct (clash str_eqb _ _); reflexivity.
  - rewrite (Q $"sha-256" (of_sha256 D) Di). destruct (clash str_eqb _ _); [reflexivity|]. destruct (clash str_eqb _ _); reflexivity.
  - exfalso. destruct Di as (t & t' & T1 & T2 & TD). rewrite T1 in HT. rewrite T2 in TE.
    destruct (r_timestamp old) as [t0|]; [|contradiction]. cbn [close_to] in HT.
    apply Z.leb_gt in TE. pose proof SEC_pos as SP. pose proof (fsub_large t0 t' ltac:(lia)). lia.
Qed.
End Compare.

Lemma short_entries : forall l, (forall u, (List.length (entries_for u l) <= 1)%nat) -> NoDup (map r_uri l).
Proof.
  induction l as [|r l IH]; intros H; [constructor|]. cbn [map]. constructor.
  - intros I. apply in_map_iff in I as (x & E & I). specialize (H (r_uri r)). unfold entries_for in H. cbn [filter] in H.
    rewrite str_eqb_refl in H. cbn [List.length] in H.
    assert (I' : In x (filter (fun r0 => str_eqb (r_uri r0) (r_uri r)) l)).
    { apply filter_In. split; [exact I|]. rewrite E. apply str_eqb_refl. }
    destruct (filter _ l); [contradiction|cbn [List.length] in H; lia].
  - apply IH. intros u. specialize (H u). unfold entries_for in *. cbn [filter] in H. destruct (str_eqb _ _); cbn [List.length] in H; lia.
Qed.

(** ** Changes since a published list *)

(** What the entries of a change list should be: [before] and [after] tell the files that
    were published with a URI. *)
Definition right_changes (D : digests) (hashes : list str) (path : bool)
    (before after : str -> str -> node -> Prop) (changes : list resource) : Prop :=
  (forall u, (forall file n, ~ before u file n) -> (forall file n, ~ after u file n) -> entries_for u changes = [])
  /\ (forall u file n, after u file n -> (forall file n, ~ before u file n) ->
        entries_for u changes = [store_change (Some $"created") (described D hashes true path u file n)])
  /\ (forall u file n, before u file n -> (forall file n, ~ after u file n) ->
        exists r, entries_for u changes = [store_change (Some $"deleted") r]
          /\ read_close (MkSettings false false false) (described D hashes true false u file n) r)
  /\ (forall u file n file' n', before u file n -> after u file' n' -> clearly_same D hashes n n' ->
        entries_for u changes = [])
  /\ (forall u file n file' n', before u file n -> after u file' n' -> clearly_different D hashes n n' ->
        entries_for u changes = [store_change (Some $"updated") (described D hashes true path u file' n')])
  /\ (forall r, In r changes -> exists x, In r (map (fun c => store_change (Some c) x) [$"created"; $"updated"; $"deleted"])).

Lemma changes_between_right web e e' c paths path links f fs l l' : be_digests e = be_digests e' ->
  publishable e c paths -> publishable e' c paths -> fine_links links -> plain_path f ->
  scans_to e c paths false l -> scans_to e' c paths path l' -> room_for c f l ->
  exists fs' l1 l2 changes,
    list_write resource_list_kind (of_md5 (be_digests e)) (be_clock e) (set_links links l) f fs = (fs', Ok l1)
    /\ list_read resource_list_kind (open_uri fs' web) false (reading c) f = Ok l2
    /\ change_list_between 0 1 (d_items (l_doc l2)) (d_items (l_doc l')) = Ok changes
    /\ right_changes (be_digests e') (bc_hashes c) path (on_disk e c paths) (on_disk e' c paths) changes
    /\ (forall r, In r changes -> (exists u file n, on_disk e c paths u file n
            /\ exists x ch, r = store_change (Some ch) x /\ valid_change (Some ch)
               /\ read_close (MkSettings false false false) (described (be_digests e) (bc_hashes c) true false u file n) x)
          \/ (exists u file n ch, on_disk e' c paths u file n /\ valid_change (Some ch)
               /\ r = store_change (Some ch) (described (be_digests e) (bc_hashes c) true path u file n)))
    /\ zlen changes <= zlen (d_items (l_doc l)) + zlen (d_items (l_doc l')).
Proof.
  intros ED Pu Pu' FL PP H H' Room.
  destruct (write_scan web e c paths false links f fs l Pu FL PP H Room) as (fs' & l1 & l2 & W1 & W2 & W3 & W4 & _).
  destruct (scan_exactly e c paths false l (proj1 Pu) H) as [W S].
  destruct (scan_exactly e' c paths path l' (proj1 Pu') H') as [W' S'].
  destruct (change_entries 0 1 (d_items (l_doc l2)) (d_items (l_doc l')) ltac:(discriminate) W3 W') as (changes & E & X).
  assert (B1 : forall u file n, on_disk e c paths u file n -> exists r, sget u (d_items (l_doc l2)) = Some r
    /\ read_close (MkSettings false false false) (described (be_digests e) (bc_hashes c) true false u file n) r).
  { intros u file n O. assert (I : In (u, described (be_digests e) (bc_hashes c) true false u file n) (d_items (l_doc l)))
      by (apply S; eauto). apply (in_sget _ _ _ (proj1 W)) in I. specialize (W4 u). rewrite I in W4.
    destruct (sget u (d_items (l_doc l2))) as [r|]; [eauto|contradiction]. }
  assert (B2 : forall u r, sget u (d_items (l_doc l2)) = Some r -> exists file n, on_disk e c paths u file n).
  { intros u r G. specialize (W4 u). rewrite G in W4. destruct (sget u (d_items (l_doc l))) as [r0|] eqn:E0; [|contradiction].
    apply sget_in in E0. apply S in E0 as (file & n & O & _). eauto. }
  assert (A1 : forall u file n, on_disk e' c paths u file n ->
    sget u (d_items (l_doc l')) = Some (described (be_digests e') (bc_hashes c) true path u file n)).
  { intros u file n O. apply in_sget; [apply W'|]. apply S'. eauto. }
  assert (A2 : forall u r, sget u (d_items (l_doc l')) = Some r -> exists file n, on_disk e' c paths u file n
    /\ r = described (be_digests e') (bc_hashes c) true path u file n).
  { intros u r G. apply sget_in in G. now apply S' in G. }
  assert (N1 : forall u, (forall file n, ~ on_disk e c paths u file n) -> sget u (d_items (l_doc l2)) = None).
  { intros u N. destruct (sget u (d_items (l_doc l2))) eqn:G; [|reflexivity]. apply B2 in G as (file & n & O). exfalso. eapply N, O. }
  assert (N2 : forall u, (forall file n, ~ on_disk e' c paths u file n) -> sget u (d_items (l_doc l')) = None).
  { intros u N. destruct (sget u (d_items (l_doc l'))) eqn:G; [|reflexivity]. apply A2 in G as (file & n & O & _). exfalso. eapply N, O. }
  exists fs', l1, l2, changes. split; [exact W1|]. split; [exact W2|]. split; [exact E|].
  unfold map_of in X.
  assert (Each : forall r, In r changes -> In r (entries_for (r_uri r) changes)).
  { intros r I. unfold entries_for. apply filter_In. split; [exact I|apply str_eqb_refl]. }
  split; [split; [|split; [|split; [|split; [|split]]]]|split].
  - intros u Nb Na. rewrite X, N1, N2 by assumption. reflexivity.
  - intros u file n O Nb. rewrite X, N1, (A1 u file n O) by assumption. reflexivity.
  - intros u file n O Na. destruct (B1 u file n O) as (r & G & C). exists r. rewrite X, N2, G by assumption.
    rewrite <- ED. auto.
  - intros u file n file' n' Ob Oa Sa. destruct (B1 u file n Ob) as (r & G & C). rewrite X, G, (A1 u file' n' Oa).
    rewrite <- ED in *. rewrite (old_equal _ _ _ _ _ _ _ _ _ _ _ C Sa). reflexivity.
  - intros u file n file' n' Ob Oa Di. destruct (B1 u file n Ob) as (r & G & C). rewrite X, G, (A1 u file' n' Oa).
    rewrite <- ED in *. rewrite (old_different _ _ _ _ _ _ _ _ _ _ _ C Di). reflexivity.
  - intros r I. apply Each in I. rewrite X in I.
    destruct (sget _ (d_items (l_doc l2))) as [d|], (sget _ (d_items (l_doc l'))) as [s|].
    + destruct (r_eqb d s); [contradiction|]. destruct I as [I|[]]. exists s. rewrite <- I. cbn [map In]. auto.
    + destruct I as [I|[]]. exists d. rewrite <- I. cbn [map In]. auto.
    + destruct I as [I|[]]. exists s. rewrite <- I. cbn [map In]. auto.
    + contradiction.
  - intros r I. apply Each in I. rewrite X in I. rewrite ED.
    destruct (sget _ (d_items (l_doc l2))) as [d|] eqn:G2, (sget _ (d_items (l_doc l'))) as [s|] eqn:G'.
    + destruct (r_eqb d s); [contradiction|]. destruct I as [I|[]]. right. apply A2 in G' as (file & n & O & ->).
      exists (r_uri r), file, n, $"updated". split; [exact O|]. split; [apply valid_updated|auto].
    + destruct I as [I|[]]. left. destruct (B2 _ _ G2) as (file & n & O). exists (r_uri r), file, n. split; [exact O|].
      destruct (B1 _ _ _ O) as (d' & G3 & C). rewrite G2 in G3. injection G3 as <-. rewrite <- ED.
      exists d, $"deleted". split; [auto|]. split; [apply valid_deleted|exact C].
    + destruct I as [I|[]]. right. apply A2 in G' as (file & n & O & ->).
      exists (r_uri r), file, n, $"created". split; [exact O|]. split; [apply valid_created|auto].
    + contradiction.
  - assert (N : NoDup (map r_uri changes)).
    { apply short_entries. intros u. rewrite X. destruct (sget _ (d_items (l_doc l2))) as [d|], (sget _ (d_items (l_doc l'))) as [s|];
        [destruct (r_eqb d s)| | |]; cbn [List.length]; lia. }
    assert (Inc : incl (map r_uri changes) (dkeys (d_items (l_doc l)) ++ dkeys (d_items (l_doc l')))).
    { intros u I. apply in_map_iff in I as (r & <- & I). apply Each in I. rewrite X in I. apply in_or_app.
      destruct (sget _ (d_items (l_doc l2))) as [d|] eqn:G2.
      - left. destruct (B2 _ _ G2) as (file & n & O). apply (in_map fst (d_items (l_doc l)) (r_uri r, described (be_digests e) (bc_hashes c) true false (r_uri r) file n)).
        apply S. eauto.
      - right. destruct (sget _ (d_items (l_doc l'))) as [s|] eqn:G'; [|contradiction]. apply sget_in in G'.
        apply (in_map fst (d_items (l_doc l')) (r_uri r, s)). exact G'. }
    pose proof (NoDup_incl_length N Inc) as Len. rewrite app_length in Len. unfold dkeys in Len. rewrite !map_length in Len.
    unfold zlen. lia.
Qed.

(** Nothing has happened since. *)
Lemma no_entries changes : (forall u, entries_for u changes = []) -> changes = [].
Proof.
  intros H. destruct changes as [|r rs]; [reflexivity|]. specialize (H (r_uri r)). unfold entries_for in H. cbn [filter] in H.
  rewrite str_eqb_refl in H. discriminate.
Qed.

Lemma unchanged web e e' c paths path links f fs l l' : be_digests e = be_digests e' -> be_cwd e = be_cwd e' -> be_root e = be_root e' ->
  publishable e c paths -> publishable e' c paths -> fine_links links -> plain_path f ->
  scans_to e c paths false l -> scans_to e' c paths path l' -> room_for c f l ->
  exists fs' l1 l2,
    list_write resource_list_kind (of_md5 (be_digests e)) (be_clock e) (set_links links l) f fs = (fs', Ok l1)
    /\ list_read resource_list_kind (open_uri fs' web) false (reading c) f = Ok l2
    /\ change_list_between 0 1 (d_items (l_doc l2)) (d_items (l_doc l')) = Ok [].
Proof.
  intros ED EC ER Pu Pu' FL PP H H' Room.
  assert (OD : forall u file n, on_disk e' c paths u file n <-> on_disk e c paths u file n)
    by (intros u file n; unfold on_disk; rewrite EC, ER; tauto).
  destruct (changes_between_right web e e' c paths path links f fs l l' ED Pu Pu' FL PP H H' Room)
    as (fs' & l1 & l2 & changes & W1 & W2 & E & (R1 & _ & _ & R4 & _ & _) & _ & _).
  exists fs', l1, l2. split; [exact W1|]. split; [exact W2|]. rewrite E. f_equal. apply no_entries. intros u.
  destruct (scan_exactly e c paths false l (proj1 Pu) H) as [W S].
  destruct (sget u (d_items (l_doc l))) as [r|] eqn:G.
  - apply sget_in in G. apply S in G as (file & n & O & _). apply (R4 u file n file n O); [now apply OD|].
    split; [reflexivity|]. split; [split; [|split]; reflexivity|].
    assert (Hn : exists t, mtime_of n = Some t).
    { destruct O as (start & rel & _ & ([(d & m & ->)|(m & ->)] & _) & _); cbn; eauto. }
    destruct Hn as (t & Ht). exists t, t. split; [exact Ht|]. split; [exact Ht|]. rewrite Z.sub_diag. pose proof SEC_pos.
    cbn [Z.abs]. lia.
  - apply R1.
    + intros file n O. assert (I : In (u, described (be_digests e) (bc_hashes c) true false u file n) (d_items (l_doc l)))
        by (apply S; eauto). apply (in_sget _ _ _ (proj1 W)) in I. congruence.
    + intros file n O. apply OD in O.
      assert (I : In (u, described (be_digests e) (bc_hashes c) true false u file n) (d_items (l_doc l)))
        by (apply S; eauto). apply (in_sget _ _ _ (proj1 W)) in I. congruence.
Qed.

(** ** The change list on disk *)

Lemma entries_close sm u : forall xs ys, Forall2 (read_close sm) xs ys ->
  Forall2 (read_close sm) (entries_for u xs) (entries_for u ys).
Proof.
  intros xs ys F. induction F as [|x y xs ys H F IH]; [constructor|]. unfold entries_for in *. cbn [filter].
  rewrite (proj1 H). destruct (str_eqb _ _); [constructor; assumption|exact IH].
Qed.

Lemma close_clock t t' : file_time t -> 1000000 * Z.abs (t' - t) < 2 * SEC -> 2 ^ 15 * SEC <= t' <= 2 ^ 32 * SEC.
Proof.
  unfold file_time. pose proof SEC_pos. change (2 ^ 16) with 65536. change (2 ^ 32) with 4294967296. change (2 ^ 15) with 32768.
  nia.
Qed.

Lemma store_change_recorded ch r : valid_change (Some ch) -> recorded r /\ legal_resource r ->
  recorded (store_change (Some ch) r) /\ legal_resource (store_change (Some ch) r).
Proof.
  intros V ((A & B & C & D & E) & L). split; [|exact L].
  split; [exact A|]. split; [exact B|]. split; [exact C|]. split; [exact V|exact E].
Qed.

Lemma read_recorded e c paths u file n r : publishable e c paths -> on_disk e c paths u file n ->
  read_close (MkSettings false false false) (described (be_digests e) (bc_hashes c) true false u file n) r ->
  recorded r /\ legal_resource r.
Proof.
  intros Pu O C. destruct (described_recorded e c paths false u file n Pu O) as [R L].
  destruct Pu as (_ & _ & _ & _ & F). destruct (F u file n O) as (_ & _ & _ & TM).
  destruct C as (C1 & C2 & C3 & C4 & C5 & C6 & C7 & C8 & C9 & C10 & C11 & C12 & C13 & C14 & C15 & C16).
  assert (CT : clock_time None) by (left; intros t H; discriminate).
  assert (Ln : links r = []) by (change (links (described (be_digests e) (bc_hashes c) true false u file n)) with (@nil link) in C12;
    inversion C12; reflexivity).
  destruct R as (R1 & _ & (R2 & R3 & R4) & R5 & _). destruct L as (L1 & (L2 & L3 & L4) & (L5 & L6 & L7) & _).
  split.
  - split; [now rewrite C1|]. split; [|split; [now rewrite C6, C7, C8|split; [now rewrite C9|rewrite Ln; constructor]]].
    rewrite C13, C14, C15, C16. split; [|split; [|auto]].
    + right. intros t' Ht. rewrite Ht in C2. cbn [described r_timestamp r_ts_datetime s_spec_1_0 s_add_lastmod orb] in C2.
      destruct (mtime_of n) as [t|] eqn:M; [|contradiction]. cbn [close_to] in C2. apply (close_clock t); auto.
    + cbn [described r_ts_datetime s_spec_1_0] in C3. destruct (r_ts_datetime r); [contradiction|exact CT].
  - split; [now rewrite C1|]. split; [now rewrite C5, C10, C11|]. split; [now rewrite C6, C7, C8|]. rewrite Ln. constructor.
Qed.

Lemma change_list_stored e c links changes g fs : fine_links links ->
  Forall (fun r => recorded r /\ legal_resource r) changes -> Forall (fun r => r_change r <> None) changes ->
  zlen changes <= at_most c -> plain_path g ->
  exists fs2 d, list_write change_list_kind (of_md5 (be_digests e)) (be_clock e) (change_ixlist c links changes) g fs
      = (fs2, Ok (change_ixlist c links changes))
    /\ change_document fs2 g d
    /\ Forall2 (same_atts link_keys) (match links with Some ln => ln | None => [] end) (d_ln d)
    /\ Forall2 (read_close (MkSettings false false false)) changes (d_items d).
Proof.
  intros FL Rec Ch Few PG.
  assert (LM : limit c = Some (match bc_max c with Some m => m | None => 50000 end)) by (unfold limit; now destruct (bc_max c)).
  set (cl := change_ixlist c links changes).
  set (cl0 := MkIx (l_doc cl) (l_name cl) (l_max cl) false None (l_check cl) (l_index cl) (l_sm cl)).
  destruct (change_list_close (of_md5 (be_digests e)) (be_clock e) (fun _ => Err IOError) cl0 g fs (match bc_max c with Some m => m | None => 50000 end))
    as (fs2 & l3 & V1 & V2 & _ & V4 & V3).
  - exact Ch.
  - split; [|split; [|split; [|split]]].
    + split; [split; [constructor|split; [intros k _ []|split; [|intros k X; discriminate]]]|split; intros k; [intros []|intros s []]].
      unfold typed. intros k v [].
    + destruct links as [ln|]; [exact (FL ln eq_refl)|split; constructor].
    + change (d_items (l_doc cl0)) with changes. rewrite Forall_forall in Rec |- *. intros r I. apply Rec, I.
    + change (d_items (l_doc cl0)) with changes. rewrite Forall_forall in Rec |- *. intros r I. apply Rec, I.
    + now left.
  - reflexivity.
  - reflexivity.
  - exact LM.
  - exact Few.
  - exact PG.
  - unfold list_read in V2. rewrite plain_path_open in V2 by exact PG.
    destruct (sget g fs2) as [file|] eqn:G; [|discriminate]. cbn [bind] in V2.
    destruct (parse_xml _ _ _ _ _ (f_data file)) as [[d ix]|] eqn:P; [|discriminate]. cbn [bind] in V2.
    destruct ix; [discriminate|]. cbn [negb] in V2. injection V2 as <-.
    exists fs2, d. split; [|split; [|split; [exact V4|exact V3]]].
    2:{ exists file. split; [exact G|]. intros fetch uri F. eexists. split; [|shelve]. unfold list_read. rewrite F. cbn [bind].
        rewrite (parse_xml_settings (l_sm reading_changes) (l_sm (emptied change_list_kind cl0)) _ _ _ _ _ eq_refl).
        change (l_name reading_changes) with (l_name (emptied change_list_kind cl0)).
        change (l_doc reading_changes) with (l_doc (emptied change_list_kind cl0)).
        rewrite P. cbn [bind negb]. reflexivity. Unshelve. reflexivity. }
    rewrite (list_write_single change_list_kind _ _ cl0 g fs _ LM Few) in V1.
    rewrite (list_write_single change_list_kind _ _ cl g fs _ LM Few).
    change (write_doc (be_clock e) (l_sm cl) (l_index cl)
              (MkDoc (written_md cl) (d_ln (l_doc cl)) (k_iter change_list_kind (d_items (l_doc cl)))) g fs)
      with (write_doc (be_clock e) (l_sm cl0) (l_index cl0)
              (MkDoc (written_md cl0) (d_ln (l_doc cl0)) (k_iter change_list_kind (d_items (l_doc cl0)))) g fs).
    destruct (write_doc _ _ _ _ _ _) as [fs1 [x|]]; [discriminate|]. now injection V1 as ->.
Qed.

Lemma changes_written e e' c paths links links' f g w l l' dump :
  be_digests e = be_digests e' -> bc_multifile c = true -> bc_verbose c = false ->
  publishable e c paths -> publishable e' c paths -> fine_links links -> fine_links links' -> plain_path f -> plain_path g ->
  scans_to e c paths false l -> scans_to e' c paths (with_paths dump) l' -> room_for c f l ->
  zlen (d_items (l_doc l)) + zlen (d_items (l_doc l')) <= at_most c ->
  exists w1 w2 d,
    write_resource_list e c paths (Some f) links false w = (w1, Ok tt)
    /\ write_change_list e' c paths (Some g) (Some f) None false links' dump w1 = (w2, Ok tt)
    /\ change_document (o_fs w2) g d
    /\ reports (be_digests e) (bc_hashes c) (with_paths dump) (on_disk e c paths) (on_disk e' c paths) (d_items d)
    /\ Forall (fun r => r_ts_datetime r = None) (d_items d)
    /\ Forall2 (same_atts link_keys) (match links' with Some ln => ln | None => [] end) (d_ln d).
Proof.
  intros ED MF NV Pu Pu' FL FL' PP PG H H' Room Few.
  destruct (changes_between_right (be_web e') e e' c paths (with_paths dump) links f (o_fs w) l l' ED Pu Pu' FL PP H H' Room)
    as (fs' & l1 & l2 & changes & W1 & W2 & E & R & Each & Len).
  assert (Rec : Forall (fun r => recorded r /\ legal_resource r) changes).
  { apply Forall_forall. intros r I. apply Each in I as [(u & file & n & O & x & ch & -> & V & C)|(u & file & n & ch & O & V & ->)].
    - apply store_change_recorded; [exact V|]. exact (read_recorded _ _ _ _ _ _ _ Pu O C).
    - rewrite ED. apply store_change_recorded; [exact V|]. exact (described_recorded _ _ _ _ _ _ _ Pu' O). }
  assert (Ch : Forall (fun r => r_change r <> None) changes).
  { apply Forall_forall. intros r I.
    apply Each in I as [(u & file & n & O & x & ch & -> & V & C)|(u & file & n & ch & O & V & ->)]; discriminate. }
  assert (NT : Forall (fun r => r_ts_datetime r = None) changes).
  { apply Forall_forall. intros r I.
    apply Each in I as [(u & file & n & O & x & ch & -> & V & C)|(u & file & n & ch & O & V & ->)]; [|reflexivity].
    cbn [store_change r_ts_datetime]. destruct C as (_ & _ & C & _). cbn [described r_ts_datetime s_spec_1_0] in C.
    destruct (r_ts_datetime x); [contradiction|reflexivity]. }
  destruct (change_list_stored e' c links' changes g fs' FL' Rec Ch ltac:(lia) PG) as (fs2 & d & V1 & V2 & V4 & V3).
  exists (with_fs fs' w), (fst (write_dump_if_requested dump (with_fs fs2 (with_fs fs' w)))), d. split; [|split; [|split; [|split; [|split; [|exact V4]]]]].
  - unfold write_resource_list, wbind, wlift. unfold scans_to in H. rewrite H. unfold put_list. rewrite W1. reflexivity.
  - unfold write_change_list, compute_changes, read_reference, show_verbose. unfold wbind, wlift, wret.
    rewrite MF, NV. cbn [negb o_fs with_fs]. unfold reading in W2. rewrite W2. cbn [bind]. unfold scans_to in H'. fold (with_paths dump).
    rewrite H'. cbn [bind]. rewrite E. unfold put_list. cbn [o_fs with_fs]. rewrite V1. cbn [bind].
    unfold write_dump_if_requested, wret, print. destruct dump as [b|]; reflexivity.
  - replace (o_fs _) with fs2; [exact V2|]. destruct dump; reflexivity.
  - assert (En : forall u, Forall2 (read_close (MkSettings false false false)) (entries_for u changes) (entries_for u (d_items d))).
    { intros u. exact (entries_close _ u _ _ V3). }
    destruct R as (R3 & R4 & R5 & R6 & R7 & _). rewrite ED.
    assert (Nil : forall u, entries_for u changes = [] -> entries_for u (d_items d) = []).
    { intros u X. specialize (En u). rewrite X in En. inversion En. reflexivity. }
    assert (One : forall u x, entries_for u changes = [x] -> exists r, entries_for u (d_items d) = [r]
      /\ read_close (MkSettings false false false) x r).
    { intros u x X. specialize (En u). rewrite X in En. inversion En as [|? y ? ys H1 H2]; subst. inversion H2. subst. eauto. }
    split; [|split; [|split; [|split]]].
    + intros u N N'. apply Nil, R3; assumption.
    + intros u file n N O. apply One, R4; assumption.
    + intros u file n O N. destruct (R5 u file n O N) as (x & X & C). destruct (One u _ X) as (r & Y & Z). exists r. split; [exact Y|].
      split; [apply Z|]. transitivity (r_length (store_change (Some $"deleted") x)); [apply Z|]. apply C.
    + intros u file n file' n' O O' C. apply Nil. eapply R6; eauto.
    + intros u file n file' n' O O' C. apply One. eapply R7; eauto.
  - clear - V3 NT. induction V3 as [|x y xs ys C F IH]; constructor.
    + destruct C as (_ & _ & C & _). rewrite (Forall_inv NT) in C. cbn [s_spec_1_0] in C. destruct (r_ts_datetime y); [contradiction|reflexivity].
    + apply IH. exact (Forall_inv_tail NT).
Qed.

Lemma nothing_written e e' c paths links links' f g w l l' dump :
  be_digests e = be_digests e' -> be_cwd e = be_cwd e' -> be_root e = be_root e' -> bc_multifile c = true -> bc_verbose c = false ->
  publishable e c paths -> publishable e' c paths -> fine_links links -> fine_links links' -> plain_path f -> plain_path g ->
  scans_to e c paths false l -> scans_to e' c paths (with_paths dump) l' -> room_for c f l ->
  exists w1 w2 d,
    write_resource_list e c paths (Some f) links false w = (w1, Ok tt)
    /\ write_change_list e' c paths (Some g) (Some f) None false links' dump w1 = (w2, Ok tt)
    /\ change_document (o_fs w2) g d
    /\ d_items d = [].
Proof.
  intros ED EC ER MF NV Pu Pu' FL FL' PP PG H H' Room.
  destruct (unchanged (be_web e') e e' c paths (with_paths dump) links f (o_fs w) l l' ED EC ER Pu Pu' FL PP H H' Room)
    as (fs' & l1 & l2 & W1 & W2 & E).
  destruct (change_list_stored e' c links' [] g fs' FL' (Forall_nil _) (Forall_nil _)) as (fs2 & d & V1 & V2 & _ & V3).
  - change (0 <= at_most c). unfold at_most. lia.
  - exact PG.
  - exists (with_fs fs' w), (fst (write_dump_if_requested dump (with_fs fs2 (with_fs fs' w)))), d. split; [|split; [|split]].
    + unfold write_resource_list, wbind, wlift. unfold scans_to in H. rewrite H. unfold put_list. rewrite W1. reflexivity.
    + unfold write_change_list, compute_changes, read_reference, show_verbose. unfold wbind, wlift, wret.
      rewrite MF, NV. cbn [negb o_fs with_fs]. unfold reading in W2. rewrite W2. cbn [bind]. unfold scans_to in H'. fold (with_paths dump).
      rewrite H'. cbn [bind]. rewrite E. unfold put_list. cbn [o_fs with_fs]. rewrite V1. cbn [bind].
      unfold write_dump_if_requested, wret, print. destruct dump as [b|]; reflexivity.
    + replace (o_fs _) with fs2; [exact V2|]. destruct dump; reflexivity.
    + inversion V3. reflexivity.
Qed.

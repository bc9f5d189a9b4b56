(** * PublishEx: publishing a small directory *)

From Verif Require Import Py PyFacts Float64 Float64Facts W3C Mapper MapperSpec Resource ResourceSpec Container ContainerSpec Xml Sitemap SitemapSpec SitemapText
  Opener ListIndex ListIndexSpec Hashes Disk DiskSpec DiskFacts OsPath Builder BuilderSpec BuilderFacts Client ClientSpec ClientRuns ClientExamples
  StoredSpec Build PublishSpec PublishFacts PublishChanges PublishApply.

(** ** When a scan succeeds, and what follows from its result *)

Lemma scan_possible e c path b at_ co : bc_mapper c <> [] -> scanner (bc_mapper c) (bc_hashes c) true path (bc_exclude c) = Ok b ->
  (forall h, In h (bc_hashes c) -> In h [$"md5"; $"sha-1"; $"sha-256"]) ->
  tree_ok (be_root e) -> mappings_apart (bc_mapper c) -> one_line_names (be_root e) -> bc_hashes c = [] \/ no_specials (be_root e) ->
  (forall k, In k (bc_mapper c) -> (exists es, lstat (be_cwd e) (be_root e) (dst_path k) = Ok (Dir es))
     \/ lstat (be_cwd e) (be_root e) (dst_path k) = Err IOError) ->
  datetime_to_str false (be_start e) = Ok at_ -> datetime_to_str false (be_end e) = Ok co ->
  exists l, scans_to e c None path l.
Proof.
  intros NE B Hh T M One Sp Start A Z.
  destruct (scan_succeeds (be_digests e) _ _ _ _ _ _ B Hh (be_cwd e) (be_root e) T M One Sp Start) as (rl & Fd & _).
  unfold scans_to, build_resource_list. unfold scanner in B. destruct (bc_mapper c) as [|m ms]; [congruence|].
  rewrite B. cbn [bind]. rewrite A. cbn [bind]. rewrite Fd. cbn [bind]. rewrite Z. cbn [bind]. eauto.
Qed.

Lemma publishable_scan e c paths l : tree_ok (be_root e) ->
  digest_like (of_md5 (be_digests e)) -> digest_like (of_sha1 (be_digests e)) -> digest_like (of_sha256 (be_digests e)) ->
  clock_like (be_clock e) -> file_time (be_start e) -> file_time (be_end e) -> scans_to e c paths true l ->
  Forall (fun x => fst x <> [] /\ uri_text (fst x) /\ legal_opt (r_path (snd x)) /\ forall t, r_timestamp (snd x) = Some t -> file_time t)
    (d_items (l_doc l)) -> publishable e c paths.
Proof.
  intros T D1 D2 D3 K F1 F2 S F. split; [exact T|]. split; [auto|]. split; [exact K|]. split; [auto|].
  intros u file n O. destruct (scan_exactly e c paths true l T S) as [_ X].
  assert (I : In (u, described (be_digests e) (bc_hashes c) true true u file n) (d_items (l_doc l))) by (apply X; eauto).
  rewrite Forall_forall in F. apply F in I. cbn [fst snd described r_path r_timestamp] in I. destruct I as (I1 & I2 & I3 & I4).
  split; [exact I1|]. split; [exact I2|]. split; [now apply I3|exact I4].
Qed.

(** ** A directory before and after a change *)

Definition few_digests : digests :=
  MkDigests (fun s => if str_eqb s $"A2" then $"d2" else $"d1") (fun _ => $"d") (fun _ => $"d").
Definition pub_env (root : node) : benv := MkBEnv few_digests [] root (fun _ => Err IOError) (fun _ => day) day (day + SEC).
Definition pub_client : bclient := MkBClient one_mapping [$"md5"] [] true None true None false.
Definition before_tree : node :=
  Dir [($"d", Dir [($"a", File $"A1" day); ($"same", File $"S" (day - 7 * SEC)); ($"x", Dir [($"old", File $"OLD" (day - SEC))])])].
Definition after_tree : node :=
  Dir [($"d", Dir [($"new", File $"NEW!" (day + 2 * SEC)); ($"same", File $"S" (day - 7 * SEC)); ($"a", File $"A2" day)])].
Definition pub_start : written := MkWritten [] [] [].

Lemma few_digests_like : digest_like (of_md5 few_digests) /\ digest_like (of_sha1 few_digests) /\ digest_like (of_sha256 few_digests).
Proof.
  assert (X : forall s, s = $"d2" \/ s = $"d1" \/ s = $"d" -> ws_free (Some s) /\ legal s).
  { intros s [-> | [-> | ->]]; (split; [|apply legal_lit; reflexivity]); intros v ch [= <-] I; apply (fun F => proj1 (forallb_forall (fun c => negb (is_space c)) _) F ch) in I;
      solve [now apply negb_true_iff|reflexivity]. }
  repeat split; intros; try (apply X; cbn [of_md5 of_sha1 of_sha256 few_digests]; try destruct (str_eqb _ _); auto).
Qed.

Definition the_list (r : res (ixlist rdict)) : ixlist rdict :=
  match r with Ok l => l | Err _ => new_list resource_list_kind $"resourcelist" true None end.
Definition is_ok {A} (r : res A) : bool := match r with Ok _ => true | Err _ => false end.
Lemma the_list_is r : is_ok r = true -> r = Ok (the_list r).
Proof. destruct r; [reflexivity|discriminate]. Qed.
Definition listed_at (root : node) (path : bool) : ixlist rdict := the_list (build_resource_list (pub_env root) pub_client None path).
Lemma before_scan path : scans_to (pub_env before_tree) pub_client None path (listed_at before_tree path).
Proof. unfold scans_to, listed_at. apply the_list_is. destruct path; vm_compute; reflexivity. Qed.
Lemma after_scan path : scans_to (pub_env after_tree) pub_client None path (listed_at after_tree path).
Proof. unfold scans_to, listed_at. apply the_list_is. destruct path; vm_compute; reflexivity. Qed.

Lemma file_time_secs n : 2 ^ 16 <= n <= 2 ^ 32 - 1 -> file_time (n * SEC).
Proof. intros H. unfold file_time. pose proof SEC_pos. change (2 ^ 16) with 65536 in *. change (2 ^ 32) with 4294967296 in *. nia. Qed.
Lemma day_secs k : -1000 <= k <= 1000 -> file_time (day + k * SEC).
Proof. intros H. unfold day. replace (978307200 * SEC + k * SEC) with ((978307200 + k) * SEC) by ring. apply file_time_secs. lia. Qed.

Definition fine_entry (x : str * resource) : bool :=
  negb (str_eqb (fst x) []) && forallb (fun c => (32 <=? code c)%N && negb (ceqb c cr)) (fst x)
  && match r_path (snd x) with Some p => forallb (fun c => (32 <=? code c)%N) p | None => true end
  && match r_timestamp (snd x) with Some t => ((day - 10 * SEC) <=? t) && (t <=? (day + 10 * SEC)) | None => true end.
Lemma fine_entry_ok x : fine_entry x = true ->
  fst x <> [] /\ uri_text (fst x) /\ legal_opt (r_path (snd x)) /\ forall t, r_timestamp (snd x) = Some t -> file_time t.
Proof.
  unfold fine_entry. rewrite !andb_true_iff. intros (((A & B) & C) & D). split; [|split; [split|split]].
  - intros E. rewrite E in A. discriminate.
  - intros c I. rewrite forallb_forall in B. specialize (B c I). rewrite andb_true_iff in B. left. apply N.leb_le. apply B.
  - intros I. rewrite forallb_forall in B. specialize (B cr I). discriminate.
  - intros p E c I. rewrite E in C. rewrite forallb_forall in C. left. apply N.leb_le. now apply C.
  - intros t E. rewrite E in D. rewrite andb_true_iff, !Z.leb_le in D. pose proof SEC_pos.
    unfold file_time, day in *. change (2 ^ 16) with 65536 in *. change (2 ^ 32) with 4294967296 in *. nia.
Qed.
Lemma pub_publishable root : names_okb root = true -> is_ok (build_resource_list (pub_env root) pub_client None true) = true ->
  forallb fine_entry (d_items (l_doc (listed_at root true))) = true -> publishable (pub_env root) pub_client None.
Proof.
  intros N S F. destruct few_digests_like as (D1 & D2 & D3).
  apply publishable_scan with (l := listed_at root true); auto.
  - exact (proj1 (names_okb_ok _ N)).
  - intros f. cbn [be_clock pub_env]. unfold day. pose proof SEC_pos. change (2 ^ 15) with 32768. change (2 ^ 32) with 4294967296. nia.
  - cbn [be_start pub_env]. pose proof (day_secs 0 ltac:(lia)) as X. now rewrite Z.mul_0_l, Z.add_0_r in X.
  - cbn [be_end pub_env]. pose proof (day_secs 1 ltac:(lia)) as X. now rewrite Z.mul_1_l in X.
  - unfold scans_to, listed_at. now apply the_list_is.
  - rewrite forallb_forall in F. apply Forall_forall. intros x I. apply fine_entry_ok. exact (F x I).
Qed.
Lemma before_publishable : publishable (pub_env before_tree) pub_client None.
Proof. apply pub_publishable; vm_compute; reflexivity. Qed.
Lemma after_publishable : publishable (pub_env after_tree) pub_client None.
Proof. apply pub_publishable; vm_compute; reflexivity. Qed.

Lemma fine_entries_links ln : Forall good_link ln -> Forall (legal_atts link_keys) ln -> fine_links (Some ln).
Proof. intros A B ln' [= <-]. auto. Qed.
Lemma no_links_fine : fine_links None.
Proof. intros ln H. discriminate. Qed.
Lemma two_atts_good rel href : good_link [($"rel", PStr rel); ($"href", PStr href)].
Proof.
  split; [|split; [|split; [|split; [|split]]]].
  - constructor; [|constructor; [|constructor]]; cbn [map fst In]; [intros [E|[]]; discriminate|intros []].
  - cbn [map fst In]. intros [E|[E|[]]]; discriminate.
  - intros k v [E|[E|[]]]; injection E as <- <-; exists rel + exists href; left; reflexivity.
  - exists href. reflexivity.
  - exists rel. reflexivity.
  - intros n H. discriminate.
Qed.
Lemma two_atts_legal rel href : legal rel -> legal href -> legal_atts link_keys [($"rel", PStr rel); ($"href", PStr href)].
Proof.
  intros A B. split.
  - intros k [E|[E|[]]]; cbn [fst] in E; subst k; cbn; auto 10.
  - intros k s [E|[E|[]]]; injection E as <- <-; assumption.
Qed.
Definition up : link := [($"rel", PStr $"up"); ($"href", PStr $"http://s.org/caps.xml")].
Lemma up_fine : fine_links (Some [up]).
Proof.
  apply fine_entries_links; (constructor; [|constructor]).
  - apply two_atts_good.
  - apply two_atts_legal; apply legal_lit; reflexivity.
Qed.
Lemma plain_lit p c rest : p = "/"%char :: c :: rest -> ceqb c "/" = false -> forallb (fun c => negb (ceqb c "%") && negb (ceqb c "#") && negb (is_space c)) p = true -> plain_path p.
Proof.
  intros E N F. rewrite forallb_forall in F. split; [|split; [|split]].
  - exists c, rest. split; [exact E|]. intros ->. discriminate.
  - intros I. now specialize (F _ I).
  - intros I. now specialize (F _ I).
  - intros q d H. assert (I : In d p) by (rewrite H; apply in_or_app; right; now left). specialize (F _ I).
    rewrite !andb_true_iff, !negb_true_iff in F. apply F.
Qed.
Definition rl_file : str := $"/w/rl.xml".
Definition cl_file : str := $"/w/cl.xml".
Lemma rl_plain : plain_path rl_file. Proof. now apply plain_lit with (c := "w"%char) (rest := $"/rl.xml"). Qed.
Lemma cl_plain : plain_path cl_file. Proof. now apply plain_lit with (c := "w"%char) (rest := $"/cl.xml"). Qed.
Lemma before_room : room_for pub_client rl_file (listed_at before_tree false).
Proof. left. vm_compute. discriminate. Qed.
Lemma both_few : zlen (d_items (l_doc (listed_at before_tree false))) + zlen (d_items (l_doc (listed_at after_tree false))) <= at_most pub_client.
Proof. vm_compute. discriminate. Qed.

Lemma disk_entry e c paths path l u : tree_ok (be_root e) -> scans_to e c paths path l ->
  smem u (d_items (l_doc l)) = true <-> exists file n, on_disk e c paths u file n.
Proof.
  intros N S. destruct (scan_exactly e c paths path l N S) as [W X]. unfold smem. split.
  - destruct (sget u _) as [r|] eqn:G; [|discriminate]. intros _. apply sget_in in G. apply X in G as (file & n & O & _). eauto.
  - intros (file & n & O).
    assert (I : In (u, described (be_digests e) (bc_hashes c) true path u file n) (d_items (l_doc l))) by (apply X; eauto).
    apply (in_sget _ _ _ (proj1 W)) in I. now rewrite I.
Qed.
Lemma new_is_new : (exists file n, on_disk (pub_env after_tree) pub_client None $"http://s.org/r/new" file n)
  /\ none_of (on_disk (pub_env before_tree) pub_client None) $"http://s.org/r/new".
Proof.
  split.
  - refine (proj1 (disk_entry _ _ _ _ _ _ (proj1 after_publishable) (after_scan false)) _). vm_compute. reflexivity.
  - intros file n O. assert (X : smem $"http://s.org/r/new" (d_items (l_doc (listed_at before_tree false))) = true).
    { refine (proj2 (disk_entry _ _ _ _ _ _ (proj1 before_publishable) (before_scan false)) _). exists file, n. exact O. }
    vm_compute in X. discriminate.
Qed.

(** * PublishApply: clients that are given change lists made from the disk *)

From Verif Require Import Py PyFacts Float64 W3C Mapper MapperSpec Resource ResourceSpec Container ContainerSpec Xml Sitemap
  SitemapSpec Opener ListIndex ListIndexSpec Hashes Disk DiskSpec OsPath Builder BuilderSpec ClientState Client StoredSpec Build
  PublishSpec PublishFacts PublishChanges.

Lemma prune_undated t : forall rs r, In r rs -> r_ts_datetime r = None -> prune_before_loop false t rs = Err PlainException.
Proof.
  induction rs as [|x rs IH]; intros r I N; [contradiction|]. cbn [prune_before_loop]. destruct I as [->|I].
  - now rewrite N.
  - destruct (r_ts_datetime x); [|reflexivity]. now rewrite (IH r I N).
Qed.

Lemma untouched_refl w : untouched w w.
Proof. repeat split. Qed.

Lemma incremental_undated E c del given from w w' r uri l x : c_spec_1_0 c = false -> given <> [] ->
  sitemap_uri c given = Ok uri -> list_read change_list_kind (e_fetch E) false reading_changes uri = Ok l ->
  In x (d_items (l_doc l)) -> r_ts_datetime x = None ->
  incremental E c del (Some given) from w = (w', r) -> (exists e, r = Err e) /\ untouched w w'.
Proof.
  intros Sp NE U R I N H. unfold incremental in H.
  assert (T : forall e, (w, Err e : res unit) = (w', r) -> (exists e, r = Err e) /\ untouched w w').
  { intros e [= <- <-]. split; [eauto|apply untouched_refl]. }
  destruct (match c_mapper c with [] => true | _ => false end); [exact (T _ H)|].
  unfold andthen, lift in H. destruct (unsafe (c_mapper c)) as [[]|]; [exact (T _ H)| |exact (T _ H)].
  destruct (start_time E c from w) as [t|]; [|exact (T _ H)].
  destruct given as [|ch given]; [congruence|]. rewrite U in H. unfold reading_changes in R. rewrite R in H. cbn [wrapped] in H.
  destruct (w_hashes w); [|exact (T _ H)]. unfold modify in H. destruct (last_time _ 0) as [last|].
  2:{ injection H as <- <-. split; [eauto|repeat split]. }
  destruct (check_changes _ _ _ _) as [[]|].
  2:{ injection H as <- <-. split; [eauto|repeat split]. }
  unfold apply_change_list, andthen, lift in H. rewrite Sp in H. unfold prune_updates_before in H.
  rewrite (prune_undated t _ x I N) in H. cbn [bind] in H. injection H as <- <-. split; [eauto|repeat split].
Qed.

(** A change list made from the disk that has an entry cannot be applied. *)
Lemma unusable e e' c paths links links' f g w l l' dump :
  be_digests e = be_digests e' -> bc_multifile c = true -> bc_verbose c = false ->
  publishable e c paths -> publishable e' c paths -> fine_links links -> fine_links links' -> plain_path f -> plain_path g ->
  scans_to e c paths false l -> scans_to e' c paths (with_paths dump) l' -> room_for c f l ->
  zlen (d_items (l_doc l)) + zlen (d_items (l_doc l')) <= at_most c ->
  forall u file n, on_disk e' c paths u file n -> none_of (on_disk e c paths) u ->
  exists w1 w2 text,
    write_resource_list e c paths (Some f) links false w = (w1, Ok tt)
    /\ write_change_list e' c paths (Some g) (Some f) None false links' dump w1 = (w2, Ok tt)
    /\ sget g (o_fs w2) = Some text
    /\ forall E cl del uri from v v' r, c_spec_1_0 cl = false -> uri <> [] -> sitemap_uri cl uri = Ok uri ->
         e_fetch E uri = Ok (f_data text) ->
         incremental E cl del (Some uri) from v = (v', r) -> (exists x, r = Err x) /\ untouched v v'.
Proof.
  intros ED MF NV Pu Pu' FL FL' PP PG H H' Room Few u file n O N.
  destruct (changes_written e e' c paths links links' f g w l l' dump ED MF NV Pu Pu' FL FL' PP PG H H' Room Few)
    as (w1 & w2 & d & W1 & W2 & (t & G & D) & (_ & Rp & _) & NT & _).
  exists w1, w2, t. split; [exact W1|]. split; [exact W2|]. split; [exact G|].
  intros E cl del uri from v v' r Sp NE U F Inc. destruct (D (e_fetch E) uri F) as (l0 & L & <-).
  destruct (Rp u file n N O) as (x & X & _).
  assert (I : In x (d_items (l_doc l0))).
  { assert (I : In x (entries_for u (d_items (l_doc l0)))) by (rewrite X; now left). unfold entries_for in I. apply filter_In in I. tauto. }
  eapply incremental_undated; eauto. rewrite Forall_forall in NT. now apply NT.
Qed.

(** * PublishFacts: documents made from the disk *)

From Verif Require Import Py PyFacts Float64 Float64Facts W3C W3CSpec W3CFacts W3CRound Mapper MapperSpec Resource ResourceSpec
  Container ContainerSpec ContainerFacts Xml Sitemap SitemapSpec SitemapFacts SitemapText SitemapLists Opener ListIndex
  ListIndexSpec ListIndexFacts ListIndexWrite FileTime ListIndexRound ListIndexProps Hashes Disk DiskSpec OsPath Builder
  BuilderSpec BuilderFacts Client TimeLoss StoredSpec StoredFacts Build PublishSpec.

(** ** Reading with other settings *)

Lemma parse_kids_settings {C} sm sm' (add : resource -> C -> res C) tag : s_spec_1_0 sm = s_spec_1_0 sm' ->
  forall kids p s d, parse_kids sm add tag kids p s d = parse_kids sm' add tag kids p s d.
Proof.
  intros E. assert (K : md_att_keys sm = md_att_keys sm') by (unfold md_att_keys; now rewrite E).
  assert (M : forall e, md_from_etree sm e = md_from_etree sm' e) by (intros e; unfold md_from_etree; now rewrite K).
  assert (R : forall e, resource_from_etree sm e = resource_from_etree sm' e).
  { intros e. unfold resource_from_etree. destruct (findall _ e) as [|loc []]; try reflexivity.
    destruct (x_text loc) as [[|]|]; try reflexivity. destruct (match findall _ e with [] => _ | _ => _ end); [|reflexivity].
    cbn [bind]. destruct (findall (rs_name _) e) as [|m []]; try reflexivity. now rewrite M. }
  induction kids as [|e kids IH]; intros p s d; [reflexivity|]. cbn [parse_kids]. rewrite R, M.
  destruct (str_eqb _ _).
  - destruct (resource_from_etree sm' e); [|reflexivity]. cbn [bind]. destruct (add a (d_items d)); [|reflexivity].
    cbn [bind]. apply IH.
  - destruct (str_eqb _ _).
    + destruct p; [|reflexivity]. destruct s; [reflexivity|]. cbn [negb]. destruct (md_from_etree sm' e); [|reflexivity].
      cbn [bind]. apply IH.
    + destruct (str_eqb _ _); [|apply IH]. destruct p; [|reflexivity]. cbn [negb]. destruct (ln_from_etree e); [|reflexivity].
      cbn [bind]. apply IH.
Qed.

Lemma parse_xml_settings {C} sm sm' (add : resource -> C -> res C) cap ix d text : s_spec_1_0 sm = s_spec_1_0 sm' ->
  parse_xml sm add cap ix d text = parse_xml sm' add cap ix d text.
Proof.
  intros E. unfold parse_xml. destruct (parse_text text) as [root|]; [|reflexivity]. cbn [bind]. unfold parse_tree.
  rewrite !(parse_kids_settings sm sm' add _ E). reflexivity.
Qed.

Lemma list_read_settings {C} (k : kind C) fetch io (l l' : ixlist C) uri l2 :
  s_spec_1_0 (l_sm l) = s_spec_1_0 (l_sm l') -> l_doc l = l_doc l' -> l_name l = l_name l' ->
  l_mapper l = l_mapper l' -> l_check l = l_check l' -> (l_allow l = true -> l_allow l' = true) ->
  list_read k fetch io l uri = Ok l2 -> exists l3, list_read k fetch io l' uri = Ok l3 /\ l_doc l3 = l_doc l2.
Proof.
  intros S D N M Ck A. unfold list_read. rewrite <- D, <- N. destruct (fetch uri) as [text|]; [|discriminate]. cbn [bind].
  rewrite (parse_xml_settings (l_sm l) (l_sm l') _ _ _ _ _ S). destruct (parse_xml _ _ _ _ _ text) as [[d ix]|]; [|discriminate].
  cbn [bind]. destruct ix; cbn [negb].
  - destruct (l_allow l); [|discriminate]. rewrite A by reflexivity. cbn [negb]. destruct io; [intros [= <-]; eauto|].
    destruct (k_uris k (d_items d)) as [us|]; [|discriminate]. cbn [bind].
    assert (RC : forall us c, read_components k fetch l uri (is_file_uri uri) us c = read_components k fetch l' uri (is_file_uri uri) us c).
    { induction us0 as [|u us0 IH]; intros c; [reflexivity|]. cbn [read_components].
      assert (X : read_component k fetch l uri (is_file_uri uri) c u = read_component k fetch l' uri (is_file_uri uri) c u).
      { unfold read_component. rewrite M, Ck. destruct (if is_file_uri uri then _ else _); [|reflexivity]. cbn [bind].
        destruct (match fetch a with Err IOError => _ | _ => _ end); [|reflexivity]. cbn [bind].
        now rewrite (parse_xml_settings (l_sm l) (l_sm l') _ _ _ _ _ S). }
      rewrite X. destruct (read_component _ _ l' _ _ _ _); [|reflexivity]. cbn [bind]. apply IH. }
    rewrite RC. destruct (read_components _ _ l' _ _ _ _); [|discriminate]. cbn [bind]. intros [= <-]. eauto.
  - intros [= <-]. eauto.
Qed.

(** ** Scanning *)

Lemma scan_is e c paths path l : scans_to e c paths path l ->
  exists b rl at_ co, scanner (bc_mapper c) (bc_hashes c) true path (bc_exclude c) = Ok b
    /\ from_disk (be_digests e) b (be_cwd e) (be_root e) (match paths with Some p => Some (split_on "," p) | None => None end) [] = Ok rl
    /\ datetime_to_str false (be_start e) = Ok at_ /\ datetime_to_str false (be_end e) = Ok co
    /\ bc_mapper c <> []
    /\ l = MkIx (MkDoc [($"md_at", PStr at_); ($"md_completed", PStr co)] [] rl) (Some $"resourcelist") (limit c)
             (bc_multifile c) (Some (bc_mapper c)) false false (doc_settings c).
Proof.
  unfold scans_to, build_resource_list, scanner. destruct (bc_mapper c) as [|m ms]; [discriminate|].
  destruct (add_exclude_patterns _ _) as [b|x] eqn:B; cbn [bind]; [|destruct x; discriminate].
  destruct (datetime_to_str false (be_start e)) as [a|x]; cbn [bind]; [|destruct x; discriminate].
  destruct (from_disk _ b _ _ _ []) as [rl|x] eqn:Fd; cbn [bind]; [|destruct x; discriminate].
  destruct (datetime_to_str false (be_end e)) as [z|x]; cbn [bind]; [|destruct x; discriminate].
  intros [= <-]. exists b, rl, a, z. split; [reflexivity|]. split; [exact Fd|]. split; [reflexivity|].
  split; [reflexivity|]. split; [discriminate|reflexivity].
Qed.

Lemma scan_exactly e c paths path l : tree_ok (be_root e) -> scans_to e c paths path l ->
  wf_rl (d_items (l_doc l)) /\
  forall u r, In (u, r) (d_items (l_doc l)) <-> exists file n, on_disk e c paths u file n
    /\ r = described (be_digests e) (bc_hashes c) true path u file n.
Proof.
  intros T H. destruct (scan_is _ _ _ _ _ H) as (b & rl & a & z & B & Fd & _ & _ & _ & ->). cbn [l_doc d_items].
  destruct (scan_lists (be_digests e) _ _ _ _ _ _ B _ _ _ _ T Fd) as [ND S].
  assert (X : forall u r, In (u, r) rl <-> exists file n, on_disk e c paths u file n
    /\ r = described (be_digests e) (bc_hashes c) true path u file n).
  { intros u r. rewrite S. unfold on_disk. split.
    - intros (start & rel & file & n & H1 & H2 & H3 & H4). exists file, n. split; [|exact H4]. eauto.
    - intros (file & n & (start & rel & H1 & H2 & H3) & H4). eauto 10. }
  split; [|exact X]. split; [exact ND|]. intros u r I. apply X in I as (file & n & _ & ->). reflexivity.
Qed.

(** ** The list can be written *)

Lemma file_time_range t : file_time t -> 2 ^ 15 * SEC <= t <= 2 ^ 32 * SEC.
Proof.
  unfold file_time. pose proof SEC_pos. change (2 ^ 15) with 32768. change (2 ^ 16) with 65536.
  change (2 ^ 32) with 4294967296. lia.
Qed.

Lemma described_recorded e c paths path u file n : publishable e c paths -> on_disk e c paths u file n ->
  recorded (described (be_digests e) (bc_hashes c) true path u file n)
  /\ legal_resource (described (be_digests e) (bc_hashes c) true path u file n).
Proof.
  intros (_ & (D1 & D2 & D3) & _ & _ & F) O. destruct (F u file n O) as (NE & (L1 & L2) & LF & TM).
  assert (CT : clock_time None) by (left; intros t H; discriminate).
  unfold described. split.
  - split; [exact NE|]. split; [|split; [|split]].
    + cbn. split; [right; intros t X; apply file_time_range, TM, X|]. auto 10.
    + assert (W : forall (name : str) (f : str -> str), digest_like f ->
                    ws_free (if in_strs name (bc_hashes c) then Some (f (data_of n)) else None)).
      { intros name f Df. destruct (in_strs _ _); [apply Df|]. intros v ch Hv. discriminate. }
      cbn. auto.
    + now left.
    + constructor.
  - split; [split; assumption|]. split; [|split].
    + cbn. split; [intros s H; discriminate|]. split; [|intros s H; discriminate].
      destruct path; intros s H; [injection H as <-; exact LF|discriminate].
    + assert (W : forall (name : str) (f : str -> str), digest_like f ->
                    legal_opt (if in_strs name (bc_hashes c) then Some (f (data_of n)) else None)).
      { intros name f Df. destruct (in_strs _ _); [|intros s H; discriminate]. intros s [= <-]. apply Df. }
      cbn. auto.
    + constructor.
Qed.

Lemma scan_time t : 2 ^ 15 * SEC <= t <= 2 ^ 32 * SEC -> forall s, datetime_to_str false t = Ok s -> legal s.
Proof.
  intros H s E. destruct (any_time t H) as (s' & t' & E' & _ & F & _). rewrite E in E'. injection E' as <-.
  apply printable_text. now apply full_datetime_printable.
Qed.

Lemma published_list_recorded e c paths path links l : publishable e c paths -> fine_links links -> scans_to e c paths path l ->
  recorded_list rl_iter $"resourcelist" (l_doc (set_links links l)).
Proof.
  intros Pu FL H. destruct (scan_exactly e c paths path l (proj1 Pu) H) as [W S].
  assert (MD : (good_md (d_md (l_doc (set_links links l))) /\ legal_atts (md_keys false) (d_md (l_doc (set_links links l))))
     /\ sget $"capability" (d_md (l_doc (set_links links l))) = None).
  { destruct (scan_is _ _ _ _ _ H) as (b & rl & a & z & _ & _ & A & Z & _ & El).
    assert (E : d_md (l_doc (set_links links l)) = [($"md_at", PStr a); ($"md_completed", PStr z)])
      by (rewrite El; now destruct links). rewrite E. clear El E.
    destruct Pu as (_ & _ & _ & (R1 & R2) & _).
    split; [split|reflexivity].
    - split; [|split; [|split]].
      + cbn [map fst]. constructor; [intros [X|[]]; discriminate|]. constructor; [easy|constructor].
      + intros k I. cbn [map fst]. intros [X|[X|[]]]; subst k; vm_compute in I; intuition discriminate.
      + intros k v [[= <- <-]|[[= <- <-]|[]]]; [exists a|exists z]; now left.
      + intros ch X. discriminate.
    - split.
      + cbn [map fst]. intros k [<-|[<-|[]]]; vm_compute; auto 20.
      + intros k s [[= <- <-]|[[= <- <-]|[]]]; [exact (scan_time _ (file_time_range _ R1) _ A)|exact (scan_time _ (file_time_range _ R2) _ Z)]. }
  assert (IT : d_items (l_doc (set_links links l)) = d_items (l_doc l)) by now destruct links.
  destruct MD as [MD MC]. split; [exact MD|]. split.
  { destruct links as [ln|]; cbn [set_links with_doc l_doc d_ln]; [now apply FL|].
    destruct (scan_is _ _ _ _ _ H) as (b & rl & a & z & _ & _ & _ & _ & _ & ->). cbn [l_doc d_ln]. auto. }
  rewrite IT. split; [|split].
  - apply Forall_forall. intros r I. apply in_rl_iter in I as (k & I). apply sget_in in I. apply S in I as (file & n & O & ->).
    now apply (described_recorded e c paths).
  - apply Forall_forall. intros r I. apply in_rl_iter in I as (k & I). apply sget_in in I. apply S in I as (file & n & O & ->).
    now apply (described_recorded e c paths).
  - now left.
Qed.

(** ** Written and read *)

Lemma iter_pairs d d2 (R : resource -> resource -> Prop) : wf_rl d -> wf_rl d2 ->
  (forall r r', R r r' -> r_uri r' = r_uri r) -> Forall2 R (rl_iter d) (rl_iter d2) ->
  forall u, match sget u d, sget u d2 with
            | Some r, Some r' => R r r'
            | None, None => True
            | _, _ => False
            end.
Proof.
  intros W W2 U F u. rewrite <- (look_iter d u W), <- (look_iter d2 u W2).
  induction F as [|r r' rs rs' H F IH]; [exact I|]. rewrite !look_cons, (U r r' H).
  destruct (str_eqb (r_uri r) u); [exact H|exact IH].
Qed.

Lemma rl_add_wf r d d' : wf_rl d -> rl_add r false d = Ok d' -> wf_rl d'.
Proof.
  intros W H. destruct (rl_add_cases r false d) as [(_ & _ & E)|(_ & E)]; rewrite E in H; [discriminate|].
  injection H as <-. now apply wf_sset.
Qed.

Section Keeps.
Context {C : Type} (P : C -> Prop) (add : resource -> C -> res C).
Hypothesis keeps : forall r c c', P c -> add r c = Ok c' -> P c'.

Lemma parse_kids_keeps sm tag : forall kids p s d d', P (d_items d) ->
  parse_kids sm add tag kids p s d = Ok d' -> P (d_items d').
Proof.
  induction kids as [|e kids IH]; intros p s d d' H; cbn [parse_kids]; [now intros [= <-]|].
  destruct (str_eqb _ _).
  - destruct (resource_from_etree sm e); [|discriminate]. cbn [bind]. destruct (add a (d_items d)) eqn:A; [|discriminate].
    cbn [bind]. apply IH. cbn [d_items]. eapply keeps; eauto.
  - destruct (str_eqb _ _).
    + destruct (negb p); [discriminate|]. destruct s; [discriminate|]. destruct (md_from_etree sm e); [|discriminate].
      cbn [bind]. now apply IH.
    + destruct (str_eqb _ _); [|now apply IH]. destruct (negb p); [discriminate|]. destruct (ln_from_etree e); [|discriminate].
      cbn [bind]. now apply IH.
Qed.

Lemma parse_xml_keeps sm cap ix d text d' i : P (d_items d) -> parse_xml sm add cap ix d text = Ok (d', i) -> P (d_items d').
Proof.
  intros H. unfold parse_xml. destruct (parse_text text) as [root|]; [|discriminate]. cbn [bind]. unfold parse_tree.
  assert (X : forall tag b, (let* d0 := parse_kids sm add tag (x_kids root) true false d in
                let* d1 := check_capability cap d0 in Ok (d1, b)) = Ok (d', i) -> P (d_items d')).
  { intros tag b. destruct (parse_kids sm add tag (x_kids root) true false d) as [d0|] eqn:E; [|discriminate]. cbn [bind].
    assert (H0 : P (d_items d0)) by (eapply parse_kids_keeps; eauto).
    unfold check_capability. destruct cap as [c|]; [|now intros [= <- <-]].
    destruct (sget $"capability" (d_md d0)) eqn:G.
    - cbn [bind]. rewrite G. destruct (pv_eqb _ _); [|discriminate]. now intros [= <- <-].
    - destruct (str_eqb c _); [|discriminate]. cbn [bind d_md]. destruct (sget _ (sset _ _ _)); [|discriminate].
      destruct (pv_eqb _ _); [|discriminate]. now intros [= <- <-]. }
  destruct (str_eqb _ _); [destruct ix as [[]|]; try discriminate; apply X|].
  destruct (str_eqb _ _); [destruct ix as [[]|]; try discriminate; apply X|discriminate].
Qed.

Lemma insert_all_keeps rs : forall c c', P c -> insert_all add rs c = Ok c' -> P c'.
Proof.
  induction rs as [|r rs IH]; intros c c' H; cbn [insert_all]; [now intros [= <-]|].
  destruct (add r c) eqn:A; [|discriminate]. cbn [bind]. apply IH. eapply keeps; eauto.
Qed.
End Keeps.

Lemma list_read_wf fetch io (l l2 : ixlist rdict) uri : wf_rl (d_items (l_doc l)) ->
  list_read resource_list_kind fetch io l uri = Ok l2 -> wf_rl (d_items (l_doc l2)).
Proof.
  intros W. unfold list_read. destruct (fetch uri); [|discriminate]. cbn [bind].
  destruct (parse_xml _ _ _ _ _ _) as [[d ix]|] eqn:E; [|discriminate]. cbn [bind].
  assert (Wd : wf_rl (d_items d)).
  { eapply (parse_xml_keeps wf_rl (k_add resource_list_kind)); [|exact W|exact E]. intros r c c'. apply rl_add_wf. }
  clear E. destruct (negb ix); [now intros [= <-]|]. destruct (negb (l_allow l)); [discriminate|].
  destruct io; [now intros [= <-]|]. cbn [k_uris resource_list_kind bind].
  assert (RC : forall us c c', wf_rl c -> read_components resource_list_kind fetch l uri (is_file_uri uri) us c = Ok c' -> wf_rl c').
  { induction us as [|u us IH]; intros c c' Wc; cbn [read_components]; [now intros [= <-]|].
    destruct (read_component _ _ _ _ _ _ _) as [c1|] eqn:R; [|discriminate]. cbn [bind]. apply IH. revert R. unfold read_component.
    destruct (if is_file_uri uri then _ else _); [|discriminate]. cbn [bind].
    destruct (match fetch a0 with Err IOError => _ | _ => _ end); [|discriminate]. cbn [bind].
    destruct (parse_xml (l_sm l) (fun r rs => Ok (rs ++ [r])) _ _ _ _) as [[d1 ix1]|]; [|discriminate]. cbn [bind].
    apply (insert_all_keeps wf_rl); [|exact Wc]. intros r x x'. apply rl_add_wf. }
  destruct (read_components _ _ _ _ _ _ _) as [c1|] eqn:R; [|discriminate]. cbn [bind]. intros [= <-]. cbn [with_doc l_doc d_items].
  eapply RC; [|exact R]. apply wf_nil.
Qed.

Lemma write_scan web e c paths path links f fs l : publishable e c paths -> fine_links links -> plain_path f ->
  scans_to e c paths path l -> room_for c f l ->
  exists fs' l' l2, list_write resource_list_kind (of_md5 (be_digests e)) (be_clock e) (set_links links l) f fs = (fs', Ok l')
    /\ list_read resource_list_kind (open_uri fs' web) false (reading c) f = Ok l2
    /\ wf_rl (d_items (l_doc l2))
    /\ (forall u, match sget u (d_items (l_doc l)), sget u (d_items (l_doc l2)) with
                  | Some r, Some r' => read_close (MkSettings false false false) r r'
                  | None, None => True
                  | _, _ => False
                  end)
    /\ (find_link $"index" (d_ln (l_doc (set_links links l))) = None ->
        same_atts (md_keys false) (d_md (as_written rl_iter $"resourcelist" (l_doc (set_links links l)))) (d_md (l_doc l2))
        /\ Forall2 (same_atts link_keys) (d_ln (l_doc (set_links links l))) (d_ln (l_doc l2))).
Proof.
  intros Pu FL PP H Room. pose proof (published_list_recorded e c paths path links l Pu FL H) as Rec.
  destruct (scan_exactly e c paths path l (proj1 Pu) H) as [W _].
  destruct (scan_is _ _ _ _ _ H) as (b & rl & a & z & _ & _ & _ & _ & NE & El).
  assert (Fields : l_name (set_links links l) = Some $"resourcelist" /\ l_index (set_links links l) = false
    /\ l_max (set_links links l) = limit c /\ l_allow (set_links links l) = bc_multifile c
    /\ l_mapper (set_links links l) = Some (bc_mapper c) /\ l_sm (set_links links l) = doc_settings c
    /\ l_check (set_links links l) = false)
    by (rewrite El; destruct links; repeat split).
  assert (IT : d_items (l_doc (set_links links l)) = d_items (l_doc l)) by now destruct links.
  destruct Fields as (F1 & F2 & F3 & F4 & F5 & F6 & F7). clear El.
  pose proof (proj1 (proj1 (proj2 Pu))) as D1. pose proof (proj1 (proj2 (proj2 Pu))) as T1.
  assert (LM : limit c = Some (match bc_max c with Some m => m | None => 50000 end)) by (unfold limit; now destruct (bc_max c)).
  destruct (write_read_close (of_md5 (be_digests e)) (be_clock e) web (set_links links l) f fs (bc_mapper c)
              (match bc_max c with Some m => m | None => 50000 end)) as (fs' & l' & l2 & W1 & W2 & W3 & W4).
  - exact D1.
  - exact T1.
  - now rewrite IT.
  - exact Rec.
  - exact F1.
  - exact F2.
  - rewrite F3. exact LM.
  - exact PP.
  - rewrite IT. destruct Room as [Few|[Mf Pub]].
    + left. unfold zlen in *. rewrite length_rl_iter by exact W. exact Few.
    + right. rewrite F4, F5. auto.
  - destruct (list_read_settings resource_list_kind (open_uri fs' web) false (emptied resource_list_kind (set_links links l))
                (reading c) f l2) as (l3 & R1 & R2).
    + change (s_spec_1_0 (l_sm (set_links links l)) = false). now rewrite F6.
    + reflexivity.
    + exact F1.
    + exact F5.
    + exact F7.
    + reflexivity.
    + exact W2.
    + assert (W2' : wf_rl (d_items (l_doc l3))) by (eapply list_read_wf; [|exact R1]; apply wf_nil).
      exists fs', l', l3. split; [exact W1|]. split; [exact R1|]. split; [exact W2'|]. rewrite R2 in *. split.
      * rewrite IT, F6 in W3. intros u.
        pose proof (iter_pairs (d_items (l_doc l)) (d_items (l_doc l2)) (read_close (doc_settings c)) W W2'
                      (fun r r' X => proj1 X) W3 u) as X.
        destruct (sget u (d_items (l_doc l))), (sget u (d_items (l_doc l2))); exact X.
      * intros NI. rewrite F6 in W4. exact (W4 NI).
Qed.

(** The published list says exactly what is on the disk. *)
Lemma published_exactly web e c paths links f w l : publishable e c paths -> fine_links links -> plain_path f ->
  scans_to e c paths false l -> room_for c f l ->
  exists fs' l2, write_resource_list e c paths (Some f) links false w = (with_fs fs' w, Ok tt)
    /\ list_read resource_list_kind (open_uri fs' web) false (reading c) f = Ok l2
    /\ (forall u file n, on_disk e c paths u file n ->
          exists r, sget u (d_items (l_doc l2)) = Some r /\ says e c false u file n r)
    /\ (forall u r, sget u (d_items (l_doc l2)) = Some r -> exists file n, on_disk e c paths u file n).
Proof.
  intros Pu FL PP H Room.
  destruct (write_scan web e c paths false links f (o_fs w) l Pu FL PP H Room) as (fs' & l' & l2 & W1 & W2 & W3 & W4 & _).
  destruct (scan_exactly e c paths false l (proj1 Pu) H) as [W S].
  exists fs', l2. split; [|split; [exact W2|split]].
  - unfold write_resource_list, wbind, wlift. unfold scans_to in H. rewrite H. unfold put_list. rewrite W1. reflexivity.
  - intros u file n O. assert (I : In (u, described (be_digests e) (bc_hashes c) true false u file n) (d_items (l_doc l)))
      by (apply S; eauto). apply (in_sget _ _ _ (proj1 W)) in I. specialize (W4 u). rewrite I in W4.
    destruct (sget u (d_items (l_doc l2))) as [r|]; [|contradiction]. exists r. split; [reflexivity|exact W4].
  - intros u r G. specialize (W4 u). rewrite G in W4. destruct (sget u (d_items (l_doc l))) as [r0|] eqn:E; [|contradiction].
    apply sget_in in E. apply S in E as (file & n & O & _). eauto.
Qed.

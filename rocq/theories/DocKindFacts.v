(** * DocKindFacts: reading back every kind of document *)

From Verif Require Import Py PyFacts Mapper Resource ResourceSpec Container ContainerSpec ContainerFacts Xml Sitemap SitemapSpec
  SitemapFacts SitemapLists Opener ListIndex ListIndexSpec ListIndexFacts SitemapText ListIndexWrite ListIndexRound ListIndexProps
  StoredSpec StoredFacts Client Build BuildSpec BuildDocs DocKinds.

(** ** Archives *)

Lemma archive_close md5 clock web sm d b fs name max : legal name ->
  recorded_list (fun l => l) name d -> zlen (d_items d) <= Z.max max 1 -> plain_path b ->
  exists fs' l2, list_write archive_kind md5 clock (limited max (archive name sm d)) b fs
      = (fs', Ok (limited max (archive name sm d)))
    /\ list_read archive_kind (open_uri fs' web) false (archive name sm (MkDoc [] [] [])) b = Ok l2
    /\ same_atts (md_keys (s_spec_1_0 sm)) (d_md (as_written (fun l => l) name d)) (d_md (l_doc l2))
    /\ Forall2 (same_atts link_keys) (d_ln d) (d_ln (l_doc l2))
    /\ Forall2 (read_close sm) (d_items d) (d_items (l_doc l2)).
Proof.
  intros Lg G Few P.
  destruct (single_close archive_kind (map stored_resource) (fun c => eq_refl) md5 clock web (limited max (archive name sm d)) b fs
              name max Lg G eq_refl eq_refl eq_refl Few P) as (fs' & l2 & W1 & W2 & W3).
  { intros rs' _ _. exists rs'. split; [|reflexivity]. exact (add_seq_list rs' []). }
  exists fs'. revert W2. unfold list_read. change (emptied archive_kind (limited max (archive name sm d)))
    with (limited max (archive name sm (MkDoc [] [] []))).
  cbn [limited l_sm l_name l_doc l_allow archive made]. intros W2. destruct (open_uri fs' web b) as [text|e]; [|discriminate W2].
  cbn [bind] in W2 |- *. destruct (parse_xml sm (k_add archive_kind) (Some name) None _ text) as [[d' i]|e]; [|discriminate W2].
  cbn [bind] in W2 |- *. destruct i; cbn [negb] in W2 |- *; [discriminate W2|]. injection W2 as <-.
  eexists. split; [exact W1|]. split; [reflexivity|]. exact W3.
Qed.

(** No index is read into an archive or a source description. *)
Lemma no_index {C} (k : kind C) fetch (l l2 : ixlist C) uri : (forall c, k_uris k c = Err AttributeError) ->
  list_read k fetch false l uri = Ok l2 ->
  exists text d, fetch uri = Ok text /\ parse_xml (l_sm l) (k_add k) (l_name l) None (l_doc l) text = Ok (d, false).
Proof.
  intros U. unfold list_read. destruct (fetch uri) as [text|]; [|discriminate]. cbn [bind].
  destruct (parse_xml _ _ _ _ _ _) as [[d i]|] eqn:E; [|discriminate]. cbn [bind].
  destruct i; cbn [negb]; [|eauto]. destruct (l_allow l); cbn [negb]; [|discriminate]. rewrite U. discriminate.
Qed.

(** Without a mapper nothing that is too long is written. *)
Lemma no_mapper {C} (k : kind C) md5 clock (l : ixlist C) b fs max : l_max l = Some max -> l_allow l = true ->
  l_mapper l = None -> Z.max max 1 < zlen (k_iter k (d_items (l_doc l))) ->
  list_write k md5 clock l b fs = (fs, Err AttributeError).
Proof. intros M A Ms L. rewrite (list_write_multi k md5 clock l b fs max M L), A, Ms. reflexivity. Qed.

(** ** Metadata there before a document is read *)

Lemma parse_kids_md {C} sm (add : resource -> C -> res C) tag : forall kids p s ln c,
  (exists r, forall md, parse_kids sm add tag kids p s (MkDoc md ln c) = r)
  \/ (exists ln' c', forall md, parse_kids sm add tag kids p s (MkDoc md ln c) = Ok (MkDoc md ln' c')).
Proof.
  induction kids as [|e kids IH]; intros p s ln c; cbn [parse_kids].
  - right. exists ln, c. reflexivity.
  - destruct (str_eqb (x_tag e) tag).
    + destruct (resource_from_etree sm e) as [r|x]; cbn [bind d_items d_md d_ln]; [|left; eauto].
      destruct (add r c) as [c'|x]; cbn [bind]; [apply IH|left; eauto].
    + destruct (str_eqb (x_tag e) (rs_name $"md")).
      * left. destruct (negb p); [eauto|]. destruct s; [eauto|]. destruct (md_from_etree sm e) as [md|x]; cbn [bind d_ln d_items]; eauto.
      * destruct (str_eqb (x_tag e) (rs_name $"ln")).
        -- destruct (negb p); [left; eauto|]. destruct (ln_from_etree e) as [x|x]; cbn [bind d_md d_ln d_items]; [apply IH|left; eauto].
        -- apply IH.
Qed.

Lemma parse_any_md {C} sm (add : resource -> C -> res C) name si md ln c text r : name <> $"resourcelist" ->
  parse_xml sm add (Some name) si (MkDoc [] ln c) text = Ok r ->
  parse_xml sm add (Some name) si (MkDoc md ln c) text = Ok r.
Proof.
  intros N. unfold parse_xml. destruct (parse_text text) as [root|e]; [|discriminate]. cbn [bind]. unfold parse_tree.
  assert (K : forall tag i r, (let* d := parse_kids sm add tag (x_kids root) true false (MkDoc [] ln c) in
      let* d := check_capability (Some name) d in Ok (d, i : bool)) = Ok r ->
    (let* d := parse_kids sm add tag (x_kids root) true false (MkDoc md ln c) in
      let* d := check_capability (Some name) d in Ok (d, i)) = Ok r).
  { intros tag i r0. destruct (parse_kids_md sm add tag (x_kids root) true false ln c) as [(q & Q)|(ln' & c' & Q)].
    - now rewrite !Q.
    - rewrite !Q. cbn [bind]. unfold check_capability. cbn [d_md sget]. destruct (str_eqb name $"resourcelist") eqn:E.
      + apply str_eqb_eq in E. contradiction.
      + discriminate. }
  destruct (str_eqb (x_tag root) (sm_name $"urlset")).
  - destruct si as [[]|]; try discriminate; apply K.
  - destruct (str_eqb (x_tag root) (sm_name $"sitemapindex")); [|discriminate].
    destruct si as [[]|]; try discriminate; apply K.
Qed.

(** ** Source descriptions *)

Lemma xml_atts_none a k b : xml_atts (a ++ (k, PNone) :: b) = xml_atts (a ++ b).
Proof. unfold xml_atts. rewrite !fold_left_app. reflexivity. Qed.

Lemma xml_without sm index a k b ln items :
  resources_as_xml sm index (MkDoc (a ++ (k, PNone) :: b) ln items) = resources_as_xml sm index (MkDoc (a ++ b) ln items).
Proof. unfold resources_as_xml, resources_tree, element_with_atts. cbn [d_md d_ln d_items]. now rewrite xml_atts_none. Qed.

(** The entry from is not written. *)
Lemma from_unwritten sm index (d : doc rdict) : ~ In $"from" (dkeys (d_md d)) ->
  resources_as_xml sm index (MkDoc (written_md (source_description sm d)) (d_ln d) (rl_iter (d_items d)))
  = resources_as_xml sm index (as_written rl_iter $"description" d).
Proof.
  intros F. unfold written_md, source_description, made. cbn [l_name l_doc].
  unfold default_capability, smem. cbn [d_md]. rewrite (sset_fresh _ _ _ F).
  unfold as_written.
  assert (Q : sget $"capability" (d_md d ++ [($"from", PNone)]) = sget $"capability" (d_md d)).
  { rewrite <- (sset_fresh _ _ _ F). apply sget_sset_ne. discriminate. }
  rewrite Q. destruct (sget $"capability" (d_md d)) as [v|] eqn:E.
  - cbn [d_md]. rewrite xml_without, app_nil_r. reflexivity.
  - cbn [d_md]. rewrite sset_fresh.
    + rewrite <- app_assoc. cbn [app]. apply xml_without.
    + rewrite <- sget_none. exact Q.
Qed.

Lemma description_close md5 clock web sm d b fs max : wf_rl (d_items d) ->
  recorded_list rl_iter $"description" d -> zlen (rl_iter (d_items d)) <= Z.max max 1 -> plain_path b ->
  exists fs' l2, list_write source_description_kind md5 clock (limited max (source_description sm d)) b fs
      = (fs', Ok (limited max (source_description sm d)))
    /\ list_read source_description_kind (open_uri fs' web) false (source_description sm (MkDoc [] [] [])) b = Ok l2
    /\ same_atts (md_keys (s_spec_1_0 sm)) (d_md (as_written rl_iter $"description" d)) (d_md (l_doc l2))
    /\ Forall2 (same_atts link_keys) (d_ln d) (d_ln (l_doc l2))
    /\ Forall2 (read_close sm) (rl_iter (d_items d)) (rl_iter (d_items (l_doc l2))).
Proof.
  intros W G Few P. set (l := limited max (made $"description" None None sm d)).
  assert (Lg : legal $"description") by (apply legal_lit; reflexivity).
  destruct (single_close source_description_kind stored_dict rl_iter_stored md5 clock web l b fs
              $"description" max Lg G eq_refl eq_refl eq_refl Few P) as (fs' & l2 & W1 & W2 & W3).
  { intros rs' U _. change (k_iter source_description_kind (d_items (l_doc l))) with (rl_iter (d_items d)) in U.
    exists (map (fun r => (r_uri r, r)) rs').
    assert (N : NoDup (map r_uri rs')) by (rewrite U, rl_iter_uris by auto; apply sort_strs_NoDup, W).
    split; [exact (rs_add_seq rs' [] N)|].
    destruct (filled_iter rs' rs') as [_ A2]; [reflexivity|exact N| |exact A2].
    eapply StronglySorted_uris; [exact U|]. now apply rl_iter_sorted. }
  assert (F : ~ In $"from" (dkeys (d_md d))).
  { destruct G as ((GM & _) & _). destruct GM as (_ & K & _). apply K. cbn. auto 6. }
  exists fs'.
  assert (W1' : list_write source_description_kind md5 clock (limited max (source_description sm d)) b fs
      = (fs', Ok (limited max (source_description sm d)))).
  { rewrite (list_write_single source_description_kind md5 clock l b fs max eq_refl Few) in W1.
    rewrite (list_write_single source_description_kind md5 clock (limited max (source_description sm d)) b fs max eq_refl Few).
    revert W1. unfold write_doc. change (l_sm l) with sm. change (l_index l) with false. change (d_ln (l_doc l)) with (d_ln d).
    change (k_iter source_description_kind (d_items (l_doc l))) with (rl_iter (d_items d)). cbn [limited l_sm l_index l_doc source_description made d_ln d_items].
    change (k_iter source_description_kind (d_items d)) with (rl_iter (d_items d)).
    change (written_md (limited max (source_description sm d))) with (written_md (source_description sm d)).
    rewrite (from_unwritten sm false d F).
    replace (MkDoc (written_md l) (d_ln d) (rl_iter (d_items d))) with (as_written rl_iter $"description" d).
    2:{ rewrite <- default_capability_written. unfold written_md, in_order, default_capability. cbn [l l_name limited made l_doc].
        destruct (smem $"capability" (d_md d)); reflexivity. }
    destruct (resources_as_xml sm false (as_written rl_iter $"description" d)) as [t|e]; cbv beta iota; intros X; [|discriminate X].
    injection X as <-. reflexivity. }
  revert W2. unfold list_read.
  change (emptied source_description_kind l) with (limited max (made $"description" None None sm (MkDoc [] [] (@nil (str * resource))))).
  cbn [limited l_sm l_name l_doc l_allow source_description made d_ln d_items d_md].
  intros W2. destruct (open_uri fs' web b) as [text|e]; [|discriminate W2].
  cbn [bind] in W2 |- *.
  destruct (parse_xml sm (k_add source_description_kind) (Some $"description") None _ text) as [[d' i]|e] eqn:E; [|discriminate W2].
  rewrite (parse_any_md sm _ $"description" None _ [] [] text (d', i) ltac:(discriminate) E).
  cbn [bind] in W2 |- *. destruct i; cbn [negb] in W2 |- *; [discriminate W2|]. injection W2 as <-.
  eexists. split; [exact W1'|]. split; [reflexivity|]. exact W3.
Qed.

(** ** The limit on the number of entries does not matter for reading *)

Lemma components_limited {C} (k : kind C) fetch m l u i uris : forall c,
  read_components k fetch (limited m l) u i uris c = read_components k fetch l u i uris c.
Proof.
  induction uris as [|x uris IH]; intros c; [reflexivity|]. cbn [read_components].
  change (read_component k fetch (limited m l) u i c x) with (read_component k fetch l u i c x).
  destruct (read_component k fetch l u i c x); cbn [bind]; auto.
Qed.

Lemma read_limited {C} (k : kind C) fetch io m l u l2 : list_read k fetch io (limited m l) u = Ok l2 ->
  exists l2', list_read k fetch io l u = Ok l2' /\ l_doc l2' = l_doc l2.
Proof.
  unfold list_read. destruct (fetch u) as [text|]; [|discriminate]. cbn [bind]. cbn [limited l_sm l_name l_doc].
  destruct (parse_xml _ _ _ _ _ _) as [[d i]|]; [|discriminate]. cbn [bind]. change (l_allow (limited m l)) with (l_allow l).
  destruct (negb i). { intros [= <-]. eexists. split; reflexivity. }
  destruct (negb (l_allow l)); [discriminate|]. destruct io. { intros [= <-]. eexists. split; reflexivity. }
  destruct (k_uris k (d_items d)) as [us|]; [|discriminate]. cbn [bind]. rewrite components_limited.
  destruct (read_components _ _ _ _ _ _ _) as [c|]; [|discriminate]. cbn [bind]. intros [= <-]. eexists. split; reflexivity.
Qed.

(** ** Dumps and manifests *)

Definition dump_kinds : list ((option bool -> option mapper -> settings -> doc rdict -> ixlist rdict) * str) :=
  [ (resource_dump, $"resourcedump"); (resource_dump_manifest, $"resourcedump-manifest"); (change_dump, $"changedump") ].

Lemma dumps_close (new : option bool -> option mapper -> settings -> doc rdict -> ixlist rdict) name : In (new, name) dump_kinds ->
  forall md5 clock web allow ms sm d b fs max,
  digest_like md5 -> clock_like clock -> wf_rl (d_items d) -> recorded_list rl_iter name d -> plain_path b ->
  zlen (rl_iter (d_items d)) <= Z.max max 1 \/ (exists m, ms = Some m /\ published m b) ->
  exists fs' l' l2, list_write resource_list_kind md5 clock (limited max (new allow ms sm d)) b fs = (fs', Ok l')
    /\ list_read resource_list_kind (open_uri fs' web) false (new allow ms sm (MkDoc [] [] [])) b = Ok l2
    /\ Forall2 (read_close sm) (rl_iter (d_items d)) (rl_iter (d_items (l_doc l2)))
    /\ (find_link $"index" (d_ln d) = None ->
        same_atts (md_keys (s_spec_1_0 sm)) (d_md (as_written rl_iter name d)) (d_md (l_doc l2))
        /\ Forall2 (same_atts link_keys) (d_ln d) (d_ln (l_doc l2))).
Proof.
  intros I md5 clock web allow ms sm d b fs max D T W G P S.
  assert (E : legal name /\ forall d, new allow ms sm d = made name None ms sm d).
  { destruct I as [[= <- <-]|[[= <- <-]|[[= <- <-]|[]]]]; (split; [apply legal_lit; reflexivity|reflexivity]). }
  destruct E as [Lg E]. rewrite !E. set (l := limited max (made name None ms sm d)).
  assert (S' : zlen (rl_iter (d_items (l_doc l))) <= Z.max max 1
    \/ (l_allow l = true /\ l_mapper l = Some (match ms with Some m => m | None => [] end)
        /\ published (match ms with Some m => m | None => [] end) b)).
  { destruct S as [S|(m & -> & S)]; [left; exact S|]. right. auto. }
  destruct (named_read_close md5 clock web l b fs _ max name Lg D T W G eq_refl eq_refl eq_refl P S')
    as (fs' & l' & l2 & W1 & W2 & W3 & W4).
  change (emptied resource_list_kind l) with (limited max (made name None ms sm (MkDoc [] [] (@nil (str * resource))))) in W2.
  destruct (read_limited _ _ _ _ _ _ _ W2) as (l3 & R1 & R2). exists fs', l', l3. rewrite R2.
  split; [exact W1|]. split; [exact R1|]. split; [exact W3|exact W4].
Qed.

(** ** Change dump manifests *)

Lemma manifest_close md5 clock web allow ms sm d b fs max :
  Forall (fun r => r_change r <> None) (d_items d) -> recorded_list (fun l => l) $"changedump-manifest" d ->
  zlen (d_items d) <= Z.max max 1 -> plain_path b ->
  exists fs' l2, list_write change_list_kind md5 clock (limited max (change_dump_manifest allow ms sm d)) b fs
      = (fs', Ok (limited max (change_dump_manifest allow ms sm d)))
    /\ list_read change_list_kind (open_uri fs' web) false (change_dump_manifest allow ms sm (MkDoc [] [] [])) b = Ok l2
    /\ same_atts (md_keys (s_spec_1_0 sm)) (d_md (as_written (fun l => l) $"changedump-manifest" d)) (d_md (l_doc l2))
    /\ Forall2 (same_atts link_keys) (d_ln d) (d_ln (l_doc l2))
    /\ Forall2 (read_close sm) (d_items d) (d_items (l_doc l2)).
Proof.
  intros Ch G Few P. assert (Lg : legal $"changedump-manifest") by (apply legal_lit; reflexivity).
  destruct (named_changes_close md5 clock web (limited max (change_dump_manifest allow ms sm d)) b fs max
    $"changedump-manifest" Lg Ch G eq_refl eq_refl eq_refl Few P) as (fs' & l2 & W1 & W2 & W3).
  change (emptied change_list_kind (limited max (change_dump_manifest allow ms sm d)))
    with (limited max (change_dump_manifest allow ms sm (MkDoc [] [] []))) in W2.
  destruct (read_limited _ _ _ _ _ _ _ W2) as (l3 & R1 & R2). exists fs', l3. rewrite R2.
  split; [exact W1|]. split; [exact R1|]. exact W3.
Qed.

(** ** Indexes that are not wanted *)

Lemma unwanted_read {C} (k : kind C) fetch io (l l2 : ixlist C) uri : l_allow l = false ->
  list_read k fetch io l uri = Ok l2 ->
  exists text d, fetch uri = Ok text /\ parse_xml (l_sm l) (k_add k) (l_name l) None (l_doc l) text = Ok (d, false)
    /\ l_doc l2 = d.
Proof.
  intros A. unfold list_read. destruct (fetch uri) as [text|]; [|discriminate]. cbn [bind].
  destruct (parse_xml _ _ _ _ _ _) as [[d i]|] eqn:E; [|discriminate]. cbn [bind].
  destruct i; cbn [negb].
  - rewrite A. discriminate.
  - intros [= <-]. eauto.
Qed.

Lemma unwanted_index {C} (k : kind C) fetch io (l : ixlist C) uri text d : l_allow l = false -> fetch uri = Ok text ->
  parse_xml (l_sm l) (k_add k) (l_name l) None (l_doc l) text = Ok (d, true) ->
  list_read k fetch io l uri = Err ListBaseIndexError.
Proof. intros A F E. unfold list_read. rewrite F. cbn [bind]. rewrite E. cbn [bind negb]. now rewrite A. Qed.

Lemma unwanted_write {C} (k : kind C) md5 clock (l : ixlist C) b fs max : l_max l = Some max -> l_allow l = false ->
  Z.max max 1 < zlen (k_iter k (d_items (l_doc l))) ->
  list_write k md5 clock l b fs = (fs, Err ListBaseIndexError).
Proof. intros M A L. rewrite (list_write_multi k md5 clock l b fs max M L), A. reflexivity. Qed.

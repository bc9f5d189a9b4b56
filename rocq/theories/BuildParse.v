(** * BuildParse: what parse_document says of a document *)

From Verif Require Import Py PyFacts Float64 W3C Mapper Resource Container ContainerSpec ContainerFacts Xml Sitemap SitemapSpec SitemapText
  Opener ListIndex ListIndexSpec Hashes Disk Builder Client StoredSpec Build PublishSpec PublishFacts BuildSpec BuildScript.

Definition collect (r : resource) (l : list resource) : res (list resource) := Ok (l ++ [r]).

(** Reading into a container is reading into a list and adding what is in it. *)
Lemma kids_collected {C} sm (add : resource -> C -> res C) tag : forall kids p s (d d' : doc C) items,
  parse_kids sm add tag kids p s d = Ok d' ->
  exists rs, parse_kids sm collect tag kids p s (MkDoc (d_md d) (d_ln d) items) = Ok (MkDoc (d_md d') (d_ln d') (items ++ rs))
    /\ add_seq add rs (d_items d) = Ok (d_items d').
Proof.
  induction kids as [|e kids IH]; intros p s d d' items H; cbn [parse_kids] in *.
  - injection H as <-. exists []. rewrite app_nil_r. auto.
  - destruct (str_eqb (x_tag e) tag).
    + destruct (resource_from_etree sm e) as [r|]; [|discriminate]. cbn [bind] in *.
      destruct (add r (d_items d)) as [c|] eqn:A; [|discriminate]. cbn [bind] in *.
      destruct (IH _ _ _ _ (items ++ [r]) H) as (rs & P & S). cbn [d_md d_ln d_items collect bind] in *.
      exists (r :: rs). rewrite <- app_assoc in P. split; [exact P|]. cbn [add_seq]. rewrite A. exact S.
    + destruct (str_eqb (x_tag e) (rs_name $"md")).
      * destruct (negb p); [discriminate|]. destruct s; [discriminate|]. destruct (md_from_etree sm e) as [md|]; [|discriminate].
        cbn [bind] in *. exact (IH _ _ _ _ items H).
      * destruct (str_eqb (x_tag e) (rs_name $"ln")); [|exact (IH _ _ _ _ items H)].
        destruct (negb p); [discriminate|]. destruct (ln_from_etree e) as [l|]; [|discriminate]. cbn [bind] in *. exact (IH _ _ _ _ items H).
Qed.

Lemma text_collected {C} sm (add : resource -> C -> res C) name d text d' ix :
  parse_xml sm add (Some name) None d text = Ok (d', ix) ->
  exists md rs, parse_xml sm collect None None (MkDoc (d_md d) (d_ln d) []) text = Ok (MkDoc md (d_ln d') rs, ix)
    /\ add_seq add rs (d_items d) = Ok (d_items d')
    /\ (sget $"capability" md = Some (PStr name) \/ sget $"capability" md = None /\ name = $"resourcelist").
Proof.
  unfold parse_xml. destruct (parse_text text) as [root|]; [|discriminate]. cbn [bind]. unfold parse_tree.
  assert (X : forall tag b, (let* d0 := parse_kids sm add tag (x_kids root) true false d in
                let* d1 := check_capability (Some name) d0 in Ok (d1, b)) = Ok (d', ix) ->
     b = ix /\ exists md rs, (let* d0 := parse_kids sm collect tag (x_kids root) true false (MkDoc (d_md d) (d_ln d) []) in
        let* d1 := check_capability None d0 in Ok (d1, b)) = Ok (MkDoc md (d_ln d') rs, ix)
    /\ add_seq add rs (d_items d) = Ok (d_items d')
    /\ (sget $"capability" md = Some (PStr name) \/ sget $"capability" md = None /\ name = $"resourcelist")).
  { intros tag b. destruct (parse_kids sm add tag (x_kids root) true false d) as [d0|] eqn:E; [|discriminate]. cbn [bind].
    destruct (kids_collected sm add tag _ _ _ _ _ [] E) as (rs & P & S). rewrite P. cbn [bind check_capability app].
    destruct (sget $"capability" (d_md d0)) as [v|] eqn:G.
    - cbn [bind]. rewrite G. destruct (pv_eqb v (PStr name)) eqn:V; [|discriminate]. cbn [bind]. intros [= <- <-].
      split; [reflexivity|]. exists (d_md d0), rs. split; [reflexivity|]. split; [exact S|]. left. rewrite G.
      unfold pv_eqb in V. destruct v; try discriminate. apply str_eqb_eq in V. now subst.
    - destruct (str_eqb name $"resourcelist") eqn:R; [|discriminate]. apply str_eqb_eq in R. cbn [bind d_md].
      rewrite sget_sset_eq. destruct (pv_eqb _ _); [|discriminate]. cbn [bind]. intros [= <- <-]. cbn [d_md d_ln d_items].
      split; [reflexivity|]. exists (d_md d0), rs. split; [reflexivity|]. split; [exact S|]. right. auto. }
  destruct (str_eqb (x_tag root) (sm_name $"urlset")).
  - intros H. apply X in H as (<- & Y). exact Y.
  - destruct (str_eqb (x_tag root) (sm_name $"sitemapindex")); [|discriminate]. intros H. apply X in H as (<- & Y). exact Y.
Qed.

Lemma parse_document_is {C} (k : kind C) e c uri w name (l : ixlist C) : bc_verbose c = false ->
  (forall rs (c c' : C), add_seq (k_add k) rs c = Ok c' -> zlen (k_iter k c') = zlen (k_iter k c) + zlen rs) ->
  k_iter k (k_empty k) = [] ->
  list_read k (open_uri (o_fs w) (be_web e)) true (new_list k name true None) uri = Ok l ->
  exists cap, (cap = name \/ cap = $"(unknown capability)" /\ name = $"resourcelist")
    /\ parse_document e c uri w
       = (printed ($"Parsed " ++ cap ++ $" document with " ++ print_int (zlen (k_iter k (d_items (l_doc l)))) ++ $" entries") w, Ok tt).
Proof.
  intros Q A E H. unfold list_read in H. destruct (open_uri _ _ uri) as [text|] eqn:F; [|discriminate]. cbn [bind] in H.
  destruct (parse_xml _ _ _ _ _ text) as [[d ix]|] eqn:P; [|discriminate]. cbn [bind] in H.
  assert (D : l_doc l = d).
  { destruct ix; cbn [negb new_list l_allow] in H; injection H as <-; reflexivity. }
  rewrite D. cbn [new_list l_name l_doc l_sm] in P. destruct (text_collected _ _ _ _ _ _ _ P) as (md & rs & P2 & S & Cap).
  apply A in S. cbn [d_items] in S. rewrite E in S.
  cbn [d_md d_ln] in P2.
  assert (Len : zlen (k_iter k (d_items d)) = zlen rs) by (rewrite S; unfold zlen; cbn [List.length]; lia).
  unfold parse_document, parse_opened. rewrite F. cbn [bind]. unfold collect in P2. rewrite P2. cbn [bind d_md d_items].
  unfold wbind, wlift. unfold show_verbose. rewrite Q. rewrite Len. cbn [d_md d_items]. destruct Cap as [Cap|[Cap N]]; rewrite Cap.
  - exists name. split; [now left|]. reflexivity.
  - exists $"(unknown capability)". split; [right; auto|]. reflexivity.
Qed.

Lemma rl_add_count r d d' : wf_rl d -> rl_add r false d = Ok d' -> wf_rl d' /\ zlen d' = zlen d + 1.
Proof.
  intros W H. split; [eapply rl_add_wf; eauto|]. unfold rl_add in H. destruct (smem (r_uri r) d) eqn:M; cbn in H; [discriminate|].
  injection H as <-. rewrite sset_fresh.
  - unfold zlen. rewrite app_length. cbn [List.length]. lia.
  - unfold smem in M. destruct (sget (r_uri r) d) eqn:G; [discriminate|]. now apply sget_none.
Qed.
Lemma rl_count rs : forall d d', wf_rl d -> add_seq (fun r => rl_add r false) rs d = Ok d' -> wf_rl d' /\ zlen d' = zlen d + zlen rs.
Proof.
  induction rs as [|r rs IH]; intros d d' W H; cbn [add_seq] in H.
  - injection H as <-. split; [exact W|]. unfold zlen. cbn [List.length]. lia.
  - destruct (rl_add r false d) as [d1|] eqn:A; [|discriminate]. cbn [bind] in H. apply rl_add_count in A as [W1 L1]; [|exact W].
    destruct (IH _ _ W1 H) as [W2 L2]. split; [exact W2|]. unfold zlen in *. cbn [List.length]. lia.
Qed.

Lemma resource_list_counted e c uri w l : bc_verbose c = false ->
  list_read resource_list_kind (open_uri (o_fs w) (be_web e)) true (new_list resource_list_kind $"resourcelist" true None) uri = Ok l ->
  exists cap, (cap = $"resourcelist" \/ cap = $"(unknown capability)")
    /\ parse_document e c uri w
       = (printed ($"Parsed " ++ cap ++ $" document with " ++ print_int (zlen (d_items (l_doc l))) ++ $" entries") w, Ok tt).
Proof.
  intros Q H. unfold list_read in H. destruct (open_uri _ _ uri) as [text|] eqn:F; [|discriminate]. cbn [bind] in H.
  destruct (parse_xml _ _ _ _ _ text) as [[d ix]|] eqn:P; [|discriminate]. cbn [bind] in H.
  assert (D : l_doc l = d).
  { destruct ix; cbn [negb new_list l_allow] in H; injection H as <-; reflexivity. }
  rewrite D. cbn [new_list l_name l_doc l_sm] in P. destruct (text_collected _ _ _ _ _ _ _ P) as (md & rs & P2 & S & Cap).
  apply (rl_count rs [] _ wf_nil) in S as [_ S].
  cbn [d_md d_ln] in P2.
  assert (Len : zlen (d_items d) = zlen rs) by (rewrite S; unfold zlen; cbn [List.length]; lia).
  unfold parse_document, parse_opened. rewrite F. cbn [bind]. unfold collect in P2. rewrite P2. cbn [bind d_md d_items].
  unfold wbind, wlift. unfold show_verbose. rewrite Q. rewrite Len. cbn [d_md d_items]. destruct Cap as [Cap|[Cap N]]; rewrite Cap; eexists; (split; [|reflexivity]); auto.
Qed.

Lemma change_list_counted e c uri w l : bc_verbose c = false ->
  list_read change_list_kind (open_uri (o_fs w) (be_web e)) true (new_list change_list_kind $"changelist" true None) uri = Ok l ->
  parse_document e c uri w
  = (printed ($"Parsed changelist document with " ++ print_int (zlen (d_items (l_doc l))) ++ $" entries") w, Ok tt).
Proof.
  intros Q H. destruct (parse_document_is change_list_kind e c uri w $"changelist" l Q) as (cap & Cap & P); auto.
  - intros rs. change (k_iter change_list_kind) with (fun l : list resource => l). cbv beta.
    induction rs as [|r rs IH]; intros c0 c1 S; cbn [add_seq] in S.
    + injection S as <-. unfold zlen. cbn [List.length]. lia.
    + destruct (k_add change_list_kind r c0) as [c2|] eqn:A; [|discriminate]. cbn [bind] in S. apply IH in S. rewrite S.
      cbn [k_add change_list_kind] in A. unfold cl_add in A. destruct (r_change r); [|discriminate]. injection A as <-.
      unfold zlen. rewrite app_length. cbn [List.length]. lia.
  - destruct Cap as [->|[_ X]]; [exact P|discriminate].
Qed.

(** * SitemapProps: counterexamples and consequences *)

From Verif Require Import Py PyFacts Float64 W3C W3CSpec Resource ResourceSpec Container ContainerSpec
  Xml XmlFacts Sitemap SitemapSpec SitemapFacts SitemapText SitemapLists SitemapAccept SitemapExamples.

Lemma at_lost : exists r e r', good_resource r /\ r_ts_at r <> None
  /\ resource_etree_element plain r $"url" = Ok e
  /\ Exists (fun k => sget $"at" (x_atts k) = Some $"2012-01-01T00:00:00Z") (x_kids e)
  /\ resource_from_etree plain (with_namespaces e) = Ok r' /\ r_ts_at r' = None.
Proof.
  exists at_resource. eexists _, _. split; [|split; [discriminate|]].
  - split; [discriminate|]. split; [|split; [split; [|split]; intros v c [=]|split; [now left|constructor]]].
    repeat split; try apply plain_none. apply plain_whole. unfold in_years. lia.
  - split; [vm_compute; reflexivity|]. split; [right; left; reflexivity|]. split; reflexivity.
Qed.

Lemma never_read sm r name : good_resource r ->
  exists e r', resource_etree_element sm r name = Ok e
    /\ resource_from_etree sm (with_namespaces e) = Ok r'
    /\ r_ts_at r' = None /\ r_ts_completed r' = None /\ r_ts_from r' = None /\ r_ts_until r' = None.
Proof.
  intros G. destruct (resource_round sm r name G) as (e & r' & E & P & R). exists e, r'.
  split; [exact E|]. split; [exact P|]. unfold read_back in R. tauto.
Qed.

Lemma type_renamed : exists l r e l' r', sget $"type" l = Some (PStr $"application/xml")
  /\ r_ln r = Some [l] /\ resource_etree_element plain r $"url" = Ok e
  /\ resource_from_etree plain (with_namespaces e) = Ok r' /\ r_ln r' = Some [l']
  /\ sget $"type" l' = None /\ sget $"mime_type" l' = Some (PStr $"application/xml").
Proof.
  exists typed_link, (set_ln (Some [typed_link]) (new_resource $"http://ex.org/a")). eexists _, _, _.
  split; [reflexivity|]. split; [reflexivity|]. split; [vm_compute; reflexivity|].
  split; [vm_compute; reflexivity|]. split; [reflexivity|]. split; reflexivity.
Qed.

Lemma value_error : exists root,
  parse_tree plain (fun r l => Ok (l ++ [r])) None None (MkDoc [] [] []) root = Err ValueError.
Proof. exists (urlset [url [loc $"u"; lastmod $"yesterday"]]). vm_compute. reflexivity. Qed.

Lemma trees_read :
  (exists d, parse_tree plain (fun r l => Ok (l ++ [r])) (Some $"changelist") (Some false) (MkDoc [] [] []) good_tree
             = Ok (d, false) /\ List.length (d_items d) = 1%nat)
  /\ forallb (fun t => match parse_tree plain (fun r l => Ok (l ++ [r])) (Some $"changelist") (Some false) (MkDoc [] [] []) t with
                       | Err _ => true | Ok _ => false end) bad_trees = true
  /\ List.length bad_trees = 17%nat.
Proof.
  split; [eexists; split; [vm_compute; reflexivity|reflexivity]|]. split; [vm_compute; reflexivity|reflexivity].
Qed.

Lemma resource_element_tag sm r name e : resource_etree_element sm r name = Ok e -> x_tag e = name.
Proof.
  unfold resource_etree_element. intros E.
  destruct (get_dt (r_timestamp r)); [|discriminate]. cbn [bind] in E.
  match type of E with bind ?x _ = _ => destruct x; [|discriminate] end. cbn [bind] in E.
  destruct (md_atts r (md_att_keys sm)); [|discriminate]. cbn [bind] in E. now injection E as <-.
Qed.
Lemma with_namespaces_tag e : x_tag (with_namespaces e)
  = if startswith $"rs:" (x_tag e) then rs_ns (skipn 3 (x_tag e)) else sitemap_ns (x_tag e).
Proof. destruct e. reflexivity. Qed.

Lemma ln_elements_named tl ls k : In k (ln_elements tl ls) -> x_tag k = $"rs:ln".
Proof.
  unfold ln_elements. rewrite in_flat_map. intros (l & _ & I).
  destruct (element_with_atts_cases $"rs:ln" l tl) as [[E _]|[E _]]; rewrite E in I; [contradiction|].
  destruct I as [<-|[]]. reflexivity.
Qed.

Lemma written_tree sm index d text : good_doc d -> resources_as_xml sm index d = Ok text ->
  exists root, parse_text text = Ok root
    /\ x_tag root = sitemap_ns (if index then $"sitemapindex" else $"urlset")
    /\ Forall (fun k => In (x_tag k) [rs_ns $"ln"; rs_ns $"md"; sitemap_ns (if index then $"sitemap" else $"url")]) (x_kids root)
    /\ List.length (kids_named (sitemap_ns (if index then $"sitemap" else $"url")) root) = List.length (d_items d).
Proof.
  intros G W. destruct (document_text sm index d G) as (text' & md' & ln' & rs' & W' & _ & _ & es & t & M & P).
  rewrite W in W'. injection W' as <-. rewrite P. eexists. split; [reflexivity|]. split; [reflexivity|].
  cbn [x_kids].
  set (name := if index then $"sitemap" else $"url") in *.
  assert (T : Forall (fun e => x_tag e = name) es /\ List.length es = List.length (d_items d)).
  { clear - M. revert es M. induction (d_items d) as [|r rs IH]; intros es M; cbn [mapM] in M.
    - injection M as <-. split; [constructor|reflexivity].
    - destruct (resource_etree_element sm r name) as [e|] eqn:E; [|discriminate]. cbn [bind] in M.
      destruct (mapM _ rs) as [es'|]; [|discriminate]. cbn [bind] in M. injection M as <-.
      destruct (IH es' eq_refl). split; [constructor; [now apply resource_element_tag in E|assumption]|cbn; congruence]. }
  destruct T as [T L].
  assert (N : startswith $"rs:" name = false) by (unfold name; destruct index; reflexivity).
  assert (MD : forall k, In k (element_with_atts $"rs:md" (d_md d) (newline sm)) -> x_tag k = $"rs:md").
  { intros k I. destruct (element_with_atts_cases $"rs:md" (d_md d) (newline sm)) as [[E _]|[E _]]; rewrite E in I; [contradiction|].
    destruct I as [<-|[]]. reflexivity. }
  split.
  - rewrite Forall_forall. intros k I. apply in_map_iff in I as (e & <- & I).
    rewrite with_namespaces_tag. rewrite !in_app_iff in I. destruct I as [I|[I|I]].
    + apply ln_elements_named in I. rewrite I. now left.
    + apply MD in I. rewrite I. right; now left.
    + rewrite Forall_forall in T. rewrite (T e I), N. right; right; now left.
  - rewrite <- L. unfold kids_named. cbn [x_kids]. rewrite !map_app, !filter_app, !app_length.
    assert (Z : forall l, (forall k, In k l -> str_eqb (x_tag (with_namespaces k)) (sitemap_ns name) = false) ->
      List.length (filter (fun k => str_eqb (x_tag k) (sitemap_ns name)) (map with_namespaces l)) = O).
    { induction l as [|k l IH]; intros H; [reflexivity|]. cbn [map filter]. rewrite (H k) by now left.
      apply IH. intros; apply H; now right. }
    rewrite (Z (ln_elements (newline sm) (d_ln d))), (Z (element_with_atts $"rs:md" (d_md d) (newline sm))).
    + cbn [Nat.add]. clear - T N. induction T as [|e es E _ IH]; [reflexivity|].
      cbn [map filter]. rewrite with_namespaces_tag, E, N, str_eqb_refl. cbn [List.length]. now rewrite IH.
    + intros k I. rewrite with_namespaces_tag, (MD k I). unfold name; destruct index; reflexivity.
    + intros k I. apply ln_elements_named in I. rewrite with_namespaces_tag, I. unfold name; destruct index; reflexivity.
Qed.

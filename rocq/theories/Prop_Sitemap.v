(** * Properties C29-C32, C71: sitemap documents *)

From Verif Require Import Py Float64 W3C W3CSpec Resource ResourceSpec Container ContainerSpec
  Xml XmlFacts Sitemap SitemapSpec SitemapFacts SitemapText SitemapLists SitemapAccept SitemapExamples SitemapProps.

(** C29: a resource written as an element and read again, as part of a document. *)
Theorem C29_element : forall sm r name, good_resource r ->
  exists e r', resource_etree_element sm r name = Ok e
    /\ resource_from_etree sm (with_namespaces e) = Ok r' /\ read_back sm r r'.
Proof. exact resource_round. Qed.
Print Assumptions C29_element.

Example C29_example : good_resource some_resource /\
  resource_as_xml plain some_resource = Ok ($"<url><loc>http://ex.org/a?b&amp;c</loc><lastmod>2012-01-01T00:00:00Z</lastmod>" ++
    $"<rs:md change=""updated"" hash=""md5:abc123"" length=""42"" type=""text/plain"" />" ++
    $"<rs:ln href=""http://ex.org/&lt;&amp;&gt;"" pri=""3"" rel=""describes"" /></url>").
Proof. exact (conj (proj1 some_resource_good) eq_refl). Qed.

(** C30: the attribute at is written and not read. *)
Theorem C30_refuted : exists r e r', good_resource r /\ r_ts_at r <> None
  /\ resource_etree_element plain r $"url" = Ok e
  /\ Exists (fun k => sget $"at" (x_atts k) = Some $"2012-01-01T00:00:00Z") (x_kids e)
  /\ resource_from_etree plain (with_namespaces e) = Ok r' /\ r_ts_at r' = None.
Proof. exact at_lost. Qed.
Print Assumptions C30_refuted.

(** None of the four is ever read back; the type of a link changes its name. *)
Theorem C30_never : forall sm r name, good_resource r ->
  exists e r', resource_etree_element sm r name = Ok e
    /\ resource_from_etree sm (with_namespaces e) = Ok r'
    /\ r_ts_at r' = None /\ r_ts_completed r' = None /\ r_ts_from r' = None /\ r_ts_until r' = None.
Proof. exact never_read. Qed.
Print Assumptions C30_never.
Theorem C30_link_type_refuted : exists l r e l' r', sget $"type" l = Some (PStr $"application/xml")
  /\ r_ln r = Some [l] /\ resource_etree_element plain r $"url" = Ok e
  /\ resource_from_etree plain (with_namespaces e) = Ok r' /\ r_ln r' = Some [l']
  /\ sget $"type" l' = None /\ sget $"mime_type" l' = Some (PStr $"application/xml").
Proof. exact type_renamed. Qed.
Print Assumptions C30_link_type_refuted.

(** C31: whole lists as text. *)
Theorem C31_resource_list : forall sm (d : doc rdict),
  wf_rl (d_items d) -> good_list rl_iter $"resourcelist" d ->
  exists text d', as_xml rl_iter sm (Some $"resourcelist") false d = Ok text
    /\ list_parse (fun r => rl_add r false) sm (Some $"resourcelist") (MkDoc [] [] []) text = Ok d'
    /\ doc_read_back sm (as_written rl_iter $"resourcelist" d) (in_order rl_iter d').
Proof. exact resource_list_round. Qed.
Print Assumptions C31_resource_list.
Theorem C31_ordered_list : forall sm (d : doc rdict),
  wf_rl (d_items d) -> good_list rlo_iter $"resourcelist" d ->
  exists text d', as_xml rlo_iter sm (Some $"resourcelist") false d = Ok text
    /\ list_parse (fun r => rl_add r false) sm (Some $"resourcelist") (MkDoc [] [] []) text = Ok d'
    /\ doc_read_back sm (as_written rlo_iter $"resourcelist" d) (in_order rlo_iter d').
Proof. exact ordered_list_round. Qed.
Print Assumptions C31_ordered_list.
Theorem C31_change_list : forall sm (d : doc (list resource)),
  Forall (fun r => r_change r <> None) (d_items d) -> good_list (fun l => l) $"changelist" d ->
  exists text d', as_xml (fun l => l) sm (Some $"changelist") false d = Ok text
    /\ list_parse cl_add sm (Some $"changelist") (MkDoc [] [] []) text = Ok d'
    /\ doc_read_back sm (as_written (fun l => l) $"changelist" d) (in_order (fun l => l) d').
Proof. exact change_list_round. Qed.
Print Assumptions C31_change_list.

Example C31_example :
  (wf_rl (d_items some_rl) /\ good_list rl_iter $"resourcelist" some_rl /\ good_list rlo_iter $"resourcelist" some_rl)
  /\ (Forall (fun r => r_change r <> None) (d_items some_cl) /\ good_list (fun l => l) $"changelist" some_cl)
  /\ (r_uri other_resource = $"http://ex.org/b" /\ rl_iter (d_items some_rl) = [some_resource; other_resource]).
Proof. exact (conj some_rl_good (conj some_cl_good (conj eq_refl eq_refl))). Qed.

(** The documents have the namespaces the specification asks for, read without any
    knowledge of this library's prefixes. *)
Theorem C31_namespaces : forall sm index d text, good_doc d -> resources_as_xml sm index d = Ok text ->
  exists root, parse_text text = Ok root
    /\ x_tag root = sitemap_ns (if index then $"sitemapindex" else $"urlset")
    /\ Forall (fun k => In (x_tag k) [rs_ns $"ln"; rs_ns $"md"; sitemap_ns (if index then $"sitemap" else $"url")]) (x_kids root)
    /\ List.length (kids_named (sitemap_ns (if index then $"sitemap" else $"url")) root) = List.length (d_items d).
Proof. exact written_tree. Qed.
Print Assumptions C31_namespaces.

(** C32: what is read is acceptable, and everything acceptable is read if its times are. *)
Theorem C32_accepted : forall C sm (add : resource -> C -> res C) cap si (d d' : doc C) root i,
  sget $"capability" (d_md d) = None ->
  parse_tree sm add cap si d root = Ok (d', i) ->
  acceptable cap si root i /\ times_readable (s_spec_1_0 sm) root i.
Proof. exact @accepted_is_acceptable. Qed.
Print Assumptions C32_accepted.
Theorem C32_iff : forall sm cap si root,
  (exists d i, parse_tree sm (fun r l => Ok (l ++ [r])) cap si (MkDoc [] [] []) root = Ok (d, i))
  <-> exists i, acceptable cap si root i /\ times_readable (s_spec_1_0 sm) root i.
Proof. exact accepted_iff. Qed.
Print Assumptions C32_iff.
Theorem C32_text : forall C sm (add : resource -> C -> res C) cap si (d d' : doc C) text i,
  sget $"capability" (d_md d) = None ->
  parse_xml sm add cap si d text = Ok (d', i) ->
  exists root, parse_text text = Ok root /\ acceptable cap si root i /\ times_readable (s_spec_1_0 sm) root i.
Proof. exact @accepted_text. Qed.
Print Assumptions C32_text.

Example C32_example :
  (exists d, parse_tree plain (fun r l => Ok (l ++ [r])) (Some $"changelist") (Some false) (MkDoc [] [] []) good_tree
             = Ok (d, false) /\ List.length (d_items d) = 1%nat)
  /\ forallb (fun t => match parse_tree plain (fun r l => Ok (l ++ [r])) (Some $"changelist") (Some false) (MkDoc [] [] []) t with
                       | Err _ => true | Ok _ => false end) bad_trees = true
  /\ List.length bad_trees = 17%nat.
Proof. exact trees_read. Qed.

(** C71: errors are not always SitemapParseError. *)
Theorem C71_refuted : exists root, parse_tree plain (fun r l => Ok (l ++ [r])) None None (MkDoc [] [] []) root = Err ValueError.
Proof. exact value_error. Qed.
Print Assumptions C71_refuted.
(** It is SitemapParseError or SitemapIndexError unless a time cannot be read. *)
Theorem C71_kinds : forall C sm (add : resource -> C -> res C) cap si (d : doc C) root x,
  sget $"capability" (d_md d) = None -> (forall r c e, add r c <> Err e) ->
  parse_tree sm add cap si d root = Err x ->
  ((x = SitemapParseError \/ x = SitemapIndexError) /\ forall i : bool, ~ acceptable cap si root i)
  \/ (x = ValueError /\ exists i : bool, x_tag root = sitemap_ns (if i then $"sitemapindex" else $"urlset")
        /\ ~ times_readable (s_spec_1_0 sm) root i).
Proof. exact @parse_errors. Qed.
Print Assumptions C71_kinds.

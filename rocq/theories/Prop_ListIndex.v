(** * Properties C33 to C40 and C72 to C74: lists with indexes *)

From Verif Require Import Py Float64 W3CSpec Regex Mapper MapperSpec UrlAuthority Resource ResourceSpec Container ContainerSpec
  Xml Sitemap SitemapSpec SitemapExamples Opener ListIndex ListIndexSpec ListIndexFacts ListIndexWrite ListIndexProps ListIndexExamples.

(** C33: the parts that are written make up the list, every part but the last has as
    many entries as allowed, the index lists exactly the parts with the digest and time
    of their files, and no other file is touched. *)
Theorem C33_split : forall C (k : kind C) md5 clock (l l' : ixlist C) b fs fs' max,
  let items := k_iter k (d_items (l_doc l)) in
  l_max l = Some max -> Z.max max 1 < zlen items ->
  list_write k md5 clock l b fs = (fs', Ok l') ->
  exists parts md part_ln index_ln entries ms,
    List.concat parts = items
    /\ (2 <= max -> split_by max parts) /\ (forall p, In p parts -> p <> [])
    /\ (forall i p, nth_error parts i = Some p ->
          holds (l_sm l) fs' (part_name b (Z.of_nat i)) false md part_ln p)
    /\ holds (l_sm l) fs' b true md index_ln entries
    /\ List.length entries = List.length parts /\ l_mapper l = Some ms
    /\ (forall i e, nth_error entries i = Some e ->
          dst_to_src ms (part_name b (Z.of_nat i)) = Ok (r_uri e)
          /\ exists f, sget (part_name b (Z.of_nat i)) fs' = Some f /\ r_md5 e = Some (md5 (f_data f))
               /\ r_timestamp e = Some (f_mtime f))
    /\ (forall path, path <> b -> (forall i, 0 <= i < zlen parts -> path <> part_name b i) ->
          sget path fs' = sget path fs).
Proof. exact @the_files. Qed.
Print Assumptions C33_split.

(** A list that fits is written as one file. *)
Theorem C33_fits : forall C (k : kind C) md5 clock (l l' : ixlist C) b fs fs' max,
  let items := k_iter k (d_items (l_doc l)) in
  l_max l = Some max -> zlen items <= Z.max max 1 ->
  list_write k md5 clock l b fs = (fs', Ok l') ->
  l' = l /\ (exists md, holds (l_sm l) fs' b (l_index l) md (d_ln (l_doc l)) items)
  /\ (forall path, path <> b -> sget path fs' = sget path fs).
Proof. exact @one_file. Qed.
Print Assumptions C33_fits.

(** C33 and C34 are false for the limit 1: a part with two entries. *)
Theorem C34_refuted : exists fs' l' md ln,
  list_write resource_list_kind some_md5 some_clock (list3 1 [some_map]) base [] = (fs', Ok l')
  /\ holds (l_sm l') fs' (part_name base 1) false md ln [other_resource; third_resource].
Proof. exact limit_one. Qed.
Print Assumptions C34_refuted.

(** C34: for larger limits, each file that is written is a sitemap with no more entries
    than allowed, or the index of a list that does not fit. *)
Theorem C34_limit : forall C (k : kind C) md5 clock (l l' : ixlist C) b fs fs' max path,
  let items := k_iter k (d_items (l_doc l)) in
  l_max l = Some max -> 2 <= max -> l_index l = false ->
  list_write k md5 clock l b fs = (fs', Ok l') -> sget path fs' <> sget path fs ->
  (exists md ln entries, holds (l_sm l) fs' path false md ln entries /\ zlen entries <= max)
  \/ (path = b /\ max < zlen items /\ exists md ln entries, holds (l_sm l) fs' path true md ln entries).
Proof. exact @sizes. Qed.
Print Assumptions C34_limit.

Example C33_example :
  zlen (k_iter resource_list_kind (d_items (l_doc (list3 2 [some_map])))) = 3
  /\ let '(fs', r) := list_write resource_list_kind some_md5 some_clock (list3 2 [some_map]) base [] in
     dkeys fs' = [$"/tmp/d/rl00000.xml"; $"/tmp/d/rl00001.xml"; base] /\ exists l', r = Ok l'.
Proof. vm_compute. eauto. Qed.

(** C35: a resource list that is written, to one file or several, is read back the
    same, if the mapper leads back to the files ... *)
Theorem C35_write_read : forall md5 clock web (l : ixlist rdict) b fs ms max,
  digest_like md5 -> clock_like clock -> wf_rl (d_items (l_doc l)) ->
  good_list rl_iter $"resourcelist" (l_doc l) -> l_name l = Some $"resourcelist" -> l_index l = false ->
  l_max l = Some max -> l_allow l = true -> l_mapper l = Some ms -> plain_path b -> published ms b ->
  exists fs' l' l2, list_write resource_list_kind md5 clock l b fs = (fs', Ok l')
    /\ list_read resource_list_kind (open_uri fs' web) false (emptied resource_list_kind l) b = Ok l2
    /\ Forall2 (read_back (l_sm l)) (rl_iter (d_items (l_doc l))) (rl_iter (d_items (l_doc l2)))
    /\ (find_link $"index" (d_ln (l_doc l)) = None ->
        doc_read_back (l_sm l) (as_written rl_iter $"resourcelist" (l_doc l)) (in_order rl_iter (l_doc l2))).
Proof. exact write_read. Qed.
Print Assumptions C35_write_read.

(** ... as does a single mapping from an http URI. *)
Theorem C35_one_mapping : forall s d name, MapperSpec.plain s -> MapperSpec.plain d ->
  one_line s -> one_line d -> one_line name ->
  startswith $"http:" s = true -> uri_text s -> uri_text name -> published [MkMap s d] (d ++ $"/" ++ name).
Proof. exact map_published. Qed.
Print Assumptions C35_one_mapping.

Example C35_example :
  digest_like some_md5 /\ clock_like some_clock
  /\ (wf_rl (d_items three_rl) /\ good_list rl_iter $"resourcelist" three_rl)
  /\ plain_path base /\ published [some_map] base
  /\ zlen (rl_iter (d_items three_rl)) = 3 /\ find_link $"index" (d_ln three_rl) = None.
Proof.
  exact (conj some_md5_ok (conj some_clock_ok (conj three_rl_good (conj base_plain (conj base_published
    (conj eq_refl eq_refl)))))).
Qed.

(** It is false for a mapper that leads back to the files with https URIs ... *)
Theorem C35_https_refuted :
  (forall n, exists x, dst_to_src [https_map] (part_name base n) = Ok x
     /\ src_to_dst [https_map] x = Ok (part_name base n))
  /\ (exists l', snd (list_write resource_list_kind some_md5 some_clock (list3 2 [https_map]) base []) = Ok l')
  /\ list_read resource_list_kind
       (open_uri (fst (list_write resource_list_kind some_md5 some_clock (list3 2 [https_map]) base [])) no_web)
       false (emptied resource_list_kind (list3 2 [https_map])) base = Err ListBaseIndexError.
Proof. exact (conj https_inverse https_unreadable). Qed.
Print Assumptions C35_https_refuted.

(** ... and for file names with an escape. *)
Theorem C35_percent_refuted :
  (exists l', snd (list_write resource_list_kind some_md5 some_clock (list3 9 [some_map]) $"/tmp/a%41.xml" []) = Ok l')
  /\ list_read resource_list_kind
       (open_uri (fst (list_write resource_list_kind some_md5 some_clock (list3 9 [some_map]) $"/tmp/a%41.xml" [])) no_web)
       false (emptied resource_list_kind (list3 9 [some_map])) $"/tmp/a%41.xml" = Err IOError.
Proof. exact percent_unreadable. Qed.
Print Assumptions C35_percent_refuted.

(** C36: names of parts. *)
Theorem C36_injective : forall b m n, 0 <= m -> 0 <= n -> part_name b m = part_name b n -> m = n.
Proof. exact part_name_inj. Qed.
Print Assumptions C36_injective.
Theorem C36_not_the_index : forall b n, part_name b n <> b.
Proof. exact part_name_not_base. Qed.
Print Assumptions C36_not_the_index.
(** Parts stay in the directory of the index. *)
Theorem C36_directory : forall dir name n, part_name (dir ++ $"/" ++ name) n = dir ++ $"/" ++ part_name name n.
Proof. exact part_name_below. Qed.
Print Assumptions C36_directory.
Example C36_example :
  part_name $"/tmp/rl.xml" 12 = $"/tmp/rl00012.xml" /\ part_name $"rl" 123456 = $"rl123456.xml".
Proof. split; reflexivity. Qed.

(** C37: the parts by number make up the list; their number is the one
    requires_multifile gives; the index lists their names. *)
Theorem C37_parts : forall C (k : kind C) (l : ixlist C) b max name,
  let items := k_iter k (d_items (l_doc l)) in
  l_max l = Some max -> l_name l = Some name -> 0 < max < zlen items -> zlen items < 2 ^ 53 ->
  exists parts, List.concat parts = items /\ split_by max parts
    /\ requires_multifile k l = Ok (zlen parts)
    /\ (forall i p, nth_error parts i = Some p ->
          as_xml_part k l b (Z.of_nat i) = resources_as_xml (l_sm l) false (part_doc name b p))
    /\ (exists entries, as_xml_index k l b
          = resources_as_xml (l_sm l) true (MkDoc [($"capability", PStr name)] [] entries)
        /\ list_as_xml k l true b = as_xml_index k l b /\ list_as_xml k l false b = Err ListBaseIndexError
        /\ map r_uri entries = map (fun i => part_name b (Z.of_nat i)) (seq 0 (List.length parts))).
Proof. exact @parts_by_number. Qed.
Print Assumptions C37_parts.

(** A list that fits, or has no limit, is not split. *)
Theorem C37_fits : forall C (k : kind C) (l : ixlist C) b max,
  let items := k_iter k (d_items (l_doc l)) in
  l_max l = None \/ (l_max l = Some max /\ zlen items <= max) ->
  requires_multifile k l = Ok 0
  /\ (forall allow, list_as_xml k l allow b = as_xml (k_iter k) (l_sm l) (l_name l) (l_index l) (l_doc l))
  /\ as_xml_index k l b = Err ListBaseIndexError
  /\ (forall part, as_xml_part k l b part = Err ListBaseIndexError).
Proof. exact @fits. Qed.
Print Assumptions C37_fits.

Example C37_example :
  let l := list3 2 [some_map] in
  (0 < 2 < zlen (k_iter resource_list_kind (d_items (l_doc l))))
  /\ requires_multifile resource_list_kind l = Ok 2.
Proof. vm_compute. auto. Qed.

(** C72: false, a part beyond the last one can be had. *)
Theorem C72_refuted : requires_multifile resource_list_kind (list3 1 [some_map]) = Ok 3
  /\ as_xml_part resource_list_kind (list3 1 [some_map]) base 3
     = resources_as_xml SitemapExamples.plain false (part_doc $"resourcelist" base [])
  /\ exists text, as_xml_part resource_list_kind (list3 1 [some_map]) base 3 = Ok text.
Proof. exact empty_part. Qed.
Print Assumptions C72_refuted.
(** True of all parts that start beyond the end of the list; negative numbers raise
    another exception. *)
Theorem C72_beyond : forall C (k : kind C) (l : ixlist C) b max part,
  let items := k_iter k (d_items (l_doc l)) in
  l_max l = Some max -> 0 < max < zlen items -> zlen items < 2 ^ 53 ->
  (zlen items < part * max -> as_xml_part k l b part = Err ListBaseIndexError)
  /\ (part < 0 -> as_xml_part k l b part = Err ValueError).
Proof. exact @no_part_beyond. Qed.
Print Assumptions C72_beyond.

(** C38: false of https. *)
Theorem C38_refuted : forall x, is_file_uri ($"https:" ++ x) = true.
Proof. exact is_file_uri_https. Qed.
Print Assumptions C38_refuted.
(** What is taken for a file: file URIs, and whatever has no scheme of three or four letters. *)
Theorem C38_exact : forall u, is_file_uri u = true <->
  startswith $"file:" u = true \/ ~ (scheme_of_length 3 u \/ scheme_of_length 4 u).
Proof. exact is_file_uri_iff. Qed.
Print Assumptions C38_exact.
Theorem C38_schemes : forall u, (startswith $"http:" u = true \/ startswith $"ftp:" u = true -> is_file_uri u = false)
  /\ (startswith $"file:" u = true -> is_file_uri u = true) /\ (~ In ":"%char u -> is_file_uri u = true).
Proof. exact schemes. Qed.
Print Assumptions C38_schemes.

(** C39: false, an index on the web is not checked ... *)
Theorem C39_refuted : exists l2 d,
  parse_xml (l_sm checking) (fun r => rl_add r false) (l_name checking) None (l_doc checking) ex_index = Ok (d, true)
  /\ dkeys (d_items d) = [$"http://b.org/c.xml"]
  /\ authority_over false $"http://a.org/i.xml" $"http://b.org/c.xml" = Ok false
  /\ list_read resource_list_kind ex_fetch false checking $"http://a.org/i.xml" = Ok l2
  /\ dkeys (d_items (l_doc l2)) = [$"http://x.org/r"].
Proof. exact foreign_component. Qed.
Print Assumptions C39_refuted.
(** ... the setting makes no difference for it ... *)
Theorem C39_unchecked : forall C (k : kind C) fetch io (l : ixlist C) uri, is_file_uri uri = false ->
  (let* l := list_read k fetch io (set_check true l) uri in Ok (l_doc l))
  = (let* l := list_read k fetch io (set_check false l) uri in Ok (l_doc l)).
Proof. exact @check_unused. Qed.
Print Assumptions C39_unchecked.
(** ... and only those components of a local index are checked that are not mapped. *)
Theorem C39_checked : forall (l l2 : ixlist rdict) fetch uri text d, is_file_uri uri = true -> l_check l = true ->
  fetch uri = Ok text ->
  parse_xml (l_sm l) (fun r => rl_add r false) (l_name l) None (l_doc l) text = Ok (d, true) ->
  list_read resource_list_kind fetch false l uri = Ok l2 ->
  forall u, In u (dkeys (d_items d)) -> is_file_uri u = true -> authority_over false uri u = Ok true.
Proof. exact authority_checked. Qed.
Print Assumptions C39_checked.
Example C39_example : list_read resource_list_kind ex_fetch false checking $"/i.xml" = Err ListBaseIndexError.
Proof. exact foreign_file. Qed.

(** C40: false, a change list with an index is written but cannot be read ... *)
Theorem C40_refuted :
  (exists l', snd (list_write change_list_kind some_md5 some_clock (cl3 2) base []) = Ok l')
  /\ list_read change_list_kind
       (open_uri (fst (list_write change_list_kind some_md5 some_clock (cl3 2) base [])) no_web)
       false (emptied change_list_kind (cl3 2)) base = Err ChangeTypeError.
Proof. exact long_change_list. Qed.
Print Assumptions C40_refuted.
(** ... as no index is ever read into a change list. *)
Theorem C40_never : forall fetch (l l2 : ixlist (list resource)) uri,
  list_read change_list_kind fetch false l uri = Ok l2 ->
  exists text d, fetch uri = Ok text /\ parse_xml (l_sm l) cl_add (l_name l) None (l_doc l) text = Ok (d, false).
Proof. exact change_list_not_index. Qed.
Print Assumptions C40_never.
(** Change lists that fit are read back. *)
Theorem C40_short : forall md5 clock web (l : ixlist (list resource)) b fs max,
  Forall (fun r => r_change r <> None) (d_items (l_doc l)) ->
  good_list (fun l => l) $"changelist" (l_doc l) -> l_name l = Some $"changelist" -> l_index l = false ->
  l_max l = Some max -> zlen (d_items (l_doc l)) <= Z.max max 1 -> plain_path b ->
  exists fs' l2, list_write change_list_kind md5 clock l b fs = (fs', Ok l)
    /\ list_read change_list_kind (open_uri fs' web) false (emptied change_list_kind l) b = Ok l2
    /\ doc_read_back (l_sm l) (as_written (fun l => l) $"changelist" (l_doc l)) (in_order (fun l => l) (l_doc l2)).
Proof. exact change_list_short. Qed.
Print Assumptions C40_short.
Example C40_example : (Forall (fun r => r_change r <> None) (d_items some_cl)
  /\ good_list (fun l => l) $"changelist" some_cl) /\ zlen (d_items some_cl) <= Z.max 3 1 /\ plain_path base.
Proof. refine (conj some_cl_good (conj _ base_plain)). vm_compute. discriminate. Qed.

(** C73: false, writing changes a link of the list ... *)
Theorem C73_refuted : exists l',
  snd (list_write resource_list_kind some_md5 some_clock indexed base []) = Ok l'
  /\ d_ln (l_doc l') = [[($"rel", PStr $"index"); ($"href", PStr $"http://ex.org/d/rl.xml")]].
Proof. exact index_link_changed. Qed.
Print Assumptions C73_refuted.
(** ... but a list without a link to an index is left as it is. *)
Theorem C73_kept : forall C (k : kind C) md5 clock (l l' : ixlist C) b fs fs',
  find_link $"index" (d_ln (l_doc l)) = None -> list_write k md5 clock l b fs = (fs', Ok l') -> l' = l.
Proof. exact @list_kept. Qed.
Print Assumptions C73_kept.
Example C73_example :
  d_ln (l_doc indexed) = [[($"rel", PStr $"index"); ($"href", PStr $"http://ex.org/old")]]
  /\ find_link $"index" (d_ln three_rl) = None.
Proof. split; reflexivity. Qed.

(** C74: a list that needs an index and may not have one, or whose index has no URI, is
    refused before any file is touched. *)
Theorem C74_refused : forall C (k : kind C) md5 clock (l : ixlist C) b fs max,
  l_max l = Some max -> Z.max max 1 < zlen (k_iter k (d_items (l_doc l))) ->
  l_allow l = false \/ (exists ms, l_mapper l = Some ms /\ dst_to_src ms b = Err MapperError) ->
  list_write k md5 clock l b fs = (fs, Err ListBaseIndexError).
Proof. exact @refused. Qed.
Print Assumptions C74_refused.
Example C74_example :
  dst_to_src [some_map] $"/tmp/e/rl.xml" = Err MapperError
  /\ zlen (k_iter resource_list_kind (d_items (l_doc (list3 2 [some_map])))) = 3.
Proof. split; reflexivity. Qed.

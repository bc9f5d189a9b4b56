(** * Properties C112 and C113: the kinds of documents *)

From Verif Require Import Py Mapper Resource ResourceSpec Container ContainerSpec Xml Sitemap SitemapSpec SitemapExamples Opener
  ListIndex ListIndexSpec ListIndexExamples StoredSpec Client DocKinds DocKindFacts DocKindEx.

(** C112: resource dumps, resource dump manifests and change dumps of any length are read back
    as they were written, if the mapper leads back to the files ... *)
Theorem C112_dumps : forall (new : option bool -> option mapper -> settings -> doc rdict -> ixlist rdict) name,
  In (new, name) [ (resource_dump, $"resourcedump"); (resource_dump_manifest, $"resourcedump-manifest");
                   (change_dump, $"changedump") ] ->
  forall md5 clock web allow ms sm d b fs max,
  digest_like md5 -> clock_like clock -> wf_rl (d_items d) -> recorded_list rl_iter name d -> plain_path b ->
  zlen (rl_iter (d_items d)) <= Z.max max 1 \/ (exists m, ms = Some m /\ published m b) ->
  exists fs' l' l2, list_write resource_list_kind md5 clock (limited max (new allow ms sm d)) b fs = (fs', Ok l')
    /\ list_read resource_list_kind (open_uri fs' web) false (new allow ms sm (MkDoc [] [] [])) b = Ok l2
    /\ Forall2 (read_close sm) (rl_iter (d_items d)) (rl_iter (d_items (l_doc l2)))
    /\ (find_link $"index" (d_ln d) = None ->
        same_atts (md_keys (s_spec_1_0 sm)) (d_md (as_written rl_iter name d)) (d_md (l_doc l2))
        /\ Forall2 (same_atts link_keys) (d_ln d) (d_ln (l_doc l2))).
Proof. exact dumps_close. Qed.
Print Assumptions C112_dumps.

(** ... and change dump manifests, archives and source descriptions that fit into one
    document are, in order. *)
Theorem C112_change_dump_manifest : forall md5 clock web allow ms sm d b fs max,
  Forall (fun r => r_change r <> None) (d_items d) -> recorded_list (fun l => l) $"changedump-manifest" d ->
  zlen (d_items d) <= Z.max max 1 -> plain_path b ->
  exists fs' l2, list_write change_list_kind md5 clock (limited max (change_dump_manifest allow ms sm d)) b fs
      = (fs', Ok (limited max (change_dump_manifest allow ms sm d)))
    /\ list_read change_list_kind (open_uri fs' web) false (change_dump_manifest allow ms sm (MkDoc [] [] [])) b = Ok l2
    /\ same_atts (md_keys (s_spec_1_0 sm)) (d_md (as_written (fun l => l) $"changedump-manifest" d)) (d_md (l_doc l2))
    /\ Forall2 (same_atts link_keys) (d_ln d) (d_ln (l_doc l2))
    /\ Forall2 (read_close sm) (d_items d) (d_items (l_doc l2)).
Proof. exact manifest_close. Qed.
Print Assumptions C112_change_dump_manifest.

Theorem C112_archives : forall md5 clock web sm d b fs name max, legal name ->
  recorded_list (fun l => l) name d -> zlen (d_items d) <= Z.max max 1 -> plain_path b ->
  exists fs' l2, list_write archive_kind md5 clock (limited max (archive name sm d)) b fs
      = (fs', Ok (limited max (archive name sm d)))
    /\ list_read archive_kind (open_uri fs' web) false (archive name sm (MkDoc [] [] [])) b = Ok l2
    /\ same_atts (md_keys (s_spec_1_0 sm)) (d_md (as_written (fun l => l) name d)) (d_md (l_doc l2))
    /\ Forall2 (same_atts link_keys) (d_ln d) (d_ln (l_doc l2))
    /\ Forall2 (read_close sm) (d_items d) (d_items (l_doc l2)).
Proof. exact archive_close. Qed.
Print Assumptions C112_archives.

Theorem C112_source_description : forall md5 clock web sm d b fs max, wf_rl (d_items d) ->
  recorded_list rl_iter $"description" d -> zlen (rl_iter (d_items d)) <= Z.max max 1 -> plain_path b ->
  exists fs' l2, list_write source_description_kind md5 clock (limited max (source_description sm d)) b fs
      = (fs', Ok (limited max (source_description sm d)))
    /\ list_read source_description_kind (open_uri fs' web) false (source_description sm (MkDoc [] [] [])) b = Ok l2
    /\ same_atts (md_keys (s_spec_1_0 sm)) (d_md (as_written rl_iter $"description" d)) (d_md (l_doc l2))
    /\ Forall2 (same_atts link_keys) (d_ln d) (d_ln (l_doc l2))
    /\ Forall2 (read_close sm) (rl_iter (d_items d)) (rl_iter (d_items (l_doc l2))).
Proof. exact description_close. Qed.
Print Assumptions C112_source_description.

Example C112_example :
  (digest_like some_md5 /\ clock_like some_clock /\ plain_path base /\ published [some_map] base)
  /\ (forall name, wf_rl (d_items three_rl) /\ recorded_list rl_iter name three_rl)
  /\ (forall name, Forall (fun r => r_change r <> None) (d_items some_cl) /\ recorded_list (fun l => l) name some_cl)
  /\ zlen (rl_iter (d_items three_rl)) = 3 /\ zlen (d_items some_cl) = 3 /\ find_link $"index" (d_ln three_rl) = None.
Proof.
  exact (conj (conj some_md5_ok (conj some_clock_ok (conj base_plain base_published)))
    (conj three_recorded (conj changes_recorded (conj eq_refl (conj eq_refl eq_refl))))).
Qed.

(** It is false of longer ones: an archive that was written cannot be read ... *)
Theorem C112_refuted :
  (exists l', snd (list_write archive_kind some_md5 some_clock archive3 base []) = Ok l')
  /\ (exists d, list_read archive_kind (open_uri archive_files no_web) true (emptied archive_kind archive3) base = Ok d)
  /\ list_read archive_kind (open_uri archive_files no_web) false (emptied archive_kind archive3) base = Err AttributeError.
Proof. exact long_archive. Qed.
Print Assumptions C112_refuted.

(** ... as no index is ever read into an archive or a source description, ... *)
Theorem C112_no_index :
  (forall fetch (l l2 : ixlist (list resource)) uri, list_read archive_kind fetch false l uri = Ok l2 ->
     exists text d, fetch uri = Ok text
       /\ parse_xml (l_sm l) (k_add archive_kind) (l_name l) None (l_doc l) text = Ok (d, false))
  /\ (forall fetch (l l2 : ixlist rdict) uri, list_read source_description_kind fetch false l uri = Ok l2 ->
     exists text d, fetch uri = Ok text
       /\ parse_xml (l_sm l) (k_add source_description_kind) (l_name l) None (l_doc l) text = Ok (d, false)).
Proof.
  exact (conj (fun f l l2 u => no_index archive_kind f l l2 u (fun _ => eq_refl))
    (fun f l l2 u => no_index source_description_kind f l l2 u (fun _ => eq_refl))).
Qed.
Print Assumptions C112_no_index.

(** ... and none is ever written as they are made, without a mapper. *)
Theorem C112_unwritten : forall md5 clock sm b fs max,
  (forall name d, Z.max max 1 < zlen (d_items d) ->
     list_write archive_kind md5 clock (limited max (archive name sm d)) b fs = (fs, Err AttributeError))
  /\ (forall d, Z.max max 1 < zlen (rl_iter (d_items d)) ->
     list_write source_description_kind md5 clock (limited max (source_description sm d)) b fs = (fs, Err AttributeError)).
Proof.
  exact (fun md5 clock sm b fs max => conj
    (fun name d => no_mapper archive_kind md5 clock (limited max (archive name sm d)) b fs max eq_refl eq_refl eq_refl)
    (fun d => no_mapper source_description_kind md5 clock (limited max (source_description sm d)) b fs max eq_refl eq_refl eq_refl)).
Qed.
Print Assumptions C112_unwritten.

(** C113: false, a resource dump that is not to be split is, and an index is read into it. *)
Theorem C113_refuted :
  (exists l', snd (list_write resource_list_kind some_md5 some_clock (dump3 (Some false)) base []) = Ok l')
  /\ dkeys dump_files = [$"/tmp/d/rl00000.xml"; $"/tmp/d/rl00001.xml"; base]
  /\ exists l2, list_read resource_list_kind (open_uri dump_files no_web) false
       (resource_dump (Some false) (Some [some_map]) SitemapExamples.plain (MkDoc [] [] [])) base = Ok l2
     /\ dkeys (d_items (l_doc l2)) = [$"http://ex.org/a?b&c"; $"http://ex.org/b"; $"http://ex.org/c"].
Proof. exact split_anyway. Qed.
Print Assumptions C113_refuted.

(** True of resource lists, and of every kind if the attribute is set after construction:
    what is too long is not written, ... *)
Theorem C113_write : forall C (k : kind C) md5 clock (l : ixlist C) b fs max, l_max l = Some max -> l_allow l = false ->
  Z.max max 1 < zlen (k_iter k (d_items (l_doc l))) ->
  list_write k md5 clock l b fs = (fs, Err ListBaseIndexError).
Proof. exact @unwanted_write. Qed.
Print Assumptions C113_write.

(** ... an index is refused, ... *)
Theorem C113_index : forall C (k : kind C) fetch io (l : ixlist C) uri text d, l_allow l = false -> fetch uri = Ok text ->
  parse_xml (l_sm l) (k_add k) (l_name l) None (l_doc l) text = Ok (d, true) ->
  list_read k fetch io l uri = Err ListBaseIndexError.
Proof. exact @unwanted_index. Qed.
Print Assumptions C113_index.

(** ... and what is read is in the document itself. *)
Theorem C113_read : forall C (k : kind C) fetch io (l l2 : ixlist C) uri, l_allow l = false ->
  list_read k fetch io l uri = Ok l2 ->
  exists text d, fetch uri = Ok text /\ parse_xml (l_sm l) (k_add k) (l_name l) None (l_doc l) text = Ok (d, false)
    /\ l_doc l2 = d.
Proof. exact @unwanted_read. Qed.
Print Assumptions C113_read.

Example C113_example :
  (forall ms sm d, l_allow (resource_list (Some false) ms sm d) = false)
  /\ list_write resource_list_kind some_md5 some_clock (limited 2 (resource_list (Some false) (Some [some_map]) SitemapExamples.plain three_rl)) base []
    = ([], Err ListBaseIndexError)
  /\ list_write resource_list_kind some_md5 some_clock (allowing false (dump3 None)) base [] = ([], Err ListBaseIndexError)
  /\ list_read resource_list_kind (open_uri dump_files no_web) false (allowing false (emptied resource_list_kind (dump3 None))) base
     = Err ListBaseIndexError.
Proof. exact (conj (fun _ _ _ => eq_refl) list_not_split). Qed.

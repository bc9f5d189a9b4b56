(** * Property C114: lists that are given a generator and a count *)

From Verif Require Import Py Resource Container Xml Sitemap SitemapSpec SitemapExamples Opener ListIndex ListIndexSpec
  ListIndexExamples GenList GenFacts.

(** C114: false, asked for one after the other the parts of a generator do not make up the
    list, as those of a collection do ... *)
Theorem C114_parts_refuted :
  g_requires (gen3 (Some 3) 2 true) = Ok 2
  /\ fst (g_parts (gen3 (Some 3) 2 true) base [0; 1])
     = [resources_as_xml SitemapExamples.plain false (part_doc $"resourcelist" base [some_resource; other_resource]);
        resources_as_xml SitemapExamples.plain false (part_doc $"resourcelist" base [])]
  /\ fst (g_parts (gen3 (Some 3) 2 false) base [0; 1])
     = [resources_as_xml SitemapExamples.plain false (part_doc $"resourcelist" base [some_resource; other_resource]);
        resources_as_xml SitemapExamples.plain false (part_doc $"resourcelist" base [third_resource])]
  /\ exists text, resources_as_xml SitemapExamples.plain false (part_doc $"resourcelist" base []) = Ok text.
Proof. exact lost_part. Qed.
Print Assumptions C114_parts_refuted.

(** ... and a generator that is written again replaces what was written by nothing. *)
Theorem C114_again_refuted :
  g_write some_md5 some_clock once3 base [] = (once_files, Ok (exhausted once3))
  /\ holds SitemapExamples.plain once_files base false [($"capability", PStr $"resourcelist")] [] three
  /\ g_write some_md5 some_clock (exhausted once3) base once_files = (twice_files, Ok (exhausted once3))
  /\ holds SitemapExamples.plain twice_files base false [($"capability", PStr $"resourcelist")] [] [].
Proof. exact written_twice. Qed.
Print Assumptions C114_again_refuted.

(** What is written first is complete, with or without a count and whether it is right or not. *)
Theorem C114_write : forall md5 clock g b fs fs' g' max, l_max (g_list g) = Some max ->
  g_write md5 clock g b fs = (fs', Ok g') ->
  (exists parts, List.concat parts = g_items g
     /\ (zlen (g_items g) <= Z.max max 1 -> parts = [g_items g]
         /\ exists md, holds (l_sm (g_list g)) fs' b (l_index (g_list g)) md (d_ln (l_doc (g_list g))) (g_items g))
     /\ (Z.max max 1 < zlen (g_items g) -> (2 <= max -> split_by max parts)
         /\ exists md ln, forall i p, nth_error parts i = Some p ->
              holds (l_sm (g_list g)) fs' (part_name b (Z.of_nat i)) false md ln p))
  /\ (g_once g = true -> g_items g' = []) /\ (g_once g = false -> g_items g' = g_items g).
Proof. exact written_once. Qed.
Print Assumptions C114_write.

(** With the right count, whatever is asked for first is what a list of the same resources
    gives: the number of parts, the index, the whole and each part ... *)
Theorem C114_counted : forall g, g_count g = Some (zlen (g_items g)) \/ (g_count g = None /\ g_once g = false) ->
  g_requires g = requires_multifile iterable_kind (g_list g)
  /\ (forall b, g_index g b = as_xml_index iterable_kind (g_list g) b)
  /\ (forall allow b, fst (g_as_xml g allow b) = list_as_xml iterable_kind (g_list g) allow b)
  /\ (forall b part, fst (g_as_xml_part g b part) = as_xml_part iterable_kind (g_list g) b part).
Proof. exact counted. Qed.
Print Assumptions C114_counted.

(** ... and a collection stays as it is, so that this is so each time. *)
Theorem C114_collection : forall g, g_once g = false ->
  (forall allow b, snd (g_as_xml g allow b) = g) /\ (forall b part, snd (g_as_xml_part g b part) = g).
Proof. exact collection_kept. Qed.
Print Assumptions C114_collection.

(** A wrong count is believed: more entries than allowed. *)
Theorem C114_count_refuted :
  fst (g_as_xml (gen3 (Some 1) 2 true) false base)
  = resources_as_xml SitemapExamples.plain false (MkDoc [($"capability", PStr $"resourcelist")] [] three)
  /\ exists text, fst (g_as_xml (gen3 (Some 1) 2 true) false base) = Ok text.
Proof. exact small_count. Qed.
Print Assumptions C114_count_refuted.

(** Without a count a generator can only be written. *)
Theorem C114_uncounted : forall g max, g_once g = true -> g_count g = None -> l_max (g_list g) = Some max ->
  g_requires g = Err TypeError /\ (forall allow b, g_as_xml g allow b = (Err TypeError, g))
  /\ (forall b part, g_as_xml_part g b part = (Err TypeError, g)).
Proof. exact uncounted. Qed.
Print Assumptions C114_uncounted.

Example C114_example :
  g_count (gen3 (Some 3) 2 true) = Some (zlen (g_items (gen3 (Some 3) 2 true)))
  /\ Z.max 2 1 < zlen (g_items (gen3 (Some 3) 2 true))
  /\ exists fs' g', g_write some_md5 some_clock (gen3 (Some 3) 2 true) base [] = (fs', Ok g')
     /\ dkeys fs' = [$"/tmp/d/rl00000.xml"; $"/tmp/d/rl00001.xml"; base].
Proof. split; [reflexivity|]. split; [reflexivity|]. eexists _, _. split; vm_compute; reflexivity. Qed.

(** * More of properties C01, C15 and C35: times of clocks, entries of change lists *)

From Verif Require Import Py Float64 W3C W3CSpec Mapper Resource ResourceSpec Container ContainerSpec Xml Sitemap SitemapSpec SitemapExamples
  Opener ListIndex ListIndexSpec ListIndexExamples StoredSpec StoredFacts StoredEx PublishChanges.

(** C01: any time of a clock, such as the modification time of a file with nanoseconds,
    is written as text and read back less than two microseconds away. *)
Theorem C01_any_time : forall t, 2 ^ 15 * SEC <= t <= 2 ^ 32 * SEC ->
  exists s t', datetime_to_str false t = Ok s /\ str_to_datetime s = Ok t' /\ full_datetime s
    /\ 1000000 * Z.abs (t' - t) < 2 * SEC.
Proof. exact any_time. Qed.
Print Assumptions C01_any_time.
(** There are such times that are not read back exactly. *)
Example C01_any_time_example : 2 ^ 15 * SEC <= third <= 2 ^ 32 * SEC
  /\ datetime_to_str false third = Ok $"2012-01-01T00:00:00.333333Z" /\ str_to_datetime $"2012-01-01T00:00:00.333333Z" <> Ok third.
Proof. exact (conj third_range third_text). Qed.

(** C15: the computed change list has, for each URI, exactly the entry that the change of
    this URI calls for. *)
Theorem C15_entries : forall od os old new, od <> os -> wf_rl old -> wf_rl new ->
  exists l, change_list_between od os old new = Ok l /\
  forall u, entries_for u l =
    match map_of old u, map_of new u with
    | None, None => []
    | Some d, None => [store_change (Some $"deleted") d]
    | None, Some s => [store_change (Some $"created") s]
    | Some d, Some s => if r_eqb d s then [] else [store_change (Some $"updated") s]
    end.
Proof. exact change_entries. Qed.
Print Assumptions C15_entries.
Example C15_entries_example :
  let a := set_length (Some 1) (new_resource $"a") in let a' := set_length (Some 2) (new_resource $"a") in let b := new_resource $"b" in
  change_list_between 0 1 [($"a", a)] [($"a", a'); ($"b", b)]
  = Ok [store_change (Some $"updated") a'; store_change (Some $"created") b]
  /\ entries_for $"a" [store_change (Some $"updated") a'; store_change (Some $"created") b] = [store_change (Some $"updated") a'].
Proof. split; vm_compute; reflexivity. Qed.

(** C35: lists with times of clocks, that need not be whole microseconds, are read back
    with all times less than two microseconds away and all else the same. *)
Theorem C35_clock_times : forall md5 clock web (l : ixlist rdict) b fs ms max,
  digest_like md5 -> clock_like clock -> wf_rl (d_items (l_doc l)) ->
  recorded_list rl_iter $"resourcelist" (l_doc l) -> l_name l = Some $"resourcelist" -> l_index l = false ->
  l_max l = Some max -> plain_path b ->
  zlen (rl_iter (d_items (l_doc l))) <= Z.max max 1 \/ (l_allow l = true /\ l_mapper l = Some ms /\ published ms b) ->
  exists fs' l' l2, list_write resource_list_kind md5 clock l b fs = (fs', Ok l')
    /\ list_read resource_list_kind (open_uri fs' web) false (emptied resource_list_kind l) b = Ok l2
    /\ Forall2 (read_close (l_sm l)) (rl_iter (d_items (l_doc l))) (rl_iter (d_items (l_doc l2)))
    /\ (find_link $"index" (d_ln (l_doc l)) = None ->
        same_atts (md_keys (s_spec_1_0 (l_sm l))) (d_md (as_written rl_iter $"resourcelist" (l_doc l))) (d_md (l_doc l2))
        /\ Forall2 (same_atts link_keys) (d_ln (l_doc l)) (d_ln (l_doc l2))).
Proof. exact write_read_close. Qed.
Print Assumptions C35_clock_times.
Example C35_clock_times_example :
  digest_like some_md5 /\ clock_like some_clock
  /\ (wf_rl (d_items clock_rl) /\ recorded_list rl_iter $"resourcelist" clock_rl)
  /\ plain_path base /\ published [some_map] base.
Proof. exact (conj some_md5_ok (conj some_clock_ok (conj clock_rl_recorded (conj base_plain base_published)))). Qed.

(** The same of change lists that fit into one document, with all entries in order. *)
Theorem C35_clock_change_lists : forall md5 clock web (l : ixlist (list resource)) b fs max,
  Forall (fun r => r_change r <> None) (d_items (l_doc l)) ->
  recorded_list (fun l => l) $"changelist" (l_doc l) -> l_name l = Some $"changelist" -> l_index l = false ->
  l_max l = Some max -> zlen (d_items (l_doc l)) <= Z.max max 1 -> plain_path b ->
  exists fs' l2, list_write change_list_kind md5 clock l b fs = (fs', Ok l)
    /\ list_read change_list_kind (open_uri fs' web) false (emptied change_list_kind l) b = Ok l2
    /\ same_atts (md_keys (s_spec_1_0 (l_sm l))) (d_md (as_written (fun l => l) $"changelist" (l_doc l))) (d_md (l_doc l2))
    /\ Forall2 (same_atts link_keys) (d_ln (l_doc l)) (d_ln (l_doc l2))
    /\ Forall2 (read_close (l_sm l)) (d_items (l_doc l)) (d_items (l_doc l2)).
Proof. exact change_list_close. Qed.
Print Assumptions C35_clock_change_lists.
Example C35_clock_change_lists_example :
  (Forall (fun r => r_change r <> None) (d_items clock_cl) /\ recorded_list (fun l => l) $"changelist" clock_cl) /\ plain_path base.
Proof. exact (conj clock_cl_recorded base_plain). Qed.

(** * Properties C11-C18: resource lists and change lists *)

From Verif Require Import Py Float64 W3C Resource ResourceSpec Container ContainerSpec ContainerFacts ChangeAdd.
From Coq Require Import Sorting.Sorted Permutation.

Definition ex_r (u : string) (len : Z) (c : option str) : resource :=
  store_change c (set_length (Some len) (new_resource (lit u))).

(** C11: after any sequence of add calls the list is a map from URI to resource ... *)
Theorem C11_one_per_uri : forall ops u r1 r2,
  In (u, r1) (rl_run ops) -> In (u, r2) (rl_run ops) -> r1 = r2 /\ r_uri r1 = u.
Proof. exact one_per_uri. Qed.
Print Assumptions C11_one_per_uri.

Theorem C11_refines_map : forall ops,
  wf_rl (rl_run ops) /\ forall u, map_of (rl_run ops) u = fold_left spec_step ops m_empty u.
Proof. exact (fun ops => conj (rl_run_wf ops) (rl_run_map ops)). Qed.
Print Assumptions C11_refines_map.

(** ... and one call either raises or has the expected effect. *)
Theorem C11_add_present_raises : forall r d,
  In (r_uri r) (map fst d) -> rl_add r false d = Err ResourceListDupeError.
Proof. exact add_present. Qed.
Print Assumptions C11_add_present_raises.

Theorem C11_add_effect : forall r replace d,
  ~ In (r_uri r) (map fst d) \/ replace = true ->
  exists d', rl_add r replace d = Ok d' /\ map_of d' (r_uri r) = Some r /\
             forall u, u <> r_uri r -> map_of d' u = map_of d u.
Proof. exact add_effect. Qed.
Print Assumptions C11_add_effect.

Example C11_example :
  let a := ex_r "a" 1 None in let a' := ex_r "a" 2 None in let b := ex_r "b" 3 None in
  rl_run [AddOne b false; AddMany [a; a'; ex_r "c" 1 None] false] = [($"b", b); ($"a", a)] /\
  rl_run [AddOne b false; AddOne a false; AddOne a' true] = [($"b", b); ($"a", a')].
Proof. split; reflexivity. Qed.

(** C12: iteration yields every resource once, in URI order, whatever the order of insertion. *)
Theorem C12_sorted_iteration : forall d, wf_rl d ->
  Permutation (rl_iter d) (map snd d) /\ StronglySorted uri_before (rl_iter d).
Proof. exact (fun d W => conj (rl_iter_perm d W) (rl_iter_sorted d W)). Qed.
Print Assumptions C12_sorted_iteration.

Theorem C12_order_independent : forall d1 d2,
  wf_rl d1 -> wf_rl d2 -> (forall u, map_of d1 u = map_of d2 u) -> rl_iter d1 = rl_iter d2.
Proof. exact rl_iter_canonical. Qed.
Print Assumptions C12_order_independent.

(** The ordered variant. *)
Theorem C12_insertion_order : forall rs, NoDup (map r_uri rs) ->
  exists d, rl_add_all rs false [] = (d, None) /\ rlo_iter d = rs.
Proof. exact (fun rs => ordered_iter_insertion rs []). Qed.
Print Assumptions C12_insertion_order.

Example C12_example :
  let a := ex_r "http://x/a" 1 None in let b := ex_r "http://x/b" 2 None in
  let c := ex_r "http://x/" 3 None in
  rl_iter (rl_run [AddOne b false; AddOne a false; AddOne c false]) = [c; a; b] /\
  rl_iter (rl_run [AddMany [c; b; a] false]) = [c; a; b] /\
  rlo_iter (rl_run [AddMany [b; c; a] false]) = [b; c; a].
Proof. repeat split; reflexivity. Qed.

(** C13: compare is an exact partition.  The two lists are distinct objects. *)
Theorem C13_compare_partition : forall od os dst src,
  od <> os -> wf_rl dst -> wf_rl src ->
  exists c, compare od os dst src = Ok c /\
    wf_rl (same c) /\ wf_rl (updated c) /\ wf_rl (deleted c) /\ wf_rl (created c) /\
    forall u,
      map_of (same c) u = spec_same (map_of dst) (map_of src) u /\
      map_of (updated c) u = spec_updated (map_of dst) (map_of src) u /\
      map_of (deleted c) u = spec_deleted (map_of dst) (map_of src) u /\
      map_of (created c) u = spec_created (map_of dst) (map_of src) u.
Proof. exact compare_spec. Qed.
Print Assumptions C13_compare_partition.

Example C13_example :
  let a := ex_r "a" 1 None in let b := ex_r "b" 2 None in
  let b' := ex_r "b" 20 None in let c := ex_r "c" 3 None in let d := ex_r "d" 4 None in
  compare 0 1 [($"b", b); ($"a", a); ($"d", d)] [($"d", d); ($"c", c); ($"b", b')] =
  Ok (MkCmp [($"d", d)] [($"b", b')] [($"a", a)] [($"c", c)]).
Proof. reflexivity. Qed.

(** C14 is false: the two iterators share their state.  Whatever the list, nothing is
    ever found to be the same. *)
Theorem C14_self_compare_refuted :
  exists d c, wf_rl d /\ compare 0 0 d d = Ok c /\ same c = [] /\
              (exists r, map_of d $"a" = Some r /\ map_of (deleted c) $"a" = Some r).
Proof. exact self_compare_witness. Qed.
Print Assumptions C14_self_compare_refuted.

Theorem C14_self_compare_never_same : forall o d c,
  wf_rl d -> compare o o d d = Ok c -> same c = [] /\ updated c = [].
Proof. exact compare_self_finds_nothing_same. Qed.
Print Assumptions C14_self_compare_never_same.

(** What does hold: comparison with a distinct list with the same contents. *)
Theorem C14_equal_content_partial : forall od os d,
  od <> os -> wf_rl d ->
  exists c, compare od os d d = Ok c /\
    (forall u, map_of (same c) u = map_of d u) /\
    updated c = [] /\ deleted c = [] /\ created c = [].
Proof. exact compare_equal_content. Qed.
Print Assumptions C14_equal_content_partial.

Example C14_example :
  let a := ex_r "a" 1 None in let b := ex_r "b" 2 None in
  compare 0 0 [($"a", a); ($"b", b)] [($"a", a); ($"b", b)] =
    Ok (MkCmp [] [] [($"a", a)] [($"b", b)]) /\
  compare 0 1 [($"a", a); ($"b", b)] [($"a", a); ($"b", b)] =
    Ok (MkCmp [($"a", a); ($"b", b)] [] [] []).
Proof. split; reflexivity. Qed.

(** C15: replaying the computed change list on the old list gives the new one. *)
Theorem C15_change_list_transforms : forall od os old new,
  od <> os -> wf_rl old -> wf_rl new ->
  exists l, change_list_between od os old new = Ok l /\
  forall u,
    match map_of old u, map_of new u with
    | _, None => replay l (map_of old) u = None
    | None, Some s => replay l (map_of old) u = Some (store_change (Some $"created") s)
    | Some d, Some s =>
        replay l (map_of old) u =
        if r_eqb d s then Some d else Some (store_change (Some $"updated") s)
    end.
Proof. exact change_list_transforms. Qed.
Print Assumptions C15_change_list_transforms.

Theorem C15_same_uris : forall od os old new l,
  od <> os -> wf_rl old -> wf_rl new -> change_list_between od os old new = Ok l ->
  forall u, (replay l (map_of old) u = None <-> map_of new u = None).
Proof. exact change_list_uris. Qed.
Print Assumptions C15_same_uris.

Example C15_example :
  let a := ex_r "a" 1 None in let b := ex_r "b" 2 None in
  let b' := ex_r "b" 20 None in let c := ex_r "c" 3 None in
  change_list_between 0 1 [($"a", a); ($"b", b)] [($"c", c); ($"b", b')] =
  Ok [ex_r "b" 20 (Some $"updated"); ex_r "a" 1 (Some $"deleted"); ex_r "c" 3 (Some $"created")].
Proof. reflexivity. Qed.

(** C16: what prune_dupes keeps. *)
Theorem C16_prune_dupes : forall rs rs' n,
  prune_dupes rs = (rs', n) ->
  NoDup (map r_uri rs') /\
  subseq rs' rs /\
  (forall r, In r rs' <-> last_entry (r_uri r) rs = Some r /\ ~ came_and_went (r_uri r) rs) /\
  n = Z.of_nat (List.length rs) - Z.of_nat (List.length rs').
Proof. exact prune_dupes_spec. Qed.
Print Assumptions C16_prune_dupes.

Example C16_example :
  prune_dupes [ex_r "a" 1 (Some $"created"); ex_r "b" 2 (Some $"updated"); ex_r "c" 3 (Some $"created");
               ex_r "a" 4 (Some $"updated"); ex_r "b" 5 (Some $"deleted"); ex_r "a" 6 (Some $"deleted");
               ex_r "c" 7 (Some $"updated")] =
  ([ex_r "b" 5 (Some $"deleted"); ex_r "c" 7 (Some $"updated")], 5).
Proof. reflexivity. Qed.

(** C17: pruning does not change the effect of a change list. *)
Theorem C17_prune_preserves_effect : forall rs rs' n m,
  prune_dupes rs = (rs', n) ->
  (forall u f, first_entry u rs = Some f -> r_change f = Some $"created" -> m u = None) ->
  forall u, replay rs' m u = replay rs m u.
Proof. exact prune_preserves_effect. Qed.
Print Assumptions C17_prune_preserves_effect.

Example C17_example :
  let rs := [ex_r "a" 1 (Some $"created"); ex_r "b" 2 (Some $"updated"); ex_r "a" 3 (Some $"deleted")] in
  let m := m_put $"b" (ex_r "b" 0 None) m_empty in
  fst (prune_dupes rs) = [ex_r "b" 2 (Some $"updated")] /\
  (forall u f, first_entry u rs = Some f -> r_change f = Some $"created" -> m u = None).
Proof. exact prune_effect_example. Qed.

(** C18: prune_updates_before keeps exactly the entries at or after the given time. *)
Theorem C18_prune_before : forall use_timestamp t rs,
  (forall r, In r rs -> change_time use_timestamp r <> None) ->
  exists kept,
  prune_updates_before use_timestamp t rs =
    (kept, Ok (Z.of_nat (List.length rs) - Z.of_nat (List.length kept))) /\
  subseq kept rs /\
  kept = filter (fun r => match change_time use_timestamp r with
                          | Some x => t <=? x | None => false end) rs.
Proof. exact prune_updates_before_ok. Qed.
Print Assumptions C18_prune_before.

Theorem C18_no_time_raises : forall use_timestamp t rs,
  (exists r, In r rs /\ change_time use_timestamp r = None) ->
  prune_updates_before use_timestamp t rs = (rs, Err PlainException).
Proof. exact prune_updates_before_err. Qed.
Print Assumptions C18_no_time_raises.

Example C18_example :
  let e u t := set_ts_datetime t (new_resource u) in
  prune_updates_before false 10 [e $"a" (Some 9); e $"b" (Some 10); e $"c" (Some 11); e $"d" (Some 1)] =
    ([e $"b" (Some 10); e $"c" (Some 11)], Ok 2) /\
  prune_updates_before false 10 [e $"a" (Some 9); e $"b" None] =
    ([e $"a" (Some 9); e $"b" None], Err PlainException).
Proof. split; reflexivity. Qed.

(** C70: every entry of a change list says what changed, whatever calls were made ... *)
Theorem C70_entries_have_change : forall ops r, In r (cl_run ops) -> r_change r <> None.
Proof. exact cl_run_all. Qed.
Print Assumptions C70_entries_have_change.

(** ... and adding appends, in order, up to the first entry without a change, at
    which ChangeTypeError is raised. *)
Theorem C70_add : forall r l,
  (r_change r <> None -> cl_add r l = Ok (l ++ [r])) /\
  (r_change r = None -> cl_add r l = Err ChangeTypeError).
Proof. exact cl_add_iff. Qed.
Print Assumptions C70_add.

Theorem C70_add_many : forall rs l,
  fst (cl_add_all rs l) = l ++ changed_prefix rs /\
  (snd (cl_add_all rs l) = None <-> forall r, In r rs -> r_change r <> None) /\
  (snd (cl_add_all rs l) = None \/ snd (cl_add_all rs l) = Some ChangeTypeError).
Proof. exact cl_add_all_spec. Qed.
Print Assumptions C70_add_many.

(** Adding with a type of change stores that type; a wrong type is an error at once; and
    without one the entries must have their own. *)
Theorem C70_add_changed : forall rs l,
  (forall c, valid_change (Some c) -> cl_add_changed rs (Some c) l = (l ++ map (store_change (Some c)) rs, None))
  /\ (forall c, ~ valid_change (Some c) -> rs <> [] -> cl_add_changed rs (Some c) l = (l, Some ChangeTypeError))
  /\ cl_add_changed rs None l = cl_add_all rs l.
Proof. exact cl_add_changed_spec. Qed.
Print Assumptions C70_add_changed.

Example C70_example :
  cl_run [ClAdd (ex_r "a" 1 (Some $"created")); ClAdd (ex_r "b" 1 None);
          ClAddMany [ex_r "a" 2 (Some $"updated"); ex_r "c" 3 None; ex_r "d" 4 (Some $"deleted")];
          ClAddChanged [ex_r "e" 5 None] None;
          ClAddChanged [ex_r "e" 5 None] (Some $"deleted")] =
  [ex_r "a" 1 (Some $"created"); ex_r "a" 2 (Some $"updated"); ex_r "e" 5 (Some $"deleted")].
Proof. reflexivity. Qed.

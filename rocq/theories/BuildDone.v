(** * BuildDone: a document is where it was asked for when resync-build succeeds *)

From Verif Require Import Py PyFacts Mapper Resource ResourceSpec Container Capability Xml Sitemap Opener ListIndex Hashes Disk Builder Client ClientUtils
  Build BuildSpec BuildFacts BuildOut.

(** The file holds what looks like a document. *)
Definition document_in (f : str) (w : written) : Prop :=
  exists x rest, sget f (o_fs w) = Some x /\ f_data x = $"<?xml version='1.0' encoding='utf-8'?>" ++ [nl] ++ $"<" ++ rest.

Lemma write_doc_in clock sm ix d f fs fs' w : write_doc clock sm ix d f fs = (fs', None) -> o_fs w = fs' -> document_in f w.
Proof.
  unfold write_doc, resources_as_xml. destruct (resources_tree sm ix d) as [t|]; [|discriminate]. cbn [bind]. intros [= <-] Q.
  unfold put_file in Q. unfold document_in. rewrite Q, sget_sset_eq. destruct t as [tag atts txt kids tl].
  eexists. eexists. split; [reflexivity|]. cbn [f_data]. unfold write_xml, xml_decl, serialize. rewrite <- app_assoc. reflexivity.
Qed.
Lemma list_write_in {C} (k : kind C) md5 clock (l : ixlist C) f fs fs' l' w : list_write k md5 clock l f fs = (fs', Ok l') -> o_fs w = fs' -> document_in f w.
Proof.
  unfold list_write. intros H Q.
  destruct (match l_max l, k_iter k (d_items (l_doc l)) with None, _ :: _ => true | _, _ => false end) eqn:B.
  { destruct (l_max l), (k_iter k (d_items (l_doc l))); discriminate. }
  assert (H' : (let '(chunk, nxt, it) := get_chunk (match l_max l with Some m => m | None => 0 end) None (k_iter k (d_items (l_doc l))) in
     match nxt with
      | Some _ =>
          if negb (l_allow l) then (fs, Err ListBaseIndexError)
          else
            match map_name (l_mapper l) f with
            | Err e => (fs, Err e)
            | Ok index_uri =>
                let part_ln := list_link_set $"index" index_uri (d_ln (l_doc l)) in
                let shared_ln := match find_link $"index" (d_ln (l_doc l)) with Some _ => part_ln | None => d_ln (l_doc l) end in
                let '(fs, index) :=
                  write_parts md5 clock (l_sm l) (l_mapper l) (d_md (default_capability (l_name l) (l_doc l))) part_ln f
                    (chunk :: all_chunks (S (List.length (k_iter k (d_items (l_doc l))))) (match l_max l with Some m => m | None => 0 end) nxt it) 0 [] fs in
                match index with
                | Err e => (fs, Err e)
                | Ok index =>
                    let '(fs, e) := write_doc clock (l_sm l) true (MkDoc (d_md (default_capability (l_name l) (l_doc l))) shared_ln index) f fs in
                    (fs, match e with
                         | Some e => Err e
                         | None => Ok (with_doc (MkDoc (d_md (l_doc l)) shared_ln (d_items (l_doc l))) (l_index l) l)
                         end)
                end
            end
      | None =>
          let '(fs, e) := write_doc clock (l_sm l) (l_index l) (MkDoc (d_md (default_capability (l_name l) (l_doc l))) (d_ln (l_doc l)) chunk) f fs in
          (fs, match e with Some e => Err e | None => Ok l end)
      end) = (fs', Ok l')).
  { destruct (l_max l), (k_iter k (d_items (l_doc l))); try discriminate B; exact H. }
  clear H B. destruct (get_chunk _ _ _) as [[chunk nxt] it]. destruct nxt as [n|].
  - destruct (negb (l_allow l)); [discriminate|]. destruct (map_name _ _); [|discriminate]. cbv zeta in H'.
    destruct (write_parts _ _ _ _ _ _ _ _ _ _ _) as [fs1 [index|]]; [|discriminate].
    destruct (write_doc _ _ _ _ _ fs1) as [fs2 [x|]] eqn:W; [discriminate|]. injection H' as <- _. exact (write_doc_in _ _ _ _ _ _ _ _ W Q).
  - destruct (write_doc _ _ _ _ _ fs) as [fs2 [x|]] eqn:W; [discriminate|]. injection H' as <- _. exact (write_doc_in _ _ _ _ _ _ _ _ W Q).
Qed.
Lemma put_list_in {C} (k : kind C) e (l : ixlist C) f w w' : put_list k e l (Some f) w = (w', Ok tt) -> document_in f w'.
Proof.
  unfold put_list. destruct (list_write _ _ _ _ _ (o_fs w)) as [fs [l'|]] eqn:L; [|discriminate]. cbn [bind]. intros [= <-].
  apply (list_write_in _ _ _ _ _ _ _ _ _ L). reflexivity.
Qed.

Lemma written_there e a f w w' : a_outfile a = Some f -> a_mode a <> ResourceDumpMode -> resync_build e a w = (w', Done) -> document_in f w'.
Proof.
  intros OF ND. unfold resync_build. destruct (snd (process_options _ _ _)) as [hash|]; [|discriminate].
  destruct (build_body e a hash w) as [v r] eqn:E. destruct r as [[u|]|y]; [|discriminate|destruct y; discriminate]. intros [= <-].
  revert E. unfold build_body. unfold wbind at 1, wlift at 1.
  destruct (match a_map a with [] => _ | _ => _ end) as [ms|]; [|discriminate]. cbv zeta.
  unfold wbind at 1, wlift at 1. destruct (build_links a) as [links|]; [|discriminate]. rewrite OF.
  assert (X : forall dump, build_changes e (build_client a hash ms) a links dump w = (v, Ok (Some u)) -> document_in f v).
  { intros dump. unfold build_changes. rewrite OF.
    assert (Y : wbind (write_change_list e (build_client a hash ms) (a_paths a) (Some f) (a_reference a) (given (a_newreference a))
                 (a_empty a) (Some links) (Some dump)) (fun _ => wret (Some tt)) w = (v, Ok (Some u)) -> document_in f v).
    { unfold wbind at 1. destruct (write_change_list _ _ _ _ _ _ _ _ _ w) as [w1 r1] eqn:W. destruct r1 as [[]|]; [|discriminate].
      intros [= <- _]. revert W. unfold write_change_list, wbind. destruct (_ w) as [w2 [ch|]]; [|discriminate].
      destruct (put_list _ _ _ _ w2) as [w3 [[]|]] eqn:P; [|discriminate]. apply put_list_in in P. cbn [write_dump_if_requested]. intros [= <-]. exact P. }
    destruct (given (a_reference a)); [exact Y|]. destruct (a_empty a); [exact Y|discriminate]. }
  destruct (a_mode a) as [| |s|s| |].
  - unfold wbind at 1. destruct (write_resource_list _ _ _ _ _ _ w) as [w1 r1] eqn:W. destruct r1 as [[]|]; [|discriminate].
    intros [= <- _]. revert W. unfold write_resource_list, wbind, wlift. destruct (build_resource_list _ _ _ _); [|discriminate]. apply put_list_in.
  - apply X.
  - destruct s as [|x s]; [discriminate|]. unfold wbind, wlift. destruct (parse_capabilities _) as [caps|]; [|discriminate].
    unfold write_capability_list, wbind, wlift. destruct (add_capabilities _ _) as [d|]; [|discriminate]. cbv zeta.
    destruct (write_doc _ _ _ _ _ _) as [fs [x1|]] eqn:W; [discriminate|]. intros [= <- _]. apply (write_doc_in _ _ _ _ _ _ _ _ W). reflexivity.
  - destruct s as [|x s]; [discriminate|]. unfold wbind at 1. destruct (write_source_description _ _ _ _ _ w) as [w1 r1] eqn:W. destruct r1 as [[]|]; [|discriminate].
    intros [= <- _]. revert W. unfold write_source_description, wbind, wlift. destruct (add_capability_lists _ _) as [d|]; [|discriminate]. apply put_list_in.
  - congruence.
  - apply X.
Qed.

(** ** The same URI twice *)

Lemma fresh_add {A} (uri_of : A -> str) (entry_of : A -> resource) (add : list A -> rdict -> res rdict) :
  (forall x, r_uri (entry_of x) = uri_of x) -> (forall d, add [] d = Ok d) ->
  (forall x xs d, add (x :: xs) d = (let* d := rs_add (entry_of x) d in add xs d)) ->
  forall xs d, match add xs d with
    | Ok _ => NoDup (map uri_of xs) /\ forall x, In x xs -> ~ In (uri_of x) (dkeys d)
    | Err e => e = ResourceSetDupeError
    end.
Proof.
  intros U N C xs. induction xs as [|x xs IH]; intros d.
  - rewrite N. split; [constructor|intros x []].
  - rewrite C. unfold rs_add. rewrite U. destruct (smem (uri_of x) d) eqn:M; [reflexivity|]. apply smem_false in M. cbn [bind].
    specialize (IH (sset (uri_of x) (entry_of x) d)). destruct (add xs (sset (uri_of x) (entry_of x) d)); [|exact IH]. destruct IH as [ND F].
    split.
    + cbn [map]. constructor; [|exact ND]. intros I. apply in_map_iff in I as (y & Q & I). apply (F y I). apply in_dkeys_sset. left. exact Q.
    + intros y [<-|I]; [exact M|]. intros K. apply (F y I). apply in_dkeys_sset. auto.
Qed.
Lemma description_dupes e c uris outfile links w : ~ NoDup uris -> write_source_description e c (Some uris) outfile links w = (w, Err ResourceSetDupeError).
Proof.
  intros ND. pose proof (fresh_add (fun u => u) (fun u => capability_entry $"capabilitylist" u) add_capability_lists
    (fun _ => eq_refl) (fun _ => eq_refl) (fun _ _ _ => eq_refl) uris []) as H. rewrite map_id in H.
  unfold write_source_description, wbind, wlift. destruct (add_capability_lists uris []) as [d|x]; [now destruct H|]. now rewrite H.
Qed.
Lemma capability_dupes e c caps outfile links w : ~ NoDup (map snd caps) -> write_capability_list e c (Some caps) outfile links w = (w, Err ResourceSetDupeError).
Proof.
  intros ND. pose proof (fresh_add snd (fun nu => capability_entry (fst nu) (snd nu)) add_capabilities (fun _ => eq_refl) (fun _ => eq_refl)) as H.
  specialize (H (fun x xs d => match x with (n, u) => eq_refl end) caps []).
  unfold write_capability_list, wbind, wlift. destruct (add_capabilities caps []) as [d|x]; [now destruct H|]. now rewrite H.
Qed.

(** * BuildFacts: what writing documents leaves *)

From Coq Require Import Permutation.
From Verif Require Import Py PyFacts Mapper Resource ResourceSpec Container ContainerSpec ContainerFacts Capability
  Xml Sitemap SitemapSpec Url Opener ListIndex ListIndexSpec
  ListIndexFacts ListIndexWrite ListIndexProps Hashes Disk Builder Dump DumpSpec Client ClientUtils StoredSpec Build PublishSpec PublishFacts BuildSpec.

(** ** Only the document is written *)

Lemma only_refl b fs : only_files_of b fs fs.
Proof. intros p _ _. reflexivity. Qed.

Lemma write_doc_frame clock sm ix d path fs fs' x p : write_doc clock sm ix d path fs = (fs', x) -> p <> path -> sget p fs' = sget p fs.
Proof.
  unfold write_doc, put_file. intros H N. destruct (resources_as_xml sm ix d); injection H as <- _; now apply sget_sset_ne.
Qed.

Lemma write_parts_frame md5 clock sm ms md ln b p : (forall n, 0 <= n -> p <> part_name b n) ->
  forall chunks n index fs fs' r, 0 <= n ->
  write_parts md5 clock sm ms md ln b chunks n index fs = (fs', r) -> sget p fs' = sget p fs.
Proof.
  intros D. induction chunks as [|c chunks IH]; intros n index fs fs' r N H; cbn [write_parts] in H; [now injection H as <- _|].
  destruct (map_name ms (part_name b n)); [|now injection H as <- _].
  destruct (write_doc _ _ _ _ _ fs) as [fs1 x] eqn:W. apply write_doc_frame with (p := p) in W; [|now apply D].
  destruct x; [injection H as <- _; exact W|]. destruct (sget (part_name b n) fs1); [|injection H as <- _; exact W].
  apply IH in H; [|lia]. congruence.
Qed.

Lemma list_write_frame {C} (k : kind C) md5 clock (l : ixlist C) b fs fs' r :
  list_write k md5 clock l b fs = (fs', r) -> only_files_of b fs fs'.
Proof.
  intros H p N D. unfold list_write in H. destruct (match l_max l with None => _ | Some _ => _ end) as [fs1 r1] eqn:E.
  injection H as <- <-. revert E.
  assert (X : forall m, (let '(chunk, nxt, it) := get_chunk m None (k_iter k (d_items (l_doc l))) in
      match nxt with
      | Some _ => if negb (l_allow l) then (fs, Err ListBaseIndexError) else
            match map_name (l_mapper l) b with
            | Err e => (fs, Err e)
            | Ok index_uri =>
                let part_ln := list_link_set $"index" index_uri (d_ln (l_doc l)) in
                let shared_ln := match find_link $"index" (d_ln (l_doc l)) with Some _ => part_ln | None => d_ln (l_doc l) end in
                let '(fs, index) := write_parts md5 clock (l_sm l) (l_mapper l) (d_md (default_capability (l_name l) (l_doc l))) part_ln b
                    (chunk :: all_chunks (S (List.length (k_iter k (d_items (l_doc l))))) m nxt it) 0 [] fs in
                match index with
                | Err e => (fs, Err e)
                | Ok index =>
                    let '(fs, e) := write_doc clock (l_sm l) true (MkDoc (d_md (default_capability (l_name l) (l_doc l))) shared_ln index) b fs in
                    (fs, match e with
                         | Some e => Err e
                         | None => Ok (with_doc (MkDoc (d_md (l_doc l)) shared_ln (d_items (l_doc l))) (l_index l) l)
                         end)
                end
            end
      | None => let '(fs, e) := write_doc clock (l_sm l) (l_index l) (MkDoc (d_md (default_capability (l_name l) (l_doc l))) (d_ln (l_doc l)) chunk) b fs in
                (fs, match e with Some e => Err e | None => Ok l end)
      end) = (fs1, r1) -> sget p fs1 = sget p fs).
  { intros m. destruct (get_chunk m None _) as [[chunk nxt] it]. destruct nxt as [x|].
    - destruct (negb (l_allow l)); [now intros [= <- _]|]. destruct (map_name (l_mapper l) b); [|now intros [= <- _]]. cbv zeta.
      destruct (write_parts _ _ _ _ _ _ _ _ _ _ fs) as [fs2 ix] eqn:W. apply (write_parts_frame _ _ _ _ _ _ _ p D) in W; [|lia].
      destruct ix; [|intros [= <- _]; exact W]. destruct (write_doc _ _ _ _ _ fs2) as [fs3 y] eqn:W2.
      apply write_doc_frame with (p := p) in W2; [|exact N]. intros [= <- _]. congruence.
    - destruct (write_doc _ _ _ _ _ fs) as [fs2 y] eqn:W2. apply write_doc_frame with (p := p) in W2; [|exact N]. now intros [= <- _]. }
  destruct (l_max l) as [m|].
  - apply X.
  - destruct (k_iter k (d_items (l_doc l))) eqn:K; [|now intros [= <- _]]. apply X.
Qed.

Lemma put_list_frame {C} (k : kind C) e (l : ixlist C) outfile w w' r : put_list k e l outfile w = (w', r) -> only_document outfile w w'.
Proof.
  unfold put_list, only_document. destruct outfile as [b|].
  - destruct (list_write _ _ _ _ _ (o_fs w)) as [fs x] eqn:W. intros [= <- _]. cbn [with_fs o_fs o_zips]. split; [|reflexivity].
    eapply list_write_frame, W.
  - unfold print_res, wbind, wlift. destruct (list_as_xml _ _ _ _); intros [= <- _]; split; reflexivity.
Qed.

Lemma resource_list_frame e c paths outfile links w w' r :
  write_resource_list e c paths outfile links false w = (w', r) -> only_document outfile w w'.
Proof.
  unfold write_resource_list. unfold wbind at 1, wlift at 1. destruct (build_resource_list _ _ _ _) as [l|].
  2:{ intros [= <- _]. split; [destruct outfile; [apply only_refl|]|]; reflexivity. }
  destruct outfile as [b|]; [apply put_list_frame|]. unfold print_res, wbind, wlift.
  destruct (match list_as_xml _ _ _ _ with Err ListBaseIndexError => _ | _ => _ end); intros [= <- _]; split; reflexivity.
Qed.

(** Only printing. *)
Definition only_prints {A} (m : wact A) : Prop := forall w w' r, m w = (w', r) -> o_fs w' = o_fs w /\ o_zips w' = o_zips w.

Lemma prints_bind {A B} (m : wact A) (f : A -> wact B) : only_prints m -> (forall a, only_prints (f a)) -> only_prints (wbind m f).
Proof.
  intros M F w w' r. unfold wbind. destruct (m w) as [w1 r1] eqn:E. apply M in E. destruct r1; [|now intros [= <- _]].
  intros H. apply F in H. destruct E, H. split; congruence.
Qed.
Lemma prints_lift {A} (r : res A) : only_prints (wlift r).
Proof. intros w w' r' [= <- _]. auto. Qed.
Lemma prints_print s : only_prints (print s).
Proof. intros w w' r' [= <- _]. auto. Qed.
Lemma prints_ret {A} (a : A) : only_prints (wret a).
Proof. intros w w' r' [= <- _]. auto. Qed.

Lemma prints_entries prefix to_show : forall rs n, only_prints (show_entries prefix to_show n rs).
Proof.
  induction rs as [|r rs IH]; intros n; [apply prints_ret|]. cbn [show_entries].
  apply prints_bind; [apply prints_lift|intros s]. apply prints_bind; [apply prints_print|intros _].
  destruct (to_show <=? n + 1); [apply prints_ret|apply IH].
Qed.

Lemma prints_verbose c prefix rs : only_prints (show_verbose c prefix rs).
Proof.
  unfold show_verbose. destruct (bc_verbose c); [|apply prints_ret].
  destruct (match bc_max c with Some _ => _ | None => _ end) as [to_show override]. apply prints_bind; [|intros _; apply prints_entries].
  destruct (to_show <? zlen rs); [apply prints_print|apply prints_ret].
Qed.

Lemma prints_reference e c uri : only_prints (read_reference e c uri).
Proof.
  intros w w' r H. unfold read_reference in H. revert H. apply prints_bind; [apply prints_lift|intros l].
  apply prints_bind; [apply prints_verbose|intros _; apply prints_ret].
Qed.

Lemma prints_changes e c paths ref newref dump : only_prints (compute_changes e c paths ref newref dump).
Proof.
  unfold compute_changes. apply prints_bind; [apply prints_reference|intros old]. apply prints_bind.
  - destruct newref; [apply prints_reference|apply prints_lift].
  - intros new. apply prints_lift.
Qed.

Lemma prints_dump dump : only_prints (write_dump_if_requested dump).
Proof. destruct dump; [apply prints_print|apply prints_ret]. Qed.

Lemma change_list_frame e c paths outfile ref newref empty links dump w w' r :
  write_change_list e c paths outfile ref newref empty links dump w = (w', r) -> only_document outfile w w'.
Proof.
  unfold write_change_list. unfold wbind at 1.
  set (m := if empty then wret [] else match ref with Some u => compute_changes e c paths u newref dump | None => wlift (Err OutOfModel) end).
  assert (P : only_prints m).
  { subst m. destruct empty; [apply prints_ret|]. destruct ref; [apply prints_changes|apply prints_lift]. }
  destruct (m w) as [w1 r1] eqn:E. apply P in E as [E1 E2].
  assert (T : only_document outfile w w1) by (split; [destruct outfile; rewrite ?E1; [apply only_refl|reflexivity]|exact E2]).
  destruct r1 as [changes|]; [|now intros [= <- _]].
  unfold wbind. destruct (put_list _ _ _ _ w1) as [w2 r2] eqn:E3. apply put_list_frame in E3.
  assert (T2 : only_document outfile w w2).
  { destruct E3 as [E3 E4]. split; [|congruence]. destruct outfile; [|congruence]. unfold only_files_of in *. rewrite <- E1. exact E3. }
  destruct r2; [|now intros [= <- _]]. intros H. apply prints_dump in H as [H1 H2]. unfold only_document in *. rewrite H1, H2. exact T2.
Qed.

Lemma capability_list_frame e c caps outfile links w w' r :
  write_capability_list e c caps outfile links w = (w', r) -> only_document outfile w w'.
Proof.
  unfold write_capability_list. unfold wbind at 1, wlift at 1. destruct (add_capabilities _ _) as [d|].
  2:{ intros [= <- _]. split; [destruct outfile; [apply only_refl|]|]; reflexivity. }
  destruct outfile as [b|].
  - destruct (write_doc _ _ _ _ _ _) as [fs x] eqn:W. intros [= <- _]. split; [|reflexivity]. intros p N _. eapply write_doc_frame; eauto.
  - unfold print_res, wbind, wlift. destruct (as_xml _ _ _ _ _); intros [= <- _]; split; reflexivity.
Qed.

Lemma description_frame e c uris outfile links w w' r :
  write_source_description e c uris outfile links w = (w', r) -> only_document outfile w w'.
Proof.
  unfold write_source_description. unfold wbind, wlift. destruct (add_capability_lists _ _) as [d|].
  - apply put_list_frame.
  - intros [= <- _]. split; [destruct outfile; [apply only_refl|]|]; reflexivity.
Qed.

(** ** The command *)


Lemma done_frame outfile w (m : wact unit) : (forall v r, m w = (v, r) -> only_document outfile w v) ->
  forall v r, wbind m (fun _ => wret (Some tt)) w = (v, r) -> only_document outfile w v.
Proof. intros M v r. unfold wbind. destruct (m w) as [w1 u]. specialize (M w1 u eq_refl). destruct u; now intros [= <- _]. Qed.

Lemma same_document outfile w : only_document outfile w w.
Proof. split; [destruct outfile; [apply only_refl|]|]; reflexivity. Qed.

Lemma build_changes_frame e c a links dump w v r : build_changes e c a links dump w = (v, r) -> only_document (a_outfile a) w v.
Proof.
  unfold build_changes. destruct (given (a_reference a)).
  - apply done_frame. intros v1 r1. apply change_list_frame.
  - destruct (a_empty a); [|intros [= <- _]; apply same_document]. apply done_frame. intros v1 r1. apply change_list_frame.
Qed.

Lemma build_frame e a w w' x : is_dump (a_mode a) = false -> resync_build e a w = (w', x) -> only_document (a_outfile a) w w'.
Proof.
  intros ND. unfold resync_build. pose proof (same_document (a_outfile a) w) as Same.
  destruct (snd (process_options _ _ _)) as [hash|]; [|now intros [= <- _]].
  assert (F : forall v r, build_body e a hash w = (v, r) -> only_document (a_outfile a) w v).
  { intros v r. unfold build_body. unfold wbind at 1, wlift at 1.
    destruct (match a_map a with [] => _ | _ => _ end) as [ms|]; [|now intros [= <- _]]. cbv zeta.
    unfold wbind at 1, wlift at 1. destruct (build_links a) as [links|]; [|now intros [= <- _]].
    destruct (a_mode a) as [| |caps|uris| |]; try discriminate.
    - apply done_frame. intros v1 r1. apply resource_list_frame.
    - apply build_changes_frame.
    - destruct caps as [|ch caps]; [now intros [= <- _]|]. unfold wbind at 1, wlift at 1.
      destruct (parse_capabilities _); [|now intros [= <- _]]. apply done_frame. intros v1 r1. apply capability_list_frame.
    - destruct uris as [|ch uris]; [now intros [= <- _]|]. apply done_frame. intros v1 r1. apply description_frame.
    - apply build_changes_frame. }
  destruct (build_body e a hash w) as [v r] eqn:E. specialize (F v r eq_refl). clear E.
  destruct r as [[u|]|y]; [| |destruct y]; now intros [= <- _].
Qed.

(** ** Usage errors *)

Lemma usage_nothing e a w w' : resync_build e a w = (w', UsageError) -> w' = w.
Proof.
  unfold resync_build. destruct (snd _) as [hash|]; [|discriminate].
  destruct (build_body e a hash w) as [v [[[]|]|x]] eqn:B; [discriminate| |destruct x; discriminate].
  intros [= <-]. unfold build_body in B. unfold wbind at 1, wlift at 1 in B.
  destruct (match a_map a with [] => Ok [] | _ => _ end) as [ms|]; [|discriminate].
  unfold wbind at 1, wlift at 1 in B. destruct (build_links a) as [links|]; [|discriminate].
  assert (D : forall (m : wact unit), wbind m (fun _ => wret (Some tt)) w = (v, Ok None) -> v = w).
  { intros m. unfold wbind, wret. destruct (m w) as [? [[]|]]; discriminate. }
  assert (C : forall dump, build_changes e (build_client a hash ms) a links dump w = (v, Ok None) -> v = w).
  { intros dump. unfold build_changes. destruct (given (a_reference a)), (a_empty a); try apply D. unfold wret. congruence. }
  destruct (a_mode a) as [| |[|x caps]|[|x uris]| |]; try (now apply D in B); try (now apply C in B);
    try (unfold wret in B; congruence).
  unfold wbind at 1, wlift at 1 in B. destruct (parse_capabilities _); [|discriminate]. now apply D in B.
Qed.

Lemma no_dump_of_changes e a w w' x : change_mode (a_mode a) = Some true -> resync_build e a w = (w', x) -> o_zips w' = o_zips w.
Proof. intros M R. apply build_frame in R; [apply R|]. destruct (a_mode a); try discriminate M; reflexivity. Qed.

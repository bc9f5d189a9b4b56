(** * BuildOut: what is printed, and which archives are written *)

From Verif Require Import Py PyFacts Float64 Float64Facts Mapper Resource ResourceSpec Container ContainerFacts Capability Xml Sitemap SitemapSpec Opener ListIndex ListIndexSpec
  ListIndexFacts ListIndexWrite ListIndexProps Hashes Disk DiskSpec Builder BuilderSpec Dump DumpSpec Client ClientUtils StoredSpec Build PublishSpec PublishFacts BuildSpec BuildFacts.

(** ** A printed document is the one that would be in the file *)

Lemma ceil_div_some n m : 0 < m < n -> 0 < float_ceil_div n m.
Proof.
  intros H. pose proof SEC_pos as SP. unfold float_ceil_div, float_of_ratio, rnd.
  set (e := ulp_exp (n * SEC) m). assert (E0 : 0 <= e) by apply ulp_exp_nonneg. pose proof (pow2_pos e E0) as P.
  assert (Q : 1 <= n * SEC / m) by (apply Z.div_le_lower_bound; nia).
  assert (L : m * 2 ^ e <= n * SEC).
  { apply Z.le_trans with (m * (n * SEC / m)); [|apply Z.mul_div_le; lia]. apply Z.mul_le_mono_nonneg_l; [lia|].
    unfold e, ulp_exp. rewrite Z.abs_eq by nia. apply Z.le_trans with (2 ^ Z.log2 (n * SEC / m)).
    - apply Z.pow_le_mono_r; [lia|]. pose proof (Z.log2_nonneg (n * SEC / m)). lia.
    - apply Z.log2_spec. lia. }
  pose proof (rne_ge (n * SEC) (m * 2 ^ e) 1 ltac:(nia) ltac:(lia)) as G.
  set (x := rne _ _ * 2 ^ e). assert (X : 0 < x) by (unfold x; nia).
  assert ((- x) / SEC < 0) by (apply Z.div_lt_upper_bound; lia). lia.
Qed.

Lemma multifile_none {C} (k : kind C) (l : ixlist C) max : l_max l = Some max -> requires_multifile k l = Ok 0 ->
  zlen (k_iter k (d_items (l_doc l))) <= max.
Proof.
  intros M. unfold requires_multifile. rewrite M. destruct (Z.leb_spec (zlen (k_iter k (d_items (l_doc l)))) max); [trivial|].
  destruct (Z.eqb_spec max 0); [discriminate|]. destruct (Z.ltb_spec max 0); [discriminate|].
  pose proof (ceil_div_some (zlen (k_iter k (d_items (l_doc l)))) max ltac:(lia)). intros [= X]. lia.
Qed.

Lemma multifile_some {C} (k : kind C) (l : ixlist C) max : l_max l = Some max -> 0 < max < zlen (k_iter k (d_items (l_doc l))) ->
  exists n, requires_multifile k l = Ok n /\ 0 < n.
Proof.
  intros M L. unfold requires_multifile. rewrite M. exists (float_ceil_div (zlen (k_iter k (d_items (l_doc l)))) max).
  split; [|now apply ceil_div_some].
  destruct (Z.leb_spec (zlen (k_iter k (d_items (l_doc l)))) max); [lia|].
  destruct (Z.eqb_spec max 0); [lia|]. destruct (Z.ltb_spec max 0); [lia|]. reflexivity.
Qed.

Lemma text_as_written {C} (k : kind C) e (l : ixlist C) max text : l_max l = Some max ->
  list_as_xml k l false $"/tmp/sitemap.xml" = Ok text ->
  forall f v, put_list k e l (Some f) v = (with_fs (put_file f text (be_clock e f) (o_fs v)) v, Ok tt).
Proof.
  intros M T f v. unfold list_as_xml in T. destruct (requires_multifile k l) as [n|] eqn:R; [|discriminate]. cbn [bind] in T.
  destruct (Z.eqb_spec n 0) as [->|]; [|discriminate]. apply (multifile_none k l max M) in R.
  unfold put_list. rewrite (list_write_single k _ _ l f (o_fs v) max M) by lia.
  unfold as_xml in T. unfold write_doc, written_md.
  replace (d_ln (default_capability (l_name l) (l_doc l))) with (d_ln (l_doc l)) in T.
  2:{ unfold default_capability. destruct (l_name l); [|reflexivity]. now destruct (smem _ _). }
  replace (d_items (default_capability (l_name l) (l_doc l))) with (d_items (l_doc l)) in T.
  2:{ unfold default_capability. destruct (l_name l); [|reflexivity]. now destruct (smem _ _). }
  rewrite T. reflexivity.
Qed.

Lemma list_printed {C} (k : kind C) e (l : ixlist C) max w w' : l_max l = Some max -> put_list k e l None w = (w', Ok tt) ->
  exists text, w' = printed text w
    /\ forall f v, put_list k e l (Some f) v = (with_fs (put_file f text (be_clock e f) (o_fs v)) v, Ok tt).
Proof.
  intros M H. unfold put_list, print_res, wbind, wlift in H. destruct (list_as_xml _ _ _ _) as [text|] eqn:T; [|discriminate].
  injection H as <-. exists text. split; [reflexivity|]. now apply text_as_written with (max := max).
Qed.

Lemma limit_is c : exists max, limit c = Some max.
Proof. unfold limit. destruct (bc_max c); eexists; reflexivity. Qed.

Lemma built_max e c paths path links l max : limit c = Some max -> build_resource_list e c paths path = Ok l ->
  l_max (set_links links l) = Some max.
Proof.
  intros M. unfold build_resource_list. destruct (bc_mapper c); [discriminate|].
  destruct (match _ with Err ValueError => _ | _ => _ end); [|discriminate]. intros [= <-]. now destruct links.
Qed.

Lemma resource_list_printed e c paths links w w' : write_resource_list e c paths None links false w = (w', Ok tt) ->
  exists text, w' = printed text w
    /\ forall f v, write_resource_list e c paths (Some f) links false v = (with_fs (put_file f text (be_clock e f) (o_fs v)) v, Ok tt).
Proof.
  intros H. unfold write_resource_list in H |- *. unfold wbind at 1, wlift at 1 in H. destruct (limit_is c) as (max & M).
  destruct (build_resource_list _ _ _ _) as [l|] eqn:B; [|discriminate]. pose proof (built_max e c paths false links l max M B) as LM.
  cbv zeta in H. unfold print_res, wbind, wlift in H.
  destruct (list_as_xml _ _ _ _) as [text|x] eqn:T; [|destruct x; discriminate].
  injection H as <-. exists text. split; [reflexivity|]. intros f v. unfold wbind, wlift.
  now apply (text_as_written resource_list_kind e _ max text LM T f v).
Qed.

Lemma description_printed e c uris links w w' : write_source_description e c uris None links w = (w', Ok tt) ->
  exists text, w' = printed text w
    /\ forall f v, write_source_description e c uris (Some f) links v = (with_fs (put_file f text (be_clock e f) (o_fs v)) v, Ok tt).
Proof.
  intros H. unfold write_source_description in H |- *. unfold wbind at 1, wlift at 1 in H.
  destruct (add_capability_lists _ _) as [d|]; [|discriminate].
  apply (list_printed source_description_kind e _ 50000 w w') in H as (text & E & W); [|reflexivity]. exists text. split; [exact E|].
  intros f v. unfold wbind, wlift. apply W.
Qed.

Lemma capability_list_printed e c caps links w w' : write_capability_list e c caps None links w = (w', Ok tt) ->
  exists text, w' = printed text w
    /\ forall f v, write_capability_list e c caps (Some f) links v = (with_fs (put_file f text (be_clock e f) (o_fs v)) v, Ok tt).
Proof.
  intros H. unfold write_capability_list in H |- *. unfold wbind at 1, wlift at 1 in H.
  destruct (add_capabilities _ _) as [d|]; [|discriminate]. cbv zeta in H. unfold print_res, wbind, wlift in H.
  destruct (as_xml _ _ _ _ _) as [text|] eqn:T; [|discriminate]. injection H as <-. exists text. split; [reflexivity|].
  intros f v. unfold wbind, wlift. cbv zeta. unfold as_xml in T. unfold write_doc. rewrite T. reflexivity.
Qed.

(** Reading a reference quietly has no effect and depends on the files only. *)
Lemma quiet_reference e c uri w : bc_verbose c = false ->
  read_reference e c uri w = (w, let* l := list_read resource_list_kind (open_uri (o_fs w) (be_web e)) (negb (bc_multifile c))
                                             (new_list resource_list_kind $"resourcelist" true (Some (bc_mapper c))) uri in
                                 Ok (d_items (l_doc l))).
Proof.
  intros Q. unfold read_reference, wbind, wlift, show_verbose. rewrite Q. now destruct (list_read _ _ _ _ _).
Qed.

Lemma quiet_changes e c paths ref newref dump w : bc_verbose c = false ->
  exists r, forall v, o_fs v = o_fs w -> compute_changes e c paths ref newref dump v = (v, r).
Proof.
  intros Q. unfold compute_changes.
  destruct (let* l := list_read resource_list_kind (open_uri (o_fs w) (be_web e)) (negb (bc_multifile c))
                                             (new_list resource_list_kind $"resourcelist" true (Some (bc_mapper c))) ref in
                                 Ok (d_items (l_doc l))) as [old|x] eqn:R.
  2:{ exists (Err x). intros v F. unfold wbind at 1. rewrite quiet_reference by exact Q. rewrite F, R. reflexivity. }
  destruct newref as [u|].
  - destruct (let* l := list_read resource_list_kind (open_uri (o_fs w) (be_web e)) (negb (bc_multifile c))
                                             (new_list resource_list_kind $"resourcelist" true (Some (bc_mapper c))) u in
                                 Ok (d_items (l_doc l))) as [new|x] eqn:R2.
    + exists (change_list_between 0 1 old new). intros v F. unfold wbind. rewrite quiet_reference by exact Q. rewrite F, R.
      rewrite quiet_reference by exact Q. rewrite F, R2. reflexivity.
    + exists (Err x). intros v F. unfold wbind. rewrite quiet_reference by exact Q. rewrite F, R.
      rewrite quiet_reference by exact Q. rewrite F, R2. reflexivity.
  - destruct (let* l := build_resource_list e c paths (match dump with Some b => b | None => false end) in Ok (d_items (l_doc l))) as [new|x] eqn:R2.
    + exists (change_list_between 0 1 old new). intros v F. unfold wbind. rewrite quiet_reference by exact Q. rewrite F, R. reflexivity.
    + exists (Err x). intros v F. unfold wbind. rewrite quiet_reference by exact Q. rewrite F, R. reflexivity.
Qed.

Lemma change_list_printed e c paths ref newref empty links w w' : bc_verbose c = false ->
  write_change_list e c paths None ref newref empty links None w = (w', Ok tt) ->
  exists text, w' = printed text w
    /\ forall f v, o_fs v = o_fs w ->
       write_change_list e c paths (Some f) ref newref empty links None v = (with_fs (put_file f text (be_clock e f) (o_fs v)) v, Ok tt).
Proof.
  intros Q H. unfold write_change_list in H |- *. destruct (limit_is c) as (max & M).
  set (m := if empty then wret [] else match ref with Some u => compute_changes e c paths u newref None | None => wlift (Err OutOfModel) end) in *.
  assert (R : exists r, forall v, o_fs v = o_fs w -> m v = (v, r)).
  { unfold m. destruct empty; [exists (Ok []); reflexivity|]. destruct ref as [u|]; [|exists (Err OutOfModel); reflexivity]. now apply quiet_changes. }
  destruct R as (r & R). unfold wbind at 1 in H. rewrite (R w eq_refl) in H. destruct r as [changes|]; [|discriminate].
  unfold wbind in H. destruct (put_list _ _ _ _ w) as [w1 r1] eqn:P. destruct r1 as [[]|]; [|discriminate].
  cbn [write_dump_if_requested wret] in H. injection H as <-.
  apply (list_printed change_list_kind e _ max w w1) in P as (text & E & W); [|exact M]. exists text. split; [exact E|].
  intros f v F. unfold wbind. rewrite (R v F). rewrite W. reflexivity.
Qed.

(** ** Too long for one document *)

Lemma resource_list_too_long e c paths links w l max : limit c = Some max -> tree_ok (be_root e) -> scans_to e c paths false l ->
  0 < max < zlen (d_items (l_doc l)) ->
  write_resource_list e c paths None links false w = (w, Err ClientFatalError).
Proof.
  intros M T S L. unfold write_resource_list. unfold wbind at 1, wlift at 1. unfold scans_to in S. rewrite S. cbv zeta.
  pose proof (built_max e c paths false links l max M S) as LM.
  assert (L' : 0 < max < zlen (k_iter resource_list_kind (d_items (l_doc (set_links links l))))).
  { replace (d_items (l_doc (set_links links l))) with (d_items (l_doc l)) by (destruct links; reflexivity).
    change (k_iter resource_list_kind) with (fun d => rl_iter d). cbv beta. unfold zlen in *. rewrite length_rl_iter; [exact L|]. apply (scan_exactly e c paths false l T S). }
  destruct (multifile_some _ _ _ LM L') as (n & R & P). unfold list_as_xml. rewrite R. cbn [bind].
  destruct (Z.eqb_spec n 0); [lia|]. reflexivity.
Qed.

Lemma change_list_too_long e c paths ref newref links dump w w1 changes max : limit c = Some max ->
  compute_changes e c paths ref newref dump w = (w1, Ok changes) -> 0 < max < zlen changes ->
  write_change_list e c paths None (Some ref) newref false links dump w = (w1, Err ListBaseIndexError).
Proof.
  intros M S L. unfold write_change_list. unfold wbind at 1. rewrite S. unfold wbind, put_list, print_res, wbind, wlift.
  destruct (multifile_some change_list_kind (change_ixlist c links changes) max M L) as (n & R & P).
  unfold list_as_xml. rewrite R. cbn [bind]. destruct (Z.eqb_spec n 0); [lia|]. reflexivity.
Qed.

(** ** What is printed stays printed *)

Definition adds_text {A} (m : wact A) : Prop := forall w w' r, m w = (w', r) -> exists t, o_out w' = o_out w ++ t.

Lemma adds_bind {A B} (m : wact A) (f : A -> wact B) : adds_text m -> (forall a, adds_text (f a)) -> adds_text (wbind m f).
Proof.
  intros M F w w' r. unfold wbind. destruct (m w) as [w1 r1] eqn:E. apply M in E as (t & E). destruct r1 as [a|].
  - intros H. apply F in H as (t' & H). exists (t ++ t'). rewrite H, E. symmetry. apply app_assoc.
  - intros [= <- _]. eauto.
Qed.
Lemma adds_lift {A} (r : res A) : adds_text (wlift r).
Proof. intros w w' r' [= <- _]. exists []. symmetry. apply app_nil_r. Qed.
Lemma adds_print s : adds_text (print s).
Proof. intros w w' r' [= <- _]. exists (s ++ [nl]). reflexivity. Qed.
Lemma adds_ret {A} (a : A) : adds_text (wret a).
Proof. intros w w' r' [= <- _]. exists []. symmetry. apply app_nil_r. Qed.

Lemma adds_entries prefix to_show : forall rs n, adds_text (show_entries prefix to_show n rs).
Proof.
  induction rs as [|r rs IH]; intros n; [apply adds_ret|]. cbn [show_entries].
  apply adds_bind; [apply adds_lift|intros s]. apply adds_bind; [apply adds_print|intros _].
  destruct (to_show <=? n + 1); [apply adds_ret|apply IH].
Qed.
Lemma adds_verbose c prefix rs : adds_text (show_verbose c prefix rs).
Proof.
  unfold show_verbose. destruct (bc_verbose c); [|apply adds_ret].
  destruct (match bc_max c with Some _ => _ | None => _ end) as [to_show override]. apply adds_bind; [|intros _; apply adds_entries].
  destruct (to_show <? zlen rs); [apply adds_print|apply adds_ret].
Qed.
Lemma adds_reference e c uri : adds_text (read_reference e c uri).
Proof.
  intros w w' r H. unfold read_reference in H. revert H. apply adds_bind; [apply adds_lift|intros l].
  apply adds_bind; [apply adds_verbose|intros _; apply adds_ret].
Qed.
Lemma adds_changes e c paths ref newref dump : adds_text (compute_changes e c paths ref newref dump).
Proof.
  unfold compute_changes. apply adds_bind; [apply adds_reference|intros old]. apply adds_bind; [|intros new; apply adds_lift].
  destruct newref; [apply adds_reference|apply adds_lift].
Qed.
Lemma adds_put_list {C} (k : kind C) e (l : ixlist C) outfile : adds_text (put_list k e l outfile).
Proof.
  destruct outfile as [f|].
  - intros w w' r. unfold put_list. destruct (list_write _ _ _ _ _ (o_fs w)). intros [= <- _]. exists []. symmetry. apply app_nil_r.
  - apply adds_bind; [apply adds_lift|intros t; apply adds_print].
Qed.

(** A change list of resync-build is followed by a line that is not part of it. *)
Lemma change_list_oops e c paths outfile ref newref empty links dump w w' :
  write_change_list e c paths outfile ref newref empty links (Some dump) w = (w', Ok tt) ->
  exists t, o_out w' = o_out w ++ t ++ oops dump ++ [nl].
Proof.
  unfold write_change_list.
  set (m := if empty then _ else _). assert (M : adds_text m).
  { unfold m. destruct empty; [apply adds_ret|]. destruct ref; [apply adds_changes|apply adds_lift]. }
  unfold wbind at 1. destruct (m w) as [w1 r1] eqn:E. apply M in E as (t1 & E1). destruct r1 as [changes|]; [|discriminate].
  unfold wbind. destruct (put_list _ _ _ _ w1) as [w2 r2] eqn:E. apply adds_put_list in E as (t2 & E2). destruct r2 as [[]|]; [|discriminate].
  cbn [write_dump_if_requested]. intros [= <-]. exists (t1 ++ t2). cbn [printed o_out]. rewrite E2, E1. fold (oops dump).
  now rewrite <- !app_assoc.
Qed.

Lemma build_oops e a dump w w' : change_mode (a_mode a) = Some dump -> resync_build e a w = (w', Done) ->
  exists t, o_out w' = o_out w ++ t ++ oops dump ++ [nl].
Proof.
  intros CM. unfold resync_build. destruct (snd (process_options _ _ _)) as [hash|]; [|discriminate].
  destruct (build_body e a hash w) as [v r] eqn:E. destruct r as [[u|]|y]; [|discriminate|destruct y; discriminate]. intros [= <-].
  revert E. unfold build_body. unfold wbind at 1, wlift at 1.
  destruct (match a_map a with [] => _ | _ => _ end) as [ms|]; [|discriminate]. cbv zeta.
  unfold wbind at 1, wlift at 1. destruct (build_links a) as [links|]; [|discriminate].
  assert (X : build_changes e (build_client a hash ms) a links dump w = (v, Ok (Some u)) ->
              exists t, o_out v = o_out w ++ t ++ oops dump ++ [nl]).
  { unfold build_changes.
    assert (Y : wbind (write_change_list e (build_client a hash ms) (a_paths a) (a_outfile a) (a_reference a) (given (a_newreference a))
                 (a_empty a) (Some links) (Some dump)) (fun _ => wret (Some tt)) w = (v, Ok (Some u)) ->
              exists t, o_out v = o_out w ++ t ++ oops dump ++ [nl]).
    { unfold wbind. destruct (write_change_list _ _ _ _ _ _ _ _ _ w) as [w1 r1] eqn:W. destruct r1 as [[]|]; [|discriminate].
      intros [= <- _]. now apply change_list_oops in W. }
    destruct (given (a_reference a)); [exact Y|]. destruct (a_empty a); [exact Y|discriminate]. }
  destruct (a_mode a); try discriminate; injection CM as <-; exact X.
Qed.

(** ** The names of archives *)


Lemma sset_named b name (z : zipfile) zs : named_after b name -> Forall (fun x => named_after b (fst x)) zs ->
  Forall (fun x => named_after b (fst x)) (sset name z zs).
Proof.
  intros N. induction zs as [|[k v] zs IH]; intros F; cbn [sset]; [now constructor|].
  destruct (str_eqb name k); constructor; try exact N; try (now inversion F); try (apply IH; now inversion F).
Qed.

Lemma write_loop_names md5 clock cwd prefix b separate : forall ms n s s' r, 0 <= n ->
  Forall (fun x => named_after b (fst x)) (w_zips s) ->
  write_loop md5 clock cwd prefix $"zip" b separate ms n s = (s', r) -> Forall (fun x => named_after b (fst x)) (w_zips s').
Proof.
  induction ms as [|m ms IH]; intros n s s' r N F; cbn [write_loop]; [now intros [= <- _]|].
  destruct (if separate then _ else _) as [fs x]. destruct x; [|now intros [= <- _]]. change (str_eqb $"zip" $"zip") with true. cbv iota.
  destruct (write_zip _ _ _ _) as [[z rs]|]; [|now intros [= <- _]]. apply IH; [lia|]. cbn [w_zips].
  apply sset_named; [|exact F]. exists n. split; [exact N|]. unfold archive_name. now rewrite <- app_assoc.
Qed.

Lemma other_format_none md5 clock cwd max_size max_files format b separate rs fs s r :
  str_eqb format $"zip" = false -> dump_write md5 clock cwd max_size max_files format b separate rs fs = (s, r) -> w_zips s = [].
Proof.
  intros NZ. unfold dump_write. destruct (check_files _ _ _ _ _) as [[[rs' p] n]|]; [|now intros [= <- _]].
  destruct (partition_dumps _ _ _) as [ms x]. destruct (write_loop _ _ _ _ _ _ _ _ _ _) as [s1 r1] eqn:E. intros [= <- _].
  revert E. destruct ms as [|m ms]; cbn [write_loop]; [now intros [= <- _]|].
  destruct (if separate then _ else _) as [fs1 y]. destruct y; [|now intros [= <- _]]. rewrite NZ. now intros [= <- _].
Qed.

Lemma dump_names md5 clock cwd max_size max_files format b separate rs fs s r :
  dump_write md5 clock cwd max_size max_files format b separate rs fs = (s, r) -> Forall (fun x => named_after b (fst x)) (w_zips s).
Proof.
  intros H. destruct (str_eqb format $"zip") eqn:Z.
  - apply str_eqb_eq in Z. subst format. unfold dump_write in H. destruct (check_files _ _ _ _ _) as [[[rs' p] n]|]; [|injection H as <- _; constructor].
    destruct (partition_dumps _ _ _) as [ms x]. destruct (write_loop _ _ _ _ _ _ _ _ _ _) as [s1 r1] eqn:E. injection H as <- _.
    apply write_loop_names in E; [exact E|lia|constructor].
  - rewrite (other_format_none _ _ _ _ _ _ _ _ _ _ _ _ Z H). constructor.
Qed.

Lemma resource_dump_names e c paths f links w w' r : write_resource_list e c paths (Some f) links true w = (w', r) ->
  exists zs, o_zips w' = o_zips w ++ zs /\ Forall (fun x => named_after f (fst x)) zs.
Proof.
  unfold write_resource_list. unfold wbind, wlift. destruct (build_resource_list _ _ _ _) as [l|].
  2:{ intros [= <- _]. exists []. split; [symmetry; apply app_nil_r|constructor]. }
  cbv zeta. unfold put_dump. destruct (dump_write _ _ _ _ _ _ _ _ _ _) as [s x] eqn:D. intros [= <- _]. exists (w_zips s).
  split; [reflexivity|]. eapply dump_names, D.
Qed.

Lemma archive_name_other b n : archive_name b n <> b.
Proof.
  unfold archive_name. intros H. rewrite <- (app_nil_r b) in H at 2. apply app_inv_head in H. apply app_eq_nil in H as [_ H]. discriminate.
Qed.

(** * ListIndexProps: lemmas behind the properties of lists with indexes *)

From Verif Require Import Py PyFacts Float64 Float64Facts W3C W3CSpec Regex RegexFacts Mapper MapperSpec MapperFacts MapperFacts2
  UrlAuthority Resource ResourceSpec Container ContainerSpec
  ContainerFacts Xml XmlFacts Sitemap SitemapSpec SitemapFacts SitemapText SitemapLists Opener
  ListIndex ListIndexSpec ListIndexFacts ListIndexWrite FileTime ListIndexRound.
From Coq Require Import Sorting.Sorted Permutation.

(** ** One file *)

Lemma single_round {C} (k : kind C) md5 clock web (l : ixlist C) b fs name max :
  legal name -> good_list (k_iter k) name (l_doc l) -> l_name l = Some name -> l_index l = false ->
  l_max l = Some max -> zlen (k_iter k (d_items (l_doc l))) <= Z.max max 1 -> plain_path b ->
  (forall rs', Forall2 (read_back (l_sm l)) (k_iter k (d_items (l_doc l))) rs' ->
     exists c, add_seq (k_add k) rs' (k_empty k) = Ok c /\ k_iter k c = rs') ->
  exists fs' l2, list_write k md5 clock l b fs = (fs', Ok l)
    /\ list_read k (open_uri fs' web) false (emptied k l) b = Ok l2
    /\ doc_read_back (l_sm l) (as_written (k_iter k) name (l_doc l)) (in_order (k_iter k) (l_doc l2)).
Proof.
  intros L G N X M Few P A. destruct (as_written_good (k_iter k) name (l_doc l) L G) as [G' Q].
  destruct (document_text (l_sm l) false _ G') as (text & md' & ln' & rs' & W & (RM & RL & RR) & R & _).
  cbn [d_md d_ln d_items] in RM, RL, RR. destruct (A rs' RR) as (c & A1 & A2).
  exists (put_file b text (clock b) fs), (with_doc (MkDoc md' ln' c) false (emptied k l)). split; [|split].
  - rewrite (list_write_single k md5 clock l b fs max M Few). unfold write_doc. rewrite X.
    replace (MkDoc (written_md l) (d_ln (l_doc l)) (k_iter k (d_items (l_doc l))))
      with (as_written (k_iter k) name (l_doc l)).
    + rewrite W. reflexivity.
    + rewrite <- default_capability_written. unfold written_md, in_order. rewrite N.
      unfold default_capability. destruct (smem $"capability" (d_md (l_doc l))); reflexivity.
  - unfold list_read. rewrite plain_path_open by assumption. unfold put_file. rewrite sget_sset_eq. cbn [f_data bind].
    unfold emptied, with_doc. cbn [l_sm l_name l_doc]. rewrite N, R by auto. rewrite A1. cbn [bind].
    unfold check_capability. cbn [d_md]. destruct (RM $"capability") as [Y _]. rewrite Q in Y. cbn [present] in Y.
    assert (Y' : sget $"capability" md' = Some (PStr name)) by (apply Y; cbn; auto).
    rewrite Y'. cbn [bind d_md]. rewrite Y'. unfold pv_eqb. rewrite str_eqb_refl. reflexivity.
  - split; [exact RM|]. split; [exact RL|]. unfold in_order. cbn [d_items with_doc l_doc]. now rewrite A2.
Qed.

Lemma rl_readable sm d : wf_rl d -> forall rs', Forall2 (read_back sm) (rl_iter d) rs' ->
  exists c, add_seq (fun r => rl_add r false) rs' [] = Ok c /\ rl_iter c = rs'.
Proof.
  intros W rs' R. apply read_back_uris in R.
  destruct (filled_iter rs' rs') as [A1 A2].
  - reflexivity.
  - rewrite R, rl_iter_uris by auto. apply sort_strs_NoDup, W.
  - eapply StronglySorted_uris; [exact R|]. now apply rl_iter_sorted.
  - eauto.
Qed.

Lemma named_read md5 clock web (l : ixlist rdict) b fs ms max name :
  legal name ->
  digest_like md5 -> clock_like clock -> wf_rl (d_items (l_doc l)) ->
  good_list rl_iter name (l_doc l) -> l_name l = Some name -> l_index l = false ->
  l_max l = Some max -> l_allow l = true -> l_mapper l = Some ms -> plain_path b -> published ms b ->
  exists fs' l' l2, list_write resource_list_kind md5 clock l b fs = (fs', Ok l')
    /\ list_read resource_list_kind (open_uri fs' web) false (emptied resource_list_kind l) b = Ok l2
    /\ Forall2 (read_back (l_sm l)) (rl_iter (d_items (l_doc l))) (rl_iter (d_items (l_doc l2)))
    /\ (find_link $"index" (d_ln (l_doc l)) = None ->
        doc_read_back (l_sm l) (as_written rl_iter name (l_doc l)) (in_order rl_iter (l_doc l2))).
Proof.
  intros Lg D T W G N X M A Ms P Pub.
  destruct (Z.le_gt_cases (zlen (rl_iter (d_items (l_doc l)))) (Z.max max 1)) as [Few|Many].
  - destruct (single_round resource_list_kind md5 clock web l b fs name max Lg G N X M Few P)
      as (fs' & l2 & H1 & H2 & H3).
    { now apply rl_readable. }
    exists fs', l, l2. split; [assumption|]. split; [assumption|]. split; [|auto]. apply H3.
  - destruct (write_succeeds md5 clock web l b fs ms max D T name Lg G N M A Ms Pub Many) as (fs' & F & l' & S).
    assert (WR : list_write resource_list_kind md5 clock l b fs = (fs', Ok l')).
    { rewrite <- F, <- S. now destruct (list_write _ _ _ _ _ _). }
    destruct (read_parts md5 clock web l b fs ms max D T W name Lg G N M A Ms P Pub Many fs' l' WR) as (l2 & H1 & H2 & H3 & H4).
    exists fs', l', l2. split; [assumption|]. split; [assumption|]. split; [assumption|].
    intros NI. split; [|split].
    + rewrite <- written_md_eq by assumption. exact H3.
    + exact (H4 NI).
    + exact H2.
Qed.

Lemma legal_resourcelist : legal $"resourcelist".
Proof.
  intros c I. left. revert c I. assert (F : forallb (fun c => N.leb 32 (code c)) $"resourcelist" = true) by reflexivity.
  rewrite forallb_forall in F. intros c I. now apply N.leb_le, F.
Qed.

Lemma write_read md5 clock web (l : ixlist rdict) b fs ms max :
  digest_like md5 -> clock_like clock -> wf_rl (d_items (l_doc l)) ->
  good_list rl_iter $"resourcelist" (l_doc l) -> l_name l = Some $"resourcelist" -> l_index l = false ->
  l_max l = Some max -> l_allow l = true -> l_mapper l = Some ms -> plain_path b -> published ms b ->
  exists fs' l' l2, list_write resource_list_kind md5 clock l b fs = (fs', Ok l')
    /\ list_read resource_list_kind (open_uri fs' web) false (emptied resource_list_kind l) b = Ok l2
    /\ Forall2 (read_back (l_sm l)) (rl_iter (d_items (l_doc l))) (rl_iter (d_items (l_doc l2)))
    /\ (find_link $"index" (d_ln (l_doc l)) = None ->
        doc_read_back (l_sm l) (as_written rl_iter $"resourcelist" (l_doc l)) (in_order rl_iter (l_doc l2))).
Proof. exact (fun D T => named_read md5 clock web l b fs ms max _ legal_resourcelist D T). Qed.

(** ** The files *)

Lemma map_name_some ms f u : map_name ms f = Ok u -> exists m, ms = Some m /\ dst_to_src m f = Ok u.
Proof.
  unfold map_name. destruct ms as [m|]; [|discriminate]. intros H. exists m. split; [reflexivity|].
  destruct (dst_to_src m f) as [x|[]]; congruence.
Qed.

Lemma the_files {C} (k : kind C) md5 clock (l l' : ixlist C) b fs fs' max :
  let items := k_iter k (d_items (l_doc l)) in
  l_max l = Some max -> Z.max max 1 < zlen items ->
  list_write k md5 clock l b fs = (fs', Ok l') ->
  exists parts md part_ln index_ln entries ms,
    List.concat parts = items
    /\ (2 <= max -> split_by max parts) /\ (forall p, In p parts -> p <> [])
    /\ (forall i p, nth_error parts i = Some p ->
          holds (l_sm l) fs' (part_name b (Z.of_nat i)) false md part_ln p)
    /\ holds (l_sm l) fs' b true md index_ln entries
    /\ List.length entries = List.length parts /\ l_mapper l = Some ms
    /\ (forall i e, nth_error entries i = Some e ->
          dst_to_src ms (part_name b (Z.of_nat i)) = Ok (r_uri e)
          /\ exists f, sget (part_name b (Z.of_nat i)) fs' = Some f /\ r_md5 e = Some (md5 (f_data f))
               /\ r_timestamp e = Some (f_mtime f))
    /\ (forall path, path <> b -> (forall i, 0 <= i < zlen parts -> path <> part_name b i) ->
          sget path fs' = sget path fs).
Proof.
  intros items M L H. destruct (list_write_files k md5 clock l l' b fs fs' max M L H) as (uri & es & H1 & H2 & H3 & H4 & H5).
  destruct (map_name_some _ _ _ H1) as (ms & Em & _).
  destruct (the_chunks_spec max items) as [S1 S2]. fold items in H2, H3, H5.
  exists (the_chunks max items), (written_md l), (part_links uri (d_ln (l_doc l))), (shared_links uri (d_ln (l_doc l))), es, ms.
  split; [assumption|]. split; [apply the_chunks_sizes|]. split; [assumption|].
  split; [|split; [assumption|split; [assumption|split; [assumption|split; [|assumption]]]]].
  - intros i p E. destruct (nth_error es i) as [e|] eqn:Ee.
    + destruct (H3 i p e E Ee) as (u & f & F1 & F2 & F3 & _). exists f. auto.
    + apply nth_error_None in Ee. rewrite H2 in Ee. apply nth_error_None in Ee. congruence.
  - intros i e Ee. destruct (nth_error (the_chunks max items) i) as [p|] eqn:E.
    + destruct (H3 i p e E Ee) as (u & f & F1 & F2 & F3 & F4 & F5). rewrite Em in F1.
      destruct (map_name_some _ _ _ F1) as (? & [= <-] & F6). subst e. split; [exact F6|]. exists f. auto.
    + apply nth_error_None in E. rewrite <- H2 in E. apply nth_error_None in E. congruence.
Qed.

Lemma one_file {C} (k : kind C) md5 clock (l l' : ixlist C) b fs fs' max :
  let items := k_iter k (d_items (l_doc l)) in
  l_max l = Some max -> zlen items <= Z.max max 1 ->
  list_write k md5 clock l b fs = (fs', Ok l') ->
  l' = l /\ (exists md, holds (l_sm l) fs' b (l_index l) md (d_ln (l_doc l)) items)
  /\ (forall path, path <> b -> sget path fs' = sget path fs).
Proof.
  intros items M L H. rewrite (list_write_single k md5 clock l b fs max M L) in H. unfold write_doc in H.
  destruct (resources_as_xml _ _ _) as [text|] eqn:X; [|discriminate]. injection H as <- <-.
  split; [reflexivity|]. split.
  - eexists. eexists. split; [apply sget_sset_eq|exact X].
  - intros p N. unfold put_file. now apply sget_sset_ne.
Qed.

Lemma sizes {C} (k : kind C) md5 clock (l l' : ixlist C) b fs fs' max path :
  let items := k_iter k (d_items (l_doc l)) in
  l_max l = Some max -> 2 <= max -> l_index l = false ->
  list_write k md5 clock l b fs = (fs', Ok l') -> sget path fs' <> sget path fs ->
  (exists md ln entries, holds (l_sm l) fs' path false md ln entries /\ zlen entries <= max)
  \/ (path = b /\ max < zlen items /\ exists md ln entries, holds (l_sm l) fs' path true md ln entries).
Proof.
  intros items M Two X H Ch. destruct (Z.le_gt_cases (zlen items) (Z.max max 1)) as [Few|Many].
  - destruct (one_file k md5 clock l l' b fs fs' max M Few H) as (_ & (md & H1) & H2). left.
    destruct (str_eqb path b) eqn:E.
    + apply str_eqb_eq in E. subst path. rewrite X in H1. exists md, (d_ln (l_doc l)), items. split; [assumption|lia].
    + exfalso. apply Ch, H2. intros ->. rewrite str_eqb_refl in E. discriminate.
  - destruct (the_files k md5 clock l l' b fs fs' max M Many H)
      as (parts & md & pln & iln & es & ms & P1 & P2 & P3 & P4 & P5 & P6 & P7 & P8 & P9).
    destruct (str_eqb path b) eqn:E.
    + apply str_eqb_eq in E. subst path. right. split; [reflexivity|]. split; [lia|eauto].
    + left. assert (N : path <> b) by (intros ->; rewrite str_eqb_refl in E; discriminate).
      destruct (existsb (fun n => str_eqb path (part_name b (Z.of_nat n))) (seq 0 (List.length parts))) eqn:Ex.
      * apply existsb_exists in Ex as (n & I & En). apply in_seq in I. apply str_eqb_eq in En. subst path.
        destruct (nth_error parts n) as [p|] eqn:Ep; [|apply nth_error_None in Ep; lia].
        exists md, pln, p. split; [now apply P4|]. destruct (P2 Two) as [S _]. apply S. eapply nth_error_In, Ep.
      * exfalso. apply Ch, P9; [assumption|]. intros i R ->.
        assert (existsb (fun n => str_eqb (part_name b i) (part_name b (Z.of_nat n))) (seq 0 (List.length parts)) = true).
        { apply existsb_exists. exists (Z.to_nat i). unfold zlen in R. split; [apply in_seq; lia|].
          rewrite Z2Nat.id by lia. apply str_eqb_refl. }
        congruence.
Qed.

(** Refusals. *)
Lemma refused {C} (k : kind C) md5 clock (l : ixlist C) b fs max :
  l_max l = Some max -> Z.max max 1 < zlen (k_iter k (d_items (l_doc l))) ->
  l_allow l = false \/ (exists ms, l_mapper l = Some ms /\ dst_to_src ms b = Err MapperError) ->
  list_write k md5 clock l b fs = (fs, Err ListBaseIndexError).
Proof.
  intros M L R. rewrite (list_write_multi k md5 clock l b fs max M L).
  destruct R as [-> | (ms & E1 & E2)]; [reflexivity|]. unfold map_name. rewrite E1, E2. now destruct (negb (l_allow l)).
Qed.

(** The list itself. *)
Lemma list_kept {C} (k : kind C) md5 clock (l l' : ixlist C) b fs fs' :
  find_link $"index" (d_ln (l_doc l)) = None -> list_write k md5 clock l b fs = (fs', Ok l') -> l' = l.
Proof.
  intros F. unfold list_write. rewrite F. intros H.
  assert (X : with_doc (MkDoc (d_md (l_doc l)) (d_ln (l_doc l)) (d_items (l_doc l))) (l_index l) l = l).
  { destruct l as [[] ]. reflexivity. }
  destruct (l_max l) as [max|].
  - destruct (get_chunk _ _ _) as [[c [r|]] it].
    + destruct (negb (l_allow l)); [discriminate|]. destruct (map_name _ _); [|discriminate].
      destruct (write_parts _ _ _ _ _ _ _ _ _ _ _) as [fs1 [ix|]]; [|discriminate].
      destruct (write_doc _ _ _ _ _ _) as [fs2 [e|]]; [discriminate|]. congruence.
    + destruct (write_doc _ _ _ _ _ _) as [fs2 [e|]]; congruence.
  - destruct (k_iter k (d_items (l_doc l))); [|discriminate].
    destruct (get_chunk _ _ _) as [[c [r|]] it].
    + destruct (negb (l_allow l)); [discriminate|]. destruct (map_name _ _); [|discriminate].
      destruct (write_parts _ _ _ _ _ _ _ _ _ _ _) as [fs1 [ix|]]; [|discriminate].
      destruct (write_doc _ _ _ _ _ _) as [fs2 [e|]]; [discriminate|]. congruence.
    + destruct (write_doc _ _ _ _ _ _) as [fs2 [e|]]; congruence.
Qed.

(** ** Parts by number *)

Lemma firstn_add {A} (l : list A) : forall a b, firstn (a + b) l = firstn a l ++ firstn b (skipn a l).
Proof.
  induction l as [|x l IH]; intros a b.
  - now rewrite skipn_nil, !firstn_nil.
  - destruct a as [|a]; [reflexivity|]. cbn [Nat.add firstn skipn app]. now rewrite IH.
Qed.

Definition slices {A} (m : nat) (l : list A) (k : nat) : list (list A) :=
  map (fun i => firstn m (skipn (i * m) l)) (seq 0 k).
Lemma slices_concat {A} m (l : list A) k : List.concat (slices m l k) = firstn (k * m) l.
Proof.
  unfold slices. induction k as [|k IH]; [reflexivity|].
  rewrite seq_S, map_app, concat_app, IH. cbn [map List.concat Nat.add]. rewrite app_nil_r.
  replace (S k * m)%nat with (k * m + m)%nat by lia. now rewrite firstn_add.
Qed.
Lemma slices_nth {A} m (l : list A) k i : (i < k)%nat -> nth_error (slices m l k) i = Some (firstn m (skipn (i * m) l)).
Proof.
  intros L. unfold slices. rewrite nth_error_map. rewrite (nth_error_nth' _ 0%nat) by now rewrite seq_length.
  rewrite seq_nth by assumption. reflexivity.
Qed.
Lemma slices_length {A} m (l : list A) k : List.length (slices m l k) = k.
Proof. unfold slices. now rewrite map_length, seq_length. Qed.

Lemma parts_by_number {C} (k : kind C) (l : ixlist C) b max name :
  let items := k_iter k (d_items (l_doc l)) in
  l_max l = Some max -> l_name l = Some name -> 0 < max < zlen items -> zlen items < 2 ^ 53 ->
  exists parts, List.concat parts = items /\ split_by max parts
    /\ requires_multifile k l = Ok (zlen parts)
    /\ (forall i p, nth_error parts i = Some p ->
          as_xml_part k l b (Z.of_nat i) = resources_as_xml (l_sm l) false (part_doc name b p))
    /\ (exists entries, as_xml_index k l b
          = resources_as_xml (l_sm l) true (MkDoc [($"capability", PStr name)] [] entries)
        /\ list_as_xml k l true b = as_xml_index k l b /\ list_as_xml k l false b = Err ListBaseIndexError
        /\ map r_uri entries = map (fun i => part_name b (Z.of_nat i)) (seq 0 (List.length parts))).
Proof.
  intros items M N L53 B. set (n := zlen items) in *.
  set (q := - ((- n) / max)). pose proof (ceil_div_bounds n max ltac:(lia)) as Q. cbv zeta in Q. fold q in Q.
  assert (R : requires_multifile k l = Ok q).
  { unfold requires_multifile. fold items. fold n. rewrite M.
    replace (n <=? max) with false by (symmetry; apply Z.leb_gt; lia).
    replace (max =? 0) with false by (symmetry; apply Z.eqb_neq; lia).
    replace (max <? 0) with false by (symmetry; apply Z.ltb_ge; lia).
    now rewrite float_ceil_div_exact by lia. }
  assert (Q0 : 1 < q) by nia.
  set (m := Z.to_nat max). set (parts := slices m items (Z.to_nat q)).
  assert (Pl : List.length parts = Z.to_nat q) by apply slices_length.
  assert (Zl : zlen parts = q) by (unfold zlen; rewrite Pl; lia).
  assert (Len : forall i, (i < Z.to_nat q)%nat -> zlen (firstn m (skipn (i * m) items)) = Z.min max (n - Z.of_nat i * max)).
  { intros i I. unfold zlen. rewrite firstn_length, skipn_length. unfold n, zlen in *. unfold m.
    rewrite Nat2Z.inj_min, Nat2Z.inj_sub_max, Nat2Z.inj_mul, !Z2Nat.id by lia. nia. }
  exists parts. split; [|split; [|split; [|split]]].
  - unfold parts. rewrite slices_concat. apply firstn_all2. unfold n, zlen in *. unfold m. nia.
  - split.
    + intros p I. apply In_nth_error in I as (i & E).
      assert (I : (i < Z.to_nat q)%nat). { rewrite <- Pl. apply nth_error_Some. congruence. }
      unfold parts in E. rewrite slices_nth in E by assumption. injection E as <-. rewrite Len by assumption. nia.
    + intros i p E I. rewrite Pl in I. unfold parts in E. rewrite slices_nth in E by lia. injection E as <-.
      rewrite Len by lia. nia.
  - now rewrite Zl.
  - intros i p E.
    assert (I : (i < Z.to_nat q)%nat). { rewrite <- Pl. apply nth_error_Some. congruence. }
    unfold parts in E. rewrite slices_nth in E by assumption. injection E as <-.
    unfold as_xml_part. fold items. rewrite R. cbn [bind]. rewrite M.
    replace (q =? 0) with false by (symmetry; apply Z.eqb_neq; lia). fold n. set (s := Z.of_nat i * max).
    assert (S0 : 0 <= s) by (unfold s; nia). assert (S1 : s < n) by (unfold s; nia).
    replace (n <? s) with false by (symmetry; apply Z.ltb_ge; lia).
    set (stop := if n <? s + max then n else s + max).
    assert (St : stop = Z.min n (s + max)). { unfold stop. destruct (Z.ltb_spec n (s + max)); lia. }
    replace (s <? 0) with false by (symmetry; apply Z.ltb_ge; lia).
    replace (stop <? 0) with false by (symmetry; apply Z.ltb_ge; lia). cbn [orb].
    rewrite N. unfold default_capability, part_doc. cbn [d_md d_ln smem].
    assert (Sm : Z.to_nat s = (i * m)%nat) by (unfold s, m; nia).
    assert (Sl : firstn (Z.to_nat (stop - s)) (skipn (Z.to_nat s) items) = firstn m (skipn (i * m) items)).
    { rewrite Sm. destruct (Z.le_gt_cases (s + max) n).
      - f_equal. unfold m. lia.
      - rewrite !firstn_all2; [reflexivity| |]; rewrite skipn_length; unfold n, zlen in *; unfold m in *; lia. }
    rewrite Sl. reflexivity.
  - exists (map (fun n => new_resource (part_name b n)) (zrange q)). split; [|split; [|split]].
    + unfold as_xml_index. rewrite R. cbn [bind].
      replace (q =? 0) with false by (symmetry; apply Z.eqb_neq; lia). rewrite N. reflexivity.
    + unfold list_as_xml. rewrite R. cbn [bind]. now replace (q =? 0) with false by (symmetry; apply Z.eqb_neq; lia).
    + unfold list_as_xml. rewrite R. cbn [bind]. now replace (q =? 0) with false by (symmetry; apply Z.eqb_neq; lia).
    + unfold zrange. rewrite Pl, !map_map. reflexivity.
Qed.

Lemma fits {C} (k : kind C) (l : ixlist C) b max :
  let items := k_iter k (d_items (l_doc l)) in
  l_max l = None \/ (l_max l = Some max /\ zlen items <= max) ->
  requires_multifile k l = Ok 0
  /\ (forall allow, list_as_xml k l allow b = as_xml (k_iter k) (l_sm l) (l_name l) (l_index l) (l_doc l))
  /\ as_xml_index k l b = Err ListBaseIndexError
  /\ (forall part, as_xml_part k l b part = Err ListBaseIndexError).
Proof.
  intros items H.
  assert (R : requires_multifile k l = Ok 0).
  { unfold requires_multifile. fold items. destruct H as [->|[-> L]]; [reflexivity|].
    now replace (zlen items <=? max) with true by (symmetry; apply Z.leb_le; lia). }
  split; [assumption|]. unfold list_as_xml, as_xml_index, as_xml_part. rewrite R. cbn [bind Z.eqb].
  repeat split. intros part. now destruct (l_max l).
Qed.

(** No part beyond the last but for the one that would be empty. *)
Lemma no_part_beyond {C} (k : kind C) (l : ixlist C) b max part :
  let items := k_iter k (d_items (l_doc l)) in
  l_max l = Some max -> 0 < max < zlen items -> zlen items < 2 ^ 53 ->
  (zlen items < part * max -> as_xml_part k l b part = Err ListBaseIndexError)
  /\ (part < 0 -> as_xml_part k l b part = Err ValueError).
Proof.
  intros items M L B. pose proof (ceil_div_bounds (zlen items) max ltac:(lia)) as Q. cbv zeta in Q.
  set (q := - ((- zlen items) / max)) in *. assert (Q0 : 1 < q) by nia.
  assert (R : requires_multifile k l = Ok q).
  { unfold requires_multifile. fold items. rewrite M.
    replace (zlen items <=? max) with false by (symmetry; apply Z.leb_gt; lia).
    replace (max =? 0) with false by (symmetry; apply Z.eqb_neq; lia).
    replace (max <? 0) with false by (symmetry; apply Z.ltb_ge; lia).
    now rewrite float_ceil_div_exact by lia. }
  unfold as_xml_part. rewrite R. cbn [bind]. rewrite M. fold items.
  replace (q =? 0) with false by (symmetry; apply Z.eqb_neq; lia). split; intros P.
  - now replace (zlen items <? part * max) with true by (symmetry; apply Z.ltb_lt; lia).
  - replace (zlen items <? part * max) with false by (symmetry; apply Z.ltb_ge; nia).
    now replace (part * max <? 0) with true by (symmetry; apply Z.ltb_lt; nia).
Qed.

(** ** Reading *)

Lemma schemes u : (startswith $"http:" u = true \/ startswith $"ftp:" u = true -> is_file_uri u = false)
  /\ (startswith $"file:" u = true -> is_file_uri u = true) /\ (~ In ":"%char u -> is_file_uri u = true).
Proof.
  split; [|split].
  - intros H. destruct (is_file_uri u) eqn:E; [|reflexivity]. exfalso. apply is_file_uri_iff in E as [E|E].
    + destruct H as [H|H]; apply startswith_spec in H as (t & ->); discriminate.
    + apply E. destruct H as [H|H]; apply startswith_spec in H as (t & ->); [right; exists $"http"|left; exists $"ftp"]; exists t;
        (split; [reflexivity|split; [reflexivity|repeat constructor]]).
  - intros H. apply is_file_uri_iff. now left.
  - intros H. apply is_file_uri_iff. right. intros [(w & r & -> & _)|(w & r & -> & _)]; apply H, in_or_app; right; now left.
Qed.

Lemma is_file_uri_https x : is_file_uri ($"https:" ++ x) = true.
Proof.
  apply is_file_uri_iff. right.
  intros [(w & r & E & L & _)|(w & r & E & L & _)];
    repeat (destruct w as [|? w]; try discriminate L); cbn [app] in E;
    change ($"https:" ++ x) with ("h" :: "t" :: "t" :: "p" :: "s" :: ":" :: x)%char in E; discriminate E.
Qed.

Lemma check_unused {C} (k : kind C) fetch io (l : ixlist C) uri : is_file_uri uri = false ->
  (let* l := list_read k fetch io (set_check true l) uri in Ok (l_doc l))
  = (let* l := list_read k fetch io (set_check false l) uri in Ok (l_doc l)).
Proof.
  intros F. unfold list_read. rewrite F. destruct (fetch uri) as [text|]; [|reflexivity]. cbn [bind].
  change (l_sm (set_check true l)) with (l_sm (set_check false l)).
  change (l_name (set_check true l)) with (l_name (set_check false l)).
  change (l_doc (set_check true l)) with (l_doc (set_check false l)).
  destruct (parse_xml _ _ _ _ _ _) as [[d ix]|]; [|reflexivity]. cbn [bind]. destruct ix; [|reflexivity]. cbn [negb].
  change (l_allow (set_check true l)) with (l_allow (set_check false l)).
  destruct (negb _); [reflexivity|]. destruct io; [reflexivity|]. destruct (k_uris k (d_items d)) as [us|]; [|reflexivity].
  cbn [bind]. assert (E : forall us c, read_components k fetch (set_check true l) uri false us c
                          = read_components k fetch (set_check false l) uri false us c).
  { clear. induction us as [|u us IH]; intros c; [reflexivity|]. cbn [read_components].
    change (read_component k fetch (set_check true l) uri false c u) with (read_component k fetch (set_check false l) uri false c u).
    destruct (read_component _ _ _ _ _ _ _); [|reflexivity]. cbn [bind]. apply IH. }
  rewrite E. destruct (read_components _ _ _ _ _ _ _); reflexivity.
Qed.

Lemma components_checked {C} (k : kind C) fetch (l : ixlist C) uri us : l_check l = true -> forall c c',
  read_components k fetch l uri true us c = Ok c' ->
  forall u, In u us -> is_file_uri u = true -> authority_over false uri u = Ok true.
Proof.
  intros Ch. induction us as [|x us IH]; intros c c' H u I F; [destruct I|]. cbn [read_components] in H.
  destruct (read_component k fetch l uri true c x) as [c1|] eqn:E; [|discriminate]. cbn [bind] in H.
  destruct I as [->|I]; [|eapply IH; eauto]. unfold read_component in E. rewrite F, Ch in E. cbn [negb] in E.
  destruct (authority_over false uri u) as [[]|]; [reflexivity|discriminate|discriminate].
Qed.

Lemma authority_checked (l l2 : ixlist rdict) fetch uri text d : is_file_uri uri = true -> l_check l = true ->
  fetch uri = Ok text ->
  parse_xml (l_sm l) (fun r => rl_add r false) (l_name l) None (l_doc l) text = Ok (d, true) ->
  list_read resource_list_kind fetch false l uri = Ok l2 ->
  forall u, In u (dkeys (d_items d)) -> is_file_uri u = true -> authority_over false uri u = Ok true.
Proof.
  intros F Ch Fe Pa H u I Fr. unfold list_read in H. rewrite Fe in H. cbn [bind] in H.
  change (k_add resource_list_kind) with (fun r => rl_add r false) in H. rewrite Pa, F in H. cbn [bind negb] in H.
  destruct (negb (l_allow l)); [discriminate|]. cbn [k_uris resource_list_kind bind] in H.
  destruct (read_components _ _ _ _ _ _ _) as [c|] eqn:E; [|discriminate].
  eapply components_checked; eauto. unfold rl_uris. now rewrite !sort_strs_In.
Qed.

(** ** Change lists *)

Lemma change_list_not_index fetch (l l2 : ixlist (list resource)) uri :
  list_read change_list_kind fetch false l uri = Ok l2 ->
  exists text d, fetch uri = Ok text /\ parse_xml (l_sm l) cl_add (l_name l) None (l_doc l) text = Ok (d, false).
Proof.
  unfold list_read. destruct (fetch uri) as [text|]; [|discriminate]. cbn [bind].
  change (k_add change_list_kind) with cl_add.
  destruct (parse_xml _ _ _ _ _ _) as [[d []]|] eqn:E; [| |discriminate]; cbn [bind negb].
  - destruct (negb (l_allow l)); discriminate.
  - intros _. eauto.
Qed.

Lemma change_list_short md5 clock web (l : ixlist (list resource)) b fs max :
  Forall (fun r => r_change r <> None) (d_items (l_doc l)) ->
  good_list (fun l => l) $"changelist" (l_doc l) -> l_name l = Some $"changelist" -> l_index l = false ->
  l_max l = Some max -> zlen (d_items (l_doc l)) <= Z.max max 1 -> plain_path b ->
  exists fs' l2, list_write change_list_kind md5 clock l b fs = (fs', Ok l)
    /\ list_read change_list_kind (open_uri fs' web) false (emptied change_list_kind l) b = Ok l2
    /\ doc_read_back (l_sm l) (as_written (fun l => l) $"changelist" (l_doc l)) (in_order (fun l => l) (l_doc l2)).
Proof.
  intros Ch G N X M L P. eapply (single_round change_list_kind); eauto.
  - intros c I. left. assert (F : forallb (fun c => N.leb 32 (code c)) $"changelist" = true) by reflexivity.
    rewrite forallb_forall in F. now apply N.leb_le, F.
  - intros rs' R. exists rs'. split; [|reflexivity]. change (k_empty change_list_kind) with (@nil resource).
    change (k_add change_list_kind) with cl_add.
    assert (Ch' : Forall (fun r => r_change r <> None) rs').
    { change (k_iter change_list_kind (d_items (l_doc l))) with (d_items (l_doc l)) in R. clear L. revert Ch.
      induction R as [|r r' rs rs' E R IH]; intros Ch; [constructor|]. inversion Ch; subst. constructor; auto.
      destruct E as (_ & _ & _ & _ & _ & _ & _ & _ & E & _). now rewrite E. }
    assert (E : forall acc, add_seq cl_add rs' acc = Ok (acc ++ rs')).
    { clear - Ch'. induction Ch' as [|r rs' Hr _ IH]; intros acc; cbn [add_seq]; [now rewrite app_nil_r|].
      unfold cl_add at 1. destruct (r_change r); [|congruence]. cbn [bind]. rewrite IH, <- app_assoc. reflexivity. }
    apply (E []).
Qed.

(** ** One mapping *)

Lemma tail_below (a s t y : str) c : ~ In c s -> a ++ c :: y = t ++ s -> exists u, y = u ++ s.
Proof.
  intros N E. apply app_eq_app in E as (l & [(_ & E)|(_ & E)]).
  - exfalso. apply N. rewrite E. apply in_or_app. right. now left.
  - destruct l as [|x l].
    + exfalso. apply N. cbn [app] in E. rewrite <- E. now left.
    + injection E as _ E. eauto.
Qed.

Lemma part_name_below a name n : part_name (a ++ $"/" ++ name) n = a ++ $"/" ++ part_name name n.
Proof.
  rewrite !part_name_eq. assert (P : part_prefix (a ++ $"/" ++ name) = a ++ $"/" ++ part_prefix name).
  { destruct (part_prefix_cases name) as [E|[E1 E2]].
    - destruct (part_prefix_cases (a ++ $"/" ++ name)) as [F|[F G]].
      + rewrite E in F at 1. rewrite !app_assoc in F. apply app_inv_tail in F. rewrite <- !app_assoc in F. congruence.
      + exfalso. rewrite E, !app_assoc in G. revert G. generalize ((a ++ $"/") ++ part_prefix name). intros t G.
        assert (H : endswith $".xml" (t ++ $".xml") = true) by (apply endswith_spec; eauto). congruence.
    - rewrite E1. unfold part_prefix. destruct (endswith $".xml" (a ++ $"/" ++ name)) eqn:F; [|reflexivity]. exfalso.
      apply endswith_spec in F as (t & F). apply tail_below in F as (u & F).
      + assert (endswith $".xml" name = true) by (apply endswith_spec; eauto). congruence.
      + vm_compute. intuition discriminate. }
  rewrite P, <- !app_assoc. reflexivity.
Qed.

Lemma map_published s d name : MapperSpec.plain s -> MapperSpec.plain d -> one_line s -> one_line d -> one_line name ->
  startswith $"http:" s = true -> uri_text s -> uri_text name -> published [MkMap s d] (d ++ $"/" ++ name).
Proof.
  intros P1 P2 O1 O2 O3 H [L1 C1] [L2 C2].
  assert (T : forall a b, uri_text a -> uri_text b -> uri_text (a ++ b)).
  { intros a b [A1 A2] [B1 B2]. split; [intros c I|intros I]; apply in_app_or in I as [I|I]; auto. }
  assert (Sl : uri_text $"/").
  { split; [intros c [<-|[]]; left; vm_compute; discriminate|intros [E|[]]; discriminate]. }
  split.
  - exists (s ++ $"/" ++ name). split; [exact (proj2 (single_round_trip (MkMap s d) name P1 P2 O1 O2 O3))|].
    apply T; [split; auto|]. apply T; [auto|split; auto].
  - intros n _. apply startswith_spec in H as (x & ->).
    assert (O : one_line (part_name name n)).
    { intros I. apply part_name_In in I as [I|[I|I]]; [auto|discriminate|]. vm_compute in I. intuition discriminate. }
    destruct (single_round_trip (MkMap ($"http:" ++ x) d) (part_name name n) P1 P2 O1 O2 O) as [R1 R2].
    cbn [src_uri dst_path] in R1, R2. exists (x ++ $"/" ++ part_name name n). rewrite part_name_below.
    rewrite <- !app_assoc in R1, R2. split; [exact R2|]. split; [|exact R1].
    apply T; [|apply T; [auto|]].
    + split; [intros c I; apply L1|intros I; apply C1]; apply in_or_app; now right.
    + split; [intros c I|intros I]; apply part_name_In in I as [I|[I|I]]; auto; try discriminate.
      * left. unfold is_digit, in_range in I. apply andb_prop in I as [I _]. apply N.leb_le in I. unfold code in *. lia.
      * left. vm_compute in I. intuition (subst; vm_compute; discriminate).
      * vm_compute in I. intuition discriminate.
Qed.

(** * StoredFacts: times as clocks give them are read back closely *)

From Verif Require Import Py PyFacts Float64 Float64Facts W3C W3CSpec W3CFacts W3CRound Mapper Resource ResourceSpec Container
  ContainerSpec ContainerFacts Xml Sitemap SitemapSpec SitemapFacts SitemapLists Opener ListIndex ListIndexSpec ListIndexFacts SitemapText
  ListIndexWrite FileTime ListIndexRound ListIndexProps TimeLoss StoredSpec.

(** ** Times *)

Definition stored (t : Z) : Z :=
  match datetime_to_str false t with
  | Ok s => match str_to_datetime s with Ok t' => t' | Err _ => t end
  | Err _ => t
  end.
Definition stored_opt (o : option Z) : option Z := match o with Some t => Some (stored t) | None => None end.

Lemma plain_time_text t : plain_time (Some t) ->
  exists s, datetime_to_str false t = Ok s /\ str_to_datetime s = Ok t /\ full_datetime s.
Proof.
  intros P. destruct (P t eq_refl) as [(n & Y & ->)|(k & R & ->)].
  - destruct (whole_seconds_round_trip false n Y) as (s & D & S & F). eauto.
  - destruct (micro_round_trip k R) as (s & D & S & F). eauto.
Qed.

Lemma any_time t : 2 ^ 15 * SEC <= t <= 2 ^ 32 * SEC ->
  exists s t', datetime_to_str false t = Ok s /\ str_to_datetime s = Ok t' /\ full_datetime s
    /\ 1000000 * Z.abs (t' - t) < 2 * SEC.
Proof.
  intros H. destruct (time_loss t H) as (t' & P & E & L). destruct (plain_time_text t' P) as (s & D & S & F).
  exists s, t'. rewrite E. auto.
Qed.

Lemma stored_ok o : clock_time o ->
  get_dt (stored_opt o) = get_dt o /\ plain_time (stored_opt o) /\ close_to o (stored_opt o).
Proof.
  intros C. destruct o as [t|]; [|split; [reflexivity|split; [intros t H; discriminate|exact I]]].
  pose proof SEC_pos as SP. cbn [stored_opt].
  assert (X : exists t', plain_time (Some t') /\ datetime_to_str false t = datetime_to_str false t'
                /\ 1000000 * Z.abs (t' - t) < 2 * SEC).
  { destruct C as [P|R].
    - exists t. split; [exact P|]. split; [reflexivity|]. rewrite Z.sub_diag. cbn [Z.abs]. lia.
    - apply time_loss, R. reflexivity. }
  destruct X as (t' & P & E & L). destruct (plain_time_text t' P) as (s & D & S & F).
  assert (ST : stored t = t') by (unfold stored; rewrite E, D, S; reflexivity).
  rewrite ST. split; [|split; [exact P|exact L]]. cbn [get_dt]. now rewrite E.
Qed.

(** ** Resources *)

Definition stored_resource (r : resource) : resource :=
  MkR (r_uri r) (stored_opt (r_timestamp r)) (r_length r) (r_mime_type r) (r_md5 r) (r_sha1 r) (r_sha256 r) (r_change r)
    (stored_opt (r_ts_datetime r)) (r_path r) (r_ln r) (r_capability r) (stored_opt (r_ts_at r))
    (stored_opt (r_ts_completed r)) (stored_opt (r_ts_from r)) (stored_opt (r_ts_until r)).

Lemma stored_good r : recorded r -> good_resource (stored_resource r).
Proof.
  intros (U & (T1 & T2 & T3 & T4 & T5 & T6) & D & V & L). split; [exact U|]. split; [|auto].
  cbn. repeat split; now apply stored_ok.
Qed.

Lemma stored_legal r : legal_resource r -> legal_resource (stored_resource r).
Proof. intros H. exact H. Qed.

Lemma stored_same_text sm r : recorded r ->
  forall name, resource_etree_element sm r name = resource_etree_element sm (stored_resource r) name.
Proof.
  intros (U & (T1 & T2 & T3 & T4 & T5 & T6) & _) name.
  apply stored_ok in T1, T2, T3, T4, T5, T6.
  destruct T1 as [T1 _], T2 as [T2 _], T3 as [T3 _], T4 as [T4 _], T5 as [T5 _], T6 as [T6 _].
  assert (A : forall k, md_att (stored_resource r) k = md_att r k).
  { intros k. unfold md_att, stored_resource, get_hash.
    cbn [r_capability r_change r_ts_datetime r_ts_at r_ts_completed r_ts_from r_length r_path r_mime_type r_ts_until
         r_md5 r_sha1 r_sha256].
    now rewrite ?T2, ?T3, ?T4, ?T5, ?T6. }
  assert (B : forall keys, md_atts (stored_resource r) keys = md_atts r keys).
  { induction keys as [|k keys IH]; [reflexivity|]. cbn [md_atts]. now rewrite A, IH. }
  unfold resource_etree_element. rewrite B. unfold stored_resource. cbn [r_timestamp r_ts_datetime r_uri r_ln].
  now rewrite T1, T2.
Qed.

Lemma read_stored_close sm r r' : recorded r -> read_back sm (stored_resource r) r' -> read_close sm r r'.
Proof.
  intros (U & (T1 & T2 & _) & _) (H1 & H2 & H3 & H).
  apply stored_ok in T1, T2. destruct T1 as (_ & _ & T1), T2 as (_ & _ & T2).
  split; [exact H1|]. split; [|split; [|exact H]].
  - rewrite H2. unfold stored_resource. cbn [r_timestamp r_ts_datetime].
    destruct (r_timestamp r) as [t|]; [exact T1|]. destruct (s_spec_1_0 sm || s_add_lastmod sm); [exact T2|exact I].
  - rewrite H3. unfold stored_resource. cbn [r_ts_datetime]. destruct (s_spec_1_0 sm); [exact I|exact T2].
Qed.

(** ** Lists *)

Definition stored_dict (d : rdict) : rdict := map (fun ur => (fst ur, stored_resource (snd ur))) d.

Lemma stored_dict_wf d : wf_rl d -> wf_rl (stored_dict d).
Proof.
  intros [N K]. split.
  - unfold stored_dict. rewrite map_map. cbn [fst]. exact N.
  - intros u r I. unfold stored_dict in I. apply in_map_iff in I as ([u' r'] & [= <- <-] & I). exact (K u' r' I).
Qed.

Lemma sget_stored u d : sget u (stored_dict d) = match sget u d with Some r => Some (stored_resource r) | None => None end.
Proof. induction d as [|[k r] d IH]; [reflexivity|]. cbn [stored_dict map sget fst snd]. destruct (str_eqb u k); auto. Qed.

Lemma rl_iter_stored d : rl_iter (stored_dict d) = map stored_resource (rl_iter d).
Proof.
  unfold rl_iter. replace (dkeys (stored_dict d)) with (dkeys d).
  - induction (sort_strs (dkeys d)) as [|k ks IH]; [reflexivity|]. cbn [lookups]. rewrite sget_stored.
    destruct (sget k d); cbn [map]; now rewrite IH.
  - unfold dkeys, stored_dict. rewrite map_map. reflexivity.
Qed.

Lemma take_chunk_map (f : resource -> resource) max it : forall n,
  take_chunk max n (map f it) = let '(c, rest) := take_chunk max n it in (map f c, map f rest).
Proof.
  induction it as [|r it IH]; intros n; [reflexivity|]. cbn [map take_chunk].
  destruct (max <=? n + 1); [reflexivity|]. rewrite IH. destruct (take_chunk max (n + 1) it). reflexivity.
Qed.
Lemma get_chunk_map (f : resource -> resource) max first it :
  get_chunk max (option_map f first) (map f it)
  = let '(c, nxt, it') := get_chunk max first it in (map f c, option_map f nxt, map f it').
Proof.
  unfold get_chunk. replace (zlen (match option_map f first with Some r => [r] | None => [] end))
    with (zlen (match first with Some r => [r] | None => [] end)) by now destruct first.
  rewrite take_chunk_map. destruct (take_chunk max _ it) as [c rest].
  destruct rest as [|r rest]; cbn [map]; destruct first; reflexivity.
Qed.
Lemma all_chunks_map (f : resource -> resource) max : forall fuel first it,
  all_chunks fuel max (option_map f first) (map f it) = map (map f) (all_chunks fuel max first it).
Proof.
  induction fuel as [|fuel IH]; intros first it; [reflexivity|]. cbn [all_chunks]. rewrite get_chunk_map.
  destruct (get_chunk max first it) as [[c nxt] it']. destruct c as [|r c]; [reflexivity|].
  cbn [map]. f_equal. apply IH.
Qed.
Lemma the_chunks_map (f : resource -> resource) max items : the_chunks max (map f items) = map (map f) (the_chunks max items).
Proof. unfold the_chunks. rewrite map_length. exact (all_chunks_map f max _ None items). Qed.

Lemma same_doc clock sm index md ln rs b fs : Forall recorded rs ->
  write_doc clock sm index (MkDoc md ln (map stored_resource rs)) b fs = write_doc clock sm index (MkDoc md ln rs) b fs.
Proof.
  intros F. unfold write_doc.
  rewrite (xml_of_same_elements sm index md ln rs (map stored_resource rs)); [reflexivity|].
  induction F as [|r rs R F IH]; [constructor|]. cbn [map]. constructor; [|exact IH]. now apply stored_same_text.
Qed.

Lemma same_parts md5 clock sm ms md ln b : forall chunks n index fs, Forall (Forall recorded) chunks ->
  write_parts md5 clock sm ms md ln b (map (map stored_resource) chunks) n index fs
  = write_parts md5 clock sm ms md ln b chunks n index fs.
Proof.
  induction chunks as [|c chunks IH]; intros n index fs F; [reflexivity|]. cbn [map write_parts].
  destruct (map_name ms (part_name b n)) as [uri|]; [|reflexivity].
  rewrite same_doc by (exact (Forall_inv F)). destruct (write_doc _ _ _ _ _ _) as [fs1 [e|]]; [reflexivity|].
  destruct (sget _ fs1); [|reflexivity]. apply IH. exact (Forall_inv_tail F).
Qed.

Lemma zlen_map {A B} (f : A -> B) l : zlen (map f l) = zlen l.
Proof. unfold zlen. now rewrite map_length. Qed.

Section Kind.
Context {C : Type} (k : kind C) (tw : C -> C).
Hypothesis twin : forall c, k_iter k (tw c) = map stored_resource (k_iter k c).

Definition stored_list (l : ixlist C) : ixlist C :=
  with_doc (MkDoc (d_md (l_doc l)) (d_ln (l_doc l)) (tw (d_items (l_doc l)))) (l_index l) l.

Lemma write_stored md5 clock (l : ixlist C) b fs max fs' l' : l_max l = Some max ->
  Forall recorded (k_iter k (d_items (l_doc l))) ->
  list_write k md5 clock (stored_list l) b fs = (fs', Ok l') ->
  exists l1, list_write k md5 clock l b fs = (fs', Ok l1).
Proof.
  intros M F. pose proof (twin (d_items (l_doc l))) as IT.
  assert (Z : zlen (k_iter k (d_items (l_doc (stored_list l)))) = zlen (k_iter k (d_items (l_doc l)))).
  { change (zlen (k_iter k (tw (d_items (l_doc l)))) = zlen (k_iter k (d_items (l_doc l)))). rewrite IT. apply zlen_map. }
  assert (WM : written_md (stored_list l) = written_md l).
  { unfold written_md, default_capability, stored_list, with_doc. cbn [l_doc l_name d_md].
    destruct (smem _ _); destruct (l_name l); reflexivity. }
  destruct (Z.le_gt_cases (zlen (k_iter k (d_items (l_doc l)))) (Z.max max 1)) as [Few|Many].
  - rewrite (list_write_single k md5 clock l b fs max M Few).
    rewrite (list_write_single k md5 clock (stored_list l) b fs max) by (try exact M; lia).
    rewrite WM. change (k_iter k (d_items (l_doc (stored_list l)))) with (k_iter k (tw (d_items (l_doc l)))).
    rewrite IT. change (l_sm (stored_list l)) with (l_sm l). change (l_index (stored_list l)) with (l_index l).
    change (d_ln (l_doc (stored_list l))) with (d_ln (l_doc l)).
    rewrite same_doc by exact F. destruct (write_doc _ _ _ _ _ _) as [fs1 [e|]]; [discriminate|].
    intros [= <- <-]. eauto.
  - rewrite (list_write_multi k md5 clock l b fs max M) by lia.
    rewrite (list_write_multi k md5 clock (stored_list l) b fs max) by (try exact M; lia).
    rewrite WM. change (k_iter k (d_items (l_doc (stored_list l)))) with (k_iter k (tw (d_items (l_doc l)))).
    rewrite IT. change (l_sm (stored_list l)) with (l_sm l). change (l_allow (stored_list l)) with (l_allow l).
    change (d_ln (l_doc (stored_list l))) with (d_ln (l_doc l)). change (l_mapper (stored_list l)) with (l_mapper l).
    destruct (negb (l_allow l)); [discriminate|]. destruct (map_name (l_mapper l) b) as [uri|]; [|discriminate].
    rewrite the_chunks_map, same_parts.
    + destruct (write_parts _ _ _ _ _ _ _ _ _ _ _) as [fs1 [ix|]]; [|discriminate].
      destruct (write_doc _ _ _ _ _ _) as [fs2 [e|]]; [discriminate|]. intros [= <- <-]. eauto.
    + apply Forall_forall. intros c I. apply Forall_forall. intros r Ir. rewrite Forall_forall in F. apply F.
      rewrite <- (proj1 (the_chunks_spec max (k_iter k (d_items (l_doc l))))). apply in_concat. eauto.
Qed.

Lemma recorded_stored_good name (l : ixlist C) : recorded_list (k_iter k) name (l_doc l) ->
  good_list (k_iter k) name (l_doc (stored_list l)).
Proof.
  intros (MD & LN & R & L & Cap). split; [|exact Cap]. unfold in_order, stored_list, with_doc. cbn [l_doc d_md d_ln d_items].
  split; [exact MD|]. split; [exact LN|]. cbn [d_items]. rewrite twin. split.
  - apply Forall_forall. intros r I. apply in_map_iff in I as (x & <- & I). rewrite Forall_forall in R. now apply stored_good, R.
  - apply Forall_forall. intros r I. apply in_map_iff in I as (x & <- & I). rewrite Forall_forall in L. now apply stored_legal, L.
Qed.

Lemma Forall2_read_close sm rs : Forall recorded rs -> forall rs', Forall2 (read_back sm) (map stored_resource rs) rs' ->
  Forall2 (read_close sm) rs rs'.
Proof.
  induction 1 as [|r rs R _ IH]; intros rs' F; inversion F; subst; constructor; auto using read_stored_close.
Qed.

Lemma single_close md5 clock web (l : ixlist C) b fs name max :
  legal name -> recorded_list (k_iter k) name (l_doc l) -> l_name l = Some name -> l_index l = false ->
  l_max l = Some max -> zlen (k_iter k (d_items (l_doc l))) <= Z.max max 1 -> plain_path b ->
  (forall rs', map r_uri rs' = map r_uri (k_iter k (d_items (l_doc l))) ->
     map r_change rs' = map r_change (k_iter k (d_items (l_doc l))) ->
     exists c, add_seq (k_add k) rs' (k_empty k) = Ok c /\ k_iter k c = rs') ->
  exists fs' l2, list_write k md5 clock l b fs = (fs', Ok l)
    /\ list_read k (open_uri fs' web) false (emptied k l) b = Ok l2
    /\ same_atts (md_keys (s_spec_1_0 (l_sm l))) (d_md (as_written (k_iter k) name (l_doc l))) (d_md (l_doc l2))
    /\ Forall2 (same_atts link_keys) (d_ln (l_doc l)) (d_ln (l_doc l2))
    /\ Forall2 (read_close (l_sm l)) (k_iter k (d_items (l_doc l))) (k_iter k (d_items (l_doc l2))).
Proof.
  intros L G N X M Few P A.
  assert (R : Forall recorded (k_iter k (d_items (l_doc l)))) by apply G.
  destruct (single_round k md5 clock web (stored_list l) b fs name max L) as (fs' & l2 & W1 & W2 & W3 & W4 & W5); auto.
  - now apply recorded_stored_good.
  - change (zlen (k_iter k (tw (d_items (l_doc l)))) <= Z.max max 1). rewrite twin, zlen_map. exact Few.
  - intros rs' F. change (k_iter k (d_items (l_doc (stored_list l)))) with (k_iter k (tw (d_items (l_doc l)))) in F.
    rewrite twin in F. apply A.
    + clear - F. remember (k_iter k (d_items (l_doc l))) as rs. clear Heqrs. revert rs' F.
      induction rs as [|r rs IH]; intros rs' F; inversion F as [|? ? ? ? (E & _)]; subst; [reflexivity|].
      cbn [map]. f_equal; [exact E|auto].
    + clear - F. remember (k_iter k (d_items (l_doc l))) as rs. clear Heqrs. revert rs' F.
      induction rs as [|r rs IH]; intros rs' F; inversion F as [|? ? ? ? (_ & _ & _ & _ & _ & _ & _ & _ & E & _)]; subst; [reflexivity|].
      cbn [map]. f_equal; [exact E|auto].
  - destruct (write_stored md5 clock l b fs max _ _ M R W1) as (l1 & L1).
    assert (l1 = l).
    { rewrite (list_write_single k md5 clock l b fs max M Few) in L1.
      destruct (write_doc _ _ _ _ _ _) as [fs1 [x|]]; [discriminate|]. congruence. }
    subst l1. exists fs', l2. split; [exact L1|]. split; [exact W2|]. split; [exact W3|]. split; [exact W4|].
    apply Forall2_read_close; [exact R|]. rewrite <- twin. exact W5.
Qed.
End Kind.

Lemma named_read_close md5 clock web (l : ixlist rdict) b fs ms max name : legal name ->
  digest_like md5 -> clock_like clock -> wf_rl (d_items (l_doc l)) ->
  recorded_list rl_iter name (l_doc l) -> l_name l = Some name -> l_index l = false ->
  l_max l = Some max -> plain_path b ->
  zlen (rl_iter (d_items (l_doc l))) <= Z.max max 1 \/ (l_allow l = true /\ l_mapper l = Some ms /\ published ms b) ->
  exists fs' l' l2, list_write resource_list_kind md5 clock l b fs = (fs', Ok l')
    /\ list_read resource_list_kind (open_uri fs' web) false (emptied resource_list_kind l) b = Ok l2
    /\ Forall2 (read_close (l_sm l)) (rl_iter (d_items (l_doc l))) (rl_iter (d_items (l_doc l2)))
    /\ (find_link $"index" (d_ln (l_doc l)) = None ->
        same_atts (md_keys (s_spec_1_0 (l_sm l))) (d_md (as_written rl_iter name (l_doc l))) (d_md (l_doc l2))
        /\ Forall2 (same_atts link_keys) (d_ln (l_doc l)) (d_ln (l_doc l2))).
Proof.
  intros Lg D T W G N X M P [Few|(A & Ms & Pub)].
  - destruct (single_close resource_list_kind stored_dict rl_iter_stored md5 clock web l b fs name max
                Lg G N X M Few P) as (fs' & l2 & W1 & W2 & W3 & W4 & W5).
    + intros rs' U _. change (k_iter resource_list_kind (d_items (l_doc l))) with (rl_iter (d_items (l_doc l))) in U.
      change (k_add resource_list_kind) with (fun r => rl_add r false). change (k_iter resource_list_kind) with rl_iter.
      change (k_empty resource_list_kind) with (@nil (str * resource)).
      destruct (filled_iter rs' rs') as [A1 A2]; [reflexivity| | |eauto].
      * rewrite U, rl_iter_uris by auto. apply sort_strs_NoDup, W.
      * eapply StronglySorted_uris; [exact U|]. now apply rl_iter_sorted.
    + exists fs', l, l2. auto.
  - destruct (named_read md5 clock web (stored_list stored_dict l) b fs ms max name Lg D T) as (fs' & l' & l2 & W1 & W2 & W3 & W4); auto.
    + now apply stored_dict_wf.
    + now apply (recorded_stored_good resource_list_kind stored_dict rl_iter_stored).
    + assert (R : Forall recorded (rl_iter (d_items (l_doc l)))) by apply G.
      destruct (write_stored resource_list_kind stored_dict rl_iter_stored md5 clock l b fs max fs' l' M R W1) as (l1 & L1).
      exists fs', l1, l2. split; [exact L1|]. split; [exact W2|]. split.
      * apply Forall2_read_close; [exact R|]. rewrite <- rl_iter_stored. exact W3.
      * intros NI. destruct (W4 NI) as (Y1 & Y2 & _). split; [exact Y1|exact Y2].
Qed.

Lemma write_read_close md5 clock web (l : ixlist rdict) b fs ms max :
  digest_like md5 -> clock_like clock -> wf_rl (d_items (l_doc l)) ->
  recorded_list rl_iter $"resourcelist" (l_doc l) -> l_name l = Some $"resourcelist" -> l_index l = false ->
  l_max l = Some max -> plain_path b ->
  zlen (rl_iter (d_items (l_doc l))) <= Z.max max 1 \/ (l_allow l = true /\ l_mapper l = Some ms /\ published ms b) ->
  exists fs' l' l2, list_write resource_list_kind md5 clock l b fs = (fs', Ok l')
    /\ list_read resource_list_kind (open_uri fs' web) false (emptied resource_list_kind l) b = Ok l2
    /\ Forall2 (read_close (l_sm l)) (rl_iter (d_items (l_doc l))) (rl_iter (d_items (l_doc l2)))
    /\ (find_link $"index" (d_ln (l_doc l)) = None ->
        same_atts (md_keys (s_spec_1_0 (l_sm l))) (d_md (as_written rl_iter $"resourcelist" (l_doc l))) (d_md (l_doc l2))
        /\ Forall2 (same_atts link_keys) (d_ln (l_doc l)) (d_ln (l_doc l2))).
Proof. exact (fun D T => named_read_close md5 clock web l b fs ms max _ legal_resourcelist D T). Qed.

Lemma named_changes_close md5 clock web (l : ixlist (list resource)) b fs max name : legal name ->
  Forall (fun r => r_change r <> None) (d_items (l_doc l)) ->
  recorded_list (fun l => l) name (l_doc l) -> l_name l = Some name -> l_index l = false ->
  l_max l = Some max -> zlen (d_items (l_doc l)) <= Z.max max 1 -> plain_path b ->
  exists fs' l2, list_write change_list_kind md5 clock l b fs = (fs', Ok l)
    /\ list_read change_list_kind (open_uri fs' web) false (emptied change_list_kind l) b = Ok l2
    /\ same_atts (md_keys (s_spec_1_0 (l_sm l))) (d_md (as_written (fun l => l) name (l_doc l))) (d_md (l_doc l2))
    /\ Forall2 (same_atts link_keys) (d_ln (l_doc l)) (d_ln (l_doc l2))
    /\ Forall2 (read_close (l_sm l)) (d_items (l_doc l)) (d_items (l_doc l2)).
Proof.
  intros Lg Ch G N X M Few P.
  apply (single_close change_list_kind (map stored_resource) (fun c => eq_refl) md5 clock web l b fs name max); auto.
  - intros rs' _ R. exists rs'. split; [|reflexivity]. change (k_empty change_list_kind) with (@nil resource).
    change (k_add change_list_kind) with cl_add. change (k_iter change_list_kind (d_items (l_doc l))) with (d_items (l_doc l)) in R.
    assert (Ch' : Forall (fun r => r_change r <> None) rs').
    { clear - Ch R. revert rs' R. induction Ch as [|r rs H _ IH]; intros [|r' rs'] R; try discriminate; [constructor|].
      cbn [map] in R. injection R as R1 R2. constructor; [now rewrite R1|auto]. }
    assert (E : forall acc, add_seq cl_add rs' acc = Ok (acc ++ rs')).
    { clear - Ch'. induction Ch' as [|r rs' Hr _ IH]; intros acc; cbn [add_seq]; [now rewrite app_nil_r|].
      unfold cl_add at 1. destruct (r_change r); [|congruence]. cbn [bind]. rewrite IH, <- app_assoc. reflexivity. }
    apply (E []).
Qed.

Lemma change_list_close md5 clock web (l : ixlist (list resource)) b fs max :
  Forall (fun r => r_change r <> None) (d_items (l_doc l)) ->
  recorded_list (fun l => l) $"changelist" (l_doc l) -> l_name l = Some $"changelist" -> l_index l = false ->
  l_max l = Some max -> zlen (d_items (l_doc l)) <= Z.max max 1 -> plain_path b ->
  exists fs' l2, list_write change_list_kind md5 clock l b fs = (fs', Ok l)
    /\ list_read change_list_kind (open_uri fs' web) false (emptied change_list_kind l) b = Ok l2
    /\ same_atts (md_keys (s_spec_1_0 (l_sm l))) (d_md (as_written (fun l => l) $"changelist" (l_doc l))) (d_md (l_doc l2))
    /\ Forall2 (same_atts link_keys) (d_ln (l_doc l)) (d_ln (l_doc l2))
    /\ Forall2 (read_close (l_sm l)) (d_items (l_doc l)) (d_items (l_doc l2)).
Proof. apply named_changes_close. apply legal_lit. reflexivity. Qed.

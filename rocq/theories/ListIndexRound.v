(** * ListIndexRound: a list that is written and read back *)

From Verif Require Import Py PyFacts Float64 Float64Facts W3C W3CSpec Regex Mapper Resource ResourceSpec Container ContainerSpec
  ContainerFacts Xml XmlFacts Sitemap SitemapSpec SitemapFacts SitemapText SitemapLists Opener
  ListIndex ListIndexSpec ListIndexFacts ListIndexWrite FileTime.
From Coq Require Import Sorting.Sorted Permutation.

(** ** The documents are good *)

Lemma good_link_href u l : good_link l -> legal_atts link_keys l -> legal u ->
  good_link (sset $"href" (PStr u) l) /\ legal_atts link_keys (sset $"href" (PStr u) l).
Proof.
  intros (ND & T & Ty & (h & H) & (r & R) & P) (K & S) L. split.
  - split; [now apply NoDup_sset|]. split; [|split; [|split; [|split]]].
    + intros I. apply in_dkeys_sset in I as [I|I]; [discriminate|auto].
    + intros k v I. apply in_sset in I as [[-> ->]|I]; [exists u; now left|now apply Ty].
    + exists u. apply sget_sset_eq.
    + exists r. rewrite sget_sset_ne by discriminate. exact R.
    + intros n. rewrite sget_sset_ne by discriminate. apply P.
  - split.
    + intros k I. apply in_dkeys_sset in I as [->|I]; [cbn; auto|auto].
    + intros k s I. apply in_sset in I as [[-> [= <-]]|I]; [assumption|eapply S; eauto].
Qed.

Lemma new_link_good u : legal u ->
  good_link [($"rel", PStr $"index"); ($"href", PStr u)]
  /\ legal_atts link_keys [($"rel", PStr $"index"); ($"href", PStr u)].
Proof.
  intros L. split.
  - split; [|split; [|split; [|split; [|split]]]].
    + cbn [map fst]. constructor; [intros [E|[]]; discriminate|]. constructor; [easy|constructor].
    + cbn [map fst]. intros [E|[E|[]]]; discriminate.
    + intros k v [[= <- <-]|[[= <- <-]|[]]]; [exists $"index"|exists u]; now left.
    + now exists u.
    + now exists $"index".
    + intros n E. discriminate.
  - split.
    + cbn [map fst]. intros k [<-|[<-|[]]]; cbn; auto 10.
    + intros k s [[= <- <-]|[[= <- <-]|[]]]; [|assumption].
      intros c I. left. revert c I. assert (F : forallb (fun c => N.leb 32 (code c)) $"index" = true) by reflexivity.
      rewrite forallb_forall in F. intros c I. now apply N.leb_le, F.
Qed.

Lemma part_links_good u ln : legal u -> Forall good_link ln -> Forall (legal_atts link_keys) ln ->
  Forall good_link (part_links u ln) /\ Forall (legal_atts link_keys) (part_links u ln).
Proof.
  intros L G A. unfold part_links, list_link_set. destruct (find_link $"index" ln).
  - induction ln as [|x ln IH]; cbn [update_first]; [auto|]. inversion G; inversion A; subst.
    destruct (link_has_rel $"index" x).
    + destruct (good_link_href u x) as [X1 X2]; auto.
    + destruct IH as [X1 X2]; auto.
  - destruct (new_link_good u L) as [X1 X2]. rewrite !Forall_app. auto.
Qed.

Lemma shared_links_good u ln : legal u -> Forall good_link ln -> Forall (legal_atts link_keys) ln ->
  Forall good_link (shared_links u ln) /\ Forall (legal_atts link_keys) (shared_links u ln).
Proof. intros L G A. unfold shared_links. destruct (find_link $"index" ln); [now apply part_links_good|auto]. Qed.

(** ** The entries of the index *)

Lemma md_atts_time t t' u d keys :
  md_atts (set_md5 d (set_timestamp (Some t) (new_resource u))) keys
  = md_atts (set_md5 d (set_timestamp (Some t') (new_resource u))) keys.
Proof. induction keys as [|k keys IH]; [reflexivity|]. cbn [md_atts]. rewrite IH. reflexivity. Qed.

Lemma etree_time sm t t' u d name : datetime_to_str false t = datetime_to_str false t' ->
  resource_etree_element sm (set_md5 d (set_timestamp (Some t) (new_resource u))) name
  = resource_etree_element sm (set_md5 d (set_timestamp (Some t') (new_resource u))) name.
Proof.
  intros E. unfold resource_etree_element.
  change (r_timestamp (set_md5 d (set_timestamp (Some t) (new_resource u)))) with (Some t).
  change (r_timestamp (set_md5 d (set_timestamp (Some t') (new_resource u)))) with (Some t').
  cbn [get_dt]. rewrite E, (md_atts_time t t'). reflexivity.
Qed.

Lemma xml_of_same_elements sm index md ln rs rs' :
  Forall2 (fun r r' => forall name, resource_etree_element sm r name = resource_etree_element sm r' name) rs rs' ->
  resources_as_xml sm index (MkDoc md ln rs) = resources_as_xml sm index (MkDoc md ln rs').
Proof.
  intros F. unfold resources_as_xml, resources_tree. cbn [d_items d_md d_ln].
  set (name := if index then $"sitemap" else $"url").
  replace (mapM (fun r => resource_etree_element sm r name) rs)
    with (mapM (fun r => resource_etree_element sm r name) rs'); [reflexivity|].
  induction F as [|r r' rs rs' E F IH]; [reflexivity|]. cbn [mapM]. now rewrite E, IH.
Qed.

(** An entry can be replaced by one that is read back without loss. *)
Lemma entry_twin sm md5 u f : digest_like md5 -> 2 ^ 15 * SEC <= f_mtime f <= 2 ^ 32 * SEC ->
  u <> [] -> uri_text u ->
  exists r', good_resource r' /\ legal_resource r' /\ r_uri r' = u
    /\ forall name, resource_etree_element sm (index_entry md5 u f) name = resource_etree_element sm r' name.
Proof.
  intros D T NE (L & C). destruct (written_time _ T) as (t' & P & E). destruct (D (f_data f)) as [D1 D2].
  exists (set_md5 (Some (md5 (f_data f))) (set_timestamp (Some t') (new_resource u))).
  split; [|split; [|split]].
  - split; [exact NE|]. split; [|split; [|split]].
    + cbn. split; [exact P|]. repeat split; intros t H; discriminate.
    + cbn. split; [exact D1|]. split; intros v c H; discriminate.
    + now left.
    + constructor.
  - split; [split; assumption|]. split; [|split].
    + cbn. repeat split; intros s H; discriminate.
    + cbn. split; [|split; intros s H; discriminate]. intros s [= <-]. exact D2.
    + constructor.
  - reflexivity.
  - intros name. unfold index_entry. now apply etree_time.
Qed.

(** ** Components *)

Lemma insert_all_add_seq {C} (add : resource -> C -> res C) rs c : insert_all add rs c = add_seq add rs c.
Proof. revert c. induction rs as [|r rs IH]; intros c; [reflexivity|]. cbn. destruct (add r c); cbn [bind]; auto. Qed.

Lemma add_seq_list rs : forall l, add_seq (fun r rs => Ok (rs ++ [r])) rs l = Ok (l ++ rs).
Proof.
  induction rs as [|r rs IH]; intros l; cbn [add_seq bind]; [now rewrite app_nil_r|].
  rewrite IH, <- app_assoc. reflexivity.
Qed.

Lemma add_seq_app {C} (add : resource -> C -> res C) a : forall b c,
  add_seq add (a ++ b) c = let* c' := add_seq add a c in add_seq add b c'.
Proof.
  induction a as [|r a IH]; intros b c; [reflexivity|]. cbn [app add_seq].
  destruct (add r c); cbn [bind]; auto.
Qed.

Lemma read_components_seq {C} (k : kind C) fetch l iu isf : forall us rss,
  Forall2 (fun u rs => forall c, read_component k fetch l iu isf c u = add_seq (k_insert k) rs c) us rss ->
  forall c, read_components k fetch l iu isf us c = add_seq (k_insert k) (List.concat rss) c.
Proof.
  induction 1 as [|u rs us rss H _ IH]; intros c; [reflexivity|]. cbn [read_components List.concat].
  rewrite H, add_seq_app. destruct (add_seq (k_insert k) rs c); cbn [bind]; auto.
Qed.

(** A resource dictionary filled in any order, iterated over. *)
Lemma filled_iter rs rs0 : Permutation rs rs0 -> NoDup (map r_uri rs0) -> StronglySorted uri_before rs0 ->
  add_seq (fun r => rl_add r false) rs [] = Ok (map (fun r => (r_uri r, r)) rs)
  /\ rl_iter (map (fun r => (r_uri r, r)) rs) = rs0.
Proof.
  intros P N S.
  assert (N' : NoDup (map r_uri rs)).
  { eapply Permutation_NoDup; [|exact N]. apply Permutation_map. now symmetry. }
  split; [apply add_seq_fresh; exact N'|].
  assert (W' : wf_rl (map (fun r => (r_uri r, r)) rs)).
  { split.
    - rewrite map_map. exact N'.
    - intros u r I. apply in_map_iff in I as (x & [= <- <-] & _). reflexivity. }
  apply uri_sorted_ext.
  - now apply rl_iter_sorted.
  - assumption.
  - intros r. pose proof (rl_iter_perm _ W') as Q. rewrite map_map in Q. cbn [snd] in Q. rewrite map_id in Q.
    split; intros I.
    + apply (Permutation_in _ P). now apply (Permutation_in _ Q).
    + apply (Permutation_in _ (Permutation_sym Q)). now apply (Permutation_in _ (Permutation_sym P)).
Qed.

Lemma Forall2_concat {A B} (P : A -> B -> Prop) l l' : Forall2 (Forall2 P) l l' -> Forall2 P (List.concat l) (List.concat l').
Proof. induction 1; cbn; [constructor|]. now apply Forall2_app. Qed.

Lemma Forall2_nth {A B} (P : A -> B -> Prop) l : forall l', List.length l = List.length l' ->
  (forall i a b, nth_error l i = Some a -> nth_error l' i = Some b -> P a b) -> Forall2 P l l'.
Proof.
  induction l as [|a l IH]; intros [|b l'] L H; try discriminate; constructor.
  - now apply (H 0%nat).
  - apply IH; [now injection L|]. intros i. apply (H (S i)).
Qed.

Lemma choose_list {A B} (P : A -> B -> Prop) l : (forall a, In a l -> exists b, P a b) -> exists l', Forall2 P l l'.
Proof.
  induction l as [|a l IH]; intros H; [exists []; constructor|].
  destruct (H a (or_introl eq_refl)) as (b & B1). destruct IH as (l' & F); [intros x I; apply H; now right|].
  exists (b :: l'). now constructor.
Qed.

(** ** Several files *)

Section Multi.
Variables (md5 : str -> str) (clock : str -> Z) (web : str -> res str) (l : ixlist rdict)
  (b : str) (fs : fsys) (ms : mapper) (max : Z).
Hypothesis D : digest_like md5.
Hypothesis T : clock_like clock.
Hypothesis W : wf_rl (d_items (l_doc l)).
Variable name : str.
Hypothesis Legal : legal name.
Hypothesis G : good_list rl_iter name (l_doc l).
Hypothesis Name : l_name l = Some name.
Hypothesis Max : l_max l = Some max.
Hypothesis Allow : l_allow l = true.
Hypothesis Ms : l_mapper l = Some ms.
Hypothesis Path : plain_path b.
Hypothesis Pub : published ms b.
Let items := rl_iter (d_items (l_doc l)).
Hypothesis Many : Z.max max 1 < zlen items.

Lemma written_md_eq : written_md l = d_md (as_written rl_iter name (l_doc l)).
Proof. unfold written_md. rewrite Name, <- default_capability_written. reflexivity. Qed.

Lemma good_parts ln rs : Forall good_link ln -> Forall (legal_atts link_keys) ln ->
  Forall good_resource rs -> Forall legal_resource rs -> good_doc (MkDoc (written_md l) ln rs).
Proof.
  intros. rewrite written_md_eq.
  destruct (as_written_good rl_iter name (l_doc l) Legal G) as [(GM & _) _].
  split; [exact GM|]. split; [split; assumption|]. split; assumption.
Qed.

Lemma capability_written : sget $"capability" (written_md l) = Some (PStr name).
Proof. rewrite written_md_eq. apply (as_written_good rl_iter name (l_doc l) Legal G). Qed.

Lemma links_good : Forall good_link (d_ln (l_doc l)) /\ Forall (legal_atts link_keys) (d_ln (l_doc l)).
Proof. destruct G as [(_ & H & _) _]. exact H. Qed.
Lemma items_good : Forall good_resource items /\ Forall legal_resource items.
Proof. destruct G as [(_ & _ & H1 & H2) _]. auto. Qed.

Lemma chunk_incl c : In c (the_chunks max items) -> incl c items.
Proof.
  intros I x J. destruct (the_chunks_spec max items) as [<- _]. apply in_concat. eauto.
Qed.

Lemma chunk_good u c : legal u -> In c (the_chunks max items) ->
  good_doc (MkDoc (written_md l) (part_links u (d_ln (l_doc l))) c).
Proof.
  intros L I. pose proof (chunk_incl c I) as J. destruct links_good as [L1 L2]. destruct items_good as [I1 I2].
  destruct (part_links_good u (d_ln (l_doc l)) L L1 L2) as [P1 P2].
  apply good_parts; auto; rewrite Forall_forall in *; auto.
Qed.

Lemma map_name_parts i : 0 <= i -> exists x, map_name (Some ms) (part_name b i) = Ok ($"http:" ++ x)
  /\ uri_text x /\ src_to_dst ms ($"http:" ++ x) = Ok (part_name b i).
Proof. intros I. destruct Pub as [_ P]. destruct (P i I) as (x & E & U & S). exists x. cbn [map_name]. rewrite E. auto. Qed.

Lemma uri_text_http x : uri_text x -> uri_text ($"http:" ++ x).
Proof.
  intros [L C]. split.
  - intros c I. apply in_app_or in I as [I|I]; [|auto]. left.
    assert (F : forallb (fun c => N.leb 32 (code c)) $"http:" = true) by reflexivity.
    rewrite forallb_forall in F. now apply N.leb_le, F.
  - intros I. apply in_app_or in I as [I|I]; [|auto]. vm_compute in I. intuition discriminate.
Qed.

(** Replace entries by ones that are read back without loss. *)
Lemma entries_twins fs1 u es :
  List.length es = List.length (the_chunks max items) ->
  (forall i c e, nth_error (the_chunks max items) i = Some c -> nth_error es i = Some e ->
     part_written md5 clock (l_sm l) (Some ms) (written_md l) (part_links u (d_ln (l_doc l))) b fs1 (Z.of_nat i) c e) ->
  exists es', Forall good_resource es' /\ Forall legal_resource es' /\ map r_uri es' = map r_uri es
    /\ Forall2 (fun r r' => forall name, resource_etree_element (l_sm l) r name = resource_etree_element (l_sm l) r' name) es es'.
Proof.
  intros Len P.
  destruct (choose_list (fun e r' => good_resource r' /\ legal_resource r' /\ r_uri r' = r_uri e
    /\ forall name, resource_etree_element (l_sm l) e name = resource_etree_element (l_sm l) r' name) es) as (es' & F).
  { intros e I. apply In_nth_error in I as (i & I).
    destruct (nth_error (the_chunks max items) i) as [c|] eqn:Ec.
    2:{ apply nth_error_None in Ec. assert (i < List.length es)%nat by (apply nth_error_Some; congruence). lia. }
    destruct (P i c e Ec I) as (uri & f & M & _ & _ & Tf & ->).
    destruct (map_name_parts (Z.of_nat i) ltac:(lia)) as (x & M' & U & _). rewrite M' in M. injection M as <-.
    destruct (entry_twin (l_sm l) md5 ($"http:" ++ x) f D) as (r' & A1 & A2 & A3 & A4).
    - rewrite Tf. apply T.
    - discriminate.
    - now apply uri_text_http.
    - exists r'. auto. }
  exists es'. clear P Len. induction F as [|e r' es es' (A1 & A2 & A3 & A4) F (B1 & B2 & B3 & B4)]; [repeat constructor|].
  split; [now constructor|]. split; [now constructor|]. split; [cbn [map]; congruence|]. now constructor.
Qed.

Lemma write_succeeds : exists fs', 
  fst (list_write resource_list_kind md5 clock l b fs) = fs'
  /\ exists l', snd (list_write resource_list_kind md5 clock l b fs) = Ok l'.
Proof.
  eexists. split; [reflexivity|].
  rewrite (list_write_multi resource_list_kind md5 clock l b fs max Max Many).
  change (k_iter resource_list_kind (d_items (l_doc l))) with items.
  rewrite Allow, Ms. cbn [negb]. destruct Pub as [(u & Eu & Lu & _) _]. cbn [map_name]. rewrite Eu.
  destruct (write_parts_ok md5 clock (l_sm l) (Some ms) (written_md l) (part_links u (d_ln (l_doc l))) b
    (the_chunks max items) 0 [] fs (Z.le_refl 0)) as (fs1 & es & WP).
  { intros i I. destruct (map_name_parts i I) as (x & E & _). eauto. }
  { intros c I. destruct (document_text (l_sm l) false _ (chunk_good u c Lu I)) as (t & _ & _ & _ & E & _). eauto. }
  rewrite WP. destruct (write_parts_inv _ _ _ _ _ _ _ _ _ _ _ _ _ (Z.le_refl 0) WP) as (es1 & I1 & I2 & I3 & I4).
  cbn [app] in I1. subst es1. destruct (entries_twins fs1 u es I2 I3) as (es' & G1 & G2 & G3 & G4).
  unfold write_doc. rewrite (xml_of_same_elements _ true _ _ _ _ G4).
  destruct links_good as [L1 L2]. destruct (shared_links_good u _ Lu L1 L2) as [S1 S2].
  destruct (document_text (l_sm l) true _ (good_parts _ _ S1 S2 G1 G2)) as (t & _ & _ & _ & E & _).
  rewrite E. eexists. reflexivity.
Qed.

Lemma read_parts fs' l' : list_write resource_list_kind md5 clock l b fs = (fs', Ok l') ->
  exists l2, list_read resource_list_kind (open_uri fs' web) false (emptied resource_list_kind l) b = Ok l2
    /\ Forall2 (read_back (l_sm l)) items (rl_iter (d_items (l_doc l2)))
    /\ same_atts (md_keys (s_spec_1_0 (l_sm l))) (written_md l) (d_md (l_doc l2))
    /\ (find_link $"index" (d_ln (l_doc l)) = None -> Forall2 (same_atts link_keys) (d_ln (l_doc l)) (d_ln (l_doc l2))).
Proof.
  intros WR. pose proof (list_write_files resource_list_kind md5 clock l l' b fs fs' max Max Many WR)
    as (u & es & Eu & Len & Parts & Idx & _).
  change (k_iter resource_list_kind (d_items (l_doc l))) with items in *. rewrite Ms in *.
  assert (Lu : legal u).
  { destruct Pub as [(u' & E' & L' & _) _]. cbn [map_name] in Eu. rewrite E' in Eu. injection Eu as <-. exact L'. }
  destruct (entries_twins fs' u es Len Parts) as (es' & G1 & G2 & G3 & G4).
  destruct Idx as (fi & Fi & Xi). rewrite (xml_of_same_elements _ true _ _ _ _ G4) in Xi.
  destruct links_good as [L1 L2]. destruct (shared_links_good u _ Lu L1 L2) as [S1 S2].
  destruct (document_text (l_sm l) true _ (good_parts _ _ S1 S2 G1 G2)) as (t & md' & ln' & rs' & E & (RM & RL & RR) & P & _).
  rewrite E in Xi. injection Xi as ->. cbn [d_md d_ln d_items] in RM, RL, RR. apply read_back_uris in RR. rewrite G3 in RR.
  set (us := map r_uri es) in *.
  (* what every component gives *)
  set (l0 := emptied resource_list_kind l).
  assert (Comp : exists rss, Forall2 (fun x rs => forall c, read_component resource_list_kind (open_uri fs' web) l0 b true c x
        = add_seq (k_insert resource_list_kind) rs c) us rss
      /\ Forall2 (Forall2 (read_back (l_sm l))) (the_chunks max items) rss).
  { clear - Parts Len Lu D T W Legal G Name Max Allow Ms Path Pub Many l0.
    assert (Q : forall i c e, nth_error (the_chunks max items) i = Some c -> nth_error es i = Some e ->
      exists rs, (forall d, read_component resource_list_kind (open_uri fs' web) l0 b true d (r_uri e)
          = add_seq (k_insert resource_list_kind) rs d) /\ Forall2 (read_back (l_sm l)) c rs).
    { intros i c e Ec Ee. destruct (Parts i c e Ec Ee) as (uri & f & M & F & X & _ & ->).
      destruct (map_name_parts (Z.of_nat i) ltac:(lia)) as (x & M' & U & S). assert (Euri : uri = $"http:" ++ x) by congruence. clear M. subst uri.
      destruct (document_text (l_sm l) false _ (chunk_good u c Lu (nth_error_In _ _ Ec)))
        as (t & md' & ln' & rs' & E & (_ & _ & RR) & P & _).
      rewrite E in X. injection X as ->. exists rs'. split; [|exact RR].
      intros d. unfold read_component. change (r_uri (index_entry md5 ($"http:" ++ x) f)) with ($"http:" ++ x).
      rewrite is_file_uri_http. cbn [negb]. unfold l0, emptied, with_doc. cbn [l_mapper l_sm]. rewrite Ms, S. cbn [bind].
      rewrite (plain_path_open fs' web _ (plain_path_part b (Z.of_nat i) Path)), F. cbn [bind].
      rewrite P by auto. rewrite add_seq_list. cbn [bind app check_capability d_items].
      apply insert_all_add_seq. }
    subst us. clear Parts. revert es Len Q. induction (the_chunks max items) as [|c cs IH]; intros [|e es] Len Q; try discriminate.
    - exists []. split; constructor.
    - destruct (Q 0%nat c e eq_refl eq_refl) as (rs & Q1 & Q2).
      destruct (IH es) as (rss & R1 & R2); [now injection Len|intros i; apply (Q (S i))|].
      exists (rs :: rss). split; constructor; auto. }
  destruct Comp as (rss & C1 & C2).
  (* the URIs of the components *)
  assert (NU : NoDup us).
  { apply NoDup_nth_error. intros i j Li E'. unfold us in E', Li. rewrite map_length in Li. rewrite !nth_error_map in E'.
    destruct (nth_error es i) as [ei|] eqn:Ei; [|apply nth_error_None in Ei; lia].
    destruct (nth_error es j) as [ej|] eqn:Ej; [|discriminate]. cbn in E'. injection E' as E'.
    assert (Lj : (j < List.length es)%nat) by (apply nth_error_Some; congruence).
    destruct (nth_error (the_chunks max items) i) as [ci|] eqn:Eci; [|apply nth_error_None in Eci; lia].
    destruct (nth_error (the_chunks max items) j) as [cj|] eqn:Ecj; [|apply nth_error_None in Ecj; lia].
    destruct (Parts i ci ei Eci Ei) as (ui & f1 & M1 & _ & _ & _ & ->).
    destruct (Parts j cj ej Ecj Ej) as (uj & f2 & M2 & _ & _ & _ & ->).
    change (ui = uj) in E'. subst uj.
    destruct (map_name_parts (Z.of_nat i) ltac:(lia)) as (xi & Mi & _ & Si).
    destruct (map_name_parts (Z.of_nat j) ltac:(lia)) as (xj & Mj & _ & Sj).
    assert (EX : $"http:" ++ xi = $"http:" ++ xj) by congruence. apply app_inv_head in EX. subst xj.
    rewrite Si in Sj. injection Sj as Sj. apply part_name_inj in Sj; lia. }
  (* reading *)
  assert (Fetch : open_uri fs' web b = Ok (f_data fi)) by (rewrite plain_path_open, Fi by assumption; reflexivity).
  assert (Isf : is_file_uri b = true).
  { destruct Path as ((c & rest & -> & _) & _). apply is_file_uri_slash. }
  assert (Parse : parse_xml (l_sm l0) (k_add resource_list_kind) (l_name l0) None (l_doc l0) (f_data fi)
    = Ok (MkDoc md' ln' (map (fun r => (r_uri r, r)) rs'), true)).
  { unfold l0, emptied, with_doc. cbn [l_sm l_name l_doc]. rewrite P by auto.
    change (k_empty resource_list_kind) with (@nil (str * resource)). cbn [k_add resource_list_kind].
    rewrite add_seq_fresh by (cbn [dkeys map app]; rewrite RR; exact NU). cbn [bind app].
    unfold check_capability. rewrite Name. cbn [d_md].
    destruct (RM $"capability") as [X _]. rewrite capability_written in X. cbn [present] in X.
    assert (X' : sget $"capability" md' = Some (PStr name)) by (apply X; cbn; auto).
    rewrite X'. cbn [bind d_md]. rewrite X'. cbn [pv_eqb]. rewrite str_eqb_refl. reflexivity. }
  assert (Perm : Permutation us (sort_strs (sort_strs (map r_uri rs')))).
  { rewrite RR. transitivity (sort_strs us); apply sort_strs_perm. }
  destruct (Permutation_Forall2 Perm C1) as (rss' & PR & C1').
  assert (PC : Permutation (List.concat rss') (List.concat rss)).
  { symmetry. clear - PR. induction PR; cbn; auto.
    - now apply Permutation_app_head.
    - rewrite !app_assoc. apply Permutation_app_tail, Permutation_app_comm.
    - etransitivity; eauto. }
  assert (RB : Forall2 (read_back (l_sm l)) items (List.concat rss)).
  { apply Forall2_concat in C2. destruct (the_chunks_spec max items) as [CC _]. rewrite CC in C2. exact C2. }
  pose proof (read_back_uris _ _ _ RB) as RU.
  destruct (filled_iter (List.concat rss') (List.concat rss) PC) as [A1 A2].
  { rewrite RU. unfold items. rewrite rl_iter_uris by auto. apply sort_strs_NoDup, W. }
  { eapply StronglySorted_uris; [exact RU|]. now apply rl_iter_sorted. }
  eexists. split; [|split; [|split]].
  - unfold list_read. fold l0. rewrite Fetch. cbn [bind]. rewrite Parse. cbn [bind negb].
    change (l_allow l0) with (l_allow l). rewrite Allow. cbn [negb k_uris resource_list_kind d_items bind].
    unfold rl_uris. replace (dkeys (map (fun r => (r_uri r, r)) rs')) with (map r_uri rs').
    2:{ unfold dkeys. rewrite map_map. reflexivity. }
    rewrite Isf, (read_components_seq _ _ _ _ _ _ _ C1').
    change (k_empty resource_list_kind) with (@nil (str * resource)).
    change (k_insert resource_list_kind) with (fun r => rl_add r false).
    rewrite A1. cbn [bind]. reflexivity.
  - cbn [l_doc with_doc d_items]. rewrite A2. exact RB.
  - cbn [l_doc with_doc d_md]. exact RM.
  - cbn [l_doc with_doc d_ln]. intros N. unfold shared_links in RL. rewrite N in RL. exact RL.
Qed.

End Multi.

(** * BuildDocs: capability lists and source descriptions as they are written *)

From Coq Require Import Permutation.
From Verif Require Import Py PyFacts Mapper Resource ResourceSpec ResourceFacts Container ContainerSpec ContainerFacts Capability
  CapabilitySpec CapabilityFacts Xml Sitemap SitemapSpec SitemapFacts SitemapText SitemapLists Url Opener ListIndex ListIndexSpec
  ListIndexFacts ListIndexWrite ListIndexProps Hashes Client StoredSpec Build PublishSpec PublishFacts BuildSpec.

(** ** The entries *)

Lemma rs_add_seq rs : forall d, NoDup (dkeys d ++ map r_uri rs) ->
  add_seq rs_add rs d = Ok (d ++ map (fun r => (r_uri r, r)) rs).
Proof.
  induction rs as [|r rs IH]; intros d N; cbn [add_seq map]; [now rewrite app_nil_r|].
  assert (F : ~ In (r_uri r) (dkeys d)).
  { cbn [map] in N. intros I. apply NoDup_remove_2 in N. apply N. apply in_or_app. now left. }
  unfold rs_add at 1. unfold smem. rewrite (proj2 (sget_none _ _)) by exact F. cbn [bind]. rewrite sset_fresh by exact F.
  rewrite IH.
  - now rewrite <- app_assoc.
  - unfold dkeys in *. rewrite map_app. cbn [map fst] in *. now rewrite <- app_assoc.
Qed.

Definition capability_dict (caps : list (str * str)) : rdict :=
  map (fun nu => (snd nu, capability_entry (fst nu) (snd nu))) caps.

Lemma add_capabilities_is caps : forall d, NoDup (dkeys d ++ map snd caps) ->
  add_capabilities caps d = Ok (d ++ capability_dict caps).
Proof.
  induction caps as [|[n u] caps IH]; intros d N; cbn [add_capabilities capability_dict map]; [now rewrite app_nil_r|].
  assert (F : ~ In u (dkeys d)).
  { cbn [map] in N. intros I. apply NoDup_remove_2 in N. apply N. apply in_or_app. now left. }
  unfold rs_add. change (r_uri (capability_entry n u)) with u. unfold smem. rewrite (proj2 (sget_none _ _)) by exact F.
  cbn [bind]. rewrite sset_fresh by exact F. rewrite IH.
  - now rewrite <- app_assoc.
  - unfold dkeys in *. rewrite map_app. cbn [map fst snd] in *. now rewrite <- app_assoc.
Qed.

Lemma capability_dict_wf caps : NoDup (map snd caps) -> wf_rl (capability_dict caps).
Proof.
  intros N. split.
  - unfold capability_dict. rewrite map_map. exact N.
  - intros u r I. unfold capability_dict in I. apply in_map_iff in I as ([n v] & [= <- <-] & _). reflexivity.
Qed.

Lemma entry_good n u : legal n -> u <> [] -> uri_text u -> good_resource (capability_entry n u) /\ legal_resource (capability_entry n u).
Proof.
  intros L NE U. split.
  - split; [exact NE|]. split; [|split; [|split]].
    + cbn. repeat split; intros t H; discriminate.
    + cbn. repeat split; intros v ch H; discriminate.
    + now left.
    + constructor.
  - split; [exact U|]. split; [|split].
    + cbn. repeat split; intros s H; try discriminate. now injection H as <-.
    + cbn. repeat split; intros s H; discriminate.
    + constructor.
Qed.

Definition as_dict (rs : list resource) : rdict := map (fun r => (r_uri r, r)) rs.

Lemma as_dict_wf rs : NoDup (map r_uri rs) -> wf_rl (as_dict rs).
Proof.
  intros N. split.
  - unfold as_dict. rewrite map_map. exact N.
  - intros u r I. unfold as_dict in I. apply in_map_iff in I as (x & [= <- <-] & _). reflexivity.
Qed.

Lemma Forall2_in_left {A B} (R : A -> B -> Prop) xs ys x : Forall2 R xs ys -> In x xs -> exists y, In y ys /\ R x y.
Proof. intros F. induction F as [|a b xs ys H F IH]; [intros []|]. intros [->|I]; [eexists; split; [now left|eassumption]|]. destruct (IH I) as (z & ? & ?). exists z. split; [now right|assumption]. Qed.
Lemma Forall2_in_right {A B} (R : A -> B -> Prop) xs ys y : Forall2 R xs ys -> In y ys -> exists x, In x xs /\ R x y.
Proof. intros F. induction F as [|a b xs ys H F IH]; [intros []|]. intros [->|I]; [eexists; split; [now left|eassumption]|]. destruct (IH I) as (z & ? & ?). exists z. split; [now right|assumption]. Qed.

Lemma entries_read sm caps rs rs' : NoDup (map snd caps) -> Permutation rs (map snd (capability_dict caps)) ->
  Forall2 (read_back sm) rs rs' ->
  add_seq rs_add rs' [] = Ok (as_dict rs') /\ wf_rl (as_dict rs') /\ lists_capabilities caps (as_dict rs').
Proof.
  intros N P F.
  assert (U : map r_uri rs' = map r_uri rs).
  { clear - F. induction F as [|x y xs ys H F IH]; [reflexivity|]. cbn [map]. rewrite IH. f_equal. apply H. }
  assert (N' : NoDup (map r_uri rs')).
  { rewrite U. apply (Permutation_NoDup (Permutation_sym (Permutation_map r_uri P))). unfold capability_dict.
    rewrite !map_map. exact N. }
  assert (W : wf_rl (as_dict rs')) by now apply as_dict_wf.
  split; [|split; [exact W|split]].
  - rewrite rs_add_seq; [reflexivity|exact N'].
  - intros name u I.
    assert (J : In (capability_entry name u) rs).
    { apply (Permutation_in _ (Permutation_sym P)). unfold capability_dict. rewrite map_map.
      apply (in_map (fun x => capability_entry (fst x) (snd x)) caps (name, u)). exact I. }
    destruct (Forall2_in_left _ _ _ _ F J) as (r & K & R). exists r. split; [|split; [apply R|]].
    + apply in_sget; [apply W|]. unfold as_dict. apply in_map_iff. exists r. split; [|exact K]. f_equal. apply R.
    + destruct R as (_ & _ & _ & _ & _ & _ & _ & _ & _ & _ & R & _). exact R.
  - intros u r G. apply sget_in in G. unfold as_dict in G. apply in_map_iff in G as (x & [= <- <-] & J).
    destruct (Forall2_in_right _ _ _ _ F J) as (y & K & R). apply (Permutation_in _ P) in K. unfold capability_dict in K.
    rewrite map_map in K. apply in_map_iff in K as ([name v] & <- & K). exists name. rewrite (proj1 R). exact K.
Qed.

(** ** Capability lists *)

Lemma entries_good caps rs : Forall (fun nu => legal (fst nu) /\ snd nu <> [] /\ uri_text (snd nu)) caps -> Permutation rs (map snd (capability_dict caps)) ->
  Forall good_resource rs /\ Forall legal_resource rs.
Proof.
  intros F P. assert (A : forall r, In r rs -> good_resource r /\ legal_resource r).
  { intros r I. apply (Permutation_in _ P) in I. unfold capability_dict in I. rewrite map_map in I.
    apply in_map_iff in I as ([n u] & <- & I). rewrite Forall_forall in F. destruct (F _ I) as (L & NE & U). now apply entry_good. }
  split; apply Forall_forall; intros r I; now apply A.
Qed.

Lemma empty_md : good_md [] /\ legal_atts (md_keys false) [].
Proof.
  split; [split; [constructor|split; [intros k _ []|split; [|intros k X; discriminate]]]|split; intros k; [intros []|intros s []]].
  intros k v [].
Qed.

Lemma the_links_fine links : fine_links links -> Forall good_link (the_links links) /\ Forall (legal_atts link_keys) (the_links links).
Proof. intros F. destruct links as [ln|]; [exact (F ln eq_refl)|split; constructor]. Qed.

Lemma capability_list_text e c caps links : fine_capabilities caps -> fine_links links ->
  exists text d,
    (forall f w, write_capability_list e c (Some caps) (Some f) links w = (with_fs (put_file f text (be_clock e f) (o_fs w)) w, Ok tt))
    /\ (forall w, write_capability_list e c (Some caps) None links w = (printed text w, Ok tt))
    /\ list_parse rs_add plain_settings (Some $"capabilitylist") (MkDoc [] [] []) text = Ok d
    /\ wf_rl (d_items d) /\ lists_capabilities caps (d_items d)
    /\ Forall2 (same_atts link_keys) (the_links links) (d_ln d).
Proof.
  intros FC FL. pose proof FC as (N1 & N2 & F).
  set (dd := capability_dict caps). pose proof (capability_dict_wf caps N2) as W. fold dd in W.
  set (D := MkDoc [] (the_links links) dd : doc rdict).
  pose proof (cs_iter_perm dd W) as P. destruct (entries_good caps (cs_iter dd) F P) as [G1 G2].
  assert (G : good_list cs_iter $"capabilitylist" D).
  { split; [|now left]. split; [exact empty_md|]. split; [exact (the_links_fine links FL)|]. split; assumption. }
  destruct (as_written_good cs_iter $"capabilitylist" D) as [G' Q]; [apply legal_lit; reflexivity|exact G|].
  destruct (document_text (doc_settings c) false _ G') as (text & md' & ln' & rs' & W1 & (RM & RL & RR) & R & _).
  cbn [d_md d_ln d_items] in RM, RL, RR.
  destruct (entries_read (doc_settings c) caps _ rs' N2 P RR) as (A1 & A2 & A3).
  assert (AC : add_capabilities caps [] = Ok dd) by (rewrite add_capabilities_is; [reflexivity|exact N2]).
  exists text, (MkDoc md' ln' (as_dict rs')). split; [|split; [|split; [|split; [|split]]]].
  - intros f w. unfold write_capability_list, wbind, wlift. rewrite AC. fold (the_links links). fold D. unfold write_doc.
    change (MkDoc (d_md (default_capability (Some $"capabilitylist") D)) (d_ln (default_capability (Some $"capabilitylist") D))
              (cs_iter (d_items (default_capability (Some $"capabilitylist") D)))) with (as_written cs_iter $"capabilitylist" D).
    rewrite W1. reflexivity.
  - intros w. unfold write_capability_list, wbind, wlift. rewrite AC. fold (the_links links). fold D.
    unfold print_res, wbind, wlift. unfold as_xml.
    change (MkDoc (d_md (default_capability (Some $"capabilitylist") D)) (d_ln (default_capability (Some $"capabilitylist") D))
              (cs_iter (d_items (default_capability (Some $"capabilitylist") D)))) with (as_written cs_iter $"capabilitylist" D).
    rewrite W1. reflexivity.
  - unfold list_parse. 
    rewrite (parse_xml_settings plain_settings (doc_settings c) _ _ _ _ _ eq_refl). rewrite R by auto. rewrite A1. cbn [bind].
    unfold check_capability. cbn [d_md]. destruct (RM $"capability") as [Y _]. rewrite Q in Y. cbn [present] in Y.
    assert (Y' : sget $"capability" md' = Some (PStr $"capabilitylist")) by (apply Y; cbn; auto).
    rewrite Y'. cbn [bind d_md]. rewrite Y'. unfold pv_eqb. rewrite str_eqb_refl. reflexivity.
  - exact A2.
  - exact A3.
  - exact RL.
Qed.

Lemma same_name_same (caps : list (str * str)) name u v : NoDup (map fst caps) -> In (name, u) caps -> In (name, v) caps -> u = v.
Proof. intros N I J. apply (in_sget _ _ _ N) in I. apply (in_sget _ _ _ N) in J. congruence. Qed.

Lemma capability_found caps (d : rdict) name u : NoDup (map fst caps) -> wf_rl d -> lists_capabilities caps d -> In (name, u) caps ->
  exists r, capability_info (Some name) d = Some r /\ r_uri r = u.
Proof.
  intros N W (L1 & L2) I. destruct (L1 name u I) as (r & G & E & C). exists r. split; [|exact E].
  apply capability_info_spec; [exact W|]. split; [rewrite E; now apply sget_in|]. split; [exact C|].
  intros r' I' C'. left. apply (in_sget _ _ _ (proj1 W)) in I'. destruct (L2 _ _ I') as (name' & J).
  destruct (L1 _ _ J) as (r2 & G2 & _ & C2). assert (r2 = r') by congruence. subst r2. assert (name' = name) by congruence. subst name'.
  assert (u = r_uri r') by (eapply same_name_same; eauto). congruence.
Qed.

Lemma capability_missing caps (d : rdict) name : wf_rl d -> lists_capabilities caps d -> ~ In name (map fst caps) ->
  capability_info (Some name) d = None.
Proof.
  intros W (L1 & L2) N. destruct (capability_info (Some name) d) as [r|] eqn:E; [|reflexivity]. exfalso.
  apply capability_info_spec in E as (I & C & _); [|exact W]. apply (in_sget _ _ _ (proj1 W)) in I. destruct (L2 _ _ I) as (name' & J).
  destruct (L1 _ _ J) as (r2 & G2 & _ & C2). assert (r2 = r) by congruence. subst r2. assert (name' = name) by congruence. subst name'.
  apply N. now apply (in_map fst) in J.
Qed.

Lemma capability_list_found e c caps links : fine_capabilities caps -> fine_links links ->
  exists text,
    (forall f w, write_capability_list e c (Some caps) (Some f) links w = (with_fs (put_file f text (be_clock e f) (o_fs w)) w, Ok tt))
    /\ (forall w, write_capability_list e c (Some caps) None links w = (printed text w, Ok tt))
    /\ forall fetch uri, fetch uri = Ok text ->
        (forall rl, In ($"resourcelist", rl) caps -> find_from_capability_list fetch uri = urljoin uri rl)
        /\ (~ In $"resourcelist" (map fst caps) -> find_from_capability_list fetch uri = Err ClientFatalError).
Proof.
  intros FC FL. destruct (capability_list_text e c caps links FC FL) as (text & d & W1 & W2 & P & W & L & _).
  exists text. split; [exact W1|]. split; [exact W2|]. intros fetch uri F. unfold find_from_capability_list. rewrite F. cbn [bind].
  rewrite P. cbn [wrapped bind]. split.
  - intros rl I. destruct (capability_found caps (d_items d) _ rl (proj1 FC) W L I) as (r & E & <-). rewrite E. reflexivity.
  - intros N. rewrite (capability_missing caps _ _ W L N). reflexivity.
Qed.

(** ** Source descriptions *)

Definition as_capability_lists (uris : list str) : list (str * str) := map (fun u => ($"capabilitylist", u)) uris.

Lemma add_capability_lists_is uris d : add_capability_lists uris d = add_capabilities (as_capability_lists uris) d.
Proof. revert d. induction uris as [|u us IH]; intros d; [reflexivity|]. cbn [add_capability_lists as_capability_lists map add_capabilities].
  destruct (rs_add _ d); [|reflexivity]. cbn [bind]. apply IH. Qed.

Lemma no_from sm ln (items : list resource) :
  resources_as_xml sm false (MkDoc [($"from", PNone); ($"capability", PStr $"description")] ln items)
  = resources_as_xml sm false (MkDoc [($"capability", PStr $"description")] ln items).
Proof. reflexivity. Qed.

Lemma source_description_text e c uris links : fine_uris uris -> fine_links links -> zlen uris <= 50000 ->
  exists text d,
    (forall f w, write_source_description e c (Some uris) (Some f) links w
       = (with_fs (put_file f text (be_clock e f) (o_fs w)) w, Ok tt))
    /\ (forall w, write_source_description e c (Some uris) None links w = (printed text w, Ok tt))
    /\ (forall fetch uri, fetch uri = Ok text -> exists l,
          list_read source_description_kind fetch false (new_list source_description_kind $"description" true None) uri = Ok l
          /\ l_doc l = d)
    /\ wf_rl (d_items d) /\ lists_capabilities (as_capability_lists uris) (d_items d)
    /\ Forall2 (same_atts link_keys) (the_links links) (d_ln d).
Proof.
  intros (N & F) FL Few. set (caps := as_capability_lists uris).
  assert (N2 : NoDup (map snd caps)) by (unfold caps, as_capability_lists; rewrite map_map, map_id; exact N).
  set (dd := capability_dict caps). pose proof (capability_dict_wf caps N2) as W. fold dd in W.
  set (D := MkDoc [] (the_links links) dd : doc rdict).
  assert (P : Permutation (rl_iter dd) (map snd dd)) by now apply rl_iter_perm.
  assert (F' : Forall (fun nu => legal (fst nu) /\ snd nu <> [] /\ uri_text (snd nu)) caps).
  { apply Forall_forall. intros nu I. unfold caps, as_capability_lists in I. apply in_map_iff in I as (u & <- & I).
    rewrite Forall_forall in F. destruct (F u I). split; [apply legal_lit; reflexivity|auto]. }
  destruct (entries_good caps (rl_iter dd) F' P) as [G1 G2].
  assert (G : good_list rl_iter $"description" D).
  { split; [|now left]. split; [exact empty_md|]. split; [exact (the_links_fine links FL)|]. split; assumption. }
  destruct (as_written_good rl_iter $"description" D) as [G' Q]; [apply legal_lit; reflexivity|exact G|].
  destruct (document_text (doc_settings c) false _ G') as (text & md' & ln' & rs' & W1 & (RM & RL & RR) & R & _).
  cbn [d_md d_ln d_items] in RM, RL, RR.
  destruct (entries_read (doc_settings c) caps _ rs' N2 P RR) as (A1 & A2 & A3).
  assert (AC : add_capability_lists uris [] = Ok dd).
  { rewrite add_capability_lists_is, add_capabilities_is; [reflexivity|exact N2]. }
  assert (Len : zlen (rl_iter dd) = zlen uris).
  { unfold zlen. rewrite (Permutation_length P). unfold dd, capability_dict, caps, as_capability_lists. now rewrite !map_length. }
  exists text, (MkDoc md' ln' (as_dict rs')). split; [|split; [|split; [|split; [|split]]]].
  - intros f w. unfold write_source_description, wbind, wlift. rewrite AC. fold (the_links links). unfold put_list.
    rewrite (list_write_single source_description_kind _ _ _ f (o_fs w) 50000).
    + cbn [l_sm l_index l_doc d_ln d_items]. unfold written_md. cbn [l_name l_doc default_capability].
      unfold write_doc.
      change (resources_as_xml (doc_settings c) false _) with
        (resources_as_xml (doc_settings c) false (MkDoc [($"from", PNone); ($"capability", PStr $"description")] (the_links links) (rl_iter dd))).
      rewrite no_from. change (MkDoc [($"capability", PStr $"description")] (the_links links) (rl_iter dd)) with (as_written rl_iter $"description" D).
      rewrite W1. reflexivity.
    + reflexivity.
    + change (zlen (rl_iter dd) <= Z.max 50000 1). rewrite Len. lia.
  - intros w. unfold write_source_description, wbind, wlift. rewrite AC. fold (the_links links). unfold put_list, print_res, wbind, wlift, list_as_xml.
    replace (requires_multifile source_description_kind _) with (Ok 0).
    + cbn [bind]. change (0 =? 0) with true. cbv iota. unfold as_xml.
      change (resources_as_xml _ _ _) with
        (resources_as_xml (doc_settings c) false (MkDoc [($"from", PNone); ($"capability", PStr $"description")] (the_links links) (rl_iter dd))).
      rewrite no_from. change (MkDoc [($"capability", PStr $"description")] (the_links links) (rl_iter dd)) with (as_written rl_iter $"description" D).
      rewrite W1. reflexivity.
    + symmetry. unfold requires_multifile. cbn [l_max l_doc d_items].
      change (k_iter source_description_kind dd) with (rl_iter dd). rewrite Len.
      destruct (Z.leb_spec (zlen uris) 50000); [reflexivity|lia].
  - intros fetch uri Fe. eexists. split; [|shelve]. unfold list_read. rewrite Fe. cbn [bind].
    rewrite (parse_xml_settings (l_sm (new_list source_description_kind $"description" true None)) (doc_settings c) _ _ _ _ _ eq_refl).
    change (l_doc (new_list source_description_kind $"description" true None)) with (MkDoc [] [] (@nil (str * resource))).
    rewrite R by auto. change (k_add source_description_kind) with rs_add. rewrite A1. cbn [bind].
    unfold check_capability. cbn [d_md new_list l_name]. destruct (RM $"capability") as [Y _]. rewrite Q in Y. cbn [present] in Y.
    assert (Y' : sget $"capability" md' = Some (PStr $"description")) by (apply Y; cbn; auto).
    rewrite Y'. cbn [bind d_md]. rewrite Y'. unfold pv_eqb. rewrite str_eqb_refl. cbn [bind negb]. reflexivity.
    Unshelve. reflexivity.
  - exact A2.
  - exact A3.
  - exact RL.
Qed.

Lemma description_found e c uris links : fine_uris uris -> fine_links links -> zlen uris <= 50000 ->
  exists text,
    (forall f w, write_source_description e c (Some uris) (Some f) links w
       = (with_fs (put_file f text (be_clock e f) (o_fs w)) w, Ok tt))
    /\ (forall w, write_source_description e c (Some uris) None links w = (printed text w, Ok tt))
    /\ forall fetch uri, fetch uri = Ok text ->
        (forall u, uris = [u] -> find_from_source_description fetch uri = let* u := urljoin uri u in find_from_capability_list fetch u)
        /\ (zlen uris <> 1 -> find_from_source_description fetch uri = Err ClientFatalError).
Proof.
  intros FU FL Few. destruct (source_description_text e c uris links FU FL Few) as (text & d & W1 & W2 & P & W & L & _).
  exists text. split; [exact W1|]. split; [exact W2|]. intros fetch uri F. unfold find_from_source_description.
  destruct (P fetch uri F) as (l & R & <-). rewrite R. cbn [wrapped bind].
  assert (Len : zlen (rl_iter (d_items (l_doc l))) = zlen uris).
  { unfold zlen. f_equal. rewrite (Permutation_length (rl_iter_perm _ W)), map_length.
    destruct L as (L1 & L2). apply Nat.le_antisymm.
    - rewrite <- (map_length fst). apply NoDup_incl_length; [apply W|]. intros u I. apply in_map_iff in I as ([u' r] & <- & I).
      apply (in_sget _ _ _ (proj1 W)) in I. destruct (L2 _ _ I) as (n & J). unfold as_capability_lists in J.
      apply in_map_iff in J as (x & [= <- <-] & J). exact J.
    - rewrite <- (map_length fst (d_items (l_doc l))). apply NoDup_incl_length; [apply FU|]. intros u I.
      destruct (L1 $"capabilitylist" u) as (r & G & _); [apply (in_map (fun u => ($"capabilitylist", u))); exact I|].
      apply sget_in in G. now apply (in_map fst) in G. }
  split.
  - intros u ->. destruct (rl_iter (d_items (l_doc l))) as [|r [|]] eqn:E;
      [discriminate Len| |exfalso; unfold zlen in Len; cbn [List.length] in Len; lia].
    assert (I : In r (map snd (d_items (l_doc l)))) by (apply (Permutation_in _ (rl_iter_perm _ W)); rewrite E; now left).
    apply in_map_iff in I as ([v r'] & Er & I). cbn in Er. subst r'. rewrite (proj2 W _ _ I).
    apply (in_sget _ _ _ (proj1 W)) in I. destruct (proj2 L _ _ I) as (n & J). destruct J as [[= _ <-]|[]]. reflexivity.
  - intros N. destruct (rl_iter (d_items (l_doc l))) as [|r [|]] eqn:E; try reflexivity. exfalso. apply N. rewrite <- Len. reflexivity.
Qed.

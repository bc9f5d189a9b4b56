(** * BuildScript: resync-build from its options to the documents *)

From Coq Require Import Permutation.
From Verif Require Import Py PyFacts Float64 W3C Mapper MapperSpec Resource ResourceSpec Container ContainerSpec Capability Xml XmlEnd Sitemap SitemapSpec
  Opener ListIndex ListIndexSpec Hashes Disk DiskSpec OsPath Builder BuilderSpec Dump DumpSpec Client ClientUtils StoredSpec Build
  PublishSpec PublishFacts BuildSpec BuildDocs BuildFacts BuildOut.

(** ** Links *)

Lemma link_order a user links : parse_links (a_link a) = Ok user -> a_mode a <> CapabilityListMode [] -> a_mode a <> DescriptionMode [] ->
  build_links a = Ok links -> links = links_in_order a user.
Proof.
  intros P N1 N2. unfold build_links. rewrite P. cbn [bind]. intros [= <-]. unfold links_in_order. change (map as_link) with (map (fun l : list (str * str) => map (fun kv => (fst kv, PStr (snd kv))) l)).
  f_equal. unfold role, given, up_link.
  destruct (a_describedby a) as [[|c1 u1]|], (a_sourcedescription a) as [[|c2 u2]|], (a_capabilitylist a) as [[|c3 u3]|];
    destruct (a_mode a) as [| |[|x caps]|[|x uris]| |]; try congruence; reflexivity.
Qed.

Lemma links_found a user : parse_links (a_link a) = Ok user -> exists links, build_links a = Ok links.
Proof. intros P. unfold build_links. rewrite P. cbn [bind]. eauto. Qed.

Lemma as_link_keys (l : list (str * str)) : map fst (map (fun kv => (fst kv, PStr (snd kv))) l) = map fst l.
Proof. rewrite map_map. reflexivity. Qed.

Lemma as_link_sget k (l : list (str * str)) : sget k (map (fun kv => (fst kv, PStr (snd kv))) l) = option_map PStr (sget k l).
Proof. induction l as [|[k' v] l IH]; [reflexivity|]. cbn [map sget fst snd]. destruct (str_eqb k k'); [reflexivity|exact IH]. Qed.

Lemma option_link_good l : fine_option_link l ->
  good_link (map (fun kv => (fst kv, PStr (snd kv))) l) /\ legal_atts link_keys (map (fun kv => (fst kv, PStr (snd kv))) l).
Proof.
  intros (N & R & H & F). assert (K : forall k, In k (map fst l) -> In k [$"rel"; $"href"; $"hash"; $"modified"; $"path"; $"mime_type"]).
  { intros k I. apply in_map_iff in I as ([k' v] & <- & I). apply (F k' v I). }
  assert (G : forall k, In k (map fst l) -> exists s, sget k (map (fun kv => (fst kv, PStr (snd kv))) l) = Some (PStr s)).
  { intros k I. rewrite as_link_sget. destruct (sget k l) as [s|] eqn:E; [eexists; reflexivity|]. apply sget_none in E. contradiction. }
  split; [split; [|split; [|split; [|split; [|split]]]]|split].
  - rewrite as_link_keys. exact N.
  - rewrite as_link_keys. intros I. apply K in I. cbn [In] in I. repeat destruct I as [I|I]; try discriminate; contradiction.
  - intros k v I. apply in_map_iff in I as ([k' s] & [= <- <-] & I). destruct (F k' s I) as [I' _]. cbn [fst snd].
    cbn [In] in I'. repeat destruct I' as [<-|I']; try contradiction; exists s; left; reflexivity.
  - now apply G.
  - now apply G.
  - intros n. rewrite as_link_sget. destruct (sget _ l); discriminate.
  - rewrite as_link_keys. intros k I. apply K in I. cbn [In] in I. unfold link_keys.
    repeat destruct I as [<-|I]; try contradiction; cbn; auto 10.
  - intros k s I. apply in_map_iff in I as ([k' v] & [= <- <-] & I). apply (F k' v I).
Qed.

Lemma role_fine rel o : legal rel -> fine_href o -> Forall fine_option_link (role rel o).
Proof.
  intros L F. unfold role. destruct o as [[|x u]|]; constructor; [|constructor]. split; [|split; [|split]].
  - constructor; [|constructor; [|constructor]]; cbn [map fst In]; [intros [E|[]]; discriminate|intros []].
  - now left.
  - right. now left.
  - intros k v [E|[E|[]]]; injection E as <- <-; (split; [cbn; auto|]); [exact L|now apply F].
Qed.

Lemma links_fine a user : fine_option_links a user -> fine_links (Some (links_in_order a user)).
Proof.
  intros (U & D & S & C). assert (L1 : legal $"describedby") by (apply SitemapText.legal_lit; reflexivity).
  assert (L2 : legal $"up") by (apply SitemapText.legal_lit; reflexivity).
  assert (F : Forall fine_option_link (role $"describedby" (a_describedby a)
    ++ match a_mode a with
       | CapabilityListMode _ => role $"up" (a_sourcedescription a)
       | DescriptionMode _ => []
       | _ => role $"up" (a_capabilitylist a)
       end ++ user)).
  { apply Forall_app. split; [now apply role_fine|]. apply Forall_app. split; [|exact U].
    destruct (a_mode a); try (now apply role_fine); constructor. }
  intros ln [= <-]. unfold links_in_order. split; apply Forall_map; apply (Forall_impl _ (fun l H => option_link_good l H)) in F;
    eapply Forall_impl; [|exact F| |exact F]; intros l [A B]; assumption.
Qed.

(** ** From the options to the client *)

Lemma script_runs e a hash ms user w : options_give a hash ms user -> a_mode a <> CapabilityListMode [] -> a_mode a <> DescriptionMode [] ->
  resync_build e a w =
    match (match a_mode a with
           | ResourceListMode =>
               run _ <- write_resource_list e (build_client a hash ms) (a_paths a) (a_outfile a) (Some (links_in_order a user)) false ;; wret (Some tt)
           | ResourceDumpMode =>
               run _ <- write_resource_list e (build_client a hash ms) (a_paths a) (a_outfile a) (Some (links_in_order a user)) true ;; wret (Some tt)
           | ChangeListMode => build_changes e (build_client a hash ms) a (links_in_order a user) false
           | ChangeDumpMode => build_changes e (build_client a hash ms) a (links_in_order a user) true
           | CapabilityListMode s =>
               run caps <- wlift (parse_capabilities s) ;;
               run _ <- write_capability_list e (build_client a hash ms) (Some caps) (a_outfile a) (Some (links_in_order a user)) ;; wret (Some tt)
           | DescriptionMode s =>
               run _ <- write_source_description e (build_client a hash ms) (Some (parse_capability_lists s)) (a_outfile a) (Some (links_in_order a user)) ;;
               wret (Some tt)
           end) w with
    | (w, Ok (Some _)) => (w, Done)
    | (w, Ok None) => (w, UsageError)
    | (w, Err ClientFatalError) => (w, FatalShown)
    | (w, Err x) => (w, Died x)
    end.
Proof.
  intros (H1 & H2 & H3) N1 N2. unfold resync_build. rewrite H1. unfold build_body. unfold wbind at 1, wlift at 1.
  replace (match a_map a with [] => Ok [] | maps => make_mapper maps true end) with (Ok ms).
  2:{ destruct (a_map a); [now subst ms|now rewrite H2]. }
  cbv zeta. unfold wbind at 1, wlift at 1. destruct (links_found a user H3) as (links & L). rewrite L.
  apply (link_order a user links H3 N1 N2) in L. subst links.
  destruct (a_mode a) as [| |[|x caps]|[|x uris]| |]; try congruence; reflexivity.
Qed.

(** ** Capability lists and source descriptions *)

Lemma script_capability_list e a hash ms user s caps w : options_give a hash ms user -> fine_option_links a user ->
  a_mode a = CapabilityListMode s -> s <> [] -> parse_capabilities s = Ok caps -> fine_capabilities caps ->
  exists text d, resync_build e a w = (put_document e (a_outfile a) text w, Done)
    /\ list_parse rs_add plain_settings (Some $"capabilitylist") (MkDoc [] [] []) text = Ok d
    /\ lists_capabilities caps (d_items d)
    /\ Forall2 (same_atts link_keys) (links_in_order a user) (d_ln d).
Proof.
  intros O F M NE P FC. destruct (capability_list_text e (build_client a hash ms) caps (Some (links_in_order a user)) FC (links_fine a user F))
    as (text & d & W1 & W2 & R & _ & L & K).
  exists text, d. split; [|auto]. rewrite (script_runs e a hash ms user w O) by (rewrite M; congruence). rewrite M, P.
  unfold wbind at 1, wlift at 1. unfold wbind. unfold put_document. destruct (a_outfile a) as [f|]; [rewrite W1|rewrite W2]; reflexivity.
Qed.

Lemma script_description e a hash ms user s w : options_give a hash ms user -> fine_option_links a user ->
  a_mode a = DescriptionMode s -> s <> [] -> fine_uris (parse_capability_lists s) -> zlen (parse_capability_lists s) <= 50000 ->
  exists text d, resync_build e a w = (put_document e (a_outfile a) text w, Done)
    /\ (forall fetch uri, fetch uri = Ok text -> exists l,
          list_read source_description_kind fetch false (new_list source_description_kind $"description" true None) uri = Ok l /\ l_doc l = d)
    /\ lists_capabilities (map (fun u => ($"capabilitylist", u)) (parse_capability_lists s)) (d_items d)
    /\ Forall2 (same_atts link_keys) (links_in_order a user) (d_ln d).
Proof.
  intros O F M NE FU Few. destruct (source_description_text e (build_client a hash ms) _ (Some (links_in_order a user)) FU (links_fine a user F) Few)
    as (text & d & W1 & W2 & R & _ & L & K).
  exists text, d. split; [|auto]. rewrite (script_runs e a hash ms user w O) by (rewrite M; congruence). rewrite M.
  unfold wbind. unfold put_document. destruct (a_outfile a) as [f|]; [rewrite W1|rewrite W2]; reflexivity.
Qed.

(** ** Resource lists *)

Lemma script_resource_list web e a hash ms user f w l : let c := build_client a hash ms in
  options_give a hash ms user -> fine_option_links a user -> a_mode a = ResourceListMode -> a_outfile a = Some f ->
  publishable e c (a_paths a) -> plain_path f -> scans_to e c (a_paths a) false l -> room_for c f l ->
  exists fs' l2, resync_build e a w = (with_fs fs' w, Done)
    /\ list_read resource_list_kind (open_uri fs' web) false (reading c) f = Ok l2
    /\ (forall u file n, on_disk e c (a_paths a) u file n ->
          exists r, sget u (d_items (l_doc l2)) = Some r /\ says e c false u file n r)
    /\ (forall u r, sget u (d_items (l_doc l2)) = Some r -> exists file n, on_disk e c (a_paths a) u file n)
    /\ (find_link $"index" (links_in_order a user) = None -> Forall2 (same_atts link_keys) (links_in_order a user) (d_ln (l_doc l2))).
Proof.
  intros c O F M OF Pu PP S Room. pose proof (links_fine a user F) as FL.
  destruct (write_scan web e c (a_paths a) false (Some (links_in_order a user)) f (o_fs w) l Pu FL PP S Room)
    as (fs' & l' & l2 & W & R & WF & E & K).
  exists fs', l2. destruct (scan_exactly e c (a_paths a) false l (proj1 Pu) S) as [Wl X].
  split; [|split; [exact R|split; [|split]]].
  - rewrite (script_runs e a hash ms user w O) by (rewrite M; congruence). rewrite M, OF. fold c. unfold wbind at 1.
    unfold write_resource_list, wbind, wlift. unfold scans_to in S. rewrite S. unfold put_list. rewrite W. reflexivity.
  - intros u file n D. assert (I : In (u, described (be_digests e) (bc_hashes c) true false u file n) (d_items (l_doc l))) by (apply X; eauto).
    apply (in_sget _ _ _ (proj1 Wl)) in I. specialize (E u). rewrite I in E. destruct (sget u (d_items (l_doc l2))) as [r|]; [|contradiction].
    exists r. split; [reflexivity|exact E].
  - intros u r G. specialize (E u). rewrite G in E. destruct (sget u (d_items (l_doc l))) as [r'|] eqn:G'; [|contradiction].
    apply sget_in in G'. apply X in G' as (file & n & D & _). eauto.
  - intros NI. apply (K NI).
Qed.

(** ** A change list on standard output is not a document *)

Lemma oops_tail dump : exists t, oops dump ++ [nl] = t ++ tail_d.
Proof. exists (removelast (oops dump)). destruct dump; reflexivity. Qed.

Lemma printed_changes_no_xml e a dump fs zips w' : change_mode (a_mode a) = Some dump ->
  resync_build e a (MkWritten [] fs zips) = (w', Done) -> exists x, parse_text (o_out w') = Err x.
Proof.
  intros CM R. apply (build_oops e a dump _ _ CM) in R as (t & E). cbn [o_out app] in E.
  destruct (oops_tail dump) as (t' & T). rewrite E, T. rewrite app_assoc. apply ends_in_letter.
Qed.

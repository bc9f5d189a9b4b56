(** * BuildChanges: resource lists and then change lists made by the script *)

From Verif Require Import Py PyFacts Float64 W3C Mapper MapperSpec Resource ResourceSpec Container ContainerSpec Capability Xml Sitemap SitemapSpec
  Url Opener ListIndex ListIndexSpec Hashes Disk DiskSpec OsPath Builder BuilderSpec Dump DumpSpec ClientState Client ClientUtils
  StoredSpec Build PublishSpec PublishFacts PublishChanges PublishApply BuildSpec BuildDocs BuildFacts BuildOut BuildScript.

Lemma same_client a a' f g dump hash ms : list_then_changes a a' f g dump -> build_client a' hash ms = build_client a hash ms.
Proof.
  intros (_ & _ & (_ & _ & _ & _ & E1 & E2 & E3) & (E4 & E5 & E6 & E7)). unfold build_client. now rewrite E1, E2, E3, E4, E5, E6, E7.
Qed.
Lemma same_options a a' f g dump hash ms user user' : list_then_changes a a' f g dump -> options_give a hash ms user ->
  parse_links (a_link a') = Ok user' -> options_give a' hash ms user'.
Proof. intros (_ & _ & (_ & E1 & E2 & E3 & _) & _) (H1 & H2 & _) P. split; [now rewrite E2, E3|]. split; [now rewrite E1|exact P]. Qed.

(** Both runs do what the client does. *)
Lemma list_run e a hash ms user f w w1 : options_give a hash ms user -> a_mode a = ResourceListMode -> a_outfile a = Some f ->
  write_resource_list e (build_client a hash ms) (a_paths a) (Some f) (Some (links_in_order a user)) false w = (w1, Ok tt) ->
  resync_build e a w = (w1, Done).
Proof.
  intros O M F W. rewrite (script_runs e a hash ms user w O) by (rewrite M; congruence). rewrite M, F. unfold wbind at 1. rewrite W. reflexivity.
Qed.
Lemma changes_run e a' hash ms user' f g dump w w2 : options_give a' hash ms user' -> change_mode (a_mode a') = Some dump ->
  a_outfile a' = Some g -> a_reference a' = Some f -> f <> [] -> given (a_newreference a') = None -> a_empty a' = false ->
  write_change_list e (build_client a' hash ms) (a_paths a') (Some g) (Some f) None false (Some (links_in_order a' user')) (Some dump) w = (w2, Ok tt) ->
  resync_build e a' w = (w2, Done).
Proof.
  intros O M G R NE N E W.
  assert (B : build_changes e (build_client a' hash ms) a' (links_in_order a' user') dump w = (w2, Ok (Some tt))).
  { unfold build_changes. rewrite R, E, N, G. destruct f as [|x f]; [congruence|]. cbn [given]. unfold wbind. rewrite W. reflexivity. }
  rewrite (script_runs e a' hash ms user' w O) by (destruct (a_mode a'); cbn [change_mode] in M; congruence).
  destruct (a_mode a'); try discriminate M; injection M as <-; rewrite B; reflexivity.
Qed.

Section Runs.
  Variables (e e' : benv) (a a' : build_args) (hash : option (list str)) (ms : mapper) (user user' : list (list (str * str))).
  Variables (f g : str) (dump : bool) (w : written) (l l' : ixlist rdict).
  Let c : bclient := build_client a hash ms.
  Let paths : option str := a_paths a.
  Hypotheses (Args : list_then_changes a a' f g dump) (Opts : options_give a hash ms user) (Opts' : parse_links (a_link a') = Ok user')
    (Fine : fine_option_links a user) (Fine' : fine_option_links a' user')
    (Digests : be_digests e = be_digests e')
    (Pub : publishable e c paths) (Pub' : publishable e' c paths) (Pf : plain_path f) (Pg : plain_path g)
    (Scan : scans_to e c paths false l) (Scan' : scans_to e' c paths dump l') (Room : room_for c f l).

  Lemma multifile_on : bc_multifile c = true.
  Proof. destruct Args as (_ & _ & _ & E & _). unfold c, build_client. now rewrite E. Qed.
  Lemma verbose_off : bc_verbose c = false.
  Proof. destruct Args as (_ & _ & _ & _ & _ & E & _). unfold c, build_client. now rewrite E. Qed.

  Lemma both_runs w1 w2 :
    write_resource_list e c paths (Some f) (Some (links_in_order a user)) false w = (w1, Ok tt) ->
    write_change_list e' c paths (Some g) (Some f) None false (Some (links_in_order a' user')) (Some dump) w1 = (w2, Ok tt) ->
    resync_build e a w = (w1, Done) /\ resync_build e' a' w1 = (w2, Done).
  Proof.
    intros W1 W2. pose proof (same_options _ _ _ _ _ _ _ _ _ Args Opts Opts') as O'.
    pose proof Args as ((M & F) & (M' & G & R & NE & N & E) & (P & _) & _). split.
    - now apply (list_run e a hash ms user f w w1).
    - apply (changes_run e' a' hash ms user' f g dump w1 w2); auto. rewrite (same_client a a' f g dump hash ms Args), P. exact W2.
  Qed.

  Lemma script_changes : zlen (d_items (l_doc l)) + zlen (d_items (l_doc l')) <= at_most c ->
    exists w1 w2 d, resync_build e a w = (w1, Done) /\ resync_build e' a' w1 = (w2, Done)
      /\ change_document (o_fs w2) g d
      /\ reports (be_digests e) (bc_hashes c) dump (on_disk e c paths) (on_disk e' c paths) (d_items d)
      /\ Forall2 (same_atts link_keys) (links_in_order a' user') (d_ln d).
  Proof.
    intros Few.
    destruct (changes_written e e' c paths (Some (links_in_order a user)) (Some (links_in_order a' user')) f g w l l' (Some dump)
      Digests multifile_on verbose_off Pub Pub' (links_fine a user Fine) (links_fine a' user' Fine') Pf Pg Scan Scan' Room Few)
      as (w1 & w2 & d & W1 & W2 & D & R & _ & L).
    exists w1, w2, d. destruct (both_runs w1 w2 W1 W2) as [R1 R2]. auto 6.
  Qed.

  Lemma script_nothing : be_cwd e = be_cwd e' -> be_root e = be_root e' ->
    exists w1 w2 d, resync_build e a w = (w1, Done) /\ resync_build e' a' w1 = (w2, Done)
      /\ change_document (o_fs w2) g d /\ d_items d = [].
  Proof.
    intros EC ER.
    destruct (nothing_written e e' c paths (Some (links_in_order a user)) (Some (links_in_order a' user')) f g w l l' (Some dump)
      Digests EC ER multifile_on verbose_off Pub Pub' (links_fine a user Fine) (links_fine a' user' Fine') Pf Pg Scan Scan' Room)
      as (w1 & w2 & d & W1 & W2 & D & N).
    exists w1, w2, d. destruct (both_runs w1 w2 W1 W2) as [R1 R2]. auto.
  Qed.

  Lemma script_unusable u file n : zlen (d_items (l_doc l)) + zlen (d_items (l_doc l')) <= at_most c ->
    on_disk e' c paths u file n -> none_of (on_disk e c paths) u ->
    exists w1 w2 text, resync_build e a w = (w1, Done) /\ resync_build e' a' w1 = (w2, Done)
      /\ sget g (o_fs w2) = Some text
      /\ forall E cl del uri from v v' r, c_spec_1_0 cl = false -> uri <> [] -> sitemap_uri cl uri = Ok uri ->
           e_fetch E uri = Ok (f_data text) ->
           incremental E cl del (Some uri) from v = (v', r) -> (exists x, r = Err x) /\ untouched v v'.
  Proof.
    intros Few O N.
    destruct (unusable e e' c paths (Some (links_in_order a user)) (Some (links_in_order a' user')) f g w l l' (Some dump)
      Digests multifile_on verbose_off Pub Pub' (links_fine a user Fine) (links_fine a' user' Fine') Pf Pg Scan Scan' Room Few u file n O N)
      as (w1 & w2 & t & W1 & W2 & G & X).
    exists w1, w2, t. destruct (both_runs w1 w2 W1 W2) as [R1 R2]. auto.
  Qed.
End Runs.

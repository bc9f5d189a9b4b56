(** * BuildRuns: runs of resync-build that meet the conditions *)

From Verif Require Import Py PyFacts Float64 W3C Mapper MapperSpec Resource ResourceSpec Container ContainerSpec Capability Xml Sitemap SitemapSpec SitemapText SitemapExamples
  Url Opener ListIndex ListIndexSpec ListIndexExamples Hashes Disk DiskSpec OsPath Builder BuilderSpec BuilderFacts Dump DumpSpec Client ClientUtils ClientSpec ClientExamples
  StoredSpec Build PublishSpec PublishFacts PublishChanges PublishApply PublishEx BuildSpec BuildDocs BuildFacts BuildOut BuildScript BuildChanges BuildParse BuildEx.

(** ** Options with links *)

Definition args_pub (m : mode) (outfile reference : option str) : build_args :=
  MkArgs m [$"http://s.org/r"; $"/d"] outfile None reference None (Some [$"alternate,http://s.org/x,mime_type=text/html"])
    (Some $"http://s.org/about") (Some $"http://s.org/sd.xml") (Some $"http://s.org/caps.xml") (Some [$"md5"]) false [] false None false false false.
Definition alternate : list (str * str) :=
  [($"rel", $"alternate"); ($"href", $"http://s.org/x"); ($"mime_type", $"text/html")].
Lemma pub_options m outfile reference : options_give (args_pub m outfile reference) (Some [$"md5"]) one_mapping [alternate].
Proof. split; [vm_compute; reflexivity|]. split; vm_compute; reflexivity. Qed.
Lemma pub_fine m outfile reference : fine_option_links (args_pub m outfile reference) [alternate].
Proof.
  split; [|split; [|split]]; try (intros u [= <-]; apply legal_lit; reflexivity).
  constructor; [|constructor]. split; [|split; [|split]].
  - repeat constructor; cbn [map fst In]; intros X; decompose [or] X; try contradiction; discriminate.
  - left. reflexivity.
  - right. left. reflexivity.
  - intros k v [E|[E|[E|[]]]]; injection E as <- <-; (split; [cbn; auto 10|apply legal_lit; reflexivity]).
Qed.
Lemma pub_client_is m outfile reference : build_client (args_pub m outfile reference) (Some [$"md5"]) one_mapping = pub_client.
Proof. reflexivity. Qed.
Lemma pub_order : links_in_order (args_pub ResourceListMode (Some rl_file) None) [alternate]
  = [[($"rel", PStr $"describedby"); ($"href", PStr $"http://s.org/about")];
     [($"rel", PStr $"up"); ($"href", PStr $"http://s.org/caps.xml")];
     [($"rel", PStr $"alternate"); ($"href", PStr $"http://s.org/x"); ($"mime_type", PStr $"text/html")]].
Proof. reflexivity. Qed.

(** ** A resource list, then a change list *)

Lemma two_runs : list_then_changes (args_pub ResourceListMode (Some rl_file) None) (args_pub ChangeListMode (Some cl_file) (Some rl_file)) rl_file cl_file false.
Proof. repeat split; discriminate. Qed.

Definition list_made : written := fst (resync_build (pub_env before_tree) (args_pub ResourceListMode (Some rl_file) None) pub_start).
Lemma list_made_run : resync_build (pub_env before_tree) (args_pub ResourceListMode (Some rl_file) None) pub_start = (list_made, Done).
Proof. unfold list_made. apply ran. vm_compute. reflexivity. Qed.
Definition read_from (w : written) (f : str) : list (str * option Z * option str) :=
  match list_read resource_list_kind (open_uri (o_fs w) (fun _ => Err IOError)) false (reading pub_client) f with
  | Ok l => map (fun r => (r_uri r, r_length r, r_md5 r)) (rl_iter (d_items (l_doc l)))
  | Err _ => []
  end.
Lemma list_made_says : read_from list_made rl_file
  = [($"http://s.org/r/a", Some 2, Some $"d1"); ($"http://s.org/r/same", Some 1, Some $"d1"); ($"http://s.org/r/x/old", Some 3, Some $"d1")].
Proof. vm_compute. reflexivity. Qed.
Lemma changes_made : exists w2,
  resync_build (pub_env after_tree) (args_pub ChangeListMode (Some cl_file) (Some rl_file)) list_made = (w2, Done)
  /\ changes_of w2 cl_file
     = [($"http://s.org/r/a", Some $"updated"); ($"http://s.org/r/x/old", Some $"deleted"); ($"http://s.org/r/new", Some $"created")].
Proof. apply both; vm_compute; reflexivity. Qed.
Lemma no_changes_made : exists w2,
  resync_build (pub_env before_tree) (args_pub ChangeListMode (Some cl_file) (Some rl_file)) list_made = (w2, Done)
  /\ changes_of w2 cl_file = [] /\ xml_file cl_file w2 = true.
Proof. apply both; [vm_compute; reflexivity|]. split; vm_compute; reflexivity. Qed.

(** The change list that is made is of no use. *)
Lemma made_unusable : exists w1 w2 text,
  resync_build (pub_env before_tree) (args_pub ResourceListMode (Some rl_file) None) pub_start = (w1, Done)
  /\ resync_build (pub_env after_tree) (args_pub ChangeListMode (Some cl_file) (Some rl_file)) w1 = (w2, Done)
  /\ sget cl_file (o_fs w2) = Some text
  /\ forall E cl del uri from v v' r, c_spec_1_0 cl = false -> uri <> [] -> sitemap_uri cl uri = Ok uri ->
       e_fetch E uri = Ok (f_data text) ->
       incremental E cl del (Some uri) from v = (v', r) -> (exists x, r = Err x) /\ untouched v v'.
Proof.
  destruct new_is_new as ((file & n & O) & N).
  exact (script_unusable (pub_env before_tree) (pub_env after_tree) _ _ (Some [$"md5"]) one_mapping [alternate] [alternate] rl_file cl_file false pub_start
    (listed_at before_tree false) (listed_at after_tree false)
    two_runs (pub_options _ _ _) (proj2 (proj2 (pub_options ChangeListMode (Some cl_file) (Some rl_file)))) (pub_fine _ _ _) (pub_fine _ _ _)
    eq_refl before_publishable after_publishable rl_plain cl_plain (before_scan false) (after_scan false) before_room
    $"http://s.org/r/new" file n both_few O N).
Qed.

(** ** Capability lists and source descriptions *)

Definition caps_text : str := $"resourcelist=http://s.org/rl.xml,changelist=http://s.org/cl.xml".
Definition the_caps : list (str * str) := [($"resourcelist", $"http://s.org/rl.xml"); ($"changelist", $"http://s.org/cl.xml")].
Lemma caps_parsed : parse_capabilities caps_text = Ok the_caps.
Proof. vm_compute. reflexivity. Qed.
Lemma two_nodup (a b : str) : a <> b -> NoDup [a; b].
Proof. intros H. constructor; [intros [E|[]]; congruence|]. constructor; [intros []|constructor]. Qed.
Lemma caps_fine : fine_capabilities the_caps.
Proof.
  split; [apply two_nodup; discriminate|]. split; [apply two_nodup; discriminate|].
  constructor; [|constructor; [|constructor]]; (split; [apply legal_lit; reflexivity|]; split; [discriminate|apply textb_ok; reflexivity]).
Qed.
Definition uris_text : str := $"http://s.org/caps1.xml,http://s.org/caps2.xml".
Lemma uris_parsed : parse_capability_lists uris_text = [$"http://s.org/caps1.xml"; $"http://s.org/caps2.xml"].
Proof. vm_compute. reflexivity. Qed.
Lemma uris_fine : fine_uris [$"http://s.org/caps1.xml"; $"http://s.org/caps2.xml"].
Proof.
  split; [apply two_nodup; discriminate|].
  constructor; [|constructor; [|constructor]]; (split; [discriminate|apply textb_ok; reflexivity]).
Qed.

Definition text_of (r : written * ending) (f : str) : str := match sget f (o_fs (fst r)) with Some t => f_data t | None => [] end.
Definition caps_file : str := text_of (resync_build (pub_env before_tree) (args_pub (CapabilityListMode caps_text) (Some cl_file) None) pub_start) cl_file.
Lemma caps_found : find_from_capability_list (fun _ => Ok caps_file) $"http://s.org/caps.xml" = Ok $"http://s.org/rl.xml".
Proof. vm_compute. reflexivity. Qed.
Lemma caps_order : links_in_order (args_pub (CapabilityListMode caps_text) (Some cl_file) None) [alternate]
  = [[($"rel", PStr $"describedby"); ($"href", PStr $"http://s.org/about")];
     [($"rel", PStr $"up"); ($"href", PStr $"http://s.org/sd.xml")];
     [($"rel", PStr $"alternate"); ($"href", PStr $"http://s.org/x"); ($"mime_type", PStr $"text/html")]].
Proof. reflexivity. Qed.

(** ** A document that is counted *)

Lemma counted : exists l,
  list_read change_list_kind (open_uri (o_fs unsorted_start) (be_web (pub_env bare_tree))) true (new_list change_list_kind $"changelist" true None) $"/w/cl.xml" = Ok l
  /\ zlen (d_items (l_doc l)) = 2
  /\ parse_document (pub_env bare_tree) quiet $"/w/cl.xml" unsorted_start
     = (printed $"Parsed changelist document with 2 entries" unsorted_start, Ok tt).
Proof. eexists. split; [vm_compute; reflexivity|]. split; vm_compute; reflexivity. Qed.

(** ** Other runs *)

Lemma printed_at_all :
  (exists w', write_capability_list (pub_env before_tree) pub_client (Some the_caps) None None pub_start = (w', Ok tt) /\ o_out w' <> [])
  /\ exists w', write_change_list (pub_env before_tree) pub_client None None None None true None None pub_start = (w', Ok tt) /\ o_out w' <> [].
Proof. split; (apply both; [vm_compute; reflexivity|]); vm_compute; discriminate. Qed.
Lemma usage_shown : resync_build (pub_env before_tree) (args_pub ChangeListMode (Some cl_file) None) list_made = (list_made, UsageError).
Proof. reflexivity. Qed.

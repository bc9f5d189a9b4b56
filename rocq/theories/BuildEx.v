(** * BuildEx: runs of resync-build *)

From Verif Require Import Py PyFacts Float64 W3C Mapper MapperSpec Resource ResourceSpec Container ContainerSpec Capability Xml Sitemap SitemapSpec SitemapText
  Url Opener ListIndex ListIndexSpec Hashes Disk DiskSpec OsPath Builder BuilderSpec BuilderFacts Dump DumpSpec Client ClientUtils ClientSpec ClientExamples
  StoredSpec Build PublishSpec PublishFacts PublishChanges PublishApply PublishEx BuildSpec BuildDocs BuildFacts BuildOut BuildScript BuildParse.

Definition args (m : mode) (outfile reference : option str) : build_args :=
  MkArgs m [$"http://s.org/r"; $"/d"] outfile None reference None None None None None None false [] false None false false false.
Definition args_max (m : mode) (outfile reference : option str) (no_multifile : bool) (max : Z) : build_args :=
  MkArgs m [$"http://s.org/r"; $"/d"] outfile None reference None None None None None None false [] no_multifile (Some max) false false false.
Definition args_empty (outfile : option str) : build_args :=
  MkArgs ChangeListMode [] outfile None None None None None None None None false [] false None true false false.
Definition args_links (m : mode) (outfile : option str) : build_args :=
  MkArgs m [] outfile None None None (Some [$"alternate,http://s.org/x,mime_type=text/html"]) (Some $"http://s.org/about")
    (Some $"http://s.org/sd.xml") (Some $"http://s.org/cl.xml") None false [] false None false false false.

Lemma both {A B} (r : A * B) y (P : A -> Prop) : snd r = y -> P (fst r) -> exists a, r = (a, y) /\ P a.
Proof. destruct r as [a b]. cbn. intros -> H. eauto. Qed.
Lemma ran {A B} (r : A * B) y : snd r = y -> r = (fst r, y).
Proof. destruct r. cbn. now intros ->. Qed.
(** The file is an XML document. *)
Definition xml_file (g : str) (w : written) : bool :=
  match sget g (o_fs w) with Some f => is_ok (parse_text (f_data f)) | None => false end.

(** ** Standard output *)

Lemma empty_printed : exists w', resync_build (pub_env before_tree) (args_empty None) pub_start = (w', Done)
  /\ exists t, o_out w' = t ++ oops false ++ [nl] /\ is_ok (parse_text t) = true.
Proof.
  apply both; [vm_compute; reflexivity|].
  set (w' := fst _). exists (firstn (List.length (o_out w') - List.length (oops false ++ [nl])) (o_out w')).
  split; vm_compute; reflexivity.
Qed.
Lemma empty_in_file : exists w', resync_build (pub_env before_tree) (args_empty (Some cl_file)) pub_start = (w', Done)
  /\ xml_file cl_file w' = true.
Proof. apply both; vm_compute; reflexivity. Qed.

(** ** Dumps *)

Definition dump_start : written :=
  MkWritten [] [($"/d/a", MkFile $"A1" day); ($"/d/same", MkFile $"S" (day - 7 * SEC)); ($"/d/x/old", MkFile $"OLD" (day - SEC))] [].
Lemma dump_elsewhere : exists w', resync_build (pub_env before_tree) (args ResourceDumpMode (Some $"/w/dump.zip") None) dump_start = (w', Done)
  /\ map fst (o_zips w') = [$"/w/dump.zip00000.zip"] /\ sget $"/w/dump.zip" (o_fs w') = None.
Proof. apply both; [vm_compute; reflexivity|]. split; vm_compute; reflexivity. Qed.

Definition listed_before : written := fst (resync_build (pub_env before_tree) (args ResourceListMode (Some rl_file) None) pub_start).
Lemma listed_before_run : resync_build (pub_env before_tree) (args ResourceListMode (Some rl_file) None) pub_start = (listed_before, Done).
Proof. unfold listed_before. apply ran. vm_compute. reflexivity. Qed.
Lemma no_change_dump : exists w', resync_build (pub_env after_tree) (args ChangeDumpMode (Some $"/w/cd.zip") (Some rl_file)) listed_before = (w', Done)
  /\ o_zips w' = [] /\ xml_file $"/w/cd.zip" w' = true.
Proof. apply both; [vm_compute; reflexivity|]. split; vm_compute; reflexivity. Qed.

(** ** A reference in several parts *)

Definition indexed : written := fst (resync_build (pub_env before_tree) (args_max ResourceListMode (Some $"/d/rl.xml") None false 2) pub_start).
Lemma indexed_run : resync_build (pub_env before_tree) (args_max ResourceListMode (Some $"/d/rl.xml") None false 2) pub_start = (indexed, Done).
Proof. unfold indexed. apply ran. vm_compute. reflexivity. Qed.
Definition changes_of (w : written) (g : str) : list (str * option str) :=
  match list_read change_list_kind (open_uri (o_fs w) (fun _ => Err IOError)) false reading_changes g with
  | Ok l => map (fun r => (r_uri r, r_change r)) (d_items (l_doc l))
  | Err _ => []
  end.
Lemma parts_taken_for_resources : exists w1 w2,
  resync_build (pub_env before_tree) (args_max ResourceListMode (Some $"/d/rl.xml") None false 2) pub_start = (w1, Done)
  /\ resync_build (pub_env before_tree) (args_max ChangeListMode (Some $"/d/cl.xml") (Some $"/d/rl.xml") true 10) w1 = (w2, Done)
  /\ changes_of w2 $"/d/cl.xml"
     = [($"http://s.org/r/rl00000.xml", Some $"deleted"); ($"http://s.org/r/rl00001.xml", Some $"deleted");
        ($"http://s.org/r/a", Some $"created"); ($"http://s.org/r/same", Some $"created"); ($"http://s.org/r/x/old", Some $"created")].
Proof.
  exists indexed. destruct (both (resync_build (pub_env before_tree) (args_max ChangeListMode (Some $"/d/cl.xml") (Some $"/d/rl.xml") true 10) indexed) Done
    (fun w2 => changes_of w2 $"/d/cl.xml"
     = [($"http://s.org/r/rl00000.xml", Some $"deleted"); ($"http://s.org/r/rl00001.xml", Some $"deleted");
        ($"http://s.org/r/a", Some $"created"); ($"http://s.org/r/same", Some $"created"); ($"http://s.org/r/x/old", Some $"created")]))
    as (w2 & E2 & C); [vm_compute; reflexivity|vm_compute; reflexivity|]. exists w2. split; [exact indexed_run|]. split; [exact E2|exact C].
Qed.
Lemma parts_followed : exists w2,
  resync_build (pub_env before_tree) (args_max ChangeListMode (Some $"/d/cl.xml") (Some $"/d/rl.xml") false 10) indexed = (w2, Done)
  /\ changes_of w2 $"/d/cl.xml" = [].
Proof. apply both; vm_compute; reflexivity. Qed.

(** ** Too long for standard output *)

Definition bare_tree : node := Dir [($"d", Dir [])].
Definition listed_bare : written := fst (resync_build (pub_env bare_tree) (args ResourceListMode (Some rl_file) None) pub_start).
Lemma listed_bare_run : resync_build (pub_env bare_tree) (args ResourceListMode (Some rl_file) None) pub_start = (listed_bare, Done).
Proof. unfold listed_bare. apply ran. vm_compute. reflexivity. Qed.
Lemma long_change_list : exists w1 w2,
  resync_build (pub_env bare_tree) (args ResourceListMode (Some rl_file) None) pub_start = (w1, Done)
  /\ resync_build (pub_env before_tree) (args_max ChangeListMode None (Some rl_file) false 2) w1 = (w2, Died ListBaseIndexError).
Proof.
  exists listed_bare. destruct (both (resync_build (pub_env before_tree) (args_max ChangeListMode None (Some rl_file) false 2) listed_bare) (Died ListBaseIndexError) (fun _ => True))
    as (w2 & E2 & _); [vm_compute; reflexivity|trivial|]. exists w2. split; [exact listed_bare_run|exact E2].
Qed.
Lemma long_resource_list : resync_build (pub_env before_tree) (args_max ResourceListMode None None false 2) pub_start = (pub_start, FatalShown).
Proof. vm_compute. reflexivity. Qed.

(** ** Documents that are shown *)

Definition unsorted : str := list_text $"changelist"
  [entry $"http://s.org/b" $"2001-01-01T00:00:00Z" $"change='created'"; entry $"http://s.org/a" $"2001-01-01T00:00:00Z" $"change='created'"].
Definition chatty : bclient := MkBClient [] [] [] true (Some 1) true None true.
Definition quiet : bclient := MkBClient [] [] [] true None true None false.
Definition unsorted_start : written := MkWritten [] [($"/w/cl.xml", MkFile unsorted day)] [].
Lemma shown_unsorted : parse_document (pub_env bare_tree) chatty $"/w/cl.xml" unsorted_start
  = (MkWritten ($"Parsed changelist document with 2 entries" ++ [nl] ++ $"Showing first 1 entries sorted by URI..." ++ [nl]
       ++ $"[0] [ http://s.org/b | 2001-01-01T00:00:00Z | None | None | created ]" ++ [nl]) (o_fs unsorted_start) [], Ok tt).
Proof. vm_compute. reflexivity. Qed.

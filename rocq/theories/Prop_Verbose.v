(** * C134: --verbose and what is written *)

From Verif Require Import Py Resource Container Xml Sitemap Opener ListIndex Hashes Disk Builder Client ClientExamples Build PublishEx BuildEx
  VerboseSpec VerboseFacts VerboseEnd.

(** resync-build with --verbose does what it does without it, but for what is shown.  This is false: it dies
    of a time that is read from a list and is past the year 9999, as it is read, when it is to be shown. *)
Definition late_start : written := MkWritten [] [($"/w/rl.xml", MkFile (list_text $"resourcelist"
  [entry $"http://s.org/a" $"9999-12-31T23:59:59+01:00" []]) day)] [].
Definition late_args : build_args :=
  MkArgs ChangeListMode [] (Some $"/w/cl.xml") None (Some $"/w/rl.xml") (Some $"/w/rl.xml") None None None None None false [] false None false false true.
Definition late_made : written := Eval vm_compute in fst (resync_build (pub_env bare_tree) (without_verbose late_args) late_start).
Theorem C134_refuted : resync_build (pub_env bare_tree) late_args late_start = (late_start, Died ValueError)
  /\ resync_build (pub_env bare_tree) (without_verbose late_args) late_start = (late_made, Done)
  /\ sget $"/w/cl.xml" (o_fs late_made) <> None.
Proof. split; [vm_compute; reflexivity|]. split; [vm_compute; reflexivity|]. vm_compute. discriminate. Qed.
Print Assumptions C134_refuted.

(** What is done with it is done without it: the same files and archives are written. *)
Theorem C134_same_files : forall e a w w', resync_build e a w = (w', Done) ->
  exists w'', resync_build e (without_verbose a) w = (w'', Done) /\ same_files w' w''.
Proof. exact same_without. Qed.
Print Assumptions C134_same_files.
Definition early_start : written := MkWritten [] [($"/w/rl.xml", MkFile (list_text $"resourcelist"
  [entry $"http://s.org/a" $"2001-01-01T00:00:00Z" []]) day)] [].
Definition early_made : written := Eval vm_compute in fst (resync_build (pub_env bare_tree) late_args early_start).
Lemma early_run : resync_build (pub_env bare_tree) late_args early_start = (early_made, Done).
Proof. vm_compute. reflexivity. Qed.
Example C134_case : resync_build (pub_env bare_tree) late_args early_start = (early_made, Done)
  /\ sget $"/w/cl.xml" (o_fs early_made) <> None /\ o_out early_made <> o_out (fst (resync_build (pub_env bare_tree) (without_verbose late_args) early_start)).
Proof. split; [exact early_run|]. split; vm_compute; discriminate. Qed.

(** However it ends, it ends so with and without --verbose, with the same files and archives; or else it dies
    of a time that cannot be shown, before anything is written. *)
Theorem C134_same_or_died : forall e a w w1 end1 w2 end2,
  resync_build e a w = (w1, end1) -> resync_build e (without_verbose a) w = (w2, end2) ->
  (end1 = end2 /\ same_files w1 w2) \/ (end1 = Died ValueError /\ same_files w1 w).
Proof. exact same_or_died. Qed.
Print Assumptions C134_same_or_died.
(** A run that ends alike with a usage error, and one that does not end alike. *)
Definition usage_args : build_args :=
  MkArgs ChangeListMode [] (Some $"/w/cl.xml") None None None None None None None None false [] false None false false true.
Example C134_endings : resync_build (pub_env bare_tree) usage_args early_start = (early_start, UsageError)
  /\ resync_build (pub_env bare_tree) (without_verbose usage_args) early_start = (early_start, UsageError)
  /\ snd (resync_build (pub_env bare_tree) late_args late_start) = Died ValueError
  /\ snd (resync_build (pub_env bare_tree) (without_verbose late_args) late_start) = Done.
Proof. split; [|split; [|split]]; vm_compute; reflexivity. Qed.

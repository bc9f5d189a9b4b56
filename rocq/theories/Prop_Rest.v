(** * Prop_Rest: properties of command lines with -- *)

From Verif Require Import Py Opener ListIndex Client Build Sync Args ArgsSpec ArgsMain ArgsEx ArgsRest.

(** C131: what follows -- on a command line is a mapping argument, whatever it looks like (ws is any
    list of words, with words that are names of options, further -- and empty ones), and the options
    before it mean what they mean without it. *)
Theorem C131_sync : forall float_of E w us ms ws m, sync_line us [] ms ->
  acceptable float_of sync_ints [$"--delay"] versions us -> one_mode sync_mode_of us m ->
  sync_command float_of E (typed_all us ++ ms ++ $"--" :: ws) w = resync_sync E (sync_meaning float_of m us (ms ++ ws)) w.
Proof. exact sync_rest. Qed.
Print Assumptions C131_sync.
Theorem C131_build : forall float_of e w us ms ws m, build_line us [] ms ->
  acceptable float_of build_ints [] versions us -> one_mode write_mode_of us m ->
  build_command float_of e (typed_all us ++ ms ++ $"--" :: ws) w = resync_build e (build_meaning m us (ms ++ ws)) w.
Proof. exact build_rest_read. Qed.
Print Assumptions C131_build.
(** Nor can words after -- make up for what is wrong before it: with no mode, two modes or a value of a
    wrong type there the command line is refused and nothing changes. *)
Theorem C131_sync_refused : forall float_of E w us ms ws, sync_line us [] ms ->
  ~ (acceptable float_of sync_ints [$"--delay"] versions us /\ exists m, one_mode sync_mode_of us m) ->
  sync_command float_of E (typed_all us ++ ms ++ $"--" :: ws) w = (w, [], UsageError).
Proof. exact sync_rest_refused. Qed.
Print Assumptions C131_sync_refused.
Theorem C131_build_refused : forall float_of e w us ms ws, build_line us [] ms ->
  ~ (acceptable float_of build_ints [] versions us /\ exists m, one_mode write_mode_of us m) ->
  build_command float_of e (typed_all us ++ ms ++ $"--" :: ws) w = (w, UsageError).
Proof. exact build_rest_refused. Qed.
Print Assumptions C131_build_refused.

(** -bv --tries 5 -t3 --hash=md5 --delete http://h/a -- -dir --audit -- *)
Example C131_sync_case : sync_line (some_uses ++ more_uses) [] [$"http://h/a"]
  /\ acceptable (fun _ => None) sync_ints [$"--delay"] versions (some_uses ++ more_uses)
  /\ one_mode sync_mode_of (some_uses ++ more_uses) Baseline
  /\ forall float_of E w,
    sync_command float_of E [$"-bv"; $"--tries"; $"5"; $"-t3"; $"--hash=md5"; $"--delete"; $"http://h/a"; $"--"; $"-dir"; $"--audit"; $"--"] w =
    resync_sync E (MkSync Baseline [$"http://h/a"; $"-dir"; $"--audit"; $"--"] None None None None (Some [$"md5"]) false None None None
      false false false true false false None (Some 3) false true) w.
Proof.
  assert (sync_line (some_uses ++ more_uses) [] [$"http://h/a"]) as L.
  { destruct some_line as [A B]. split; [now rewrite app_nil_r|]. intros m [<-|[]]. apply B. now left. }
  refine (conj L (conj (some_acceptable _) (conj some_mode_said _))). intros float_of E w.
  exact (C131_sync float_of E w _ _ [$"-dir"; $"--audit"; $"--"] Baseline L (some_acceptable float_of) some_mode_said).
Qed.
Example C131_build_case : build_line (build_uses ++ build_rest) [] [$"/a"]
  /\ acceptable (fun _ => None) build_ints [] versions (build_uses ++ build_rest) /\ one_mode write_mode_of (build_uses ++ build_rest) WriteResourceList.
Proof.
  destruct some_build_line as [A B].
  refine (conj (conj _ B) (conj (some_build_acceptable _) some_build_mode)). now rewrite app_nil_r.
Qed.
(** -n -- --baseline has no mode. *)
Example C131_sync_refused_case : forall float_of E w, sync_command float_of E [$"-n"; $"--"; $"--baseline"] w = (w, [], UsageError).
Proof. reflexivity. Qed.
Example C131_build_refused_case : forall float_of e w, build_command float_of e [$"-v"; $"--"; $"-d"] w = (w, UsageError).
Proof. reflexivity. Qed.

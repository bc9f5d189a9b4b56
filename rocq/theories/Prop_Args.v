(** * Prop_Args: properties of the command lines of the three scripts *)

From Verif Require Import Py Opener ListIndex Client Build Sync Explorer ExplorerMain Args ArgsSpec ArgsLaws ArgsMain ArgsEx.

(** C124: a script goes by what is said on its command line: the options can be in any order,
    before and after the mapping arguments, in any of their spellings. *)
Theorem C124_sync : forall float_of E w us1 ms us2 m, sync_line us1 us2 ms ->
  acceptable float_of sync_ints [$"--delay"] versions (us1 ++ us2) -> one_mode sync_mode_of (us1 ++ us2) m ->
  sync_command float_of E (typed_all us1 ++ ms ++ typed_all us2) w = resync_sync E (sync_meaning float_of m (us1 ++ us2) ms) w.
Proof. exact sync_read. Qed.
Print Assumptions C124_sync.
Example C124_sync_case : sync_line some_uses more_uses some_maps
  /\ acceptable (fun _ => None) sync_ints [$"--delay"] versions (some_uses ++ more_uses) /\ one_mode sync_mode_of (some_uses ++ more_uses) Baseline
  /\ forall float_of E w,
    sync_command float_of E [$"-bv"; $"--tries"; $"5"; $"http://h/a"; $"/b"; $"-t3"; $"--hash=md5"; $"--delete"] w =
    resync_sync E (MkSync Baseline [$"http://h/a"; $"/b"] None None None None (Some [$"md5"]) false None None None false false false
      true false false None (Some 3) false true) w.
Proof. exact (conj some_line (conj (some_acceptable _) (conj some_mode_said some_read))). Qed.

Theorem C124_build : forall float_of e w us1 ms us2 m, build_line us1 us2 ms ->
  acceptable float_of build_ints [] versions (us1 ++ us2) -> one_mode write_mode_of (us1 ++ us2) m ->
  build_command float_of e (typed_all us1 ++ ms ++ typed_all us2) w = resync_build e (build_meaning m (us1 ++ us2) ms) w.
Proof. exact build_read. Qed.
Print Assumptions C124_build.
Example C124_build_case : build_line build_uses build_rest [$"/a"]
  /\ acceptable (fun _ => None) build_ints [] versions (build_uses ++ build_rest) /\ one_mode write_mode_of (build_uses ++ build_rest) WriteResourceList
  /\ typed_all build_uses ++ [$"/a"] ++ typed_all build_rest = [$"--write-resourcelist"; $"-v"; $"/a"; $"--outfile=f"].
Proof. exact (conj some_build_line (conj (some_build_acceptable _) (conj some_build_mode eq_refl))). Qed.

Theorem C124_explorer : forall float_of e inputs us, (forall u, In u us -> good explorer_flags explorer_values u) ->
  acceptable float_of build_ints [$"--delay"] versions us ->
  explorer_command float_of e (typed_all us) inputs = resync_explorer e (explorer_meaning float_of us) inputs.
Proof. exact explorer_read. Qed.
Print Assumptions C124_explorer.
Example C124_explorer_case : (forall u, In u explorer_uses -> good explorer_flags explorer_values u)
  /\ acceptable (fun _ => None) build_ints [$"--delay"] versions explorer_uses
  /\ typed_all explorer_uses = [$"--sitemap"; $"http://h/s"; $"--noauth"].
Proof. exact (conj some_explorer_line (conj (some_explorer_acceptable _) eq_refl)). Qed.

(** Two command lines that say the same do the same. *)
Theorem C124_same : forall float_of E w us1 ms us2 us1' us2',
  sync_line us1 us2 ms -> sync_line us1' us2' ms -> say_the_same sync_groups (us1 ++ us2) (us1' ++ us2') ->
  sync_command float_of E (typed_all us1 ++ ms ++ typed_all us2) w = sync_command float_of E (typed_all us1' ++ ms ++ typed_all us2') w.
Proof. exact sync_same. Qed.
Print Assumptions C124_same.
Example C124_same_case : sync_line some_uses more_uses some_maps /\ sync_line other_uses further_uses some_maps
  /\ say_the_same sync_groups (some_uses ++ more_uses) (other_uses ++ further_uses)
  /\ typed_all some_uses ++ some_maps ++ typed_all more_uses =
     [$"-bv"; $"--tries"; $"5"; $"http://h/a"; $"/b"; $"-t3"; $"--hash=md5"; $"--delete"]
  /\ typed_all other_uses ++ some_maps ++ typed_all further_uses =
     [$"--delete"; $"--hash"; $"md5"; $"http://h/a"; $"/b"; $"-v"; $"--tries"; $"5"; $"--baseline"; $"--verbose"; $"--tries=3"].
Proof. exact (conj some_line (conj other_line (conj other_same (conj eq_refl eq_refl)))). Qed.

(** C125: an abbreviation that fits one option only is not always taken for it: if the option
    has two names that begin like this, the command line is refused. *)
Theorem C125_refuted : exists p n g, In g sync_groups /\ In n g /\
  startswith $"--" p = true /\ startswith p n = true /\ (forall n', In n' (all_names sync_flags sync_values) -> startswith p n' = true -> In n' g) /\
  forall float_of E w,
    sync_command float_of E [$"-i"; p; $"http://h/c"] w = (w, [], UsageError) /\
    sync_command float_of E [$"-i"; n; $"http://h/c"] w =
      resync_sync E (sync_meaning float_of Incremental [UFlag $"-i"; UNext n $"http://h/c"] []) w.
Proof. exact one_option_two_names. Qed.
Print Assumptions C125_refuted.
(** If it fits one name only, it can stand for the name, wherever the name can stand. *)
Theorem C125_sync : forall float_of E w pre p n post, ~ In $"--" pre -> abbreviates (all_names sync_flags sync_values) p n ->
  sync_command float_of E (pre ++ p :: post) w = sync_command float_of E (pre ++ n :: post) w /\
  forall v, sync_command float_of E (pre ++ (p ++ "="%char :: v) :: post) w = sync_command float_of E (pre ++ (n ++ "="%char :: v) :: post) w.
Proof. exact sync_abbreviated. Qed.
Print Assumptions C125_sync.
Example C125_sync_case : abbreviates (all_names sync_flags sync_values) $"--bas" $"--baseline".
Proof. exact some_abbreviation. Qed.
Theorem C125_build : forall float_of e w pre p n post, ~ In $"--" pre -> abbreviates (all_names build_flags build_values) p n ->
  build_command float_of e (pre ++ p :: post) w = build_command float_of e (pre ++ n :: post) w /\
  forall v, build_command float_of e (pre ++ (p ++ "="%char :: v) :: post) w = build_command float_of e (pre ++ (n ++ "="%char :: v) :: post) w.
Proof. exact build_abbreviated. Qed.
Print Assumptions C125_build.
Example C125_build_case : abbreviates (all_names build_flags build_values) $"--outf" $"--outfile".
Proof. exact some_build_abbreviation. Qed.
Theorem C125_explorer : forall float_of e inputs pre p n post, ~ In $"--" pre -> abbreviates (all_names explorer_flags explorer_values) p n ->
  explorer_command float_of e (pre ++ p :: post) inputs = explorer_command float_of e (pre ++ n :: post) inputs /\
  forall v, explorer_command float_of e (pre ++ (p ++ "="%char :: v) :: post) inputs =
            explorer_command float_of e (pre ++ (n ++ "="%char :: v) :: post) inputs.
Proof. exact explorer_abbreviated. Qed.
Print Assumptions C125_explorer.
Example C125_explorer_case : abbreviates (all_names explorer_flags explorer_values) $"--site" $"--sitemap".
Proof. exact some_explorer_abbreviation. Qed.
(** If it fits two names, the command line is refused. *)
Theorem C125_ambiguous :
  (forall float_of E w pre p post, ~ In $"--" pre -> ambiguous (all_names sync_flags sync_values) p ->
    sync_command float_of E (pre ++ p :: post) w = (w, [], UsageError)) /\
  (forall float_of e w pre p post, ~ In $"--" pre -> ambiguous (all_names build_flags build_values) p ->
    build_command float_of e (pre ++ p :: post) w = (w, UsageError)) /\
  (forall float_of e inputs pre p post, ~ In $"--" pre -> ambiguous (all_names explorer_flags explorer_values) p ->
    explorer_command float_of e (pre ++ p :: post) inputs = ([], UsageError)).
Proof. exact (conj sync_ambiguous (conj build_ambiguous explorer_ambiguous)). Qed.
Print Assumptions C125_ambiguous.
Example C125_ambiguous_case : ambiguous (all_names sync_flags sync_values) $"--del".
Proof. exact some_ambiguous. Qed.

(** C126: the mapping arguments cannot stand anywhere among the options. *)
Theorem C126_refuted : forall float_of E w,
  sync_command float_of E [$"-b"; $"http://h/a"; $"-v"; $"/b"] w = (w, [], UsageError) /\
  sync_command float_of E [$"-b"; $"-v"; $"http://h/a"; $"/b"] w =
    resync_sync E (sync_meaning float_of Baseline [UFlag $"-b"; UFlag $"-v"] [$"http://h/a"; $"/b"]) w.
Proof. exact arguments_in_two_places. Qed.
Print Assumptions C126_refuted.
(** Wherever there are options between them, the command line is refused; in one place
    they are read (C124_sync and C124_build). *)
Theorem C126_sync : forall float_of E w us1 ms us2 ms' us3,
  (forall u, In u (us1 ++ us2 ++ us3) -> good sync_flags sync_values u) -> (forall m, In m (ms ++ ms') -> plain m) ->
  ms <> [] -> us2 <> [] -> ms' <> [] ->
  sync_command float_of E (typed_all us1 ++ ms ++ typed_all us2 ++ ms' ++ typed_all us3) w = (w, [], UsageError).
Proof. exact sync_split. Qed.
Print Assumptions C126_sync.
Theorem C126_build : forall float_of e w us1 ms us2 ms' us3,
  (forall u, In u (us1 ++ us2 ++ us3) -> good build_flags build_values u) -> (forall m, In m (ms ++ ms') -> plain m) ->
  ms <> [] -> us2 <> [] -> ms' <> [] ->
  build_command float_of e (typed_all us1 ++ ms ++ typed_all us2 ++ ms' ++ typed_all us3) w = (w, UsageError).
Proof. exact build_split. Qed.
Print Assumptions C126_build.
Example C126_build_case : forall float_of e w,
  build_command float_of e [$"http://h/a"; $"--write-resourcelist"; $"/b"] w = (w, UsageError).
Proof. exact build_arguments_in_two_places. Qed.

(** C127: a command line without a mode, with two modes or with a value that is not of its type is
    refused, with exit status 2, and nothing is changed and nothing requested. *)
Theorem C127_sync : forall float_of E w us1 ms us2, sync_line us1 us2 ms ->
  ~ (acceptable float_of sync_ints [$"--delay"] versions (us1 ++ us2) /\ exists m, one_mode sync_mode_of (us1 ++ us2) m) ->
  sync_command float_of E (typed_all us1 ++ ms ++ typed_all us2) w = (w, [], UsageError) /\ exit_status UsageError = 2.
Proof. exact (fun F E w us1 ms us2 L B => conj (sync_refused F E w us1 ms us2 L B) eq_refl). Qed.
Print Assumptions C127_sync.
Example C127_sync_case : sync_line [UFlags $"bi"] [] [] /\
  ~ (acceptable (fun _ => None) sync_ints [$"--delay"] versions ([UFlags $"bi"] ++ []) /\ exists m, one_mode sync_mode_of ([UFlags $"bi"] ++ []) m).
Proof. exact two_modes_refused. Qed.
Theorem C127_build : forall float_of e w us1 ms us2, build_line us1 us2 ms ->
  ~ (acceptable float_of build_ints [] versions (us1 ++ us2) /\ exists m, one_mode write_mode_of (us1 ++ us2) m) ->
  build_command float_of e (typed_all us1 ++ ms ++ typed_all us2) w = (w, UsageError) /\ exit_status UsageError = 2.
Proof. exact (fun F e w us1 ms us2 L B => conj (build_refused F e w us1 ms us2 L B) eq_refl). Qed.
Print Assumptions C127_build.
Example C127_build_case : build_line [UFlag $"-d"; UNext $"--max-sitemap-entries" $"many"] [] [] /\
  ~ (acceptable (fun _ => None) build_ints [] versions ([UFlag $"-d"; UNext $"--max-sitemap-entries" $"many"] ++ []) /\
     exists m, one_mode write_mode_of ([UFlag $"-d"; UNext $"--max-sitemap-entries" $"many"] ++ []) m).
Proof. exact bad_number_refused. Qed.
Theorem C127_explorer : forall float_of e inputs us, (forall u, In u us -> good explorer_flags explorer_values u) ->
  ~ acceptable float_of build_ints [$"--delay"] versions us ->
  explorer_command float_of e (typed_all us) inputs = ([], UsageError) /\ exit_status UsageError = 2.
Proof. exact (fun F e i us G B => conj (explorer_refused F e i us G B) eq_refl). Qed.
Print Assumptions C127_explorer.
Example C127_explorer_case : (forall u, In u [UEq $"--spec-version" $"2"] -> good explorer_flags explorer_values u) /\
  ~ acceptable (fun _ => None) build_ints [$"--delay"] versions [UEq $"--spec-version" $"2"].
Proof. exact bad_version_refused. Qed.
(** An unknown option is refused too, unless help was asked for before it was noticed; nothing is
    changed in either case. *)
Theorem C127_unknown :
  (forall float_of E w pre s post, ~ In $"--" pre -> unknown_option (all_names sync_flags sync_values) s ->
    sync_command float_of E (pre ++ s :: post) w = (w, [], UsageError) \/
    (sync_command float_of E (pre ++ s :: post) w = (w, [], Build.Done) /\ parse_args float_of sync_cli (pre ++ s :: post) = Helped)) /\
  (forall float_of e w pre s post, ~ In $"--" pre -> unknown_option (all_names build_flags build_values) s ->
    build_command float_of e (pre ++ s :: post) w = (w, UsageError) \/
    (build_command float_of e (pre ++ s :: post) w = (w, Build.Done) /\ parse_args float_of build_cli (pre ++ s :: post) = Helped)) /\
  (forall float_of e inputs pre s post, ~ In $"--" pre -> unknown_option (all_names explorer_flags explorer_values) s ->
    explorer_command float_of e (pre ++ s :: post) inputs = ([], UsageError) \/
    (explorer_command float_of e (pre ++ s :: post) inputs = ([], Build.Done) /\ parse_args float_of explorer_cli (pre ++ s :: post) = Helped)).
Proof. exact (conj sync_unknown (conj build_unknown explorer_unknown)). Qed.
Print Assumptions C127_unknown.
Example C127_unknown_case : unknown_option (all_names sync_flags sync_values) $"--deleted".
Proof. exact some_unknown. Qed.

(** * ArgsSpec: what is meant by a command line

    Independent of how command lines are read (Args.v); only [sync_args], [build_args] and
    [explorer_args], what the scripts go by, are taken from the model. *)

From Verif Require Import Py Build Sync ExplorerMain.

(** One use of an option as it is typed: --delete, -bvn, --tries 5, --tries=5 or -t5. *)
Inductive use : Type :=
| UFlag (name : str)
| UFlags (letters : str)
| UNext (name v : str)
| UEq (name v : str)
| UGlued (letter : ascii) (v : str).

Definition dash (c : ascii) : str := ["-"%char; c].

(** The words typed. *)
Definition typed (u : use) : list str :=
  match u with
  | UFlag n => [n]
  | UFlags l => ["-"%char :: l]
  | UNext n v => [n; v]
  | UEq n v => [n ++ "="%char :: v]
  | UGlued c v => [dash c ++ v]
  end.
Definition typed_all (us : list use) : list str := flat_map typed us.

(** What is said by it: names of options, with their values. *)
Definition said (u : use) : list (str * option str) :=
  match u with
  | UFlag n => [(n, None)]
  | UFlags l => map (fun c => (dash c, None)) l
  | UNext n v | UEq n v => [(n, Some v)]
  | UGlued c v => [(dash c, Some v)]
  end.
Definition said_all (us : list use) : list (str * option str) := flat_map said us.

(** A word that cannot be taken for an option: it does not start with a dash, is a single dash,
    or is a negative integer. *)
Definition plain (s : str) : Prop :=
  match s with
  | c :: d :: r => c <> "-"%char \/ forallb is_digit (d :: r) = true
  | _ => True
  end.

(** Uses of options with the names [flags], without value, and [values], with value. *)
Definition good (flags values : list str) (u : use) : Prop :=
  match u with
  | UFlag n => In n flags
  | UFlags l => l <> [] /\ forall c, In c l -> In (dash c) flags
  | UNext n v => In n values /\ plain v
  | UEq n v => In n values
  | UGlued c v => In (dash c) values /\ v <> [] /\ hd_error v <> Some "="%char
  end.

(** Is one of the names said?  The values said with them, in order; the last one; all of them,
    if any. *)
Definition is_said (names : list str) (us : list use) : bool :=
  existsb (fun nv => in_strs (fst nv) names) (said_all us).
Definition values_said (names : list str) (us : list use) : list str :=
  flat_map (fun nv => if in_strs (fst nv) names then match snd nv with Some v => [v] | None => [] end else []) (said_all us).
Definition last_said (names : list str) (us : list use) : option str := last (map Some (values_said names us)) None.
Definition all_said (names : list str) (us : list use) : option (list str) :=
  match values_said names us with [] => None | l => Some l end.
Definition last_int_said (names : list str) (us : list use) : option Z :=
  match last_said names us with Some v => parse_int v | None => None end.

(** The values are of the types that their options ask for. *)
Definition acceptable (float_of : str -> option Z) (ints floats versions : list str) (us : list use) : Prop :=
  forall n v, In (n, Some v) (said_all us) ->
    (In n ints -> parse_int v <> None) /\
    (In n floats -> float_of v <> None) /\
    (In n versions -> v = $"1.0" \/ v = $"1.1").

(** The modes said, in order, when [mode_of] tells the mode of a name. *)
Definition modes_said {M} (mode_of : str -> option M) (us : list use) : list M :=
  flat_map (fun nv => match mode_of (fst nv) with Some m => [m] | None => [] end) (said_all us).
(** At least one, and all the same. *)
Definition one_mode {M} (mode_of : str -> option M) (us : list use) (m : M) : Prop :=
  In m (modes_said mode_of us) /\ forall m', In m' (modes_said mode_of us) -> m' = m.

(** ** The options of the scripts, from their documentation *)

Definition common_flags : list str := [$"--checksum"; $"--multifile"; $"-m"; $"--logger"; $"-l"; $"--verbose"; $"-v"].
Definition common_values : list str := [$"--hash"; $"--from"; $"--exclude"; $"--logfile"; $"--spec-version"].
Definition remote_values : list str := [$"--access-token"; $"--delay"].
Definition versions : list str := [$"--spec-version"].

Definition sync_flags : list str :=
  [$"--baseline"; $"-b"; $"--incremental"; $"--inc"; $"-i"; $"--audit"; $"-a"; $"--parse"; $"-p"; $"--noauth"; $"--delete";
   $"--empty"; $"--strictauth"; $"--dryrun"; $"-n"; $"--ignore-failures"; $"--eval"; $"-e"] ++ common_flags.
Definition sync_ints : list str := [$"--max-sitemap-entries"; $"--tries"; $"-t"; $"--timeout"; $"-T"].
Definition sync_values : list str :=
  [$"--sitemap"; $"--capabilitylist"; $"--capability-list"; $"--reference"; $"--newreference"; $"--changelist-uri";
   $"--change-list-uri"] ++ sync_ints ++ common_values ++ remote_values.

Definition build_flags : list str :=
  [$"--write-resourcelist"; $"--write-resource-list"; $"--write-changelist"; $"--write-change-list";
   $"--write-resourcedump"; $"--write-resource-dump"; $"-d"; $"--write-changedump"; $"--write-change-dump";
   $"--empty"; $"--warc"; $"--dryrun"; $"-n"; $"--eval"; $"-e"] ++ common_flags.
Definition build_ints : list str := [$"--max-sitemap-entries"].
Definition capability_names : list str := [$"--write-capabilitylist"; $"--write-capability-list"].
Definition description_names : list str := [$"--write-sourcedescription"; $"--write-source-description"].
Definition build_values : list str :=
  capability_names ++ description_names ++
  [$"--outfile"; $"--paths"; $"--reference"; $"--newreference"; $"--link"; $"--describedby-link";
   $"--sourcedescription-link"; $"--source-description-link"; $"--capabilitylist-link"; $"--capability-list-link"] ++
  build_ints ++ common_values.

Definition explorer_flags : list str := $"--noauth" :: common_flags.
Definition explorer_values : list str :=
  [$"--outfile"; $"--paths"; $"--sitemap"; $"--reference"; $"--newreference"; $"--dump"; $"--changelist-uri";
   $"--change-list-uri"; $"--max-sitemap-entries"] ++ common_values ++ remote_values.

Definition all_names (flags values : list str) : list str := $"-h" :: $"--help" :: flags ++ values.

(** The mode that a name stands for. *)
Definition sync_mode_of (n : str) : option sync_mode :=
  if in_strs n [$"--baseline"; $"-b"] then Some Baseline
  else if in_strs n [$"--incremental"; $"--inc"; $"-i"] then Some Incremental
  else if in_strs n [$"--audit"; $"-a"] then Some Audit
  else if in_strs n [$"--parse"; $"-p"] then Some Parse
  else None.
Inductive write_mode : Type := WriteResourceList | WriteChangeList | WriteCapabilityList | WriteDescription | WriteResourceDump | WriteChangeDump.
Definition write_mode_of (n : str) : option write_mode :=
  if in_strs n [$"--write-resourcelist"; $"--write-resource-list"] then Some WriteResourceList
  else if in_strs n [$"--write-changelist"; $"--write-change-list"] then Some WriteChangeList
  else if in_strs n capability_names then Some WriteCapabilityList
  else if in_strs n description_names then Some WriteDescription
  else if in_strs n [$"--write-resourcedump"; $"--write-resource-dump"; $"-d"] then Some WriteResourceDump
  else if in_strs n [$"--write-changedump"; $"--write-change-dump"] then Some WriteChangeDump
  else None.
(** The mode with its value. *)
Definition write_mode_with (m : write_mode) (us : list use) : mode :=
  let value names := match last_said names us with Some v => v | None => [] end in
  match m with
  | WriteResourceList => ResourceListMode
  | WriteChangeList => ChangeListMode
  | WriteCapabilityList => CapabilityListMode (value capability_names)
  | WriteDescription => DescriptionMode (value description_names)
  | WriteResourceDump => ResourceDumpMode
  | WriteChangeDump => ChangeDumpMode
  end.

(** ** What the scripts are to go by *)

(** resync-sync: a flag is set if one of its names is said, a value is the last one said, and a
    repeatable option has all its values. *)
Definition sync_meaning (float_of : str -> option Z) (m : sync_mode) (us : list use) (maps : list str) : sync_args :=
  MkSync m maps
    (last_said [$"--sitemap"] us) (last_said [$"--capabilitylist"; $"--capability-list"] us)
    (last_said [$"--changelist-uri"; $"--change-list-uri"] us) (last_said [$"--from"] us)
    (all_said [$"--hash"] us) (is_said [$"--checksum"] us) (last_said [$"--access-token"] us)
    (match last_said [$"--delay"] us with Some v => float_of v | None => None end)
    (all_said [$"--exclude"] us) (is_said [$"--multifile"; $"-m"] us) (is_said [$"--noauth"] us) (is_said [$"--strictauth"] us)
    (is_said [$"--delete"] us) (is_said [$"--dryrun"; $"-n"] us) (is_said [$"--ignore-failures"] us)
    (last_int_said [$"--max-sitemap-entries"] us) (last_int_said [$"--tries"; $"-t"] us)
    (match last_said [$"--spec-version"] us with Some v => str_eqb v $"1.0" | None => false end)
    (is_said [$"--verbose"; $"-v"] us).
Definition build_meaning (m : write_mode) (us : list use) (maps : list str) : build_args :=
  Build.MkArgs (write_mode_with m us) maps
    (last_said [$"--outfile"] us) (last_said [$"--paths"] us) (last_said [$"--reference"] us) (last_said [$"--newreference"] us)
    (all_said [$"--link"] us) (last_said [$"--describedby-link"] us)
    (last_said [$"--sourcedescription-link"; $"--source-description-link"] us)
    (last_said [$"--capabilitylist-link"; $"--capability-list-link"] us)
    (all_said [$"--hash"] us) (is_said [$"--checksum"] us) (values_said [$"--exclude"] us) (is_said [$"--multifile"; $"-m"] us)
    (last_int_said [$"--max-sitemap-entries"] us) (is_said [$"--empty"] us) (is_said [$"--warc"] us)
    (is_said [$"--verbose"; $"-v"] us).
Definition explorer_meaning (float_of : str -> option Z) (us : list use) : explorer_args :=
  MkExplorerArgs (last_said [$"--sitemap"] us) (all_said [$"--hash"] us) (is_said [$"--checksum"] us)
    (last_said [$"--access-token"] us) (match last_said [$"--delay"] us with Some v => float_of v | None => None end)
    (all_said [$"--exclude"] us) (is_said [$"--multifile"; $"-m"] us) (is_said [$"--noauth"] us)
    (last_int_said [$"--max-sitemap-entries"] us).

(** Command lines: options, mapping arguments in one place, options. *)
Definition sync_line (us1 us2 : list use) (ms : list str) : Prop :=
  (forall u, In u (us1 ++ us2) -> good sync_flags sync_values u) /\ (forall m, In m ms -> plain m).
Definition build_line (us1 us2 : list use) (ms : list str) : Prop :=
  (forall u, In u (us1 ++ us2) -> good build_flags build_values u) /\ (forall m, In m ms -> plain m).

(** ** Saying the same *)

(** The names that stand for the same option. *)
Definition common_groups : list (list str) :=
  [[$"--hash"]; [$"--checksum"]; [$"--from"]; [$"--exclude"]; [$"--multifile"; $"-m"]; [$"--logger"; $"-l"]; [$"--logfile"];
   [$"--spec-version"]; [$"--verbose"; $"-v"]].
Definition remote_groups : list (list str) := [[$"--noauth"]; [$"--access-token"]; [$"--delay"]].
Definition sync_groups : list (list str) :=
  [[$"--baseline"; $"-b"]; [$"--incremental"; $"--inc"; $"-i"]; [$"--audit"; $"-a"]; [$"--parse"; $"-p"]; [$"--sitemap"];
   [$"--capabilitylist"; $"--capability-list"]; [$"--reference"]; [$"--newreference"]; [$"--changelist-uri"; $"--change-list-uri"];
   [$"--delete"]; [$"--empty"]; [$"--strictauth"]; [$"--dryrun"; $"-n"]; [$"--ignore-failures"]; [$"--max-sitemap-entries"];
   [$"--eval"; $"-e"]; [$"--tries"; $"-t"]; [$"--timeout"; $"-T"]] ++ common_groups ++ remote_groups.
(** The same options are said, each with the same values in the same order; the order among
    different options, the spelling and the repetition of flags may differ. *)
Definition say_the_same (groups : list (list str)) (us us' : list use) : Prop :=
  forall g, In g groups -> is_said g us = is_said g us' /\ values_said g us = values_said g us'.

(** ** Abbreviations and unknown options *)

(** [p] abbreviates the one name [n]: it is no name itself, and [n] is the only name that it is the
    beginning of. *)
Definition abbreviates (names : list str) (p n : str) : Prop :=
  startswith $"--" p = true /\ p <> $"--" /\ ~ In "="%char p /\ ~ In p names /\
  In n names /\ startswith p n = true /\ forall n', In n' names -> startswith p n' = true -> n' = n.
(** [p] is the beginning of two names and not itself one. *)
Definition ambiguous (names : list str) (p : str) : Prop :=
  startswith $"--" p = true /\ p <> $"--" /\ ~ In "="%char p /\ ~ In p names /\
  exists n n', n <> n' /\ In n names /\ In n' names /\ startswith p n = true /\ startswith p n' = true.
(** A word like an option that is none: a long one that no name begins with, or a letter that is
    no option, without spaces. *)
Definition unknown_option (names : list str) (s : str) : Prop :=
  ~ In " "%char s /\
  ((startswith $"--" s = true /\ s <> $"--" /\ ~ In "="%char s /\ forall n, In n names -> startswith s n = false) \/
   exists c r, s = dash c ++ r /\ c <> "-"%char /\ is_digit c = false /\ c <> "."%char /\ ~ In (dash c) names).

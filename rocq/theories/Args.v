(** * Args: model of the command lines of the scripts, as argparse reads them

    The options are those that resync-sync, resync-build and resync-explorer declare; the
    reading is ArgumentParser.parse_args of Python 3.12 (argparse.py:1907-2510), restricted
    to what the scripts use: options without a value, with one value and repeatable ones,
    one required group of exclusive options, and one positional argument with nargs='*'.
    The text of messages is left out. *)

From Verif Require Import Py Float64 Opener ListIndex Hashes ClientState Client ClientUtils Build Sync Explorer ExplorerMain.

(** ** Options *)

(** type= and choices= of add_argument. *)
Inductive vtype : Type := Text | Integer | Floating | OneOf (choices : list str).
(** action= of add_argument; [Help] is the -h that every parser has. *)
Inductive okind : Type := Flag | Store (t : vtype) | Append (t : vtype) | Help.
(** An option: its names, dest= (or what argparse makes of the first long name), its kind,
    and whether it is in the group of which exactly one is required. *)
Record opt : Type := MkOpt { o_names : list str; o_dest : str; o_kind : okind; o_mode : bool }.
(** [p_map]: is there the positional argument map? *)
Record parser : Type := MkParser { p_options : list opt; p_map : bool }.

Definition flag (names : list str) (dest : str) : opt := MkOpt names dest Flag false.
Definition store (names : list str) (dest : str) (t : vtype) : opt := MkOpt names dest (Store t) false.
Definition append (names : list str) (dest : str) : opt := MkOpt names dest (Append Text) false.
Definition mode_flag (names : list str) (dest : str) : opt := MkOpt names dest Flag true.
Definition mode_store (names : list str) (dest : str) : opt := MkOpt names dest (Store Text) true.

(** argparse.py:1832-1838 *)
Definition help_option : opt := MkOpt [$"-h"; $"--help"] $"help" Help false.

(** add_shared_misc_options, client_utils.py:165-208 *)
Definition shared_options (include_remote : bool) : list opt :=
  [append [$"--hash"] $"hash"; flag [$"--checksum"] $"checksum"; store [$"--from"] $"from_datetime" Text;
   append [$"--exclude"] $"exclude"; flag [$"--multifile"; $"-m"] $"multifile"] ++
  (if include_remote then
     [flag [$"--noauth"] $"noauth"; store [$"--access-token"] $"access_token" Text; store [$"--delay"] $"delay" Floating]
   else []) ++
  [flag [$"--logger"; $"-l"] $"logger"; store [$"--logfile"] $"logfile" Text;
   store [$"--spec-version"] $"spec_version" (OneOf [$"1.0"; $"1.1"]); flag [$"--verbose"; $"-v"] $"verbose"].

(** resync-sync:34-106 *)
Definition sync_cli : parser := MkParser
  ([help_option;
    mode_flag [$"--baseline"; $"-b"] $"baseline"; mode_flag [$"--incremental"; $"--inc"; $"-i"] $"incremental";
    mode_flag [$"--audit"; $"-a"] $"audit"; mode_flag [$"--parse"; $"-p"] $"parse";
    store [$"--sitemap"] $"sitemap" Text; store [$"--capabilitylist"; $"--capability-list"] $"capabilitylist" Text;
    store [$"--reference"] $"reference" Text; store [$"--newreference"] $"newreference" Text;
    store [$"--changelist-uri"; $"--change-list-uri"] $"changelist_uri" Text] ++
   shared_options true ++
   [flag [$"--delete"] $"delete"; flag [$"--empty"] $"empty"; flag [$"--strictauth"] $"strictauth";
    flag [$"--dryrun"; $"-n"] $"dryrun"; flag [$"--ignore-failures"] $"ignore_failures";
    store [$"--max-sitemap-entries"] $"max_sitemap_entries" Integer; flag [$"--eval"; $"-e"] $"eval";
    store [$"--tries"; $"-t"] $"tries" Integer; store [$"--timeout"; $"-T"] $"timeout" Integer]) true.

(** resync-build:34-120 *)
Definition build_cli : parser := MkParser
  ([help_option;
    mode_flag [$"--write-resourcelist"; $"--write-resource-list"] $"write_resourcelist";
    mode_flag [$"--write-changelist"; $"--write-change-list"] $"write_changelist";
    mode_store [$"--write-capabilitylist"; $"--write-capability-list"] $"write_capabilitylist";
    mode_store [$"--write-sourcedescription"; $"--write-source-description"] $"write_sourcedescription";
    mode_flag [$"--write-resourcedump"; $"--write-resource-dump"; $"-d"] $"write_resourcedump";
    mode_flag [$"--write-changedump"; $"--write-change-dump"] $"write_changedump";
    store [$"--outfile"] $"outfile" Text; store [$"--paths"] $"paths" Text;
    store [$"--reference"] $"reference" Text; store [$"--newreference"] $"newreference" Text;
    append [$"--link"] $"link"; store [$"--describedby-link"] $"describedby_link" Text;
    store [$"--sourcedescription-link"; $"--source-description-link"] $"sourcedescription_link" Text;
    store [$"--capabilitylist-link"; $"--capability-list-link"] $"capabilitylist_link" Text] ++
   shared_options false ++
   [flag [$"--empty"] $"empty"; flag [$"--warc"] $"warc"; flag [$"--dryrun"; $"-n"] $"dryrun";
    store [$"--max-sitemap-entries"] $"max_sitemap_entries" Integer; flag [$"--eval"; $"-e"] $"eval"]) true.

(** resync-explorer:36-66 *)
Definition explorer_cli : parser := MkParser
  ([help_option;
    store [$"--outfile"] $"outfile" Text; store [$"--paths"] $"paths" Text; store [$"--sitemap"] $"sitemap" Text;
    store [$"--reference"] $"reference" Text; store [$"--newreference"] $"newreference" Text;
    store [$"--dump"] $"dump" Text; store [$"--changelist-uri"; $"--change-list-uri"] $"changelist_uri" Text;
    store [$"--max-sitemap-entries"] $"max_sitemap_entries" Integer] ++
   shared_options true) false.

(** parser._option_string_actions *)
Definition names_of (P : parser) : list (str * opt) :=
  flat_map (fun o => map (fun n => (n, o)) (o_names o)) (p_options P).
Definition named (P : parser) (n : str) : option opt := sget n (names_of P).

(** ** Telling options from arguments, argparse.py:2276-2373 *)

(** How reading ends early: parser.error() exits with status 2, --help with status 0. *)
Inductive reading (A : Type) : Type := Read (a : A) | Refused | Helped.
Arguments Read {A}. Arguments Refused {A}. Arguments Helped {A}.
Definition rbind {A B} (x : reading A) (f : A -> reading B) : reading B :=
  match x with Read a => f a | Refused => Refused | Helped => Helped end.
Notation "'read' p '<-' x ;; y" := (rbind x (fun p => y)) (at level 61, p pattern, x at next level, right associativity).

(** '^-\d+$|^-\d*\.\d+$', argparse.py:1420; a newline may follow. *)
Definition cut_newline (s : str) : str := if endswith [nl] s then removelast s else s.
Definition negative_number (s : str) : bool :=
  match cut_newline s with
  | "-"%char :: r =>
      match split1 "."%char r with
      | None => negb (str_eqb r []) && forallb is_digit r
      | Some (a, b) => forallb is_digit a && negb (str_eqb b []) && forallb is_digit b
      end
  | _ => false
  end.
(** parser._has_negative_number_optionals, argparse.py:1532-1535 *)
Definition has_negative (P : parser) : bool := existsb (fun no => negative_number (fst no)) (names_of P).

(** An option found in an argument: the option, its name in full, and the separator and
    value that come with it. *)
Definition found : Type := (opt * str * option (str * str))%type.

(** _get_option_tuples, argparse.py:2336-2373 *)
Definition option_tuples (P : parser) (s : str) : list found :=
  match s with
  | c0 :: c1 :: rest =>
      if ceqb c1 "-"%char then
        let '(prefix, explicit) := match split1 "="%char s with Some (a, b) => (a, Some ($"=", b)) | None => (s, None) end in
        map (fun no => (snd no, fst no, explicit)) (filter (fun no => startswith prefix (fst no)) (names_of P))
      else
        flat_map (fun no => if str_eqb (fst no) [c0; c1] then [(snd no, fst no, Some ([], rest))]
                            else if startswith s (fst no) then [(snd no, fst no, None)] else []) (names_of P)
  | _ => []
  end.

(** What an argument is: '--', an argument, or an option, which may be unknown. *)
Inductive word : Type := Dashes | Plain (s : str) | Unknown | Known (f : found).

(** _parse_optional, argparse.py:2276-2334 *)
Definition parse_optional (P : parser) (s : str) : reading word :=
  match s with
  | "-"%char :: _ =>
      match named P s with
      | Some o => Read (Known (o, s, None))
      | None =>
          if Nat.eqb (List.length s) 1 then Read (Plain s)
          else
            match (match split1 "="%char s with
                   | Some (n, v) => option_map (fun o => (o, n, Some ($"=", v))) (named P n)
                   | None => None
                   end) with
            | Some f => Read (Known f)
            | None =>
                match option_tuples P s with
                | _ :: _ :: _ => Refused
                | [f] => Read (Known f)
                | [] =>
                    if negative_number s && negb (has_negative P) then Read (Plain s)
                    else if has_char " "%char s then Read (Plain s)
                    else Read Unknown
                end
            end
      end
  | _ => Read (Plain s)
  end.

(** argparse.py:1969-1989: everything after the first '--' is an argument. *)
Fixpoint classify (P : parser) (argv : list str) : reading (list word) :=
  match argv with
  | [] => Read []
  | s :: argv' =>
      if str_eqb s $"--" then Read (Dashes :: map Plain argv')
      else
        read w <- parse_optional P s ;;
        read ws <- classify P argv' ;;
        Read (w :: ws)
  end.

(** ** Values, argparse.py:2468-2509 *)

Inductive val : Type := VTrue | VText (s : str) | VInt (n : Z) | VFloat (t : Z).

(** The namespace as the list of the assignments made to it: option and value. *)
Definition assignments : Type := list (opt * val).

(** What is known while reading: the assignments, what the positional argument got ([None]
    as long as it has not been matched), whether it is just being matched, and whether
    there were arguments nobody wanted. *)
Record progress : Type := MkProgress { g_set : assignments; g_map : option (list str); g_open : bool; g_extras : bool }.

Section Reading.
  (** float(s): its value as a number of units, [None] for ValueError.  It is left open here. *)
  Variable float_of : str -> option Z.

  (** _get_value and _check_value *)
  Definition get_value (t : vtype) (s : str) : option val :=
    match t with
    | Text => Some (VText s)
    | Integer => option_map VInt (parse_int s)
    | Floating => option_map VFloat (float_of s)
    | OneOf l => if in_strs s l then Some (VText s) else None
    end.

  (** take_action for an option, argparse.py:1998-2018.  An option of the exclusive group is
      refused when another of the group was given before; options are told apart by dest. *)
  Definition take (o : opt) (v : option str) (g : progress) : reading progress :=
    let value := match o_kind o, v with
                 | Flag, _ => Some VTrue
                 | Store t, Some s | Append t, Some s => get_value t s
                 | _, _ => None
                 end in
    match o_kind o, value with
    | Help, _ => Helped
    | _, None => Refused
    | _, Some x =>
        if o_mode o && existsb (fun ov => o_mode (fst ov) && negb (str_eqb (o_dest (fst ov)) (o_dest o))) (g_set g)
        then Refused
        else Read (MkProgress (g_set g ++ [(o, x)]) (g_map g) (g_open g) (g_extras g))
    end.
  Fixpoint take_all (os : list opt) (g : progress) : reading progress :=
    match os with
    | [] => Read g
    | o :: os' => read g' <- take o None g ;; take_all os' g'
    end.

  (** nargs None, against nargs=0 *)
  Definition takes_value (o : opt) : bool := match o_kind o with Store _ | Append _ => true | _ => false end.

  (** How the options in one argument end: with a value, wanting one or none, or with a letter
      that is no option. *)
  Inductive tail : Type := WithValue (o : opt) (v : str) | FromNext (o : opt) | NoOption.

  (** consume_optional with a value that comes with the option, argparse.py:2038-2085:
      -xyz is -x -y -z, where the last may have a value.  [long] is option_string[1] in chars. *)
  Fixpoint cluster (P : parser) (o : opt) (long : bool) (sep : str) (e : str) {struct e} : reading (list opt * tail) :=
    if takes_value o then Read ([], WithValue o e)
    else
      match e with
      | [] => Refused
      | c :: e' =>
          if long then Refused
          else if negb (str_eqb sep []) || ceqb c "-"%char then Refused
          else
            match named P ["-"%char; c] with
            | None => Read ([o], NoOption)
            | Some o' =>
                match e' with
                | [] => Read ([o], FromNext o')
                | c' :: e'' =>
                    read (os, t) <- (if ceqb c' "="%char then cluster P o' false $"=" e'' else cluster P o' false [] e') ;;
                    Read (o :: os, t)
                end
            end
      end.

  Definition options_in (P : parser) (f : found) : reading (list opt * tail) :=
    let '(o, name, explicit) := f in
    match explicit with
    | None => Read ([], FromNext o)
    | Some (sep, e) => cluster P o (startswith $"--" name) sep e
    end.

  (** A run of arguments, argparse.py:2101-2118 and 2130-2148: the positional argument takes the
      first run there is, whole, as its pattern is greedy; here one by one. *)
  Definition argument (s : str) (g : progress) : progress :=
    match g_map g, g_open g with
    | None, _ => MkProgress (g_set g) (Some [s]) true (g_extras g)
    | Some l, true => MkProgress (g_set g) (Some (l ++ [s])) true (g_extras g)
    | Some _, false => MkProgress (g_set g) (g_map g) false true
    end.
  (** An option ends the run. *)
  Definition close (g : progress) : progress := MkProgress (g_set g) (g_map g) false (g_extras g).
  Definition extra (g : progress) : progress := MkProgress (g_set g) (g_map g) (g_open g) true.

  (** The loop, argparse.py:2120-2158 *)
  Fixpoint loop (P : parser) (ws : list word) (g : progress) {struct ws} : reading progress :=
    match ws with
    | [] => Read g
    | Dashes :: ws' => loop P ws' (argument $"--" g)
    | Plain s :: ws' => loop P ws' (argument s g)
    | Unknown :: ws' => loop P ws' (extra (close g))
    | Known f :: ws' =>
        match options_in P f with
        | Refused => Refused
        | Helped => Helped
        | Read (os, NoOption) => read g <- take_all os (close g) ;; loop P ws' (extra g)
        | Read (os, WithValue o v) => read g <- take_all os (close g) ;; read g <- take o (Some v) g ;; loop P ws' g
        | Read (os, FromNext o) =>
            if takes_value o then
              match ws' with
              | Plain v :: ws'' => read g <- take_all os (close g) ;; read g <- take o (Some v) g ;; loop P ws'' g
              | _ => Refused
              end
            else read g <- take_all os (close g) ;; read g <- take o None g ;; loop P ws' g
        end
    end.

  (** arg_strings.remove('--'), argparse.py:2413-2417 *)
  Fixpoint remove_dashes (l : list str) : list str :=
    match l with
    | [] => []
    | s :: l' => if str_eqb s $"--" then l' else s :: remove_dashes l'
    end.

  (** parse_args, argparse.py:1907-1913 and 2160-2203.  Without the positional argument nothing
      is waiting for the arguments. *)
  Definition parse_args (P : parser) (argv : list str) : reading (assignments * list str) :=
    read ws <- classify P argv ;;
    read g <- loop P ws (MkProgress [] (if p_map P then None else Some []) false false) ;;
    if existsb o_mode (p_options P) && negb (existsb (fun ov => o_mode (fst ov)) (g_set g)) then Refused
    else if g_extras g then Refused
    else Read (g_set g, remove_dashes (match g_map g with Some l => l | None => [] end)).

  (** ** The namespace *)

  (** What was assigned to args.[dest], in order. *)
  Definition assigned (dest : str) (a : assignments) : list val :=
    map snd (filter (fun ov => str_eqb (o_dest (fst ov)) dest) a).
  Definition is_set (dest : str) (a : assignments) : bool := negb (Nat.eqb (List.length (assigned dest a)) 0).
  (** action='append' makes it a list, otherwise it is the last value. *)
  Definition is_list (dest : str) (a : assignments) : bool :=
    existsb (fun ov => str_eqb (o_dest (fst ov)) dest && match o_kind (fst ov) with Append _ => true | _ => false end) a.
  Definition last_set (dest : str) (a : assignments) : option val :=
    if is_list dest a then None else match rev (assigned dest a) with v :: _ => Some v | [] => None end.
  Definition last_text (dest : str) (a : assignments) : option str :=
    match last_set dest a with Some (VText s) => Some s | _ => None end.
  Definition last_int (dest : str) (a : assignments) : option Z :=
    match last_set dest a with Some (VInt n) => Some n | _ => None end.
  Definition last_float (dest : str) (a : assignments) : option Z :=
    match last_set dest a with Some (VFloat n) => Some n | _ => None end.
  (** The items of args.[dest]: None when it is not given, and the characters of a string. *)
  Definition all_texts (dest : str) (a : assignments) : option (list str) :=
    match assigned dest a with
    | [] => None
    | l => Some (if is_list dest a then flat_map (fun v => match v with VText s => [s] | _ => [] end) l
                 else match last_text dest a with Some s => map (fun c => [c]) s | None => [] end)
    end.

  (** The arguments as resync-sync uses them, resync-sync:108-160. *)
  Definition sync_args_of (a : assignments) (maps : list str) : sync_args :=
    MkSync (if is_set $"audit" a then Audit else if is_set $"baseline" a then Baseline
            else if is_set $"incremental" a then Incremental else Parse)
      maps (last_text $"sitemap" a) (last_text $"capabilitylist" a) (last_text $"changelist_uri" a)
      (last_text $"from_datetime" a) (all_texts $"hash" a) (is_set $"checksum" a) (last_text $"access_token" a)
      (last_float $"delay" a) (all_texts $"exclude" a) (is_set $"multifile" a) (is_set $"noauth" a) (is_set $"strictauth" a)
      (is_set $"delete" a) (is_set $"dryrun" a) (is_set $"ignore_failures" a) (last_int $"max_sitemap_entries" a)
      (last_int $"tries" a) (match last_text $"spec_version" a with Some v => str_eqb v $"1.0" | None => false end)
      (is_set $"verbose" a).

  (** The arguments as resync-build uses them, resync-build:122-193. *)
  Definition build_args_of (a : assignments) (maps : list str) : build_args :=
    Build.MkArgs
      (if is_set $"write_resourcelist" a then ResourceListMode
       else if is_set $"write_resourcedump" a then ResourceDumpMode
       else if is_set $"write_changelist" a then ChangeListMode
       else if is_set $"write_changedump" a then ChangeDumpMode
       else match last_text $"write_capabilitylist" a with
            | Some s => CapabilityListMode s
            | None => DescriptionMode (match last_text $"write_sourcedescription" a with Some s => s | None => [] end)
            end)
      maps (last_text $"outfile" a) (last_text $"paths" a) (last_text $"reference" a) (last_text $"newreference" a)
      (all_texts $"link" a) (last_text $"describedby_link" a) (last_text $"sourcedescription_link" a)
      (last_text $"capabilitylist_link" a) (all_texts $"hash" a) (is_set $"checksum" a)
      (match all_texts $"exclude" a with Some l => l | None => [] end) (is_set $"multifile" a)
      (last_int $"max_sitemap_entries" a) (is_set $"empty" a) (is_set $"warc" a) (is_set $"verbose" a).

  (** The arguments as resync-explorer uses them, resync-explorer:69-96. *)
  Definition explorer_args_of (a : assignments) : explorer_args :=
    MkExplorerArgs (last_text $"sitemap" a) (all_texts $"hash" a) (is_set $"checksum" a) (last_text $"access_token" a)
      (last_float $"delay" a) (all_texts $"exclude" a) (is_set $"multifile" a) (is_set $"noauth" a)
      (last_int $"max_sitemap_entries" a).

  (** ** The scripts, from the command line on *)

  Definition sync_command (E : env) (argv : list str) (w : world) : world * str * Build.ending :=
    match parse_args sync_cli argv with
    | Refused => (w, [], UsageError)
    | Helped => (w, [], Done)
    | Read (a, maps) => resync_sync E (sync_args_of a maps) w
    end.
  Definition build_command (e : benv) (argv : list str) (w : written) : written * Build.ending :=
    match parse_args build_cli argv with
    | Refused => (w, UsageError)
    | Helped => (w, Done)
    | Read (a, maps) => resync_build e (build_args_of a maps) w
    end.
  Definition explorer_command (e : xenv) (argv : list str) (inputs : list str) : list line * Build.ending :=
    match parse_args explorer_cli argv with
    | Refused => ([], UsageError)
    | Helped => ([], Done)
    | Read (a, _) => resync_explorer e (explorer_args_of a) inputs
    end.
End Reading.

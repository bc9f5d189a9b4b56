(** * ClientState: the client's memory of past synchronizations.

    Models /repo/resync/client_state.py and the parts of Python's configparser
    module it uses.  The status file is modelled as its text, [None] when there
    is no such file.  Simplifications: text is decoded and encoded without
    errors; reading translates no line ends other than LF (the code writes no
    CR); values that contain '%' (interpolation) are outside the model -- the
    code writes none. *)

From Verif Require Import Py.

(** What str(t) gives for a timestamp t, and what float(s) makes of a string.
    Both belong to Python and are parameters of the model; timestamps are in
    the units of [Float64]. *)
Record float_text := MkFloatText {
  show_float : Z -> str;                (* str(timestamp) *)
  read_float : str -> option Z          (* float(text); None: ValueError *)
}.

(** ** configparser *)

(** A parser: the options of [DEFAULT] and of the sections, in order. *)
Record ini := MkIni { i_defaults : list (str * str); i_sections : list (str * list (str * str)) }.

(** State of RawConfigParser._read (configparser.py, _read): like [ini] but the
    value of an option is the list of its lines; then cursect (None before the
    first header, else the section name, 'DEFAULT' for the defaults), optname,
    indent_level, elements_added (options only: a section in _sections has
    always been added by this very read) and whether a parsing error is
    pending. *)
Record reading := MkReading {
  g_defaults : list (str * list str);
  g_sections : list (str * list (str * list str));
  g_section : option str;
  g_option : option str;
  g_indent : nat;
  g_seen : list (str * str);
  g_bad : bool
}.

Definition DEFAULT : str := $"DEFAULT".

Definition section_of (g : reading) (name : str) : list (str * list str) :=
  if str_eqb name DEFAULT then g_defaults g
  else match sget name (g_sections g) with Some o => o | None => [] end.
Definition set_section (g : reading) (name : str) (o : list (str * list str)) : reading :=
  if str_eqb name DEFAULT
  then MkReading o (g_sections g) (g_section g) (g_option g) (g_indent g) (g_seen g) (g_bad g)
  else MkReading (g_defaults g) (sset name o (g_sections g))
         (g_section g) (g_option g) (g_indent g) (g_seen g) (g_bad g).

(** cursect[optname].append(v), when there is a current section and optname is
    neither None nor empty. *)
Definition append_line (g : reading) (v : str) : reading :=
  match g_section g, g_option g with
  | Some s, Some (c :: o') =>
      let o := c :: o' in
      let lines := match sget o (section_of g s) with Some l => l | None => [] end in
      set_section g s (sset o (lines ++ [v]) (section_of g s))
  | _, _ => g
  end.

Fixpoint drop_space (s : str) : str :=
  match s with [] => [] | x :: s' => if is_space x then drop_space s' else s end.
(** s.rstrip() *)
Definition rstrip_ws (s : str) : str := rev (drop_space (rev s)).

(** SECTCRE, matched at the start of the line: an opening bracket, at least one
    character (greedy), a closing bracket. *)
Definition header_of (v : str) : option str :=
  match v with
  | "["%char :: r =>
      match rsplit1 "]" r with
      | Some (h, _) => match removelast h with [] => None | h' => Some h' end
      | None => None
      end
  | _ => None
  end.

(** OPTCRE: the text before the first delimiter (= or :) without trailing
    whitespace, and the text after it. *)
Fixpoint split_delim (s : str) : option (str * str) :=
  match s with
  | [] => None
  | x :: s' =>
      if ceqb x "=" || ceqb x ":" then Some ([], s')
      else match split_delim s' with
           | Some (a, b) => Some (x :: a, b)
           | None => None
           end
  end.
Definition option_of (v : str) : option (str * str) :=
  match split_delim v with
  | Some (a, b) => Some (rstrip_ws a, strip_ws b)
  | None => None
  end.

Definition in_pairs (p : str * str) (l : list (str * str)) : bool :=
  existsb (fun q => str_eqb (fst p) (fst q) && str_eqb (snd p) (snd q)) l.

(** A line that is neither blank, comment nor continuation (_read, from
    "a section header or option header?"). *)
Definition read_entry (v : str) (g : reading) : res reading :=
  match header_of v with
  | Some name =>
      if str_eqb name DEFAULT then
        Ok (MkReading (g_defaults g) (g_sections g) (Some name) None (g_indent g) (g_seen g) (g_bad g))
      else if smem name (g_sections g) then Err ConfigError          (* DuplicateSectionError *)
      else Ok (MkReading (g_defaults g) (sset name [] (g_sections g)) (Some name) None
                 (g_indent g) (g_seen g) (g_bad g))
  | None =>
      match g_section g with
      | None => Err ConfigError                                      (* MissingSectionHeaderError *)
      | Some s =>
          match option_of v with
          | None => Ok (MkReading (g_defaults g) (g_sections g) (g_section g) (g_option g)
                          (g_indent g) (g_seen g) true)
          | Some (o, x) =>
              let o := lower o in
              if in_pairs (s, o) (g_seen g) then Err ConfigError      (* DuplicateOptionError *)
              else
                let g' := MkReading (g_defaults g) (g_sections g) (Some s) (Some o) (g_indent g)
                            ((s, o) :: g_seen g)
                            (g_bad g || match o with [] => true | _ => false end) in
                Ok (set_section g' s (sset o [x] (section_of g' s)))
          end
      end
  end.

(** Position of the first character that is not whitespace. *)
Fixpoint indent_of (s : str) : nat :=
  match s with [] => O | x :: s' => if is_space x then S (indent_of s') else O end.

(** One line of the file (the loop body of _read). *)
Definition read_line (line : str) (g : reading) : res reading :=
  let v := strip_ws line in
  let comment := match v with c :: _ => ceqb c "#" || ceqb c ";" | [] => false end in
  if comment then Ok g
  else match v with
       | [] => Ok (append_line g [])
       | _ =>
           match g_section g, g_option g with
           | Some _, Some (_ :: _) =>
               if (g_indent g <? indent_of line)%nat then Ok (append_line g v)
               else read_entry v (MkReading (g_defaults g) (g_sections g) (g_section g) (g_option g)
                                    (indent_of line) (g_seen g) (g_bad g))
           | _, _ => read_entry v (MkReading (g_defaults g) (g_sections g) (g_section g) (g_option g)
                                     (indent_of line) (g_seen g) (g_bad g))
           end
       end.

Fixpoint read_lines (ls : list str) (g : reading) : res reading :=
  match ls with
  | [] => Ok g
  | l :: ls' => let* g' := read_line l g in read_lines ls' g'
  end.

(** The lines of a file: a final line end starts no further line. *)
Definition file_lines (text : str) : list str :=
  let ls := split_on nl text in
  match last ls [] with [] => removelast ls | _ => ls end.

(** _join_multiline_values *)
Definition join_value (lines : list str) : str := rstrip_ws (join [nl] lines).
Definition join_values (o : list (str * list str)) : list (str * str) :=
  map (fun p => (fst p, join_value (snd p))) o.

Definition ini_read (text : str) : res ini :=
  let* g := read_lines (file_lines text) (MkReading [] [] None None O [] false) in
  if g_bad g then Err ConfigError                                    (* ParsingError *)
  else Ok (MkIni (join_values (g_defaults g))
                 (map (fun p => (fst p, join_values (snd p))) (g_sections g))).

(** parser.read(filename): a file that cannot be opened is ignored. *)
Definition ini_of_file (f : option str) : res ini :=
  match f with None => Ok (MkIni [] []) | Some t => ini_read t end.

(** str(value).replace('\n', '\n\t') *)
Definition indent_value (v : str) : str := join [nl; tab] (split_on nl v).
(** _write_section *)
Definition section_text (name : str) (o : list (str * str)) : str :=
  $"[" ++ name ++ $"]" ++ [nl]
  ++ List.concat (map (fun p => fst p ++ $" = " ++ indent_value (snd p) ++ [nl]) o)
  ++ [nl].
(** RawConfigParser.write *)
Definition ini_text (i : ini) : str :=
  (match i_defaults i with [] => [] | d => section_text DEFAULT d end)
  ++ List.concat (map (fun p => section_text (fst p) (snd p)) (i_sections i)).

(** parser.get(section, option): [None] for NoSectionError or NoOptionError. *)
Definition ini_get (i : ini) (section name : str) : res (option str) :=
  match sget section (i_sections i) with
  | None => Ok None
  | Some o =>
      let v := match sget (lower name) o with
               | Some v => Some v
               | None => sget (lower name) (i_defaults i)
               end in
      match v with
      | Some v => if has_char "%" v then Err OutOfModel else Ok (Some v)
      | None => Ok None
      end
  end.

(** ** ClientState *)

(** client_state.py:68-75: config_site_to_name *)
Definition config_site_to_name (site : str) : str :=
  map (fun c => if is_word c then c else "_"%char) site.

Definition INCREMENTAL : str := $"incremental".

(** The text written by client_state.py:28-48, set_state; an error is raised
    before the file is opened for writing. *)
Definition state_text (F : float_text) (f : option str) (site : str) (ts : option Z) : res str :=
  let* i := ini_of_file f in
  let o := match sget INCREMENTAL (i_sections i) with Some o => o | None => [] end in
  let name := lower (config_site_to_name site) in
  let o' := match ts with
            | None => sdel name o
            | Some t => sset name (show_float F t) o
            end in
  Ok (ini_text (MkIni (i_defaults i) (sset INCREMENTAL o' (i_sections i)))).

(** client_state.py:28-48: set_state.  The result is the file afterwards and the
    exception, if one is raised. *)
Definition set_state (F : float_text) (f : option str) (site : str) (ts : option Z)
    : option str * option exn :=
  match state_text F f site ts with
  | Ok t => (Some t, None)
  | Err e => (f, Some e)
  end.

(** What the file may hold if the process ends during set_state: nothing has
    happened yet; or the file has been opened -- which empties it -- and some of
    the text has been written. *)
Definition set_state_crash (F : float_text) (f : option str) (site : str) (ts : option Z)
    : list (option str) :=
  f :: match state_text F f site ts with
       | Ok t => map (fun n => Some (firstn n t)) (seq 0 (S (List.length t)))
       | Err _ => []
       end.

(** client_state.py:50-66: get_state *)
Definition get_state (F : float_text) (f : option str) (site : str) : res (option Z) :=
  let* i := ini_of_file f in
  let* v := ini_get i INCREMENTAL (config_site_to_name site) in
  match v with
  | None => Ok None
  | Some v => match read_float F v with Some t => Ok (Some t) | None => Err ValueError end
  end.

(** * Explorer: model of explorer.py *)

From Verif Require Import Py Float64 Regex W3C Url OsPath Mapper Resource Xml Sitemap.

(** Values of headers: text, or the number head_on_file gives as content-length. *)
Inductive hval : Type := HInt (n : Z) | HStr (s : str).
Definition hval_eqb (a b : hval) : bool :=
  match a, b with
  | HInt x, HInt y => x =? y
  | HStr x, HStr y => str_eqb x y
  | _, _ => false
  end.
Notation headers := (list (str * hval)).

(** XResource.acceptable_capabilities, explorer.py:351-353: None, 'resource' or a list. *)
Inductive caps : Type := AnyDocument | ResourceItself | OneOf (l : list str).

(** XResource, explorer.py:346-364.  The constructor's context is never given in
    explorer.py, and urljoin(None, uri) is uri. *)
Record xresource : Type := MkX { x_uri : str; x_caps : caps; x_checks : option headers }.

(** How a header compares with what the list said about the resource. *)
Inductive check : Type := NotChecked | Matches | Expected (v : hval).

(** What is printed, one constructor for each form of line.  Simplifications: the lines
    that announce the starting points, empty
    lines and the texts of exceptions are left out, and so is what only --verbose
    prints. *)
Inductive line : Type :=
| Reading (uri : str)
| CannotRead (uri : str)
| CannotParse (uri : str)
| Parsed (capability : str) (entries : Z)
| NotExpected (expected : list str)
| UnknownType (capability : str)
| LinkShown (key rel uri : str)
| LinkNoHref (rel : str)
| Expanded (uri : str)
| EntryShown (n : Z) (uri : str)
| EntryIs (capability : str) (expected : option (list str))
| EntryAssumed (capability : str)
| NotShowing (n : Z)
| Head (uri : str)
| HeadStatus (status : str)
| HeadLine (header : str) (v : hval) (c : check)
| Prompt (number back : bool)
| Bye.

(** Code that prints and may raise an exception. *)
Definition out (A : Type) : Type := (list line * res A)%type.
Definition say {A} (l : list line) (x : out A) : out A := (l ++ fst x, snd x).
Definition oret {A} (a : A) : out A := ([], Ok a).
Definition obind {A B} (x : out A) (f : A -> out B) : out B :=
  match snd x with
  | Ok a => say (fst x) (f a)
  | Err e => (fst x, Err e)
  end.
Notation "'put' x <- m ;; k" := (obind m (fun x => k)) (at level 200, x pattern, m at level 100, k at level 200).

(** The world of the explorer: the answer to the n-th document or resource asked for
    (documents may change), whether a HEAD request for a URI can be made, the local
    files (time of modification and size) and directories. *)
Record xenv : Type := MkXenv {
  xe_get : nat -> str -> res str;
  xe_head : nat -> str -> res unit;
  xe_file : str -> option (Z * Z);
  xe_isdir : str -> bool
}.

(** allowed_entries(capability), explorer.py:311-332. *)
Definition allowed_entries (capability : str) : list str :=
  let index := re_match (re_const $"(.+)index$") capability in
  let archive := re_match (re_const $"(.+)\-archive$") capability in
  let group1 m := match cap_get 1 m with Some g => [g] | None => [] end in
  if str_eqb capability $"capabilitylistindex" then []
  else match index with
  | Some m => group1 m
  | None =>
  match archive with
  | Some m => group1 m
  | None =>
  if str_eqb capability $"description" then [$"capabilitylist"]
  else if str_eqb capability $"capabilitylist" then
    [ $"resourcelist"; $"resourcedump"; $"changelist"; $"changedump";
      $"resourcelist-archive"; $"resourcedump-archive"; $"changelist-archive"; $"changedump-archive" ]
  else []
  end end.

(** expand_relative_uri(context, uri), explorer.py:334-343. *)
Definition expand_relative_uri (context uri : str) : out str :=
  match urljoin context uri with
  | Err e => ([], Err e)
  | Ok full => if str_eqb full uri then oret uri else say [Expanded full] (oret full)
  end.

(** The options of a menu: a dictionary from input to resource. *)
Notation menu := (list (str * resource)).

(** One of the three links of a document, explorer.py:221-247.  A link without any
    attribute (an empty dictionary) counts as none. *)
Definition show_link (context : str) (ln : list link) (key rel : str) (capability : option str)
    (options : menu) : out menu :=
  match find_link rel ln with
  | None => oret options
  | Some [] => oret options
  | Some l =>
      match sget $"href" l with
      | None => say [LinkNoHref rel] (oret options)
      | Some (PStr uri) =>
          say [LinkShown key rel uri]
            (put uri <- expand_relative_uri context uri ;;
             oret (sset key (set_capability capability (new_resource uri)) options))
      | Some _ => ([], Err OutOfModel)    (* href of a parsed link is text *)
      end
  end.

(** What is printed about the capability of an entry, and the entry afterwards,
    explorer.py:259-268. *)
Definition show_capability (entry_caps : list str) (r : resource) : out resource :=
  match r_capability r with
  | Some c => ([EntryIs c (if in_strs c entry_caps then None else Some entry_caps)], Ok r)
  | None =>
      match entry_caps with
      | [c] => ([EntryAssumed c], Ok (set_capability (Some c) r))
      | _ => oret r
      end
  end.

(** The loop over the entries, explorer.py:249-268; [n] entries have been shown. *)
Fixpoint show_entries (context : str) (entry_caps : list str) (to_show num_entries n : Z)
    (rs : list resource) (options : menu) : out menu :=
  match rs with
  | [] => oret options
  | r :: rs' =>
      if to_show <=? n then ([NotShowing (num_entries - n)], Ok options)
      else
        say [EntryShown (n + 1) (r_uri r)]
          (put uri <- expand_relative_uri context (r_uri r) ;;
           put r <- show_capability entry_caps (set_uri uri r) ;;
           show_entries context entry_caps to_show num_entries (n + 1) rs'
             (sset (print_int (n + 1)) r options))
  end.

(** The document types that are known, explorer.py:207-211. *)
Definition known_types : list str :=
  [ $"description"; $"descriptionoindex"; $"capabilitylist";
    $"resourcelist"; $"resourcelistindex"; $"changelist"; $"changelistindex";
    $"resourcedump"; $"resourcedumpindex"; $"changedump"; $"changedumpindex";
    $"resourcelist-archive"; $"resourcedump-archive"; $"changelist-archive"; $"changedump-archive" ].

(** The type of a document, explorer.py:197-201. *)
Definition document_type (md : link) (index : bool) : res str :=
  match sget $"capability" md with
  | None => Ok ($"(unknown capability)" ++ if index then $"index" else [])
  | Some (PStr c) => Ok (c ++ if index then $"index" else [])
  | Some _ => Err OutOfModel              (* the capability of a parsed document is text *)
  end.

(** explore_show_summary(list, index, expected, context), explorer.py:180-269: the menu
    and the type of the document. *)
Definition explore_show_summary (d : doc (list resource)) (index : bool)
    (expected : option (list str)) (context : str) : out (menu * str) :=
  match document_type (d_md d) index with
  | Err e => ([], Err e)
  | Ok capability =>
      let num_entries := Z.of_nat (List.length (d_items d)) in
      say ([Parsed capability num_entries]
           ++ match expected with
              | Some l => if in_strs capability l then [] else [NotExpected l]
              | None => []
              end
           ++ (if in_strs capability known_types then [] else [UnknownType capability]))
        (let to_show := if 21 <? num_entries then 20 else num_entries in
         put o <- show_link context (d_ln d) $"d" $"describedby" (Some $"resource") [] ;;
         put o <- show_link context (d_ln d) $"u" $"up" None o ;;
         put o <- show_link context (d_ln d) $"i" $"index" None o ;;
         put o <- show_entries context (allowed_entries capability) to_show num_entries 0 (d_items d) o ;;
         oret (o, capability))
  end.

(** head_on_file(file), explorer.py:301-309. *)
Definition head_on_file (e : xenv) (file : str) : res (str * headers) :=
  match xe_file e file with
  | None => Ok ($"404", [])
  | Some (mtime, size) =>
      let* t := datetime_to_str false mtime in
      Ok ($"200", [($"last-modified", HStr t); ($"content-length", HInt size)])
  end.

(** The headers that are shown, explorer.py:287-299. *)
Definition shown_headers : list str :=
  [$"content-length"; $"last-modified"; $"lastmod"; $"content-type"; $"etag"].
Definition header_lines (checks : option headers) (hs : headers) : list line :=
  flat_map (fun h =>
    match sget h hs with
    | None => []
    | Some v =>
        [HeadLine h v
           match checks with
           | None => NotChecked
           | Some c => match sget h c with
                       | None => NotChecked
                       | Some x => if hval_eqb v x then Matches else Expected x
                       end
           end]
    end) shown_headers.

(** explore_show_head(uri, check_headers), explorer.py:271-299.  For a URI, the code
    calls response.code, which is a number (or None): TypeError. *)
Definition explore_show_head (e : xenv) (n : nat) (uri : str) (checks : option headers) : out unit :=
  say [Head uri]
    (match re_match (re_const $"^\w+:") uri with
     | Some _ =>
         match xe_head e n uri with
         | Err x => ([], Err x)
         | Ok _ => ([], Err TypeError)
         end
     | None =>
         match head_on_file e uri with
         | Err x => ([], Err x)
         | Ok (status, hs) =>
             say [HeadStatus status]
               ((if str_eqb status $"200" then header_lines checks hs else []), Ok tt)
         end
     end).

(** ResourceContainer.add for a list: append, resource_container.py:193-205. *)
Definition append_resource (r : resource) (l : list resource) : res (list resource) := Ok (l ++ [r]).

(** The first part of explore_uri, explorer.py:119-137: what is printed, the menu and
    the type of the document if there is one.  OutOfModel is not caught. *)
Definition show_page (e : xenv) (n : nat) (xr : xresource) : out (menu * option str) :=
  let uri := x_uri xr in
  let shown : out (menu * option str) :=
    match x_caps xr with
    | ResourceItself => put _ <- explore_show_head e n uri (x_checks xr) ;; oret ([], None)
    | c =>
        match xe_get e n uri with
        | Err x => ([], Err x)
        | Ok text =>
            match parse_xml (MkSettings false false false) append_resource None None (MkDoc [] [] []) text with
            | Err x => ([], Err x)
            | Ok (d, index) =>
                put (o, capability) <-
                  explore_show_summary d index (match c with OneOf l => Some l | _ => None end) uri ;;
                oret (o, Some capability)
            end
        end
    end in
  say [Reading uri]
    (match snd shown with
     | Ok r => (fst shown, Ok r)
     | Err OutOfModel => (fst shown, Err OutOfModel)
     | Err IOError | Err SocketTimeout => (fst shown ++ [CannotRead uri], Ok ([], None))
     | Err _ => (fst shown ++ [CannotParse uri], Ok ([], None))
     end).

(** The loop until there is some valid input, explorer.py:141-154.  Inputs are the lines
    the user will type; [fake_input], which the tests use, is None. *)
Inductive choice : Type := Picked (r : resource) | WentBack | WantsQuit | InputEnded.
Fixpoint choose (show_back : bool) (options : menu) (inputs : list str) : list line * list str * choice :=
  let prompt := Prompt (match options with [] => false | _ => true end) show_back in
  match inputs with
  | [] => ([prompt], [], InputEnded)
  | inp :: rest =>
      match sget inp options with
      | Some r => ([prompt], rest, Picked r)
      | None =>
          if str_eqb inp $"q" then ([prompt], rest, WantsQuit)
          else if str_eqb inp $"b" then ([prompt], rest, WentBack)
          else let '(l, rest, c) := choose show_back options rest in (prompt :: l, rest, c)
      end
  end.

(** What is followed, explorer.py:158-178; [capability] is the type of the document. *)
Definition follow (capability : option str) (r : resource) : res xresource :=
  let* c := match r_capability r with
            | None =>
                match capability with
                | None => Err TypeError        (* re.match of None; menus are empty then *)
                | Some t => if in_strs t [$"resourcelist"; $"changelist"; $"resourcedump"; $"changedump"]
                            then Ok ResourceItself else Ok (OneOf (allowed_entries t))
                end
            | Some c => Ok (if str_eqb c $"resource" then ResourceItself else OneOf [c])
            end in
  let* lastmod := get_dt (r_timestamp r) in
  Ok (MkX (r_uri r) c
        (Some (match r_length r with Some n => [($"content-length", HInt n)] | None => [] end
               ++ match lastmod with Some t => [($"last-modified", HStr t)] | None => [] end
               ++ match r_mime_type r with Some t => [($"content-type", HStr t)] | None => [] end))).

(** explore_uri(explorer_resource, show_back), explorer.py:114-178: what is printed, the
    inputs left, and how it ends: a resource to follow, back (None), the exception
    ExplorerQuit, the EOFError of input() or another exception. *)
Inductive move : Type := Follow (x : xresource) | Back | Quit | NoInput | Raised (e : exn).
Definition explore_uri (e : xenv) (n : nat) (xr : xresource) (show_back : bool) (inputs : list str)
  : list line * list str * move :=
  match show_page e n xr with
  | (l, Err x) => (l, inputs, Raised x)
  | (l, Ok (options, capability)) =>
      let '(l', rest, c) := choose show_back options inputs in
      (l ++ l', rest,
       match c with
       | WentBack => Back
       | WantsQuit => Quit
       | InputEnded => NoInput
       | Picked r => match follow capability r with Ok x => Follow x | Err x => Raised x end
       end)
  end.

(** How the loop over the history ends: it becomes empty, or one of the other ends of
    explore_uri. *)
Inductive ending : Type := Emptied | Ended (m : move).

(** The loop over the history, explorer.py:102-109; the end of the Python list is the
    head here.  Every turn that is not the last one reads at least one input, so
    the number of inputs bounds the number of turns ([explore_loop_fuel]). *)
Fixpoint explore_loop (fuel : nat) (e : xenv) (n : nat) (history : list xresource) (inputs : list str)
  : list line * nat * list str * ending :=
  match fuel with
  | O => ([], n, inputs, Ended (Raised OutOfModel))
  | S fuel =>
      match history with
      | [] => ([], n, inputs, Emptied)
      | xr :: h =>
          let '(l, rest, m) := explore_uri e n xr (match h with [] => false | _ => true end) inputs in
          let go h := let '(l', n, rest, r) := explore_loop fuel e (S n) h rest in (l ++ l', n, rest, r) in
          match m with
          | Follow x => go (x :: xr :: h)
          | Back => go h
          | m => (l, S n, rest, Ended m)
          end
      end
  end.
Definition explore_from (e : xenv) (n : nat) (history : list xresource) (inputs : list str)
  : list line * nat * list str * ending :=
  explore_loop (S (List.length inputs)) e n history inputs.

(** The loop over the starting points, explorer.py:97-112. *)
Inductive outcome : Type := Finished | EndOfInput | Failed (e : exn).
Fixpoint explore_all (e : xenv) (n : nat) (starts : list xresource) (inputs : list str)
  : list line * list str * outcome :=
  match starts with
  | [] => ([Bye], inputs, Finished)
  | s :: starts' =>
      let '(l, n, rest, r) := explore_from e n [s] inputs in
      match r with
      | Emptied => let '(l', rest, o) := explore_all e n starts' rest in (l ++ l', rest, o)
      | Ended (Raised x) => (l, rest, Failed x)
      | Ended NoInput => (l, rest, EndOfInput)
      | Ended _ => (l ++ [Bye], rest, Finished)
      end
  end.

(** The starting points, explorer.py:48-94; [sitemap_name] and [m] are the client's. *)
Definition well_known_caps : caps := OneOf [$"capabilitylist"; $"capabilitylistindex"].
Definition likely_names : list str := [$"resourcesync"; $"capabilities.xml"; $"resourcelist.xml"; $"changelist.xml"].
Definition start_points (e : xenv) (sitemap_name : option str) (m : mapper) : res (list xresource) :=
  match sitemap_name with
  | Some s => Ok [MkX s AnyDocument None]
  | None =>
      match m with
      | [] => Err ClientFatalError
      | _ =>
          let* uri := default_src_uri m in
          let* p := urlparse uri [] in
          if is_empty (up_scheme p) && is_empty (up_netloc p) then
            if xe_isdir e (up_path p) then
              match filter (fun f => match xe_file e f with Some _ => true | None => false end)
                      (map (fun name => os_join (up_path p) name) likely_names) with
              | [] => Err ClientFatalError
              | files => Ok (map (fun f => MkX f AnyDocument None) files)
              end
            else Ok [MkX (up_path p) AnyDocument None]
          else
            let well_known :=
              MkX (urlunparse (MkUP (up_scheme p) (up_netloc p) $"/.well-known/resourcesync" [] [] []))
                well_known_caps None in
            Ok (if is_empty (up_path p) then [well_known] else [MkX uri AnyDocument None; well_known])
      end
  end.

(** explore(), explorer.py:39-112. *)
Definition explore (e : xenv) (sitemap_name : option str) (m : mapper) (inputs : list str)
  : list line * list str * outcome :=
  match start_points e sitemap_name m with
  | Err x => ([], inputs, Failed x)
  | Ok starts => explore_all e 0 starts inputs
  end.

(** * ClientUtils: model of client_utils.py, without logging, and of the request
    configuration of url_or_file_open.py *)

From Verif Require Import Py Opener.

(** (k, v) = term.split('='), client_utils.py:125,149: ValueError unless there are
    exactly two fields. *)
Definition split_pair (term : str) : res (str * str) :=
  match split_on "=" term with
  | [k; v] => Ok (k, v)
  | _ => Err ValueError
  end.

(** The loop over the attributes, client_utils.py:124-130. *)
Fixpoint link_atts (segs : list str) (atts : list (str * str)) : res (list (str * str)) :=
  match segs with
  | [] => Ok atts
  | term :: segs' =>
      let* (k, v) := split_pair term in
      if str_eqb k [] || str_eqb v [] then Err ClientFatalError
      else link_atts segs' (sset k v atts)
  end.

(** The try block of parse_link, client_utils.py:115-130: segs.pop(0) of an empty list is
    an IndexError. *)
Definition parse_link_body (link_str : str) : res (list (str * str)) :=
  match split_on "," link_str with
  | [] => Err IndexError
  | [_] => Err IndexError
  | rel :: href :: segs =>
      if str_eqb href [] then Err ClientFatalError
      else link_atts segs (sset $"href" href (sset $"rel" rel []))
  end.

(** parse_link(link_str), client_utils.py:108-136.  The messages of the exceptions are
    not modelled. *)
Definition parse_link (link_str : str) : res (list (str * str)) :=
  match parse_link_body link_str with
  | Err ValueError => Err ClientFatalError
  | Err IndexError => Err ClientFatalError
  | r => r
  end.

(** parse_links(args_link), client_utils.py:91-105: each ClientFatalError is raised
    again as a ClientFatalError with a longer message. *)
Definition parse_links (args_link : option (list str)) : res (list (list (str * str))) :=
  match args_link with
  | None => Ok []
  | Some l => mapM parse_link l
  end.

(** The loop of parse_capabilities, client_utils.py:148-150. *)
Fixpoint caps_loop (segs : list str) (caps : list (str * str)) : res (list (str * str)) :=
  match segs with
  | [] => Ok caps
  | term :: segs' => let* (k, v) := split_pair term in caps_loop segs' (sset k v caps)
  end.

(** parse_capabilities(caps_str), client_utils.py:139-155. *)
Definition parse_capabilities (caps_str : str) : res (list (str * str)) :=
  match caps_loop (split_on "," caps_str) [] with
  | Err ValueError => Err ClientFatalError
  | r => r
  end.

(** parse_capability_lists(cls_str), client_utils.py:158-163. *)
Definition parse_capability_lists (cls_str : str) : list str := split_on "," cls_str.

(** The options of add_shared_misc_options that process_shared_misc_options looks at,
    client_utils.py:171-194.  [o_hash] is None when --hash was not given: the default of
    an argparse option with action 'append'.  [o_delay] is in the units of the model's
    timestamps; not-a-number is not modelled. *)
Record options : Type := MkOptions
  { o_hash : option (list str); o_checksum : bool; o_token : option str; o_delay : option Z }.

(** CONFIG, url_or_file_open.py:12-15. *)
Record config : Type := MkConfig { cf_token : option str; cf_delay : option Z }.
Definition config0 : config := MkConfig None None.
(** set_url_or_file_open_config, url_or_file_open.py:18-21. *)
Definition with_token (t : str) (c : config) : config := MkConfig (Some t) (cf_delay c).
Definition with_delay (d : Z) (c : config) : config := MkConfig (cf_token c) (Some d).

(** process_shared_misc_options(args, include_remote), client_utils.py:217-230: the
    configuration it leaves, and the list of hash types in args.hash.  [None.append]
    is an AttributeError; argparse.ArgumentTypeError is modelled as PlainException. *)
Definition process_options (o : options) (include_remote : bool) (c : config)
  : config * res (option (list str)) :=
  match (if o_checksum o
         then match o_hash o with
              | Some l => Ok (Some (l ++ [$"md5"]))
              | None => Err AttributeError
              end
         else Ok (o_hash o)) with
  | Err e => (c, Err e)
  | Ok hash =>
      if include_remote then
        let c := match o_token o with
                 | Some ((_ :: _) as t) => with_token t c
                 | _ => c
                 end in
        match o_delay o with
        | Some d =>
            if d =? 0 then (c, Ok hash)
            else if d <? 0 then (c, Err PlainException)
            else (with_delay d c, Ok hash)
        | None => (c, Ok hash)
        end
      else (c, Ok hash)
  end.

(** The Authorization header of a request, url_or_file_open.py:41-42; User-Agent is the
    only other header. *)
Definition authorization (c : config) : option str :=
  match cf_token c with Some t => Some ($"Bearer " ++ t) | None => None end.

(** One call of url_or_file_open under a configuration, url_or_file_open.py:24-49: what
    [paced_open] says, and the Authorization header sent to what is opened. *)
Definition configured_open (c : config) (n : Z) (uri : str) : Z * list event * option str :=
  let '(n, ev) := paced_open (cf_delay c) n uri in (n, ev, authorization c).

(** self.hashes of Client, client.py:48: set(hashes) if hashes else set().  A set is
    represented by any list with the same members. *)
Definition client_hashes (hash : option (list str)) : list str :=
  match hash with Some l => l | None => [] end.

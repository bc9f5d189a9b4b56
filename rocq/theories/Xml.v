(** * Xml: writing and reading of XML text

    The part of Python's xml.etree.ElementTree that sitemap.py relies on, and the
    part of expat (with namespace processing) needed to read what it writes.
    Documents are sequences of characters: their encoding is not modelled.
    Document types, colons in the targets of processing instructions, declarations
    of the prefixes xml and xmlns, and references to characters above 255 are
    outside the model (OutOfModel).  Any encoding the XML declaration names is taken
    to be known. *)

From Verif Require Import Py.

(** Elements: tag, attributes in order, text before the first child, children,
    text after the element.  Names are as written (prefix:name) in trees to be
    written, and as resolved ({uri}name) in trees that were read. *)
Inductive xml : Type :=
  El (tag : str) (atts : list (str * str)) (text : option str) (kids : list xml) (tail : option str).

Definition x_tag e := let '(El t _ _ _ _) := e in t.
Definition x_atts e := let '(El _ a _ _ _) := e in a.
Definition x_text e := let '(El _ _ x _ _) := e in x.
Definition x_kids e := let '(El _ _ _ k _) := e in k.
Definition x_tail e := let '(El _ _ _ _ t) := e in t.

(** e.findall(tag): the children with that tag. *)
Definition findall (tag : str) (e : xml) : list xml :=
  filter (fun k => str_eqb (x_tag k) tag) (x_kids e).

(** ** Writing, xml/etree/ElementTree.py *)

(** _escape_cdata, ElementTree.py:1008-1022. *)
Definition esc_text_c (c : ascii) : str :=
  if ceqb c "&" then $"&amp;" else if ceqb c "<" then $"&lt;" else if ceqb c ">" then $"&gt;" else [c].
Definition esc_text (s : str) : str := flat_map esc_text_c s.

(** _escape_attrib, ElementTree.py:1024-1050. *)
Definition esc_att_c (c : ascii) : str :=
  if ceqb c "&" then $"&amp;" else if ceqb c "<" then $"&lt;" else if ceqb c ">" then $"&gt;"
  else if ceqb c dquote then $"&quot;"
  else if ceqb c cr then $"&#13;" else if ceqb c nl then $"&#10;" else if ceqb c tab then $"&#09;"
  else [c].
Definition esc_att (s : str) : str := flat_map esc_att_c s.

Definition opt_text (t : option str) : str := match t with Some s => s | None => [] end.

Definition ser_att (a : str * str) : str :=
  $" " ++ fst a ++ ["="%char; dquote] ++ esc_att (snd a) ++ [dquote].

(** _serialize_xml, ElementTree.py:850-898, for names that do not start with an
    opening brace, so that no prefixes are generated (_namespaces, 789-848). *)
Fixpoint serialize (e : xml) : str :=
  let '(El tag atts text kids tail) := e in
  $"<" ++ tag ++ flat_map ser_att atts ++
  (match opt_text text, kids with
   | [], [] => $" />"
   | t, _ => $">" ++ esc_text t ++ flat_map serialize kids ++ $"</" ++ tag ++ $">"
   end) ++ esc_text (opt_text tail).

(** ElementTree.write(encoding='unicode', xml_declaration=True), 718-731. *)
Definition xml_decl : str := $"<?xml version='1.0' encoding='utf-8'?>" ++ [nl].
Definition write_xml (e : xml) : str := xml_decl ++ serialize e.

(** ** Reading: characters and names (XML 1.0) *)

Definition xml_char (c : ascii) : bool :=
  (32 <=? code c)%N || ceqb c tab || ceqb c nl || ceqb c cr.
Definition xml_ws (c : ascii) : bool := ceqb c " " || ceqb c tab || ceqb c nl || ceqb c cr.
Definition name_start (c : ascii) : bool :=
  is_alpha_az c || ceqb c "_" || in_range 192 214 c || in_range 216 246 c || in_range 248 255 c.
Definition name_char (c : ascii) : bool :=
  name_start c || is_digit c || ceqb c "-" || ceqb c "." || in_range 183 183 c || ceqb c ":".

(** Line ends become single line feeds (XML 1.0 section 2.11). *)
Fixpoint norm_eol (s : str) : str :=
  match s with
  | [] => []
  | c :: s' =>
      if ceqb c cr then
        nl :: match s' with d :: s'' => if ceqb d nl then norm_eol s'' else norm_eol s' | [] => [] end
      else c :: norm_eol s'
  end.

(** The character meant by an entity or character reference. *)
Definition hex_val (c : ascii) : option Z :=
  if is_digit c then Some (digit_val c)
  else if in_range 97 102 c then Some (Z.of_N (code c) - 87)
  else if in_range 65 70 c then Some (Z.of_N (code c) - 55)
  else None.
Fixpoint hex_num (s : str) (acc : Z) : option Z :=
  match s with
  | [] => Some acc
  | c :: s' => match hex_val c with Some d => hex_num s' (16 * acc + d) | None => None end
  end.
Definition char_ref (n : Z) : res ascii :=
  if 255 <? n then Err OutOfModel
  else let c := ascii_of_N (Z.to_N n) in if xml_char c then Ok c else Err XmlError.
Definition entity (name : str) : res ascii :=
  if str_eqb name $"amp" then Ok "&"%char
  else if str_eqb name $"lt" then Ok "<"%char
  else if str_eqb name $"gt" then Ok ">"%char
  else if str_eqb name $"quot" then Ok dquote
  else if str_eqb name $"apos" then Ok "'"%char
  else match name with
       | "#"%char :: "x"%char :: (_ :: _) as h =>
           match hex_num (skipn 2 name) 0 with Some n => char_ref n | None => Err XmlError end
       | "#"%char :: (_ :: _) as d =>
           if forallb is_digit (skipn 1 name) then char_ref (digits_val (skipn 1 name)) else Err XmlError
       | _ => Err XmlError
       end.

(** ** Reading: from characters to events *)

Inductive event : Type :=
| EStart (tag : str) (atts : list (str * str))
| EEnd (tag : str)
| EText (s : str)
| ECData (s : str).

(** Where in the text the reader is.  Buffers are reversed. *)
Inductive lstate : Type :=
| LText (buf : str) (brackets : nat)      (* character data; ']' seen just before *)
| LTextEnt (buf ent : str)                (* in a reference within character data *)
| LLt                                     (* after '<' *)
| LTag (tag : str)                        (* in the name of a start tag *)
| LAtts (tag : str) (atts : list (str * str))            (* between attributes, after white space *)
| LAttName (tag : str) (atts : list (str * str)) (name : str)
| LAttEq (tag : str) (atts : list (str * str)) (name : str)    (* before '=' *)
| LAttQuote (tag : str) (atts : list (str * str)) (name : str) (* after '=' *)
| LAttVal (tag : str) (atts : list (str * str)) (name : str) (q : ascii) (buf : str)
| LAttEnt (tag : str) (atts : list (str * str)) (name : str) (q : ascii) (buf ent : str)
| LAttEnd (tag : str) (atts : list (str * str))          (* after the closing quote *)
| LSlash (tag : str) (atts : list (str * str))           (* after the '/' of an empty element *)
| LEnd (tag : str)                                       (* in the name of an end tag *)
| LEndWs (tag : str)
| LBang                                                  (* after '<!' *)
| LBangDash                                              (* after '<!-' *)
| LComment (dashes : nat)                                (* in a comment; '-' seen just before *)
| LCDataOpen (seen : str)                                (* after '<![' *)
| LCData (buf : str) (brackets : nat)                    (* in a CDATA section; ']' seen just before *)
| LPi (target : str)                                     (* in the target of a processing instruction *)
| LPiData (mark : bool)                                  (* in its data; '?' seen just before *)
| LPiEnd                                                 (* after the '?' that follows the target *)
| LErr (e : exn).

(** Events are collected in reverse; names in [lstate] are reversed too.  White space
    written as a reference is passed on like a CDATA section: neither can stand outside
    the root. *)
Definition flush (buf : str) (ev : list event) : list event :=
  match buf with [] => ev | _ => EText (rev buf) :: ev end.

(** Targets of processing instructions: not xml, in any case. *)
Definition pi_target (t : str) : bool :=
  match t with [] => false | _ => negb (str_eqb (lower t) $"xml") end.

Definition lex_step (st : lstate * list event) (c : ascii) : lstate * list event :=
  let '(s, ev) := st in
  match s with
  | LErr e => (LErr e, ev)
  | _ =>
  if negb (xml_char c) then (LErr XmlError, ev) else
  match s with
  | LText buf n =>
      if ceqb c "<" then (LLt, flush buf ev)
      else if ceqb c "&" then (LTextEnt buf [], ev)
      else if ceqb c "]" then (LText (c :: buf) (S n), ev)
      else if ceqb c ">" && (2 <=? n)%nat then (LErr XmlError, ev)
      else (LText (c :: buf) 0, ev)
  | LTextEnt buf ent =>
      if ceqb c ";" then
        match entity (rev ent) with
        | Ok d => if xml_ws d then (LText [] 0, ECData [d] :: flush buf ev) else (LText (d :: buf) 0, ev)
        | Err e => (LErr e, ev)
        end
      else if ceqb c "<" || ceqb c "&" then (LErr XmlError, ev)
      else (LTextEnt buf (c :: ent), ev)
  | LLt =>
      if ceqb c "/" then (LEnd [], ev)
      else if ceqb c "!" then (LBang, ev)
      else if ceqb c "?" then (LPi [], ev)
      else if name_start c then (LTag [c], ev)
      else (LErr XmlError, ev)
  | LTag tag =>
      if name_char c then (LTag (c :: tag), ev)
      else if xml_ws c then (LAtts (rev tag) [], ev)
      else if ceqb c ">" then (LText [] 0, EStart (rev tag) [] :: ev)
      else if ceqb c "/" then (LSlash (rev tag) [], ev)
      else (LErr XmlError, ev)
  | LAtts tag atts =>
      if xml_ws c then (s, ev)
      else if name_start c then (LAttName tag atts [c], ev)
      else if ceqb c ">" then (LText [] 0, EStart tag atts :: ev)
      else if ceqb c "/" then (LSlash tag atts, ev)
      else (LErr XmlError, ev)
  | LAttName tag atts name =>
      if name_char c then (LAttName tag atts (c :: name), ev)
      else if ceqb c "=" then (LAttQuote tag atts (rev name), ev)
      else if xml_ws c then (LAttEq tag atts (rev name), ev)
      else (LErr XmlError, ev)
  | LAttEq tag atts name =>
      if xml_ws c then (s, ev)
      else if ceqb c "=" then (LAttQuote tag atts name, ev)
      else (LErr XmlError, ev)
  | LAttQuote tag atts name =>
      if xml_ws c then (s, ev)
      else if ceqb c dquote || ceqb c "'" then (LAttVal tag atts name c [], ev)
      else (LErr XmlError, ev)
  | LAttVal tag atts name q buf =>
      if ceqb c q then (LAttEnd tag (atts ++ [(name, rev buf)]), ev)
      else if ceqb c "<" then (LErr XmlError, ev)
      else if ceqb c "&" then (LAttEnt tag atts name q buf [], ev)
      else if xml_ws c then (LAttVal tag atts name q (" "%char :: buf), ev)
      else (LAttVal tag atts name q (c :: buf), ev)
  | LAttEnt tag atts name q buf ent =>
      if ceqb c ";" then
        match entity (rev ent) with Ok d => (LAttVal tag atts name q (d :: buf), ev) | Err e => (LErr e, ev) end
      else if ceqb c "<" || ceqb c "&" || ceqb c q then (LErr XmlError, ev)
      else (LAttEnt tag atts name q buf (c :: ent), ev)
  | LAttEnd tag atts =>
      if xml_ws c then (LAtts tag atts, ev)
      else if ceqb c ">" then (LText [] 0, EStart tag atts :: ev)
      else if ceqb c "/" then (LSlash tag atts, ev)
      else (LErr XmlError, ev)
  | LSlash tag atts =>
      if ceqb c ">" then (LText [] 0, EEnd tag :: EStart tag atts :: ev) else (LErr XmlError, ev)
  | LEnd tag =>
      if name_char c then (LEnd (c :: tag), ev)
      else if xml_ws c then (LEndWs (rev tag), ev)
      else if ceqb c ">" then (LText [] 0, EEnd (rev tag) :: ev)
      else (LErr XmlError, ev)
  | LEndWs tag =>
      if xml_ws c then (s, ev)
      else if ceqb c ">" then (LText [] 0, EEnd tag :: ev)
      else (LErr XmlError, ev)
  | LBang =>
      if ceqb c "-" then (LBangDash, ev)
      else if ceqb c "[" then (LCDataOpen [], ev)
      else if ceqb c "D" then (LErr OutOfModel, ev)
      else (LErr XmlError, ev)
  | LBangDash => if ceqb c "-" then (LComment 0, ev) else (LErr XmlError, ev)
  | LComment n =>
      if (2 <=? n)%nat then if ceqb c ">" then (LText [] 0, ev) else (LErr XmlError, ev)
      else if ceqb c "-" then (LComment (S n), ev)
      else (LComment 0, ev)
  | LCDataOpen seen =>
      if str_eqb (rev (c :: seen)) $"CDATA[" then (LCData [] 0, ev)
      else if startswith (rev (c :: seen)) $"CDATA[" then (LCDataOpen (c :: seen), ev)
      else (LErr XmlError, ev)
  | LCData buf n =>
      if ceqb c "]" then (LCData (c :: buf) (S n), ev)
      else if ceqb c ">" && (2 <=? n)%nat then (LText [] 0, ECData (rev (skipn 2 buf)) :: ev)
      else (LCData (c :: buf) 0, ev)
  | LPi t =>
      if ceqb c ":" then (LErr OutOfModel, ev)
      else if match t with [] => name_start c | _ => name_char c end then (LPi (c :: t), ev)
      else if negb (pi_target (rev t)) then (LErr XmlError, ev)
      else if xml_ws c then (LPiData false, ev)
      else if ceqb c "?" then (LPiEnd, ev)
      else (LErr XmlError, ev)
  | LPiData mark => if mark && ceqb c ">" then (LText [] 0, ev) else (LPiData (ceqb c "?"), ev)
  | LPiEnd => if ceqb c ">" then (LText [] 0, ev) else (LErr XmlError, ev)
  | LErr e => (LErr e, ev)
  end end.

Definition lex (s : str) : res (list event) :=
  let '(st, ev) := fold_left lex_step s (LText [] 0, []) in
  match st with
  | LText buf _ => Ok (rev (flush buf ev))
  | LErr e => Err e
  | _ => Err XmlError
  end.

(** ** Reading: from events to elements *)

(** Namespaces in scope: prefix ([] for the default) to URI. *)
Notation scope := (list (str * str)).

(** prefix and local part of a qualified name. *)
Definition split_qname (n : str) : res (option str * str) :=
  match split1 ":" n with
  | None => Ok (None, n)
  | Some (p, l) =>
      match p, l with
      | _ :: _, c :: _ => if name_start c && negb (has_char ":" l) then Ok (Some p, l) else Err XmlError
      | _, _ => Err XmlError
      end
  end.

(** The namespace a prefix stands for; xml always stands for the same. *)
Definition XML_NS : str := $"http://www.w3.org/XML/1998/namespace".
Definition XMLNS_NS : str := $"http://www.w3.org/2000/xmlns/".
Definition prefix_ns (p : str) (sc : scope) : option str :=
  if str_eqb p $"xml" then Some XML_NS else sget p sc.

Definition expand (uri local : str) : str := $"{" ++ uri ++ $"}" ++ local.

(** Names that namespaces cannot have: two are reserved, and ElementTree.py has expat put
    a closing brace after the name (addBinding in expat's xmlparse.c). *)
Definition bad_ns (v : str) : bool := str_eqb v XML_NS || str_eqb v XMLNS_NS || has_char "}" v.

(** The namespace declarations among the attributes. *)
Fixpoint declare (atts : list (str * str)) (sc : scope) : res scope :=
  match atts with
  | [] => Ok sc
  | (n, v) :: atts' =>
      let* (p, l) := split_qname n in
      match p with
      | None =>
          if str_eqb n $"xmlns" then if bad_ns v then Err XmlError else declare atts' (sset [] v sc)
          else declare atts' sc
      | Some p =>
          if str_eqb p $"xmlns" then
            if str_eqb l $"xml" || str_eqb l $"xmlns" then Err OutOfModel
            else if str_eqb v [] || bad_ns v then Err XmlError
            else declare atts' (sset l v sc)
          else declare atts' sc
      end
  end.

Definition resolve_tag (sc : scope) (n : str) : res str :=
  let* (p, l) := split_qname n in
  match p with
  | None => match sget [] sc with Some (u0 :: u) => Ok (expand (u0 :: u) l) | _ => Ok l end
  | Some p => match prefix_ns p sc with Some u => Ok (expand u l) | None => Err XmlError end
  end.

(** The attributes that are not declarations, with resolved names. *)
Fixpoint resolve_atts (sc : scope) (atts : list (str * str)) : res (list (str * str)) :=
  match atts with
  | [] => Ok []
  | (n, v) :: atts' =>
      let* (p, l) := split_qname n in
      let* rest := resolve_atts sc atts' in
      match p with
      | None => if str_eqb n $"xmlns" then Ok rest else Ok ((n, v) :: rest)
      | Some p =>
          if str_eqb p $"xmlns" then Ok rest
          else match prefix_ns p sc with Some u => Ok ((expand u l, v) :: rest) | None => Err XmlError end
      end
  end.

Fixpoint distinct (l : list str) : bool :=
  match l with [] => true | x :: l' => negb (in_strs x l') && distinct l' end.

(** A start tag: scope, tag and attributes inside it. *)
Definition open_tag (sc : scope) (tag : str) (atts : list (str * str)) : res (scope * str * list (str * str)) :=
  if negb (distinct (map fst atts)) then Err XmlError
  else
    let* sc' := declare atts sc in
    let* t := resolve_tag sc' tag in
    let* a := resolve_atts sc' atts in
    if distinct (map fst a) then Ok (sc', t, a) else Err XmlError.

(** An element being read; children in reverse.  TreeBuilder, ElementTree.py:1393-1527. *)
Record frame : Type := MkFrame
  { f_raw : str; f_scope : scope; f_tag : str; f_atts : list (str * str);
    f_text : option str; f_kids : list xml }.

(** Adjacent pieces of text are joined. *)
Definition more_text (t : option str) (s : str) : option str :=
  match t with Some x => Some (x ++ s) | None => Some s end.
Definition add_text (s : str) (f : frame) : frame :=
  match f_kids f with
  | [] => MkFrame (f_raw f) (f_scope f) (f_tag f) (f_atts f) (more_text (f_text f) s) []
  | El t a x k tl :: ks =>
      MkFrame (f_raw f) (f_scope f) (f_tag f) (f_atts f) (f_text f) (El t a x k (more_text tl s) :: ks)
  end.
Definition add_kid (e : xml) (f : frame) : frame :=
  MkFrame (f_raw f) (f_scope f) (f_tag f) (f_atts f) (f_text f) (e :: f_kids f).
Definition close_frame (f : frame) : xml :=
  El (f_tag f) (f_atts f) (f_text f) (rev (f_kids f)) None.

Definition bstate : Type := (list frame * option xml)%type.

Definition build_step (st : bstate) (e : event) : res bstate :=
  let '(stack, root) := st in
  match e, stack, root with
  | EText s, [], _ => if forallb xml_ws s then Ok st else Err XmlError
  | EText s, f :: fs, _ => Ok (add_text s f :: fs, root)
  | ECData _, [], _ => Err XmlError
  | ECData [], _, _ => Ok st
  | ECData s, f :: fs, _ => Ok (add_text s f :: fs, root)
  | EStart tag atts, [], Some _ => Err XmlError
  | EStart tag atts, _, _ =>
      let sc := match stack with f :: _ => f_scope f | [] => [] end in
      let* (sc', t, a) := open_tag sc tag atts in
      Ok (MkFrame tag sc' t a None [] :: stack, root)
  | EEnd tag, [], _ => Err XmlError
  | EEnd tag, f :: fs, _ =>
      if str_eqb tag (f_raw f) then
        match fs with
        | [] => Ok ([], Some (close_frame f))
        | g :: fs' => Ok (add_kid (close_frame f) g :: fs', root)
        end
      else Err XmlError
  end.

Fixpoint build (evs : list event) (st : bstate) : res bstate :=
  match evs with
  | [] => Ok st
  | e :: evs' => let* st' := build_step st e in build evs' st'
  end.

(** What the XML declaration says.  One of its settings, parsePseudoAttribute in expat's
    xmltok.c: [None] if there is something else, [Some None] at the end. *)
Fixpoint drop_ws (s : str) : str :=
  match s with c :: s' => if xml_ws c then drop_ws s' else s | [] => [] end.
Fixpoint take_key (s : str) : str * str :=
  match s with
  | c :: s' => if ceqb c "=" || xml_ws c then ([], s) else let '(a, b) := take_key s' in (c :: a, b)
  | [] => ([], [])
  end.
Definition decl_char (c : ascii) : bool := is_alpha_az c || is_digit c || has_char c $"._-".
Definition pseudo_att (s : str) : option (option (str * str * str)) :=
  match drop_ws s with
  | [] => Some None
  | s1 =>
      if (List.length s1 =? List.length s)%nat then None
      else
        let '(n, s2) := take_key s1 in
        match n, drop_ws s2 with
        | _ :: _, "="%char :: s3 =>
            match drop_ws s3 with
            | q :: s4 =>
                if ceqb q dquote || ceqb q "'" then
                  match split1 q s4 with
                  | Some (v, rest) => if forallb decl_char v then Some (Some (n, v, rest)) else None
                  | None => None
                  end
                else None
            | [] => None
            end
        | _, _ => None
        end
  end.
(** doParseXmlDecl in xmltok.c: the version, which may be any, then perhaps the encoding,
    then perhaps standalone. *)
Definition standalone_ok (n v rest : str) : bool :=
  str_eqb n $"standalone" && (str_eqb v $"yes" || str_eqb v $"no") && forallb xml_ws rest.
Definition decl_ok (s : str) : bool :=
  match pseudo_att s with
  | Some (Some (n, _, rest)) =>
      str_eqb n $"version" &&
      match pseudo_att rest with
      | None => false
      | Some None => true
      | Some (Some (n, v, rest)) =>
          if str_eqb n $"encoding" then
            match v with c :: _ => is_alpha_az c | [] => false end &&
            match pseudo_att rest with
            | None => false
            | Some None => true
            | Some (Some (n, v, rest)) => standalone_ok n v rest
            end
          else standalone_ok n v rest
      end
  | _ => false
  end.

(** The XML declaration, if there is one, is checked and skipped. *)
Fixpoint after_decl (s : str) : option str :=
  match s with
  | [] => None
  | c :: s' => if startswith $"?>" s then Some (skipn 2 s) else after_decl s'
  end.
Definition skip_decl (s : str) : res str :=
  if startswith $"<?xml" s && match skipn 5 s with c :: _ => xml_ws c | [] => false end then
    match after_decl s with
    | Some r => if decl_ok (firstn (List.length s - List.length r - 7) (skipn 5 s)) then Ok r else Err XmlError
    | None => Err XmlError
    end
  else Ok s.

(** parse(fh).getroot(). *)
Definition parse_text (s : str) : res xml :=
  let* s := skip_decl (norm_eol s) in
  let* evs := lex s in
  let* st := build evs ([], None) in
  match st with
  | ([], Some root) => Ok root
  | _ => Err XmlError
  end.

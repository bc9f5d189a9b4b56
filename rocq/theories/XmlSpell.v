(** * XmlSpell: the ways to write a document

    A grammar of XML documents, after XML 1.0 and Namespaces in XML 1.0: which
    texts stand for which trees.  It does not refer to the reader. *)

From Verif Require Import Py.
From Verif Require Xml.
Notation xml := Xml.xml.
Notation El := Xml.El.

(** ** Characters and names (XML 1.0, productions 2 to 5) *)

Definition between (a b : N) (c : ascii) : Prop := (a <= code c <= b)%N.
Definition is_char (c : ascii) : Prop := between 32 255 c \/ In c [tab; nl; cr].
Definition is_white (c : ascii) : Prop := In c [" "%char; tab; nl; cr].
Definition is_start (c : ascii) : Prop :=
  between 65 90 c \/ c = "_"%char \/ between 97 122 c
  \/ between 192 214 c \/ between 216 246 c \/ between 248 255 c.
Definition is_name (c : ascii) : Prop :=
  is_start c \/ c = "-"%char \/ c = "."%char \/ between 48 57 c \/ between 183 183 c.

Definition spaces (s : str) : Prop := Forall is_white s.
Definition ncname (n : str) : Prop := exists c r, n = c :: r /\ is_start c /\ Forall is_name r.
Definition qname (n : str) : Prop :=
  ncname n \/ exists p l, n = p ++ $":" ++ l /\ ncname p /\ ncname l.

(** p does not occur in s. *)
Definition free_of (p s : str) : Prop := ~ exists a b, s = a ++ p ++ b.

(** ** References (productions 66 to 68) *)

Definition digit (base : Z) (c : ascii) (i : nat) : Prop :=
  Z.of_nat i < base
  /\ (nth_error $"0123456789abcdef" i = Some c \/ nth_error $"0123456789ABCDEF" i = Some c).
Inductive numeral (base : Z) : str -> Z -> Prop :=
| num_nil : numeral base [] 0
| num_digit ds n c i : numeral base ds n -> digit base c i ->
    numeral base (ds ++ [c]) (base * n + Z.of_nat i).
Inductive refers : str -> ascii -> Prop :=
| ref_amp : refers $"amp" "&"
| ref_lt : refers $"lt" "<"
| ref_gt : refers $"gt" ">"
| ref_apos : refers $"apos" "'"
| ref_quot : refers $"quot" dquote
| ref_dec ds c : ds <> [] -> is_char c -> numeral 10 ds (Z.of_N (code c)) -> refers ($"#" ++ ds) c
| ref_hex ds c : ds <> [] -> is_char c -> numeral 16 ds (Z.of_N (code c)) -> refers ($"#x" ++ ds) c.

(** ** Comments and processing instructions (productions 15 to 17) *)

Inductive comment : str -> Prop :=
| a_comment c : Forall is_char c -> free_of $"--" (c ++ $"-") -> comment ($"<!--" ++ c ++ $"-->").
Inductive instruction : str -> Prop :=
| pi_bare t : ncname t -> lower t <> $"xml" -> instruction ($"<?" ++ t ++ $"?>")
| pi_data t w d : ncname t -> lower t <> $"xml" -> is_white w -> Forall is_char d -> free_of $"?>" d ->
    instruction ($"<?" ++ t ++ w :: d ++ $"?>").

(** ** Text within elements (productions 14, 18 to 21 and 43) *)

(** Markup, or the end of the text, follows. *)
Definition at_markup (s : str) : Prop := s = [] \/ exists s', s = "<"%char :: s' \/ s = "&"%char :: s'.

(** chunk s m: s stands for the characters m. *)
Inductive chunk : str -> str -> Prop :=
| ch_end : chunk [] []
| ch_plain r s m :
    Forall (fun c => is_char c /\ c <> "<"%char /\ c <> "&"%char) r -> free_of $"]]>" r ->
    at_markup s -> chunk s m -> chunk (r ++ s) (r ++ m)
| ch_ref n c s m : refers n c -> chunk s m -> chunk ($"&" ++ n ++ $";" ++ s) (c :: m)
| ch_cdata d s m : Forall is_char d -> free_of $"]]>" d -> chunk s m ->
    chunk ($"<![CDATA[" ++ d ++ $"]]>" ++ s) (d ++ m)
| ch_comment c s m : comment c -> chunk s m -> chunk (c ++ s) m
| ch_pi c s m : instruction c -> chunk s m -> chunk (c ++ s) m.

Definition some_text (m : str) : option str := match m with [] => None | _ => Some m end.

(** ** Attributes (productions 10 and 41, section 3.3.3) *)

Inductive att_value (q : ascii) : str -> str -> Prop :=
| av_end : att_value q [] []
| av_space w s m : is_white w -> att_value q s m -> att_value q (w :: s) (" "%char :: m)
| av_char c s m : is_char c -> ~ is_white c -> c <> q -> c <> "<"%char -> c <> "&"%char ->
    att_value q s m -> att_value q (c :: s) (c :: m)
| av_ref n c s m : refers n c -> att_value q s m -> att_value q ($"&" ++ n ++ $";" ++ s) (c :: m).

Inductive attributes : str -> list (str * str) -> Prop :=
| at_end : attributes [] []
| at_next w n w1 w2 q v m s l :
    w <> [] -> spaces w -> qname n -> spaces w1 -> spaces w2 -> In q [dquote; "'"%char] ->
    att_value q v m -> attributes s l ->
    attributes (w ++ n ++ w1 ++ $"=" ++ w2 ++ [q] ++ v ++ [q] ++ s) ((n, m) :: l).

(** ** Namespaces (Namespaces in XML 1.0) *)

(** What the prefixes stand for; the empty prefix is for the default namespace. *)
Notation namespaces := (str -> option str).
Definition XML_URI : str := $"http://www.w3.org/XML/1998/namespace".
Definition XMLNS_URI : str := $"http://www.w3.org/2000/xmlns/".
Definition initial : namespaces := fun p => if str_eqb p $"xml" then Some XML_URI else None.

Definition declares (n p : str) : Prop := (n = $"xmlns" /\ p = []) \/ (n = $"xmlns:" ++ p /\ p <> []).
Definition declared (atts : list (str * str)) (p u : str) : Prop :=
  exists n, declares n p /\ In (n, u) atts.
(** Two namespaces are reserved; a closing brace cannot occur in a URI. *)
Definition declarations_good (atts : list (str * str)) : Prop := forall p u, declared atts p u ->
  ~ In p [$"xml"; $"xmlns"] /\ ~ In u [XML_URI; XMLNS_URI] /\ ~ In "}"%char u /\ (p <> [] -> u <> []).
Definition within (atts : list (str * str)) (sc sc' : namespaces) : Prop := forall p,
  (forall u, declared atts p u -> sc' p = Some u)
  /\ ((forall u, ~ declared atts p u) -> sc' p = sc p).

Definition named (u l : str) : str := $"{" ++ u ++ $"}" ++ l.
Inductive tag_means (sc : namespaces) : str -> str -> Prop :=
| tm_none n : ncname n -> (sc [] = None \/ sc [] = Some []) -> tag_means sc n n
| tm_default n u : ncname n -> sc [] = Some u -> u <> [] -> tag_means sc n (named u n)
| tm_prefix p l u : ncname p -> ncname l -> sc p = Some u -> tag_means sc (p ++ $":" ++ l) (named u l).
Inductive atts_mean (sc : namespaces) : list (str * str) -> list (str * str) -> Prop :=
| am_end : atts_mean sc [] []
| am_decl n v p l a : declares n p -> atts_mean sc l a -> atts_mean sc ((n, v) :: l) a
| am_plain n v l a : ncname n -> n <> $"xmlns" -> atts_mean sc l a ->
    atts_mean sc ((n, v) :: l) ((n, v) :: a)
| am_prefix p n u v l a : ncname p -> ncname n -> p <> $"xmlns" -> sc p = Some u -> atts_mean sc l a ->
    atts_mean sc ((p ++ $":" ++ n, v) :: l) ((named u n, v) :: a).

(** A start tag, in sc, with the name and attributes written, means an element with
    the name t and attributes a, and the namespaces are sc' inside. *)
Definition start_means (sc : namespaces) (tag : str) (atts : list (str * str))
    (sc' : namespaces) (t : str) (a : list (str * str)) : Prop :=
  NoDup (map fst atts) /\ declarations_good atts /\ within atts sc sc'
  /\ tag_means sc' tag t /\ atts_mean sc' atts a /\ NoDup (map fst a).

(** ** Elements (productions 39 to 44) *)

Inductive element : namespaces -> str -> xml -> Prop :=
| el_empty sc sc' tag s atts w t a :
    attributes s atts -> spaces w -> start_means sc tag atts sc' t a ->
    element sc ($"<" ++ tag ++ s ++ w ++ $"/>") (El t a None [] None)
| el_full sc sc' tag s atts w t a x m body ks w' :
    attributes s atts -> spaces w -> start_means sc tag atts sc' t a ->
    chunk x m -> elements sc' body ks -> spaces w' ->
    element sc ($"<" ++ tag ++ s ++ w ++ $">" ++ x ++ body ++ $"</" ++ tag ++ w' ++ $">")
      (El t a (some_text m) ks None)
(** Elements, each with the text after it. *)
with elements : namespaces -> str -> list xml -> Prop :=
| els_end sc : elements sc [] []
| els_next sc s t a x k y m rest ks :
    element sc s (El t a x k None) -> chunk y m -> elements sc rest ks ->
    elements sc (s ++ y ++ rest) (El t a x k (some_text m) :: ks).

(** ** Documents (productions 1, 22 to 27, 32, 80 and 81) *)

Inductive misc : str -> Prop :=
| mi_end : misc []
| mi_space w s : is_white w -> misc s -> misc (w :: s)
| mi_comment c s : comment c -> misc s -> misc (c ++ s)
| mi_pi c s : instruction c -> misc s -> misc (c ++ s).

Definition encoding_name (n : str) : Prop := exists c r, n = c :: r
  /\ (between 65 90 c \/ between 97 122 c)
  /\ Forall (fun c => between 65 90 c \/ between 97 122 c \/ between 48 57 c \/ In c $"._-") r.
Inductive setting : str -> str -> str -> Prop :=
| a_setting w n w1 w2 q v : w <> [] -> spaces w -> spaces w1 -> spaces w2 -> In q [dquote; "'"%char] ->
    setting n v (w ++ n ++ w1 ++ $"=" ++ w2 ++ [q] ++ v ++ [q]).
(** [versions]: the version numbers allowed. *)
Inductive declaration (versions : str -> Prop) : str -> Prop :=
| de_none : declaration versions []
| de_some n v e s w :
    versions n -> setting $"version" n v ->
    (e = [] \/ exists n, encoding_name n /\ setting $"encoding" n e) ->
    (s = [] \/ setting $"standalone" $"yes" s \/ setting $"standalone" $"no" s) ->
    spaces w ->
    declaration versions ($"<?xml" ++ v ++ e ++ s ++ w ++ $"?>").

Inductive document (versions : str -> Prop) : str -> xml -> Prop :=
| a_document d before s after e :
    declaration versions d -> misc before -> element initial s e -> misc after ->
    document versions (d ++ before ++ s ++ after) e.

(** Line ends (section 2.11): a line may end in LF, CR LF, or CR. *)
Inductive line_ends : str -> str -> Prop :=
| le_end : line_ends [] []
| le_crlf s t : line_ends s t -> line_ends (cr :: nl :: s) (nl :: t)
| le_cr s t : (forall s', s <> nl :: s') -> line_ends s t -> line_ends (cr :: s) (nl :: t)
| le_char c s t : c <> cr -> line_ends s t -> line_ends (c :: s) (c :: t).

(** The text s is a way to write the tree e. *)
Definition spells_in (versions : str -> Prop) (s : str) (e : xml) : Prop :=
  exists s', line_ends s s' /\ document versions s' e.
Definition version_1_0 (v : str) : Prop := v = $"1.0".
Definition spells : str -> xml -> Prop := spells_in version_1_0.

(** The same with any version in the declaration: letters, digits, dots, dashes and low
    lines. *)
Definition any_version (v : str) : Prop :=
  Forall (fun c => between 65 90 c \/ between 97 122 c \/ between 48 57 c \/ In c $"._-") v.

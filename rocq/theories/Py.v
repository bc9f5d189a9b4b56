(** * Py: the fragment of Python the resync library relies on.

    Strings are lists of code points below 256 ([list ascii]).  This is a
    simplification: Python strings range over all of Unicode.  The character
    classes below are Python's, restricted to that range.

    Exceptions are values: a function that may raise returns [res A]. *)

From Coq Require Export List Arith ZArith NArith Lia Bool Ascii String.
Export ListNotations.
Open Scope string_scope.
Open Scope Z_scope.
Open Scope list_scope.

Notation str := (list ascii).

(** String literals: [$"abc"]. *)
Definition lit (s : String.string) : str := list_ascii_of_string s.
Arguments lit : simpl never.
Notation "$ s" := (lit s%string) (at level 1, s at level 0, format "$ s").

(** ** Exceptions *)

Inductive exn : Set :=
| ValueError | IndexError | KeyError | AttributeError | TypeError
| IOError | SocketTimeout | ReError
| PlainException            (* raise Exception("...") *)
| MapperError | ChangeTypeError | ResourceListDupeError | ResourceSetDupeError
| ListBaseIndexError | SitemapIndexError | SitemapParseError
| XmlError                  (* xml.etree.ElementTree.ParseError *)
| DumpError | ClientError | ClientFatalError
| ConfigError               (* configparser.Error *)
| ExplorerQuit
| OutOfModel.               (* behaviour the model does not cover *)

Inductive res (A : Type) : Type := Ok (a : A) | Err (e : exn).
Arguments Ok {A} a.
Arguments Err {A} e.

Definition bind {A B} (x : res A) (f : A -> res B) : res B :=
  match x with Ok a => f a | Err e => Err e end.
Notation "'let*' x := e1 'in' e2" :=
  (bind e1 (fun x => e2)) (at level 200, x pattern, e1 at level 100, e2 at level 200).

Definition is_ok {A} (x : res A) : bool := match x with Ok _ => true | Err _ => false end.

Fixpoint mapM {A B} (f : A -> res B) (l : list A) : res (list B) :=
  match l with
  | [] => Ok []
  | a :: l' => let* b := f a in let* bs := mapM f l' in Ok (b :: bs)
  end.

(** ** Characters *)

Definition code (c : ascii) : N := N_of_ascii c.
Definition ceqb : ascii -> ascii -> bool := Ascii.eqb.

Definition in_range (lo hi : N) (c : ascii) : bool :=
  (lo <=? code c)%N && (code c <=? hi)%N.

(** [\d] (unicode category Nd; below 256 only 0-9). *)
Definition is_digit : ascii -> bool := in_range 48 57.
Definition is_upper_az : ascii -> bool := in_range 65 90.
Definition is_lower_az : ascii -> bool := in_range 97 122.
Definition is_alpha_az c := is_upper_az c || is_lower_az c.

(** [\w]: alphanumerics in the sense of str.isalnum, and underscore.  Below 256
    these are, besides ASCII: AA, B2, B3, B5, B9, BA, BC-BE, C0-D6, D8-F6, F8-FF. *)
Definition is_word (c : ascii) : bool :=
  is_digit c || is_alpha_az c || in_range 95 95 c
  || in_range 170 170 c || in_range 178 179 c || in_range 181 181 c
  || in_range 185 186 c || in_range 188 190 c
  || in_range 192 214 c || in_range 216 246 c || in_range 248 255 c.

(** str.isspace / [\s]: TAB-CR, FS-US, space, NEL, NBSP. *)
Definition is_space (c : ascii) : bool :=
  in_range 9 13 c || in_range 28 31 c || in_range 32 32 c
  || in_range 133 133 c || in_range 160 160 c.

Definition nl : ascii := ascii_of_N 10.
Definition cr : ascii := ascii_of_N 13.
Definition tab : ascii := ascii_of_N 9.
Definition dquote : ascii := ascii_of_N 34.

(** str.lower on one ASCII character; other letters of the range are also
    lower-cased (C0-DE except D7 map to +32). *)
Definition lower_c (c : ascii) : ascii :=
  if is_upper_az c || in_range 192 214 c || in_range 216 222 c
  then ascii_of_N (code c + 32) else c.
Definition lower (s : str) : str := map lower_c s.

(** ** Strings *)

Fixpoint str_eqb (a b : str) : bool :=
  match a, b with
  | [], [] => true
  | x :: a', y :: b' => ceqb x y && str_eqb a' b'
  | _, _ => false
  end.

(** [a < b] on Python strings: lexicographic by code point. *)
Fixpoint str_ltb (a b : str) : bool :=
  match a, b with
  | _, [] => false
  | [], _ :: _ => true
  | x :: a', y :: b' =>
      if (code x <? code y)%N then true
      else if (code y <? code x)%N then false
      else str_ltb a' b'
  end.

Definition str_leb (a b : str) : bool := negb (str_ltb b a).

(** s.startswith(p) *)
Fixpoint startswith (p s : str) : bool :=
  match p, s with
  | [], _ => true
  | x :: p', y :: s' => ceqb x y && startswith p' s'
  | _ :: _, [] => false
  end.

(** s.endswith(p) *)
Definition endswith (p s : str) : bool := startswith (rev p) (rev s).

(** c in s *)
Definition has_char (c : ascii) (s : str) : bool := existsb (ceqb c) s.

(** s.split(c) for a one-character separator: always at least one field. *)
Fixpoint split_on (c : ascii) (s : str) : list str :=
  match s with
  | [] => [[]]
  | x :: s' =>
      if ceqb x c then [] :: split_on c s'
      else match split_on c s' with
           | f :: fs => (x :: f) :: fs
           | [] => [[x]]
           end
  end.

(** s.split(c, 1): [None] when there is no separator (a one-element list in
    Python), else the text before and after the first one. *)
Fixpoint split1 (c : ascii) (s : str) : option (str * str) :=
  match s with
  | [] => None
  | x :: s' =>
      if ceqb x c then Some ([], s')
      else match split1 c s' with
           | Some (a, b) => Some (x :: a, b)
           | None => None
           end
  end.

(** s.split() : fields separated by runs of whitespace, no empty fields. *)
Fixpoint split_ws_aux (s : str) (cur : str) : list str :=
  match s with
  | [] => match cur with [] => [] | _ => [rev cur] end
  | x :: s' =>
      if is_space x then
        match cur with [] => split_ws_aux s' [] | _ => rev cur :: split_ws_aux s' [] end
      else split_ws_aux s' (x :: cur)
  end.
Definition split_ws (s : str) : list str := split_ws_aux s [].

(** sep.join(l) *)
Fixpoint join (sep : str) (l : list str) : str :=
  match l with
  | [] => []
  | [x] => x
  | x :: l' => x ++ sep ++ join sep l'
  end.

(** s.lstrip(chars): removes leading characters that are members of [chars]. *)
Fixpoint lstrip (chars s : str) : str :=
  match s with
  | [] => []
  | x :: s' => if has_char x chars then lstrip chars s' else s
  end.
Definition rstrip (chars s : str) : str := rev (lstrip chars (rev s)).
Definition strip_ws (s : str) : str :=
  let fix ls s := match s with [] => [] | x :: s' => if is_space x then ls s' else s end in
  rev (ls (rev (ls s))).

(** s.rfind(c) as a split: text up to and including the last [c], and the rest.
    [None] when [c] does not occur. *)
Fixpoint rsplit1 (c : ascii) (s : str) : option (str * str) :=
  match s with
  | [] => None
  | x :: s' =>
      match rsplit1 c s' with
      | Some (a, b) => Some (x :: a, b)
      | None => if ceqb x c then Some ([x], s') else None
      end
  end.

(** ** Decimal numbers *)

Definition digit_char (n : Z) : ascii := ascii_of_N (Z.to_N (48 + n)).
Definition digit_val (c : ascii) : Z := Z.of_N (code c) - 48.

(** Value of a string of decimal digits. *)
Definition digits_val (s : str) : Z := fold_left (fun a c => 10 * a + digit_val c) s 0.

(** Exactly [k] decimal digits of [n] (most significant first). *)
Fixpoint fixed_digits (k : nat) (n : Z) : str :=
  match k with
  | O => []
  | S k' => fixed_digits k' (n / 10) ++ [digit_char (n mod 10)]
  end.

(** Number of decimal digits of [n >= 0] (at least one), by fuel. *)
Fixpoint ndigits_fuel (fuel : nat) (n : Z) : nat :=
  match fuel with
  | O => 1%nat
  | S f => if n <? 10 then 1%nat else S (ndigits_fuel f (n / 10))
  end.
Definition ndigits (n : Z) : nat := ndigits_fuel (Z.to_nat (Z.log2 n + 1)) n.

(** str(n) for a non-negative integer. *)
Definition print_nat (n : Z) : str := fixed_digits (ndigits n) n.
(** str(n) for an integer. *)
Definition print_int (n : Z) : str :=
  if n <? 0 then "-"%char :: print_nat (- n) else print_nat n.

(** "%0kd" % n for [n >= 0]: zero padded to at least [k] digits. *)
Definition print_pad (k : nat) (n : Z) : str := fixed_digits (Nat.max k (ndigits n)) n.

(** int(s) for a string: optional surrounding whitespace, optional sign,
    decimal digits with single underscores allowed between digits. *)
Fixpoint int_digits (s : str) (acc : Z) (after_digit : bool) : option Z :=
  match s with
  | [] => if after_digit then Some acc else None
  | c :: s' =>
      if is_digit c then int_digits s' (10 * acc + digit_val c) true
      else if ceqb c "_"%char then (if after_digit then
             match s' with
             | d :: _ => if is_digit d then int_digits s' acc false else None
             | [] => None
             end else None)
      else None
  end.
Definition parse_int (s : str) : option Z :=
  match strip_ws s with
  | "-"%char :: r => option_map Z.opp (int_digits r 0 false)
  | "+"%char :: r => int_digits r 0 false
  | r => int_digits r 0 false
  end.

(** ** Dictionaries: insertion-ordered association lists *)

Section Dict.
  Context {K V : Type} (eqb : K -> K -> bool).

  Fixpoint dget (k : K) (d : list (K * V)) : option V :=
    match d with
    | [] => None
    | (k', v) :: d' => if eqb k k' then Some v else dget k d'
    end.
  Definition dmem (k : K) (d : list (K * V)) : bool :=
    match dget k d with Some _ => true | None => false end.
  (** d[k] = v: replaces in place, or appends. *)
  Fixpoint dset (k : K) (v : V) (d : list (K * V)) : list (K * V) :=
    match d with
    | [] => [(k, v)]
    | (k', v') :: d' => if eqb k k' then (k', v) :: d' else (k', v') :: dset k v d'
    end.
  (** del d[k] *)
  Fixpoint ddel (k : K) (d : list (K * V)) : list (K * V) :=
    match d with
    | [] => []
    | (k', v') :: d' => if eqb k k' then d' else (k', v') :: ddel k d'
    end.
  Definition dkeys (d : list (K * V)) : list K := map fst d.
End Dict.

Definition opt_eqb {A} (eqb : A -> A -> bool) (a b : option A) : bool :=
  match a, b with
  | Some x, Some y => eqb x y
  | None, None => true
  | _, _ => false
  end.

Notation sget := (dget str_eqb).
Notation sset := (dset str_eqb).
Notation sdel := (ddel str_eqb).
Notation smem := (dmem str_eqb).

(** [x in l] for a list of strings *)
Definition in_strs (x : str) (l : list str) : bool := existsb (str_eqb x) l.

(** sorted(l) on strings.  Insertion sort; Python's sort is stable and yields
    the same list because equal strings are indistinguishable. *)
Fixpoint insert_str (x : str) (l : list str) : list str :=
  match l with
  | [] => [x]
  | y :: l' => if str_leb x y then x :: l else y :: insert_str x l'
  end.
Fixpoint sort_strs (l : list str) : list str :=
  match l with
  | [] => []
  | x :: l' => insert_str x (sort_strs l')
  end.

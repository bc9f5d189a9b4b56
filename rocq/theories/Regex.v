(** * Regex: Python's [re] for the constructs resync uses.

    Patterns are parsed from the pattern string itself, because mapper.py and
    resource_list_builder.py build patterns from user supplied strings.  The
    matcher returns every way to match, in the order Python's backtracking
    matcher would try them; the first one is Python's answer.

    Not covered (the parser answers [PUnsupported]): lazy and possessive
    quantifiers, backreferences, look-around and other (?...) groups, word
    boundaries.  An iteration of a repeat that consumes nothing is not taken
    (in Python it may set a group to the empty string); no pattern of resync
    repeats something that can be empty. *)

From Verif Require Import Py.
Local Open Scope nat_scope.

Inductive citem : Set :=
| CSingle (c : ascii)
| CRange (lo hi : ascii)
| CDigit (neg : bool) | CWord (neg : bool) | CSpace (neg : bool).

Definition citem_match (i : citem) (c : ascii) : bool :=
  match i with
  | CSingle x => ceqb x c
  | CRange lo hi => in_range (code lo) (code hi) c
  | CDigit n => xorb n (is_digit c)
  | CWord n => xorb n (is_word c)
  | CSpace n => xorb n (is_space c)
  end.

Inductive re : Set :=
| Eps
| Cls (neg : bool) (items : list citem)
| Cat (a b : re)
| Alt (a b : re)
| Star (a : re)
| Grp (n : nat) (a : re)
| Bos
| Eos.

Definition cls_match (neg : bool) (items : list citem) (c : ascii) : bool :=
  xorb neg (existsb (fun i => citem_match i c) items).

(** Position in the subject, the rest of the subject, and the groups set so far. *)
Record mst : Type := MSt { m_pos : nat; m_rest : str; m_caps : list (nat * str) }.

Definition cap_get (n : nat) (st : mst) : option str := dget Nat.eqb n (m_caps st).

Fixpoint star_loop (step : mst -> list mst) (fuel : nat) (st : mst) : list mst :=
  match fuel with
  | O => [st]
  | S f =>
      flat_map (fun st' => if m_pos st' =? m_pos st then [] else star_loop step f st')
        (step st) ++ [st]
  end.

Fixpoint run (r : re) (st : mst) : list mst :=
  match r with
  | Eps => [st]
  | Cls neg items =>
      match m_rest st with
      | c :: rest' =>
          if cls_match neg items c then [MSt (S (m_pos st)) rest' (m_caps st)] else []
      | [] => []
      end
  | Cat a b => flat_map (run b) (run a st)
  | Alt a b => run a st ++ run b st
  | Star a => star_loop (run a) (List.length (m_rest st)) st
  | Grp n a =>
      map (fun st' => MSt (m_pos st') (m_rest st')
                        (dset Nat.eqb n (firstn (m_pos st' - m_pos st) (m_rest st)) (m_caps st')))
        (run a st)
  | Bos => if m_pos st =? 0 then [st] else []
  | Eos => match m_rest st with
           | [] => [st]
           | [c] => if ceqb c nl then [st] else []
           | _ => []
           end
  end.

(** re.match(r, s) *)
Definition re_match (r : re) (s : str) : option mst := hd_error (run r (MSt 0 s [])).

(** re.search(r, s): the leftmost match, as the number of skipped characters and
    the match. *)
Fixpoint search_from (r : re) (pos : nat) (s : str) : option (nat * mst) :=
  match hd_error (run r (MSt pos s [])) with
  | Some st => Some (pos, st)
  | None => match s with [] => None | _ :: s' => search_from r (S pos) s' end
  end.
Definition re_search (r : re) (s : str) : option (nat * mst) := search_from r 0 s.

(** re.sub(r, repl, s) for a constant replacement and a pattern that never
    matches the empty string: every leftmost non-overlapping match replaced. *)
Fixpoint sub_from (fuel : nat) (r : re) (repl : str) (pos : nat) (s : str) : str :=
  match fuel with
  | O => s
  | S f =>
      match hd_error (run r (MSt pos s [])) with
      | Some st =>
          if m_pos st =? pos then
            match s with [] => [] | c :: s' => c :: sub_from f r repl (S pos) s' end
          else repl ++ sub_from f r repl (m_pos st) (m_rest st)
      | None => match s with [] => [] | c :: s' => c :: sub_from f r repl (S pos) s' end
      end
  end.
Definition re_sub (r : re) (repl s : str) : str := sub_from (S (List.length s)) r repl 0 s.

(** ** Parsing of patterns *)

Inductive presult : Type := POk (r : re) | PError | PUnsupported.

Fixpoint cats (l : list re) : re :=
  match l with [] => Eps | [r] => r | r :: l' => Cat r (cats l') end.
Fixpoint alts (l : list re) : re :=
  match l with [] => Eps | [r] => r | r :: l' => Alt r (alts l') end.

Definition opt (r : re) : re := Alt r Eps.
Definition dot : re := Cls true [CSingle nl].
Definition chr (c : ascii) : re := Cls false [CSingle c].

(** Exactly [lo] copies, then up to [extra] more, greedily. *)
Fixpoint rep_opt (r : re) (extra : nat) : re :=
  match extra with O => Eps | S e => opt (Cat r (rep_opt r e)) end.
Fixpoint rep (r : re) (lo extra : nat) : re :=
  match lo with
  | O => rep_opt r extra
  | 1 => match extra with O => r | _ => Cat r (rep_opt r extra) end
  | S l => Cat r (rep r l extra)
  end.

(** An open group: its number, the alternatives already complete (reversed) and
    the items of the current alternative (reversed). *)
Record frame : Type := Frame { f_id : nat; f_alts : list re; f_cur : list re }.
Definition frame_re (f : frame) : re := alts (rev (cats (rev (f_cur f)) :: f_alts f)).
Definition push (r : re) (f : frame) : frame := Frame (f_id f) (f_alts f) (r :: f_cur f).

Inductive pmode : Type :=
| MNormal
| MAfterRep                     (* just after a quantifier *)
| MAfterOpen                    (* just after an opening parenthesis *)
| MEscape
| MBrace (txt : str)            (* inside {..}, text reversed *)
| MClass (start : bool) (neg : bool) (items : list citem) (* inside [..], items reversed *)
| MClassRange (neg : bool) (lo : ascii) (items : list citem)  (* after "x-" *)
| MClassEsc (neg : bool) (items : list citem).

Record pstate : Type := PSt
  { p_mode : pmode; p_frame : frame; p_stack : list frame; p_next : nat }.

Definition esc_item (c : ascii) : option (option citem) :=
  (* Some (Some i): a class; Some None: an error or unsupported; None: literal *)
  if ceqb c "d" then Some (Some (CDigit false))
  else if ceqb c "D" then Some (Some (CDigit true))
  else if ceqb c "w" then Some (Some (CWord false))
  else if ceqb c "W" then Some (Some (CWord true))
  else if ceqb c "s" then Some (Some (CSpace false))
  else if ceqb c "S" then Some (Some (CSpace true))
  else if is_digit c || is_alpha_az c then Some None
  else None.

Definition is_quant (c : ascii) : bool := has_char c $"*+?".

Definition brace_bounds (txt : str) : option (nat * nat) :=
  match split_on "," txt with
  | [a] => if forallb is_digit a && negb (str_eqb a [])
           then Some (Z.to_nat (digits_val a), O) else None
  | [a; b] => if forallb is_digit a && negb (str_eqb a []) &&
                 forallb is_digit b && negb (str_eqb b [])
              then let lo := Z.to_nat (digits_val a) in
                   let hi := Z.to_nat (digits_val b) in
                   if lo <=? hi then Some (lo, hi - lo) else None
              else None
  | _ => None
  end.

Inductive pstep : Type := Go (s : pstate) | Stop (r : presult).

Definition normal_char (st : pstate) (c : ascii) : pstep :=
  let f := p_frame st in
  let go m f' := Go (PSt m f' (p_stack st) (p_next st)) in
  if ceqb c "(" then
    Go (PSt MAfterOpen (Frame (p_next st) [] []) (f :: p_stack st) (S (p_next st)))
  else if ceqb c ")" then
    match p_stack st with
    | [] => Stop PError
    | g :: gs => Go (PSt MNormal (push (Grp (f_id f) (frame_re f)) g) gs (p_next st))
    end
  else if ceqb c "|" then
    go MNormal (Frame (f_id f) (cats (rev (f_cur f)) :: f_alts f) [])
  else if is_quant c then
    match f_cur f with
    | [] => Stop PError
    | x :: xs =>
        let x' := if ceqb c "*" then Star x
                  else if ceqb c "+" then Cat x (Star x) else opt x in
        go MAfterRep (Frame (f_id f) (f_alts f) (x' :: xs))
    end
  else if ceqb c "." then go MNormal (push dot f)
  else if ceqb c "^" then go MNormal (push Bos f)
  else if ceqb c "$" then go MNormal (push Eos f)
  else if ceqb c "\" then go MEscape f
  else if ceqb c "[" then go (MClass true false []) f
  else if ceqb c "{" then go (MBrace []) f
  else go MNormal (push (chr c) f).

Definition parse_char (st : pstate) (c : ascii) : pstep :=
  let f := p_frame st in
  let go m f' := Go (PSt m f' (p_stack st) (p_next st)) in
  match p_mode st with
  | MNormal => normal_char st c
  | MAfterRep =>
      if ceqb c "*" then Stop PError
      else if is_quant c || ceqb c "{" then Stop PUnsupported
      else normal_char st c
  | MAfterOpen =>
      if ceqb c "?" then Stop PUnsupported else normal_char st c
  | MEscape =>
      match esc_item c with
      | Some (Some i) => go MNormal (push (Cls false [i]) f)
      | Some None => Stop PUnsupported
      | None => go MNormal (push (chr c) f)
      end
  | MBrace txt =>
      if ceqb c "}" then
        match brace_bounds (rev txt), f_cur f with
        | Some (lo, ex), x :: xs => go MAfterRep (Frame (f_id f) (f_alts f) (rep x lo ex :: xs))
        | _, _ => Stop PUnsupported
        end
      else go (MBrace (c :: txt)) f
  | MClass start neg items =>
      if ceqb c "]" && negb (start && match items with [] => true | _ => false end) then
        go MNormal (push (Cls neg (rev items)) f)
      else if ceqb c "^" && start && negb neg then go (MClass true true items) f
      else if ceqb c "\" then go (MClassEsc neg items) f
      else if ceqb c "-" then
        match items with
        | CSingle lo :: rest => go (MClassRange neg lo rest) f
        | _ => go (MClass false neg (CSingle c :: items)) f
        end
      else go (MClass false neg (CSingle c :: items)) f
  | MClassRange neg lo items =>
      if ceqb c "]" then
        go MNormal (push (Cls neg (rev (CSingle "-"%char :: CSingle lo :: items))) f)
      else if ceqb c "\" then Stop PUnsupported
      else if (code c <? code lo)%N then Stop PError
      else go (MClass false neg (CRange lo c :: items)) f
  | MClassEsc neg items =>
      match esc_item c with
      | Some (Some i) => go (MClass false neg (i :: items)) f
      | Some None => Stop PUnsupported
      | None => go (MClass false neg (CSingle c :: items)) f
      end
  end.

Fixpoint parse_loop (st : pstate) (s : str) : presult :=
  match s with
  | [] =>
      match p_mode st with
      | MNormal | MAfterRep =>
          match p_stack st with
          | [] => POk (frame_re (p_frame st))
          | _ => PError
          end
      | MBrace _ => PUnsupported
      | _ => PError
      end
  | c :: s' =>
      match parse_char st c with
      | Go st' => parse_loop st' s'
      | Stop r => r
      end
  end.

Definition parse_start : pstate := PSt MNormal (Frame 0 [] []) [] 1.
(** re.compile(pattern) *)
Definition re_parse (pat : str) : presult := parse_loop parse_start pat.

(** Patterns that are literals of the code always parse. *)
Definition re_const (pat : str) : re :=
  match re_parse pat with POk r => r | _ => Eps end.

(** * Repr: repr() of resources *)

From Verif Require Import Py Resource.

(** Values of attributes. *)
Inductive pyval : Type :=
| VStr (s : str) | VInt (n : Z) | VFloat (t : Z) | VNone
| VList (l : list pyval) | VDict (d : list (str * pyval)).

Definition squote : ascii := "'"%char.
Definition backslash : ascii := "\"%char.
Definition hex_digit (n : N) : ascii := ascii_of_N (if (n <? 10)%N then 48 + n else 87 + n)%N.

(** str.isprintable for code points < 256: not the controls, the no-break space (the
    plain space is) and the soft hyphen. *)
Definition printable (c : ascii) : bool :=
  let n := N_of_ascii c in negb ((n <? 32) || ((127 <=? n) && (n <=? 160)) || (n =? 173))%N.

(** One character in repr() of a string quoted with [q] (unicode_repr of CPython). *)
Definition repr_char (q c : ascii) : str :=
  if ceqb c backslash || ceqb c q then [backslash; c]
  else if ceqb c (ascii_of_N 9) then [backslash; "t"%char]
  else if ceqb c (ascii_of_N 10) then [backslash; "n"%char]
  else if ceqb c (ascii_of_N 13) then [backslash; "r"%char]
  else if printable c then [c]
  else [backslash; "x"%char; hex_digit (N_of_ascii c / 16); hex_digit (N_of_ascii c mod 16)].

(** repr() of a string: in double quotes if it has single but no double ones. *)
Definition repr_str (s : str) : str :=
  let q := if existsb (ceqb squote) s && negb (existsb (ceqb dquote) s) then dquote else squote in
  q :: flat_map (repr_char q) s ++ [q].

Section Floats.
  (** repr() of floats. *)
  Variable float_repr : Z -> str.

  (** repr() of the values. *)
  Fixpoint py_repr (v : pyval) : str :=
    match v with
    | VStr s => repr_str s
    | VInt n => print_int n
    | VFloat t => float_repr t
    | VNone => $"None"
    | VList l => $"[" ++ join $", " (map py_repr l) ++ $"]"
    | VDict d => $"{" ++ join $", " (map (fun kv => repr_str (fst kv) ++ $": " ++ py_repr (snd kv)) d) ++ $"}"
    end.

  Definition of_pv (v : pv) : pyval := match v with PStr s => VStr s | PInt n => VInt n | PNone => VNone end.
  Definition of_link (l : link) : pyval := VDict (map (fun kv => (fst kv, of_pv (snd kv))) l).

  (** The slots in their order, resource.py:56-58; [extra] is the attribute _extra, in which
      the names are in the order they were set (Resource.v has the values only). *)
  Definition slots (r : resource) (extra : option (list (str * pyval))) : list (str * option pyval) :=
    [($"uri", Some (VStr (r_uri r))); ($"timestamp", option_map VFloat (r_timestamp r));
     ($"length", option_map VInt (r_length r)); ($"mime_type", option_map VStr (r_mime_type r));
     ($"md5", option_map VStr (r_md5 r)); ($"sha1", option_map VStr (r_sha1 r)); ($"sha256", option_map VStr (r_sha256 r));
     ($"change", option_map VStr (r_change r)); ($"ts_datetime", option_map VFloat (r_ts_datetime r));
     ($"path", option_map VStr (r_path r)); ($"ln", option_map (fun ln => VList (map of_link ln)) (r_ln r));
     ($"_extra", option_map VDict extra)].

  (** __repr__, resource.py:493-505: the attributes that are not None. *)
  Definition resource_repr (r : resource) (extra : option (list (str * pyval))) : str :=
    let s := flat_map (fun av => match snd av with
                                 | Some v => [repr_str (fst av) ++ $": " ++ py_repr v]
                                 | None => []
                                 end) (slots r extra) in
    $"{" ++ join $", " s ++ $"}".
End Floats.

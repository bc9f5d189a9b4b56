(** * ClientUtilsSpec: what the texts of command line options say *)

From Verif Require Import Py.

(** A text without the given character. *)
Definition without (c : ascii) (s : str) : Prop := ~ In c s.

(** att=val, both non-empty, neither containing '=' or ','. *)
Definition att_pair (p : str * str) : Prop :=
  fst p <> [] /\ snd p <> [] /\
  without "=" (fst p) /\ without "=" (snd p) /\ without "," (fst p) /\ without "," (snd p).
Definition att_text (p : str * str) : str := fst p ++ $"=" ++ snd p.

(** rel,href,att=val,... with non-empty href. *)
Record link_text (s rel href : str) (atts : list (str * str)) : Prop :=
  { lt_text : s = rel ++ $"," ++ href ++ List.concat (map (fun p => $"," ++ att_text p) atts);
    lt_rel : without "," rel;
    lt_href : without "," href;
    lt_some : href <> [];
    lt_atts : Forall att_pair atts }.

(** name=uri,name=uri,...: at least one pair, no further '=' or ','. *)
Definition cap_pair (p : str * str) : Prop :=
  without "=" (fst p) /\ without "=" (snd p) /\ without "," (fst p) /\ without "," (snd p).
Record caps_text (s : str) (first : str * str) (more : list (str * str)) : Prop :=
  { ct_text : s = att_text first ++ List.concat (map (fun p => $"," ++ att_text p) more);
    ct_pairs : Forall cap_pair (first :: more) }.

(** What a list of assignments leaves in a variable: the last value assigned to it. *)
Definition assigned (k : str) (l : list (str * str)) : option str :=
  match rev (filter (fun p => str_eqb (fst p) k) l) with
  | p :: _ => Some (snd p)
  | [] => None
  end.

(** * ClientStateSpec: what it means to remember the last timestamp of a site. *)

From Verif Require Import Py Float64 ClientState.

(** What Python guarantees of str(t) and float(s): the text of a float is made
    of digits, signs, a point and an exponent mark, and reads back as the same
    float. *)
Definition number_char (c : ascii) : Prop := is_digit c = true \/ In c $".e+-".
Definition python_floats (F : float_text) : Prop :=
  forall t, is_double t ->
    read_float F (show_float F t) = Some t
    /\ show_float F t <> [] /\ Forall number_char (show_float F t).

(** Calls of set_state: with a timestamp, and without one. *)
Inductive call := Store (site : str) (t : Z) | Forget (site : str).
Definition site_of (c : call) : str := match c with Store s _ => s | Forget s => s end.

Definition time_of (c : call) : option Z := match c with Store _ t => Some t | Forget _ => None end.

(** A program makes calls one after the other, starting without a status file. *)
Definition do_call (F : float_text) (f : option str) (c : call) : option str * option exn :=
  match c with
  | Store s t => set_state F f s (Some t)
  | Forget s => set_state F f s None
  end.
Definition file_after (F : float_text) (calls : list call) : option str :=
  fold_left (fun f c => fst (do_call F f c)) calls None.

Definition call_ok (c : call) : Prop :=
  site_of c <> [] /\ match c with Store _ t => is_double t | Forget _ => True end.

(** Calls are made one after the other, and a process may be killed during any of them:
    the files that may be found, and the calls that touched the file. *)
Inductive left_by (F : float_text) : option str -> list call -> Prop :=
| lb_new : left_by F None []
| lb_done f calls c : left_by F f calls -> left_by F (fst (do_call F f c)) (calls ++ [c])
| lb_killed f calls c f' : left_by F f calls ->
    In f' (set_state_crash F f (site_of c) (time_of c)) -> f' <> f -> left_by F f' (calls ++ [c]).

(** Times since 1970-01-01T00:00:01Z are written so that what is left when the text is cut
    short is no number, or no greater one. *)
Definition cut_floats (F : float_text) : Prop := forall t a b t', is_double t -> SEC <= t ->
  show_float F t = a ++ b -> read_float F a = Some t' -> t' <= t.
Definition since_1970 (c : call) : Prop := match c with Store _ t => SEC <= t | Forget _ => True end.

(** Sites the status file cannot tell apart: they have the same letters and
    digits in the same places, letters compared without regard to case, and
    anything else in the other places. *)
Definition letter_or_digit (c : ascii) : Prop := is_word c = true /\ c <> "_"%char.
Inductive same_char : ascii -> ascii -> Prop :=
| same_letter a b : letter_or_digit a -> letter_or_digit b -> lower_c a = lower_c b -> same_char a b
| same_other a b : ~ letter_or_digit a -> ~ letter_or_digit b -> same_char a b.
Definition same_name : str -> str -> Prop := Forall2 same_char.

(** [remembers site calls v]: [v] is what was last stored for [site], or for a
    site that cannot be told apart from it. *)
Inductive remembers (site : str) : list call -> option Z -> Prop :=
| rem_nothing : remembers site [] None
| rem_store calls s t : same_name s site -> remembers site (calls ++ [Store s t]) (Some t)
| rem_forget calls s : same_name s site -> remembers site (calls ++ [Forget s]) None
| rem_other calls c v :
    ~ same_name (site_of c) site -> remembers site calls v -> remembers site (calls ++ [c]) v.

(** The same for a memory that tells all sites apart. *)
Inductive remembers_exactly (site : str) : list call -> option Z -> Prop :=
| remx_nothing : remembers_exactly site [] None
| remx_store calls t : remembers_exactly site (calls ++ [Store site t]) (Some t)
| remx_forget calls : remembers_exactly site (calls ++ [Forget site]) None
| remx_other calls c v :
    site_of c <> site -> remembers_exactly site calls v -> remembers_exactly site (calls ++ [c]) v.

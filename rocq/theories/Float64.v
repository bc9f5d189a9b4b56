(** * Float64: binary64 numbers, as far as timestamps need them.

    A finite double is represented by its exact value in units of 2^-1074 s
    (the least positive double), an integer.  Python integers are represented
    by the same scale.  Overflow to infinity, NaN and signed zero are not
    modelled: timestamps of years 1 to 9999 are far below 2^1024. *)

From Verif Require Import Py.

(** One second, in units of 2^-1074 s. *)
Definition SEC : Z := 2 ^ 1074.

(** Doubles end in many zero bits.  Numerator and denominator of a quotient are freed of
    the common ones before a division, so that examples can be computed. *)
Fixpoint strip2 (a b : positive) : positive * positive :=
  match a, b with xO a', xO b' => strip2 a' b' | _, _ => (a, b) end.
Definition strip (n d : Z) : Z * Z :=
  match n, d with
  | Zpos a, Zpos b => let '(a', b') := strip2 a b in (Zpos a', Zpos b')
  | Zneg a, Zpos b => let '(a', b') := strip2 a b in (Zneg a', Zpos b')
  | _, _ => (n, d)
  end.

(** Nearest integer to [n/d] ([d > 0]), ties to even. *)
Definition rne (n d : Z) : Z :=
  let '(n, d) := strip n d in
  let q := n / d in
  let r := n mod d in
  if 2 * r <? d then q
  else if d <? 2 * r then q + 1
  else if Z.even q then q else q + 1.

(** Exponent of the last place of the double nearest to [n/d] units: 53
    significant bits, never below the least subnormal. *)
Definition ulp_exp (n d : Z) : Z := Z.max 0 (Z.log2 (Z.abs n / d) - 52).

(** The double nearest to [n/d] units, ties to even (IEEE 754 default). *)
Definition rnd (n d : Z) : Z :=
  let e := ulp_exp n d in rne n (d * 2 ^ e) * 2 ^ e.

(** Float operations on represented values. *)
Definition fadd (a b : Z) : Z := rnd (a + b) 1.
Definition fsub (a b : Z) : Z := rnd (a - b) 1.
(** [a * k] for a float [a] and an integer-valued float [k]. *)
Definition fmul_int (a k : Z) : Z := rnd (a * k) 1.
(** The float nearest to the decimal [n/d] seconds: Python's float("...") *)
Definition float_of_ratio (n d : Z) : Z := rnd (n * SEC) d.
(** float(n) for an integer n. *)
Definition float_of_int (n : Z) : Z := rnd (n * SEC) 1.

(** int(x), towards zero, and what is left: C's modf. *)
Definition int_part (t : Z) : Z := let '(a, b) := strip t SEC in Z.quot a b.
Definition frac_part (t : Z) : Z := t - int_part t * SEC.

(** A representable value: at most 53 significant bits. *)
Definition is_double (x : Z) : Prop := rnd x 1 = x.

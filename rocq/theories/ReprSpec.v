(** * Specification for texts of resources *)

From Verif Require Import Py Resource Repr.

(** The attributes with slots are the same. *)
Definition same_slots (r r' : resource) : Prop :=
  r_uri r = r_uri r' /\ r_timestamp r = r_timestamp r' /\ r_length r = r_length r' /\ r_mime_type r = r_mime_type r'
  /\ r_md5 r = r_md5 r' /\ r_sha1 r = r_sha1 r' /\ r_sha256 r = r_sha256 r' /\ r_change r = r_change r'
  /\ r_ts_datetime r = r_ts_datetime r' /\ r_path r = r_path r' /\ r_ln r = r_ln r'.

(** Texts of floats: different for different floats, not empty, of digits, lower case letters,
    points and signs, and not those of integers. *)
Definition float_char (c : ascii) : bool := is_digit c || in_range 97 122 c || ceqb c "." || ceqb c "+" || ceqb c "-".
Definition float_texts (f : Z -> str) : Prop :=
  (forall t t', f t = f t' -> t = t') /\ forall t, f t <> [] /\ forallb float_char (f t) = true /\ forall n, f t <> print_int n.

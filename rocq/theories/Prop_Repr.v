(** * C130: the representation of a resource is unambiguous *)

From Verif Require Import Py Resource Repr ReprSpec ReprFacts.

(** Resources with the same representation have the same attributes; only doubles are floats, so
    that float_repr outside of them can be anything. *)
Theorem C130_unambiguous : forall float_repr, float_texts float_repr -> forall r r' extra extra',
  resource_repr float_repr r extra = resource_repr float_repr r' extra' -> same_slots r r' /\ extra = extra'.
Proof. exact unambiguous. Qed.
Print Assumptions C130_unambiguous.

(** Whatever follows it in a line, if only that does not continue a number. *)
Theorem C130_strings : forall s s' after after', repr_str s ++ after = repr_str s' ++ after' -> s = s' /\ after = after'.
Proof. exact repr_str_inj. Qed.
Print Assumptions C130_strings.

(** A URI that looks like the end of one attribute and the beginning of another. *)
Example C130_example : float_texts point_floats /\
  let r := set_ln (Some [[($"rel", PStr $"up"); ($"length", PInt 7)]]) (set_timestamp (Some 12) (new_resource $"a', 'md5': 'x")) in
  resource_repr point_floats r (Some [($"capability", VStr $"resourcelist")])
  = $"{'uri': " ++ [dquote] ++ $"a', 'md5': 'x" ++ [dquote]
    ++ $", 'timestamp': 12., 'ln': [{'rel': 'up', 'length': 7}], '_extra': {'capability': 'resourcelist'}}" /\
  resource_repr point_floats (new_resource (ascii_of_N 10 :: ascii_of_N 160 :: $"\'" ++ [dquote])) None
  = $"{'uri': '\n\xa0\\\'" ++ [dquote] ++ $"'}".
Proof. split; [exact point_floats_ok|split; vm_compute; reflexivity]. Qed.

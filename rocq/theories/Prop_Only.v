(** * Properties: only well formed documents are read *)

From Verif Require Import Py Resource Container ContainerSpec Xml XmlSpell XmlSpellFacts XmlOnly XmlOnlyEx
  Sitemap SitemapSpec SitemapAccept.

(** C118: a text that is read is one way to write, as a well formed document,
    the tree read. *)
Theorem C118_only : forall s e, parse_text s = Ok e -> spells_in any_version s e.
Proof. exact read_spelled. Qed.
Print Assumptions C118_only.

(** So the texts read are exactly the well formed documents. *)
Theorem C118_exactly : forall s e, parse_text s = Ok e <-> spells_in any_version s e.
Proof. exact read_iff. Qed.
Print Assumptions C118_exactly.

(** Nothing is read from any other text, into no list: an error is raised. *)
Theorem C118_refused : forall C s, (forall e, ~ spells_in any_version s e) ->
  exists x, (x = XmlError \/ x = OutOfModel)
    /\ forall sm (add : resource -> C -> res C) cap si d, parse_xml sm add cap si d s = Err x.
Proof. exact @not_spelled. Qed.
Print Assumptions C118_refused.

(** From the characters to the verdict: a text is accepted exactly when it is a
    well formed document, of the kind asked for, with readable times. *)
Theorem C118_accepted : forall sm cap si text,
  (exists d i, parse_xml sm (fun r l => Ok (l ++ [r])) cap si (MkDoc [] [] []) text = Ok (d, i))
  <-> exists root i, spells_in any_version text root /\ acceptable cap si root i
        /\ times_readable (s_spec_1_0 sm) root i.
Proof. exact text_iff. Qed.
Print Assumptions C118_accepted.

Example C118_example : (forall s, In s bad_texts -> forall e, ~ spells_in any_version s e)
  /\ parse_text newer = Ok (El $"a" [($"b", $"xy")] (Some $"t<>") [] None).
Proof. exact (conj bad_refused newer_read). Qed.

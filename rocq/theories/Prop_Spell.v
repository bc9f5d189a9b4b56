(** * Properties: documents written by others *)

From Verif Require Import Py Resource Container ContainerSpec Xml XmlSpell XmlSpellFacts Sitemap SitemapSpec
  SitemapExamples SitemapLists SitemapProps SitemapAlike XmlWritten SpellProps XmlSpellEx.

(** C110: every way to write a tree is read as that tree. *)
Theorem C110_spelling : forall s e, spells s e -> parse_text s = Ok e.
Proof. exact spelled_read. Qed.
Print Assumptions C110_spelling.

(** A text does not stand for two trees. *)
Theorem C110_one_meaning : forall s e e', spells s e -> spells s e' -> e = e'.
Proof. exact spelled_once. Qed.
Print Assumptions C110_one_meaning.

(** What the library writes are well formed documents, for any reader. *)
Theorem C110_written : forall sm index d, good_doc d ->
  exists text root, resources_as_xml sm index d = Ok text /\ spells text root.
Proof. exact written_spelled. Qed.
Print Assumptions C110_written.

Theorem C110_read : forall C sm (add : resource -> C -> res C) cap si (d : doc C) s s' e,
  spells s e -> spells s' e -> parse_xml sm add cap si d s = parse_xml sm add cap si d s'.
Proof. exact @respelled. Qed.
Print Assumptions C110_read.

Example C110_example : spells foreign foreign_tree
  /\ list_parse (fun r => rl_add r false) (MkSettings true false false) (Some $"resourcelist") (MkDoc [] [] []) foreign
     = Ok (MkDoc [($"capability", PStr $"resourcelist")] [] [($"http://ex.org/a&b/", foreign_resource)]).
Proof. exact (conj foreign_spelled foreign_read). Qed.

(** C111: only what the specification defines matters, and the order only where it has
    a meaning. *)
Theorem C111_tree : forall C sm (add : resource -> C -> res C) cap si (d : doc C) root root', alike root root' ->
  parse_tree sm add cap si d root = parse_tree sm add cap si d root'.
Proof. exact @alike_read. Qed.
Print Assumptions C111_tree.

Theorem C111_text : forall C sm (add : resource -> C -> res C) cap si (d : doc C) s e s' e',
  spells s e -> spells s' e' -> alike e e' -> parse_xml sm add cap si d s = parse_xml sm add cap si d s'.
Proof. exact @alike_text. Qed.
Print Assumptions C111_text.

(** Elements the specification does not define can stand anywhere between the others. *)
Theorem C111_extra : forall t a x a' x' y y' before k after,
  ~ In (x_tag k) [sitemap_ns $"url"; sitemap_ns $"sitemap"; rs_ns $"md"; rs_ns $"ln"] ->
  alike (El t a x (before ++ after) y) (El t a' x' (before ++ k :: after) y').
Proof. exact alike_insert. Qed.
Print Assumptions C111_extra.

(** A list that is written, written in another way by others, and read. *)
Theorem C111_resource_list : forall sm (d : doc rdict),
  wf_rl (d_items d) -> good_list rl_iter $"resourcelist" d ->
  exists text root d', as_xml rl_iter sm (Some $"resourcelist") false d = Ok text /\ spells text root
    /\ doc_read_back sm (as_written rl_iter $"resourcelist" d) (in_order rl_iter d')
    /\ forall s root', spells s root' -> alike root root' ->
       list_parse (fun r => rl_add r false) sm (Some $"resourcelist") (MkDoc [] [] []) s = Ok d'.
Proof. exact resource_list_spelled. Qed.
Print Assumptions C111_resource_list.

Theorem C111_change_list : forall sm (d : doc (list resource)),
  Forall (fun r => r_change r <> None) (d_items d) -> good_list (fun l => l) $"changelist" d ->
  exists text root d', as_xml (fun l => l) sm (Some $"changelist") false d = Ok text /\ spells text root
    /\ doc_read_back sm (as_written (fun l => l) $"changelist" d) (in_order (fun l => l) d')
    /\ forall s root', spells s root' -> alike root root' ->
       list_parse cl_add sm (Some $"changelist") (MkDoc [] [] []) s = Ok d'.
Proof. exact change_list_spelled. Qed.
Print Assumptions C111_change_list.

Example C111_example : alike foreign_tree usual_tree
  /\ (wf_rl (d_items some_rl) /\ good_list rl_iter $"resourcelist" some_rl)
  /\ (Forall (fun r => r_change r <> None) (d_items some_cl) /\ good_list (fun l => l) $"changelist" some_cl).
Proof. exact (conj usual_alike (conj (conj (proj1 some_rl_good) (proj1 (proj2 some_rl_good))) some_cl_good)). Qed.

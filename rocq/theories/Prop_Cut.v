(** * Properties: documents cut short *)

From Verif Require Import Py Resource Container Xml XmlSpell XmlSpellEx Sitemap SitemapSpec SitemapExamples Opener ListIndex Client
  ClientExamples XmlCut CutSpec CutFacts CutEx.

(** C115: a text that was cut off is refused, or stands for the same tree as the whole. *)
Theorem C115_text : forall t s x, parse_text t = Ok x -> cut_off t s ->
  parse_text s = Ok x \/ exists e, parse_text s = Err e.
Proof. exact cut_text. Qed.
Print Assumptions C115_text.

(** If the text ends with the root, it is refused. *)
Theorem C115_refused : forall t s x, parse_text t = Ok x -> ends_in_tag t -> cut_off t s -> parse_text s = Err XmlError.
Proof. exact cut_tag. Qed.
Print Assumptions C115_refused.

(** That is so for everything the library writes. *)
Theorem C115_written : forall C sm index d t s sm' (add : resource -> C -> res C) cap si d0, good_doc d ->
  resources_as_xml sm index d = Ok t -> cut_off t s -> parse_xml sm' add cap si d0 s = Err XmlError.
Proof. exact @cut_written. Qed.
Print Assumptions C115_written.

(** Lists, with an index or without, any of whose documents may be cut off. *)
Theorem C115_list : forall fetch fetch', cut_documents fetch fetch' ->
  forall C (k : kind C) index_only l uri x, list_read k fetch index_only l uri = Ok x ->
  list_read k fetch' index_only l uri = Ok x \/ exists e, list_read k fetch' index_only l uri = Err e.
Proof. exact @cut_list. Qed.
Print Assumptions C115_list.

(** A synchronization with such documents does what it does with the whole ones, or
    nothing. *)
Theorem C115_baseline : forall E fetch' c allow audit w src, cut_documents (e_fetch E) fetch' ->
  c_sitemap_name c <> None \/ c_capability_list c <> None -> find_resource_list (e_fetch E) c = Ok src ->
  baseline_or_audit (with_fetch fetch' E) c allow audit w = baseline_or_audit E c allow audit w
  \/ exists e, baseline_or_audit (with_fetch fetch' E) c allow audit w = (w, Err e).
Proof. exact cut_baseline. Qed.
Print Assumptions C115_baseline.

Theorem C115_incremental : forall E fetch' c allow clu from w uri l, cut_documents (e_fetch E) fetch' ->
  sitemap_uri c (match clu with Some (x :: u) => x :: u | _ => c_change_list_name c end) = Ok uri ->
  list_read change_list_kind (e_fetch E) false (new_list change_list_kind $"changelist" true None) uri = Ok l ->
  incremental (with_fetch fetch' E) c allow clu from w = incremental E c allow clu from w
  \/ exists e, incremental (with_fetch fetch' E) c allow clu from w = (w, Err e).
Proof. exact cut_incremental. Qed.
Print Assumptions C115_incremental.

Example C115_example :
  cut_documents (e_fetch (ex_env two_resources two_contents)) (cut_fetch 1 (e_fetch (ex_env two_resources two_contents)))
  /\ (exists src, find_resource_list (e_fetch (ex_env two_resources two_contents)) (ex_client one_mapping) = Ok src)
  /\ c_sitemap_name (ex_client one_mapping) <> None
  /\ baseline_or_audit cut_env (ex_client one_mapping) true false (start old_tree None) = (start old_tree None, Err ClientError).
Proof.
  split; [exact (cut_fetch_cut _ 1 two_nonempty (le_n 1))|]. split; [exact whole_read|]. split; [discriminate|exact cut_refused_run].
Qed.

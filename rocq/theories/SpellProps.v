(** * SpellProps: documents written in other ways are read the same *)

From Verif Require Import Py PyFacts Resource Container ContainerSpec Xml XmlFacts XmlSpell XmlSpellFacts
  Sitemap SitemapSpec SitemapText SitemapLists SitemapAlike XmlWritten.

Lemma alike_refl e : alike e e.
Proof.
  split; [reflexivity|]. induction (filter (defined e) (x_kids e)) as [|k l IH]; constructor; [|exact IH].
  split; [reflexivity|]. repeat split; intros; try (intros n _; reflexivity);
    match goal with |- Forall2 _ ?l ?l => induction l; constructor; auto; try reflexivity; intros n _; reflexivity end.
Qed.

Lemma alike_text {C} sm (add : resource -> C -> res C) cap si (d : doc C) s e s' e' :
  spells s e -> spells s' e' -> alike e e' -> parse_xml sm add cap si d s = parse_xml sm add cap si d s'.
Proof.
  intros A B K. apply spelled_read in A. apply spelled_read in B. unfold parse_xml. rewrite A, B. cbn [bind].
  now apply alike_read.
Qed.

Lemma as_xml_spelled {C} (iter : C -> list resource) sm name (d : doc C) text : legal name ->
  good_list iter name d -> as_xml iter sm (Some name) false d = Ok text -> exists root, spells text root.
Proof.
  intros L G W. destruct (as_written_good iter name d L G) as [G' _].
  destruct (written_spelled sm false _ G') as (text' & root & E & S). exists root.
  assert (Q : as_xml iter sm (Some name) false d = Ok text').
  { unfold as_xml. rewrite <- E, <- default_capability_written. reflexivity. }
  rewrite W in Q. injection Q as ->. exact S.
Qed.

Lemma legal_name s : forallb (fun c => N.leb 32 (code c)) s = true -> legal s.
Proof. intros F c I. left. rewrite forallb_forall in F. now apply N.leb_le, F. Qed.

(** Lists that are written, rewritten by someone else, and read. *)
Lemma resource_list_spelled sm (d : doc rdict) :
  wf_rl (d_items d) -> good_list rl_iter $"resourcelist" d ->
  exists text root d', as_xml rl_iter sm (Some $"resourcelist") false d = Ok text /\ spells text root
    /\ doc_read_back sm (as_written rl_iter $"resourcelist" d) (in_order rl_iter d')
    /\ forall s root', spells s root' -> alike root root' ->
       list_parse (fun r => rl_add r false) sm (Some $"resourcelist") (MkDoc [] [] []) s = Ok d'.
Proof.
  intros W G. destruct (resource_list_round sm d W G) as (text & d' & A & P & R).
  destruct (as_xml_spelled rl_iter sm $"resourcelist" d text (legal_name $"resourcelist" eq_refl) G A) as (root & S).
  exists text, root, d'. split; [exact A|]. split; [exact S|]. split; [exact R|].
  intros s root' S' K. unfold list_parse in *.
  rewrite <- (alike_text sm (fun r => rl_add r false) (Some $"resourcelist") (Some false) (MkDoc [] [] []) _ _ _ _ S S' K). exact P.
Qed.

Lemma change_list_spelled sm (d : doc (list resource)) :
  Forall (fun r => r_change r <> None) (d_items d) -> good_list (fun l => l) $"changelist" d ->
  exists text root d', as_xml (fun l => l) sm (Some $"changelist") false d = Ok text /\ spells text root
    /\ doc_read_back sm (as_written (fun l => l) $"changelist" d) (in_order (fun l => l) d')
    /\ forall s root', spells s root' -> alike root root' ->
       list_parse cl_add sm (Some $"changelist") (MkDoc [] [] []) s = Ok d'.
Proof.
  intros W G. destruct (change_list_round sm d W G) as (text & d' & A & P & R).
  destruct (as_xml_spelled (fun l => l) sm $"changelist" d text (legal_name $"changelist" eq_refl) G A) as (root & S).
  exists text, root, d'. split; [exact A|]. split; [exact S|]. split; [exact R|].
  intros s root' S' K. unfold list_parse in *.
  rewrite <- (alike_text sm cl_add (Some $"changelist") (Some false) (MkDoc [] [] []) _ _ _ _ S S' K). exact P.
Qed.

(** Elements that are not defined may be put anywhere in the document or in an entry. *)
Lemma alike_insert t a x a' x' y y' before k after :
  ~ In (x_tag k) [sitemap_ns $"url"; sitemap_ns $"sitemap"; rs_ns $"md"; rs_ns $"ln"] ->
  alike (El t a x (before ++ after) y) (El t a' x' (before ++ k :: after) y').
Proof.
  intros N. set (e := El t a x (before ++ after) y).
  assert (E : filter (defined (El t a' x' (before ++ k :: after) y')) (before ++ k :: after) = filter (defined e) (before ++ after)).
  { rewrite !filter_app. cbn [filter].
    replace (defined (El t a' x' (before ++ k :: after) y') k) with false; [reflexivity|].
    symmetry. apply in_strs_false. unfold entry_tag. cbn [x_tag]. intros I. apply N.
    destruct (str_eqb t _); cbn [In] in *; tauto. }
  split; [reflexivity|]. cbn [x_kids]. rewrite E. exact (proj2 (alike_refl e)).
Qed.

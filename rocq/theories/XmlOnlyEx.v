(** * XmlOnlyEx: texts that are not well formed, and what becomes of them *)

From Verif Require Import Py PyFacts Resource Container ContainerSpec Xml XmlFacts XmlSpell XmlSpellFacts XmlLexed XmlOnly
  Sitemap SitemapSpec SitemapAccept SitemapProps.

(** ** The errors *)

Definition xml_error (x : exn) : Prop := x = XmlError \/ x = OutOfModel.

Lemma entity_error n x : entity n = Err x -> xml_error x.
Proof.
  assert (K : forall m, char_ref m = Err x -> xml_error x).
  { intros m. unfold char_ref. destruct (255 <? m); [intros H; injection H as <-; now right|].
    destruct (xml_char _); [discriminate|]. intros H. injection H as <-. now left. }
  unfold entity. repeat (match goal with |- (if ?b then _ else _) = _ -> _ => destruct b; [discriminate|] end).
  assert (D : forall (b : bool) m, (if b then char_ref m else Err XmlError) = Err x -> xml_error x).
  { intros [] m H; [exact (K m H)|]. injection H as <-. now left. }
  assert (Hx : forall o : option Z, match o with Some m => char_ref m | None => Err XmlError end = Err x -> xml_error x).
  { intros [m|] H; [exact (K m H)|]. injection H as <-. now left. }
  assert (X : Err (A := ascii) XmlError = Err x -> xml_error x) by (intros H; injection H as <-; now left).
  destruct n as [|a n]; [exact X|].
  destruct (ceqb a "#") eqn:A.
  - apply ceqb_eq in A as ->. destruct n as [|b n]; [exact X|].
    destruct (ceqb b "x") eqn:B.
    + apply ceqb_eq in B as ->. destruct n as [|d n]; [(intros H; apply D in H; exact H)|(intros H; apply Hx in H; exact H)].
    + destruct b as [[] [] [] [] [] [] [] []]; try (intros H; apply D in H; exact H); discriminate B.
  - destruct a as [[] [] [] [] [] [] [] []]; try exact X; discriminate A.
Qed.
Definition state_error (st : lstate) : Prop := match st with LErr x => xml_error x | _ => True end.
Lemma lex_step_error st ev c st' ev' : state_error st -> lex_step (st, ev) c = (st', ev') -> state_error st'.
Proof.
  intros B H. unfold lex_step in H.
  destruct st; try (injection H as <- _; exact B);
    destruct (negb (xml_char c)); try (injection H as <- _; now left);
    repeat match type of H with
    | (if ?b then _ else _) = _ => destruct b
    | match entity ?x with _ => _ end = _ => let E := fresh in destruct (entity x) eqn:E; [|apply entity_error in E]
    | match ?x with _ => _ end = _ => destruct x
    end;
    injection H as <- _; try exact I; try (now left); try (now right); assumption.
Qed.
Lemma lex_error s x : lex s = Err x -> xml_error x.
Proof.
  unfold lex. assert (F : forall s st ev st' ev', state_error st -> fold_left lex_step s (st, ev) = (st', ev') -> state_error st').
  { clear. induction s as [|c s IH]; intros st ev st' ev' B H; cbn [fold_left] in H; [injection H as <- _; exact B|].
    destruct (lex_step (st, ev) c) as [st1 ev1] eqn:E. eapply IH; [|exact H]. eapply lex_step_error; eauto. }
  destruct (fold_left lex_step s (LText [] 0, [])) as [st ev] eqn:E. apply F in E; [|exact I].
  destruct st; try discriminate; intros H; injection H as <-; try (now left). exact E.
Qed.
Lemma split_error n x : split_qname n = Err x -> xml_error x.
Proof.
  unfold split_qname. destruct (split1 ":" n) as [[p l]|]; [|discriminate]. destruct p; [intros H; injection H as <-; now left|].
  destruct l; [intros H; injection H as <-; now left|]. destruct (_ && _); [discriminate|]. intros H; injection H as <-; now left.
Qed.
Lemma declare_error atts : forall sc x, declare atts sc = Err x -> xml_error x.
Proof.
  induction atts as [|[n v] atts IH]; intros sc x H; [discriminate|]. cbn [declare] in H.
  destruct (split_qname n) as [[p l]|y] eqn:S; [|apply split_error in S; cbn [bind] in H; congruence]. cbn [bind] in H.
  destruct p as [p|].
  - destruct (str_eqb p _); [|eauto]. destruct (_ || _) in H; [injection H as <-; now right|].
    destruct (_ || _) in H; [injection H as <-; now left|eauto].
  - destruct (str_eqb n _); [|eauto]. destruct (bad_ns v); [injection H as <-; now left|eauto].
Qed.
Lemma resolve_error sc atts : forall x, resolve_atts sc atts = Err x -> xml_error x.
Proof.
  induction atts as [|[n v] atts IH]; intros x H; [discriminate|]. cbn [resolve_atts] in H.
  destruct (split_qname n) as [[p l]|y] eqn:S; [|apply split_error in S; cbn [bind] in H; congruence]. cbn [bind] in H.
  destruct (resolve_atts sc atts) as [rest|y] eqn:R; cbn [bind] in H.
  - destruct p as [p|]; [|destruct (str_eqb n _); discriminate]. destruct (str_eqb p _); [discriminate|].
    destruct (prefix_ns p sc); [discriminate|]. injection H as <-. now left.
  - injection H as <-. auto.
Qed.
Lemma open_error sc tag atts x : open_tag sc tag atts = Err x -> xml_error x.
Proof.
  unfold open_tag. intros H. destruct (negb _); [injection H as <-; now left|].
  destruct (declare atts sc) as [sc'|y] eqn:D; cbn [bind] in H; [|apply declare_error in D; congruence].
  unfold resolve_tag in H. destruct (split_qname tag) as [[p l]|y] eqn:S; cbn [bind] in H; [|apply split_error in S; congruence].
  assert (K : forall t : str, bind (resolve_atts sc' atts) (fun a : list (str * str) => if distinct (map fst a) then Ok (sc', t, a) else Err XmlError) = Err x -> xml_error x).
  { intros t K. destruct (resolve_atts sc' atts) as [a|y] eqn:R; cbn [bind] in K; [|apply resolve_error in R; congruence].
    destruct (distinct (map fst a)); [discriminate|]. injection K as <-. now left. }
  destruct p as [p|].
  - destruct (prefix_ns p sc') as [u|]; cbn [bind] in H; [exact (K _ H)|]. injection H as <-. now left.
  - destruct (sget [] sc') as [[|u0 u]|]; cbn [bind] in H; exact (K _ H).
Qed.
Lemma build_step_error st e x : build_step st e = Err x -> xml_error x.
Proof.
  destruct st as [stack root]. unfold build_step. intros H.
  destruct e as [tag atts|tag|s|s].
  - assert (K : forall sc, bind (open_tag sc tag atts) (fun '(sc', t, a) => Ok (MkFrame tag sc' t a None [] :: stack, root)) = Err x -> xml_error x).
    { intros sc K. destruct (open_tag sc tag atts) as [[[sc' t] a]|y] eqn:O; cbn [bind] in K; [discriminate|]. apply open_error in O. congruence. }
    destruct stack; [|exact (K _ H)]. destruct root; [injection H as <-; now left|exact (K _ H)].
  - destruct stack as [|f fs]; [injection H as <-; now left|]. destruct (str_eqb _ _); [destruct fs; discriminate|].
    injection H as <-. now left.
  - destruct stack; [|discriminate]. destruct (forallb _ _); [discriminate|]. injection H as <-. now left.
  - destruct s, stack; try discriminate; injection H as <-; now left.
Qed.
Lemma build_error l : forall st x, build l st = Err x -> xml_error x.
Proof.
  induction l as [|e l IH]; intros st x H; [discriminate|]. cbn [build] in H.
  destruct (build_step st e) as [st'|y] eqn:E; cbn [bind] in H; [eauto|]. apply build_step_error in E. congruence.
Qed.
Lemma parse_text_error s x : parse_text s = Err x -> xml_error x.
Proof.
  unfold parse_text. intros H. destruct (skip_decl (norm_eol s)) as [q|y] eqn:Q; cbn [bind] in H.
  2: { unfold skip_decl in Q. destruct (_ && _) in Q; [|discriminate]. injection H as ->.
       destruct (after_decl _) in Q; [destruct (decl_ok _) in Q; [discriminate|]|]; injection Q as <-; now left. }
  destruct (lex q) as [evs|y] eqn:L; cbn [bind] in H; [|apply lex_error in L; congruence].
  destruct (build evs ([], None)) as [[stack root]|y] eqn:B; cbn [bind] in H; [|apply build_error in B; congruence].
  destruct stack, root; try discriminate; injection H as <-; now left.
Qed.

(** ** Texts *)

Lemma not_spelled {C} s : (forall e, ~ spells_in any_version s e) ->
  exists x, xml_error x /\ forall sm (add : resource -> C -> res C) cap si d, parse_xml sm add cap si d s = Err x.
Proof.
  intros N. destruct (parse_text s) as [e|x] eqn:P; [exfalso; exact (N e (read_spelled s e P))|].
  exists x. split; [exact (parse_text_error s x P)|]. intros sm add cap si d. unfold parse_xml. now rewrite P.
Qed.
Lemma text_accepted {C} sm (add : resource -> C -> res C) cap si (d d' : doc C) text i :
  sget $"capability" (d_md d) = None -> parse_xml sm add cap si d text = Ok (d', i) ->
  exists root, spells_in any_version text root /\ acceptable cap si root i /\ times_readable (s_spec_1_0 sm) root i.
Proof.
  intros N H. destruct (accepted_text sm add cap si d d' text i N H) as (root & P & A). exists root. split; [now apply read_spelled|exact A].
Qed.
Lemma text_iff sm cap si text :
  (exists d i, parse_xml sm (fun r l => Ok (l ++ [r])) cap si (MkDoc [] [] []) text = Ok (d, i))
  <-> exists root i, spells_in any_version text root /\ acceptable cap si root i /\ times_readable (s_spec_1_0 sm) root i.
Proof.
  split.
  - intros (d & i & H). destruct (text_accepted sm _ cap si (MkDoc [] [] []) d text i eq_refl H) as (root & K). eauto.
  - intros (root & i & S & K). destruct (proj2 (accepted_iff sm cap si root) (ex_intro _ i K)) as (d & i' & P).
    exists d, i'. unfold parse_xml. now rewrite (any_read text root S).
Qed.

Definition bad_texts : list str :=
  [[]; $"<a>"; $"<a></b>"; $"<a/><b/>"; $"<a/>x"; $"<a>]]></a>"; $"<a><!-- -- --></a>"; $"<a b='1' b='2'/>";
   $"<p:a/>"; $"<a b='<'/>"; $"<a b=1/>"; $"<a>&nbsp;</a>"; $"<a>&#0;</a>"; $"<a b='1'c='2'/>"; $"<a><?xml x?></a>";
   $" <?xml version='1.0'?><a/>"; $"<?xml encoding='utf-8'?><a/>"; $"<?xml version='1.0' standalone='maybe'?><a/>";
   $"<a xmlns:p=''/>"; $"<a xmlns:p='u' xmlns:q='u' p:b='1' q:b='2'/>"; $"<a:b:c xmlns:a='u'/>"; $"&#32;<a/>"; $"<![CDATA[ ]]><a/>"].
Lemma bad_refused : forall s, In s bad_texts -> forall e, ~ spells_in any_version s e.
Proof.
  assert (B : forallb (fun s => match parse_text s with Err _ => true | Ok _ => false end) bad_texts = true) by (vm_compute; reflexivity).
  rewrite forallb_forall in B. intros s J e S. apply B in J. now rewrite (any_read s e S) in J.
Qed.
Definition newer : str := $"<?xml version='1.1' ?><a b = 'x&#x79;'>t<!-- - --><![CDATA[<]]>&gt;</a >".
Lemma newer_read : parse_text newer = Ok (El $"a" [($"b", $"xy")] (Some $"t<>") [] None).
Proof. vm_compute. reflexivity. Qed.

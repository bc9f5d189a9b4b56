(** * XmlEnd: no document ends in a letter *)

From Verif Require Import Py PyFacts Xml XmlFacts.

Definition tail_d : str := ["d"%char; nl].

Lemma norm_tail : forall n s, (List.length s <= n)%nat -> exists p, norm_eol (s ++ tail_d) = p ++ tail_d.
Proof.
  induction n as [|n IH]; intros s L.
  - destruct s; [|cbn in L; lia]. exists []. reflexivity.
  - destruct s as [|c s]; [exists []; reflexivity|]. cbn [app List.length] in *. cbn [norm_eol].
    destruct (ceqb c cr).
    + destruct s as [|d s]; [exists [nl]; reflexivity|]. cbn [app List.length] in *. destruct (ceqb d nl).
      * destruct (IH s ltac:(lia)) as (p & ->). exists (nl :: p). reflexivity.
      * destruct (IH (d :: s) ltac:(cbn; lia)) as (p & E). cbn [app] in E. exists (nl :: p). cbn [app]. now rewrite E.
    + destruct (IH s ltac:(lia)) as (p & ->). exists (c :: p). reflexivity.
Qed.

Lemma decl_tail : forall p r, after_decl (p ++ tail_d) = Some r -> exists q, r = q ++ tail_d.
Proof.
  induction p as [|c p IH]; intros r H; [discriminate|]. cbn [app after_decl] in H.
  destruct (startswith $"?>" (c :: p ++ tail_d)) eqn:S; [|now apply IH]. injection H as <-.
  destruct p as [|d p].
  - exfalso. apply startswith_spec in S as (t & E). cbn in E. discriminate.
  - exists p. reflexivity.
Qed.

Lemma lex_step_text st ev c st' ev' : ceqb c ">" = false -> ceqb c ";" = false -> ceqb c "<" = false -> ceqb c "&" = false ->
  lex_step (st, ev) c = (st', ev') -> forall buf n, st' = LText buf n ->
  exists buf0 n0, st = LText buf0 n0 /\ buf = c :: buf0 /\ ev' = ev.
Proof.
  intros G Se Lt Am H buf n ->. unfold lex_step in H. destruct st; try discriminate;
    destruct (negb (xml_char c)); try discriminate; rewrite ?G, ?Se, ?Lt, ?Am in H; cbn [andb orb] in H.
  1: { destruct (ceqb c "]"); injection H as <- _ <-; eauto. }
  1: discriminate.
  all: rewrite ?andb_false_r in H;
    repeat match type of H with (if ?b then _ else _) = _ => destruct b end; discriminate.
Qed.

Lemma build_app evs1 : forall evs2 st, build (evs1 ++ evs2) st = let* st' := build evs1 st in build evs2 st'.
Proof. induction evs1 as [|e evs1 IH]; intros evs2 st; cbn [build app]; [reflexivity|]. destruct (build_step st e); cbn [bind]; auto. Qed.

Lemma ends_in_letter s : exists x, parse_text (s ++ tail_d) = Err x.
Proof.
  destruct (parse_text (s ++ tail_d)) as [root|x] eqn:E; [exfalso|eauto]. unfold parse_text in E.
  destruct (norm_tail _ s (le_n _)) as (p & N). rewrite N in E.
  assert (exists q, skip_decl (p ++ tail_d) = Ok (q ++ tail_d)) as (q & Q).
  { destruct (skip_decl (p ++ tail_d)) as [r|] eqn:S; [|discriminate]. unfold skip_decl in S.
    match type of S with (if ?b then _ else _) = _ => destruct b end; [|injection S as <-; eauto].
    destruct (after_decl (p ++ tail_d)) as [r'|] eqn:A; [|discriminate].
    destruct (decl_ok _) in S; [|discriminate]. injection S as <-. apply decl_tail in A as (q & ->). eauto. }
  rewrite Q in E. cbn [bind] in E. unfold lex in E. unfold tail_d in E. rewrite fold_left_app in E. cbn [fold_left] in E.
  destruct (fold_left lex_step q (LText [] 0, [])) as [st0 ev0]. destruct (lex_step (st0, ev0) "d") as [st1 ev1] eqn:E1.
  destruct (lex_step (st1, ev1) nl) as [st2 ev2] eqn:E2. destruct st2 as [buf n| | | | | | | | | | | | | | | | | | | | | |]; try discriminate.
  destruct (lex_step_text st1 ev1 nl _ ev2 eq_refl eq_refl eq_refl eq_refl E2 _ _ eq_refl) as (buf1 & n1 & -> & -> & ->).
  destruct (lex_step_text st0 ev0 "d"%char _ ev1 eq_refl eq_refl eq_refl eq_refl E1 _ _ eq_refl) as (buf0 & n0 & -> & -> & ->).
  cbn [flush bind] in E. change (rev (EText (rev (nl :: "d"%char :: buf0)) :: ev0)) with (rev ev0 ++ [EText (rev (nl :: "d"%char :: buf0))]) in E.
  rewrite build_app in E. destruct (build (rev ev0) ([], None)) as [[stack r]|]; [|discriminate]. cbn [bind build build_step] in E.
  destruct stack as [|f fs]; [|discriminate].
  replace (forallb xml_ws (rev (nl :: "d"%char :: buf0))) with false in E; [discriminate|]. symmetry.
  destruct (forallb xml_ws (rev (nl :: "d"%char :: buf0))) eqn:F; [|reflexivity]. exfalso. rewrite forallb_forall in F.
  specialize (F "d"%char). assert (I : In "d"%char (rev (nl :: "d"%char :: buf0))) by (apply in_rev; rewrite rev_involutive; right; now left).
  apply F in I. discriminate.
Qed.

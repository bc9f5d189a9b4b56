(** * XmlCut: texts that were cut short *)

From Verif Require Import Py PyFacts Xml XmlFacts XmlEnd.

(** ** Line ends and the declaration *)

Lemma norm_cut : forall n s r, (List.length s <= n)%nat ->
  exists r', norm_eol (s ++ r) = norm_eol s ++ r' /\ (r' = norm_eol r \/ exists r0, r = nl :: r0 /\ r' = norm_eol r0).
Proof.
  induction n as [|n IH]; intros s r L.
  - destruct s; [|cbn in L; lia]. exists (norm_eol r). split; [reflexivity|now left].
  - destruct s as [|c s]; [exists (norm_eol r); split; [reflexivity|now left]|].
    cbn [app List.length] in *. cbn [norm_eol]. destruct (ceqb c cr).
    + destruct s as [|d s].
      * cbn [app]. destruct r as [|d r]; [exists []; split; [reflexivity|now left]|]. destruct (ceqb d nl) eqn:D.
        -- apply ceqb_eq in D. subst d. exists (norm_eol r). split; [reflexivity|right; eauto].
        -- exists (norm_eol (d :: r)). split; [reflexivity|now left].
      * cbn [app List.length] in *. destruct (ceqb d nl).
        -- destruct (IH s r ltac:(lia)) as (r' & E & F). exists r'. rewrite E. split; [reflexivity|exact F].
        -- destruct (IH (d :: s) r ltac:(cbn; lia)) as (r' & E & F). exists r'. cbn [app] in E. rewrite E. split; [reflexivity|exact F].
    + destruct (IH s r ltac:(lia)) as (r' & E & F). exists r'. rewrite E. split; [reflexivity|exact F].
Qed.

Lemma startswith_more p s r : startswith p s = true -> startswith p (s ++ r) = true.
Proof. intros H. apply startswith_spec in H as (t & ->). apply startswith_spec. exists (t ++ r). now rewrite app_assoc. Qed.

Lemma after_decl_cut : forall s q r, after_decl s = Some q -> after_decl (s ++ r) = Some (q ++ r).
Proof.
  induction s as [|c s IH]; intros q r H; [discriminate|]. cbn [after_decl app] in *.
  destruct (startswith $"?>" (c :: s)) eqn:S.
  - injection H as <-. rewrite (startswith_more $"?>" (c :: s) r S : startswith _ (c :: s ++ r) = true).
    apply startswith_spec in S as (t & E). destruct s as [|d s]; [discriminate E|]. reflexivity.
  - destruct (startswith $"?>" (c :: s ++ r)) eqn:S'; [|now apply IH].
    apply startswith_spec in S' as (t & E). destruct s as [|d s]; [discriminate H|].
    cbn [app] in E. exfalso. assert (startswith $"?>" (c :: d :: s) = true); [|congruence].
    apply startswith_spec. exists s. change ($"?>") with ["?"%char; ">"%char] in *. cbn [app] in E |- *. now injection E as -> -> _.
Qed.

(** ** The lexer only adds events *)

Lemma lex_step_adds st ev c st' ev' : lex_step (st, ev) c = (st', ev') -> exists new, ev' = new ++ ev.
Proof.
  intros H. unfold lex_step in H.
  assert (F : forall buf, exists new, flush buf ev = new ++ ev) by (intros [|b buf]; [exists []; reflexivity|exists [EText (rev (b :: buf))]; reflexivity]).
  destruct st; try (injection H as _ <-; exists []; reflexivity);
    destruct (negb (xml_char c)); try (injection H as _ <-; exists []; reflexivity);
    repeat match type of H with
    | (if ?b then _ else _) = _ => destruct b
    | match ?x with _ => _ end = _ => destruct x
    end;
    injection H as _ <-; first [exact (F _) | now exists [] | (destruct (F buf) as (new & ->); eexists (_ :: new); reflexivity) | eexists [_]; reflexivity | eexists [_; _]; reflexivity].
Qed.

Lemma fold_adds s : forall st ev st' ev', fold_left lex_step s (st, ev) = (st', ev') -> exists new, ev' = new ++ ev.
Proof.
  induction s as [|c s IH]; intros st ev st' ev' H; cbn [fold_left] in H; [injection H as _ <-; now exists []|].
  destruct (lex_step (st, ev) c) as [st1 ev1] eqn:E. apply lex_step_adds in E as (n1 & ->).
  apply IH in H as (n2 & ->). exists (n2 ++ n1). now rewrite app_assoc.
Qed.

Lemma flush_adds buf ev : exists new, flush buf ev = new ++ ev.
Proof. destruct buf as [|b buf]; [exists []; reflexivity|exists [EText (rev (b :: buf))]; reflexivity]. Qed.

Lemma lerr_stays s : forall e ev, fold_left lex_step s (LErr e, ev) = (LErr e, ev).
Proof. induction s as [|c s IH]; intros e ev; [reflexivity|]. cbn [fold_left]. exact (IH e ev). Qed.

(** ** Nothing but white space and remarks may follow the root *)

Lemma build_after more : forall root st, build more ([], Some root) = Ok st ->
  st = ([], Some root) /\ Forall (fun e => exists s, e = EText s) more.
Proof.
  induction more as [|e more IH]; intros root st H; cbn [build] in H; [injection H as <-; split; [reflexivity|constructor]|].
  destruct e as [tag atts|tag|s|s]; cbn [build_step bind] in H; try discriminate; [|destruct s; discriminate].
  destruct (forallb xml_ws s); [|discriminate]. cbn [bind] in H. apply IH in H as [-> F]. split; [reflexivity|]. constructor; [eauto|exact F].
Qed.

(** What an accepted text has gone through. *)
Lemma accepted_state s t : parse_text s = Ok t -> exists q buf n ev, skip_decl (norm_eol s) = Ok q
  /\ fold_left lex_step q (LText [] 0, []) = (LText buf n, ev) /\ build (rev ev) ([], None) = Ok ([], Some t)
  /\ forall c, In c buf -> xml_ws c = true.
Proof.
  unfold parse_text. intros H. destruct (skip_decl (norm_eol s)) as [q|] eqn:Q; [|discriminate]. cbn [bind] in H. unfold lex in H.
  destruct (fold_left lex_step q (LText [] 0, [])) as [st ev] eqn:F.
  destruct st as [buf n| | | | | | | | | | | | | | | | | | | | | |]; try discriminate. cbn [bind] in H.
  exists q, buf, n, ev. split; [reflexivity|]. split; [exact F|].
  destruct buf as [|b buf]; cbn [flush] in H.
  - destruct (build (rev ev) ([], None)) as [[[|f fs] [root|]]|] eqn:B; try discriminate. cbn [bind] in H. injection H as ->. split; [reflexivity|intros c []].
  - cbn [rev] in H. rewrite build_app in H. destruct (build (rev ev) ([], None)) as [[stack root]|] eqn:B; [|discriminate].
    cbn [bind build] in H. destruct stack as [|f fs].
    + cbn [build_step] in H. destruct (forallb xml_ws _) eqn:W; [|discriminate]. cbn [bind] in H.
      destruct root as [root|]; [|discriminate]. injection H as ->. split; [reflexivity|].
      intros c I. rewrite forallb_forall in W. apply W. now apply (in_rev (b :: buf)).
    + cbn [build_step bind] in H. discriminate.
Qed.

(** A beginning of the declaration is not a document. *)
Lemma short_decl : forall s r, startswith $"<?xml" s && match skipn 5 s with c :: _ => xml_ws c | [] => false end = false ->
  startswith $"<?xml" (s ++ r) && match skipn 5 (s ++ r) with c :: _ => xml_ws c | [] => false end = true ->
  s = [] \/ exists st, fold_left lex_step s (LText [] 0, []) = (st, []) /\ (forall buf n, st <> LText buf n) /\ forall e, st <> LErr e.
Proof.
  intros s r A B. change ($"<?xml") with ["<"%char; "?"%char; "x"%char; "m"%char; "l"%char] in *.
  destruct s as [|c1 s]; [now left|right]. apply andb_prop in B as [B W]. apply startswith_spec in B as (t & B).
  cbn [app] in B. injection B as -> B.
  destruct s as [|c2 s]; [eexists; split; [reflexivity|split; discriminate]|]. cbn [app] in B. injection B as -> B.
  destruct s as [|c3 s]; [eexists; split; [reflexivity|split; discriminate]|]. cbn [app] in B. injection B as -> B.
  destruct s as [|c4 s]; [eexists; split; [reflexivity|split; discriminate]|]. cbn [app] in B. injection B as -> B.
  destruct s as [|c5 s]; [eexists; split; [reflexivity|split; discriminate]|]. cbn [app] in B. injection B as -> B.
  destruct s as [|c6 s]; [eexists; split; [reflexivity|split; discriminate]|]. exfalso.
  cbn [app skipn] in W. revert A. cbn [skipn]. rewrite W, andb_true_r. cbn [startswith]. cbn. discriminate.
Qed.

(** The text read by the lexer is cut in the same place. *)
Lemma decl_cut s r q q' : skip_decl s = Ok q -> skip_decl (s ++ r) = Ok q' ->
  q' = q ++ r \/ (q = s /\ (s = [] \/ exists st, fold_left lex_step s (LText [] 0, []) = (st, []) /\ (forall buf n, st <> LText buf n) /\ forall e, st <> LErr e)).
Proof.
  unfold skip_decl. intros A B.
  destruct (startswith $"<?xml" s && _) eqn:P.
  - destruct (after_decl s) as [x|] eqn:D; [|discriminate].
    destruct (decl_ok _) in A; [|discriminate]. injection A as <-.
    apply andb_prop in P as [P W]. rewrite (startswith_more _ _ r P) in B.
    destruct (skipn 5 s) as [|c k] eqn:K; [discriminate|].
    assert (K' : skipn 5 (s ++ r) = c :: k ++ r).
    { rewrite skipn_app, K. assert (E := f_equal (@List.length ascii) K). rewrite skipn_length in E. cbn [List.length] in E.
      replace (5 - List.length s)%nat with 0%nat by lia. reflexivity. }
    rewrite K', W in B. cbn [andb] in B. rewrite (after_decl_cut _ _ r D) in B.
    destruct (decl_ok _) in B; [|discriminate]. injection B as <-. now left.
  - injection A as <-. destruct (startswith $"<?xml" (s ++ r) && _) eqn:P' in B.
    + right. split; [reflexivity|]. exact (short_decl s r P P').
    + injection B as <-. now left.
Qed.

(** The two readings, of the beginning and of the whole. *)
Lemma cut_states s r t t' : parse_text (s ++ r) = Ok t -> parse_text s = Ok t' ->
  exists q r' buf n ev buf' n' more,
    skip_decl (norm_eol s) = Ok q /\ (r' = norm_eol r \/ exists r0, r = nl :: r0 /\ r' = norm_eol r0)
    /\ fold_left lex_step q (LText [] 0, []) = (LText buf n, ev)
    /\ fold_left lex_step r' (LText buf n, ev) = (LText buf' n', more ++ ev)
    /\ build (rev ev) ([], None) = Ok ([], Some t') /\ build (rev (more ++ ev)) ([], None) = Ok ([], Some t)
    /\ forall c, In c buf' -> xml_ws c = true.
Proof.
  intros A B. apply accepted_state in A as (q' & buf' & n' & ev' & Q' & F' & B' & W'). apply accepted_state in B as (q & buf & n & ev & Q & F & B & _).
  destruct (norm_cut _ s r (le_n _)) as (r' & N & R). rewrite N in Q'.
  destruct (decl_cut _ _ _ _ Q Q') as [->|[-> [E|(st & E & D & _)]]].
  - rewrite fold_left_app, F in F'. destruct (fold_adds _ _ _ _ _ F') as (more & ->).
    exists q, r', buf, n, ev, buf', n', more. auto 10.
  - rewrite E in F. injection F as <- <- <-. discriminate.
  - rewrite F in E. injection E as <- ->. now elim (D buf n).
Qed.

Lemma cut_same s r t t' : parse_text (s ++ r) = Ok t -> parse_text s = Ok t' -> t' = t.
Proof.
  intros A B. destruct (cut_states s r t t' A B) as (q & r' & buf & n & ev & buf' & n' & more & _ & _ & _ & _ & X & Y & _).
  rewrite rev_app_distr, build_app, X in Y. cbn [bind] in Y. apply build_after in Y as [Y _]. now injection Y.
Qed.

(** ** Documents that end with the end of the root *)

(** A greater than sign that is not the end of a comment or of an instruction ends a
    tag or a CDATA section, or is text. *)
Lemma last_close st0 ev0 c st1 ev1 buf n ev2 : ceqb c "-" = false -> ceqb c "?" = false ->
  lex_step (st0, ev0) c = (st1, ev1) -> lex_step (st1, ev1) ">" = (LText buf n, ev2) ->
  (exists e new, ev2 = e :: new ++ ev1 /\ forall s, e <> EText s) \/ In ">"%char buf.
Proof.
  intros Da Qu A B.
  assert (D : st1 <> LPiEnd /\ st1 <> LPiData true /\ forall m, st1 <> LComment (S m)).
  { unfold lex_step in A. repeat split; [| |intros m]; intros ->; revert A;
      (destruct st0; try discriminate; destruct (negb (xml_char c)); try discriminate; rewrite ?Da, ?Qu;
       repeat match goal with
       | |- (if ?b then _ else _) = _ -> _ => destruct b
       | |- match ?x with _ => _ end = _ -> _ => destruct x
       end; discriminate). }
  destruct D as (D1 & D2 & D3). unfold lex_step in B.
  destruct st1; try discriminate; cbn -[rev skipn Nat.leb] in B;
    try match type of D1 with LComment ?d <> _ => destruct d as [|d]; [cbn in B; discriminate B|now elim (D3 d eq_refl)] end;
    try match type of D1 with LPiData ?m <> _ => destruct m; [now elim (D2 eq_refl)|] end;
    try (now elim (D1 eq_refl));
    cbn -[rev skipn Nat.leb] in B;
    repeat match type of B with
    | (if ?b then _ else _) = _ => destruct b
    | match ?x with _ => _ end = _ => destruct x
    end; try discriminate;
    injection B; intros; subst;
    try (left; eexists; eexists []; split; [reflexivity|discriminate]);
    try (left; eexists; eexists [_]; split; [reflexivity|discriminate]);
    try (right; now left).
Qed.

Lemma rev_two A (l : list A) : l = [] \/ (exists a, l = [a]) \/ exists y b a, l = y ++ [b; a].
Proof.
  destruct (rev l) as [|a [|b y]] eqn:E; apply (f_equal (@rev A)) in E; rewrite rev_involutive in E; subst l.
  - now left.
  - right. left. now exists a.
  - right. right. exists (rev y), b, a. cbn [rev]. now rewrite <- app_assoc.
Qed.

Lemma norm_snoc : forall n s, (List.length s <= n)%nat -> norm_eol (s ++ [">"%char]) = norm_eol s ++ [">"%char].
Proof.
  intros n s L. destruct (norm_cut n s [">"%char] L) as (r' & E & [->|(r0 & D & _)]); [exact E|discriminate].
Qed.
Lemma norm_last : forall n s c, (List.length s <= n)%nat ->
  exists y d, norm_eol (s ++ [c]) = y ++ [d] /\ (d = c \/ d = nl).
Proof.
  assert (One : forall c, exists y d, norm_eol [c] = y ++ [d] /\ (d = c \/ d = nl)).
  { intros c. cbn [norm_eol]. destruct (ceqb c cr); [exists [], nl|exists [], c]; auto. }
  induction n as [|n IH]; intros s c L.
  - destruct s; [|cbn in L; lia]. apply One.
  - destruct s as [|a s]; [apply One|]. cbn [app List.length norm_eol] in *. destruct (ceqb a cr).
    + destruct s as [|d s].
      * cbn [app]. destruct (ceqb c nl); [exists [], nl; auto|]. destruct (One c) as (y & d & E & D). exists (nl :: y), d. cbn [norm_eol]. rewrite E. auto.
      * cbn [app List.length] in *. destruct (ceqb d nl).
        -- destruct (IH s c ltac:(lia)) as (y & e & E & D). exists (nl :: y), e. rewrite E. auto.
        -- destruct (IH (d :: s) c ltac:(cbn; lia)) as (y & e & E & D). cbn [app] in E. exists (nl :: y), e. rewrite E. auto.
    + destruct (IH s c ltac:(lia)) as (y & e & E & D). exists (a :: y), e. rewrite E. auto.
Qed.

Lemma cut_refused s r t y c : parse_text (s ++ r) = Ok t -> r <> [] -> s ++ r = y ++ [c; ">"%char] ->
  c <> "-"%char -> c <> "?"%char -> parse_text s = Err XmlError.
Proof.
  intros A R E Da Qu.
  destruct (parse_text s) as [t'|x] eqn:B.
  - exfalso. destruct (cut_states s r t t' A B) as (q & r' & buf & n & ev & buf' & n' & more & Q & N & F & G & X & Y & W).
    assert (Sure : ~ In ">"%char buf') by (intros I; apply W in I; discriminate).
    assert (Only : Forall (fun e => exists s, e = EText s) more).
    { rewrite rev_app_distr, build_app, X in Y. cbn [bind] in Y. apply build_after in Y as [_ Y].
      rewrite Forall_forall in *. intros e I. apply Y. now apply in_rev in I. }
    assert (R' : r' = [">"%char] \/ exists z d, r' = z ++ [d; ">"%char] /\ d <> "-"%char /\ d <> "?"%char).
    { assert (H : forall r0, r = r0 \/ r = nl :: r0 -> r0 = [">"%char] \/ exists z, r0 = z ++ [c; ">"%char]).
      { intros r0 H. destruct (rev_two _ r0) as [->|[(a & ->)|(z & b & a & ->)]].
        - exfalso. destruct H as [->| ->]; [now elim R|]. change [c; ">"%char] with ([c] ++ [">"%char]) in E. rewrite app_assoc in E.
          apply app_inj_tail in E as [_ E]. discriminate.
        - left. f_equal. assert (exists s0, s0 ++ [a] = (y ++ [c]) ++ [">"%char]) as (s0 & E').
          { rewrite <- (app_assoc y). cbn [app]. rewrite <- E. destruct H as [->| ->]; [exists s|exists (s ++ [nl])]; rewrite <- ?app_assoc; reflexivity. }
          now apply app_inj_tail in E' as [_ E'].
        - right. exists z. assert (exists s0, ((s0 ++ z) ++ [b]) ++ [a] = (y ++ [c]) ++ [">"%char]) as (s0 & E').
          { rewrite <- (app_assoc y). cbn [app]. rewrite <- E. destruct H as [->| ->]; [exists s|exists (s ++ [nl])]; rewrite <- ?app_assoc; reflexivity. }
          apply app_inj_tail in E' as [E' ->]. apply app_inj_tail in E' as [_ ->]. reflexivity. }
      assert (H' : forall r0, r = r0 \/ r = nl :: r0 -> norm_eol r0 = [">"%char] \/
        exists z d, norm_eol r0 = z ++ [d; ">"%char] /\ d <> "-"%char /\ d <> "?"%char).
      { intros r0 I. destruct (H r0 I) as [->|(z & ->)]; [left; reflexivity|right].
        replace (z ++ [c; ">"%char]) with ((z ++ [c]) ++ [">"%char]) by now rewrite <- app_assoc.
        rewrite (norm_snoc _ _ (le_n _)). destruct (norm_last _ z c (le_n _)) as (z' & d & E1 & D).
        exists z', d. rewrite E1, <- app_assoc. split; [reflexivity|]. destruct D as [->| ->]; [auto|split; discriminate]. }
      destruct N as [->|(r0 & -> & ->)]; apply H'; auto. }
    destruct R' as [->|(z & d & -> & D1 & D2)].
    + cbn [fold_left] in G. unfold lex_step in G. cbn -[Nat.leb] in G.
      destruct (2 <=? n)%nat; [discriminate|]. injection G as <- _ _. now elim Sure; left.
    + rewrite fold_left_app in G. cbn [fold_left] in G.
      destruct (fold_left lex_step z (LText buf n, ev)) as [st0 ev0] eqn:Z. destruct (lex_step (st0, ev0) d) as [st1 ev1] eqn:S1.
      apply ceqb_neq in D1, D2. destruct (last_close st0 ev0 d st1 ev1 _ _ _ D1 D2 S1 G) as [(e & new & Ev & NT)|I]; [|now elim Sure].
      apply fold_adds in Z as (n0 & ->). apply lex_step_adds in S1 as (n1 & ->).
      rewrite !app_assoc in Ev. change (e :: ((new ++ n1) ++ n0) ++ ev) with ((e :: (new ++ n1) ++ n0) ++ ev) in Ev.
      apply app_inv_tail in Ev. subst more. inversion Only as [|? ? (s0 & T) _]. now elim (NT s0).
  - f_equal. apply accepted_state in A as (q' & buf' & n' & ev' & Q' & F' & B' & _).
    destruct (norm_cut _ s r (le_n _)) as (r' & N & _). rewrite N in Q'. unfold parse_text in B.
    destruct (skip_decl (norm_eol s)) as [q|x1] eqn:Q.
    2: { injection B as <-. unfold skip_decl in Q. destruct (_ && _) in Q; [|discriminate]. destruct (after_decl _); [destruct (decl_ok _) in Q|]; congruence. }
    cbn [bind] in B. unfold lex in B.
    destruct (decl_cut _ _ _ _ Q Q') as [->|[-> [E'|(st & E' & D & D')]]].
    + rewrite fold_left_app in F'. destruct (fold_left lex_step q (LText [] 0, [])) as [st ev].
      destruct st as [buf n| | | | | | | | | | | | | | | | | | | | | |e]; try (injection B as <-; reflexivity).
      * cbn [bind] in B. destruct (fold_adds _ _ _ _ _ F') as (more & ->).
        rewrite rev_app_distr, build_app in B'. destruct (build (rev ev) ([], None)) as [[stack root]|] eqn:Bl; [|discriminate].
        assert (Bf : build (rev (flush buf ev)) ([], None) = Err XmlError \/ exists st', build (rev (flush buf ev)) ([], None) = Ok st').
        { destruct buf as [|b buf]; cbn [flush]; [rewrite Bl; right; eauto|]. cbn [rev]. rewrite build_app, Bl. cbn [bind build].
          destruct stack; cbn [build_step]; [|right; cbn [bind]; eauto]. destruct (forallb xml_ws _); [right|left]; cbn [bind]; eauto. }
        destruct Bf as [Bf|([stack' root'] & Bf)]; rewrite Bf in B; cbn [bind] in B; [congruence|].
        destruct stack'; [destruct root'|]; congruence.
      * rewrite lerr_stays in F'. discriminate.
    + rewrite E' in B. cbn in B. congruence.
    + rewrite E' in B. destruct st; try (injection B as <-; reflexivity); [now elim (D buf brackets)|now elim (D' e)].
Qed.

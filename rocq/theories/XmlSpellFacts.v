(** * XmlSpellFacts: every way to write a tree is read as that tree *)

From Verif Require Import Py PyFacts Xml XmlFacts XmlSpell.

(** ** Characters *)

Lemma code_max c : (code c <= 255)%N.
Proof. destruct c as [[] [] [] [] [] [] [] []]; vm_compute; discriminate. Qed.
Lemma in_range_iff a b c : in_range a b c = true <-> between a b c.
Proof. unfold in_range, between. rewrite andb_true_iff, !N.leb_le. reflexivity. Qed.
Lemma or_ceqb c x : ceqb c x = true <-> c = x.
Proof. apply ceqb_eq. Qed.

Lemma char_iff c : xml_char c = true <-> is_char c.
Proof.
  unfold xml_char, is_char, between. rewrite !orb_true_iff, N.leb_le, !ceqb_eq. cbn [In].
  pose proof (code_max c). intuition (subst; auto).
Qed.
Lemma white_iff c : xml_ws c = true <-> is_white c.
Proof. unfold xml_ws, is_white. rewrite !orb_true_iff, !ceqb_eq. cbn [In]. intuition auto. Qed.
Lemma start_iff c : name_start c = true <-> is_start c.
Proof.
  unfold name_start, is_start, is_alpha_az, is_upper_az, is_lower_az.
  rewrite !orb_true_iff, !in_range_iff, !ceqb_eq. intuition auto.
Qed.
Lemma name_iff c : name_char c = true <-> is_name c \/ c = ":"%char.
Proof.
  unfold name_char, is_name, is_digit. rewrite !orb_true_iff, !in_range_iff, !ceqb_eq, start_iff. intuition auto.
Qed.

Lemma white_char c : is_white c -> xml_char c = true.
Proof. intros [<-|[<-|[<-|[<-|[]]]]]; reflexivity. Qed.

(** ** Names *)

Lemma ncname_good n : ncname n -> good_name n = true.
Proof.
  intros (c & r & -> & S & R). cbn [good_name]. apply start_iff in S as ->. cbn [andb].
  apply forallb_forall. intros x I. apply name_iff. left. rewrite Forall_forall in R. auto.
Qed.
Lemma qname_good n : qname n -> good_name n = true.
Proof.
  intros [H|(p & l & -> & P & L)]; [now apply ncname_good|].
  apply ncname_good in P, L. apply good_name_split in P as (c & p' & -> & S & F).
  apply good_name_chars in L. cbn [app good_name]. rewrite S, forallb_app, F. cbn [andb].
  change ($":" ++ l) with (":"%char :: l). cbn [forallb]. now rewrite L.
Qed.
Lemma colon_not_name c : is_name c -> c <> ":"%char.
Proof.
  intros H ->. assert (E : is_name ":") by exact H. clear H. unfold is_name, is_start, between in E.
  repeat destruct E as [E|E]; try discriminate E; vm_compute in E; destruct E as [A B]; first [exact (A eq_refl) | exact (B eq_refl)].
Qed.
Lemma ncname_no_colon n : ncname n -> has_char ":" n = false.
Proof.
  intros (c & r & -> & S & R). unfold has_char. apply not_true_iff_false. rewrite existsb_exists.
  intros (x & I & E). apply ceqb_eq in E as <-. destruct I as [->|I].
  - apply (colon_not_name ":" (or_introl S)). reflexivity.
  - rewrite Forall_forall in R. apply (colon_not_name _ (R _ I)). reflexivity.
Qed.

(** ** References *)

Lemma digit_10 c i : digit 10 c i -> is_digit c = true /\ digit_val c = Z.of_nat i.
Proof.
  intros [L H].
  do 10 (destruct i as [|i]; [destruct H as [H|H]; injection H as <-; split; reflexivity|]). lia.
Qed.
Lemma digit_16 c i : digit 16 c i -> hex_val c = Some (Z.of_nat i) /\ in_range 48 102 c = true.
Proof.
  intros [L H].
  do 16 (destruct i as [|i]; [destruct H as [H|H]; injection H as <-; split; reflexivity|]). lia.
Qed.
Lemma numeral_10 ds n : numeral 10 ds n -> forallb is_digit ds = true /\ digits_val ds = n.
Proof.
  induction 1 as [|ds n c i _ (F & V) D]; [split; reflexivity|].
  apply digit_10 in D as (D1 & D2). rewrite forallb_app, F. cbn [forallb andb]. rewrite D1. split; [reflexivity|].
  unfold digits_val in *. rewrite fold_left_app, V. cbn [fold_left]. now rewrite D2.
Qed.
Lemma hex_num_snoc ds c : forall acc n, hex_num ds acc = Some n ->
  hex_num (ds ++ [c]) acc = match hex_val c with Some d => Some (16 * n + d) | None => None end.
Proof.
  induction ds as [|d ds IH]; intros acc n H; cbn [app hex_num] in *.
  - injection H as ->. reflexivity.
  - destruct (hex_val d); [|discriminate]. now apply IH.
Qed.
Lemma numeral_16 ds n : numeral 16 ds n -> forallb (in_range 48 102) ds = true /\ hex_num ds 0 = Some n.
Proof.
  induction 1 as [|ds n c i _ (F & V) D]; [split; reflexivity|].
  apply digit_16 in D as (D1 & D2). rewrite forallb_app, F. cbn [forallb andb]. rewrite D2. split; [reflexivity|].
  rewrite (hex_num_snoc ds c 0 n V), D1. reflexivity.
Qed.

Lemma char_ref_code c : is_char c -> char_ref (Z.of_N (code c)) = Ok c.
Proof.
  intros H. unfold char_ref. pose proof (code_max c).
  destruct (Z.ltb_spec 255 (Z.of_N (code c))); [lia|]. rewrite N2Z.id.
  unfold code. rewrite ascii_N_embedding. apply char_iff in H as ->. reflexivity.
Qed.

Lemma digit_not_x c : is_digit c = true -> c <> "x"%char /\ c <> "a"%char.
Proof. intros H. split; intros ->; discriminate. Qed.

Lemma refers_entity n c : refers n c -> entity n = Ok c.
Proof.
  destruct 1 as [| | | | |ds c N C H|ds c N C H]; try reflexivity.
  - apply numeral_10 in H as (F & V). destruct ds as [|d ds]; [congruence|].
    cbn [forallb] in F. apply andb_true_iff in F as [D F].
    change ($"#" ++ d :: ds) with ("#"%char :: d :: ds). unfold entity.
    replace (str_eqb ("#"%char :: d :: ds) $"amp") with false by reflexivity.
    replace (str_eqb ("#"%char :: d :: ds) $"lt") with false by reflexivity.
    replace (str_eqb ("#"%char :: d :: ds) $"gt") with false by reflexivity.
    replace (str_eqb ("#"%char :: d :: ds) $"quot") with false by reflexivity.
    replace (str_eqb ("#"%char :: d :: ds) $"apos") with false by reflexivity.
    cbn [skipn forallb]. rewrite D, F, V. cbn [andb].
    destruct (digit_not_x d D) as [X _].
    destruct d as [[] [] [] [] [] [] [] []]; try (exfalso; now apply X); try discriminate D; now apply char_ref_code.
  - apply numeral_16 in H as (F & V). destruct ds as [|d ds]; [congruence|].
    change ($"#x" ++ d :: ds) with ("#"%char :: "x"%char :: d :: ds). unfold entity.
    replace (str_eqb ("#"%char :: "x"%char :: d :: ds) $"amp") with false by reflexivity.
    replace (str_eqb ("#"%char :: "x"%char :: d :: ds) $"lt") with false by reflexivity.
    replace (str_eqb ("#"%char :: "x"%char :: d :: ds) $"gt") with false by reflexivity.
    replace (str_eqb ("#"%char :: "x"%char :: d :: ds) $"quot") with false by reflexivity.
    replace (str_eqb ("#"%char :: "x"%char :: d :: ds) $"apos") with false by reflexivity.
    cbn [skipn]. rewrite V. now apply char_ref_code.
Qed.

(** The characters a reference consists of. *)
Definition ref_char (c : ascii) : bool := ceqb c "#" || ceqb c "x" || in_range 48 57 c || in_range 48 102 c && negb (ceqb c ";") && negb (ceqb c "<") || in_range 97 122 c.

Lemma digit_ref c : is_digit c = true -> ref_char c = true.
Proof. by_char c. Qed.
Lemma hex_ref c i : digit 16 c i -> ref_char c = true.
Proof.
  intros [L H].
  do 16 (destruct i as [|i]; [destruct H as [H|H]; injection H as <-; reflexivity|]). lia.
Qed.
Lemma numeral_ref ds n : numeral 16 ds n -> forallb ref_char ds = true.
Proof.
  induction 1 as [|ds n c i _ F D]; [reflexivity|]. rewrite forallb_app, F. cbn [forallb andb].
  rewrite (hex_ref c i D). reflexivity.
Qed.
Lemma refers_chars n c : refers n c -> forallb ref_char n = true.
Proof.
  destruct 1 as [| | | | |ds c N C H|ds c N C H]; try reflexivity.
  - apply numeral_10 in H as (F & _). change ($"#" ++ ds) with ("#"%char :: ds). cbn [forallb]. change (ref_char "#") with true.
    cbn [andb]. rewrite forallb_forall in *. intros x I. apply digit_ref. auto.
  - apply numeral_ref in H. change ($"#x" ++ ds) with ("#"%char :: "x"%char :: ds). cbn [forallb].
    change (ref_char "#") with true. change (ref_char "x") with true. exact H.
Qed.
Lemma ref_char_not c : ref_char c = true ->
  xml_char c = true /\ ceqb c ";" = false /\ ceqb c "<" = false /\ ceqb c "&" = false
  /\ ceqb c dquote = false /\ ceqb c "'" = false.
Proof. destruct c as [[] [] [] [] [] [] [] []]; vm_compute; intros H; try discriminate H; repeat split. Qed.

Lemma lx_ref_text n : forall buf ent ev, forallb ref_char n = true ->
  lx n (LTextEnt buf ent, ev) = (LTextEnt buf (rev n ++ ent), ev).
Proof.
  induction n as [|c n IH]; intros buf ent ev F; [reflexivity|]. cbn [forallb] in F. apply andb_true_iff in F as [C F].
  destruct (ref_char_not c C) as (X & S & L & A & _). rewrite lx_cons. unfold lex_step. rewrite X, S, L, A. cbn [negb orb].
  rewrite IH by exact F. cbn [rev]. now rewrite <- app_assoc.
Qed.
Lemma lx_ref_att n : forall tag atts name q buf ent ev, In q [dquote; "'"%char] -> forallb ref_char n = true ->
  lx n (LAttEnt tag atts name q buf ent, ev) = (LAttEnt tag atts name q buf (rev n ++ ent), ev).
Proof.
  induction n as [|c n IH]; intros tag atts name q buf ent ev Q F; [reflexivity|].
  cbn [forallb] in F. apply andb_true_iff in F as [C F].
  destruct (ref_char_not c C) as (X & S & L & A & D & B). rewrite lx_cons. unfold lex_step. rewrite X, S, L, A.
  replace (ceqb c q) with false by (destruct Q as [<-|[<-|[]]]; auto). cbn [negb orb].
  rewrite IH by assumption. cbn [rev]. now rewrite <- app_assoc.
Qed.

Lemma lx_reference n c buf k ev : refers n c ->
  lx ($"&" ++ n ++ $";") (LText buf k, ev)
  = if xml_ws c then (LText [] 0, ECData [c] :: flush buf ev) else (LText (c :: buf) 0, ev).
Proof.
  intros R. change ($"&") with ["&"%char]. cbn [app]. rewrite lx_cons.
  change (lex_step (LText buf k, ev) "&") with (LTextEnt buf [], ev).
  rewrite lx_app, lx_ref_text by exact (refers_chars n c R). rewrite app_nil_r.
  change ($";") with [";"%char]. rewrite lx_cons, lx_nil. unfold lex_step. cbn [negb].
  rewrite rev_involutive, (refers_entity n c R). reflexivity.
Qed.

(** ** Tags *)

Lemma lx_white_atts w : forall tag atts ev, spaces w -> lx w (LAtts tag atts, ev) = (LAtts tag atts, ev).
Proof.
  induction w as [|c w IH]; intros tag atts ev S; [reflexivity|]. inversion_clear S as [|? ? C S'].
  rewrite lx_cons. unfold lex_step. rewrite (white_char c C). cbn [negb]. apply white_iff in C as ->. now apply IH.
Qed.
Lemma lx_white_eq w : forall tag atts n ev, spaces w -> lx w (LAttEq tag atts n, ev) = (LAttEq tag atts n, ev).
Proof.
  induction w as [|c w IH]; intros tag atts n ev S; [reflexivity|]. inversion_clear S as [|? ? C S'].
  rewrite lx_cons. unfold lex_step. rewrite (white_char c C). cbn [negb]. apply white_iff in C as ->. now apply IH.
Qed.
Lemma lx_white_quote w : forall tag atts n ev, spaces w -> lx w (LAttQuote tag atts n, ev) = (LAttQuote tag atts n, ev).
Proof.
  induction w as [|c w IH]; intros tag atts n ev S; [reflexivity|]. inversion_clear S as [|? ? C S'].
  rewrite lx_cons. unfold lex_step. rewrite (white_char c C). cbn [negb]. apply white_iff in C as ->. now apply IH.
Qed.
Lemma lx_white_end w : forall tag ev, spaces w -> lx w (LEndWs tag, ev) = (LEndWs tag, ev).
Proof.
  induction w as [|c w IH]; intros tag ev S; [reflexivity|]. inversion_clear S as [|? ? C S'].
  rewrite lx_cons. unfold lex_step. rewrite (white_char c C). cbn [negb]. apply white_iff in C as ->. now apply IH.
Qed.

Lemma white_not c : is_white c -> name_char c = false /\ name_start c = false /\ ceqb c "=" = false
  /\ ceqb c ">" = false /\ ceqb c "/" = false /\ ceqb c "?" = false /\ ceqb c "<" = false /\ ceqb c "&" = false
  /\ ceqb c "]" = false /\ ceqb c dquote = false /\ ceqb c "'" = false /\ ceqb c ":" = false.
Proof. intros [<-|[<-|[<-|[<-|[]]]]]; repeat split. Qed.

(** White space, and then what may follow the attributes. *)
Lemma lx_white_tag w tag atts st ev : w <> [] -> spaces w -> in_tag tag atts st ->
  lx w (st, ev) = (LAtts tag atts, ev).
Proof.
  intros N S I. destruct w as [|c w]; [congruence|]. inversion_clear S as [|? ? C S'].
  rewrite lx_cons.
  replace (lex_step (st, ev) c) with (LAtts tag atts, ev); [now apply lx_white_atts|].
  destruct (white_not c C) as (Nc & Ns & _).
  destruct I as [-> | (t & -> & <- & ->)]; unfold lex_step; rewrite (white_char c C); cbn [negb]; rewrite ?Nc;
    apply white_iff in C as ->; reflexivity.
Qed.

Lemma lx_value q v m : In q [dquote; "'"%char] -> att_value q v m -> forall tag atts n buf ev,
  lx v (LAttVal tag atts n q buf, ev) = (LAttVal tag atts n q (rev m ++ buf), ev).
Proof.
  intros Q. induction 1 as [|w s m W _ IH|c s m C NW NQ NL NA _ IH|x c s m R _ IH]; intros tag atts n buf ev; [reflexivity| | |].
  - rewrite lx_cons. unfold lex_step. rewrite (white_char w W). cbn [negb].
    destruct (white_not w W) as (_ & _ & _ & _ & _ & _ & L & A & _ & D & B & _).
    replace (ceqb w q) with false by (destruct Q as [<-|[<-|[]]]; auto). rewrite L, A.
    apply white_iff in W as ->. rewrite IH. cbn [rev]. now rewrite <- app_assoc.
  - rewrite lx_cons. unfold lex_step. apply char_iff in C as ->. cbn [negb].
    apply ceqb_neq in NQ as ->. apply ceqb_neq in NL as ->. apply ceqb_neq in NA as ->.
    rewrite <- white_iff in NW. apply not_true_iff_false in NW as ->. rewrite IH. cbn [rev]. now rewrite <- app_assoc.
  - change ($"&") with ["&"%char]. cbn [app]. rewrite lx_cons.
    replace (lex_step (LAttVal tag atts n q buf, ev) "&") with (LAttEnt tag atts n q buf [], ev)
      by (destruct Q as [<-|[<-|[]]]; reflexivity).
    rewrite lx_app, lx_ref_att by (try assumption; exact (refers_chars x c R)).
    rewrite app_nil_r. change ($";") with [";"%char]. cbn [app]. rewrite lx_cons.
    replace (lex_step (LAttEnt tag atts n q buf (rev x), ev) ";") with (LAttVal tag atts n q (c :: buf), ev).
    2: { unfold lex_step. cbn [negb]. rewrite rev_involutive, (refers_entity x c R). reflexivity. }
    rewrite IH. cbn [rev]. now rewrite <- app_assoc.
Qed.

Lemma lx_attributes s l : attributes s l -> forall tag atts st ev, in_tag tag atts st ->
  exists st', in_tag tag (atts ++ l) st' /\ lx s (st, ev) = (st', ev).
Proof.
  induction 1 as [|w n w1 w2 q v m s l NW W N W1 W2 Q V _ IH]; intros tag atts st ev I.
  - exists st. rewrite app_nil_r. split; [exact I|reflexivity].
  - rewrite lx_app, (lx_white_tag w tag atts st ev NW W I).
    apply qname_good in N. destruct (good_name_split n N) as (c & n' & -> & S & F).
    cbn [app]. rewrite lx_cons.
    replace (lex_step (LAtts tag atts, ev) c) with (LAttName tag atts [c], ev).
    2: { unfold lex_step. rewrite (name_char_xml c (name_start_char c S)). cbn [negb].
         destruct (name_start_not c S) as (_ & _ & _ & ->). now rewrite S. }
    rewrite lx_app, lx_att_name by exact F. rewrite lx_app.
    assert (exists st1, lx w1 (LAttName tag atts (rev n' ++ [c]), ev) = (st1, ev)
            /\ forall r, lx ($"=" ++ r) (st1, ev) = lx r (LAttQuote tag atts (c :: n'), ev)) as (st1 & -> & EQ).
    { destruct w1 as [|x w1].
      - exists (LAttName tag atts (rev n' ++ [c])). split; [reflexivity|]. intros r.
        change ($"=" ++ r) with ("="%char :: r). rewrite lx_cons. f_equal. unfold lex_step. rewrite rev_rev_app. reflexivity.
      - exists (LAttEq tag atts (c :: n')). inversion_clear W1 as [|? ? X W1']. split; [|reflexivity].
        rewrite lx_cons.
        replace (lex_step (LAttName tag atts (rev n' ++ [c]), ev) x) with (LAttEq tag atts (c :: n'), ev);
          [now apply lx_white_eq|].
        unfold lex_step. rewrite (white_char x X). cbn [negb]. destruct (white_not x X) as (-> & _ & -> & _).
        apply white_iff in X as ->. now rewrite rev_rev_app. }
    rewrite EQ, lx_app, lx_white_quote by exact W2. cbn [app]. rewrite lx_cons.
    replace (lex_step (LAttQuote tag atts (c :: n'), ev) q) with (LAttVal tag atts (c :: n') q [], ev)
      by (destruct Q as [<-|[<-|[]]]; reflexivity).
    rewrite lx_app, (lx_value q v m Q V). rewrite app_nil_r, lx_cons.
    replace (lex_step (LAttVal tag atts (c :: n') q (rev m), ev) q) with (LAttEnd tag (atts ++ [(c :: n', m)]), ev).
    2: { unfold lex_step. assert (xml_char q = true) as -> by (destruct Q as [<-|[<-|[]]]; reflexivity).
         cbn [negb]. rewrite ceqb_refl, rev_involutive. reflexivity. }
    destruct (IH tag (atts ++ [(c :: n', m)]) _ ev (or_introl eq_refl)) as (st' & I' & ->).
    exists st'. split; [|reflexivity]. now rewrite <- app_assoc in I'.
Qed.

Lemma lx_start tag s atts buf n ev : good_name tag = true -> attributes s atts ->
  exists st, in_tag tag atts st /\ lx ($"<" ++ tag ++ s) (LText buf n, ev) = (st, flush buf ev).
Proof.
  intros G A. destruct (lx_open tag [] buf n ev G eq_refl) as (st & I & E).
  cbn [flat_map] in E. rewrite app_nil_r in E.
  destruct (lx_attributes s atts A tag [] st (flush buf ev) I) as (st' & I' & E').
  exists st'. split; [exact I'|]. rewrite app_assoc, lx_app, E. exact E'.
Qed.

Lemma lx_start_gt w tag atts st ev : spaces w -> in_tag tag atts st ->
  lx (w ++ $">") (st, ev) = (LText [] 0, EStart tag atts :: ev).
Proof.
  intros S I. destruct w as [|c w]; [exact (lx_gt tag atts st ev I)|].
  rewrite lx_app, (lx_white_tag (c :: w) tag atts st ev) by (try assumption; discriminate). reflexivity.
Qed.
Lemma lx_start_slash w tag atts st ev : spaces w -> in_tag tag atts st ->
  lx (w ++ $"/>") (st, ev) = (LText [] 0, EEnd tag :: EStart tag atts :: ev).
Proof.
  intros S I. destruct w as [|c w]; [destruct I as [-> | (t & -> & <- & ->)]; reflexivity|].
  rewrite lx_app, (lx_white_tag (c :: w) tag atts st ev) by (try assumption; discriminate). reflexivity.
Qed.
Lemma lx_end w tag buf n ev : good_name tag = true -> spaces w ->
  lx ($"</" ++ tag ++ w ++ $">") (LText buf n, ev) = (LText [] 0, EEnd tag :: flush buf ev).
Proof.
  intros G S. destruct w as [|c w]; [exact (lx_close tag buf n ev G)|].
  rewrite lx_app. replace (lx ($"</") (LText buf n, ev)) with (LEnd [], flush buf ev) by reflexivity.
  rewrite lx_app, lx_end_name by (apply good_name_chars; exact G). rewrite app_nil_r.
  inversion_clear S as [|? ? C S']. cbn [app]. rewrite lx_cons.
  replace (lex_step (LEnd (rev tag), flush buf ev) c) with (LEndWs tag, flush buf ev).
  2: { unfold lex_step. rewrite (white_char c C). cbn [negb]. destruct (white_not c C) as (-> & _).
       apply white_iff in C as ->. now rewrite rev_involutive. }
  rewrite lx_app, lx_white_end by exact S'. reflexivity.
Qed.

(** ** Text *)

Lemma free_tail p a s : free_of p (a ++ s) -> free_of p s.
Proof. intros F (x & y & ->). apply F. exists (a ++ x), y. now rewrite <- app_assoc. Qed.
Lemma free_head p s a : free_of p (s ++ a) -> free_of p s.
Proof. intros F (x & y & ->). apply F. exists x, (y ++ a). now rewrite <- !app_assoc. Qed.

Lemma repeat_shift {A} (c : A) n s : repeat c n ++ c :: s = repeat c (S n) ++ s.
Proof. induction n as [|n IH]; [reflexivity|]. cbn [repeat app] in *. now rewrite IH. Qed.

Lemma brackets_end n r : (2 <= n)%nat -> ~ free_of $"]]>" (repeat "]"%char n ++ ">"%char :: r).
Proof.
  intros L F. apply F. exists (repeat "]"%char (n - 2)), r.
  replace n with ((n - 2) + 2)%nat at 1 by lia. rewrite repeat_app, <- app_assoc. reflexivity.
Qed.

Lemma lx_plain r : forall buf n ev,
  Forall (fun c => is_char c /\ c <> "<"%char /\ c <> "&"%char) r -> free_of $"]]>" (repeat "]"%char n ++ r) ->
  exists n', lx r (LText buf n, ev) = (LText (rev r ++ buf) n', ev).
Proof.
  induction r as [|c r IH]; intros buf n ev H F; [exists n; reflexivity|].
  inversion_clear H as [|? ? (C & L & A) H']. rewrite lx_cons. unfold lex_step. apply char_iff in C as ->. cbn [negb].
  apply ceqb_neq in L as ->. apply ceqb_neq in A as ->.
  destruct (ceqb c "]") eqn:B.
  - apply ceqb_eq in B as ->. rewrite repeat_shift in F.
    destruct (IH ("]"%char :: buf) (S n) ev H' F) as (n' & E). exists n'. rewrite E. cbn [rev]. now rewrite <- app_assoc.
  - destruct (ceqb c ">" && (2 <=? n)%nat) eqn:G.
    + exfalso. apply andb_true_iff in G as [G N]. apply ceqb_eq in G as ->. apply Nat.leb_le in N. exact (brackets_end n r N F).
    + apply free_tail in F. apply (free_tail _ [c]) in F.
      destruct (IH (c :: buf) 0%nat ev H' F) as (n' & E). exists n'. rewrite E. cbn [rev]. now rewrite <- app_assoc.
Qed.

Lemma lx_cdata_in d : forall buf n ev, Forall is_char d -> free_of $"]]>" (repeat "]"%char n ++ d) ->
  exists n', lx d (LCData buf n, ev) = (LCData (rev d ++ buf) n', ev).
Proof.
  induction d as [|c d IH]; intros buf n ev H F; [exists n; reflexivity|].
  inversion_clear H as [|? ? C H']. rewrite lx_cons. unfold lex_step. apply char_iff in C as ->. cbn [negb].
  destruct (ceqb c "]") eqn:B.
  - apply ceqb_eq in B as ->. rewrite repeat_shift in F.
    destruct (IH ("]"%char :: buf) (S n) ev H' F) as (n' & E). exists n'. rewrite E. cbn [rev]. now rewrite <- app_assoc.
  - destruct (ceqb c ">" && (2 <=? n)%nat) eqn:G.
    + exfalso. apply andb_true_iff in G as [G N]. apply ceqb_eq in G as ->. apply Nat.leb_le in N. exact (brackets_end n d N F).
    + apply free_tail in F. apply (free_tail _ [c]) in F.
      destruct (IH (c :: buf) 0%nat ev H' F) as (n' & E). exists n'. rewrite E. cbn [rev]. now rewrite <- app_assoc.
Qed.

Lemma lx_cdata d buf n ev : Forall is_char d -> free_of $"]]>" d ->
  lx ($"<![CDATA[" ++ d ++ $"]]>") (LText buf n, ev) = (LText [] 0, ECData d :: flush buf ev).
Proof.
  intros H F. rewrite lx_app.
  replace (lx ($"<![CDATA[") (LText buf n, ev)) with (LCData [] 0, flush buf ev) by reflexivity.
  rewrite lx_app. destruct (lx_cdata_in d [] 0%nat (flush buf ev) H F) as (n' & ->). rewrite app_nil_r.
  change ($"]]>") with ["]"%char; "]"%char; ">"%char]. rewrite !lx_cons, lx_nil.
  replace (lex_step (lex_step (LCData (rev d) n', flush buf ev) "]") "]")
    with (LCData ("]"%char :: "]"%char :: rev d) (S (S n')), flush buf ev) by reflexivity.
  unfold lex_step. cbn [negb skipn]. rewrite rev_involutive. reflexivity.
Qed.

Lemma lx_comment_in c : forall k ev, (k <= 1)%nat -> Forall is_char c -> free_of $"--" (repeat "-"%char k ++ c ++ $"-") ->
  exists k', (k' = 0)%nat /\ lx c (LComment k, ev) = (LComment k', ev).
Proof.
  induction c as [|x c IH]; intros k ev K H F.
  - destruct k as [|[|k]]; [|exfalso|lia].
    + exists 0%nat. auto.
    + apply F. exists [], []. reflexivity.
  - inversion_clear H as [|? ? X H']. rewrite lx_cons. unfold lex_step. apply char_iff in X as ->. cbn [negb].
    replace (2 <=? k)%nat with false by (symmetry; apply Nat.leb_gt; lia).
    destruct (ceqb x "-") eqn:D.
    + apply ceqb_eq in D as ->. destruct k as [|k].
      * apply (IH 1%nat ev (le_n _) H' F).
      * exfalso. apply F. destruct k; [|lia]. exists [], (c ++ $"-"). reflexivity.
    + apply (IH 0%nat ev ltac:(lia) H'). apply free_tail in F. apply (free_tail _ [x]) in F. exact F.
Qed.

Lemma lx_comment c buf n ev : comment c -> lx c (LText buf n, ev) = (LText [] 0, flush buf ev).
Proof.
  intros [s H F]. rewrite lx_app.
  replace (lx ($"<!--") (LText buf n, ev)) with (LComment 0, flush buf ev) by reflexivity.
  rewrite lx_app. destruct (lx_comment_in s 0%nat (flush buf ev) ltac:(lia) H F) as (k' & -> & ->). reflexivity.
Qed.

Lemma lx_pi_in d : forall (m : bool) ev, Forall is_char d -> free_of $"?>" ((if m then $"?" else []) ++ d) ->
  exists m', lx d (LPiData m, ev) = (LPiData m', ev).
Proof.
  induction d as [|c d IH]; intros m ev H F; [eexists; reflexivity|].
  inversion_clear H as [|? ? C H']. rewrite lx_cons. unfold lex_step. apply char_iff in C as ->. cbn [negb].
  destruct (m && ceqb c ">") eqn:E.
  - exfalso. apply andb_true_iff in E as [-> E]. apply ceqb_eq in E as ->. apply F. exists [], d. reflexivity.
  - apply IH; [exact H'|]. destruct (ceqb c "?") eqn:Q.
    + apply ceqb_eq in Q as ->. apply free_tail in F. exact F.
    + apply free_tail in F. apply (free_tail _ [c]) in F. exact F.
Qed.

Lemma lx_target t : forall t0 ev, t0 <> [] -> Forall is_name t -> lx t (LPi t0, ev) = (LPi (rev t ++ t0), ev).
Proof.
  induction t as [|c t IH]; intros t0 ev N H; [reflexivity|]. inversion_clear H as [|? ? C H'].
  rewrite lx_cons.
  replace (lex_step (LPi t0, ev) c) with (LPi (c :: t0), ev).
  - rewrite IH by (try assumption; discriminate). cbn [rev]. now rewrite <- app_assoc.
  - assert (Nc : name_char c = true) by (apply name_iff; auto). unfold lex_step.
    rewrite (name_char_xml c Nc). cbn [negb]. apply colon_not_name, ceqb_neq in C as ->.
    destruct t0; [congruence|]. now rewrite Nc.
Qed.

Lemma pi_target_iff t : ncname t -> lower t <> $"xml" -> pi_target t = true.
Proof.
  intros (c & r & -> & _) L. unfold pi_target. apply str_eqb_neq in L as ->. reflexivity.
Qed.

Lemma lx_pi_start t buf n ev : ncname t -> lx ($"<?" ++ t) (LText buf n, ev) = (LPi (rev t), flush buf ev).
Proof.
  intros (c & r & -> & S & R). rewrite lx_app.
  replace (lx ($"<?") (LText buf n, ev)) with (LPi [], flush buf ev) by reflexivity.
  rewrite lx_cons.
  replace (lex_step (LPi [], flush buf ev) c) with (LPi [c], flush buf ev).
  - rewrite lx_target by (try assumption; discriminate). reflexivity.
  - unfold lex_step. assert (is_name c) as C by (left; exact S). apply start_iff in S.
    rewrite (name_char_xml c (name_start_char c S)), S. cbn [negb]. apply colon_not_name, ceqb_neq in C as ->. reflexivity.
Qed.

Lemma lx_pi c buf n ev : instruction c -> lx c (LText buf n, ev) = (LText [] 0, flush buf ev).
Proof.
  intros [t N L|t w d N L W H F]; rewrite app_assoc, lx_app, lx_pi_start by exact N.
  - change ($"?>") with ["?"%char; ">"%char]. rewrite !lx_cons, lx_nil.
    replace (lex_step (LPi (rev t), flush buf ev) "?") with (LPiEnd, flush buf ev); [reflexivity|].
    unfold lex_step. rewrite rev_involutive, (pi_target_iff t N L). cbn [negb].
    destruct (rev t); reflexivity.
  - rewrite lx_cons.
    replace (lex_step (LPi (rev t), flush buf ev) w) with (LPiData false, flush buf ev).
    + rewrite lx_app. destruct (lx_pi_in d false (flush buf ev) H F) as (m' & ->). destruct m'; reflexivity.
    + unfold lex_step. rewrite (white_char w W), rev_involutive, (pi_target_iff t N L). cbn [negb].
      destruct (white_not w W) as (-> & -> & _ & _ & _ & _ & _ & _ & _ & _ & _ & ->). apply white_iff in W as ->.
      destruct (rev t); reflexivity.
Qed.

(** A chunk of text gives pieces of text which together are the text meant. *)
Inductive pieces : list event -> str -> Prop :=
| pc_nil : pieces [] []
| pc_text s l m : s <> [] -> pieces l m -> pieces (EText s :: l) (s ++ m)
| pc_cdata s l m : pieces l m -> pieces (ECData s :: l) (s ++ m).

Lemma pieces_app a x b y : pieces a x -> pieces b y -> pieces (a ++ b) (x ++ y).
Proof. induction 1; intros; cbn [app]; rewrite <- ?app_assoc; try constructor; auto. Qed.
Lemma pieces_flush buf : exists l, pieces l (rev buf) /\ forall ev, flush buf ev = rev l ++ ev.
Proof.
  destruct buf as [|c b]; [exists []; split; [constructor|reflexivity]|].
  exists [EText (rev (c :: b))]. split; [|reflexivity]. rewrite <- (app_nil_r (rev (c :: b))) at 2. constructor; [|constructor].
  cbn [rev]. destruct (rev b); discriminate.
Qed.

Lemma lx_chunk s m : chunk s m -> forall buf n ev, n = 0%nat \/ at_markup s ->
  exists buf' n' ev' l, lx s (LText buf n, ev) = (LText buf' n', ev')
    /\ flush buf' ev' = rev l ++ ev /\ pieces l (rev buf ++ m).
Proof.
  induction 1 as [|r s m R F M _ IH|x c s m X _ IH|d s m D F _ IH|c s m C _ IH|c s m C _ IH]; intros buf n ev B.
  - destruct (pieces_flush buf) as (l & P & E). exists buf, n, ev, l. rewrite app_nil_r. auto.
  - destruct r as [|c r]. { destruct (IH buf n ev (or_intror M)) as (b' & n' & e' & l & H). exists b', n', e', l. exact H. }
    destruct B as [-> | [N | (s' & [N|N])]].
    + rewrite lx_app. destruct (lx_plain (c :: r) buf 0%nat ev R F) as (n1 & ->).
      destruct (IH (rev (c :: r) ++ buf) n1 ev (or_intror M)) as (b' & n' & e' & l & -> & E & P).
      exists b', n', e', l. repeat split; auto. rewrite rev_app_distr, rev_involutive, <- app_assoc in P. exact P.
    + discriminate.
    + exfalso. injection N as -> _. inversion_clear R as [|? ? (_ & L & _) _]. now apply L.
    + exfalso. injection N as -> _. inversion_clear R as [|? ? (_ & _ & L) _]. now apply L.
  - replace ($"&" ++ x ++ $";" ++ s) with (($"&" ++ x ++ $";") ++ s) by (rewrite <- !app_assoc; reflexivity).
    rewrite lx_app, (lx_reference x c buf n ev X). destruct (xml_ws c).
    + destruct (IH [] 0%nat (ECData [c] :: flush buf ev) (or_introl eq_refl)) as (b' & n' & e' & l & -> & E & P).
      destruct (pieces_flush buf) as (l0 & P0 & E0).
      exists b', n', e', (l0 ++ ECData [c] :: l). split; [reflexivity|]. split.
      * rewrite E, E0, rev_app_distr. cbn [rev]. rewrite <- !app_assoc. reflexivity.
      * apply pieces_app; [exact P0|]. apply (pc_cdata [c]). exact P.
    + destruct (IH (c :: buf) 0%nat ev (or_introl eq_refl)) as (b' & n' & e' & l & -> & E & P).
      exists b', n', e', l. repeat split; auto. cbn [rev] in P. rewrite <- app_assoc in P. exact P.
  - replace ($"<![CDATA[" ++ d ++ $"]]>" ++ s) with (($"<![CDATA[" ++ d ++ $"]]>") ++ s) by (rewrite <- !app_assoc; reflexivity).
    rewrite lx_app, (lx_cdata d buf n ev D F).
    destruct (IH [] 0%nat (ECData d :: flush buf ev) (or_introl eq_refl)) as (b' & n' & e' & l & -> & E & P).
    destruct (pieces_flush buf) as (l0 & P0 & E0).
    exists b', n', e', (l0 ++ ECData d :: l). split; [reflexivity|]. split.
    + rewrite E, E0, rev_app_distr. cbn [rev]. rewrite <- !app_assoc. reflexivity.
    + apply pieces_app; [exact P0|]. constructor. exact P.
  - rewrite lx_app, (lx_comment c buf n ev C).
    destruct (IH [] 0%nat (flush buf ev) (or_introl eq_refl)) as (b' & n' & e' & l & -> & E & P).
    destruct (pieces_flush buf) as (l0 & P0 & E0).
    exists b', n', e', (l0 ++ l). split; [reflexivity|]. split.
    + rewrite E, E0, rev_app_distr, <- !app_assoc. reflexivity.
    + apply pieces_app; [exact P0|exact P].
  - rewrite lx_app, (lx_pi c buf n ev C).
    destruct (IH [] 0%nat (flush buf ev) (or_introl eq_refl)) as (b' & n' & e' & l & -> & E & P).
    destruct (pieces_flush buf) as (l0 & P0 & E0).
    exists b', n', e', (l0 ++ l). split; [reflexivity|]. split.
    + rewrite E, E0, rev_app_distr, <- !app_assoc. reflexivity.
    + apply pieces_app; [exact P0|exact P].
Qed.

(** What is built from the pieces. *)
Definition join_text (t : option str) (m : str) : option str :=
  match m with [] => t | _ => more_text t m end.
Definition add_opt (m : str) (f : frame) : frame :=
  match m with [] => f | _ => add_text m f end.

Lemma more_more t a b : more_text (more_text t a) b = more_text t (a ++ b).
Proof. destruct t; cbn [more_text]; [|reflexivity]. now rewrite app_assoc. Qed.
Lemma add_text_add a b f : add_text b (add_text a f) = add_text (a ++ b) f.
Proof.
  destruct f as [raw sc t at_ x ks]. unfold add_text. cbn [f_kids f_raw f_scope f_tag f_atts f_text].
  destruct ks as [|[t' a' x' k' tl] ks]; cbn [f_kids f_raw f_scope f_tag f_atts f_text]; now rewrite more_more.
Qed.
Lemma build_pieces l m : pieces l m -> forall f fs root,
  build l (f :: fs, root) = Ok (add_opt m f :: fs, root).
Proof.
  induction 1 as [|s l m N _ IH|s l m _ IH]; intros f fs root; [reflexivity| |].
  - cbn [build build_step bind]. rewrite IH. f_equal. f_equal. f_equal.
    destruct s as [|c s]; [congruence|]. cbn [app add_opt].
    destruct m as [|d m]; [now rewrite app_nil_r|]. cbn [add_opt]. now rewrite add_text_add.
  - destruct s as [|c s]; cbn [build build_step bind app]; rewrite IH; [reflexivity|]. f_equal. f_equal. f_equal.
    destruct m as [|d m]; cbn [add_opt]; [now rewrite app_nil_r|]. now rewrite add_text_add.
Qed.

(** ** Namespaces *)

Lemma distinct_NoDup l : NoDup l -> distinct l = true.
Proof.
  induction 1 as [|x l N _ IH]; [reflexivity|]. cbn [distinct]. rewrite IH.
  apply in_strs_false in N as ->. reflexivity.
Qed.

Lemma split1_none c s : has_char c s = false -> split1 c s = None.
Proof.
  induction s as [|x s IH]; [reflexivity|]. cbn [has_char existsb split1]. rewrite orb_false_iff. intros [H1 H2].
  unfold has_char in IH. rewrite IH by exact H2.
  destruct (ceqb x c) eqn:E; [|reflexivity]. apply ceqb_eq in E as ->. rewrite ceqb_refl in H1. discriminate.
Qed.
Lemma split1_at c p l : has_char c p = false -> split1 c (p ++ c :: l) = Some (p, l).
Proof.
  induction p as [|x p IH]; cbn [app split1]; [rewrite ceqb_refl; reflexivity|].
  cbn [has_char existsb]. rewrite orb_false_iff. intros [H1 H2]. unfold has_char in IH. rewrite IH by exact H2.
  destruct (ceqb x c) eqn:E; [|reflexivity]. apply ceqb_eq in E as ->. rewrite ceqb_refl in H1. discriminate.
Qed.
Lemma split_plain n : ncname n -> split_qname n = Ok (None, n).
Proof. intros N. unfold split_qname. rewrite split1_none by now apply ncname_no_colon. reflexivity. Qed.
Lemma split_prefixed p l : ncname p -> ncname l -> split_qname (p ++ $":" ++ l) = Ok (Some p, l).
Proof.
  intros P L. unfold split_qname. change ($":" ++ l) with (":"%char :: l).
  rewrite split1_at by now apply ncname_no_colon.
  pose proof (ncname_no_colon l L) as C. destruct P as (c & r & -> & _). destruct L as (d & x & -> & S & _).
  apply start_iff in S as ->. rewrite C. reflexivity.
Qed.
Lemma ncname_ne n : ncname n -> n <> [].
Proof. intros (c & r & -> & _). discriminate. Qed.

(** Prefixes and names of declarations. *)
Definition decl_name (p : str) : str := match p with [] => $"xmlns" | _ => $"xmlns:" ++ p end.
Lemma declares_iff n p : declares n p <-> n = decl_name p.
Proof.
  unfold declares, decl_name. destruct p as [|c p].
  - split; [intros [[H _]|[_ H]]; congruence|auto].
  - split; [intros [[_ H]|[H _]]; congruence|]. intros ->. right. split; [reflexivity|discriminate].
Qed.
Lemma decl_name_inj p q : decl_name p = decl_name q -> p = q.
Proof.
  unfold decl_name. destruct p as [|c p], q as [|d q]; intros H; try reflexivity; try discriminate H.
  apply app_inv_head in H. exact H.
Qed.
Lemma declared_cons n v atts p u : declared ((n, v) :: atts) p u <-> (n = decl_name p /\ v = u) \/ declared atts p u.
Proof.
  unfold declared. split.
  - intros (x & D & [E|I]); [|eauto]. injection E as -> ->. left. split; [now apply declares_iff|reflexivity].
  - intros [[-> ->]|(x & D & I)].
    + exists (decl_name p). split; [now apply declares_iff|now left].
    + exists x. split; [exact D|now right].
Qed.
Lemma declared_key atts p u : declared atts p u -> In (decl_name p) (map fst atts).
Proof. intros (n & D & I). apply declares_iff in D as ->. exact (in_map fst _ _ I). Qed.
Lemma declared_dec atts p : (exists u, declared atts p u) \/ forall u, ~ declared atts p u.
Proof.
  induction atts as [|[n v] atts IH].
  - right. intros u (n & _ & []).
  - destruct (str_eqb_spec n (decl_name p)) as [->|N].
    + left. exists v. apply declared_cons. auto.
    + destruct IH as [(u & D)|D].
      * left. exists u. apply declared_cons. auto.
      * right. intros u H. apply declared_cons in H as [[H _]|H]; [congruence|]. exact (D u H).
Qed.

Lemma qname_xmlns q : qname ($"xmlns:" ++ q) -> ncname q.
Proof.
  intros [N|(p & l & E & P & L)].
  - apply ncname_no_colon in N. discriminate N.
  - assert (split1 ":" ($"xmlns:" ++ q) = Some ($"xmlns", q)) as A by reflexivity.
    rewrite E in A. change ($":" ++ l) with (":"%char :: l) in A.
    rewrite split1_at in A by now apply ncname_no_colon. injection A as _ <-. exact L.
Qed.
Lemma xmlns_ncname : ncname $"xmlns".
Proof.
  exists "x"%char, $"mlns". split; [reflexivity|]. split; [apply start_iff; reflexivity|].
  change ($"mlns") with ["m"%char; "l"%char; "n"%char; "s"%char].
  repeat (apply Forall_cons; [left; apply start_iff; reflexivity|]). apply Forall_nil.
Qed.

Lemma good_ns v : ~ In v [XML_URI; XMLNS_URI] -> ~ In "}"%char v -> bad_ns v = false.
Proof.
  intros N B. cbn [In] in N. unfold bad_ns. change XML_NS with XML_URI. change XMLNS_NS with XMLNS_URI.
  destruct (str_eqb_spec v XML_URI) as [Q|_]; [exfalso; apply N; left; now rewrite Q|].
  destruct (str_eqb_spec v XMLNS_URI) as [Q|_]; [exfalso; apply N; right; left; now rewrite Q|]. cbn [orb].
  destruct (has_char "}" v) eqn:H; [|reflexivity]. exfalso. apply B. unfold has_char in H.
  apply existsb_exists in H as (x & I & X). apply ceqb_eq in X as <-. exact I.
Qed.

Lemma declare_means atts : forall sc,
  Forall (fun a => qname (fst a)) atts -> NoDup (map fst atts) -> declarations_good atts ->
  exists sc', declare atts sc = Ok sc'
    /\ forall p, (forall u, declared atts p u -> sget p sc' = Some u)
                 /\ ((forall u, ~ declared atts p u) -> sget p sc' = sget p sc).
Proof.
  induction atts as [|[n v] atts IH]; intros sc Q N G.
  { exists sc. split; [reflexivity|]. intros p. split; [intros u (x & _ & [])|reflexivity]. }
  inversion_clear Q as [|? ? Qn Q']. cbn [map fst] in N, Qn. inversion_clear N as [|? ? Nn N'].
  assert (G' : declarations_good atts).
  { intros p u D. apply G. apply declared_cons. auto. }
  assert (Step : forall p0, n = decl_name p0 -> exists sc', declare atts (sset p0 v sc) = Ok sc'
    /\ forall p, (forall u, declared ((n, v) :: atts) p u -> sget p sc' = Some u)
                 /\ ((forall u, ~ declared ((n, v) :: atts) p u) -> sget p sc' = sget p sc)).
  { intros p0 ->. destruct (IH (sset p0 v sc) Q' N' G') as (sc' & E & H). exists sc'. split; [exact E|].
    intros p. destruct (H p) as [H1 H2]. split.
    - intros u D. apply declared_cons in D as [[D ->]|D]; [|auto]. apply decl_name_inj in D as <-.
      rewrite H2; [now rewrite sget_sset_eq|]. intros u' D. apply Nn. exact (declared_key _ _ _ D).
    - intros D. rewrite H2.
      + apply sget_sset_ne. intros ->. apply (D v). apply declared_cons. auto.
      + intros u D'. apply (D u). apply declared_cons. auto. }
  assert (Skip : (forall p, n <> decl_name p) -> exists sc', declare atts sc = Ok sc'
    /\ forall p, (forall u, declared ((n, v) :: atts) p u -> sget p sc' = Some u)
                 /\ ((forall u, ~ declared ((n, v) :: atts) p u) -> sget p sc' = sget p sc)).
  { intros NP. destruct (IH sc Q' N' G') as (sc' & E & H). exists sc'. split; [exact E|].
    intros p. destruct (H p) as [H1 H2]. split.
    - intros u D. apply declared_cons in D as [[D _]|D]; [exfalso; exact (NP p D)|auto].
    - intros D. apply H2. intros u D'. apply (D u). apply declared_cons. auto. }
  cbn [declare]. destruct Qn as [Qn|(p & l & -> & P & L)].
  - rewrite (split_plain n Qn). cbn [bind]. destruct (str_eqb_spec n $"xmlns") as [E|E].
    + assert (D : declared ((n, v) :: atts) [] v) by (apply declared_cons; left; split; [exact E|reflexivity]).
      destruct (G [] v D) as (_ & NU & NB & _). rewrite (good_ns v NU NB). apply Step. exact E.
    + apply Skip. intros [|c p]; [exact E|]. intros ->. apply ncname_no_colon in Qn. discriminate Qn.
  - rewrite (split_prefixed p l P L). cbn [bind]. destruct (str_eqb_spec p $"xmlns") as [->|E].
    + assert (D : declared (($"xmlns" ++ $":" ++ l, v) :: atts) l v).
      { apply declared_cons. left. split; [|reflexivity]. destruct l; [destruct L as (? & ? & ? & _); discriminate|reflexivity]. }
      destruct (G l v D) as (NX & NU & NB & NV). cbn [In] in NX. rewrite (good_ns v NU NB).
      destruct (str_eqb_spec l $"xml") as [->|_]; [exfalso; auto|].
      destruct (str_eqb_spec l $"xmlns") as [->|_]; [exfalso; auto|]. cbn [orb].
      destruct (str_eqb_spec v []) as [->|_]; [exfalso; exact (NV (ncname_ne l L) eq_refl)|]. cbn [orb].
      apply Step. destruct l; [destruct L as (? & ? & ? & _); discriminate|reflexivity].
    + apply Skip. intros q H. pose proof (split_prefixed p l P L) as A. rewrite H in A. unfold decl_name in A.
      destruct q as [|c q].
      * rewrite (split_plain _ xmlns_ncname) in A. discriminate.
      * unfold split_qname in A.
        replace (split1 ":" ($"xmlns:" ++ c :: q)) with (Some ($"xmlns", c :: q)) in A by reflexivity.
        assert (A' : (if name_start c && negb (has_char ":" (c :: q)) then Ok (Some $"xmlns", c :: q) else Err XmlError) = Ok (Some p, l)) by exact A.
        destruct (name_start c && negb (has_char ":" (c :: q))); [|discriminate A'].
        assert (B : Some $"xmlns" = Some p) by congruence. apply E. congruence.
Qed.

Definition agrees (fsc : namespaces) (sc : scope) : Prop := forall p, fsc p = prefix_ns p sc.
Lemma agrees_initial : agrees initial [].
Proof. intros p. unfold initial, prefix_ns. destruct (str_eqb p $"xml"); reflexivity. Qed.

Lemma resolve_atts_means fsc sc atts a : agrees fsc sc -> Forall (fun x => qname (fst x)) atts ->
  atts_mean fsc atts a -> resolve_atts sc atts = Ok a.
Proof.
  intros A Q. induction 1 as [|n v p l a D _ IH|n v l a N X _ IH|p n u v l a P N X S _ IH]; [reflexivity| | |];
    inversion_clear Q as [|? ? Qn Q']; specialize (IH Q'); cbn [fst] in Qn; cbn [resolve_atts].
  - apply declares_iff in D as ->. destruct p as [|c p]; cbn [decl_name] in *.
    + rewrite (split_plain _ xmlns_ncname). cbn [bind]. rewrite IH. reflexivity.
    + apply qname_xmlns in Qn. pose proof (split_prefixed $"xmlns" (c :: p) xmlns_ncname Qn) as E.
      change ($"xmlns" ++ $":" ++ c :: p) with ($"xmlns:" ++ c :: p) in E. rewrite E. cbn [bind]. rewrite IH. reflexivity.
  - rewrite (split_plain n N). cbn [bind]. rewrite IH. cbn [bind]. apply str_eqb_neq in X as ->. reflexivity.
  - rewrite (split_prefixed p n P N). cbn [bind]. rewrite IH. cbn [bind]. apply str_eqb_neq in X as ->.
    rewrite <- (A p), S. reflexivity.
Qed.
Lemma resolve_tag_means fsc sc tag t : agrees fsc sc -> tag_means fsc tag t -> resolve_tag sc tag = Ok t.
Proof.
  intros A [n N E|n u N E U|p l u P L E]; unfold resolve_tag.
  - rewrite (split_plain n N). cbn [bind]. rewrite (A []) in E. change (prefix_ns [] sc) with (sget [] sc) in E.
    destruct E as [-> | ->]; reflexivity.
  - rewrite (split_plain n N). cbn [bind]. rewrite (A []) in E. change (prefix_ns [] sc) with (sget [] sc) in E.
    rewrite E. destruct u; [congruence|reflexivity].
  - rewrite (split_prefixed p l P L). cbn [bind]. rewrite <- (A p), E. reflexivity.
Qed.

Lemma tag_qname fsc tag t : tag_means fsc tag t -> qname tag.
Proof. intros [n N _|n u N _ _|p l u P L _]; [left|left|right; exists p, l]; auto. Qed.
Lemma attributes_qnames s l : attributes s l -> Forall (fun a => qname (fst a)) l.
Proof. induction 1; constructor; auto. Qed.

Lemma open_means fsc sc tag atts fsc' t a : agrees fsc sc -> Forall (fun a => qname (fst a)) atts ->
  start_means fsc tag atts fsc' t a -> exists sc', open_tag sc tag atts = Ok (sc', t, a) /\ agrees fsc' sc'.
Proof.
  intros A Q (N & G & W & T & M & N'). unfold open_tag. rewrite (distinct_NoDup _ N). cbn [negb].
  destruct (declare_means atts sc Q N G) as (sc' & -> & H). cbn [bind].
  assert (A' : agrees fsc' sc').
  { intros p. unfold prefix_ns. destruct (W p) as [W1 W2]. destruct (H p) as [H1 H2].
    destruct (declared_dec atts p) as [(u & D)|D].
    - rewrite (W1 u D). destruct (G p u D) as (NX & _). cbn [In] in NX.
      destruct (str_eqb_spec p $"xml") as [->|_]; [exfalso; auto|]. now rewrite (H1 u D).
    - rewrite (W2 D), (A p). unfold prefix_ns. destruct (str_eqb p $"xml"); [reflexivity|]. now rewrite (H2 D). }
  exists sc'. split; [|exact A']. rewrite (resolve_tag_means fsc' sc' tag t A' T). cbn [bind].
  rewrite (resolve_atts_means fsc' sc' atts a A' Q M). cbn [bind]. rewrite (distinct_NoDup _ N'). reflexivity.
Qed.

(** ** Elements *)

Scheme element_mut := Minimality for element Sort Prop
with elements_mut := Minimality for elements Sort Prop.
Combined Scheme element_elements from element_mut, elements_mut.

Definition reads (fsc : namespaces) (s : str) (e : xml) : Prop := forall sc, agrees fsc sc ->
  forall buf n ev, exists evs, lx s (LText buf n, ev) = (LText [] 0, rev evs ++ flush buf ev)
    /\ (forall f fs root, f_scope f = sc -> build evs (f :: fs, root) = Ok (add_kid e f :: fs, root))
    /\ (sc = [] -> build evs ([], None) = Ok ([], Some e)).
Definition reads_all (fsc : namespaces) (s : str) (ks : list xml) : Prop := forall sc, agrees fsc sc ->
  forall buf n ev, exists buf' n' ev' evs, lx s (LText buf n, ev) = (LText buf' n', ev')
    /\ flush buf' ev' = rev evs ++ flush buf ev
    /\ forall f fs root, f_scope f = sc -> build evs (f :: fs, root) = Ok (add_kids ks f :: fs, root).

Lemma add_opt_kid m t a x k f : add_opt m (add_kid (El t a x k None) f) = add_kid (El t a x k (some_text m)) f.
Proof. destruct m; reflexivity. Qed.
Lemma add_opt_new m raw sc t a : add_opt m (MkFrame raw sc t a None []) = MkFrame raw sc t a (some_text m) [].
Proof. destruct m; reflexivity. Qed.

Lemma reads_empty sc sc' tag s atts w t a :
  attributes s atts -> spaces w -> start_means sc tag atts sc' t a ->
  reads sc ($"<" ++ tag ++ s ++ w ++ $"/>") (El t a None [] None).
Proof.
  intros A W S msc G buf n ev. destruct (open_means sc msc tag atts sc' t a G (attributes_qnames _ _ A) S) as (msc' & O & _).
  assert (GN : good_name tag = true) by (destruct S as (_ & _ & _ & T & _); apply qname_good, (tag_qname _ _ _ T)).
  destruct (lx_start tag s atts buf n ev GN A) as (st & I & E).
  replace ($"<" ++ tag ++ s ++ w ++ $"/>") with (($"<" ++ tag ++ s) ++ w ++ $"/>") by (rewrite <- !app_assoc; reflexivity).
  rewrite lx_app, E, (lx_start_slash w tag atts st _ W I).
  exists [EStart tag atts; EEnd tag]. split; [reflexivity|]. split.
  - intros f fs root F. cbn [build build_step]. rewrite F, O. cbn [bind build build_step f_raw]. rewrite str_eqb_refl. reflexivity.
  - intros ->. cbn [build build_step]. rewrite O. cbn [bind build build_step f_raw]. rewrite str_eqb_refl. reflexivity.
Qed.

Lemma reads_full sc sc' tag s atts w t a x m body ks w' :
  attributes s atts -> spaces w -> start_means sc tag atts sc' t a ->
  chunk x m -> reads_all sc' body ks -> spaces w' ->
  reads sc ($"<" ++ tag ++ s ++ w ++ $">" ++ x ++ body ++ $"</" ++ tag ++ w' ++ $">") (El t a (some_text m) ks None).
Proof.
  intros A W S X B W' msc G buf n ev. destruct (open_means sc msc tag atts sc' t a G (attributes_qnames _ _ A) S) as (msc' & O & G').
  assert (GN : good_name tag = true) by (destruct S as (_ & _ & _ & T & _); apply qname_good, (tag_qname _ _ _ T)).
  destruct (lx_start tag s atts buf n ev GN A) as (st & I & E).
  replace ($"<" ++ tag ++ s ++ w ++ $">" ++ x ++ body ++ $"</" ++ tag ++ w' ++ $">")
    with (($"<" ++ tag ++ s) ++ (w ++ $">") ++ x ++ body ++ ($"</" ++ tag ++ w' ++ $">")) by (rewrite <- !app_assoc; reflexivity).
  rewrite lx_app, E, lx_app, (lx_start_gt w tag atts st _ W I), lx_app.
  destruct (lx_chunk x m X [] 0%nat (EStart tag atts :: flush buf ev) (or_introl eq_refl)) as (b1 & n1 & e1 & l & -> & F1 & P).
  rewrite lx_app. destruct (B msc' G' b1 n1 e1) as (b2 & n2 & e2 & evs & -> & F2 & R).
  rewrite (lx_end w' tag b2 n2 e2 GN W'), F2, F1.
  exists (EStart tag atts :: (l ++ evs) ++ [EEnd tag]). split.
  { f_equal. cbn [rev]. rewrite !rev_app_distr. cbn [rev app]. rewrite <- !app_assoc. reflexivity. }
  assert (Inside : forall fs root, build (l ++ evs) (MkFrame tag msc' t a None [] :: fs, root)
            = Ok (MkFrame tag msc' t a (some_text m) (rev ks) :: fs, root)).
  { intros fs root. rewrite build_app, (build_pieces l m P). cbn [bind]. rewrite add_opt_new.
    rewrite R by reflexivity. rewrite add_kids_eq. cbn. now rewrite app_nil_r. }
  split.
  - intros f fs root F. cbn [build build_step]. rewrite F, O. cbn [bind]. rewrite build_app, Inside.
    cbn [bind build build_step f_raw]. rewrite str_eqb_refl. cbn [bind].
    unfold close_frame. cbn [f_tag f_atts f_text f_kids]. now rewrite rev_involutive.
  - intros ->. cbn [build build_step]. rewrite O. cbn [bind]. rewrite build_app, Inside.
    cbn [bind build build_step f_raw]. rewrite str_eqb_refl. cbn [bind].
    unfold close_frame. cbn [f_tag f_atts f_text f_kids]. now rewrite rev_involutive.
Qed.

Lemma reads_next sc s t a x k y m rest ks :
  reads sc s (El t a x k None) -> chunk y m -> reads_all sc rest ks ->
  reads_all sc (s ++ y ++ rest) (El t a x k (some_text m) :: ks).
Proof.
  intros H Y K msc G buf n ev. rewrite lx_app.
  destruct (H msc G buf n ev) as (evs & -> & B & _). rewrite lx_app.
  destruct (lx_chunk y m Y [] 0%nat (rev evs ++ flush buf ev) (or_introl eq_refl)) as (b1 & n1 & e1 & l & -> & F1 & P).
  destruct (K msc G b1 n1 e1) as (b2 & n2 & e2 & evs' & -> & F2 & R).
  exists b2, n2, e2, (evs ++ l ++ evs'). split; [reflexivity|]. split.
  - rewrite F2, F1, !rev_app_distr, <- !app_assoc. reflexivity.
  - intros f fs root F. rewrite build_app, B by exact F. cbn [bind]. rewrite build_app, (build_pieces l m P). cbn [bind].
    rewrite add_opt_kid, R by exact F. reflexivity.
Qed.

Lemma all_reads : (forall sc s e, element sc s e -> reads sc s e) /\ (forall sc s ks, elements sc s ks -> reads_all sc s ks).
Proof.
  apply element_elements.
  - intros. eapply reads_empty; eauto.
  - intros sc sc' tag s atts w t a x m body ks w' A W S X _ B W'. eapply reads_full; eauto.
  - intros sc msc G buf n ev. exists buf, n, ev, []. split; [reflexivity|]. split; [reflexivity|].
    intros f fs root _. reflexivity.
  - intros sc s t a x k y m rest ks _ H Y _ K. now apply reads_next.
Qed.

(** ** Documents *)

Definition white_event (e : event) : Prop := exists s, e = EText s /\ forallb xml_ws s = true.

Lemma white_flush buf ev : spaces buf -> exists l, flush buf ev = rev l ++ ev /\ Forall white_event l.
Proof.
  intros W. destruct buf as [|c b]; [exists []; split; [reflexivity|constructor]|].
  exists [EText (rev (c :: b))]. split; [reflexivity|]. constructor; [|constructor].
  eexists. split; [reflexivity|]. apply forallb_forall. intros x I. apply white_iff. apply in_rev in I.
  unfold spaces in W. rewrite Forall_forall in W. auto.
Qed.

Lemma lx_misc s : misc s -> forall buf n ev, spaces buf ->
  exists buf' n' ev' l, lx s (LText buf n, ev) = (LText buf' n', ev') /\ flush buf' ev' = rev l ++ ev
    /\ Forall white_event l.
Proof.
  induction 1 as [|w s W _ IH|c s C _ IH|c s C _ IH]; intros buf n ev B.
  - destruct (white_flush buf ev B) as (l & E & F). exists buf, n, ev, l. auto.
  - rewrite lx_cons.
    replace (lex_step (LText buf n, ev) w) with (LText (w :: buf) 0, ev).
    + apply IH. now constructor.
    + unfold lex_step. rewrite (white_char w W). cbn [negb].
      destruct (white_not w W) as (_ & _ & _ & -> & _ & _ & -> & -> & -> & _). reflexivity.
  - rewrite lx_app, (lx_comment c buf n ev C). destruct (white_flush buf ev B) as (l0 & E0 & F0).
    destruct (IH [] 0%nat (flush buf ev) (Forall_nil _)) as (b' & n' & e' & l & -> & E & F).
    exists b', n', e', (l0 ++ l). split; [reflexivity|]. split; [|apply Forall_app; auto].
    rewrite E, E0, rev_app_distr, <- app_assoc. reflexivity.
  - rewrite lx_app, (lx_pi c buf n ev C). destruct (white_flush buf ev B) as (l0 & E0 & F0).
    destruct (IH [] 0%nat (flush buf ev) (Forall_nil _)) as (b' & n' & e' & l & -> & E & F).
    exists b', n', e', (l0 ++ l). split; [reflexivity|]. split; [|apply Forall_app; auto].
    rewrite E, E0, rev_app_distr, <- app_assoc. reflexivity.
Qed.
Lemma build_white l root : Forall white_event l -> build l ([], root) = Ok ([], root).
Proof.
  induction 1 as [|e l (s & -> & W) _ IH]; [reflexivity|]. cbn [build build_step]. rewrite W. exact IH.
Qed.

(** The declaration is skipped, and nothing else is. *)
Definition no_mark (s : str) : Prop := Forall (fun c => ceqb c "?" = false) s.

Lemma after_decl_skip s r : no_mark s -> after_decl (s ++ $"?>" ++ r) = Some r.
Proof.
  induction 1 as [|c s C _ IH]; [reflexivity|]. cbn [app after_decl].
  replace (startswith $"?>" (c :: s ++ $"?>" ++ r)) with false; [exact IH|].
  change ($"?>") with ["?"%char; ">"%char]. cbn [startswith].
  destruct (ceqb "?" c) eqn:E; [|reflexivity]. apply ceqb_eq in E as <-. discriminate C.
Qed.
Lemma spaces_no_mark w : spaces w -> no_mark w.
Proof. apply Forall_impl. intros c C. apply (white_not c C). Qed.
Lemma literal_no_mark (s : str) : forallb (fun c => negb (ceqb c "?")) s = true -> no_mark s.
Proof.
  intros H. apply Forall_forall. intros c I. rewrite forallb_forall in H. apply negb_true_iff. auto.
Qed.
Lemma setting_no_mark n v s : setting n v s -> no_mark n -> no_mark v -> no_mark s.
Proof.
  intros [w n' w1 w2 q v' _ W W1 W2 Q] N V. unfold no_mark. rewrite !Forall_app.
  assert (MQ : Forall (fun c => ceqb c "?" = false) [q])
    by (constructor; [destruct Q as [<-|[<-|[]]]; reflexivity|constructor]).
  repeat split; try assumption; try now apply spaces_no_mark.
  apply literal_no_mark. reflexivity.
Qed.
Lemma encoding_no_mark n : encoding_name n -> no_mark n.
Proof.
  assert (K : forall a b c, between a b c -> (b < 63 \/ 63 < a)%N -> ceqb c "?" = false).
  { intros a b c [A B] L. apply ceqb_neq. intros ->. change (code "?") with 63%N in A, B. lia. }
  intros (c & r & -> & C & R). constructor.
  - destruct C as [C|C]; eapply K; eauto; lia.
  - revert R. apply Forall_impl. intros x [X|[X|[X|X]]]; try (eapply K; [exact X|lia]).
    change ($"._-") with ["."%char; "_"%char; "-"%char] in X. destruct X as [<-|[<-|[<-|[]]]]; reflexivity.
Qed.

(** What is said in the declaration is read as it is meant. *)
Definition decl_chars (v : str) : Prop :=
  Forall (fun c => between 65 90 c \/ between 97 122 c \/ between 48 57 c \/ In c $"._-") v.
Lemma decl_char_iff c : decl_char c = true <-> (between 65 90 c \/ between 97 122 c \/ between 48 57 c \/ In c $"._-").
Proof.
  change ($"._-") with ["."%char; "_"%char; "-"%char]. cbn [In]. unfold between.
  destruct c as [[] [] [] [] [] [] [] []]; vm_compute; (split; [intros H; try discriminate H; intuition (try discriminate; try congruence)
    | intros [[]|[[]|[[]|[H|[H|[H|[]]]]]]]; try reflexivity; try discriminate; exfalso; congruence]).
Qed.
Lemma alpha_iff c : is_alpha_az c = true <-> (between 65 90 c \/ between 97 122 c).
Proof.
  unfold between.
  destruct c as [[] [] [] [] [] [] [] []]; vm_compute; (split; [intros H; try discriminate H; intuition (try discriminate; try congruence)
    | intros [[]|[]]; try reflexivity; exfalso; congruence]).
Qed.
Lemma decl_chars_iff v : decl_chars v <-> forallb decl_char v = true.
Proof.
  unfold decl_chars. rewrite forallb_forall, Forall_forall. split; intros H x I; apply decl_char_iff, H, I.
Qed.
Lemma decl_char_not c : decl_char c = true -> ceqb c "?" = false /\ ceqb c dquote = false /\ ceqb c "'" = false.
Proof. destruct c as [[] [] [] [] [] [] [] []]; vm_compute; intros H; try discriminate H; repeat split. Qed.
Lemma decl_chars_no_mark v : decl_chars v -> no_mark v.
Proof.
  intros H. apply decl_chars_iff in H. rewrite forallb_forall in H. apply Forall_forall. intros c I.
  exact (proj1 (decl_char_not c (H c I))).
Qed.

Lemma drop_spaces w s : spaces w -> drop_ws (w ++ s) = drop_ws s.
Proof.
  induction 1 as [|c w C _ IH]; [reflexivity|]. cbn [app drop_ws]. apply white_iff in C as ->. exact IH.
Qed.
Definition key_char (c : ascii) : bool := negb (ceqb c "=" || xml_ws c).
Lemma take_key_app n s : forallb key_char n = true -> (exists c r, s = c :: r /\ key_char c = false) ->
  take_key (n ++ s) = (n, s).
Proof.
  intros K (c & r & -> & C). induction n as [|x n IH].
  - cbn [app take_key]. unfold key_char in C. apply negb_false_iff in C as ->. reflexivity.
  - cbn [forallb] in K. apply andb_true_iff in K as [X K]. cbn [app take_key]. unfold key_char in X.
    apply negb_true_iff in X as ->. now rewrite IH.
Qed.
Lemma pseudo_setting n v s rest : setting n v s -> forallb key_char n = true -> n <> [] -> decl_chars v ->
  pseudo_att (s ++ rest) = Some (Some (n, v, rest)).
Proof.
  intros [w n' w1 w2 q v' NW W W1 W2 Q] K N V. unfold pseudo_att.
  replace ((w ++ n' ++ w1 ++ $"=" ++ w2 ++ [q] ++ v' ++ [q]) ++ rest)
    with (w ++ n' ++ w1 ++ "="%char :: w2 ++ q :: v' ++ q :: rest)
    by (repeat rewrite <- app_assoc; reflexivity).
  rewrite drop_spaces by exact W. destruct n' as [|c n']; [congruence|].
  assert (KC := K). cbn [forallb] in KC. apply andb_true_iff in KC as [KC _].
  assert (C : xml_ws c = false) by (unfold key_char in KC; apply negb_true_iff, orb_false_iff in KC; tauto).
  assert (D : drop_ws ((c :: n') ++ w1 ++ "="%char :: w2 ++ q :: v' ++ q :: rest)
              = (c :: n') ++ w1 ++ "="%char :: w2 ++ q :: v' ++ q :: rest)
    by (cbn [app drop_ws]; now rewrite C).
  rewrite D. clear D.
  change ((c :: n') ++ w1 ++ "="%char :: w2 ++ q :: v' ++ q :: rest)
    with (c :: (n' ++ w1 ++ "="%char :: w2 ++ q :: v' ++ q :: rest)). cbv iota.
  match goal with |- (if ?b then _ else _) = _ => replace b with false end.
  2: { symmetry. apply Nat.eqb_neq. rewrite (app_length w). destruct w; [congruence|]. cbn [List.length]. lia. }
  change (c :: (n' ++ w1 ++ "="%char :: w2 ++ q :: v' ++ q :: rest))
    with ((c :: n') ++ w1 ++ "="%char :: w2 ++ q :: v' ++ q :: rest).
  rewrite take_key_app; [|exact K|].
  2: { destruct w1 as [|x w1]; [exists "="%char; eexists; split; [reflexivity|reflexivity]|].
       inversion_clear W1 as [|? ? X _]. exists x. eexists. split; [reflexivity|].
       apply white_iff in X. unfold key_char. rewrite X, orb_true_r. reflexivity. }
  rewrite drop_spaces by exact W1. cbn [drop_ws]. change (xml_ws "=") with false. cbv iota.
  rewrite drop_spaces by exact W2. cbn [drop_ws].
  replace (xml_ws q) with false by (destruct Q as [<-|[<-|[]]]; reflexivity). cbv iota.
  replace (ceqb q dquote || ceqb q "'") with true by (destruct Q as [<-|[<-|[]]]; reflexivity).
  apply decl_chars_iff in V. rewrite split1_at; [now rewrite V|].
  unfold has_char. apply not_true_iff_false. intros H. apply existsb_exists in H as (x & I & X).
  rewrite forallb_forall in V. destruct (decl_char_not x (V x I)) as (_ & D & A).
  apply ceqb_eq in X as ->. destruct Q as [Q|[Q|[]]]; rewrite <- Q in *; rewrite ceqb_refl in *; congruence.
Qed.
Lemma pseudo_end w : spaces w -> pseudo_att w = Some None.
Proof. intros W. unfold pseudo_att. rewrite <- (app_nil_r w), drop_spaces by exact W. reflexivity. Qed.
Lemma spaces_ws w : spaces w -> forallb xml_ws w = true.
Proof. intros W. apply forallb_forall. intros x I. apply white_iff. unfold spaces in W. rewrite Forall_forall in W. auto. Qed.
Lemma encoding_chars n : encoding_name n -> decl_chars n /\ exists c r, n = c :: r /\ is_alpha_az c = true.
Proof.
  intros (c & r & -> & C & R). split; [|exists c, r; split; [reflexivity|now apply alpha_iff]].
  constructor; [tauto|exact R].
Qed.
Lemma yes_chars : decl_chars $"yes".  Proof. apply decl_chars_iff. reflexivity. Qed.
Lemma no_chars : decl_chars $"no".  Proof. apply decl_chars_iff. reflexivity. Qed.

Lemma standalone_read s w : (s = [] \/ setting $"standalone" $"yes" s \/ setting $"standalone" $"no" s) -> spaces w ->
  pseudo_att (s ++ w) = Some None
  \/ exists v, pseudo_att (s ++ w) = Some (Some ($"standalone", v, w)) /\ standalone_ok $"standalone" v w = true.
Proof.
  intros [->|[S|S]] W.
  - left. now apply pseudo_end.
  - right. exists $"yes". split; [now apply pseudo_setting; [exact S|reflexivity|discriminate|exact yes_chars]|].
    unfold standalone_ok. rewrite (spaces_ws w W). reflexivity.
  - right. exists $"no". split; [now apply pseudo_setting; [exact S|reflexivity|discriminate|exact no_chars]|].
    unfold standalone_ok. rewrite (spaces_ws w W). reflexivity.
Qed.
Lemma decl_means n v e s w :
  any_version n -> setting $"version" n v ->
  (e = [] \/ exists n, encoding_name n /\ setting $"encoding" n e) ->
  (s = [] \/ setting $"standalone" $"yes" s \/ setting $"standalone" $"no" s) ->
  spaces w -> decl_ok (v ++ e ++ s ++ w) = true.
Proof.
  intros A V E S W. unfold decl_ok.
  rewrite (pseudo_setting _ _ _ _ V eq_refl ltac:(discriminate) A). rewrite str_eqb_refl. cbn [andb].
  destruct E as [->|(m & N & E)]; cbn [app].
  - destruct (standalone_read s w S W) as [->|(x & -> & O)]; [reflexivity|].
    replace (str_eqb $"standalone" $"encoding") with false by reflexivity. exact O.
  - destruct (encoding_chars m N) as (M & c & r & -> & C).
    rewrite (pseudo_setting _ _ _ _ E eq_refl ltac:(discriminate) M). rewrite str_eqb_refl, C. cbn [andb].
    destruct (standalone_read s w S W) as [->|(x & -> & O)]; [reflexivity|exact O].
Qed.

Lemma skip_some d rest : declaration any_version d -> d <> [] -> skip_decl (d ++ rest) = Ok rest.
Proof.
  intros [|n v e s w A V E S W] N; [congruence|].
  pose proof (decl_means n v e s w A V E S W) as OK.
  assert (NM : no_mark (v ++ e ++ s ++ w)).
  { unfold no_mark. rewrite !Forall_app. split; [|split; [|split]].
    - eapply setting_no_mark; [exact V|apply literal_no_mark; reflexivity|now apply decl_chars_no_mark].
    - destruct E as [->|(m & EN & E)]; [constructor|].
      eapply setting_no_mark; [exact E|apply literal_no_mark; reflexivity|now apply encoding_no_mark].
    - destruct S as [->|[S|S]]; [constructor| |]; (eapply setting_no_mark; [exact S| |]; apply literal_no_mark; reflexivity).
    - now apply spaces_no_mark. }
  assert (H : exists c v', v = c :: v' /\ xml_ws c = true).
  { destruct V as [w0 m w1 w2 q x NW W0 _ _ _]. destruct w0 as [|c w0]; [congruence|].
    inversion_clear W0 as [|? ? C _]. exists c. eexists. split; [reflexivity|]. now apply white_iff. }
  destruct H as (c & v' & Ev & C).
  replace (($"<?xml" ++ v ++ e ++ s ++ w ++ $"?>") ++ rest) with ($"<?xml" ++ (v ++ e ++ s ++ w) ++ $"?>" ++ rest)
    by (rewrite <- !app_assoc; reflexivity).
  unfold skip_decl. rewrite startswith_app.
  assert (AD : after_decl ($"<?xml" ++ (v ++ e ++ s ++ w) ++ $"?>" ++ rest) = Some rest).
  { change (after_decl ($"<?xml" ++ (v ++ e ++ s ++ w) ++ $"?>" ++ rest))
      with (after_decl (["x"; "m"; "l"]%char ++ (v ++ e ++ s ++ w) ++ $"?>" ++ rest)).
    rewrite (app_assoc ["x"; "m"; "l"]%char).
    apply after_decl_skip. apply Forall_app. split; [repeat constructor|exact NM]. }
  rewrite AD, decl_between, OK.
  change (skipn 5 ($"<?xml" ++ (v ++ e ++ s ++ w) ++ $"?>" ++ rest)) with ((v ++ e ++ s ++ w) ++ $"?>" ++ rest).
  subst v. cbn [app]. rewrite C. reflexivity.
Qed.

Lemma name_prefix t : forall u a b y z, Forall is_name t -> Forall is_name u -> ~ is_name a -> ~ is_name b ->
  t ++ a :: y = u ++ b :: z -> t = u.
Proof.
  induction t as [|c t IH]; intros [|d u] a b y z T U A B E; cbn [app] in E; try reflexivity.
  - injection E as -> _. inversion_clear U. contradiction.
  - injection E as -> _. inversion_clear T. contradiction.
  - injection E as -> E. inversion_clear T. inversion_clear U. f_equal. exact (IH u a b y z ltac:(assumption) ltac:(assumption) A B E).
Qed.
Lemma ncname_names t : ncname t -> Forall is_name t.
Proof. intros (c & r & -> & S & R). constructor; [left; exact S|exact R]. Qed.
Lemma white_not_name w : is_white w -> ~ is_name w.
Proof. intros W N. destruct (white_not w W) as (E & _). assert (name_char w = true) by (apply name_iff; auto). congruence. Qed.
Lemma mark_not_name : ~ is_name "?".
Proof. intros N. assert (H : name_char "?" = true) by (apply name_iff; auto). discriminate H. Qed.
Lemma xml_ncname : Forall is_name $"xml".
Proof.
  change ($"xml") with ["x"%char; "m"%char; "l"%char].
  repeat (apply Forall_cons; [left; apply start_iff; reflexivity|]). apply Forall_nil.
Qed.

Lemma instruction_not_decl c rest w r : instruction c -> is_white w -> c ++ rest <> $"<?xml" ++ w :: r.
Proof.
  intros I W E.
  assert (exists t a y, ncname t /\ lower t <> $"xml" /\ ~ is_name a /\ c ++ rest = $"<?" ++ t ++ a :: y)
    as (t & a & y & N & L & A & E').
  { destruct I as [t N L|t w0 d N L W0 _ _].
    - exists t, "?"%char, (">"%char :: rest). split; [exact N|]. split; [exact L|]. split; [exact mark_not_name|].
      rewrite <- !app_assoc. reflexivity.
    - exists t, w0, (d ++ $"?>" ++ rest). split; [exact N|]. split; [exact L|]. split; [now apply white_not_name|].
      rewrite <- !app_assoc. cbn [app]. rewrite <- !app_assoc. reflexivity. }
  rewrite E' in E. change ($"<?xml" ++ w :: r) with ($"<?" ++ $"xml" ++ w :: r) in E. apply app_inv_head in E.
  apply name_prefix in E; [|now apply ncname_names|exact xml_ncname|exact A|now apply white_not_name].
  subst t. apply L. reflexivity.
Qed.

Lemma skip_none before s after e : misc before -> element initial s e ->
  skip_decl (before ++ s ++ after) = Ok (before ++ s ++ after).
Proof.
  intros M E. unfold skip_decl.
  match goal with |- (if ?b then _ else _) = _ => destruct b eqn:B; [exfalso|reflexivity] end.
  apply andb_true_iff in B as [B1 B2]. apply startswith_spec in B1 as (t & B1).
  rewrite B1 in B2. change (skipn 5 ($"<?xml" ++ t)) with t in B2. destruct t as [|w r]; [discriminate B2|].
  apply white_iff in B2. destruct M as [|w0 s0 W0 _|c s0 C _|c s0 C _].
  - assert (exists tag y, qname tag /\ s = $"<" ++ tag ++ y) as (tag & y & Q & ->).
    { destruct E as [sc sc' tag s atts w0 t a _ _ (_ & _ & _ & T & _)|sc sc' tag s atts w0 t a x m body ks w' _ _ (_ & _ & _ & T & _) _ _ _];
        exists tag; eexists; (split; [exact (tag_qname _ _ _ T)|reflexivity]). }
    apply qname_good, good_name_split in Q as (c & n' & -> & S & _).
    change ($"<?xml" ++ w :: r) with ("<"%char :: "?"%char :: $"xml" ++ w :: r) in B1.
    change ($"<" ++ (c :: n') ++ y) with ("<"%char :: c :: n' ++ y) in B1. cbn [app] in B1. injection B1 as -> _. discriminate S.
  - cbn [app] in B1. change ($"<?xml" ++ w :: r) with ("<"%char :: "?"%char :: $"xml" ++ w :: r) in B1. injection B1 as -> _.
    destruct W0 as [W0|[W0|[W0|[W0|[]]]]]; discriminate W0.
  - destruct C as [c _ _]. rewrite <- !app_assoc in B1. discriminate B1.
  - rewrite <- app_assoc in B1. exact (instruction_not_decl c _ w r C B2 B1).
Qed.

Lemma norm_line_ends s t : line_ends s t -> norm_eol s = t.
Proof.
  induction 1 as [|s t _ IH|s t N _ IH|c s t C _ IH]; [reflexivity| | |].
  - cbn [norm_eol]. rewrite !ceqb_refl. now rewrite IH.
  - cbn [norm_eol]. rewrite ceqb_refl. f_equal. destruct s as [|d s]; [exact IH|].
    destruct (ceqb d nl) eqn:D; [|exact IH]. apply ceqb_eq in D as ->. exfalso. exact (N s eq_refl).
  - cbn [norm_eol]. apply ceqb_neq in C as ->. now rewrite IH.
Qed.

Lemma declaration_any (versions : str -> Prop) d : (forall v, versions v -> any_version v) ->
  declaration versions d -> declaration any_version d.
Proof. intros H [|n v e s w A V E S W]; [constructor|]. econstructor; eauto. Qed.
Lemma version_any v : version_1_0 v -> any_version v.
Proof. intros ->. apply decl_chars_iff. reflexivity. Qed.

Theorem any_read s e : spells_in any_version s e -> parse_text s = Ok e.
Proof.
  intros (s' & L & D). unfold parse_text. rewrite (norm_line_ends s s' L). clear L s.
  destruct D as [d before s after e D M E A].
  assert (skip_decl (d ++ before ++ s ++ after) = Ok (before ++ s ++ after)) as ->.
  { destruct d as [|c d]; [now apply (skip_none before s after e)|]. apply skip_some; [exact D|discriminate]. }
  cbn [bind]. unfold lex. change (fold_left lex_step) with lx. rewrite lx_app.
  destruct (lx_misc before M [] 0%nat [] (Forall_nil _)) as (b1 & n1 & e1 & l1 & -> & F1 & W1). rewrite lx_app.
  destruct (proj1 all_reads initial s e E [] agrees_initial b1 n1 e1) as (evs & -> & _ & R).
  destruct (lx_misc after A [] 0%nat (rev evs ++ flush b1 e1) (Forall_nil _)) as (b2 & n2 & e2 & l2 & -> & F2 & W2).
  cbn [bind]. rewrite F2, F1, app_nil_r, !rev_app_distr, !rev_involutive.
  rewrite <- app_assoc, build_app, (build_white l1 None W1). cbn [bind].
  rewrite build_app, (R eq_refl). cbn [bind]. rewrite (build_white l2 (Some e) W2). reflexivity.
Qed.

Theorem spelled_read s e : spells s e -> parse_text s = Ok e.
Proof.
  intros (s' & L & D). apply any_read. exists s'. split; [exact L|]. destruct D as [d before s' after e D M E A].
  constructor; try assumption. revert D. apply declaration_any. exact version_any.
Qed.

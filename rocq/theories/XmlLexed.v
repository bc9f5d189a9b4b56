(** * XmlLexed: what the lexer accepts

    Whatever text the lexer accepts is made of the characters, references, tags, comments,
    processing instructions and CDATA sections that XML allows, and its events are theirs. *)

From Verif Require Import Py PyFacts Xml XmlFacts XmlSpell XmlSpellFacts.

(** ** Events that build the same *)

Definition same (a b : list event) : Prop := forall st, build a st = build b st.

Lemma same_refl a : same a a.  Proof. intros st. reflexivity. Qed.
Lemma same_app a b c d : same a b -> same c d -> same (a ++ c) (b ++ d).
Proof. intros A C st. rewrite !build_app, A. destruct (build b st); cbn [bind]; [apply C|reflexivity]. Qed.
Lemma same_trans a b c : same a b -> same b c -> same a c.
Proof. intros A B st. now rewrite A. Qed.
Lemma same_text a b : a <> [] -> b <> [] -> same [EText (a ++ b)] [EText a; EText b].
Proof.
  intros A B [[|f fs] root]; cbn [build build_step].
  - rewrite forallb_app. destruct (forallb xml_ws a); cbn [andb bind build build_step]; [|reflexivity].
    destruct (forallb xml_ws b); reflexivity.
  - cbn [bind build build_step]. now rewrite add_text_add.
Qed.
Lemma rev_flush c buf ev : same (rev (flush (c :: buf) ev)) (rev (flush buf ev) ++ [EText [c]]).
Proof.
  destruct buf as [|b buf]; [apply same_refl|]. cbn [flush rev].
  rewrite <- (app_assoc (rev ev)).
  apply same_app; [apply same_refl|]. apply (same_text (rev buf ++ [b]) [c]); destruct (rev buf); discriminate.
Qed.

(** ** The texts *)

(** Attributes whose names may have any number of colons. *)
Inductive lexed_atts : str -> list (str * str) -> Prop :=
| la_end : lexed_atts [] []
| la_next s l w n w1 w2 q v m :
    lexed_atts s l -> w <> [] -> spaces w -> good_name n = true -> spaces w1 -> spaces w2 ->
    In q [dquote; "'"%char] -> att_value q v m ->
    lexed_atts (s ++ w ++ n ++ w1 ++ $"=" ++ w2 ++ [q] ++ v ++ [q]) (l ++ [(n, m)]).

(** lexed s evs n: the text s gives the events evs, and ends in n brackets. *)
Inductive lexed : str -> list event -> nat -> Prop :=
| lx_none : lexed [] [] 0
| lx_bracket s e n : lexed s e n -> lexed (s ++ $"]") (e ++ [EText $"]"]) (S n)
| lx_char s e n c : lexed s e n -> is_char c -> ~ In c ["<"; "&"; "]"]%char -> ~ (c = ">"%char /\ (2 <= n)%nat) ->
    lexed (s ++ [c]) (e ++ [EText [c]]) 0
| lx_refers s e n x c : lexed s e n -> refers x c ->
    lexed (s ++ $"&" ++ x ++ $";") (e ++ [if xml_ws c then ECData [c] else EText [c]]) 0
| lx_cdata_section s e n d : lexed s e n -> Forall is_char d -> free_of $"]]>" d ->
    lexed (s ++ $"<![CDATA[" ++ d ++ $"]]>") (e ++ [ECData d]) 0
| lx_remark s e n c : lexed s e n -> comment c -> lexed (s ++ c) e 0
| lx_instruction s e n c : lexed s e n -> instruction c -> lexed (s ++ c) e 0
| lx_start_tag s e n tag x atts w : lexed s e n -> good_name tag = true -> lexed_atts x atts -> spaces w ->
    lexed (s ++ $"<" ++ tag ++ x ++ w ++ $">") (e ++ [EStart tag atts]) 0
| lx_empty_tag s e n tag x atts w : lexed s e n -> good_name tag = true -> lexed_atts x atts -> spaces w ->
    lexed (s ++ $"<" ++ tag ++ x ++ w ++ $"/>") (e ++ [EStart tag atts; EEnd tag]) 0
| lx_end_tag s e n tag w : lexed s e n -> spaces w ->
    lexed (s ++ $"</" ++ tag ++ w ++ $">") (e ++ [EEnd tag]) 0.

(** ** References *)

Lemma digit_10_of c : is_digit c = true -> exists i, digit 10 c i /\ digit_val c = Z.of_nat i.
Proof.
  intros H. exists (Z.to_nat (digit_val c)). revert H.
  destruct c as [[] [] [] [] [] [] [] []]; intros H; try (vm_compute in H; discriminate H);
    (split; [split; [reflexivity|left; reflexivity]|reflexivity]).
Qed.
Lemma digit_16_of c d : hex_val c = Some d -> exists i, digit 16 c i /\ d = Z.of_nat i.
Proof.
  intros H. exists (Z.to_nat d). revert H.
  destruct c as [[] [] [] [] [] [] [] []]; vm_compute; intros H; try discriminate H; injection H as <-;
    (split; [split; [reflexivity|(left; reflexivity) || (right; reflexivity)]|reflexivity]).
Qed.
Lemma numeral_10_of ds : forallb is_digit ds = true -> numeral 10 ds (digits_val ds).
Proof.
  induction ds as [|c ds IH] using rev_ind; intros F; [constructor|].
  rewrite forallb_app in F. apply andb_true_iff in F as [F C]. cbn [forallb] in C. rewrite andb_true_r in C.
  destruct (digit_10_of c C) as (i & D & V).
  replace (digits_val (ds ++ [c])) with (10 * digits_val ds + Z.of_nat i); [constructor; auto|].
  unfold digits_val. rewrite fold_left_app. cbn [fold_left]. rewrite V. lia.
Qed.
Lemma hex_num_split ds c acc n : hex_num (ds ++ [c]) acc = Some n ->
  exists m d, hex_num ds acc = Some m /\ hex_val c = Some d /\ n = 16 * m + d.
Proof.
  revert acc. induction ds as [|x ds IH]; intros acc H; cbn [app hex_num] in H |- *.
  - destruct (hex_val c) as [d|]; [|discriminate]. injection H as <-. exists acc, d. auto.
  - destruct (hex_val x); [|discriminate]. auto.
Qed.
Lemma numeral_16_of ds : forall n, hex_num ds 0 = Some n -> numeral 16 ds n.
Proof.
  induction ds as [|c ds IH] using rev_ind; intros n H; [injection H as <-; constructor|].
  apply hex_num_split in H as (m & d & H & V & ->). apply digit_16_of in V as (i & D & ->). constructor; auto.
Qed.
Lemma numeral_pos b ds n : 0 < b -> numeral b ds n -> 0 <= n.
Proof. intros B. induction 1; lia. Qed.
Lemma char_ref_of n c : 0 <= n -> char_ref n = Ok c -> is_char c /\ n = Z.of_N (code c).
Proof.
  intros P. unfold char_ref. destruct (Z.ltb_spec 255 n) as [L|L]; [discriminate|].
  destruct (xml_char (ascii_of_N (Z.to_N n))) eqn:X; [|discriminate]. intros H. injection H as <-.
  split; [now apply char_iff|]. unfold code. rewrite N_ascii_embedding by lia. lia.
Qed.
Lemma entity_refers x c : entity x = Ok c -> refers x c.
Proof.
  unfold entity.
  destruct (str_eqb_spec x $"amp") as [->|_]; [intros H; injection H as <-; constructor|].
  destruct (str_eqb_spec x $"lt") as [->|_]; [intros H; injection H as <-; constructor|].
  destruct (str_eqb_spec x $"gt") as [->|_]; [intros H; injection H as <-; constructor|].
  destruct (str_eqb_spec x $"quot") as [->|_]; [intros H; injection H as <-; constructor|].
  destruct (str_eqb_spec x $"apos") as [->|_]; [intros H; injection H as <-; constructor|].
  assert (Dec : forall ds, ds <> [] -> (if forallb is_digit ds then char_ref (digits_val ds) else Err XmlError) = Ok c ->
    refers ($"#" ++ ds) c).
  { intros ds N H. destruct (forallb is_digit ds) eqn:F; [|discriminate]. apply numeral_10_of in F.
    apply char_ref_of in H as [C E]; [|eapply numeral_pos; [|exact F]; lia]. rewrite E in F. now constructor. }
  assert (Hex : forall ds, ds <> [] -> match hex_num ds 0 with Some n => char_ref n | None => Err XmlError end = Ok c ->
    refers ($"#x" ++ ds) c).
  { intros ds N H. destruct (hex_num ds 0) as [n|] eqn:F; [|discriminate]. apply numeral_16_of in F.
    apply char_ref_of in H as [C E]; [|eapply numeral_pos; [|exact F]; lia]. rewrite E in F. now constructor. }
  destruct x as [|a x]; [discriminate|].
  destruct (ceqb a "#") eqn:A.
  - apply ceqb_eq in A as ->. destruct x as [|b x]; [discriminate|].
    destruct (ceqb b "x") eqn:B.
    + apply ceqb_eq in B as ->. destruct x as [|d x].
      * cbn [skipn]. intros H. apply (Dec $"x"); [discriminate|exact H].
      * cbn [skipn]. apply (Hex (d :: x)). discriminate.
    + intros H. apply (Dec (b :: x)); [discriminate|].
      destruct b as [[] [] [] [] [] [] [] []]; try exact H; discriminate B.
  - destruct a as [[] [] [] [] [] [] [] []]; try discriminate; discriminate A.
Qed.

(** ** Occurrences at the end *)

Lemma free_nil p : p <> [] -> free_of p [].
Proof. intros N (a & b & E). destruct a, p; try discriminate; congruence. Qed.
Lemma free_snoc p s x c : free_of (p ++ [x]) s -> (c = x -> ~ exists a, s = a ++ p) -> free_of (p ++ [x]) (s ++ [c]).
Proof.
  intros F N (a & b & E). destruct b as [|d b _] using rev_ind.
  - rewrite app_nil_r, app_assoc in E. apply app_inj_tail in E as [E ->]. apply N; eauto.
  - rewrite !app_assoc in E. apply app_inj_tail in E as [E ->]. apply F. exists a, b.
    rewrite E, <- !app_assoc. reflexivity.
Qed.

(** The brackets at the end, counted in the reversed text. *)
Fixpoint leading (x : ascii) (s : str) : nat :=
  match s with c :: s' => if ceqb c x then S (leading x s') else 0%nat | [] => 0%nat end.
Lemma leading_two x s : (2 <= leading x s)%nat -> exists r, s = x :: x :: r.
Proof.
  destruct s as [|a [|b s]]; cbn [leading]; [lia| |].
  - destruct (ceqb a x); cbn; lia.
  - destruct (ceqb a x) eqn:A; [|lia]. destruct (ceqb b x) eqn:B; [|lia]. intros _.
    apply ceqb_eq in A as ->. apply ceqb_eq in B as ->. eauto.
Qed.
Lemma cdata_snoc buf c : free_of $"]]>" (rev buf) -> (c = ">"%char -> (leading "]" buf < 2)%nat) ->
  free_of $"]]>" (rev (c :: buf)).
Proof.
  intros F N. cbn [rev]. change ($"]]>") with (["]"; "]"]%char ++ [">"%char]) in *. apply free_snoc; [exact F|].
  intros C (a & E). apply N in C. apply (f_equal (@rev _)) in E. rewrite rev_involutive, rev_app_distr in E.
  cbn [rev app] in E. subst buf. cbn [leading] in C. rewrite ceqb_refl in C. lia.
Qed.
Lemma dash_snoc s c : free_of $"--" s -> (c = "-"%char -> ~ exists a, s = a ++ $"-") -> free_of $"--" (s ++ [c]).
Proof. exact (free_snoc ["-"%char] s "-" c). Qed.
Lemma mark_snoc s c : free_of $"?>" s -> (c = ">"%char -> ~ exists a, s = a ++ $"?") -> free_of $"?>" (s ++ [c]).
Proof. exact (free_snoc ["?"%char] s ">" c). Qed.

(** ** Values *)

Lemma value_app q v m v' m' : att_value q v m -> att_value q v' m' -> att_value q (v ++ v') (m ++ m').
Proof.
  intros V V'. induction V as [|w s m W _ IH|c s m C W Q L A _ IH|n c s m R _ IH]; cbn [app]; [exact V'| | |].
  - now constructor.
  - now constructor.
  - replace (($"&" ++ n ++ $";" ++ s) ++ v') with ($"&" ++ n ++ $";" ++ (s ++ v')) by (rewrite <- !app_assoc; reflexivity).
    now constructor.
Qed.
Lemma value_space q v m c : is_white c -> att_value q v m -> att_value q (v ++ [c]) (m ++ $" ").
Proof. intros W V. apply value_app; [exact V|]. apply av_space; [exact W|constructor]. Qed.
Lemma value_char q v m c : is_char c -> ~ is_white c -> c <> q -> c <> "<"%char -> c <> "&"%char ->
  att_value q v m -> att_value q (v ++ [c]) (m ++ [c]).
Proof. intros C W Q L A V. apply value_app; [exact V|]. apply av_char; try assumption. constructor. Qed.
Lemma value_ref q v m x c : refers x c -> att_value q v m -> att_value q (v ++ $"&" ++ x ++ $";") (m ++ [c]).
Proof.
  intros R V. apply value_app; [exact V|]. apply (av_ref q x c [] []); [exact R|constructor].
Qed.

(** ** What has been read of a piece of markup *)

Definition good_tag (tag x : str) (atts : list (str * str)) : Prop := good_name tag = true /\ lexed_atts x atts.

(** The markup begun, by the state of the lexer. *)
Definition begun (st : lstate) (s : str) : Prop :=
  match st with
  | LLt => s = $"<"
  | LTag tag => s = $"<" ++ rev tag /\ good_name (rev tag) = true
  | LAtts tag atts => exists x w, s = $"<" ++ tag ++ x ++ w /\ good_tag tag x atts /\ w <> [] /\ spaces w
  | LAttName tag atts name => exists x w, s = $"<" ++ tag ++ x ++ w ++ rev name
      /\ good_tag tag x atts /\ w <> [] /\ spaces w /\ good_name (rev name) = true
  | LAttEq tag atts name => exists x w w1, s = $"<" ++ tag ++ x ++ w ++ name ++ w1
      /\ good_tag tag x atts /\ w <> [] /\ spaces w /\ good_name name = true /\ spaces w1
  | LAttQuote tag atts name => exists x w w1 w2, s = $"<" ++ tag ++ x ++ w ++ name ++ w1 ++ $"=" ++ w2
      /\ good_tag tag x atts /\ w <> [] /\ spaces w /\ good_name name = true /\ spaces w1 /\ spaces w2
  | LAttVal tag atts name q buf => exists x w w1 w2 v, s = $"<" ++ tag ++ x ++ w ++ name ++ w1 ++ $"=" ++ w2 ++ [q] ++ v
      /\ good_tag tag x atts /\ w <> [] /\ spaces w /\ good_name name = true /\ spaces w1 /\ spaces w2
      /\ In q [dquote; "'"%char] /\ att_value q v (rev buf)
  | LAttEnt tag atts name q buf ent =>
      exists x w w1 w2 v, s = $"<" ++ tag ++ x ++ w ++ name ++ w1 ++ $"=" ++ w2 ++ [q] ++ v ++ $"&" ++ rev ent
      /\ good_tag tag x atts /\ w <> [] /\ spaces w /\ good_name name = true /\ spaces w1 /\ spaces w2
      /\ In q [dquote; "'"%char] /\ att_value q v (rev buf)
  | LAttEnd tag atts => exists x, s = $"<" ++ tag ++ x /\ good_tag tag x atts
  | LSlash tag atts => exists x w, s = $"<" ++ tag ++ x ++ w ++ $"/" /\ good_tag tag x atts /\ spaces w
  | LEnd tag => s = $"</" ++ rev tag
  | LEndWs tag => exists w, s = $"</" ++ tag ++ w /\ spaces w
  | LBang => s = $"<!"
  | LBangDash => s = $"<!-"
  | LComment n => exists c, s = $"<!--" ++ c ++ repeat "-"%char n /\ (n <= 2)%nat /\ Forall is_char c /\ free_of $"--" (c ++ $"-")
  | LCDataOpen seen => s = $"<![" ++ rev seen /\ exists r, $"CDATA[" = rev seen ++ r
  | LCData buf n => s = $"<![CDATA[" ++ rev buf /\ n = leading "]" buf /\ Forall is_char buf /\ free_of $"]]>" (rev buf)
  | LPi t => s = $"<?" ++ rev t /\ (t = [] \/ ncname (rev t))
  | LPiData mark => exists t w d, s = $"<?" ++ t ++ w :: d /\ ncname t /\ lower t <> $"xml" /\ is_white w
      /\ Forall is_char d /\ free_of $"?>" d /\ (mark = false -> ~ exists a, d = a ++ $"?") /\ (mark = true -> exists a, d = a ++ $"?")
  | LPiEnd => exists t, s = $"<?" ++ t ++ $"?" /\ ncname t /\ lower t <> $"xml"
  | _ => False
  end.

(** What the lexer has made of s. *)
Definition holds_at (s : str) (st : lstate) (ev : list event) : Prop :=
  match st with
  | LErr _ => True
  | LText buf n => exists e, lexed s e n /\ same (rev (flush buf ev)) e
  | LTextEnt buf ent => exists s0 e n, s = s0 ++ $"&" ++ rev ent /\ lexed s0 e n /\ same (rev (flush buf ev)) e
  | _ => exists s0 p e n, s = s0 ++ p /\ begun st p /\ lexed s0 e n /\ same (rev ev) e
  end.

(** ** One character *)

Lemma more s0 p e n st ev c : match st with LErr _ | LText _ _ | LTextEnt _ _ => False | _ => True end ->
  begun st (p ++ [c]) -> lexed s0 e n -> same (rev ev) e -> holds_at ((s0 ++ p) ++ [c]) st ev.
Proof.
  intros K B L S. assert (exists s1 p1 e n, (s0 ++ p) ++ [c] = s1 ++ p1 /\ begun st p1 /\ lexed s1 e n /\ same (rev ev) e) as H.
  { exists s0, (p ++ [c]), e, n. rewrite <- app_assoc. auto. }
  destruct st; try exact H; contradiction.
Qed.
(** A piece of markup ends. *)
Lemma done s0 p e n ev c new k : lexed (s0 ++ p ++ [c]) (e ++ new) k -> same (rev ev) e ->
  lexed s0 e n -> holds_at ((s0 ++ p) ++ [c]) (LText [] k) (rev new ++ ev).
Proof.
  intros L S _. exists (e ++ new). split; [now rewrite <- app_assoc|]. cbn [flush].
  rewrite rev_app_distr, rev_involutive. now apply same_app; [|apply same_refl].
Qed.

Lemma spaces_snoc w c : spaces w -> xml_ws c = true -> spaces (w ++ [c]).
Proof. intros W C. apply Forall_app. split; [exact W|]. constructor; [now apply white_iff|constructor]. Qed.
Lemma snoc_ne {A} (w : list A) c : w ++ [c] <> [].
Proof. destruct w; discriminate. Qed.
Lemma good_snoc n c : good_name n = true -> name_char c = true -> good_name (n ++ [c]) = true.
Proof.
  destruct n as [|x n]; [discriminate|]. cbn [app good_name]. intros G C. apply andb_true_iff in G as [G F].
  rewrite G, forallb_app, F. cbn [forallb]. now rewrite C.
Qed.
Lemma good_one c : name_start c = true -> good_name [c] = true.
Proof. intros S. cbn [good_name forallb]. now rewrite S. Qed.
Lemma tag_no_atts tag : good_name tag = true -> good_tag tag [] [].
Proof. intros G. split; [exact G|constructor]. Qed.

Ltac asc := repeat rewrite <- app_assoc; cbn [app]; try reflexivity.

Section Step.
  Variable c : ascii.
  Hypothesis X : xml_char c = true.

  Lemma step_text s buf n ev st' ev' : holds_at s (LText buf n) ev -> lex_step (LText buf n, ev) c = (st', ev') ->
    holds_at (s ++ [c]) st' ev'.
  Proof.
    intros (e & L & S) H. unfold lex_step in H. rewrite X in H. cbn [negb] in H.
    destruct (ceqb c "<") eqn:A.
    { injection H as <- <-. apply ceqb_eq in A as ->. exists s, $"<", e, n. cbn [begun]. auto. }
    destruct (ceqb c "&") eqn:B.
    { injection H as <- <-. apply ceqb_eq in B as ->. exists s, e, n. auto. }
    assert (T : same (rev (flush (c :: buf) ev)) (e ++ [EText [c]])).
    { eapply same_trans; [apply rev_flush|]. apply same_app; [exact S|apply same_refl]. }
    destruct (ceqb c "]") eqn:C.
    { injection H as <- <-. apply ceqb_eq in C as ->. exists (e ++ [EText $"]"]). split; [now constructor|exact T]. }
    destruct (ceqb c ">" && (2 <=? n)%nat) eqn:D; injection H as <- <-; [exact I|].
    exists (e ++ [EText [c]]). split; [|exact T]. apply (lx_char s e n c L).
    - now apply char_iff.
    - apply ceqb_neq in A, B, C. intros [Q|[Q|[Q|[]]]]; congruence.
    - intros [-> N]. apply Nat.leb_le in N. rewrite N in D. discriminate D.
  Qed.

  Lemma step_text_ent s buf ent ev st' ev' : holds_at s (LTextEnt buf ent) ev ->
    lex_step (LTextEnt buf ent, ev) c = (st', ev') -> holds_at (s ++ [c]) st' ev'.
  Proof.
    intros (s0 & e & n & -> & L & S) H. unfold lex_step in H. rewrite X in H. cbn [negb] in H.
    destruct (ceqb c ";") eqn:A.
    - apply ceqb_eq in A as ->. destruct (entity (rev ent)) as [d|x] eqn:E; [|injection H as <- <-; exact I].
      apply entity_refers in E. pose proof (lx_refers s0 e n _ d L E) as L'.
      replace ((s0 ++ $"&" ++ rev ent) ++ [";"%char]) with (s0 ++ $"&" ++ rev ent ++ $";") by (asc).
      destruct (xml_ws d); injection H as <- <-.
      + exists (e ++ [ECData [d]]). split; [exact L'|]. cbn [flush rev]. apply same_app; [exact S|apply same_refl].
      + exists (e ++ [EText [d]]). split; [exact L'|]. eapply same_trans; [apply rev_flush|].
        apply same_app; [exact S|apply same_refl].
    - destruct (ceqb c "<" || ceqb c "&"); injection H as <- <-; [exact I|].
      exists s0, e, n. split; [|auto]. cbn [rev]. asc.
  Qed.

  Ltac start H := intros (s0 & p & e & n & -> & B & L & S) H; unfold lex_step in H; rewrite X in H; cbn [negb] in H; cbn [begun] in B.
  Ltac err H := injection H as <- <-; exact I.

  Lemma step_lt s ev st' ev' : holds_at s LLt ev -> lex_step (LLt, ev) c = (st', ev') -> holds_at (s ++ [c]) st' ev'.
  Proof.
    start H. subst p. destruct (ceqb c "/") eqn:A.
    { injection H as <- <-. apply ceqb_eq in A as ->. eapply more; eauto; try exact I. reflexivity. }
    destruct (ceqb c "!") eqn:C.
    { injection H as <- <-. apply ceqb_eq in C as ->. eapply more; eauto; try exact I. reflexivity. }
    destruct (ceqb c "?") eqn:D.
    { injection H as <- <-. apply ceqb_eq in D as ->. eapply more; eauto; try exact I. split; [reflexivity|now left]. }
    destruct (name_start c) eqn:N; [|err H].
    injection H as <- <-. eapply more; eauto; try exact I. split; [reflexivity|]. now apply good_one.
  Qed.

  Lemma done_start s0 p e n ev tag x atts w : p = $"<" ++ tag ++ x ++ w -> good_tag tag x atts -> spaces w ->
    lexed s0 e n -> same (rev ev) e -> c = ">"%char -> holds_at ((s0 ++ p) ++ [c]) (LText [] 0) (EStart tag atts :: ev).
  Proof.
    intros -> (G & A) W L S ->. eapply (done s0 _ e n ev ">" [EStart tag atts] 0); eauto.
    pose proof (lx_start_tag s0 e n tag x atts w L G A W) as K.
    replace (s0 ++ ($"<" ++ tag ++ x ++ w) ++ [">"%char]) with (s0 ++ $"<" ++ tag ++ x ++ w ++ $">") by asc. exact K.
  Qed.

  Lemma step_tag tag s ev st' ev' : holds_at s (LTag tag) ev -> lex_step (LTag tag, ev) c = (st', ev') ->
    holds_at (s ++ [c]) st' ev'.
  Proof.
    start H. destruct B as (-> & G). destruct (name_char c) eqn:N.
    { injection H as <- <-. eapply more; eauto; try exact I. cbn [begun rev]. split; [asc|]. now apply good_snoc. }
    destruct (xml_ws c) eqn:W.
    { injection H as <- <-. eapply more; eauto; try exact I. exists [], [c]. split; [cbn [app]; asc|].
      split; [now apply tag_no_atts|]. split; [discriminate|]. apply (spaces_snoc []); [constructor|exact W]. }
    destruct (ceqb c ">") eqn:A.
    { injection H as <- <-. apply ceqb_eq in A. eapply (done_start s0 _ e n ev (rev tag) [] [] []); eauto.
      - rewrite !app_nil_r. reflexivity.
      - now apply tag_no_atts.
      - constructor. }
    destruct (ceqb c "/") eqn:A'; [|err H].
    injection H as <- <-. apply ceqb_eq in A' as ->. eapply more; eauto; try exact I. exists [], []. split; [cbn [app]; asc|].
    split; [now apply tag_no_atts|constructor].
  Qed.

  Lemma step_atts tag atts s ev st' ev' : holds_at s (LAtts tag atts) ev -> lex_step (LAtts tag atts, ev) c = (st', ev') ->
    holds_at (s ++ [c]) st' ev'.
  Proof.
    start H. destruct B as (x & w & -> & G & NW & W). destruct (xml_ws c) eqn:C.
    { injection H as <- <-. eapply more; eauto; try exact I. exists x, (w ++ [c]). split; [asc|].
      split; [exact G|]. split; [apply snoc_ne|now apply spaces_snoc]. }
    destruct (name_start c) eqn:N.
    { injection H as <- <-. eapply more; eauto; try exact I. exists x, w. split; [cbn [rev]; asc|]. repeat (split; [assumption|]). now apply good_one. }
    destruct (ceqb c ">") eqn:A.
    { injection H as <- <-. apply ceqb_eq in A. eapply done_start; eauto. }
    destruct (ceqb c "/") eqn:A'; [|err H].
    injection H as <- <-. apply ceqb_eq in A' as ->. eapply more; eauto; try exact I. exists x, w. split; [asc|]. auto.
  Qed.

  Lemma step_att_name tag atts name s ev st' ev' : holds_at s (LAttName tag atts name) ev ->
    lex_step (LAttName tag atts name, ev) c = (st', ev') -> holds_at (s ++ [c]) st' ev'.
  Proof.
    start H. destruct B as (x & w & -> & G & NW & W & N). destruct (name_char c) eqn:C.
    { injection H as <- <-. eapply more; eauto; try exact I. exists x, w. split; [cbn [rev]; asc|].
      repeat (split; [assumption|]). now apply good_snoc. }
    destruct (ceqb c "=") eqn:A.
    { injection H as <- <-. apply ceqb_eq in A as ->. eapply more; eauto; try exact I. exists x, w, [], []. split; [asc|].
      repeat (split; [assumption|]). split; constructor. }
    destruct (xml_ws c) eqn:B; [|err H].
    injection H as <- <-. eapply more; eauto; try exact I. exists x, w, [c]. split; [asc|].
    repeat (split; [assumption|]). apply (spaces_snoc []); [constructor|exact B].
  Qed.

  Lemma step_att_eq tag atts name s ev st' ev' : holds_at s (LAttEq tag atts name) ev ->
    lex_step (LAttEq tag atts name, ev) c = (st', ev') -> holds_at (s ++ [c]) st' ev'.
  Proof.
    start H. destruct B as (x & w & w1 & -> & G & NW & W & N & W1). destruct (xml_ws c) eqn:C.
    { injection H as <- <-. eapply more; eauto; try exact I. exists x, w, (w1 ++ [c]). split; [asc|].
      repeat (split; [assumption|]). now apply spaces_snoc. }
    destruct (ceqb c "=") eqn:A; [|err H].
    injection H as <- <-. apply ceqb_eq in A as ->. eapply more; eauto; try exact I. exists x, w, w1, []. split; [asc|].
    repeat (split; [assumption|]). constructor.
  Qed.

  Lemma step_att_quote tag atts name s ev st' ev' : holds_at s (LAttQuote tag atts name) ev ->
    lex_step (LAttQuote tag atts name, ev) c = (st', ev') -> holds_at (s ++ [c]) st' ev'.
  Proof.
    start H. destruct B as (x & w & w1 & w2 & -> & G & NW & W & N & W1 & W2). destruct (xml_ws c) eqn:C.
    { injection H as <- <-. eapply more; eauto; try exact I. exists x, w, w1, (w2 ++ [c]). split; [asc|].
      repeat (split; [assumption|]). now apply spaces_snoc. }
    destruct (ceqb c dquote || ceqb c "'") eqn:A; [|err H].
    injection H as <- <-. eapply more; eauto; try exact I. exists x, w, w1, w2, []. split; [asc|].
    repeat (split; [assumption|]). split; [|constructor]. apply orb_true_iff in A as [A|A]; apply ceqb_eq in A as ->; cbn [In]; auto.
  Qed.

  Lemma step_att_val tag atts name q buf s ev st' ev' : holds_at s (LAttVal tag atts name q buf) ev ->
    lex_step (LAttVal tag atts name q buf, ev) c = (st', ev') -> holds_at (s ++ [c]) st' ev'.
  Proof.
    start H. destruct B as (x & w & w1 & w2 & v & -> & G & NW & W & N & W1 & W2 & Q & V).
    destruct (ceqb c q) eqn:C.
    { injection H as <- <-. apply ceqb_eq in C as ->. eapply more; eauto; try exact I.
      exists (x ++ w ++ name ++ w1 ++ $"=" ++ w2 ++ [q] ++ v ++ [q]). split; [asc|].
      destruct G as [G A]. split; [exact G|]. now constructor. }
    destruct (ceqb c "<") eqn:C1; [err H|].
    destruct (ceqb c "&") eqn:C2.
    { injection H as <- <-. apply ceqb_eq in C2 as ->. eapply more; eauto; try exact I. exists x, w, w1, w2, v. split; [cbn [rev]; asc|].
      repeat (split; [assumption|]). assumption. }
    destruct (xml_ws c) eqn:C3; injection H as <- <-; eapply more; eauto; try exact I; exists x, w, w1, w2, (v ++ [c]);
      (split; [asc|]); repeat (split; [assumption|]); cbn [rev].
    - apply value_space; [now apply white_iff|exact V].
    - apply ceqb_neq in C, C1, C2. apply value_char; try assumption; [now apply char_iff|].
      intros K. apply white_iff in K. congruence.
  Qed.

  Lemma step_att_ent tag atts name q buf ent s ev st' ev' : holds_at s (LAttEnt tag atts name q buf ent) ev ->
    lex_step (LAttEnt tag atts name q buf ent, ev) c = (st', ev') -> holds_at (s ++ [c]) st' ev'.
  Proof.
    start H. destruct B as (x & w & w1 & w2 & v & -> & G & NW & W & N & W1 & W2 & Q & V).
    destruct (ceqb c ";") eqn:C.
    { apply ceqb_eq in C as ->. destruct (entity (rev ent)) as [d|] eqn:E; [|err H]. injection H as <- <-.
      apply entity_refers in E. eapply more; eauto; try exact I. exists x, w, w1, w2, (v ++ $"&" ++ rev ent ++ $";"). split; [asc|].
      repeat (split; [assumption|]). cbn [rev]. now apply value_ref. }
    destruct (ceqb c "<" || ceqb c "&" || ceqb c q); [err H|]. injection H as <- <-. eapply more; eauto; try exact I.
    exists x, w, w1, w2, v. split; [cbn [rev]; asc|]. repeat (split; [assumption|]). assumption.
  Qed.

  Lemma step_att_end tag atts s ev st' ev' : holds_at s (LAttEnd tag atts) ev -> lex_step (LAttEnd tag atts, ev) c = (st', ev') ->
    holds_at (s ++ [c]) st' ev'.
  Proof.
    start H. destruct B as (x & -> & G). destruct (xml_ws c) eqn:C.
    { injection H as <- <-. eapply more; eauto; try exact I. exists x, [c]. split; [asc|]. split; [exact G|].
      split; [discriminate|]. apply (spaces_snoc []); [constructor|exact C]. }
    destruct (ceqb c ">") eqn:A.
    { injection H as <- <-. apply ceqb_eq in A. eapply (done_start s0 _ e n ev tag x atts []); eauto; [now rewrite app_nil_r|constructor]. }
    destruct (ceqb c "/") eqn:A'; [|err H].
    injection H as <- <-. apply ceqb_eq in A' as ->. eapply more; eauto; try exact I. exists x, []. split; [asc|]. split; [exact G|constructor].
  Qed.

  Lemma step_slash tag atts s ev st' ev' : holds_at s (LSlash tag atts) ev -> lex_step (LSlash tag atts, ev) c = (st', ev') ->
    holds_at (s ++ [c]) st' ev'.
  Proof.
    start H. destruct B as (x & w & -> & (G & A) & W). destruct (ceqb c ">") eqn:C; [|err H].
    injection H as <- <-. apply ceqb_eq in C as ->. apply (done s0 _ e n ev ">" [EStart tag atts; EEnd tag] 0); [|exact S|exact L].
    pose proof (lx_empty_tag s0 e n tag x atts w L G A W) as K.
    replace (s0 ++ ($"<" ++ tag ++ x ++ w ++ $"/") ++ [">"%char]) with (s0 ++ $"<" ++ tag ++ x ++ w ++ $"/>") by asc. exact K.
  Qed.

  Lemma done_end s0 p e n ev tag w : p = $"</" ++ tag ++ w -> spaces w ->
    lexed s0 e n -> same (rev ev) e -> c = ">"%char -> holds_at ((s0 ++ p) ++ [c]) (LText [] 0) (EEnd tag :: ev).
  Proof.
    intros -> W L S ->. apply (done s0 _ e n ev ">" [EEnd tag] 0); [|exact S|exact L].
    pose proof (lx_end_tag s0 e n tag w L W) as K.
    replace (s0 ++ ($"</" ++ tag ++ w) ++ [">"%char]) with (s0 ++ $"</" ++ tag ++ w ++ $">") by asc. exact K.
  Qed.

  Lemma step_end tag s ev st' ev' : holds_at s (LEnd tag) ev -> lex_step (LEnd tag, ev) c = (st', ev') -> holds_at (s ++ [c]) st' ev'.
  Proof.
    start H. subst p. destruct (name_char c) eqn:N.
    { injection H as <- <-. eapply more; eauto; try exact I. cbn [begun rev]. asc. }
    destruct (xml_ws c) eqn:W.
    { injection H as <- <-. eapply more; eauto; try exact I. exists [c]. split; [asc|]. apply (spaces_snoc []); [constructor|exact W]. }
    destruct (ceqb c ">") eqn:A; [|err H]. injection H as <- <-. apply ceqb_eq in A.
    eapply (done_end s0 _ e n ev (rev tag) []); eauto; [now rewrite app_nil_r|constructor].
  Qed.

  Lemma step_end_ws tag s ev st' ev' : holds_at s (LEndWs tag) ev -> lex_step (LEndWs tag, ev) c = (st', ev') ->
    holds_at (s ++ [c]) st' ev'.
  Proof.
    start H. destruct B as (w & -> & W). destruct (xml_ws c) eqn:C.
    { injection H as <- <-. eapply more; eauto; try exact I. exists (w ++ [c]). split; [asc|]. now apply spaces_snoc. }
    destruct (ceqb c ">") eqn:A; [|err H]. injection H as <- <-. apply ceqb_eq in A. eapply done_end; eauto.
  Qed.

  Lemma step_bang s ev st' ev' : holds_at s LBang ev -> lex_step (LBang, ev) c = (st', ev') -> holds_at (s ++ [c]) st' ev'.
  Proof.
    start H. subst p. destruct (ceqb c "-") eqn:A.
    { injection H as <- <-. apply ceqb_eq in A as ->. eapply more; eauto; try exact I. reflexivity. }
    destruct (ceqb c "[") eqn:C.
    { injection H as <- <-. apply ceqb_eq in C as ->. eapply more; eauto; try exact I. split; [reflexivity|]. exists $"CDATA[". reflexivity. }
    destruct (ceqb c "D"); err H.
  Qed.

  Lemma step_bang_dash s ev st' ev' : holds_at s LBangDash ev -> lex_step (LBangDash, ev) c = (st', ev') -> holds_at (s ++ [c]) st' ev'.
  Proof.
    start H. subst p. destruct (ceqb c "-") eqn:A; [|err H].
    injection H as <- <-. apply ceqb_eq in A as ->. eapply more; eauto; try exact I. exists [].
    split; [reflexivity|]. split; [lia|]. split; [constructor|]. apply (dash_snoc [] "-"); [now apply free_nil|].
    intros _ (a & E). destruct a; discriminate.
  Qed.

  Lemma step_comment k s ev st' ev' : holds_at s (LComment k) ev -> lex_step (LComment k, ev) c = (st', ev') -> holds_at (s ++ [c]) st' ev'.
  Proof.
    start H. destruct B as (b & -> & K & F & D). destruct (2 <=? k)%nat eqn:K2.
    { apply Nat.leb_le in K2. destruct (ceqb c ">") eqn:A; [|err H]. injection H as <- <-. apply ceqb_eq in A as ->.
      replace k with 2%nat by lia. apply (done s0 _ e n ev ">" [] 0); [|exact S|exact L].
      rewrite app_nil_r. pose proof (lx_remark s0 e n _ L (a_comment b F D)) as Z.
      replace (s0 ++ ($"<!--" ++ b ++ repeat "-"%char 2) ++ [">"%char]) with (s0 ++ $"<!--" ++ b ++ $"-->") by asc. exact Z. }
    apply Nat.leb_gt in K2. destruct (ceqb c "-") eqn:A.
    { injection H as <- <-. apply ceqb_eq in A as ->. eapply more; eauto; try exact I. exists b. split.
      - rewrite <- !app_assoc. do 2 f_equal. rewrite <- (repeat_cons k "-"%char). reflexivity.
      - split; [lia|auto]. }
    injection H as <- <-. eapply more; eauto; try exact I. apply ceqb_neq in A. apply char_iff in X.
    exists (b ++ repeat "-"%char k ++ [c]). split; [cbn [repeat]; asc; now rewrite app_nil_r|]. split; [lia|]. split.
    { apply Forall_app. split; [exact F|]. apply Forall_app. split; [|now constructor].
      apply Forall_forall. intros x J. apply repeat_spec in J as ->. apply char_iff. reflexivity. }
    apply dash_snoc.
    - rewrite app_assoc. apply dash_snoc; [|congruence].
      destruct k as [|[|k]]; [|exact D|lia]. cbn [repeat]. rewrite app_nil_r. exact (free_head _ _ _ D).
    - intros _ (a & E). rewrite app_assoc in E. apply app_inj_tail in E as [_ E]. congruence.
  Qed.

  Lemma step_cdata_open seen s ev st' ev' : holds_at s (LCDataOpen seen) ev -> lex_step (LCDataOpen seen, ev) c = (st', ev') ->
    holds_at (s ++ [c]) st' ev'.
  Proof.
    start H. destruct B as (-> & _). destruct (str_eqb_spec (rev (c :: seen)) $"CDATA[") as [E|_].
    { injection H as <- <-. eapply more; eauto; try exact I. split.
      - cbn [rev] in E. rewrite <- app_assoc, E. reflexivity.
      - split; [reflexivity|]. split; [constructor|]. apply free_nil. discriminate. }
    destruct (startswith (rev (c :: seen)) $"CDATA[") eqn:E; [|err H].
    injection H as <- <-. eapply more; eauto; try exact I. apply startswith_spec in E as (r & E). split; [cbn [rev]; asc|eauto].
  Qed.

  Lemma step_cdata buf k s ev st' ev' : holds_at s (LCData buf k) ev -> lex_step (LCData buf k, ev) c = (st', ev') ->
    holds_at (s ++ [c]) st' ev'.
  Proof.
    start H. destruct B as (-> & -> & F & D). apply char_iff in X. destruct (ceqb c "]") eqn:A.
    { injection H as <- <-. apply ceqb_eq in A as ->. eapply more; eauto; try exact I. split; [cbn [rev]; asc|].
      split; [reflexivity|]. split; [now constructor|]. apply cdata_snoc; [exact D|discriminate]. }
    destruct (ceqb c ">" && (2 <=? leading "]" buf)%nat) eqn:C; injection H as <- <-.
    - apply andb_true_iff in C as [C N]. apply ceqb_eq in C as ->. apply Nat.leb_le, leading_two in N as (r & ->).
      cbn [skipn]. apply (done s0 _ e n ev ">" [ECData (rev r)] 0); [|exact S|exact L].
      inversion_clear F as [|? ? _ F']. inversion_clear F' as [|? ? _ F'']. cbn [rev] in D. rewrite <- app_assoc in D.
      pose proof (lx_cdata_section s0 e n (rev r) L (Forall_rev F'') (free_head _ _ _ D)) as K.
      replace (s0 ++ ($"<![CDATA[" ++ rev ("]"%char :: "]"%char :: r)) ++ [">"%char]) with (s0 ++ $"<![CDATA[" ++ rev r ++ $"]]>"); [exact K|].
      cbn [rev]. asc.
    - eapply more; eauto; try exact I. split; [cbn [rev]; asc|]. split; [cbn [leading]; now rewrite A|].
      split; [now constructor|]. apply cdata_snoc; [exact D|]. intros ->.
      destruct (Nat.leb_spec 2 (leading "]" buf)); [discriminate C|lia].
  Qed.

  Lemma pi_target_of t : pi_target t = true -> lower t <> $"xml".
  Proof.
    unfold pi_target. destruct t; [discriminate|]. intros H E. apply negb_true_iff, str_eqb_neq in H. contradiction.
  Qed.

  Lemma step_pi t s ev st' ev' : holds_at s (LPi t) ev -> lex_step (LPi t, ev) c = (st', ev') -> holds_at (s ++ [c]) st' ev'.
  Proof.
    start H. destruct B as (-> & N). destruct (ceqb c ":") eqn:A; [err H|].
    apply ceqb_neq in A.
    assert (NC : name_char c = true -> is_name c) by (intros K; apply name_iff in K as [K|K]; [exact K|contradiction]).
    destruct (match t with [] => name_start c | _ => name_char c end) eqn:C.
    { injection H as <- <-. eapply more; eauto; try exact I. split; [cbn [rev]; asc|]. right. destruct t as [|d t].
      - exists c, []. split; [reflexivity|]. split; [now apply start_iff|constructor].
      - destruct N as [N|(a & r & E & Sa & R)]; [discriminate|]. exists a, (r ++ [c]). cbn [rev] in *. rewrite E. split; [reflexivity|].
        split; [exact Sa|]. apply Forall_app. split; [exact R|]. constructor; auto. }
    destruct (pi_target (rev t)) eqn:P; [|err H]. cbn [negb] in H.
    assert (N' : ncname (rev t)) by (destruct N as [->|N]; [discriminate P|exact N]). apply pi_target_of in P.
    destruct (xml_ws c) eqn:W.
    { injection H as <- <-. eapply more; eauto; try exact I. exists (rev t), c, []. split; [asc|].
      split; [exact N'|]. split; [exact P|]. split; [now apply white_iff|]. split; [constructor|].
      split; [now apply free_nil|]. split; [|discriminate]. intros _ (a & E). destruct a; discriminate. }
    destruct (ceqb c "?") eqn:Q; [|err H]. injection H as <- <-. apply ceqb_eq in Q as ->. eapply more; eauto; try exact I.
    exists (rev t). split; [asc|]. auto.
  Qed.

  Lemma step_pi_data m s ev st' ev' : holds_at s (LPiData m) ev -> lex_step (LPiData m, ev) c = (st', ev') -> holds_at (s ++ [c]) st' ev'.
  Proof.
    start H. destruct B as (t & w & d & -> & N & P & W & F & D & M0 & M1). destruct (m && ceqb c ">") eqn:A; injection H as <- <-.
    - apply andb_true_iff in A as [-> A]. apply ceqb_eq in A as ->. destruct (M1 eq_refl) as (d0 & ->).
      apply (done s0 _ e n ev ">" [] 0); [|exact S|exact L]. rewrite app_nil_r.
      apply Forall_app in F as [F _]. apply free_head in D.
      pose proof (lx_instruction s0 e n _ L (pi_data t w d0 N P W F D)) as K.
      replace (s0 ++ ($"<?" ++ t ++ w :: d0 ++ $"?") ++ [">"%char]) with (s0 ++ $"<?" ++ t ++ w :: d0 ++ $"?>"); [exact K|].
      repeat (rewrite <- ?app_assoc; cbn [app]). reflexivity.
    - eapply more; eauto; try exact I. exists t, w, (d ++ [c]). split; [repeat (rewrite <- ?app_assoc; cbn [app]); reflexivity|].
      split; [exact N|]. split; [exact P|]. split; [exact W|]. split; [apply Forall_app; split; [exact F|constructor; [now apply char_iff|constructor]]|].
      split; [|split].
      + apply mark_snoc; [exact D|]. intros ->. destruct m; [discriminate A|]. auto.
      + intros Q (a & E). apply app_inj_tail in E as [_ E]. subst c. discriminate Q.
      + intros Q. apply ceqb_eq in Q as ->. exists d. reflexivity.
  Qed.

  Lemma step_pi_end s ev st' ev' : holds_at s LPiEnd ev -> lex_step (LPiEnd, ev) c = (st', ev') -> holds_at (s ++ [c]) st' ev'.
  Proof.
    start H. destruct B as (t & -> & N & P). destruct (ceqb c ">") eqn:A; [|err H]. injection H as <- <-. apply ceqb_eq in A as ->.
    apply (done s0 _ e n ev ">" [] 0); [|exact S|exact L]. rewrite app_nil_r.
    pose proof (lx_instruction s0 e n _ L (pi_bare t N P)) as K.
    replace (s0 ++ ($"<?" ++ t ++ $"?") ++ [">"%char]) with (s0 ++ $"<?" ++ t ++ $"?>"); [exact K|]. asc.
  Qed.
End Step.

Lemma step_holds s st ev c st' ev' : holds_at s st ev -> lex_step (st, ev) c = (st', ev') -> holds_at (s ++ [c]) st' ev'.
Proof.
  intros B H. destruct (xml_char c) eqn:X.
  2: { destruct st; cbn [lex_step] in H; rewrite ?X in H; cbn [negb] in H; injection H as <- <-; exact I. }
  destruct st.
  - eapply step_text; [exact X|exact B|exact H].
  - eapply step_text_ent; [exact X|exact B|exact H].
  - eapply step_lt; [exact X|exact B|exact H].
  - eapply step_tag; [exact X|exact B|exact H].
  - eapply step_atts; [exact X|exact B|exact H].
  - eapply step_att_name; [exact X|exact B|exact H].
  - eapply step_att_eq; [exact X|exact B|exact H].
  - eapply step_att_quote; [exact X|exact B|exact H].
  - eapply step_att_val; [exact X|exact B|exact H].
  - eapply step_att_ent; [exact X|exact B|exact H].
  - eapply step_att_end; [exact X|exact B|exact H].
  - eapply step_slash; [exact X|exact B|exact H].
  - eapply step_end; [exact X|exact B|exact H].
  - eapply step_end_ws; [exact X|exact B|exact H].
  - eapply step_bang; [exact X|exact B|exact H].
  - eapply step_bang_dash; [exact X|exact B|exact H].
  - eapply step_comment; [exact X|exact B|exact H].
  - eapply step_cdata_open; [exact X|exact B|exact H].
  - eapply step_cdata; [exact X|exact B|exact H].
  - eapply step_pi; [exact X|exact B|exact H].
  - eapply step_pi_data; [exact X|exact B|exact H].
  - eapply step_pi_end; [exact X|exact B|exact H].
  - cbn [lex_step] in H. injection H as <- <-. exact I.
Qed.
Lemma fold_holds r : forall s st ev st' ev', holds_at s st ev -> fold_left lex_step r (st, ev) = (st', ev') ->
  holds_at (s ++ r) st' ev'.
Proof.
  induction r as [|c r IH]; intros s st ev st' ev' B H; cbn [fold_left] in H.
  - injection H as <- <-. now rewrite app_nil_r.
  - destruct (lex_step (st, ev) c) as [st1 ev1] eqn:E. pose proof (step_holds _ _ _ _ _ _ B E) as B1.
    replace (s ++ c :: r) with ((s ++ [c]) ++ r) by (rewrite <- app_assoc; reflexivity). eapply IH; eauto.
Qed.

Theorem lex_lexed s evs : lex s = Ok evs -> exists e n, lexed s e n /\ same evs e.
Proof.
  unfold lex. destruct (fold_left lex_step s (LText [] 0, [])) as [st ev] eqn:F. intros H.
  assert (B : holds_at [] (LText [] 0) []) by (exists []; split; [constructor|apply same_refl]).
  pose proof (fold_holds s [] _ _ _ _ B F) as K. cbn [app] in K.
  destruct st; try discriminate. injection H as <-. destruct K as (e & L & S). eauto.
Qed.

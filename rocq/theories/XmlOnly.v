(** * XmlOnly: what is read is a way to write what was read *)

From Verif Require Import Py PyFacts Xml XmlFacts XmlSpell XmlSpellFacts XmlLexed.

(** ** Names *)

Lemma name_not_colon c : name_char c = true -> c <> ":"%char -> is_name c.
Proof. intros N C. apply name_iff in N as [N|N]; [exact N|contradiction]. Qed.
Lemma good_ncname n : good_name n = true -> has_char ":" n = false -> ncname n.
Proof.
  intros G C. apply good_name_split in G as (c & r & -> & S & F). exists c, r. split; [reflexivity|].
  split; [now apply start_iff|]. apply Forall_forall. intros x J. rewrite forallb_forall in F.
  apply name_not_colon; [auto|]. intros ->. unfold has_char in C. apply not_true_iff_false in C. apply C.
  apply existsb_exists. exists ":"%char. split; [now right|reflexivity].
Qed.
Lemma split1_some c s p l : split1 c s = Some (p, l) -> s = p ++ c :: l /\ has_char c p = false.
Proof.
  revert p. induction s as [|x s IH]; intros p H; cbn [split1] in H; [discriminate|].
  destruct (ceqb x c) eqn:E.
  - apply ceqb_eq in E as ->. injection H as <- <-. split; reflexivity.
  - destruct (split1 c s) as [[a b]|] eqn:S; [|discriminate]. injection H as <- <-.
    destruct (IH a eq_refl) as [-> N]. split; [reflexivity|]. unfold has_char in *. cbn [existsb]. rewrite N, orb_false_r.
    destruct (ceqb c x) eqn:E'; [|reflexivity]. apply ceqb_eq in E' as ->. rewrite ceqb_refl in E. discriminate.
Qed.
Lemma split1_nothing c s : split1 c s = None -> has_char c s = false.
Proof.
  induction s as [|x s IH]; intros H; cbn [split1] in H; [reflexivity|].
  destruct (ceqb x c) eqn:E; [discriminate|]. destruct (split1 c s) as [[a b]|]; [discriminate|].
  unfold has_char in *. cbn [existsb]. rewrite (IH eq_refl), orb_false_r.
  destruct (ceqb c x) eqn:E'; [|reflexivity]. apply ceqb_eq in E' as ->. rewrite ceqb_refl in E. discriminate.
Qed.

(** The two kinds of name. *)
Lemma split_name n p l : good_name n = true -> split_qname n = Ok (p, l) ->
  match p with
  | None => l = n /\ ncname n
  | Some p => n = p ++ $":" ++ l /\ ncname p /\ ncname l
  end.
Proof.
  intros G H. unfold split_qname in H. destruct (split1 ":" n) as [[a b]|] eqn:S.
  - apply split1_some in S as [-> N]. destruct a as [|x a]; [discriminate|]. destruct b as [|y b]; [discriminate|].
    destruct (name_start y) eqn:Y; [|discriminate]. destruct (has_char ":" (y :: b)) eqn:C; [discriminate|].
    cbn [andb negb] in H. injection H as <- <-. split; [reflexivity|].
    change ((x :: a) ++ ":"%char :: y :: b) with (x :: (a ++ ":"%char :: y :: b)) in G.
    cbn [good_name] in G. apply andb_true_iff in G as [X F]. rewrite forallb_app in F. apply andb_true_iff in F as [A F].
    cbn [forallb] in F. apply andb_true_iff in F as [_ F]. apply andb_true_iff in F as [_ F].
    split; apply good_ncname; try assumption; cbn [good_name]; [now rewrite X|now rewrite Y].
  - injection H as <- <-. split; [reflexivity|]. apply good_ncname; [exact G|]. now apply split1_nothing.
Qed.
Lemma split_qname_ok n p l : good_name n = true -> split_qname n = Ok (p, l) -> qname n.
Proof.
  intros G H. apply (split_name n p l G) in H. destruct p as [p|]; [right|left; tauto].
  exists p, l. exact H.
Qed.

Lemma atts_snoc s l w n w1 w2 q v m : attributes s l -> w <> [] -> spaces w -> qname n -> spaces w1 -> spaces w2 ->
  In q [dquote; "'"%char] -> att_value q v m -> attributes (s ++ w ++ n ++ w1 ++ $"=" ++ w2 ++ [q] ++ v ++ [q]) (l ++ [(n, m)]).
Proof.
  intros A NW W N W1 W2 Q V. induction A as [|w' n' w1' w2' q' v' m' s' l' H1 H2 H3 H4 H5 H6 H7 _ IH].
  - exact (at_next w n w1 w2 q v m [] [] NW W N W1 W2 Q V at_end).
  - cbn [app].
    replace ((w' ++ n' ++ w1' ++ $"=" ++ w2' ++ q' :: v' ++ q' :: s') ++ w ++ n ++ w1 ++ $"=" ++ w2 ++ q :: v ++ [q])
      with (w' ++ n' ++ w1' ++ $"=" ++ w2' ++ [q'] ++ v' ++ [q'] ++ (s' ++ w ++ n ++ w1 ++ $"=" ++ w2 ++ [q] ++ v ++ [q])).
    + now apply at_next.
    + repeat (rewrite <- ?app_assoc; cbn [app]). reflexivity.
Qed.
Lemma lexed_atts_ok s l : lexed_atts s l -> Forall (fun a => qname (fst a)) l -> attributes s l.
Proof.
  induction 1 as [|s l w n w1 w2 q v m A IH NW W G W1 W2 Q V]; intros F; [constructor|].
  apply Forall_app in F as [F N]. inversion_clear N as [|? ? N' _]. apply atts_snoc; auto.
Qed.
Lemma lexed_atts_good s l : lexed_atts s l -> Forall (fun a => good_name (fst a) = true) l.
Proof. induction 1; [constructor|]. apply Forall_app. split; [assumption|]. constructor; [assumption|constructor]. Qed.

(** ** Start tags *)

(** The namespaces in a scope. *)
Definition ns (sc : scope) : namespaces := fun p => prefix_ns p sc.

Lemma distinct_of l : distinct l = true -> NoDup l.
Proof.
  induction l as [|x l IH]; intros H; [constructor|]. cbn [distinct] in H. apply andb_true_iff in H as [N H].
  constructor; [|auto]. apply negb_true_iff in N. now apply in_strs_false.
Qed.
Lemma bad_ns_of v : bad_ns v = false -> ~ In v [XML_URI; XMLNS_URI] /\ ~ In "}"%char v.
Proof.
  unfold bad_ns. change XML_NS with XML_URI. change XMLNS_NS with XMLNS_URI. rewrite !orb_false_iff. intros [[A B] C]. split.
  - apply str_eqb_neq in A, B. intros [Q|[Q|[]]]; congruence.
  - intros J. unfold has_char in C. apply not_true_iff_false in C. apply C. apply existsb_exists. exists "}"%char. split; [exact J|reflexivity].
Qed.

Lemma decl_of_split n p l : good_name n = true -> split_qname n = Ok (p, l) ->
  match p with
  | None => n = $"xmlns" -> n = decl_name []
  | Some p => p = $"xmlns" -> n = decl_name l
  end /\ (match p with None => n <> $"xmlns" | Some p => p <> $"xmlns" end -> forall q, n <> decl_name q).
Proof.
  intros G H. pose proof (split_name n p l G H) as K. destruct p as [p|].
  - destruct K as (-> & P & L). split.
    + intros ->. destruct L as (c & r & -> & _). reflexivity.
    + intros NE q E. rewrite E in H. unfold decl_name in H. destruct q as [|c q].
      * rewrite (split_plain _ xmlns_ncname) in H. discriminate.
      * unfold split_qname in H.
        replace (split1 ":" ($"xmlns:" ++ c :: q)) with (Some ($"xmlns", c :: q)) in H by reflexivity.
        assert (A' : (if name_start c && negb (has_char ":" (c :: q)) then Ok (Some $"xmlns", c :: q) else Err XmlError) = Ok (Some p, l)) by exact H.
        destruct (name_start c && negb (has_char ":" (c :: q))); [|discriminate A'].
        assert (B : Some $"xmlns" = Some p) by congruence. apply NE. congruence.
  - destruct K as (-> & N). split; [auto|]. intros NE [|c q] E; [exact (NE E)|]. subst n. apply ncname_no_colon in N. discriminate N.
Qed.

Lemma declare_of atts : forall sc sc', Forall (fun a => good_name (fst a) = true) atts -> NoDup (map fst atts) ->
  declare atts sc = Ok sc' ->
  Forall (fun a => qname (fst a)) atts /\ declarations_good atts
  /\ forall p, (forall u, declared atts p u -> sget p sc' = Some u)
               /\ ((forall u, ~ declared atts p u) -> sget p sc' = sget p sc).
Proof.
  induction atts as [|[n v] atts IH]; intros sc sc' G N H.
  { injection H as <-. split; [constructor|]. split; [intros p u (x & _ & [])|]. intros p. split; [intros u (x & _ & [])|reflexivity]. }
  inversion_clear G as [|? ? Gn G']. cbn [map fst] in N, Gn. inversion_clear N as [|? ? Nn N'].
  cbn [declare] in H. destruct (split_qname n) as [[p l]|] eqn:S; [|discriminate]. cbn [bind] in H.
  pose proof (split_qname_ok n p l Gn S) as Qn.
  pose proof (decl_of_split n p l Gn S) as [D1 D2].
  assert (Step : forall p0, n = decl_name p0 -> ~ In p0 [$"xml"; $"xmlns"] -> bad_ns v = false -> (p0 <> [] -> v <> []) ->
    declare atts (sset p0 v sc) = Ok sc' ->
    Forall (fun a => qname (fst a)) ((n, v) :: atts) /\ declarations_good ((n, v) :: atts)
    /\ forall p, (forall u, declared ((n, v) :: atts) p u -> sget p sc' = Some u)
                 /\ ((forall u, ~ declared ((n, v) :: atts) p u) -> sget p sc' = sget p sc)).
  { intros p0 E NX BN NV K. destruct (IH _ _ G' N' K) as (F & DG & W). split; [now constructor|]. split.
    - intros q u D. apply declared_cons in D as [[D <-]|D]; [|auto]. rewrite E in D. apply decl_name_inj in D as <-.
      apply bad_ns_of in BN as [B1 B2]. auto.
    - intros q. destruct (W q) as [W1 W2]. split.
      + intros u D. apply declared_cons in D as [[D <-]|D]; [|auto]. rewrite E in D. apply decl_name_inj in D as <-.
        rewrite W2; [now rewrite sget_sset_eq|]. intros u' D. apply Nn. rewrite E. exact (declared_key _ _ _ D).
      + intros D. rewrite W2.
        * apply sget_sset_ne. intros ->. apply (D v). apply declared_cons. auto.
        * intros u D'. apply (D u). apply declared_cons. auto. }
  assert (Skip : (forall q, n <> decl_name q) -> declare atts sc = Ok sc' ->
    Forall (fun a => qname (fst a)) ((n, v) :: atts) /\ declarations_good ((n, v) :: atts)
    /\ forall p, (forall u, declared ((n, v) :: atts) p u -> sget p sc' = Some u)
                 /\ ((forall u, ~ declared ((n, v) :: atts) p u) -> sget p sc' = sget p sc)).
  { intros NP K. destruct (IH _ _ G' N' K) as (F & DG & W). split; [now constructor|]. split.
    - intros q u D. apply declared_cons in D as [[D _]|D]; [exfalso; exact (NP q D)|auto].
    - intros q. destruct (W q) as [W1 W2]. split.
      + intros u D. apply declared_cons in D as [[D _]|D]; [exfalso; exact (NP q D)|auto].
      + intros D. apply W2. intros u D'. apply (D u). apply declared_cons. auto. }
  destruct p as [p|].
  - destruct (str_eqb_spec p $"xmlns") as [E|E]; [|now apply Skip; [apply D2|]].
    destruct (str_eqb_spec l $"xml") as [|X1]; [discriminate|]. destruct (str_eqb_spec l $"xmlns") as [|X2]; [discriminate|]. cbn [orb] in H.
    destruct (str_eqb_spec v []) as [|V]; [discriminate|]. cbn [orb] in H. destruct (bad_ns v) eqn:BN; [discriminate|].
    apply (Step l); auto. intros [Q|[Q|[]]]; congruence.
  - destruct (str_eqb_spec n $"xmlns") as [E|E]; [|now apply Skip; [apply D2|]].
    destruct (bad_ns v) eqn:BN; [discriminate|]. apply (Step []); auto.
    intros [Q|[Q|[]]]; discriminate Q.
Qed.

Lemma resolve_tag_of sc tag t : good_name tag = true -> resolve_tag sc tag = Ok t -> tag_means (ns sc) tag t.
Proof.
  intros G H. unfold resolve_tag in H. destruct (split_qname tag) as [[p l]|] eqn:S; [|discriminate]. cbn [bind] in H.
  pose proof (split_name tag p l G S) as K. destruct p as [p|].
  - destruct K as (-> & P & L). destruct (prefix_ns p sc) as [u|] eqn:E; [|discriminate]. injection H as <-. now apply tm_prefix.
  - destruct K as (-> & N). assert (E : ns sc [] = sget [] sc) by reflexivity.
    destruct (sget [] sc) as [[|u0 u]|]; injection H as <-; [apply tm_none; auto|apply tm_default; auto; discriminate|apply tm_none; auto].
Qed.
Lemma resolve_atts_of sc : forall atts a, Forall (fun a => good_name (fst a) = true) atts ->
  resolve_atts sc atts = Ok a -> atts_mean (ns sc) atts a.
Proof.
  induction atts as [|[n v] atts IH]; intros a G H; [injection H as <-; constructor|].
  inversion_clear G as [|? ? Gn G']. cbn [fst] in Gn. cbn [resolve_atts] in H.
  destruct (split_qname n) as [[p l]|] eqn:S; [|discriminate]. cbn [bind] in H.
  destruct (resolve_atts sc atts) as [rest|]; [|discriminate]. cbn [bind] in H. specialize (IH rest G' eq_refl).
  pose proof (split_name n p l Gn S) as K. destruct p as [p|].
  - destruct K as (-> & P & L). destruct (str_eqb_spec p $"xmlns") as [->|E].
    + injection H as <-. apply (am_decl _ _ v l); [|exact IH]. right. split; [reflexivity|]. now apply ncname_ne.
    + destruct (prefix_ns p sc) as [u|] eqn:U; [|discriminate]. injection H as <-. now apply am_prefix.
  - destruct K as (-> & N). destruct (str_eqb_spec n $"xmlns") as [->|E]; injection H as <-.
    + apply (am_decl _ _ v []); [|exact IH]. left. split; reflexivity.
    + now apply am_plain.
Qed.

Lemma open_of sc tag x atts sc' t a : good_name tag = true -> lexed_atts x atts -> open_tag sc tag atts = Ok (sc', t, a) ->
  attributes x atts /\ start_means (ns sc) tag atts (ns sc') t a.
Proof.
  intros G L H. unfold open_tag in H. destruct (distinct (map fst atts)) eqn:D; [|discriminate]. cbn [negb] in H.
  apply distinct_of in D. pose proof (lexed_atts_good x atts L) as F.
  destruct (declare atts sc) as [sc1|] eqn:E; [|discriminate]. cbn [bind] in H.
  destruct (resolve_tag sc1 tag) as [t1|] eqn:R; [|discriminate]. cbn [bind] in H.
  destruct (resolve_atts sc1 atts) as [a1|] eqn:RA; [|discriminate]. cbn [bind] in H.
  destruct (distinct (map fst a1)) eqn:D2; [|discriminate]. injection H as -> -> ->. apply distinct_of in D2.
  destruct (declare_of atts sc sc' F D E) as (Q & DG & W). split; [now apply lexed_atts_ok|].
  split; [exact D|]. split; [exact DG|]. split; [|split; [now apply resolve_tag_of|split; [now apply resolve_atts_of|exact D2]]].
  intros p. destruct (W p) as [W1 W2]. unfold ns, prefix_ns. split.
  - intros u U. destruct (DG p u U) as (NX & _). cbn [In] in NX.
    destruct (str_eqb_spec p $"xml") as [Q'|_]; [exfalso; apply NX; left; now rewrite Q'|]. auto.
  - intros U. destruct (str_eqb p $"xml"); [reflexivity|auto].
Qed.

(** ** Text *)

(** Pieces of text that end where anything may follow. *)
Definition chunk_then (x m : str) : Prop := forall s m', chunk s m' -> chunk (x ++ s) (m ++ m').
Definition plain (c : ascii) : Prop := is_char c /\ c <> "<"%char /\ c <> "&"%char.

(** Text that may go on: s stands for m, and ends in n brackets. *)
Definition open_text (n : nat) (s m : str) : Prop := exists y m' r, s = y ++ r /\ m = m' ++ r /\ chunk_then y m'
  /\ Forall plain r /\ free_of $"]]>" r /\ leading "]" (rev r) = n.

Lemma open_nil : open_text 0 [] [].
Proof.
  exists [], [], []. split; [reflexivity|]. split; [reflexivity|]. split; [intros s m C; exact C|].
  split; [constructor|]. split; [now apply free_nil|reflexivity].
Qed.
Lemma open_chunk n s m : open_text n s m -> chunk s m.
Proof.
  intros (y & m' & r & -> & -> & Y & P & F & _). apply Y. rewrite <- (app_nil_r r).
  apply ch_plain; [exact P|exact F|now left|constructor].
Qed.
Lemma open_char n s m c : open_text n s m -> plain c -> ~ (c = ">"%char /\ (2 <= n)%nat) ->
  open_text (if ceqb c "]" then S n else 0) (s ++ [c]) (m ++ [c]).
Proof.
  intros (y & m' & r & -> & -> & Y & P & F & N) C B. exists y, m', (r ++ [c]). rewrite <- !app_assoc.
  split; [reflexivity|]. split; [reflexivity|]. split; [exact Y|].
  split; [apply Forall_app; split; [exact P|constructor; [exact C|constructor]]|]. split.
  - rewrite <- (rev_involutive (r ++ [c])), rev_app_distr. cbn [rev app]. apply cdata_snoc; [now rewrite rev_involutive|].
    intros Q. rewrite N. destruct (le_lt_dec 2 n); [exfalso; auto|assumption].
  - rewrite rev_app_distr. cbn [rev app leading]. destruct (ceqb c "]"); [now rewrite N|reflexivity].
Qed.
Lemma open_mark n s m x d : open_text n s m -> chunk_then x d ->
  (exists x', x = "<"%char :: x' \/ x = "&"%char :: x') -> open_text 0 (s ++ x) (m ++ d).
Proof.
  intros (y & m' & r & -> & -> & Y & P & F & _) X A. exists (y ++ r ++ x), (m' ++ r ++ d), []. rewrite !app_nil_r, <- !app_assoc.
  split; [reflexivity|]. split; [reflexivity|]. split; [|split; [constructor|split; [now apply free_nil|reflexivity]]].
  intros s m C. rewrite <- !app_assoc. apply Y. apply ch_plain; [exact P|exact F| |now apply X].
  right. destruct A as (x' & [->| ->]); cbn [app]; eexists; [left|right]; reflexivity.
Qed.
Lemma then_ref x c : refers x c -> chunk_then ($"&" ++ x ++ $";") [c].
Proof. intros R s m C. rewrite <- !app_assoc. now apply ch_ref. Qed.
Lemma then_cdata d : Forall is_char d -> free_of $"]]>" d -> chunk_then ($"<![CDATA[" ++ d ++ $"]]>") d.
Proof. intros H F s m C. rewrite <- !app_assoc. now apply ch_cdata. Qed.
Lemma then_comment c : comment c -> chunk_then c [].
Proof. intros H s m C. now apply ch_comment. Qed.
Lemma then_pi c : instruction c -> chunk_then c [].
Proof. intros H s m C. now apply ch_pi. Qed.

(** ** Elements *)

Definition elements_then (sc : namespaces) (x : str) (ks : list xml) : Prop :=
  forall s ks', elements sc s ks' -> elements sc (x ++ s) (ks ++ ks').

(** What has been read in an element: its text, or its children and the text after the
    last of them. *)
Definition body_of (s : str) (n : nat) (f : frame) : Prop :=
  (f_kids f = [] /\ exists m, open_text n s m /\ f_text f = some_text m)
  \/ (exists x m els ks s1 t a tx k y m',
        s = x ++ els ++ s1 ++ y /\ chunk x m /\ f_text f = some_text m
        /\ elements_then (ns (f_scope f)) els ks /\ element (ns (f_scope f)) s1 (El t a tx k None)
        /\ open_text n y m' /\ f_kids f = El t a tx k (some_text m') :: rev ks).

Lemma body_new tag sc t a : body_of [] 0 (MkFrame tag sc t a None []).
Proof. left. split; [reflexivity|]. exists []. split; [exact open_nil|reflexivity]. Qed.
Lemma some_more m d : d <> [] -> more_text (some_text m) d = some_text (m ++ d).
Proof. destruct m; cbn [some_text more_text app]; [destruct d; [congruence|reflexivity]|reflexivity]. Qed.
(** More text. *)
Lemma body_more s n f x d n' : (forall y m, open_text n y m -> open_text n' (y ++ x) (m ++ d)) ->
  body_of s n f -> body_of (s ++ x) n' (add_opt d f).
Proof.
  intros T B. destruct f as [raw sc t a tx ks]. destruct B as [(K & m & O & E)|(y & m & els & ks0 & s1 & t1 & a1 & tx1 & k1 & z & m' & -> & C & E & L & El1 & O & K)];
    cbn [f_kids f_text f_scope] in *; subst.
  - left. destruct d as [|c d].
    + cbn [add_opt f_kids f_text]. split; [reflexivity|]. exists m. split; [|reflexivity]. rewrite <- (app_nil_r m). now apply T.
    + cbn [add_opt]. unfold add_text. cbn [f_kids f_text f_raw f_scope f_tag f_atts]. split; [reflexivity|].
      exists (m ++ c :: d). split; [now apply T|]. apply some_more. discriminate.
  - right. exists y, m, els, ks0, s1, t1, a1, tx1, k1, (z ++ x), (m' ++ d). split; [rewrite <- !app_assoc; reflexivity|].
    split; [exact C|]. destruct d as [|c d]; cbn [add_opt]; unfold add_text; cbn [f_kids f_text f_raw f_scope f_tag f_atts].
    + split; [reflexivity|]. split; [exact L|]. split; [exact El1|]. split; [now apply T|]. now rewrite app_nil_r.
    + split; [reflexivity|]. split; [exact L|]. split; [exact El1|]. split; [now apply T|].
      f_equal. f_equal. apply some_more. discriminate.
Qed.
Lemma body_char s n f c : body_of s n f -> plain c -> ~ (c = ">"%char /\ (2 <= n)%nat) ->
  body_of (s ++ [c]) (if ceqb c "]" then S n else 0) (add_text [c] f).
Proof. intros B P N. apply (body_more s n f [c] [c]); [|exact B]. intros y m O. now apply open_char. Qed.
Lemma body_mark s n f x d : body_of s n f -> chunk_then x d ->
  (exists x', x = "<"%char :: x' \/ x = "&"%char :: x') -> body_of (s ++ x) 0 (add_opt d f).
Proof. intros B X A. apply (body_more s n f x d); [|exact B]. intros y m O. now apply (open_mark n). Qed.
(** All that there is. *)
Lemma body_whole s n f : body_of s n f -> exists x m els ks, s = x ++ els /\ chunk x m /\ f_text f = some_text m
  /\ elements_then (ns (f_scope f)) els ks /\ rev (f_kids f) = ks.
Proof.
  intros [(K & m & O & E)|(x & m & els & ks & s1 & t & a & tx & k & y & m' & -> & C & E & L & El1 & O & K)].
  - exists s, m, [], []. rewrite app_nil_r, K. split; [reflexivity|]. split; [exact (open_chunk n s m O)|]. split; [exact E|].
    split; [|reflexivity]. intros s0 ks0 H. exact H.
  - exists x, m, (els ++ s1 ++ y), (ks ++ [El t a tx k (some_text m')]). split; [reflexivity|]. split; [exact C|]. split; [exact E|]. split.
    + intros s0 ks0 H. rewrite <- !app_assoc. apply L. cbn [app]. apply els_next; [exact El1|exact (open_chunk n y m' O)|exact H].
    + rewrite K. cbn [rev]. now rewrite rev_involutive.
Qed.
(** Another child. *)
Lemma body_kid s n f s1 t a tx k : body_of s n f -> element (ns (f_scope f)) s1 (El t a tx k None) ->
  body_of (s ++ s1) 0 (add_kid (El t a tx k None) f).
Proof.
  intros B E. apply body_whole in B as (x & m & els & ks & -> & C & T & L & K). right.
  exists x, m, els, ks, s1, t, a, tx, k, [], []. cbn [add_kid f_text f_kids f_scope]. rewrite app_nil_r, <- app_assoc.
  split; [reflexivity|]. split; [exact C|]. split; [exact T|]. split; [exact L|]. split; [exact E|]. split; [exact open_nil|].
  cbn [some_text]. f_equal. rewrite <- K. now rewrite rev_involutive.
Qed.

(** A start tag, in the namespaces outside. *)
Definition opens (sc : scope) (s : str) (f : frame) : Prop := exists x atts w,
  s = $"<" ++ f_raw f ++ x ++ w ++ $">" /\ attributes x atts /\ spaces w
  /\ start_means (ns sc) (f_raw f) atts (ns (f_scope f)) (f_tag f) (f_atts f).

Lemma elements_all sc els ks : elements_then sc els ks -> elements sc els ks.
Proof. intros L. rewrite <- (app_nil_r els), <- (app_nil_r ks). apply L. constructor. Qed.
Lemma close_element sc s f body n w : opens sc s f -> body_of body n f -> spaces w ->
  element (ns sc) (s ++ body ++ $"</" ++ f_raw f ++ w ++ $">") (close_frame f).
Proof.
  intros (x & atts & w0 & -> & A & W0 & S) B W. apply body_whole in B as (y & m & els & ks & -> & C & T & L & K).
  unfold close_frame. rewrite T, K.
  replace (($"<" ++ f_raw f ++ x ++ w0 ++ $">") ++ (y ++ els) ++ $"</" ++ f_raw f ++ w ++ $">")
    with ($"<" ++ f_raw f ++ x ++ w0 ++ $">" ++ y ++ els ++ $"</" ++ f_raw f ++ w ++ $">") by (rewrite <- !app_assoc; reflexivity).
  apply (el_full (ns sc) (ns (f_scope f)) (f_raw f) x atts w0 (f_tag f) (f_atts f)); try assumption. now apply elements_all.
Qed.

(** ** Documents *)

(** The elements that have been begun. *)
Inductive inside : str -> nat -> list frame -> Prop :=
| in_root before s f body n : misc before -> opens [] s f -> body_of body n f -> inside (before ++ s ++ body) n [f]
| in_child out k g gs s f body n : inside out k (g :: gs) -> opens (f_scope g) s f -> body_of body n f ->
    inside (out ++ s ++ body) n (f :: g :: gs).

Definition has_read (s : str) (n : nat) (st : bstate) : Prop :=
  match st with
  | ([], None) => misc s
  | ([], Some e) => exists before x after, s = before ++ x ++ after /\ misc before /\ element initial x e /\ misc after
  | (f :: fs, root) => root = None /\ inside s n (f :: fs)
  end.

Lemma misc_app a b : misc a -> misc b -> misc (a ++ b).
Proof.
  intros A B. induction A as [|w s W _ IH|c s C _ IH|c s C _ IH]; [exact B| | |].
  - now apply mi_space.
  - rewrite <- app_assoc. now apply mi_comment.
  - rewrite <- app_assoc. now apply mi_pi.
Qed.

Lemma inside_body s n f fs : inside s n (f :: fs) -> exists out body, s = out ++ body /\ body_of body n f
  /\ forall body' n' f', f_raw f' = f_raw f -> f_scope f' = f_scope f -> f_tag f' = f_tag f -> f_atts f' = f_atts f ->
     body_of body' n' f' -> inside (out ++ body') n' (f' :: fs).
Proof.
  intros H. inversion H as [before x f0 body n0 M O B|out k g gs x f0 body n0 In O B]; subst.
  - exists (before ++ x), body. rewrite <- app_assoc. split; [reflexivity|]. split; [exact B|].
    intros body' n' f' E1 E2 E3 E4 B'. rewrite <- app_assoc. apply in_root; [exact M| |exact B'].
    unfold opens in *. now rewrite E1, E2, E3, E4.
  - exists (out ++ x), body. rewrite <- app_assoc. split; [reflexivity|]. split; [exact B|].
    intros body' n' f' E1 E2 E3 E4 B'. rewrite <- app_assoc. apply (in_child _ k); [exact In| |exact B'].
    unfold opens in *. now rewrite E1, E2, E3, E4.
Qed.
Lemma add_opt_same d f : f_raw (add_opt d f) = f_raw f /\ f_scope (add_opt d f) = f_scope f
  /\ f_tag (add_opt d f) = f_tag f /\ f_atts (add_opt d f) = f_atts f.
Proof.
  destruct f as [raw sc t a tx ks]. destruct d; [repeat split|]. cbn [add_opt]. unfold add_text. cbn [f_kids].
  destruct ks as [|[t' a' x' k' tl] ks]; repeat split.
Qed.
Lemma inside_more s n f fs x d n' : (forall y m, open_text n y m -> open_text n' (y ++ x) (m ++ d)) ->
  inside s n (f :: fs) -> inside (s ++ x) n' (add_opt d f :: fs).
Proof.
  intros T H. apply inside_body in H as (out & body & -> & B & K). rewrite <- app_assoc.
  destruct (add_opt_same d f) as (E1 & E2 & E3 & E4). apply K; try assumption. now apply (body_more body n f).
Qed.

(** Text. *)
Lemma read_mark s n st x d : (forall y m, open_text n y m -> open_text 0 (y ++ x) (m ++ d)) -> d = [] -> misc x ->
  has_read s n st -> has_read (s ++ x) 0 st.
Proof.
  intros T -> M H. destruct st as [[|f fs] root].
  - destruct root as [e|]; cbn [has_read] in *.
    + destruct H as (before & y & after & -> & B & E & A). exists before, y, (after ++ x).
      rewrite <- !app_assoc. repeat (split; [first [reflexivity|assumption]|]). now apply misc_app.
    + now apply misc_app.
  - cbn [has_read] in *. destruct H as [-> H]. split; [reflexivity|]. exact (inside_more s n f fs x [] 0 T H).
Qed.

Lemma comment_mark c : comment c -> exists c', c = "<"%char :: c'.
Proof. intros [x _ _]. eexists. reflexivity. Qed.
Lemma instruction_mark c : instruction c -> exists c', c = "<"%char :: c'.
Proof. intros [x _ _|t w d _ _ _ _ _]; eexists; reflexivity. Qed.

Lemma read_text s n st c st' n' : has_read s n st -> is_char c -> ~ In c ["<"; "&"]%char -> ~ (c = ">"%char /\ (2 <= n)%nat) ->
  n' = (if ceqb c "]" then S n else 0)%nat -> build_step st (EText [c]) = Ok st' -> has_read (s ++ [c]) n' st'.
Proof.
  intros H C N B -> E. destruct st as [[|f fs] root]; cbn [build_step] in E.
  - cbn [forallb] in E. rewrite andb_true_r in E. destruct (xml_ws c) eqn:W; [|discriminate]. injection E as <-.
    apply white_iff in W. assert (M : misc [c]) by (apply mi_space; [exact W|constructor]).
    destruct root as [e|]; cbn [has_read] in *.
    + destruct H as (before & y & after & -> & B0 & E & A). exists before, y, (after ++ [c]).
      rewrite <- !app_assoc. repeat (split; [first [reflexivity|assumption]|]). now apply misc_app.
    + now apply misc_app.
  - injection E as <-. destruct H as [-> H]. split; [reflexivity|].
    apply (inside_more s n f fs [c] [c]); [|exact H]. intros y m O. apply open_char; try assumption.
    split; [exact C|]. split; intros ->; apply N; cbn [In]; auto.
Qed.

Lemma build_one e st st' : build [e] st = Ok st' -> build_step st e = Ok st'.
Proof. cbn [build]. destruct (build_step st e); cbn [bind]; congruence. Qed.

(** A start tag. *)
Lemma read_start s n st tag x atts w st' : has_read s n st -> good_name tag = true -> lexed_atts x atts -> spaces w ->
  build_step st (EStart tag atts) = Ok st' -> has_read (s ++ $"<" ++ tag ++ x ++ w ++ $">") 0 st'.
Proof.
  intros H G A W E. destruct st as [[|f fs] root]; cbn [build_step] in E.
  - destruct root as [e|]; [discriminate|]. destruct (open_tag [] tag atts) as [[[sc t] a]|] eqn:O; [|discriminate]. cbn [bind] in E. injection E as <-.
    destruct (open_of [] tag x atts sc t a G A O) as [A' S]. cbn [has_read] in *. split; [reflexivity|].
    rewrite <- (app_nil_r ($"<" ++ tag ++ x ++ w ++ $">")). apply in_root; [exact H| |apply body_new].
    exists x, atts, w. cbn [f_raw f_scope f_tag f_atts]. auto.
  - destruct (open_tag (f_scope f) tag atts) as [[[sc t] a]|] eqn:O; [|destruct root; discriminate]. cbn [bind] in E.
    destruct H as [-> H]. injection E as <-.
    destruct (open_of _ tag x atts sc t a G A O) as [A' S]. split; [reflexivity|].
    rewrite <- (app_nil_r ($"<" ++ tag ++ x ++ w ++ $">")). apply (in_child _ n); [exact H| |apply body_new].
    exists x, atts, w. cbn [f_raw f_scope f_tag f_atts]. auto.
Qed.

(** An end tag. *)
Lemma read_end s n st tag w st' : has_read s n st -> spaces w ->
  build_step st (EEnd tag) = Ok st' -> has_read (s ++ $"</" ++ tag ++ w ++ $">") 0 st'.
Proof.
  intros H W E. destruct st as [[|f fs] root]; cbn [build_step] in E; [discriminate|].
  destruct (str_eqb_spec tag (f_raw f)) as [->|_]; [|discriminate]. destruct H as [-> H].
  inversion H as [before x f0 body n0 M O B|out k g gs x f0 body n0 In O B]; subst; injection E as <-.
  - cbn [has_read]. exists before, (x ++ body ++ $"</" ++ f_raw f ++ w ++ $">"), []. rewrite app_nil_r, <- !app_assoc.
    split; [reflexivity|]. split; [exact M|]. split; [|constructor]. exact (close_element [] x f body n w O B W).
  - cbn [has_read]. split; [reflexivity|]. pose proof (close_element _ x f body n w O B W) as C.
    apply inside_body in In as (out' & bg & -> & Bg & K).
    replace (((out' ++ bg) ++ x ++ body) ++ $"</" ++ f_raw f ++ w ++ $">")
      with (out' ++ (bg ++ (x ++ body ++ $"</" ++ f_raw f ++ w ++ $">"))) by (rewrite <- !app_assoc; reflexivity).
    apply K; try reflexivity. exact (body_kid bg k g _ _ _ _ _ Bg C).
Qed.

(** An empty element. *)
Lemma read_empty s n st tag x atts w st' : has_read s n st -> good_name tag = true -> lexed_atts x atts -> spaces w ->
  build [EStart tag atts; EEnd tag] st = Ok st' -> has_read (s ++ $"<" ++ tag ++ x ++ w ++ $"/>") 0 st'.
Proof.
  intros H G A W E. destruct st as [[|f fs] root]; cbn [build build_step] in E.
  - destruct root as [e|]; [discriminate|]. destruct (open_tag [] tag atts) as [[[sc t] a]|] eqn:O; [|discriminate].
    cbn [bind build build_step f_raw] in E. rewrite str_eqb_refl in E. cbn [bind] in E. injection E as <-.
    destruct (open_of [] tag x atts sc t a G A O) as [A' S]. cbn [has_read] in *.
    exists s, ($"<" ++ tag ++ x ++ w ++ $"/>"), []. rewrite app_nil_r. split; [reflexivity|]. split; [exact H|]. split; [|constructor].
    exact (el_empty initial (ns sc) tag x atts w t a A' W S).
  - destruct H as [-> H]. destruct (open_tag (f_scope f) tag atts) as [[[sc t] a]|] eqn:O; [|discriminate].
    cbn [bind build build_step f_raw] in E. rewrite str_eqb_refl in E. cbn [bind] in E. injection E as <-.
    destruct (open_of _ tag x atts sc t a G A O) as [A' S]. split; [reflexivity|].
    apply inside_body in H as (out & body & -> & B & K). rewrite <- app_assoc. apply K; try reflexivity.
    exact (body_kid body n f _ _ _ _ _ B (el_empty _ (ns sc) tag x atts w t a A' W S)).
Qed.

Lemma read_all s e n : lexed s e n -> forall st, build e ([], None) = Ok st -> has_read s n st.
Proof.
  induction 1 as [|s e n _ IH|s e n c _ IH C N B|s e n x c _ IH R|s e n d _ IH D F|s e n c _ IH C|s e n c _ IH C
    |s e n tag x atts w _ IH G A W|s e n tag x atts w _ IH G A W|s e n tag w _ IH W]; intros st' E;
    try (rewrite build_app in E; destruct (build e ([], None)) as [st|] eqn:E0; [|discriminate]; cbn [bind] in E; specialize (IH st eq_refl)).
  - injection E as <-. constructor.
  - apply build_one in E. apply (read_text s n st "]" st'); try assumption; try reflexivity.
    + apply char_iff. reflexivity.
    + intros [Q|[Q|[]]]; discriminate Q.
    + intros [Q _]. discriminate Q.
  - apply build_one in E. apply (read_text s n st c st'); try assumption.
    + intros K. apply N. cbn [In] in *. tauto.
    + destruct (ceqb c "]") eqn:Q; [|reflexivity]. apply ceqb_eq in Q as ->. exfalso. apply N. cbn [In]. auto.
  - apply build_one in E. destruct st as [[|f fs] root].
    + exfalso. destruct (xml_ws c) eqn:W; cbn [build_step forallb] in E; [discriminate|]. rewrite W in E. discriminate.
    + destruct IH as [-> H]. assert (E' : st' = (add_text [c] f :: fs, None)) by (destruct (xml_ws c); cbn [build_step] in E; congruence).
      subst st'. split; [reflexivity|]. apply (inside_more s n f fs _ [c] 0); [|exact H]. intros y m O.
      apply (open_mark n); [exact O|now apply then_ref|]. eexists. right. reflexivity.
  - apply build_one in E. destruct st as [[|f fs] root]; [destruct d; discriminate E|].
    destruct IH as [-> H]. assert (E' : st' = (add_opt d f :: fs, None)) by (destruct d; cbn [build_step add_opt] in *; congruence).
    subst st'. split; [reflexivity|]. apply (inside_more s n f fs _ d 0); [|exact H]. intros y m O.
    apply (open_mark n); [exact O|now apply then_cdata|]. eexists. left. reflexivity.
  - apply (read_mark s n st' c []); auto; [|rewrite <- (app_nil_r c); apply mi_comment; [exact C|constructor]].
    intros y m O. apply (open_mark n); [exact O|now apply then_comment|]. destruct (comment_mark c C) as (c' & ->). eauto.
  - apply (read_mark s n st' c []); auto; [|rewrite <- (app_nil_r c); apply mi_pi; [exact C|constructor]].
    intros y m O. apply (open_mark n); [exact O|now apply then_pi|]. destruct (instruction_mark c C) as (c' & ->). eauto.
  - apply build_one in E. now apply (read_start s n st tag x atts w).
  - now apply (read_empty s n st tag x atts w).
  - apply build_one in E. now apply (read_end s n st tag w).
Qed.

(** The declaration. *)
Lemma drop_ws_of s : exists w, s = w ++ drop_ws s /\ spaces w /\ match drop_ws s with c :: _ => xml_ws c = false | [] => True end.
Proof.
  induction s as [|c s (w & E & W & H)]; [exists []; repeat split; constructor|]. cbn [drop_ws]. destruct (xml_ws c) eqn:C.
  - exists (c :: w). cbn [app]. rewrite E at 1. split; [reflexivity|]. split; [|exact H]. constructor; [now apply white_iff|exact W].
  - exists []. split; [reflexivity|]. split; [constructor|exact C].
Qed.
Lemma take_key_of s : forall n r, take_key s = (n, r) -> s = n ++ r.
Proof.
  induction s as [|c s IH]; intros n r H; cbn [take_key] in H; [injection H as <- <-; reflexivity|].
  destruct (ceqb c "=" || xml_ws c); [injection H as <- <-; reflexivity|].
  destruct (take_key s) as [a b]. injection H as <- <-. cbn [app]. f_equal. now apply IH.
Qed.
Lemma pseudo_none s : pseudo_att s = Some None -> spaces s.
Proof.
  unfold pseudo_att. intros H. destruct (drop_ws_of s) as (w & E & W & _). destruct (drop_ws s) as [|c d] eqn:D.
  - rewrite app_nil_r in E. now rewrite E.
  - destruct (_ =? _)%nat in H; [discriminate|]. destruct (take_key (c :: d)) as [n s2]. destruct n; [discriminate|].
    destruct (drop_ws s2) as [|e s3]; [discriminate|]. exfalso.
    destruct e as [[] [] [] [] [] [] [] []]; try discriminate H.
    destruct (drop_ws s3) as [|q s4]; [discriminate|]. destruct (ceqb q dquote || ceqb q "'"); [|discriminate].
    destruct (split1 q s4) as [[v rest]|]; [|discriminate]. destruct (forallb decl_char v); discriminate.
Qed.
Lemma pseudo_some s n v rest : pseudo_att s = Some (Some (n, v, rest)) ->
  exists x, s = x ++ rest /\ setting n v x /\ decl_chars v.
Proof.
  unfold pseudo_att. intros H. destruct (drop_ws_of s) as (w & E & W & _). destruct (drop_ws s) as [|c d] eqn:D; [discriminate|].
  destruct (Nat.eqb_spec (List.length (c :: d)) (List.length s)) as [|L] in H; [discriminate|].
  destruct (take_key (c :: d)) as [n0 s2] eqn:T. apply take_key_of in T. destruct n0 as [|n1 n0]; [discriminate|].
  destruct (drop_ws_of s2) as (w1 & E1 & W1 & _). destruct (drop_ws s2) as [|e s3]; [discriminate|].
  assert (Eq : e = "="%char) by (destruct e as [[] [] [] [] [] [] [] []]; try discriminate H; reflexivity). subst e.
  destruct (drop_ws_of s3) as (w2 & E2 & W2 & _). destruct (drop_ws s3) as [|q s4]; [discriminate|].
  destruct (ceqb q dquote || ceqb q "'") eqn:Q; [|discriminate].
  destruct (split1 q s4) as [[v0 r0]|] eqn:S; [|discriminate]. apply split1_some in S as [-> _].
  destruct (forallb decl_char v0) eqn:V; [|discriminate]. injection H as <- <- <-.
  exists (w ++ (n1 :: n0) ++ w1 ++ $"=" ++ w2 ++ [q] ++ v0 ++ [q]). split.
  - rewrite E, T, E1, E2. repeat (rewrite <- ?app_assoc; cbn [app]). reflexivity.
  - split; [|now apply decl_chars_iff]. constructor; try assumption.
    + intros ->. apply L. now rewrite E.
    + apply orb_true_iff in Q as [Q|Q]; apply ceqb_eq in Q as ->; cbn [In]; auto.
Qed.
Lemma standalone_of n v rest x : standalone_ok n v rest = true -> setting n v x ->
  spaces rest /\ (setting $"standalone" $"yes" x \/ setting $"standalone" $"no" x).
Proof.
  unfold standalone_ok. rewrite !andb_true_iff, orb_true_iff, !str_eqb_eq. intros [[-> V] F] S. split.
  - apply Forall_forall. intros c J. rewrite forallb_forall in F. apply white_iff. auto.
  - destruct V as [-> | ->]; auto.
Qed.
Lemma decl_of d : decl_ok d = true -> declaration any_version ($"<?xml" ++ d ++ $"?>").
Proof.
  unfold decl_ok. intros H. destruct (pseudo_att d) as [[[[n v] r]|]|] eqn:P; try discriminate.
  apply andb_true_iff in H as [N H]. apply str_eqb_eq in N as ->. apply pseudo_some in P as (xv & -> & SV & CV).
  destruct (pseudo_att r) as [[[[n1 v1] r1]|]|] eqn:P1; try discriminate.
  - apply pseudo_some in P1 as (x1 & -> & S1 & C1). destruct (str_eqb_spec n1 $"encoding") as [->|NE].
    + apply andb_true_iff in H as [F H]. destruct v1 as [|c v1]; [discriminate|].
      assert (EN : encoding_name (c :: v1)).
      { exists c, v1. split; [reflexivity|]. split; [now apply alpha_iff|]. inversion_clear C1 as [|? ? _ C1']. exact C1'. }
      destruct (pseudo_att r1) as [[[[n2 v2] r2]|]|] eqn:P2; try discriminate.
      * apply pseudo_some in P2 as (x2 & -> & S2 & _). destruct (standalone_of _ _ _ _ H S2) as [W ST].
        replace ($"<?xml" ++ (xv ++ x1 ++ x2 ++ r2) ++ $"?>") with ($"<?xml" ++ xv ++ x1 ++ x2 ++ r2 ++ $"?>") by (rewrite <- !app_assoc; reflexivity).
        apply (de_some any_version v xv x1 x2 r2); auto. right. eauto.
      * apply pseudo_none in P2.
        replace ($"<?xml" ++ (xv ++ x1 ++ r1) ++ $"?>") with ($"<?xml" ++ xv ++ x1 ++ [] ++ r1 ++ $"?>") by (rewrite <- !app_assoc; reflexivity).
        apply (de_some any_version v xv x1 [] r1); auto. right. eauto.
    + destruct (standalone_of _ _ _ _ H S1) as [W ST].
      replace ($"<?xml" ++ (xv ++ x1 ++ r1) ++ $"?>") with ($"<?xml" ++ xv ++ [] ++ x1 ++ r1 ++ $"?>") by (rewrite <- !app_assoc; reflexivity).
      apply (de_some any_version v xv [] x1 r1); auto.
  - apply pseudo_none in P1.
    replace ($"<?xml" ++ (xv ++ r) ++ $"?>") with ($"<?xml" ++ xv ++ [] ++ [] ++ r ++ $"?>") by (rewrite <- !app_assoc; reflexivity).
    apply (de_some any_version v xv [] [] r); auto.
Qed.
Lemma after_decl_of s : forall r, after_decl s = Some r -> exists d, s = d ++ $"?>" ++ r.
Proof.
  induction s as [|c s IH]; intros r H; cbn [after_decl] in H; [discriminate|].
  destruct (startswith $"?>" (c :: s)) eqn:S.
  - apply startswith_spec in S as (t & E). rewrite E in *. exists []. injection H as <-. reflexivity.
  - destruct (IH r H) as (d & ->). exists (c :: d). reflexivity.
Qed.
Lemma skip_of s r : skip_decl s = Ok r -> exists d, s = d ++ r /\ declaration any_version d.
Proof.
  unfold skip_decl. intros H. destruct (startswith $"<?xml" s && _) eqn:P.
  - apply andb_true_iff in P as [P W]. apply startswith_spec in P as (t & ->).
    change (skipn 5 ($"<?xml" ++ t)) with t in W, H. destruct t as [|c t]; [discriminate|].
    destruct (after_decl ($"<?xml" ++ c :: t)) as [x|] eqn:A; [|discriminate].
    assert (exists d, c :: t = d ++ $"?>" ++ x) as (d & E).
    { change (after_decl ($"<?xml" ++ c :: t)) with (after_decl (c :: t)) in A. now apply after_decl_of. }
    rewrite E in H. pose proof (decl_between d x) as B. change (skipn 5 ($"<?xml" ++ d ++ $"?>" ++ x)) with (d ++ $"?>" ++ x) in B.
    rewrite B in H. destruct (decl_ok d) eqn:O; [|discriminate]. injection H as <-.
    exists ($"<?xml" ++ d ++ $"?>"). rewrite E, <- !app_assoc. split; [reflexivity|now apply decl_of].
  - injection H as <-. exists []. split; [reflexivity|constructor].
Qed.

(** Line ends. *)
Lemma norm_ends : forall k s, (List.length s <= k)%nat -> line_ends s (norm_eol s).
Proof.
  induction k as [|k IH]; intros s L; (destruct s as [|c s]; [constructor|]); cbn [List.length] in L; [lia|].
  cbn [norm_eol]. destruct (ceqb c cr) eqn:C.
  - apply ceqb_eq in C as ->. destruct s as [|d s]; [apply le_cr; [discriminate|constructor]|]. cbn [List.length] in L.
    destruct (ceqb d nl) eqn:D.
    + apply ceqb_eq in D as ->. apply le_crlf. apply IH. lia.
    + apply ceqb_neq in D. apply le_cr; [intros s' Q; congruence|]. apply IH. cbn [List.length]. lia.
  - apply ceqb_neq in C. apply le_char; [exact C|]. apply IH. lia.
Qed.

Theorem read_spelled s e : parse_text s = Ok e -> spells_in any_version s e.
Proof.
  unfold parse_text. intros H. destruct (skip_decl (norm_eol s)) as [q|] eqn:Q; [|discriminate]. cbn [bind] in H.
  apply skip_of in Q as (d & E & D). destruct (lex q) as [evs|] eqn:L; [|discriminate]. cbn [bind] in H.
  apply lex_lexed in L as (ev & n & L & S). rewrite S in H.
  destruct (build ev ([], None)) as [[[|f fs] [root|]]|] eqn:B; try discriminate. cbn [bind] in H. injection H as ->.
  apply (read_all q ev n L) in B. destruct B as (before & x & after & -> & M & X & A).
  exists (norm_eol s). split; [exact (norm_ends _ s (le_n _))|]. rewrite E. now constructor.
Qed.
Theorem read_iff s e : parse_text s = Ok e <-> spells_in any_version s e.
Proof. split; [apply read_spelled|apply any_read]. Qed.

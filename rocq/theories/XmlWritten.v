(** * XmlWritten: documents are written according to the grammar of XML *)

From Verif Require Import Py PyFacts Resource Xml XmlFacts XmlSpell XmlSpellFacts Sitemap SitemapSpec SitemapFacts SitemapText.

(** ** Text and attributes *)

Lemma good_text_char c t : good_text (c :: t) = true -> is_char c /\ c <> cr /\ good_text t = true.
Proof.
  unfold good_text. cbn [forallb]. rewrite !andb_true_iff, negb_true_iff. intros ((A & B) & C).
  split; [now apply char_iff|]. split; [intros ->; discriminate B|exact C].
Qed.

Lemma no_gt_free r : ~ In ">"%char r -> free_of $"]]>" r.
Proof.
  intros N (a & b & ->). apply N. rewrite !in_app_iff. right; left. right; right; left. reflexivity.
Qed.

Definition plain_c (c : ascii) : Prop := is_char c /\ c <> "<"%char /\ c <> "&"%char.
Lemma esc_split t : good_text t = true -> exists r s m,
  esc_text t = r ++ s /\ t = r ++ m /\ Forall plain_c r /\ ~ In ">"%char r /\ at_markup s /\ chunk s m.
Proof.
  induction t as [|c t IH]; intros G.
  { exists [], [], []. repeat split; try constructor; auto. }
  apply good_text_char in G as (K & _ & G). destruct (IH G) as (r & s & m & E & T & P & N & M & C).
  assert (CT : chunk (esc_text t) t).
  { rewrite E, T. apply ch_plain; auto. now apply no_gt_free. }
  unfold esc_text in *. cbn [flat_map]. unfold esc_text_c at 1.
  destruct (ceqb c "&") eqn:E1.
  { apply ceqb_eq in E1 as ->. exists [], ($"&" ++ $"amp" ++ $";" ++ flat_map esc_text_c t), ("&"%char :: t).
    split; [reflexivity|]. split; [reflexivity|]. split; [constructor|]. split; [intros []|]. split.
    - right. eexists. right. reflexivity.
    - apply ch_ref; [constructor|exact CT]. }
  destruct (ceqb c "<") eqn:E2.
  { apply ceqb_eq in E2 as ->. exists [], ($"&" ++ $"lt" ++ $";" ++ flat_map esc_text_c t), ("<"%char :: t).
    split; [reflexivity|]. split; [reflexivity|]. split; [constructor|]. split; [intros []|]. split.
    - right. eexists. right. reflexivity.
    - apply ch_ref; [constructor|exact CT]. }
  destruct (ceqb c ">") eqn:E3.
  { apply ceqb_eq in E3 as ->. exists [], ($"&" ++ $"gt" ++ $";" ++ flat_map esc_text_c t), (">"%char :: t).
    split; [reflexivity|]. split; [reflexivity|]. split; [constructor|]. split; [intros []|]. split.
    - right. eexists. right. reflexivity.
    - apply ch_ref; [constructor|exact CT]. }
  exists (c :: r), s, m. cbn [app]. rewrite E, T. split; [reflexivity|]. split; [reflexivity|].
  split. { constructor; [|exact P]. split; [exact K|]. split; intros ->; discriminate. }
  split. { intros [->|I]; [discriminate|auto]. }
  auto.
Qed.
Lemma esc_chunk t : good_text t = true -> chunk (esc_text t) t.
Proof.
  intros G. destruct (esc_split t G) as (r & s & m & E & T & P & N & M & C).
  rewrite E, T. apply ch_plain; auto. now apply no_gt_free.
Qed.

Lemma numeral_13 : numeral 10 $"13" 13.
Proof.
  exact (num_digit 10 $"1" 1 "3" 3 (num_digit 10 [] 0 "1" 1 (num_nil 10) (conj eq_refl (or_introl eq_refl)))
    (conj eq_refl (or_introl eq_refl))).
Qed.
Lemma numeral_10' : numeral 10 $"10" 10.
Proof.
  exact (num_digit 10 $"1" 1 "0" 0 (num_digit 10 [] 0 "1" 1 (num_nil 10) (conj eq_refl (or_introl eq_refl)))
    (conj eq_refl (or_introl eq_refl))).
Qed.
Lemma numeral_09 : numeral 10 $"09" 9.
Proof.
  exact (num_digit 10 $"0" 0 "9" 9 (num_digit 10 [] 0 "0" 0 (num_nil 10) (conj eq_refl (or_introl eq_refl)))
    (conj eq_refl (or_introl eq_refl))).
Qed.
Lemma esc_value v : good_val v = true -> att_value dquote (esc_att v) v.
Proof.
  induction v as [|c v IH]; intros G; [constructor|]. unfold good_val in G. cbn [forallb] in G.
  apply andb_true_iff in G as [K G]. specialize (IH G). apply char_iff in K.
  unfold esc_att. cbn [flat_map]. fold (esc_att v). unfold esc_att_c.
  destruct (ceqb c "&") eqn:E1; [apply ceqb_eq in E1 as ->; apply (av_ref dquote $"amp"); [constructor|exact IH]|].
  destruct (ceqb c "<") eqn:E2; [apply ceqb_eq in E2 as ->; apply (av_ref dquote $"lt"); [constructor|exact IH]|].
  destruct (ceqb c ">") eqn:E3; [apply ceqb_eq in E3 as ->; apply (av_ref dquote $"gt"); [constructor|exact IH]|].
  destruct (ceqb c dquote) eqn:E4; [apply ceqb_eq in E4 as ->; apply (av_ref dquote $"quot"); [constructor|exact IH]|].
  destruct (ceqb c cr) eqn:E5.
  { apply ceqb_eq in E5 as ->. apply (av_ref dquote $"#13"); [|exact IH]. apply (ref_dec $"13"); [discriminate|exact K|exact numeral_13]. }
  destruct (ceqb c nl) eqn:E6.
  { apply ceqb_eq in E6 as ->. apply (av_ref dquote $"#10"); [|exact IH]. apply (ref_dec $"10"); [discriminate|exact K|exact numeral_10']. }
  destruct (ceqb c tab) eqn:E7.
  { apply ceqb_eq in E7 as ->. apply (av_ref dquote $"#09"); [|exact IH]. apply (ref_dec $"09"); [discriminate|exact K|exact numeral_09]. }
  cbn [app]. destruct (ceqb c " ") eqn:E8.
  { apply ceqb_eq in E8 as ->. apply av_space; [now left|exact IH]. }
  apply av_char; auto; try (intros ->; discriminate).
  unfold is_white. intros W. cbn [In] in W. decompose [or] W; subst; try contradiction; discriminate.
Qed.

Lemma written_atts atts : Forall (fun a => qname (fst a) /\ good_val (snd a) = true) atts ->
  attributes (flat_map ser_att atts) atts.
Proof.
  induction 1 as [|[n v] atts [Q G] _ IH]; [constructor|]. cbn [flat_map fst snd] in *.
  change (ser_att (n, v)) with ($" " ++ n ++ ["="%char; dquote] ++ esc_att v ++ [dquote]).
  replace (($" " ++ n ++ ["="%char; dquote] ++ esc_att v ++ [dquote]) ++ flat_map ser_att atts)
    with ($" " ++ n ++ [] ++ $"=" ++ [] ++ [dquote] ++ esc_att v ++ [dquote] ++ flat_map ser_att atts)
    by (rewrite <- !app_assoc; reflexivity).
  apply at_next; auto; try (constructor; fail).
  - discriminate.
  - constructor; [now left|constructor].
  - now left.
  - now apply esc_value.
Qed.

(** ** Names *)

Fixpoint all_names (s : str) : bool := match s with [] => true | c :: s' => name_char c && negb (ceqb c ":") && all_names s' end.
Definition ncname_b (n : str) : bool := match n with [] => false | c :: r => name_start c && all_names r end.
Lemma ncname_of_b n : ncname_b n = true -> ncname n.
Proof.
  destruct n as [|c r]; [discriminate|]. cbn [ncname_b]. rewrite andb_true_iff. intros [A B].
  exists c, r. split; [reflexivity|]. split; [now apply start_iff|]. clear A.
  induction r as [|d r IH]; [constructor|]. cbn [all_names] in B. rewrite !andb_true_iff, negb_true_iff in B.
  destruct B as ((B1 & B2) & B3). constructor; [|auto]. apply name_iff in B1 as [B1| ->]; [exact B1|discriminate].
Qed.

Lemma att_ncname n : In n att_names -> ncname n /\ n <> $"xmlns" /\ forall p, ~ declares n p.
Proof.
  intros I. assert (N : ncname n).
  { apply ncname_of_b. cbn [att_names In] in I. decompose [or] I; subst; try contradiction; reflexivity. }
  assert (X : n <> $"xmlns") by (apply att_names_ok in I as (_ & _ & I); intros ->; discriminate).
  split; [exact N|]. split; [exact X|]. intros p [[-> _]|[-> _]]; [auto|].
  apply ncname_no_colon in N. discriminate N.
Qed.
Lemma tag_written n : In n tag_names -> forall sc : namespaces, sc [] = Some SITEMAP_NS -> sc $"rs" = Some RS_NS ->
  tag_means sc n (ns_tag n).
Proof.
  intros I sc D R. cbn [tag_names In] in I. decompose [or] I; subst; try contradiction;
    first [ (apply (tm_prefix sc $"rs" $"md" RS_NS); [now apply ncname_of_b|now apply ncname_of_b|exact R])
          | (apply (tm_prefix sc $"rs" $"ln" RS_NS); [now apply ncname_of_b|now apply ncname_of_b|exact R])
          | (apply (tm_default sc _ SITEMAP_NS); [now apply ncname_of_b|exact D|discriminate]) ].
Qed.

(** ** Elements *)

Definition body (e : xml) : str :=
  let '(El tag atts text kids _) := e in
  $"<" ++ tag ++ flat_map ser_att atts ++
  (match opt_text text, kids with
   | [], [] => $" />"
   | t, _ => $">" ++ esc_text t ++ flat_map serialize kids ++ $"</" ++ tag ++ $">"
   end).
Lemma serialize_body e : serialize e = body e ++ esc_text (opt_text (x_tail e)).
Proof. destruct e as [tag atts text kids tail]. cbn [serialize body x_tail]. rewrite <- !app_assoc. reflexivity. Qed.
Definition no_tail (e : xml) : xml := let '(El t a x k _) := e in El t a x k None.
Lemma some_norm t : some_text (opt_text t) = match t with Some [] => None | _ => t end.
Proof. destruct t as [[|]|]; reflexivity. Qed.

Lemma written_start sc tag atts : In tag tag_names -> NoDup (map fst atts) -> Forall fine_att atts ->
  sc [] = Some SITEMAP_NS -> sc $"rs" = Some RS_NS ->
  start_means sc tag atts sc (ns_tag tag) atts.
Proof.
  intros T N A D R.
  assert (NO : forall p u, ~ declared atts p u).
  { intros p u (n & Dn & I). rewrite Forall_forall in A. destruct (A _ I) as [B _].
    apply att_ncname in B as (_ & _ & B). exact (B p Dn). }
  split; [exact N|]. split; [intros p u H; now apply NO in H|].
  split. { intros p. split; [intros u H; now apply NO in H|reflexivity]. }
  split; [now apply tag_written|]. split; [|exact N].
  clear N NO. induction A as [|[n v] l [B _] _ IH]; [constructor|]. apply att_ncname in B as (B1 & B2 & _).
  now apply am_plain.
Qed.

Lemma written_node sc sc' tag atts text kids t a ks :
  attributes (flat_map ser_att atts) atts -> start_means sc tag atts sc' t a ->
  good_text (opt_text text) = true -> elements sc' (flat_map serialize kids) ks ->
  (kids = [] -> ks = []) ->
  element sc (body (El tag atts text kids None)) (El t a (some_text (opt_text text)) ks None).
Proof.
  intros A S G K E. unfold body.
  assert (F : element sc ($"<" ++ tag ++ flat_map ser_att atts ++ [] ++ $">" ++ esc_text (opt_text text)
      ++ flat_map serialize kids ++ $"</" ++ tag ++ [] ++ $">") (El t a (some_text (opt_text text)) ks None)).
  { apply (el_full sc sc' tag _ atts [] t a _ (opt_text text) _ ks []); auto; try (constructor; fail). now apply esc_chunk. }
  cbn [app] in F. destruct (opt_text text) as [|c x] eqn:X; destruct kids as [|k kids]; try exact F.
  rewrite E by reflexivity. cbn [some_text].
  apply (el_empty sc sc' tag _ atts $" " t a); auto. constructor; [now left|constructor].
Qed.

Lemma elements_written sc kids :
  Forall (fun e => element sc (body e) (no_tail (with_namespaces e)) /\ good_text (opt_text (x_tail e)) = true) kids ->
  elements sc (flat_map serialize kids) (map with_namespaces kids).
Proof.
  induction 1 as [|[tag atts text ks tail] l [E G] _ IH]; [constructor|]. cbn [flat_map map].
  rewrite serialize_body, <- app_assoc. cbn [x_tail] in *.
  cbn [with_namespaces no_tail] in *. rewrite <- (some_norm tail). apply els_next; [exact E| |exact IH].
  now apply esc_chunk.
Qed.

Lemma fine_written sc : sc [] = Some SITEMAP_NS -> sc $"rs" = Some RS_NS ->
  forall e, fine e -> element sc (body e) (no_tail (with_namespaces e)) /\ good_text (opt_text (x_tail e)) = true.
Proof.
  intros D R. induction e as [tag atts text kids tail IH] using xml_ind'.
  cbn [fine]. rewrite fine_kids. intros (T & N & A & X & Y & K). split; [|exact Y].
  cbn [with_namespaces no_tail]. rewrite <- (some_norm text).
  change (body (El tag atts text kids tail)) with (body (El tag atts text kids None)).
  apply (written_node sc sc tag atts text kids (ns_tag tag) atts (map with_namespaces kids)).
  - apply written_atts. eapply Forall_impl; [|exact A]. intros [n v] [B G]. split; [|exact G].
    left. now apply att_ncname in B.
  - now apply written_start.
  - exact X.
  - apply elements_written. rewrite Forall_forall in *. auto.
  - now intros ->.
Qed.

(** ** Documents *)

Definition doc_ns : namespaces := fun p =>
  if str_eqb p [] then Some SITEMAP_NS else if str_eqb p $"rs" then Some RS_NS else initial p.

Lemma declared_doc p u : declared [($"xmlns", SITEMAP_NS); ($"xmlns:rs", RS_NS)] p u ->
  (p = [] /\ u = SITEMAP_NS) \/ (p = $"rs" /\ u = RS_NS).
Proof.
  rewrite !declared_cons. intros [[E <-]|[[E <-]|(n & _ & [])]].
  - left. split; [|reflexivity]. exact (decl_name_inj p [] (eq_sym E)).
  - right. split; [|reflexivity]. exact (decl_name_inj p $"rs" (eq_sym E)).
Qed.
Lemma declared_doc_1 : declared [($"xmlns", SITEMAP_NS); ($"xmlns:rs", RS_NS)] [] SITEMAP_NS.
Proof. exists $"xmlns". split; [left; now split|now left]. Qed.
Lemma declared_doc_2 : declared [($"xmlns", SITEMAP_NS); ($"xmlns:rs", RS_NS)] $"rs" RS_NS.
Proof. exists $"xmlns:rs". split; [right; split; [reflexivity|discriminate]|right; now left]. Qed.

Lemma no_brace u : forallb (fun c => negb (ceqb c "}")) u = true -> ~ In "}"%char u.
Proof. rewrite forallb_forall. intros F I. apply F in I. discriminate I. Qed.

Lemma root_start tag : In tag [$"urlset"; $"sitemapindex"] ->
  start_means initial tag [($"xmlns", SITEMAP_NS); ($"xmlns:rs", RS_NS)] doc_ns (sm_name tag) [].
Proof.
  intros T. split.
  { constructor; [|constructor; [intros []|constructor]]. intros [E|[]]. discriminate E. }
  split.
  { intros p u Q. apply declared_doc in Q as [[-> ->]|[-> ->]].
    - split; [intros [E|[E|[]]]; discriminate E|]. split; [intros [E|[E|[]]]; discriminate E|].
      split; [exact (no_brace SITEMAP_NS eq_refl)|congruence].
    - split; [intros [E|[E|[]]]; discriminate E|]. split; [intros [E|[E|[]]]; discriminate E|].
      split; [exact (no_brace RS_NS eq_refl)|discriminate]. }
  split.
  { intros p. split.
    - intros u Q. apply declared_doc in Q as [[-> ->]|[-> ->]]; reflexivity.
    - intros Q. unfold doc_ns. destruct (str_eqb p []) eqn:E1.
      { apply str_eqb_eq in E1 as ->. destruct (Q _ declared_doc_1). }
      destruct (str_eqb p $"rs") eqn:E2; [|reflexivity].
      apply str_eqb_eq in E2 as ->. destruct (Q _ declared_doc_2). }
  split.
  { apply (tm_default doc_ns tag SITEMAP_NS); [|reflexivity|discriminate]. apply ncname_of_b.
    cbn [In] in T. decompose [or] T; subst; try contradiction; reflexivity. }
  split; [|constructor].
  apply (am_decl doc_ns $"xmlns" _ []); [left; now split|].
  apply (am_decl doc_ns $"xmlns:rs" _ $"rs"); [right; split; [reflexivity|discriminate]|constructor].
Qed.

Lemma decl_written : declaration version_1_0 $"<?xml version='1.0' encoding='utf-8'?>".
Proof.
  assert (Q : In "'"%char [dquote; "'"%char]) by (right; now left).
  assert (W : spaces $" ") by (constructor; [now left|constructor]).
  apply (de_some version_1_0 $"1.0" $" version='1.0'" $" encoding='utf-8'" [] []); [reflexivity| | |now left|constructor].
  - apply (a_setting $" " $"version" [] [] "'" $"1.0"); [discriminate|exact W|constructor|constructor|exact Q].
  - right. exists $"utf-8". split.
    + exists "u"%char, $"tf-8". split; [reflexivity|]. split; [right; split; discriminate|].
      change $"tf-8" with ["t"%char; "f"%char; "-"%char; "8"%char].
      repeat (apply Forall_cons; [first [right; left; split; discriminate | right; right; left; split; discriminate | right; right; right; right; right; now left]|]).
      constructor.
    + apply (a_setting $" " $"encoding" [] [] "'" $"utf-8"); [discriminate|exact W|constructor|constructor|exact Q].
Qed.

Lemma no_cr_ends s : no_cr s = true -> line_ends s s.
Proof.
  induction s as [|c s IH]; intros G; [constructor|]. cbn [no_cr forallb] in G. apply andb_true_iff in G as [A G].
  apply le_char; [intros ->; discriminate A|auto].
Qed.

Lemma document_written tag text kids : In tag [$"urlset"; $"sitemapindex"] ->
  good_text (opt_text text) = true -> Forall fine kids ->
  spells (write_xml (El tag [($"xmlns", SITEMAP_NS); ($"xmlns:rs", RS_NS)] text kids None))
    (El (sm_name tag) [] (norm_opt text) (map with_namespaces kids) None).
Proof.
  intros T X K. set (e := El tag _ text kids None). unfold write_xml, xml_decl.
  assert (W : writable e = true).
  { unfold e. cbn [writable]. rewrite X.
    assert (forallb writable kids = true) as ->.
    { apply forallb_forall. intros k I. rewrite Forall_forall in K. apply fine_writable; auto. }
    cbn [In] in T. decompose [or] T; subst; try contradiction; reflexivity. }
  eexists. split.
  { apply no_cr_ends. rewrite !no_cr_app, serialize_no_cr by exact W. reflexivity. }
  rewrite <- app_assoc, serialize_body. unfold e at 2. cbn [x_tail opt_text esc_text flat_map].
  apply a_document; [exact decl_written| | |constructor].
  - apply mi_space; [right; right; now left|constructor].
  - unfold e. rewrite norm_opt_eq, <- some_norm. apply (written_node initial doc_ns).
    + apply written_atts. constructor; [|constructor; [|constructor]]; (split; [|reflexivity]).
      * left. now apply ncname_of_b.
      * right. exists $"xmlns", $"rs". split; [reflexivity|]. split; now apply ncname_of_b.
    + now apply root_start.
    + exact X.
    + apply elements_written. rewrite Forall_forall in *. intros k I. apply fine_written; auto.
    + now intros ->.
Qed.

Lemma tree_fine sm index d : good_doc d -> exists kids,
  resources_tree sm index d = Ok (El (if index then $"sitemapindex" else $"urlset")
    [($"xmlns", SITEMAP_NS); ($"xmlns:rs", RS_NS)] (newline sm) kids None)
  /\ Forall fine kids.
Proof.
  intros ((GM & KM & LM) & (GL & LL) & GR & LR).
  set (name := if index then $"sitemap" else $"url").
  assert (T : name = $"url" \/ name = $"sitemap") by (unfold name; destruct index; auto).
  destruct (parse_kids_items sm name (d_items d) T GR) as (es & rs' & EE & _ & _).
  unfold resources_tree. fold name. rewrite EE. cbn [bind]. eexists. split; [reflexivity|].
  rewrite !Forall_app. split; [|split].
  - change (flat_map (fun l => element_with_atts $"rs:ln" l (newline sm)) (d_ln d)) with (ln_elements (newline sm) (d_ln d)).
    apply fine_links; [apply newline_good|exact LL].
  - apply fine_element; [cbn; auto 10| |exact LM|apply newline_good].
    intros k I. apply (md_keys_att false). auto.
  - clear rs'. revert es EE. induction (d_items d) as [|r rs IH]; intros es EE; cbn [mapM] in EE.
    + injection EE as <-. constructor.
    + destruct (resource_etree_element sm r name) as [e|] eqn:Er; [|discriminate]. cbn [bind] in EE.
      destruct (mapM _ rs) as [es'|]; [|discriminate]. cbn [bind] in EE. injection EE as <-.
      inversion GR; inversion LR; subst. constructor; [|apply IH; auto].
      apply (fine_resource sm r name); auto. destruct T as [-> | ->]; cbn; auto.
Qed.

Lemma spelled_once s e e' : spells s e -> spells s e' -> e = e'.
Proof. intros A B. apply spelled_read in A. apply spelled_read in B. congruence. Qed.

(** Everything that is written is well formed, and stands for one tree. *)
Lemma written_spelled sm index d : good_doc d ->
  exists text root, resources_as_xml sm index d = Ok text /\ spells text root.
Proof.
  intros G. destruct (tree_fine sm index d G) as (kids & E & F). unfold resources_as_xml. rewrite E. cbn [bind].
  eexists _, _. split; [reflexivity|]. apply document_written; [|apply newline_good|exact F].
  destruct index; cbn; auto.
Qed.

Lemma respelled {C} sm (add : resource -> C -> res C) cap si (d : doc C) s s' e : spells s e -> spells s' e ->
  parse_xml sm add cap si d s = parse_xml sm add cap si d s'.
Proof. intros A B. apply spelled_read in A. apply spelled_read in B. unfold parse_xml. now rewrite A, B. Qed.

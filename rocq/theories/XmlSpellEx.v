(** * XmlSpellEx: a document as someone else might write it *)

From Verif Require Import Py PyFacts Resource Container ContainerSpec Xml XmlFacts XmlSpell XmlSpellFacts
  Sitemap SitemapSpec SitemapAlike XmlWritten.

(** ** Decision procedures *)

Fixpoint contains (p s : str) : bool :=
  startswith p s || match s with [] => false | _ :: s' => contains p s' end.
Lemma startswith_app p b : startswith p (p ++ b) = true.
Proof. induction p as [|c p IH]; [reflexivity|]. cbn [startswith app]. now rewrite ceqb_refl, IH. Qed.
Lemma free_of_b p s : contains p s = false -> free_of p s.
Proof.
  intros F (a & b & ->). induction a as [|c a IH]; cbn [app] in F.
  - destruct (p ++ b) as [|d r] eqn:E; cbn [contains] in F; rewrite <- E, startswith_app in F; discriminate F.
  - cbn [contains] in F. apply orb_false_iff in F as [_ F]. auto.
Qed.
Lemma chars_b s : forallb xml_char s = true -> Forall is_char s.
Proof. intros F. rewrite Forall_forall. intros c I. rewrite forallb_forall in F. now apply char_iff, F. Qed.
Lemma spaces_b s : forallb xml_ws s = true -> spaces s.
Proof. intros F. apply Forall_forall. intros c I. rewrite forallb_forall in F. now apply white_iff, F. Qed.
Definition plain_b (c : ascii) : bool := xml_char c && negb (ceqb c "<") && negb (ceqb c "&").
Lemma plains_b s : forallb plain_b s = true -> Forall (fun c => is_char c /\ c <> "<"%char /\ c <> "&"%char) s.
Proof.
  intros F. rewrite Forall_forall. intros c I. rewrite forallb_forall in F. apply F in I. unfold plain_b in I.
  rewrite !andb_true_iff, !negb_true_iff in I. destruct I as ((A & B) & C). split; [now apply char_iff|].
  split; intros ->; discriminate.
Qed.
Definition value_b (q c : ascii) : bool := plain_b c && negb (ceqb c q) && negb (xml_ws c).
Lemma value_plain q v s m : forallb (value_b q) v = true -> att_value q s m -> att_value q (v ++ s) (v ++ m).
Proof.
  intros F A. induction v as [|c v IH]; [exact A|]. cbn [forallb] in F. apply andb_true_iff in F as [F G].
  unfold value_b, plain_b in F. rewrite !andb_true_iff, !negb_true_iff in F. destruct F as ((((F1 & F2) & F3) & F4) & F5).
  cbn [app]. apply av_char; auto; try (intros ->; discriminate).
  - now apply char_iff.
  - intros W. apply white_iff in W. congruence.
  - intros ->. rewrite ceqb_refl in F4. discriminate.
Qed.
Lemma value_all q v : forallb (value_b q) v = true -> att_value q v v.
Proof. intros F. rewrite <- (app_nil_r v). apply value_plain; [exact F|constructor]. Qed.
Fixpoint ends (s : str) : str :=
  match s with
  | [] => []
  | c :: s' => if ceqb c cr then nl :: match s' with d :: s'' => if ceqb d nl then ends s'' else ends s' | [] => [] end
               else c :: ends s'
  end.
Lemma ends_of_n n : forall s, (List.length s <= n)%nat -> line_ends s (ends s).
Proof.
  induction n as [|n IH]; intros s L; [destruct s; [constructor|cbn in L; lia]|].
  destruct s as [|c s]; [constructor|]. cbn [ends]. cbn [List.length] in L. destruct (ceqb c cr) eqn:E.
  - apply ceqb_eq in E as ->. destruct s as [|d s].
    + apply le_cr; [discriminate|constructor].
    + destruct (ceqb d nl) eqn:F.
      * apply ceqb_eq in F as ->. apply le_crlf. apply IH. cbn in L. lia.
      * apply le_cr; [intros s' Q; injection Q as -> _; discriminate F|]. apply IH. cbn in L |- *. lia.
  - apply le_char; [intros ->; discriminate E|]. apply IH. lia.
Qed.
Lemma ends_of s : line_ends s (ends s).
Proof. exact (ends_of_n (List.length s) s (le_n _)). Qed.

(** ** The document *)

Definition dq (s : str) : str := [dquote] ++ s ++ [dquote].
Definition crlf : str := [cr; nl].

Definition decl_text : str := $"<?xml version=" ++ dq $"1.0" ++ $" encoding='UTF-8' ?>".
Definition note_text : str := $"<!-- not <written> by - & ]]> the library -->".
Definition pi_text : str := $"<?show nicely?>".
Definition root_atts : str :=
  $" xmlns:u='http://www.sitemaps.org/schemas/sitemap/0.9'" ++ $" xmlns:r = " ++ dq $"http://www.openarchives.org/rs/terms/".
Definition md_text : str := $"<r:md capability='resourcelist'/>".
Definition loc_text : str := $"<u:loc>http://<!-- host -->ex.org/<![CDATA[a&b]]>&#x2F;</u:loc >".
Definition entry_md : str := $"<r:md type='text/plain' note='x' length='7' hash=" ++ dq $"md5:&#97;" ++ $" ></r:md>".
Definition other_text : str := $"<o xmlns='http://ex.org/other'>any text</o>".
Definition entry_text : str := $"<u:url>" ++ entry_md ++ other_text ++ loc_text ++ $"</u:url>".

Definition foreign : str :=
  decl_text ++ crlf ++ note_text ++ crlf ++ $"<u:urlset" ++ root_atts ++ $">" ++ pi_text ++ crlf
  ++ md_text ++ entry_text ++ crlf ++ $"</u:urlset>" ++ crlf.

Definition md_tree : xml := El (rs_ns $"md") [($"capability", $"resourcelist")] None [] None.
Definition entry_tree : xml :=
  El (sitemap_ns $"url") [] None
    [El (rs_ns $"md") [($"type", $"text/plain"); ($"note", $"x"); ($"length", $"7"); ($"hash", $"md5:a")] None [] None;
     El $"{http://ex.org/other}o" [] (Some $"any text") [] None;
     El (sitemap_ns $"loc") [] (Some $"http://ex.org/a&b/") [] None] (Some [nl]).
Definition foreign_tree : xml := El (sitemap_ns $"urlset") [] (Some [nl]) [md_tree; entry_tree] None.

(** The same without what is not defined, and in another order. *)
Definition usual_tree : xml :=
  El (sitemap_ns $"urlset") [] None
    [md_tree;
     El (sitemap_ns $"url") [] None
       [El (sitemap_ns $"loc") [] (Some $"http://ex.org/a&b/") [] None;
        El (rs_ns $"md") [($"hash", $"md5:a"); ($"length", $"7"); ($"type", $"text/plain")] None [] None] None] None.

Lemma no_decl atts : Forall (fun a => ncname (fst a) /\ fst a <> $"xmlns") atts -> forall p u, ~ declared atts p u.
Proof.
  intros F p u (n & D & I). rewrite Forall_forall in F. destruct (F _ I) as [N X]. cbn [fst] in *.
  destruct D as [[-> _]|[-> _]]; [auto|]. apply ncname_no_colon in N. discriminate N.
Qed.
Lemma start_plain sc tag t atts : tag_means sc tag t -> NoDup (map fst atts) ->
  Forall (fun a => ncname (fst a) /\ fst a <> $"xmlns") atts -> start_means sc tag atts sc t atts.
Proof.
  intros T N F. pose proof (no_decl atts F) as NO. split; [exact N|]. split; [intros p u H; now apply NO in H|].
  split. { intros p. split; [intros u H; now apply NO in H|reflexivity]. }
  split; [exact T|]. split; [|exact N]. clear N NO. induction F as [|[n v] l [A B] _ IH]; constructor; auto.
Qed.

Definition U_NS : str := $"http://www.sitemaps.org/schemas/sitemap/0.9".
Definition R_NS : str := $"http://www.openarchives.org/rs/terms/".
Definition foreign_ns : namespaces := fun p =>
  if str_eqb p $"u" then Some U_NS else if str_eqb p $"r" then Some R_NS else initial p.
Definition other_ns : namespaces := fun p => if str_eqb p [] then Some $"http://ex.org/other" else foreign_ns p.

Lemma u_tag l : ncname l -> tag_means foreign_ns ($"u" ++ $":" ++ l) (sitemap_ns l).
Proof. intros N. apply (tm_prefix foreign_ns $"u" l U_NS); [now apply ncname_of_b|exact N|reflexivity]. Qed.
Lemma r_tag l : ncname l -> tag_means foreign_ns ($"r" ++ $":" ++ l) (rs_ns l).
Proof. intros N. apply (tm_prefix foreign_ns $"r" l R_NS); [now apply ncname_of_b|exact N|reflexivity]. Qed.

Lemma one_att w n w1 w2 q v m s l : forallb xml_ws w = true -> w <> [] -> qname n -> forallb xml_ws w1 = true ->
  forallb xml_ws w2 = true -> In q [dquote; "'"%char] -> att_value q v m -> attributes s l ->
  attributes (w ++ n ++ w1 ++ $"=" ++ w2 ++ [q] ++ v ++ [q] ++ s) ((n, m) :: l).
Proof. intros. apply at_next; auto using spaces_b. Qed.
Lemma xmlns_qname l : ncname l -> qname ($"xmlns" ++ $":" ++ l).
Proof. intros N. right. exists $"xmlns", l. split; [reflexivity|]. split; [now apply ncname_of_b|exact N]. Qed.
Ltac name := left; now apply ncname_of_b.

Lemma md_element : element foreign_ns md_text md_tree.
Proof.
  apply (el_empty foreign_ns foreign_ns $"r:md" $" capability='resourcelist'" [($"capability", $"resourcelist")] []).
  - apply (one_att $" " $"capability" [] [] "'" $"resourcelist"); try reflexivity; [discriminate|name|right; now left|now apply value_all|constructor].
  - constructor.
  - apply start_plain; [apply (r_tag $"md"); now apply ncname_of_b| |].
    + constructor; [intros []|constructor].
    + repeat (apply Forall_cons; [split; [now apply ncname_of_b|discriminate]|]). constructor.
Qed.

Lemma ref_97 : refers $"#97" "a".
Proof.
  apply (ref_dec $"97"); [discriminate|left; split; discriminate|].
  exact (num_digit 10 $"9" 9 "7" 7 (num_digit 10 [] 0 "9" 9 (num_nil 10) (conj eq_refl (or_introl eq_refl)))
    (conj eq_refl (or_introl eq_refl))).
Qed.
Lemma ref_2f : refers $"#x2F" "/".
Proof.
  apply (ref_hex $"2F"); [discriminate|left; split; discriminate|].
  exact (num_digit 16 $"2" 2 "F" 15 (num_digit 16 [] 0 "2" 2 (num_nil 16) (conj eq_refl (or_introl eq_refl)))
    (conj eq_refl (or_intror eq_refl))).
Qed.

Lemma entry_md_element : element foreign_ns entry_md
  (El (rs_ns $"md") [($"type", $"text/plain"); ($"note", $"x"); ($"length", $"7"); ($"hash", $"md5:a")] None [] None).
Proof.
  apply (el_full foreign_ns foreign_ns $"r:md"
    ($" type='text/plain' note='x' length='7' hash=" ++ dq $"md5:&#97;")
    [($"type", $"text/plain"); ($"note", $"x"); ($"length", $"7"); ($"hash", $"md5:a")]
    $" " (rs_ns $"md") [($"type", $"text/plain"); ($"note", $"x"); ($"length", $"7"); ($"hash", $"md5:a")]
    [] [] [] [] []).
  - apply (one_att $" " $"type" [] [] "'" $"text/plain"); try reflexivity; [discriminate|name|right; now left|now apply value_all|].
    apply (one_att $" " $"note" [] [] "'" $"x"); try reflexivity; [discriminate|name|right; now left|now apply value_all|].
    apply (one_att $" " $"length" [] [] "'" $"7"); try reflexivity; [discriminate|name|right; now left|now apply value_all|].
    apply (one_att $" " $"hash" [] [] dquote $"md5:&#97;" $"md5:a" []); try reflexivity; [discriminate|name|now left| |constructor].
    apply (value_plain dquote $"md5:" $"&#97;" $"a" eq_refl). apply (av_ref dquote $"#97" "a" [] []); [exact ref_97|constructor].
  - now apply spaces_b.
  - apply start_plain; [apply (r_tag $"md"); now apply ncname_of_b| |].
    + repeat (constructor; [cbn; intuition discriminate|]). constructor.
    + repeat (apply Forall_cons; [split; [now apply ncname_of_b|discriminate]|]). constructor.
  - constructor.
  - constructor.
  - constructor.
Qed.

Lemma all_plain t : forallb plain_b t = true -> contains $"]]>" t = false -> chunk t t.
Proof.
  intros P F. rewrite <- (app_nil_r t). apply ch_plain; [now apply plains_b|now apply free_of_b|now left|constructor].
Qed.

Lemma without_brace u : forallb (fun c => negb (ceqb c "}")) u = true -> ~ In "}"%char u.
Proof. rewrite forallb_forall. intros F I. apply F in I. discriminate I. Qed.

Lemma other_element : element foreign_ns other_text (El $"{http://ex.org/other}o" [] (Some $"any text") [] None).
Proof.
  apply (el_full foreign_ns other_ns $"o" $" xmlns='http://ex.org/other'" [($"xmlns", $"http://ex.org/other")] []
    $"{http://ex.org/other}o" [] $"any text" $"any text" [] [] []).
  - apply (one_att $" " $"xmlns" [] [] "'" $"http://ex.org/other"); try reflexivity; [discriminate|name|right; now left|now apply value_all|constructor].
  - constructor.
  - assert (D : forall p u, declared [($"xmlns", $"http://ex.org/other")] p u -> p = [] /\ u = $"http://ex.org/other").
    { intros p u. rewrite declared_cons. intros [[E <-]|(n & _ & [])]. split; [|reflexivity].
      exact (decl_name_inj p [] (eq_sym E)). }
    split. { constructor; [intros []|constructor]. }
    split. { intros p u Q. apply D in Q as [-> ->]. split; [intros [E|[E|[]]]; discriminate E|].
             split; [intros [E|[E|[]]]; discriminate E|]. split; [now apply without_brace|congruence]. }
    split. { intros p. split.
      - intros u Q. apply D in Q as [-> ->]. reflexivity.
      - intros Q. unfold other_ns. destruct (str_eqb p []) eqn:E; [|reflexivity]. apply str_eqb_eq in E as ->.
        destruct (Q $"http://ex.org/other"). exists $"xmlns". split; [left; now split|now left]. }
    split. { apply (tm_default other_ns $"o" $"http://ex.org/other"); [now apply ncname_of_b|reflexivity|discriminate]. }
    split; [|constructor]. apply (am_decl other_ns $"xmlns" _ []); [left; now split|constructor].
  - now apply all_plain.
  - constructor.
  - constructor.
Qed.

Lemma loc_element : element foreign_ns loc_text (El (sitemap_ns $"loc") [] (Some $"http://ex.org/a&b/") [] None).
Proof.
  apply (el_full foreign_ns foreign_ns $"u:loc" [] [] [] (sitemap_ns $"loc") []
    ($"http://" ++ $"<!-- host -->" ++ $"ex.org/" ++ $"<![CDATA[" ++ $"a&b" ++ $"]]>" ++ $"&" ++ $"#x2F" ++ $";" ++ [])
    $"http://ex.org/a&b/" [] [] $" ").
  - constructor.
  - constructor.
  - apply start_plain; [apply (u_tag $"loc"); now apply ncname_of_b|constructor|constructor].
  - apply (ch_plain $"http://" _ $"ex.org/a&b/"); [now apply plains_b|now apply free_of_b|right; eexists; left; reflexivity|].
    apply ch_comment. { apply (a_comment $" host "); [now apply chars_b|now apply free_of_b]. }
    apply (ch_plain $"ex.org/" _ $"a&b/"); [now apply plains_b|now apply free_of_b|right; eexists; left; reflexivity|].
    apply (ch_cdata $"a&b" _ $"/"); [now apply chars_b|now apply free_of_b|].
    apply (ch_ref $"#x2F" "/" [] []); [exact ref_2f|constructor].
  - constructor.
  - now apply spaces_b.
Qed.

Lemma entry_element : element foreign_ns entry_text (no_tail entry_tree).
Proof.
  apply (el_full foreign_ns foreign_ns $"u:url" [] [] [] (sitemap_ns $"url") [] [] []
    (entry_md ++ [] ++ other_text ++ [] ++ loc_text ++ [] ++ [])
    [El (rs_ns $"md") [($"type", $"text/plain"); ($"note", $"x"); ($"length", $"7"); ($"hash", $"md5:a")] None [] None;
     El $"{http://ex.org/other}o" [] (Some $"any text") [] None;
     El (sitemap_ns $"loc") [] (Some $"http://ex.org/a&b/") [] None] []).
  - constructor.
  - constructor.
  - apply start_plain; [apply (u_tag $"url"); now apply ncname_of_b|constructor|constructor].
  - constructor.
  - apply (els_next foreign_ns entry_md _ _ _ _ [] []); [exact entry_md_element|constructor|].
    apply (els_next foreign_ns other_text _ _ _ _ [] []); [exact other_element|constructor|].
    apply (els_next foreign_ns loc_text _ _ _ _ [] []); [exact loc_element|constructor|constructor].
  - constructor.
Qed.

Lemma root_means : start_means initial $"u:urlset" [($"xmlns:u", U_NS); ($"xmlns:r", R_NS)] foreign_ns (sitemap_ns $"urlset") [].
Proof.
  assert (D : forall p u, declared [($"xmlns:u", U_NS); ($"xmlns:r", R_NS)] p u -> (p = $"u" /\ u = U_NS) \/ (p = $"r" /\ u = R_NS)).
  { intros p u. rewrite !declared_cons. intros [[E <-]|[[E <-]|(n & _ & [])]].
    - left. split; [|reflexivity]. exact (decl_name_inj p $"u" (eq_sym E)).
    - right. split; [|reflexivity]. exact (decl_name_inj p $"r" (eq_sym E)). }
  split. { repeat (constructor; [cbn; intuition discriminate|]). constructor. }
  split. { intros p u Q. apply D in Q as [[-> ->]|[-> ->]];
      (split; [intros [E|[E|[]]]; discriminate E|]; split; [intros [E|[E|[]]]; discriminate E|];
       split; [now apply without_brace|discriminate]). }
  split. { intros p. split.
    - intros u Q. apply D in Q as [[-> ->]|[-> ->]]; reflexivity.
    - intros Q. unfold foreign_ns. destruct (str_eqb p $"u") eqn:E.
      { apply str_eqb_eq in E as ->. destruct (Q U_NS). exists $"xmlns:u". split; [right; split; [reflexivity|discriminate]|now left]. }
      destruct (str_eqb p $"r") eqn:E2; [|reflexivity].
      apply str_eqb_eq in E2 as ->. destruct (Q R_NS). exists $"xmlns:r". split; [right; split; [reflexivity|discriminate]|right; now left]. }
  split. { apply (u_tag $"urlset"); now apply ncname_of_b. }
  split; [|constructor].
  apply (am_decl foreign_ns $"xmlns:u" _ $"u"); [right; split; [reflexivity|discriminate]|].
  apply (am_decl foreign_ns $"xmlns:r" _ $"r"); [right; split; [reflexivity|discriminate]|constructor].
Qed.

Lemma decl_fine : declaration version_1_0 decl_text.
Proof.
  apply (de_some version_1_0 $"1.0" ($" version=" ++ dq $"1.0") $" encoding='UTF-8'" [] $" "); [reflexivity| | |now left|now apply spaces_b].
  - apply (a_setting $" " $"version" [] [] dquote $"1.0"); [discriminate|now apply spaces_b|constructor|constructor|now left].
  - right. exists $"UTF-8". split.
    + exists "U"%char, $"TF-8". split; [reflexivity|]. split; [left; split; discriminate|].
      change $"TF-8" with ["T"%char; "F"%char; "-"%char; "8"%char].
      repeat (apply Forall_cons; [first [left; split; discriminate | right; right; left; split; discriminate | right; right; right; right; right; now left]|]).
      constructor.
    + apply (a_setting $" " $"encoding" [] [] "'" $"UTF-8"); [discriminate|now apply spaces_b|constructor|constructor|right; now left].
Qed.

Lemma pi_ok : instruction pi_text.
Proof. apply (pi_data $"show" " " $"nicely"); [now apply ncname_of_b|discriminate|now left|now apply chars_b|now apply free_of_b]. Qed.

Lemma foreign_spelled : spells foreign foreign_tree.
Proof.
  exists (ends foreign). split; [apply ends_of|].
  change (ends foreign) with (decl_text ++ ([nl] ++ note_text ++ [nl])
    ++ ($"<" ++ $"u:urlset" ++ root_atts ++ [] ++ $">" ++ (pi_text ++ [nl] ++ []) ++ (md_text ++ [] ++ entry_text ++ ([nl] ++ []) ++ [])
        ++ $"</" ++ $"u:urlset" ++ [] ++ $">")
    ++ [nl]).
  apply a_document; [exact decl_fine| | |].
  - apply mi_space; [right; right; now left|]. apply (mi_comment note_text [nl]).
    + apply (a_comment $" not <written> by - & ]]> the library "); [now apply chars_b|now apply free_of_b].
    + apply mi_space; [right; right; now left|constructor].
  - apply (el_full initial foreign_ns $"u:urlset" root_atts [($"xmlns:u", U_NS); ($"xmlns:r", R_NS)] []
      (sitemap_ns $"urlset") [] (pi_text ++ [nl] ++ []) [nl] (md_text ++ [] ++ entry_text ++ ([nl] ++ []) ++ []) [md_tree; entry_tree] []).
    + apply (one_att $" " $"xmlns:u" [] [] "'" U_NS U_NS ($" xmlns:r = " ++ dq R_NS)); try reflexivity; [discriminate|apply (xmlns_qname $"u"); now apply ncname_of_b|right; now left|now apply value_all|].
      apply (one_att $" " $"xmlns:r" $" " $" " dquote R_NS R_NS []); try reflexivity; [discriminate|apply (xmlns_qname $"r"); now apply ncname_of_b|now left|now apply value_all|constructor].
    + constructor.
    + exact root_means.
    + apply (ch_pi pi_text); [exact pi_ok|]. now apply all_plain.
    + apply (els_next foreign_ns md_text _ _ _ _ [] []); [exact md_element|constructor|].
      apply (els_next foreign_ns entry_text _ _ _ _ ([nl] ++ []) [nl]); [exact entry_element|now apply all_plain|constructor].
    + constructor.
  - apply mi_space; [right; right; now left|constructor].
Qed.

Lemma usual_alike : alike foreign_tree usual_tree.
Proof.
  assert (K : alike_kid (sitemap_ns $"url") md_tree md_tree).
  { split; [reflexivity|]. split; [discriminate|]. split; [intros _ n _; reflexivity|discriminate]. }
  split; [reflexivity|].
  change (filter (defined foreign_tree) (x_kids foreign_tree)) with [md_tree; entry_tree].
  change (filter (defined usual_tree) (x_kids usual_tree)) with (x_kids usual_tree).
  change (entry_tag foreign_tree) with (sitemap_ns $"url").
  apply Forall2_cons; [exact K|]. apply Forall2_cons; [|constructor].
  split; [reflexivity|]. split; [|split; discriminate]. intros _. split; [|split; [|split]].
  - change (kids_named (sitemap_ns $"loc") entry_tree) with [El (sitemap_ns $"loc") [] (Some $"http://ex.org/a&b/") [] None].
    match goal with |- Forall2 _ _ ?l => change l with [El (sitemap_ns $"loc") [] (Some $"http://ex.org/a&b/") [] None] end.
    constructor; [reflexivity|constructor].
  - constructor.
  - apply Forall2_cons; [|constructor]. intros n I. cbn [md_names In] in I.
    decompose [or] I; subst; try contradiction; reflexivity.
  - constructor.
Qed.

(** What comes of it. *)
Definition foreign_resource : resource :=
  set_mime_type (Some $"text/plain") (set_length (Some 7) (set_md5 (Some $"a") (new_resource $"http://ex.org/a&b/"))).
Lemma foreign_read :
  list_parse (fun r => rl_add r false) (MkSettings true false false) (Some $"resourcelist") (MkDoc [] [] []) foreign
  = Ok (MkDoc [($"capability", PStr $"resourcelist")] [] [($"http://ex.org/a&b/", foreign_resource)]).
Proof. vm_compute. reflexivity. Qed.

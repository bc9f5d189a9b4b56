(** * SitemapAlike: what in a document does not matter *)

From Verif Require Import Py PyFacts Resource Xml Sitemap SitemapSpec.

(** ** Specification *)

(** The attributes the specification defines for <rs:md> and <rs:ln>. *)
Definition md_names : list str :=
  [$"capability"; $"change"; $"hash"; $"length"; $"path"; $"type";
   $"at"; $"completed"; $"from"; $"until"; $"datetime"].
Definition ln_names : list str :=
  [$"hash"; $"href"; $"length"; $"modified"; $"path"; $"rel"; $"pri"; $"type"].

(** The same values of those attributes, in whatever order and among whatever others. *)
Definition same_values (names : list str) (e e' : xml) : Prop :=
  forall n, In n names -> sget n (x_atts e) = sget n (x_atts e').
Definition same_text (e e' : xml) : Prop := x_text e = x_text e'.

(** Entries with the same <loc>, <lastmod>, <rs:md> and <rs:ln>: the order of
    different elements, and other elements, do not matter. *)
Definition alike_entry (e e' : xml) : Prop :=
  Forall2 same_text (kids_named (sitemap_ns $"loc") e) (kids_named (sitemap_ns $"loc") e')
  /\ Forall2 same_text (kids_named (sitemap_ns $"lastmod") e) (kids_named (sitemap_ns $"lastmod") e')
  /\ Forall2 (same_values md_names) (kids_named (rs_ns $"md") e) (kids_named (rs_ns $"md") e')
  /\ Forall2 (same_values ln_names) (kids_named (rs_ns $"ln") e) (kids_named (rs_ns $"ln") e').

(** The element that describes an entry. *)
Definition entry_tag (root : xml) : str :=
  sitemap_ns (if str_eqb (x_tag root) (sitemap_ns $"urlset") then $"url" else $"sitemap").
Definition defined (root k : xml) : bool :=
  in_strs (x_tag k) [entry_tag root; rs_ns $"md"; rs_ns $"ln"].
Definition alike_kid (entry : str) (k k' : xml) : Prop :=
  x_tag k = x_tag k'
  /\ (x_tag k = entry -> alike_entry k k')
  /\ (x_tag k = rs_ns $"md" -> same_values md_names k k')
  /\ (x_tag k = rs_ns $"ln" -> same_values ln_names k k').

(** Documents that have the same links, metadata and entries. *)
Definition alike (root root' : xml) : Prop :=
  x_tag root = x_tag root'
  /\ Forall2 (alike_kid (entry_tag root)) (filter (defined root) (x_kids root)) (filter (defined root') (x_kids root')).

(** ** Alike documents are read the same *)

Lemma understood_alike keys names e e' : (forall k, In k keys -> In (xml_att_name k) names) ->
  same_values names e e' -> understood keys e = understood keys e'.
Proof.
  intros K S. induction keys as [|k keys IH]; [reflexivity|]. cbn [understood].
  rewrite (S (xml_att_name k)) by (apply K; now left).
  rewrite IH by (intros x I; apply K; now right). reflexivity.
Qed.

Lemma md_alike sm e e' : same_values md_names e e' -> md_from_etree sm e = md_from_etree sm e'.
Proof.
  intros S. unfold md_from_etree. rewrite (understood_alike (md_att_keys sm) md_names e e'); [reflexivity| |exact S].
  intros k I. apply in_strs_In. unfold md_att_keys in I. destruct (s_spec_1_0 sm);
    cbn [In app] in I; decompose [or] I; try contradiction; subst k; reflexivity.
Qed.
Lemma ln_alike e e' : same_values ln_names e e' -> ln_from_etree e = ln_from_etree e'.
Proof.
  intros S. unfold ln_from_etree. rewrite (understood_alike ln_att_keys ln_names e e'); [reflexivity| |exact S].
  intros k I. apply in_strs_In. unfold ln_att_keys in I. cbn [In] in I. decompose [or] I; try contradiction; subst k; reflexivity.
Qed.
Lemma mapM_alike {A} (f : xml -> res A) (R : xml -> xml -> Prop) l l' :
  (forall x y, R x y -> f x = f y) -> Forall2 R l l' -> mapM f l = mapM f l'.
Proof.
  intros H. induction 1 as [|x y l l' E _ IH]; [reflexivity|]. cbn [mapM]. rewrite (H x y E), IH. reflexivity.
Qed.

Lemma entry_alike sm e e' : alike_entry e e' -> resource_from_etree sm e = resource_from_etree sm e'.
Proof.
  intros (L & T & M & N). unfold resource_from_etree.
  change (findall (sm_name $"loc")) with (kids_named (sitemap_ns $"loc")).
  change (findall (sm_name $"lastmod")) with (kids_named (sitemap_ns $"lastmod")).
  change (findall (rs_name $"md")) with (kids_named (rs_ns $"md")).
  change (findall (rs_name $"ln")) with (kids_named (rs_ns $"ln")).
  destruct L as [|x y l l' E L]; [reflexivity|]. destruct L as [|x2 y2 l l' E2 L]; [|reflexivity].
  rewrite E. destruct (x_text y) as [[|c s]|]; try reflexivity.
  assert (forall r : resource, match kids_named (sitemap_ns $"lastmod") e with
      | [] => Ok r | [lm] => set_lastmod (x_text lm) r | _ => Err SitemapParseError end
    = match kids_named (sitemap_ns $"lastmod") e' with
      | [] => Ok r | [lm] => set_lastmod (x_text lm) r | _ => Err SitemapParseError end) as ->.
  { intros r. destruct T as [|a b t t' Et T]; [reflexivity|]. destruct T; [now rewrite Et|reflexivity]. }
  match goal with |- bind ?x _ = _ => destruct x as [r|]; cbn [bind]; [|reflexivity] end.
  assert (match kids_named (rs_ns $"md") e with
      | [] => Ok r | [m] => let* md := md_from_etree sm m in apply_md md r | _ => Err SitemapParseError end
    = match kids_named (rs_ns $"md") e' with
      | [] => Ok r | [m] => let* md := md_from_etree sm m in apply_md md r | _ => Err SitemapParseError end) as ->.
  { destruct M as [|a b t t' Et M]; [reflexivity|]. destruct M; [now rewrite (md_alike sm a b Et)|reflexivity]. }
  match goal with |- bind ?x _ = _ => destruct x as [r'|]; cbn [bind]; [|reflexivity] end.
  pose proof (mapM_alike ln_from_etree _ _ _ ln_alike N) as E'.
  destruct N as [|a b t t' Et N]; [reflexivity|]. rewrite E'. reflexivity.
Qed.

(** What is not defined is skipped. *)
Lemma kids_skip {C} sm (add : resource -> C -> res C) tag kids : forall pre md d,
  parse_kids sm add tag kids pre md d
  = parse_kids sm add tag (filter (fun k => in_strs (x_tag k) [tag; rs_ns $"md"; rs_ns $"ln"]) kids) pre md d.
Proof.
  assert (D : forall e, in_strs (x_tag e) [tag; rs_ns $"md"; rs_ns $"ln"]
                        = str_eqb (x_tag e) tag || (str_eqb (x_tag e) (rs_ns $"md") || (str_eqb (x_tag e) (rs_ns $"ln") || false)))
    by reflexivity.
  induction kids as [|e kids IH]; intros pre md d; [reflexivity|]. cbn [filter].
  change (rs_ns $"md") with (rs_name $"md") in *. change (rs_ns $"ln") with (rs_name $"ln") in *.
  destruct (in_strs (x_tag e) [tag; rs_name $"md"; rs_name $"ln"]) eqn:I; rewrite D in I.
  - cbn [parse_kids].
    destruct (str_eqb (x_tag e) tag).
    { destruct (resource_from_etree sm e) as [r|]; cbn [bind]; [|reflexivity]. destruct (add r (d_items d)); cbn [bind]; [|reflexivity]. apply IH. }
    destruct (str_eqb (x_tag e) (rs_name $"md")).
    { destruct (negb pre); [reflexivity|]. destruct md; [reflexivity|]. destruct (md_from_etree sm e); cbn [bind]; [|reflexivity]. apply IH. }
    destruct (str_eqb (x_tag e) (rs_name $"ln")).
    { destruct (negb pre); [reflexivity|]. destruct (ln_from_etree e); cbn [bind]; [|reflexivity]. apply IH. }
    apply IH.
  - rewrite !orb_false_iff in I. destruct I as (I1 & I2 & I3 & _). cbn [parse_kids]. rewrite I1, I2, I3. apply IH.
Qed.

Lemma kids_alike {C} sm (add : resource -> C -> res C) tag l l' : Forall2 (alike_kid tag) l l' ->
  forall pre md d, parse_kids sm add tag l pre md d = parse_kids sm add tag l' pre md d.
Proof.
  induction 1 as [|k k' l l' (T & E & M & N) _ IH]; intros pre md d; [reflexivity|]. cbn [parse_kids].
  rewrite <- T. destruct (str_eqb (x_tag k) tag) eqn:B.
  { apply str_eqb_eq in B. rewrite (entry_alike sm k k' (E B)).
    destruct (resource_from_etree sm k') as [r|]; cbn [bind]; [|reflexivity]. destruct (add r (d_items d)); cbn [bind]; [|reflexivity]. apply IH. }
  destruct (str_eqb (x_tag k) (rs_name $"md")) eqn:B2.
  { apply str_eqb_eq in B2. rewrite (md_alike sm k k' (M B2)).
    destruct (negb pre); [reflexivity|]. destruct md; [reflexivity|]. destruct (md_from_etree sm k'); cbn [bind]; [|reflexivity]. apply IH. }
  destruct (str_eqb (x_tag k) (rs_name $"ln")) eqn:B3.
  { apply str_eqb_eq in B3. rewrite (ln_alike k k' (N B3)).
    destruct (negb pre); [reflexivity|]. destruct (ln_from_etree k'); cbn [bind]; [|reflexivity]. apply IH. }
  apply IH.
Qed.

Lemma alike_read {C} sm (add : resource -> C -> res C) cap si d root root' : alike root root' ->
  parse_tree sm add cap si d root = parse_tree sm add cap si d root'.
Proof.
  intros (T & K). unfold parse_tree. rewrite <- T.
  unfold defined, entry_tag in K. rewrite <- T in K.
  change (sitemap_ns $"urlset") with (sm_name $"urlset") in K.
  destruct (str_eqb (x_tag root) (sm_name $"urlset")) eqn:U.
  - destruct si as [[|]|]; try reflexivity;
      (rewrite (kids_skip sm add (sm_name $"url") (x_kids root)), (kids_skip sm add (sm_name $"url") (x_kids root'));
       rewrite (kids_alike sm add (sm_name $"url") _ _ K); reflexivity).
  - destruct (str_eqb (x_tag root) (sm_name $"sitemapindex")); [|reflexivity].
    destruct si as [[|]|]; try reflexivity;
      (rewrite (kids_skip sm add (sm_name $"sitemap") (x_kids root)), (kids_skip sm add (sm_name $"sitemap") (x_kids root'));
       rewrite (kids_alike sm add (sm_name $"sitemap") _ _ K); reflexivity).
Qed.

(** * SitemapExamples: concrete resources, lists and documents *)

From Verif Require Import Py Float64 W3C W3CSpec Resource ResourceSpec Container ContainerSpec
  Xml Sitemap SitemapSpec.

Definition some_link : link :=
  [($"rel", PStr $"describes"); ($"href", PStr $"http://ex.org/<&>"); ($"pri", PInt 3)].
Definition some_resource : resource :=
  set_ln (Some [some_link]) (set_mime_type (Some $"text/plain") (set_length (Some 42)
    (store_change (Some $"updated") (set_md5 (Some $"abc123")
      (set_timestamp (Some (1325376000 * SEC)) (new_resource $"http://ex.org/a?b&c")))))).
Definition other_resource : resource := store_change (Some $"deleted") (new_resource $"http://ex.org/b").
Definition some_md : link := [($"md_at", PStr $"2013-01-01T09:00:00Z")].
Definition some_rl : doc rdict :=
  MkDoc some_md [some_link]
    [(r_uri other_resource, other_resource); (r_uri some_resource, some_resource)].
Definition some_cl : doc (list resource) := MkDoc some_md [] [some_resource; other_resource; some_resource].
Definition plain : settings := MkSettings false false false.

(** A resource with all four times of a list. *)
Definition at_resource : resource :=
  set_ts_at (Some (1325376000 * SEC)) (new_resource $"http://ex.org/a").
(** A resource with a link to its contents as made by Resource.contents. *)
Definition typed_link : link :=
  [($"rel", PStr $"contents"); ($"href", PStr $"http://ex.org/m"); ($"type", PStr $"application/xml")].

Ltac nodup := repeat constructor; cbn; intuition discriminate.

Lemma some_link_good : good_link some_link /\ legal_atts link_keys some_link.
Proof.
  assert (L : forall s, forallb (fun c => N.leb 32 (code c)) s = true -> legal s).
  { intros s F c I. left. rewrite forallb_forall in F. now apply N.leb_le, F. }
  split; [|split].
  - split; [nodup|]. split; [cbn; intuition discriminate|]. split; [|split; [|split]].
    + intros k v I. cbn in I. decompose [or] I; try contradiction;
        match goal with H : (_, _) = (_, _) |- _ => injection H as <- <- end;
      match goal with |- if ?b then _ else _ => let v := eval vm_compute in b in change b with v end; cbv iota; eauto.
    + eexists; reflexivity.
    + eexists; reflexivity.
    + intros n [= <-]. lia.
  - intros k I. cbn in I. decompose [or] I; try contradiction; subst; cbn; auto 10.
  - intros k s I. cbn in I. decompose [or] I; try contradiction;
      match goal with H : (_, _) = (_, _) |- _ => first [discriminate H | injection H as <- <-] end;
      apply L; reflexivity.
Qed.

Lemma plain_none : plain_time None.
Proof. intros t [=]. Qed.
Lemma plain_whole n : in_years n -> plain_time (Some (n * SEC)).
Proof. intros I t [= <-]. left. eauto. Qed.

Lemma some_resource_good : good_resource some_resource /\ legal_resource some_resource.
Proof.
  assert (L : forall s, forallb (fun c => N.leb 32 (code c)) s = true -> legal s).
  { intros s F c I. left. rewrite forallb_forall in F. now apply N.leb_le, F. }
  destruct some_link_good as [G1 G2]. split.
  - split; [discriminate|]. split; [|split; [|split]].
    + split; [apply plain_whole; unfold in_years; lia|]. repeat (split; [apply plain_none|]). apply plain_none.
    + split; [|split]; try (intros v c [=]; fail).
      intros v c [= <-]. revert c. apply Forall_forall. repeat constructor.
    + right; right; left. reflexivity.
    + constructor; [exact G1|constructor].
  - split; [|split; [|split]].
    + split; [apply L; reflexivity|]. intros I. assert (X : forallb (fun c => negb (Ascii.eqb c cr)) (r_uri some_resource) = true) by reflexivity.
      rewrite forallb_forall in X. now specialize (X cr I).
    + split; [|split]; intros s [=]. subst s. apply L; reflexivity.
    + split; [|split]; intros s [=]. subst s. apply L; reflexivity.
    + constructor; [exact G2|constructor].
Qed.

Lemma other_resource_good : good_resource other_resource /\ legal_resource other_resource.
Proof.
  split.
  - split; [discriminate|]. split; [repeat (split; [apply plain_none|]); apply plain_none|].
    split; [split; [|split]; intros v c [=]|]. split; [right; right; right; reflexivity|constructor].
  - split; [|split; [|split]]; [|split; [|split]; intros s [=]|split; [|split]; intros s [=]|constructor].
    split.
    + intros c I. left. assert (F : forallb (fun c => N.leb 32 (code c)) (r_uri other_resource) = true) by reflexivity.
      rewrite forallb_forall in F. now apply N.leb_le, F.
    + intros I. assert (X : forallb (fun c => negb (Ascii.eqb c cr)) (r_uri other_resource) = true) by reflexivity.
      rewrite forallb_forall in X. now specialize (X cr I).
Qed.

Lemma some_md_good : good_md some_md /\ legal_atts (md_keys false) some_md.
Proof.
  split; [split; [nodup|split; [|split]]|split].
  - intros k I J. cbn in I, J. intuition (subst; discriminate).
  - intros k v [[= <- <-]|[]]. eexists. left. reflexivity.
  - intros c [=].
  - intros k [<-|[]]. cbn; auto 10.
  - intros k s [[= <- <-]|[]]. intros c I. left.
    assert (F : forallb (fun c => N.leb 32 (code c)) $"2013-01-01T09:00:00Z" = true) by reflexivity.
    rewrite forallb_forall in F. now apply N.leb_le, F.
Qed.

Lemma some_rl_good : wf_rl (d_items some_rl) /\ good_list rl_iter $"resourcelist" some_rl
  /\ good_list rlo_iter $"resourcelist" some_rl.
Proof.
  destruct some_link_good, some_resource_good, other_resource_good, some_md_good.
  split; [split; [nodup|]|split].
  - intros u r I. cbn in I. decompose [or] I; try contradiction;
      match goal with H : (_, _) = (_, _) |- _ => injection H as <- <- end; reflexivity.
  - split; [|now left]. replace (in_order rl_iter some_rl) with (MkDoc some_md [some_link] [some_resource; other_resource]) by reflexivity.
    split; [auto|]. split; [split; repeat (apply Forall_cons; auto)|].
    split; repeat (apply Forall_cons; auto).
  - split; [|now left]. split; [auto|]. split; [split; repeat (apply Forall_cons; auto)|].
    split; repeat (apply Forall_cons; auto).
Qed.

Lemma some_cl_good : Forall (fun r => r_change r <> None) (d_items some_cl)
  /\ good_list (fun l => l) $"changelist" some_cl.
Proof.
  destruct some_link_good, some_resource_good, other_resource_good, some_md_good. split.
  - repeat constructor; discriminate.
  - split; [|now left]. split; [auto|]. split; [split; constructor|].
    split; repeat (apply Forall_cons; auto).
Qed.

(** Trees to read. *)
Definition leaf (tag : str) (text : str) : xml := El tag [] (Some text) [] None.
Definition url (kids : list xml) : xml := El (sitemap_ns $"url") [] None kids None.
Definition urlset (kids : list xml) : xml := El (sitemap_ns $"urlset") [] None kids None.
Definition loc (u : str) : xml := leaf (sitemap_ns $"loc") u.
Definition lastmod (t : str) : xml := leaf (sitemap_ns $"lastmod") t.
Definition md (atts : list (str * str)) : xml := El (rs_ns $"md") atts None [] None.
Definition ln (atts : list (str * str)) : xml := El (rs_ns $"ln") atts None [] None.
Definition good_tree : xml :=
  urlset [md [($"capability", $"changelist")]; ln [($"href", $"u"); ($"rel", $"up")];
          url [loc $"u"; lastmod $"2012-01-01"; md [($"change", $"created"); ($"length", $"12")];
               ln [($"href", $"v"); ($"rel", $"up"); ($"pri", $"999999")]]].
(** The same with something wrong in it. *)
Definition bad_trees : list xml :=
  [ El $"urlset" [] None [] None;
    El (sitemap_ns $"sitemapindex") [] None [md [($"capability", $"changelist")]] None;
    urlset [];
    urlset [md [($"capability", $"resourcelist")]];
    urlset [md [($"capability", $"changelist")]; md []];
    urlset [md [($"capability", $"changelist")]; url [loc $"u"]; ln [($"href", $"u"); ($"rel", $"up")]];
    urlset [md [($"capability", $"changelist")]; url []];
    urlset [md [($"capability", $"changelist")]; url [loc $"u"; loc $"u"]];
    urlset [md [($"capability", $"changelist")]; url [loc $""]];
    urlset [md [($"capability", $"changelist")]; url [loc $"u"; lastmod $"2012"; lastmod $"2012"]];
    urlset [md [($"capability", $"changelist")]; url [loc $"u"; md []; md []]];
    urlset [md [($"capability", $"changelist")]; url [loc $"u"; md [($"change", $"moved")]]];
    urlset [md [($"capability", $"changelist")]; url [loc $"u"; md [($"length", $"1.5")]]];
    urlset [md [($"capability", $"changelist")]; url [loc $"u"; ln [($"rel", $"up")]]];
    urlset [md [($"capability", $"changelist")]; url [loc $"u"; ln [($"href", $"u")]]];
    urlset [md [($"capability", $"changelist")]; url [loc $"u"; ln [($"href", $"u"); ($"rel", $"up"); ($"pri", $"0")]]];
    urlset [md [($"capability", $"changelist")]; url [loc $"u"; ln [($"href", $"u"); ($"rel", $"up"); ($"pri", $"1000000")]]] ].

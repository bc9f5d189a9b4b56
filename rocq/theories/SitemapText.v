(** * SitemapText: reading back whole documents *)

From Coq Require Import Permutation Sorting.Sorted.
From Verif Require Import Py PyFacts Float64 W3C W3CSpec W3CRound Resource ResourceSpec ResourceFacts
  Container ContainerSpec ContainerFacts Xml XmlFacts Sitemap SitemapSpec SitemapFacts.

(** ** Elements as they are written *)

Definition tag_names : list str := [$"loc"; $"lastmod"; $"url"; $"sitemap"; $"rs:md"; $"rs:ln"].
Definition att_names : list str :=
  [$"capability"; $"change"; $"hash"; $"length"; $"path"; $"type"; $"at"; $"completed"; $"from"; $"until";
   $"datetime"; $"href"; $"modified"; $"rel"; $"pri"].

Definition fine_att (a : str * str) : Prop := In (fst a) att_names /\ good_val (snd a) = true.

Fixpoint fine (e : xml) : Prop :=
  let '(El tag atts text kids tail) := e in
  In tag tag_names /\ NoDup (map fst atts) /\ Forall fine_att atts
  /\ good_text (opt_text text) = true /\ good_text (opt_text tail) = true
  /\ (fix all (l : list xml) : Prop := match l with [] => True | k :: l' => fine k /\ all l' end) kids.

Lemma fine_kids l : (fix all (l : list xml) : Prop := match l with [] => True | k :: l' => fine k /\ all l' end) l
  <-> Forall fine l.
Proof.
  induction l as [|k l IH]; [split; auto|]. split.
  - intros [A B]. constructor; [exact A|now apply IH].
  - intros H. inversion H; subst. split; [assumption|now apply IH].
Qed.

Lemma att_names_ok n : In n att_names ->
  good_name n = true /\ split_qname n = Ok (None, n) /\ str_eqb n $"xmlns" = false.
Proof. intros I. cbn [att_names In] in I. decompose [or] I; subst; try contradiction; repeat split; reflexivity. Qed.

Lemma tag_names_ok n : In n tag_names -> good_name n = true.
Proof. intros I. cbn [tag_names In] in I. decompose [or] I; subst; try contradiction; reflexivity. Qed.

Lemma fine_atts_good atts : Forall fine_att atts -> forallb (fun a => good_name (fst a) && good_val (snd a)) atts = true.
Proof.
  intros F. apply forallb_forall. intros a I. rewrite Forall_forall in F. destruct (F a I) as [A B].
  rewrite B. destruct (att_names_ok _ A) as (-> & _). reflexivity.
Qed.

Lemma fine_writable e : fine e -> writable e = true.
Proof.
  induction e as [tag atts text kids tail IH] using xml_ind'.
  cbn [fine writable]. rewrite fine_kids. intros (T & N & A & X & Y & K).
  rewrite tag_names_ok, fine_atts_good, X, Y by assumption. cbn [andb]. rewrite andb_true_r.
  apply forallb_forall. intros k I. rewrite Forall_forall in *. auto.
Qed.

Lemma distinct_NoDup l : NoDup l -> distinct l = true.
Proof.
  induction 1 as [|x l N _ IH]; [reflexivity|]. cbn [distinct]. rewrite IH, andb_true_r.
  apply negb_true_iff, in_strs_false, N.
Qed.

Definition doc_scope : scope := [([], SITEMAP_NS); ($"rs", RS_NS)].

Lemma declare_fine atts sc : Forall fine_att atts -> declare atts sc = Ok sc.
Proof.
  induction 1 as [|[n v] atts [A _] _ IH]; [reflexivity|]. cbn [declare]. cbn [fst] in A.
  destruct (att_names_ok n A) as (_ & -> & X). cbn [bind]. now rewrite X.
Qed.

Lemma resolve_atts_fine sc atts : Forall fine_att atts -> resolve_atts sc atts = Ok atts.
Proof.
  induction 1 as [|[n v] atts [A _] _ IH]; [reflexivity|]. cbn [resolve_atts]. cbn [fst] in A.
  destruct (att_names_ok n A) as (_ & -> & X). cbn [bind]. rewrite IH. cbn [bind]. now rewrite X.
Qed.

Definition ns_tag (tag : str) : str := if startswith $"rs:" tag then rs_ns (skipn 3 tag) else sitemap_ns tag.

Lemma resolve_tag_fine tag : In tag tag_names -> resolve_tag doc_scope tag = Ok (ns_tag tag).
Proof. intros I. cbn [tag_names In] in I. decompose [or] I; subst; try contradiction; reflexivity. Qed.

Lemma open_tag_fine tag atts : In tag tag_names -> NoDup (map fst atts) -> Forall fine_att atts ->
  open_tag doc_scope tag atts = Ok (doc_scope, ns_tag tag, atts).
Proof.
  intros T N A. unfold open_tag. rewrite distinct_NoDup by exact N. cbn [negb].
  rewrite declare_fine by exact A. cbn [bind]. rewrite resolve_tag_fine by exact T. cbn [bind].
  rewrite resolve_atts_fine by exact A. cbn [bind]. now rewrite distinct_NoDup.
Qed.

Lemma norm_opt_eq t : norm_opt t = match t with Some [] => None | _ => t end.
Proof. destruct t as [[|]|]; reflexivity. Qed.

Lemma map_res_all {A B} (f : A -> res B) g l : (forall x, In x l -> f x = Ok (g x)) -> map_res f l = Ok (map g l).
Proof.
  induction l as [|x l IH]; intros H; [reflexivity|]. cbn [map_res map].
  rewrite (H x (or_introl eq_refl)). cbn [bind]. rewrite IH by (intros; apply H; now right). reflexivity.
Qed.

Lemma resolve_fine e : fine e -> resolve doc_scope e = Ok (with_namespaces e).
Proof.
  induction e as [tag atts text kids tail IH] using xml_ind'.
  cbn [fine resolve with_namespaces]. rewrite fine_kids. intros (T & N & A & _ & _ & K).
  rewrite open_tag_fine by assumption. cbn [bind].
  rewrite (map_res_all _ with_namespaces). 2: { intros x I. rewrite Forall_forall in *. auto. }
  cbn [bind]. rewrite !norm_opt_eq. reflexivity.
Qed.

(** A whole document. *)
Lemma document_round tag text kids : In tag [$"urlset"; $"sitemapindex"] ->
  good_text (opt_text text) = true -> Forall fine kids ->
  parse_text (write_xml (El tag [($"xmlns", SITEMAP_NS); ($"xmlns:rs", RS_NS)] text kids None))
  = Ok (El (sm_name tag) [] (norm_opt text) (map with_namespaces kids) None).
Proof.
  intros T X K. apply parse_write.
  - cbn [writable]. rewrite X.
    assert (forallb writable kids = true) as ->.
    { apply forallb_forall. intros k I. rewrite Forall_forall in K. apply fine_writable; auto. }
    cbn [In] in T. decompose [or] T; subst; try contradiction; reflexivity.
  - reflexivity.
  - cbn [resolve].
    assert (open_tag [] tag [($"xmlns", SITEMAP_NS); ($"xmlns:rs", RS_NS)] = Ok (doc_scope, sm_name tag, [])) as ->.
    { cbn [In] in T. decompose [or] T; subst; try contradiction; reflexivity. }
    cbn [bind]. rewrite (map_res_all _ with_namespaces). 2: { intros x I. rewrite Forall_forall in K. apply resolve_fine; auto. }
    reflexivity.
Qed.

(** ** What is written is fine *)

Lemma legal_val s : legal s -> good_val s = true.
Proof.
  intros L. apply forallb_forall. intros c I. unfold xml_char. destruct (L c I) as [H|[-> |[-> | ->]]]; try reflexivity.
  apply N.leb_le in H. now rewrite H.
Qed.
Lemma legal_text s : legal s -> ~ In cr s -> good_text s = true.
Proof.
  intros L N. apply forallb_forall. intros c I. apply andb_true_iff. split.
  - pose proof (legal_val s L) as V. unfold good_val in V. rewrite forallb_forall in V. auto.
  - apply negb_true_iff, ceqb_neq. intros ->. contradiction.
Qed.

Lemma legal_app a b : legal a -> legal b -> legal (a ++ b).
Proof. intros A B c I. apply in_app_iff in I as [I|I]; auto. Qed.
Lemma legal_lit s : forallb (fun c => (32 <=? code c)%N) (lit s) = true -> legal (lit s).
Proof. intros F c I. rewrite forallb_forall in F. left. now apply N.leb_le, F. Qed.
Lemma legal_digits s : forallb is_digit s = true -> legal s.
Proof. intros F c I. rewrite forallb_forall in F. specialize (F c I). apply is_digit_range in F. left. lia. Qed.

Lemma legal_print_int n : legal (print_int n).
Proof.
  unfold print_int. destruct (n <? 0).
  - intros c [<-|I]; [left; vm_compute; discriminate|]. revert c I. apply legal_digits, print_nat_digits.
  - apply legal_digits, print_nat_digits.
Qed.

Lemma printable_text s : (forall c, In c s -> (32 <= code c)%N) -> legal s /\ ~ In cr s.
Proof.
  intros H. split; [intros c I; left; auto|]. intros I. specialize (H cr I). vm_compute in H. contradiction.
Qed.

Lemma digits_printable n s : digits n s -> forall c, In c s -> (32 <= code c)%N.
Proof. intros [_ F] c I. rewrite forallb_forall in F. specialize (F c I). apply is_digit_range in F. lia. Qed.
Lemma some_digits_printable s : some_digits s -> forall c, In c s -> (32 <= code c)%N.
Proof. intros [_ F] c I. rewrite forallb_forall in F. specialize (F c I). apply is_digit_range in F. lia. Qed.

Lemma lit_printable s : forallb (fun c => (32 <=? code c)%N) (lit s) = true -> forall c, In c (lit s) -> (32 <= code c)%N.
Proof. intros F c I. rewrite forallb_forall in F. now apply N.leb_le, F. Qed.

Lemma app_printable a b : (forall c, In c a -> (32 <= code c)%N) -> (forall c, In c b -> (32 <= code c)%N) ->
  forall c, In c (a ++ b) -> (32 <= code c)%N.
Proof. intros A B c I. apply in_app_iff in I as [I|I]; auto. Qed.

Lemma full_datetime_printable s : full_datetime s -> forall c, In c s -> (32 <= code c)%N.
Proof.
  intros (y & mo & d & h & mi & sec & z & -> & (D1 & D2 & D3) & (D4 & D5 & D6) & Z & _).
  unfold full_str, date_str, time_str.
  destruct sec as [[x [f|]]|]; [destruct D6 as [D6 D7]| |];
  destruct z as [|hh mm|hh mm]; cbn [zone_str zone_digits] in *; try match goal with H : digits _ _ /\ digits _ _ |- _ => destruct H end;
  repeat first [apply app_printable | eapply digits_printable; eassumption | eapply some_digits_printable; eassumption
               | apply lit_printable; reflexivity | apply digits_printable with (n := 2%nat); assumption | intros ? []].
Qed.

Lemma get_dt_legal o s : plain_time o -> get_dt o = Ok (Some s) -> legal s /\ ~ In cr s.
Proof.
  intros P E. destruct (plain_time_round o P) as (x & G & _ & _ & F). rewrite G in E. injection E as ->.
  apply printable_text. apply full_datetime_printable. auto.
Qed.

Lemma legal_join ws : Forall legal ws -> legal (join $" " ws).
Proof.
  induction 1 as [|w ws L _ IH]; [intros c []|].
  destruct ws as [|w2 ws]; [exact L|]. 
  change (join $" " (w :: w2 :: ws)) with (w ++ $" " ++ join $" " (w2 :: ws)).
  apply legal_app; [exact L|]. apply legal_app; [now apply legal_lit|exact IH].
Qed.

Lemma get_hash_legal r s : legal_opt (r_md5 r) -> legal_opt (r_sha1 r) -> legal_opt (r_sha256 r) ->
  get_hash r = Some s -> legal s.
Proof.
  intros A B C E. unfold get_hash in E.
  assert (F : Forall legal (prefixed $"md5:" (r_md5 r) ++ prefixed $"sha-1:" (r_sha1 r) ++ prefixed $"sha-256:" (r_sha256 r))).
  { rewrite !Forall_app. unfold prefixed. split; [|split].
    - destruct (r_md5 r); constructor; auto. apply legal_app; [now apply legal_lit|]. now apply A.
    - destruct (r_sha1 r); constructor; auto. apply legal_app; [now apply legal_lit|]. now apply B.
    - destruct (r_sha256 r); constructor; auto. apply legal_app; [now apply legal_lit|]. now apply C. }
  destruct (_ ++ _) as [|w ws]; [discriminate|]. injection E as <-. now apply (legal_join (w :: ws)).
Qed.

Lemma md_att_legal r k s : good_resource r -> legal_resource r -> md_att r k = Ok (Some s) -> legal s.
Proof.
  intros (U & (T1 & T2 & T3 & T4 & T5 & T6) & _ & V & _) (_ & (L1 & L2 & L3) & (H1 & H2 & H3) & _) E.
  unfold md_att in E.
  destruct (str_eqb k $"md_at"). { now apply get_dt_legal in E. }
  destruct (str_eqb k $"capability"). { injection E as E. now apply L3. }
  destruct (str_eqb k $"change").
  { injection E as E. rewrite E in V. destruct V as [V|[V|[V|V]]]; [discriminate| | |]; injection V as ->;
      now apply legal_lit. }
  destruct (str_eqb k $"datetime"). { now apply get_dt_legal in E. }
  destruct (str_eqb k $"md_completed"). { now apply get_dt_legal in E. }
  destruct (str_eqb k $"md_from"). { now apply get_dt_legal in E. }
  destruct (str_eqb k $"hash"). { injection E as E. now apply (get_hash_legal r). }
  destruct (str_eqb k $"length").
  { destruct (r_length r); [|discriminate]. injection E as <-. apply legal_print_int. }
  destruct (str_eqb k $"path"). { injection E as E. now apply L2. }
  destruct (str_eqb k $"mime_type"). { injection E as E. now apply L1. }
  destruct (str_eqb k $"md_until"). { now apply get_dt_legal in E. }
  discriminate.
Qed.

Lemma md_atts_in r keys : forall l k v, md_atts r keys = Ok l -> In (k, v) l ->
  In k keys /\ exists s, v = PStr s /\ md_att r k = Ok (Some s).
Proof.
  induction keys as [|k0 keys IH]; intros l k v E I; cbn [md_atts] in E.
  - injection E as <-. destruct I.
  - destruct (md_att r k0) as [o|] eqn:M; [|discriminate]. cbn [bind] in E.
    destruct (md_atts r keys) as [l0|]; [|discriminate]. cbn [bind] in E. injection E as <-.
    assert (D : In (k, v) l0 -> In k (k0 :: keys) /\ exists s, v = PStr s /\ md_att r k = Ok (Some s)).
    { intros J. destruct (IH l0 k v eq_refl J). split; [now right|assumption]. }
    destruct o as [s|]; [|auto]. destruct I as [I|I]; [|auto].
    injection I as <- <-. split; [now left|]. eauto.
Qed.

Lemma xml_atts_in a l : In a (xml_atts l) ->
  exists k v, In (k, v) l /\ fst a = xml_att_name k /\ pv_text v = Some (snd a).
Proof.
  unfold xml_atts. intros I.
  assert (G : forall d, In a (fold_left (fun d kv => match pv_text (snd kv) with
                         | Some s => sset (xml_att_name (fst kv)) s d | None => d end) l d) ->
            In a d \/ exists k v, In (k, v) l /\ fst a = xml_att_name k /\ pv_text v = Some (snd a)).
  { clear I. induction l as [|[k v] l IH]; intros d I; [now left|].
    cbn [fold_left fst snd] in I. destruct (IH _ I) as [J|(k' & v' & J & E)].
    - destruct (pv_text v) as [s|] eqn:P; [|now left].
      destruct a as [n x]. apply in_sset in J. destruct J as [J|J].
      + destruct J as [-> ->]. right. exists k, v. cbn. auto.
      + now left.
    - right. exists k', v'. split; [now right|exact E]. }
  destruct (G [] I) as [[]|H]. exact H.
Qed.

Lemma fine_element name l tail : In name tag_names ->
  (forall k, In k (map fst l) -> In (xml_att_name k) att_names) ->
  (forall k s, In (k, PStr s) l -> legal s) -> good_text (opt_text tail) = true ->
  Forall fine (element_with_atts name l tail).
Proof.
  intros T K S X. destruct (element_with_atts_cases name l tail) as [[-> _]|[-> _]]; constructor; [|constructor].
  cbn [fine]. split; [exact T|]. split; [|split; [|auto]].
  - eapply Permutation_NoDup; [apply sort_items_keys|]. apply xml_atts_NoDup.
  - apply Forall_forall. intros a I. rewrite sort_items_In in I. apply xml_atts_in in I as (k & v & I & E & P).
    split.
    + rewrite E. apply K. now apply (in_map fst) in I.
    + destruct v as [s|n|]; cbn in P; [| |discriminate]; injection P as <-.
      * apply legal_val. eapply S, I.
      * apply legal_val, legal_print_int.
Qed.

Lemma link_keys_att k : In k link_keys -> In (xml_att_name k) att_names.
Proof.
  intros I. apply in_strs_In.
  assert (F : forallb (fun k => in_strs (xml_att_name k) att_names) link_keys = true) by reflexivity.
  rewrite forallb_forall in F. auto.
Qed.
Lemma md_keys_att b k : In k (md_keys b) -> In (xml_att_name k) att_names.
Proof.
  intros I. apply in_strs_In.
  assert (F : forallb (fun k => in_strs (xml_att_name k) att_names) (md_keys b) = true) by (destruct b; reflexivity).
  rewrite forallb_forall in F. auto.
Qed.

Lemma newline_good sm : good_text (opt_text (newline sm)) = true.
Proof. unfold newline. destruct (s_pretty sm); reflexivity. Qed.

Lemma fine_links tl ls : good_text (opt_text tl) = true -> Forall (legal_atts link_keys) ls -> Forall fine (ln_elements tl ls).
Proof.
  intros X. induction 1 as [|l ls [K S] _ IH]; [constructor|].
  cbn [ln_elements flat_map]. apply Forall_app. split; [|exact IH].
  apply fine_element; auto; [cbn; auto 10|]. intros k I. apply link_keys_att; auto.
Qed.

Lemma fine_text tag t : In tag tag_names -> good_text t = true -> fine (El tag [] (Some t) [] None).
Proof. intros T G. cbn [fine]. repeat split; auto; constructor. Qed.

Lemma fine_node tag atts text kids tail :
  In tag tag_names /\ NoDup (map fst atts) /\ Forall fine_att atts
  /\ good_text (opt_text text) = true /\ good_text (opt_text tail) = true /\ Forall fine kids ->
  fine (El tag atts text kids tail).
Proof. intros (A & B & C & D & E & F). cbn [fine]. rewrite fine_kids. auto 10. Qed.

Lemma fine_resource sm r name e : good_resource r -> legal_resource r -> In name tag_names ->
  resource_etree_element sm r name = Ok e -> fine e.
Proof.
  intros G L T E. unfold resource_etree_element in E.
  pose proof G as (U & (T1 & T2 & _) & _). pose proof L as ((LU & CU) & _ & _ & LL).
  destruct (get_dt (r_timestamp r)) as [lm0|] eqn:E1; [|discriminate]. cbn [bind] in E.
  set (q := match lm0 with Some _ => Ok lm0 | None => _ end) in E.
  assert (Q : forall s, q = Ok (Some s) -> good_text s = true).
  { unfold q. intros s H. destruct lm0.
    - injection H as ->. destruct (get_dt_legal _ _ T1 E1). now apply legal_text.
    - destruct (_ || _); [|discriminate]. destruct (get_dt_legal _ _ T2 H). now apply legal_text. }
  destruct q as [lm|]; [|discriminate]. cbn [bind] in E.
  destruct (md_atts r (md_att_keys sm)) as [md|] eqn:E2; [|discriminate]. cbn [bind] in E.
  injection E as <-. apply fine_node. 
  split; [exact T|]. split; [constructor|]. split; [constructor|]. split; [reflexivity|].
  split; [apply newline_good|].
  apply Forall_cons. { apply fine_text; [cbn; auto|]. now apply legal_text. }
  cbn [app]. rewrite !Forall_app. split; [|split].
  - destruct lm as [s|]; constructor; [|constructor]. apply fine_text; [cbn; auto|]. now apply Q.
  - apply fine_element; [cbn; auto 10| | |reflexivity].
    + intros k I. apply in_map_iff in I as ([k' v] & <- & I). apply (md_atts_in _ _ _ _ _ E2) in I as [I _].
      cbn [fst]. apply (md_keys_att (s_spec_1_0 sm)). apply in_strs_In. rewrite <- md_keys_mem. now apply in_strs_In.
    + intros k s I. apply (md_atts_in _ _ _ _ _ E2) in I as (_ & s' & Q1 & Q2).
      injection Q1 as <-. now apply (md_att_legal r k).
  - apply fine_links; [apply newline_good|exact LL].
Qed.

(** ** Whole documents *)

(** The resources are added one after the other. *)
Fixpoint add_seq {C} (add : resource -> C -> res C) (rs : list resource) (c : C) : res C :=
  match rs with
  | [] => Ok c
  | r :: rs' => let* c' := add r c in add_seq add rs' c'
  end.

Lemma parse_kids_links sm tag tl ls : Forall good_link ls ->
  (tag = sm_name $"url" \/ tag = sm_name $"sitemap") ->
  exists ln', Forall2 (same_atts link_keys) ls ln' /\ forall C (add : resource -> C -> res C) rest d,
    parse_kids sm add tag (map with_namespaces (ln_elements tl ls) ++ rest) true false d
    = parse_kids sm add tag rest true false (MkDoc (d_md d) (d_ln d ++ ln') (d_items d)).
Proof.
  intros G T. rewrite ln_elements_good by exact G.
  induction G as [|l ls G _ (ln' & F & IH)].
  - exists []. split; [constructor|]. intros C add rest [md ln it]. cbn. now rewrite app_nil_r.
  - destruct (link_round l (with_namespaces (El $"rs:ln" (sort_items (xml_atts l)) None [] tl)) G eq_refl)
      as (l' & E & S).
    exists (l' :: ln'). split; [now constructor|]. intros C add rest d.
    cbn [map app parse_kids].
    change (x_tag (with_namespaces (El $"rs:ln" (sort_items (xml_atts l)) None [] tl))) with (rs_name $"ln").
    replace (str_eqb (rs_name $"ln") tag) with false by (destruct T as [-> | ->]; reflexivity).
    change (str_eqb (rs_name $"ln") (rs_name $"md")) with false.
    rewrite str_eqb_refl. cbn [negb]. rewrite E. cbn [bind]. rewrite IH. cbn [d_md d_ln d_items].
    now rewrite <- app_assoc.
Qed.

Lemma parse_kids_md sm tag tl md : good_md md ->
  (tag = sm_name $"url" \/ tag = sm_name $"sitemap") ->
  exists md' seen, same_atts (md_keys (s_spec_1_0 sm)) md md' /\ forall C (add : resource -> C -> res C) rest d, d_md d = [] ->
    parse_kids sm add tag (map with_namespaces (element_with_atts $"rs:md" md tl) ++ rest) true false d
    = parse_kids sm add tag rest true seen (MkDoc md' (d_ln d) (d_items d)).
Proof.
  intros G T.
  destruct (md_round sm md (El (rs_name $"md") (sort_items (xml_atts md)) None [] tl) G eq_refl) as (md' & E & S).
  destruct (element_with_atts_cases $"rs:md" md tl) as [[-> Z]|[-> Z]].
  - exists [], false. split.
    + intros k. split; [|reflexivity]. intros I. destruct G as (N & O & Ty & _).
      assert (W : sget (xml_att_name k) (xml_atts md) = text_of k md).
      { apply sget_xml_atts; auto. apply md_inj; auto. now apply (md_keys_not_odd (s_spec_1_0 sm)). }
      rewrite Z in W. cbn in W. cbn [dget].
      unfold text_of in W. destruct (sget k md) as [[| |]|]; cbn in W |- *; congruence.
    + intros C add rest [m ln it] H. cbn in H. subst m. reflexivity.
  - exists md', true. split; [exact S|]. intros C add rest d _. cbn [map app parse_kids].
    change (with_namespaces (El $"rs:md" (sort_items (xml_atts md)) None [] tl))
      with (El (rs_name $"md") (sort_items (xml_atts md)) None [] (match tl with Some [] => None | _ => tl end)).
    cbn [x_tag].
    replace (str_eqb (rs_name $"md") tag) with false by (destruct T as [-> | ->]; reflexivity).
    rewrite str_eqb_refl. cbn [negb].
    replace (md_from_etree sm (El (rs_name $"md") (sort_items (xml_atts md)) None [] (match tl with Some [] => None | _ => tl end)))
      with (md_from_etree sm (El (rs_name $"md") (sort_items (xml_atts md)) None [] tl)).
    2: { unfold md_from_etree. assert (U : forall ks t1 t2 a, understood ks (El (rs_name $"md") a None [] t1) = understood ks (El (rs_name $"md") a None [] t2)).
         { induction ks as [|k ks IHk]; intros; [reflexivity|]. cbn [understood x_atts]. now rewrite (IHk t1 t2 a). }
         now rewrite (U _ (match tl with Some [] => None | _ => tl end) tl). }
    rewrite E. reflexivity.
Qed.

Lemma parse_kids_items sm name rs :
  (name = $"url" \/ name = $"sitemap") -> Forall good_resource rs ->
  exists es rs', mapM (fun r => resource_etree_element sm r name) rs = Ok es
    /\ Forall2 (read_back sm) rs rs'
    /\ forall C (add : resource -> C -> res C) b s d, parse_kids sm add (sm_name name) (map with_namespaces es) b s d
       = let* items := add_seq add rs' (d_items d) in Ok (MkDoc (d_md d) (d_ln d) items).
Proof.
  intros T. induction 1 as [|r rs G _ (es & rs' & E & F & P)].
  - exists [], []. split; [reflexivity|]. split; [constructor|]. intros C add b s [md ln it]. reflexivity.
  - destruct (resource_round sm r name G) as (e & r' & E1 & E2 & E3).
    exists (e :: es), (r' :: rs'). split; [cbn [mapM]; rewrite E1; cbn [bind]; rewrite E; reflexivity|].
    split; [now constructor|]. intros C add b s d. cbn [map parse_kids].
    replace (x_tag (with_namespaces e)) with (sm_name name).
    2: { unfold resource_etree_element in E1.
         destruct (get_dt (r_timestamp r)); [|discriminate]. cbn [bind] in E1.
         match type of E1 with bind ?x _ = _ => destruct x; [|discriminate] end. cbn [bind] in E1.
         destruct (md_atts r (md_att_keys sm)); [|discriminate]. cbn [bind] in E1. injection E1 as <-.
         destruct T as [-> | ->]; reflexivity. }
    rewrite str_eqb_refl, E2. cbn [bind add_seq].
    destruct (add r' (d_items d)) as [c|x]; cbn [bind]; [|reflexivity].
    exact (P C add false s (MkDoc (d_md d) (d_ln d) c)).
Qed.

Lemma document_text sm index d : good_doc d ->
  exists text md' ln' rs', resources_as_xml sm index d = Ok text
    /\ doc_read_back sm d (MkDoc md' ln' rs')
    /\ (forall C (add : resource -> C -> res C) cap si c, (si = None \/ si = Some index) ->
       parse_xml sm add cap si (MkDoc [] [] c) text
       = let* items := add_seq add rs' c in
         let* d' := check_capability cap (MkDoc md' ln' items) in Ok (d', index))
    /\ exists es t, mapM (fun r => resource_etree_element sm r (if index then $"sitemap" else $"url")) (d_items d) = Ok es
       /\ parse_text text = Ok (El (sm_name (if index then $"sitemapindex" else $"urlset")) [] t
            (map with_namespaces (ln_elements (newline sm) (d_ln d) ++ element_with_atts $"rs:md" (d_md d) (newline sm) ++ es)) None).
Proof.
  intros ((GM & KM & LM) & (GL & LL) & GR & LR).
  set (name := if index then $"sitemap" else $"url").
  set (root := if index then $"sitemapindex" else $"urlset").
  assert (T : name = $"url" \/ name = $"sitemap") by (unfold name; destruct index; auto).
  assert (T' : sm_name name = sm_name $"url" \/ sm_name name = sm_name $"sitemap")
    by (destruct T as [-> | ->]; auto).
  destruct (parse_kids_links sm (sm_name name) (newline sm) (d_ln d) GL T') as (ln' & FL & PL).
  destruct (parse_kids_md sm (sm_name name) (newline sm) (d_md d) GM T') as (md' & seen & SM & PM).
  destruct (parse_kids_items sm name (d_items d) T GR) as (es & rs' & EE & FR & PR).
  unfold resources_as_xml, resources_tree. fold name. rewrite EE. cbn [bind]. fold root.
  change (flat_map (fun l => element_with_atts $"rs:ln" l (newline sm)) (d_ln d)) with (ln_elements (newline sm) (d_ln d)).
  set (kids := ln_elements (newline sm) (d_ln d) ++ element_with_atts $"rs:md" (d_md d) (newline sm) ++ es).
  assert (FK : Forall fine kids).
  { unfold kids. rewrite !Forall_app. split; [|split].
    - apply fine_links; [apply newline_good|exact LL].
    - apply fine_element; [cbn; auto 10| |exact LM|apply newline_good].
      intros k I. apply (md_keys_att false). auto.
    - clear kids PR FR. revert es EE. induction (d_items d) as [|r rs IH]; intros es EE; cbn [mapM] in EE.
      + injection EE as <-. constructor.
      + destruct (resource_etree_element sm r name) as [e|] eqn:Er; [|discriminate]. cbn [bind] in EE.
        destruct (mapM _ rs) as [es'|]; [|discriminate]. cbn [bind] in EE. injection EE as <-.
        inversion GR; inversion LR; subst. constructor; [|apply IH; auto].
        apply (fine_resource sm r name); auto. destruct T as [-> | ->]; cbn; auto. }
  assert (RT : In root [$"urlset"; $"sitemapindex"]) by (unfold root; destruct index; cbn; auto).
  pose proof (document_round root (newline sm) kids RT (newline_good sm) FK) as PT.
  assert (PK : forall C (add : resource -> C -> res C) c,
    parse_kids sm add (sm_name name) (map with_namespaces kids) true false (MkDoc [] [] c)
    = let* items := add_seq add rs' c in Ok (MkDoc md' ln' items)).
  { intros C add c. unfold kids. rewrite !map_app, PL, PM by reflexivity. apply PR. }
  eexists _, md', ln', rs'. split; [reflexivity|]. split; [split; [exact SM|split; assumption]|].
  split; [|exists es; eexists; split; [reflexivity|exact PT]].
  intros C add cap si c SI. unfold parse_xml. rewrite PT. cbn [bind]. unfold parse_tree. cbn [x_tag x_kids].
  unfold root in *. unfold name in *. destruct index; cbn [d_items] in *.
  - change (str_eqb (sm_name $"sitemapindex") (sm_name $"urlset")) with false.
    rewrite str_eqb_refl.
    destruct SI as [-> | ->]; cbv iota; rewrite PK; destruct (add_seq add rs' c); reflexivity.
  - rewrite str_eqb_refl.
    destruct SI as [-> | ->]; cbv iota; rewrite PK; destruct (add_seq add rs' c); reflexivity.
Qed.

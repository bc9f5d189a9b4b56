(** * SitemapFacts: reading back what was written *)

From Coq Require Import Permutation.
From Verif Require Import Py PyFacts Float64 W3C W3CSpec W3CRound Resource ResourceSpec ResourceFacts
  Xml XmlFacts Sitemap SitemapSpec.

(** ** Attribute dictionaries *)

Lemma insert_item_In x y l : In x (insert_item y l) <-> x = y \/ In x l.
Proof.
  induction l as [|z l IH]; cbn [insert_item]; [cbn; intuition|].
  destruct (str_leb (fst y) (fst z)); cbn [In]; [intuition congruence|]. rewrite IH. intuition.
Qed.

Lemma insert_item_keys y l : Permutation (fst y :: map fst l) (map fst (insert_item y l)).
Proof.
  induction l as [|z l IH]; cbn [insert_item]; [apply Permutation_refl|].
  destruct (str_leb (fst y) (fst z)); [apply Permutation_refl|].
  cbn [map]. eapply perm_trans; [apply perm_swap|]. now constructor.
Qed.

Lemma sort_items_keys l : Permutation (map fst l) (map fst (sort_items l)).
Proof.
  induction l as [|y l IH]; [apply Permutation_refl|].
  cbn [sort_items fold_right map]. eapply perm_trans; [|apply insert_item_keys]. now constructor.
Qed.

Lemma sort_items_In x l : In x (sort_items l) <-> In x l.
Proof.
  induction l as [|y l IH]; [reflexivity|]. cbn [sort_items fold_right].
  rewrite insert_item_In. unfold sort_items in IH. rewrite IH. cbn. intuition.
Qed.

Lemma sget_sort_items k l : NoDup (map fst l) -> sget k (sort_items l) = sget k l.
Proof.
  intros N. assert (N' : NoDup (map fst (sort_items l))) by (eapply Permutation_NoDup; [apply sort_items_keys|exact N]).
  destruct (sget k l) as [v|] eqn:E.
  - apply in_sget; [exact N'|]. apply sort_items_In. now apply sget_in.
  - apply sget_none in E. apply sget_none. intros I. apply E.
    unfold dkeys in *. eapply Permutation_in; [apply Permutation_sym, sort_items_keys|exact I].
Qed.

Definition odd_names : list str := [$"type"; $"at"; $"completed"; $"from"; $"until"].

Lemma xml_att_name_cases k :
  (xml_att_name k = k /\ ~ In k [$"mime_type"; $"md_at"; $"md_completed"; $"md_from"; $"md_until"])
  \/ (In k [$"mime_type"; $"md_at"; $"md_completed"; $"md_from"; $"md_until"] /\ In (xml_att_name k) odd_names).
Proof.
  unfold xml_att_name.
  destruct (str_eqb_spec k $"mime_type") as [->|]. { right; vm_compute; auto 10. }
  destruct (str_eqb_spec k $"md_at") as [->|]. { right; vm_compute; auto 10. }
  destruct (str_eqb_spec k $"md_completed") as [->|]. { right; vm_compute; auto 10. }
  destruct (str_eqb_spec k $"md_from") as [->|]. { right; vm_compute; auto 10. }
  destruct (str_eqb_spec k $"md_until") as [->|]. { right; vm_compute; auto 10. }
  left. split; [reflexivity|]. cbn [In]. intuition congruence.
Qed.

Lemma xml_att_name_inj k k' : ~ In k odd_names -> ~ In k' odd_names ->
  xml_att_name k = xml_att_name k' -> k = k'.
Proof.
  intros O O' E.
  destruct (xml_att_name_cases k) as [[E1 N1]|[I1 J1]], (xml_att_name_cases k') as [[E2 N2]|[I2 J2]].
  - congruence.
  - rewrite <- E, E1 in J2. contradiction.
  - rewrite E, E2 in J1. contradiction.
  - cbn [In] in I1, I2. 
    repeat match goal with H : _ \/ _ |- _ => destruct H end; subst; try contradiction; try reflexivity;
      vm_compute in E; discriminate.
Qed.

(** The XML attributes of a dictionary: one attribute name at a time. *)
Lemma sget_xml_atts_fold n l : forall d,
  (forall k, In k (map fst l) -> xml_att_name k <> n) ->
  sget n (fold_left (fun d kv => match pv_text (snd kv) with
                         | Some s => sset (xml_att_name (fst kv)) s d
                         | None => d
                         end) l d) = sget n d.
Proof.
  induction l as [|[k v] l IH]; intros d H; [reflexivity|]. cbn [fold_left fst snd].
  rewrite IH by (intros k' I; apply H; right; exact I).
  destruct (pv_text v); [|reflexivity]. apply sget_sset_ne. intros ->. apply (H k); [now left|reflexivity].
Qed.

Lemma sget_xml_atts k l : NoDup (map fst l) ->
  (forall k', In k' (map fst l) -> xml_att_name k' = xml_att_name k -> k' = k) ->
  sget (xml_att_name k) (xml_atts l) = match sget k l with Some v => pv_text v | None => None end.
Proof.
  unfold xml_atts. assert (G : sget (xml_att_name k) (@nil (str * str)) = None) by reflexivity.
  revert G. generalize (@nil (str * str)) as d.
  induction l as [|[k' v] l IH]; intros d G N J; [exact G|].
  cbn [map fst] in N. apply NoDup_cons_iff in N as [N1 N2].
  cbn [fold_left fst snd]. cbn [dget].
  destruct (str_eqb_spec k k') as [<-|NE].
  - rewrite sget_xml_atts_fold.
    + destruct (pv_text v) as [s|]; [apply sget_sset_eq|exact G].
    + intros k1 I E. apply N1. rewrite (J k1) in I; auto. right; exact I.
  - apply IH; auto.
    + destruct (pv_text v); [|exact G]. rewrite sget_sset_ne; [exact G|].
      intros E. apply NE. symmetry. apply J; [now left|congruence].
    + intros k1 I. apply J. now right.
Qed.

Lemma xml_atts_NoDup l : NoDup (map fst (xml_atts l)).
Proof.
  unfold xml_atts. assert (G : NoDup (map fst (@nil (str * str)))) by constructor.
  revert G. generalize (@nil (str * str)) as d.
  induction l as [|[k v] l IH]; intros d G; [exact G|].
  cbn [fold_left fst snd]. apply IH. destruct (pv_text v); [|exact G].
  now apply NoDup_sset.
Qed.

(** Reading the attributes that are understood. *)
Lemma sget_understood k keys e :
  sget k (understood keys e) =
  if in_strs k keys then option_map PStr (sget (xml_att_name k) (x_atts e)) else None.
Proof.
  induction keys as [|k' keys IH]; [reflexivity|].
  cbn [understood in_strs existsb].
  destruct (str_eqb_spec k k') as [<-|NE]; cbn [orb].
  - destruct (sget (xml_att_name k) (x_atts e)) eqn:E; cbn [option_map].
    + cbn [dget]. now rewrite str_eqb_refl.
    + rewrite IH. destruct (in_strs k keys); reflexivity.
  - destruct (sget (xml_att_name k') (x_atts e)); [|exact IH].
    cbn [dget]. destruct (str_eqb_spec k k'); [congruence|]. exact IH.
Qed.

Lemma int_att_law k d (o : option Z) : sget k d = option_map (fun n => PStr (print_int n)) o ->
  exists d', int_att k d = Some d' /\
    forall k', sget k' d' = if str_eqb k' k then option_map PInt o else sget k' d.
Proof.
  intros H. unfold int_att. rewrite H. destruct o as [n|]; cbn [option_map].
  - rewrite parse_print_int. eexists; split; [reflexivity|]. intros k'. apply sget_sset.
  - exists d. split; [reflexivity|]. intros k'. destruct (str_eqb_spec k' k) as [->|]; auto.
Qed.

Lemma md_from_etree_law sm e (len : option Z) :
  (forall c, sget $"change" (x_atts e) = Some c -> valid_change (Some c)) ->
  sget $"length" (x_atts e) = option_map print_int len ->
  exists md, md_from_etree sm e = Ok md /\
    forall k, sget k md =
      if in_strs k (md_att_keys sm) then
        if str_eqb k $"length" then option_map PInt len
        else option_map PStr (sget (xml_att_name k) (x_atts e))
      else None.
Proof.
  intros C L. unfold md_from_etree.
  assert (M : in_strs $"length" (md_att_keys sm) = true /\ in_strs $"change" (md_att_keys sm) = true).
  { unfold md_att_keys. destruct (s_spec_1_0 sm); split; reflexivity. }
  destruct M as [M1 M2].
  pose proof (sget_understood $"change" (md_att_keys sm) e) as U. rewrite M2 in U.
  change (xml_att_name $"change") with ($"change") in U.
  pose proof (sget_understood $"length" (md_att_keys sm) e) as V. rewrite M1 in V.
  change (xml_att_name $"length") with ($"length") in V. rewrite L in V.
  rewrite U.
  replace (match option_map PStr (sget $"change" (x_atts e)) with
           | Some (PStr c) => negb (in_strs c [$"created"; $"updated"; $"deleted"])
           | _ => false end) with false.
  2: { destruct (sget $"change" (x_atts e)) as [c|]; [|reflexivity]. cbn [option_map].
       symmetry. apply negb_false_iff. apply in_strs_In.
       destruct (C c eq_refl) as [H|[H|[H|H]]]; [discriminate| | |]; injection H as ->; cbn; auto. }
  destruct (int_att_law $"length" (understood (md_att_keys sm) e) len) as (d' & -> & S).
  { rewrite V. destruct len; reflexivity. }
  exists d'. split; [reflexivity|]. intros k. rewrite S.
  destruct (str_eqb_spec k $"length") as [->|]; [now rewrite M1|]. apply sget_understood.
Qed.

Lemma ln_from_etree_law e (len pri : option Z) :
  (exists s, sget $"href" (x_atts e) = Some s) -> (exists s, sget $"rel" (x_atts e) = Some s) ->
  sget $"length" (x_atts e) = option_map print_int len ->
  sget $"pri" (x_atts e) = option_map print_int pri ->
  (forall n, pri = Some n -> 1 <= n <= 999999) ->
  exists l, ln_from_etree e = Ok l /\
    forall k, sget k l =
      if in_strs k ln_att_keys then
        if str_eqb k $"length" then option_map PInt len
        else if str_eqb k $"pri" then option_map PInt pri
        else option_map PStr (sget (xml_att_name k) (x_atts e))
      else None.
Proof.
  intros [h Hh] [rl Hr] L P R. unfold ln_from_etree.
  pose proof (sget_understood $"href" ln_att_keys e) as U1.
  change (in_strs $"href" ln_att_keys) with true in U1. change (xml_att_name $"href") with ($"href") in U1.
  pose proof (sget_understood $"rel" ln_att_keys e) as U2.
  change (in_strs $"rel" ln_att_keys) with true in U2. change (xml_att_name $"rel") with ($"rel") in U2.
  pose proof (sget_understood $"length" ln_att_keys e) as U3.
  change (in_strs $"length" ln_att_keys) with true in U3. change (xml_att_name $"length") with ($"length") in U3.
  pose proof (sget_understood $"pri" ln_att_keys e) as U4.
  change (in_strs $"pri" ln_att_keys) with true in U4. change (xml_att_name $"pri") with ($"pri") in U4.
  cbv iota in U1, U2, U3, U4. rewrite Hh in U1. rewrite Hr in U2. rewrite L in U3. rewrite P in U4.
  unfold dmem. rewrite U1, U2. cbn [option_map negb].
  destruct (int_att_law $"length" (understood ln_att_keys e) len) as (d1 & -> & S1).
  { rewrite U3. destruct len; reflexivity. }
  destruct (int_att_law $"pri" d1 pri) as (d2 & -> & S2).
  { rewrite S1. change (str_eqb $"pri" $"length") with false. cbv iota. rewrite U4. destruct pri; reflexivity. }
  exists d2. split.
  - rewrite S2. rewrite str_eqb_refl. destruct pri as [n|]; cbn [option_map]; [|reflexivity].
    specialize (R n eq_refl).
    replace ((n <? 1) || (999999 <? n)) with false; [reflexivity|].
    symmetry. apply orb_false_iff. split; apply Z.ltb_ge; lia.
  - intros k. rewrite S2, S1. 
    destruct (str_eqb_spec k $"pri") as [->|]; [reflexivity|].
    destruct (str_eqb_spec k $"length") as [->|]; [reflexivity|].
    apply sget_understood.
Qed.

(** ** Typed dictionaries *)

Definition text_of (k : str) (l : link) : option str :=
  match sget k l with Some v => pv_text v | None => None end.

Lemma typed_int l k : typed l -> in_strs k [$"length"; $"pri"] = true ->
  exists o, present (sget k l) = option_map PInt o /\ text_of k l = option_map print_int o.
Proof.
  intros T I. unfold text_of. destruct (sget k l) as [v|] eqn:E.
  - apply sget_in in E. specialize (T k v E). rewrite I in T.
    destruct T as [n [-> | ->]]; [exists (Some n)|exists None]; auto.
  - exists None. auto.
Qed.
Lemma typed_str l k : typed l -> in_strs k [$"length"; $"pri"] = false ->
  present (sget k l) = option_map PStr (text_of k l).
Proof.
  intros T I. unfold text_of. destruct (sget k l) as [v|] eqn:E; [|reflexivity].
  apply sget_in in E. specialize (T k v E). rewrite I in T.
  destruct T as [s [-> | ->]]; reflexivity.
Qed.

(** The attributes of the element written for a dictionary. *)
Lemma written_atts k l :
  NoDup (map fst l) ->
  (forall k', In k' (map fst l) -> xml_att_name k' = xml_att_name k -> k' = k) ->
  sget (xml_att_name k) (sort_items (xml_atts l)) = text_of k l.
Proof.
  intros N J. rewrite sget_sort_items by apply xml_atts_NoDup. now apply sget_xml_atts.
Qed.

Lemma link_inj (l : link) : ~ In $"type" (map fst l) -> forall k, In k link_keys ->
  forall k', In k' (map fst l) -> xml_att_name k' = xml_att_name k -> k' = k.
Proof.
  intros T k I k' I' E.
  destruct (xml_att_name_cases k') as [[E1 N1]|[I1 J1]].
  - rewrite E1 in E.
    destruct (xml_att_name_cases k) as [[E2 N2]|[I2 J2]]; [congruence|].
    exfalso. assert (k = $"mime_type").
    { cbn [link_keys In] in I. cbn [In] in I2.
      repeat match goal with H : _ \/ _ |- _ => destruct H end; subst; try contradiction; auto; discriminate. }
    subst k. change (xml_att_name $"mime_type") with ($"type") in E. subst k'. contradiction.
  - cbn [link_keys In] in I. cbn [In] in I1.
    repeat match goal with H : _ \/ _ |- _ => destruct H end; subst; try contradiction; auto;
      vm_compute in E; discriminate.
Qed.

Lemma md_inj (l : link) : (forall k, In k odd_names -> ~ In k (map fst l)) -> forall k, ~ In k odd_names ->
  forall k', In k' (map fst l) -> xml_att_name k' = xml_att_name k -> k' = k.
Proof. intros T k I k' I' E. apply xml_att_name_inj; auto. intros O. exact (T k' O I'). Qed.

Lemma md_keys_mem sm k : in_strs k (md_att_keys sm) = in_strs k (md_keys (s_spec_1_0 sm)).
Proof.
  apply Bool.eq_true_iff_eq. rewrite !in_strs_In. unfold md_att_keys, md_keys.
  destruct (s_spec_1_0 sm); cbn [app In]; tauto.
Qed.

Lemma md_keys_not_odd b k : In k (md_keys b) -> ~ In k odd_names.
Proof.
  intros I. apply in_strs_false.
  assert (forallb (fun k => negb (in_strs k odd_names)) (md_keys b) = true) as F
    by (destruct b; reflexivity).
  rewrite forallb_forall in F. apply negb_true_iff. auto.
Qed.

Lemma link_round l e : good_link l -> x_atts e = sort_items (xml_atts l) ->
  exists l', ln_from_etree e = Ok l' /\ same_atts link_keys l l'.
Proof.
  intros (N & T & Ty & [h Hh] & [rl Hr] & P) E.
  assert (W : forall k, In k link_keys -> sget (xml_att_name k) (x_atts e) = text_of k l).
  { intros k I. rewrite E. apply written_atts; auto. now apply link_inj. }
  destruct (typed_int l $"length" Ty eq_refl) as (len & L1 & L2).
  destruct (typed_int l $"pri" Ty eq_refl) as (pri & P1 & P2).
  destruct (ln_from_etree_law e len pri) as (l' & -> & S).
  - exists h. change ($"href") with (xml_att_name $"href"). rewrite W by (cbn; auto). unfold text_of. now rewrite Hh.
  - exists rl. change ($"rel") with (xml_att_name $"rel"). rewrite W by (cbn; auto 10). unfold text_of. now rewrite Hr.
  - change ($"length") with (xml_att_name $"length"). rewrite W by (cbn; auto). exact L2.
  - change ($"pri") with (xml_att_name $"pri"). rewrite W by (cbn; auto 10). exact P2.
  - intros n ->. apply P. destruct (sget $"pri" l) as [[| |]|]; cbn in P1; congruence.
  - exists l'. split; [reflexivity|]. intros k. split; intros I.
    + rewrite S. change ln_att_keys with link_keys.
      replace (in_strs k link_keys) with true by (symmetry; now apply in_strs_In).
      destruct (str_eqb_spec k $"length") as [->|N1]; [now rewrite L1|].
      destruct (str_eqb_spec k $"pri") as [->|N2]; [now rewrite P1|].
      rewrite W by exact I. symmetry. apply typed_str; auto.
      apply in_strs_false. cbn. intuition congruence.
    + rewrite S. change ln_att_keys with link_keys.
      replace (in_strs k link_keys) with false by (symmetry; now apply in_strs_false). reflexivity.
Qed.

Lemma md_round sm l e : good_md l -> x_atts e = sort_items (xml_atts l) ->
  exists l', md_from_etree sm e = Ok l' /\ same_atts (md_keys (s_spec_1_0 sm)) l l'.
Proof.
  intros (N & T & Ty & C) E.
  assert (W : forall k, ~ In k odd_names -> sget (xml_att_name k) (x_atts e) = text_of k l).
  { intros k I. rewrite E. apply written_atts; auto. now apply md_inj. }
  destruct (typed_int l $"length" Ty eq_refl) as (len & L1 & L2).
  destruct (md_from_etree_law sm e len) as (l' & -> & S).
  - intros c. change ($"change") with (xml_att_name $"change"). rewrite W by (apply in_strs_false; reflexivity).
    intros H. apply C. pose proof (typed_str l $"change" Ty eq_refl) as Q. rewrite H in Q.
    destruct (sget $"change" l) as [[| |]|]; cbn in Q; congruence.
  - change ($"length") with (xml_att_name $"length"). rewrite W by (apply in_strs_false; reflexivity). exact L2.
  - exists l'. split; [reflexivity|]. intros k. rewrite S, md_keys_mem. split; intros I.
    + replace (in_strs k (md_keys (s_spec_1_0 sm))) with true by (symmetry; now apply in_strs_In).
      destruct (str_eqb_spec k $"length") as [->|N1]; [now rewrite L1|].
      rewrite W by (now apply (md_keys_not_odd (s_spec_1_0 sm))).
      symmetry. apply typed_str; auto.
      apply in_strs_false. cbn. intros [H|[H|[]]]; [congruence|]. subst k.
      apply in_strs_In in I. destruct (s_spec_1_0 sm); discriminate.
    + replace (in_strs k (md_keys (s_spec_1_0 sm))) with false by (symmetry; now apply in_strs_false). reflexivity.
Qed.

(** ** Times *)

Lemma plain_time_round o : plain_time o ->
  exists s, get_dt o = Ok s /\ str_to_datetime_opt s = Ok o
    /\ (o = None <-> s = None) /\ (forall x, s = Some x -> full_datetime x).
Proof.
  intros P. destruct o as [t|].
  - destruct (P t eq_refl) as [(n & Y & ->)|(k & R & ->)].
    + destruct (whole_seconds_round_trip false n Y) as (s & D & S & F). exists (Some s).
      unfold get_dt, str_to_datetime_opt. rewrite D. cbn [bind]. rewrite S. cbn [bind].
      repeat split; try congruence.
    + destruct (micro_round_trip k R) as (s & D & S & F). exists (Some s).
      unfold get_dt, str_to_datetime_opt. rewrite D. cbn [bind]. rewrite S. cbn [bind].
      repeat split; try congruence.
  - exists None. repeat split; congruence.
Qed.

(** ** Elements *)

Lemma element_with_atts_cases name l tail :
  (element_with_atts name l tail = [] /\ xml_atts l = []) \/
  (element_with_atts name l tail = [El name (sort_items (xml_atts l)) None [] tail] /\ xml_atts l <> []).
Proof.
  unfold element_with_atts. destruct (xml_atts l); [left|right]; split; auto. discriminate.
Qed.

Lemma good_link_element name l tail : good_link l ->
  element_with_atts name l tail = [El name (sort_items (xml_atts l)) None [] tail].
Proof.
  intros (N & T & _ & [h Hh] & _).
  destruct (element_with_atts_cases name l tail) as [[_ E]|[E _]]; [|exact E].
  exfalso. assert (H : sget (xml_att_name $"href") (xml_atts l) = text_of $"href" l).
  { apply sget_xml_atts; auto. apply link_inj; cbn; auto. }
  rewrite E in H. unfold text_of in H. rewrite Hh in H. discriminate.
Qed.

Lemma findall_app n t a x ks1 ks2 tl : findall n (El t a x (ks1 ++ ks2) tl) =
  findall n (El t a x ks1 tl) ++ findall n (El t a x ks2 tl).
Proof. unfold findall. cbn [x_kids]. apply filter_app. Qed.

Definition ln_elements (tl : option str) (ls : list link) : list xml :=
  flat_map (fun l => element_with_atts $"rs:ln" l tl) ls.

Lemma ln_elements_good tl ls : Forall good_link ls ->
  ln_elements tl ls = map (fun l => El $"rs:ln" (sort_items (xml_atts l)) None [] tl) ls.
Proof.
  induction 1 as [|l ls G _ IH]; [reflexivity|].
  cbn [ln_elements flat_map map]. unfold ln_elements in IH. rewrite IH.
  now rewrite good_link_element.
Qed.

Definition named (n : str) : list xml -> list xml := filter (fun k => str_eqb (x_tag k) n).
Lemma named_app n a b : named n (a ++ b) = named n a ++ named n b.
Proof. apply filter_app. Qed.

Lemma named_all n l : (forall e, In e l -> x_tag e = n) -> named n l = l.
Proof.
  induction l as [|e l IH]; intros H; [reflexivity|]. cbn [named filter].
  rewrite (H e (or_introl eq_refl)), str_eqb_refl. f_equal. apply IH. intros; apply H; now right.
Qed.
Lemma named_none n l : (forall e, In e l -> x_tag e <> n) -> named n l = [].
Proof.
  induction l as [|e l IH]; intros H; [reflexivity|]. cbn [named filter].
  destruct (str_eqb_spec (x_tag e) n) as [E|_]; [elim (H e (or_introl eq_refl) E)|].
  apply IH. intros; apply H; now right.
Qed.

Lemma ln_elements_tags tl ls e : In e (map with_namespaces (ln_elements tl ls)) -> x_tag e = rs_name $"ln".
Proof.
  intros I. apply in_map_iff in I as (x & <- & I). apply in_flat_map in I as (l & _ & I).
  destruct (element_with_atts_cases $"rs:ln" l tl) as [[E _]|[E _]]; rewrite E in I; [destruct I|].
  destruct I as [<-|[]]. reflexivity.
Qed.

Lemma md_element_tags l tl e : In e (map with_namespaces (element_with_atts $"rs:md" l tl)) -> x_tag e = rs_name $"md".
Proof.
  intros I. apply in_map_iff in I as (x & <- & I).
  destruct (element_with_atts_cases $"rs:md" l tl) as [[E _]|[E _]]; rewrite E in I; [destruct I|].
  destruct I as [<-|[]]. reflexivity.
Qed.

Lemma links_round tl ls : Forall good_link ls ->
  exists ln', mapM ln_from_etree (map with_namespaces (ln_elements tl ls)) = Ok ln'
              /\ Forall2 (same_atts link_keys) ls ln'.
Proof.
  intros G. rewrite ln_elements_good by exact G.
  induction G as [|l ls G _ (ln' & E & F)].
  - exists []. split; [reflexivity|constructor].
  - cbn [map mapM].
    destruct (link_round l (with_namespaces (El $"rs:ln" (sort_items (xml_atts l)) None [] tl)) G eq_refl)
      as (l' & -> & S).
    cbn [bind]. rewrite E. cbn [bind]. eexists; split; [reflexivity|]. now constructor.
Qed.

(** ** The metadata of a resource *)

Lemma md_atts_law r val keys : (forall k, In k keys -> md_att r k = Ok (val k)) -> NoDup keys ->
  exists l, md_atts r keys = Ok l /\ NoDup (map fst l)
    /\ (forall k, In k (map fst l) -> In k keys)
    /\ (forall k, sget k l = if in_strs k keys then option_map PStr (val k) else None).
Proof.
  induction keys as [|k keys IH]; intros V N.
  - exists []. repeat split; auto; constructor.
  - apply NoDup_cons_iff in N as [N1 N2].
    destruct IH as (l & E & D & K & S); auto. { intros; apply V; now right. }
    cbn [md_atts]. rewrite (V k (or_introl eq_refl)), E. cbn [bind].
    eexists; split; [reflexivity|].
    cbn [in_strs existsb]. destruct (val k) as [v|] eqn:Ev.
    + cbn [map fst]. split; [constructor; auto|]. split; [intros k' [->|I]; [now left|right; auto]|].
      intros k'. cbn [dget]. destruct (str_eqb_spec k' k) as [->|NE]; cbn [orb]; [now rewrite Ev|]. apply S.
    + split; [exact D|]. split; [intros k' I; right; auto|].
      intros k'. destruct (str_eqb_spec k' k) as [->|NE]; cbn [orb]; [|apply S].
      rewrite S. rewrite Ev. replace (in_strs k keys) with false by (symmetry; now apply in_strs_false). reflexivity.
Qed.

Lemma md_att_keys_NoDup sm : NoDup (md_att_keys sm).
Proof.
  unfold md_att_keys. destruct (s_spec_1_0 sm); cbn [app];
    repeat (constructor; [vm_compute; intuition discriminate|]); constructor.
Qed.

Lemma apply_md_law md r0 cap ch dts dt len path mime src :
  sget $"capability" md = option_map PStr cap ->
  sget $"change" md = option_map PStr ch -> valid_change ch ->
  sget $"datetime" md = option_map PStr dts -> str_to_datetime_opt dts = Ok dt ->
  sget $"length" md = option_map PInt len ->
  sget $"path" md = option_map PStr path ->
  sget $"mime_type" md = option_map PStr mime ->
  sget $"hash" md = option_map PStr (get_hash src) ->
  ws_free (r_md5 src) -> ws_free (r_sha1 src) -> ws_free (r_sha256 src) ->
  (exists u t, r0 = set_timestamp t (new_resource u)) ->
  apply_md md r0 = Ok (MkR (r_uri r0) (r_timestamp r0) len mime (r_md5 src) (r_sha1 src) (r_sha256 src)
                           ch dt path None cap None None None None).
Proof.
  intros Hcap Hch V Hdt Dt Hlen Hpath Hmime Hhash W1 W2 W3 (u & t & ->).
  unfold apply_md, copy_str. rewrite Hcap, Hch, Hdt, Hlen, Hpath, Hmime, Hhash.
  set (r1 := match option_map PStr cap with
             | Some (PStr s) => Ok (set_capability (Some s) (set_timestamp t (new_resource u)))
             | _ => Ok (set_timestamp t (new_resource u)) end).
  assert (r1 = Ok (set_capability cap (set_timestamp t (new_resource u)))) as -> by (destruct cap; reflexivity).
  cbn [bind].
  match goal with |- context [bind (match option_map PStr ch with _ => _ end) _] => idtac end.
  assert (forall r, r_change r = None -> match option_map PStr ch with
             | Some (PStr s) => set_change (Some s) r | _ => Ok r end = Ok (store_change ch r)) as C.
  { intros r Hr. destruct ch as [c|]; cbn [option_map]; [now apply set_change_total|].
    destruct r; cbn in *; subst; reflexivity. }
  rewrite C by reflexivity. cbn [bind].
  assert (forall r, r_ts_datetime r = None -> match option_map PStr dts with
             | Some (PStr s) => set_datetime (Some s) r | _ => Ok r end = Ok (set_ts_datetime dt r)) as D.
  { intros r Hr. destruct dts as [c|]; cbn [option_map].
    - unfold set_datetime. rewrite Dt. reflexivity.
    - injection Dt as <-. destruct r; cbn in *; subst; reflexivity. }
  rewrite D by reflexivity. cbn [bind].
  destruct len as [len|], path as [path|], mime as [mime|]; cbn [option_map bind];
  (assert (HH : forall r, r_md5 r = None -> r_sha1 r = None -> r_sha256 r = None ->
     match option_map PStr (get_hash src) with
     | Some (PStr s) => Ok (fst (set_hash (Some s) r)) | _ => Ok r end
     = Ok (set_sha256 (r_sha256 src) (set_sha1 (r_sha1 src) (set_md5 (r_md5 src) r))));
   [intros r A1 A2 A3; pose proof (hash_round_trip src r W1 W2 W3) as R;
    destruct (get_hash src) as [h|] eqn:Eh; cbn [option_map]; [now rewrite R|];
    cbn [set_hash] in R; injection R as Q;
    destruct r; cbn in *; subst; unfold get_hash in Eh;
    destruct (r_md5 src), (r_sha1 src), (r_sha256 src); try discriminate; reflexivity
   |rewrite HH by reflexivity; reflexivity]).
Qed.

(** The resource read from the element written for a resource. *)
Lemma resource_round sm r name : good_resource r ->
  exists e r', resource_etree_element sm r name = Ok e
    /\ resource_from_etree sm (with_namespaces e) = Ok r' /\ read_back sm r r'.
Proof.
  intros (U & (T1 & T2 & T3 & T4 & T5 & T6) & (W1 & W2 & W3) & V & L).
  destruct (plain_time_round _ T1) as (s1 & G1 & R1 & N1 & _).
  destruct (plain_time_round _ T2) as (s2 & G2 & R2 & N2 & _).
  destruct (plain_time_round _ T3) as (s3 & G3 & _).
  destruct (plain_time_round _ T4) as (s4 & G4 & _).
  destruct (plain_time_round _ T5) as (s5 & G5 & _).
  destruct (plain_time_round _ T6) as (s6 & G6 & _).
  set (val := fun k => match md_att r k with Ok v => v | Err _ => None end).
  assert (A : forall k, md_att r k = Ok (val k)).
  { intros k. unfold val. unfold md_att. rewrite G2, G3, G4, G5, G6.
    repeat match goal with |- context [if ?b then _ else _] => destruct b; [reflexivity|] end. reflexivity. }
  destruct (md_atts_law r val (md_att_keys sm)) as (md & M & D & K & S); auto using md_att_keys_NoDup.
  (* the last modification time that is written and read *)
  set (lm := match s1 with Some _ => s1 | None => if s_spec_1_0 sm || s_add_lastmod sm then s2 else None end).
  set (ts := match r_timestamp r with Some t => Some t
             | None => if s_spec_1_0 sm || s_add_lastmod sm then r_ts_datetime r else None end).
  assert (Lm : str_to_datetime_opt lm = Ok ts).
  { unfold lm, ts. destruct s1 as [x|].
    - destruct (r_timestamp r); [exact R1|]. destruct (proj1 N1 eq_refl); discriminate.
    - rewrite (proj2 N1 eq_refl). destruct (_ || _); [exact R2|reflexivity]. }
  unfold resource_etree_element. rewrite G1. cbn [bind].
  replace (match s1 with Some _ => Ok s1
           | None => if s_spec_1_0 sm || s_add_lastmod sm then get_dt (r_ts_datetime r) else Ok None end)
    with (Ok lm) by (unfold lm; destruct s1; auto; rewrite G2; destruct (_ || _); reflexivity).
  cbn [bind]. rewrite M. cbn [bind].
  fold (links r). change (flat_map (fun l => element_with_atts $"rs:ln" l (newline sm)) (links r))
    with (ln_elements (newline sm) (links r)).
  set (loc := El $"loc" [] (Some (r_uri r)) [] None).
  set (lms := match lm with Some s => [El $"lastmod" [] (Some s) [] None] | None => [] end).
  set (mds := element_with_atts $"rs:md" md None).
  set (lns := ln_elements (newline sm) (links r)).
  eexists. 
  assert (X : exists r', resource_from_etree sm
     (with_namespaces (El name [] None ([loc] ++ lms ++ mds ++ lns) (newline sm))) = Ok r' /\ read_back sm r r').
  2: { destruct X as (r' & X1 & X2). exists r'. split; [reflexivity|]. split; assumption. }
  cbn [with_namespaces]. unfold resource_from_etree, findall. cbn [x_kids].
  rewrite !map_app. fold (named (sm_name $"loc")) (named (sm_name $"lastmod")) (named (rs_name $"md")) (named (rs_name $"ln")).
  (* sort the children *)
  assert (Tlm : forall e, In e (map with_namespaces lms) -> x_tag e = sm_name $"lastmod").
  { unfold lms. destruct lm; cbn; [|tauto]. intros e [<-|[]]. reflexivity. }
  assert (Tmd : forall e, In e (map with_namespaces mds) -> x_tag e = rs_name $"md") by apply md_element_tags.
  assert (Tln : forall e, In e (map with_namespaces lns) -> x_tag e = rs_name $"ln") by apply ln_elements_tags.
  rewrite !named_app.
  assert (E1 : named (sm_name $"loc") (map with_namespaces [loc]) = map with_namespaces [loc]) by reflexivity.
  assert (E2 : named (sm_name $"lastmod") (map with_namespaces [loc]) = []) by reflexivity.
  assert (E3 : named (rs_name $"md") (map with_namespaces [loc]) = []) by reflexivity.
  assert (E4 : named (rs_name $"ln") (map with_namespaces [loc]) = []) by reflexivity.
  rewrite E1, E2, E3, E4.
  rewrite (named_none (sm_name $"loc") (map with_namespaces lms)) by (intros e I; rewrite (Tlm e I); vm_compute; discriminate).
  rewrite (named_none (sm_name $"loc") (map with_namespaces mds)) by (intros e I; rewrite (Tmd e I); vm_compute; discriminate).
  rewrite (named_none (sm_name $"loc") (map with_namespaces lns)) by (intros e I; rewrite (Tln e I); vm_compute; discriminate).
  rewrite (named_all (sm_name $"lastmod") (map with_namespaces lms)) by exact Tlm.
  rewrite (named_none (sm_name $"lastmod") (map with_namespaces mds)) by (intros e I; rewrite (Tmd e I); vm_compute; discriminate).
  rewrite (named_none (sm_name $"lastmod") (map with_namespaces lns)) by (intros e I; rewrite (Tln e I); vm_compute; discriminate).
  rewrite (named_none (rs_name $"md") (map with_namespaces lms)) by (intros e I; rewrite (Tlm e I); vm_compute; discriminate).
  rewrite (named_all (rs_name $"md") (map with_namespaces mds)) by exact Tmd.
  rewrite (named_none (rs_name $"md") (map with_namespaces lns)) by (intros e I; rewrite (Tln e I); vm_compute; discriminate).
  rewrite (named_none (rs_name $"ln") (map with_namespaces lms)) by (intros e I; rewrite (Tlm e I); vm_compute; discriminate).
  rewrite (named_none (rs_name $"ln") (map with_namespaces mds)) by (intros e I; rewrite (Tmd e I); vm_compute; discriminate).
  rewrite (named_all (rs_name $"ln") (map with_namespaces lns)) by exact Tln.
  cbn [app map]. rewrite !app_nil_r.
  unfold loc at 1. cbn [with_namespaces x_text].
  destruct (r_uri r) as [|c u] eqn:Eu; [congruence|].
  (* lastmod *)
  assert (Xlm : match map with_namespaces lms with
                | [] => Ok (new_resource (c :: u))
                | [lm0] => set_lastmod (x_text lm0) (new_resource (c :: u))
                | _ => Err SitemapParseError
                end = Ok (set_timestamp ts (new_resource (c :: u)))).
  { unfold lms. destruct lm as [x|] eqn:El.
    - cbn [map with_namespaces x_text].
      assert (match x with [] => None | _ => Some x end = Some x) as Ex.
      { destruct x; [|reflexivity]. cbn in Lm. discriminate. }
      replace (match Some x with Some [] => None | _ => Some x end) with (Some x) by (destruct x; [discriminate|reflexivity]).
      unfold set_lastmod. rewrite Lm. reflexivity.
    - injection Lm as <-. reflexivity. }
  rewrite Xlm. cbn [bind]. clear Xlm.
  (* md *)
  assert (Wmd : forall k, ~ In k odd_names -> text_of k md = if in_strs k (md_att_keys sm) then val k else None).
  { intros k _. unfold text_of. rewrite S. destruct (in_strs k (md_att_keys sm)); [|reflexivity]. now destruct (val k). }
  assert (Omd : forall k, In k odd_names -> ~ In k (map fst md)).
  { intros k O I. apply K in I. revert I. apply in_strs_false. apply in_strs_In in O.
    rewrite md_keys_mem. destruct (in_strs k (md_keys (s_spec_1_0 sm))) eqn:Q; auto.
    apply in_strs_In in Q. apply md_keys_not_odd in Q. apply in_strs_In in O. contradiction. }
  assert (Sort : forall k, ~ In k odd_names ->
     sget (xml_att_name k) (sort_items (xml_atts md)) = if in_strs k (md_att_keys sm) then val k else None).
  { intros k O. rewrite written_atts; auto. now apply md_inj. }
  assert (Keys : forall k, In k (md_keys true) -> in_strs k (md_att_keys sm) = true).
  { intros k I. rewrite md_keys_mem. apply in_strs_In. unfold md_keys in *. apply in_app_iff. left.
    apply in_app_iff in I as [I|[]]. exact I. }
  assert (Xmd : match map with_namespaces mds with
                | [] => Ok (set_timestamp ts (new_resource (c :: u)))
                | [m] => bind (md_from_etree sm m) (fun md => apply_md md (set_timestamp ts (new_resource (c :: u))))
                | _ => Err SitemapParseError
                end = Ok (MkR (c :: u) ts (r_length r) (r_mime_type r) (r_md5 r) (r_sha1 r) (r_sha256 r)
                           (r_change r) (if s_spec_1_0 sm then None else r_ts_datetime r) (r_path r) None
                           (r_capability r) None None None None)).
  { destruct (md_from_etree_law sm (El (rs_name $"md") (sort_items (xml_atts md)) None [] None) (r_length r))
      as (md' & Emd & Smd).
    { cbn [x_atts]. intros ch. change ($"change") with (xml_att_name $"change").
      rewrite Sort by (apply in_strs_false; reflexivity).
      rewrite Keys by (cbn; auto). change (val $"change") with (r_change r). intros Hc. now rewrite <- Hc. }
    { cbn [x_atts]. change ($"length") with (xml_att_name $"length").
      rewrite Sort by (apply in_strs_false; reflexivity).
      rewrite Keys by (cbn; auto). change (val $"length") with (match r_length r with Some n => Some (print_int n) | None => None end).
      now destruct (r_length r). }
    assert (Ap : apply_md md' (set_timestamp ts (new_resource (c :: u))) = Ok (MkR (c :: u) ts (r_length r) (r_mime_type r) (r_md5 r) (r_sha1 r) (r_sha256 r)
                           (r_change r) (if s_spec_1_0 sm then None else r_ts_datetime r) (r_path r) None
                           (r_capability r) None None None None)).
    { assert (Get : forall k, In k (md_keys true) -> k <> $"length" -> sget k md' = option_map PStr (val k)).
      { intros k I NL. rewrite Smd, Keys by exact I. destruct (str_eqb_spec k $"length"); [congruence|].
        cbn [x_atts]. rewrite Sort by (now apply (md_keys_not_odd true)). now rewrite Keys. }
      apply (apply_md_law md' (set_timestamp ts (new_resource (c :: u))) (r_capability r) (r_change r) (if s_spec_1_0 sm then None else s2)
               (if s_spec_1_0 sm then None else r_ts_datetime r) (r_length r) (r_path r) (r_mime_type r) r); auto.
      - rewrite Get by (vm_compute; auto 10; discriminate). reflexivity.
      - rewrite Get by (vm_compute; auto 10; discriminate). reflexivity.
      - rewrite Smd. destruct (s_spec_1_0 sm) eqn:Sp; unfold md_att_keys; rewrite Sp.
        + reflexivity.
        + cbn [x_atts]. change (in_strs $"datetime" _) with true. cbv iota.
          change (str_eqb $"datetime" $"length") with false. cbv iota.
          rewrite Sort by (apply in_strs_false; reflexivity).
          unfold md_att_keys; rewrite Sp. change (in_strs $"datetime" _) with true. cbv iota.
          unfold val. change (md_att r $"datetime") with (get_dt (r_ts_datetime r)). now rewrite G2.
      - destruct (s_spec_1_0 sm); [reflexivity|exact R2].
      - rewrite Smd, Keys by (vm_compute; auto 10). reflexivity.
      - rewrite Get by (vm_compute; auto 10; discriminate). reflexivity.
      - rewrite Get by (vm_compute; auto 10; discriminate). reflexivity.
      - rewrite Get by (vm_compute; auto 10; discriminate). reflexivity.
      - eauto. }
    unfold mds. destruct (element_with_atts_cases $"rs:md" md None) as [[E Z]|[E Z]]; rewrite E.
    - cbn [map]. rewrite Z in *. change (sort_items []) with (@nil (str * str)) in *.
      clear Emd. rewrite <- Ap. unfold apply_md, copy_str.
      assert (NN : forall k, sget k md' = None).
      { intros k. rewrite Smd. destruct (in_strs k (md_att_keys sm)) eqn:Ik; [|reflexivity].
        cbn [x_atts]. destruct (str_eqb_spec k $"length") as [->|]; [|reflexivity].
        specialize (Sort $"length"). rewrite Ik in Sort. change (val $"length") with (match r_length r with Some n => Some (print_int n) | None => None end) in Sort.
        destruct (r_length r); [|reflexivity]. specialize (Sort ltac:(apply in_strs_false; reflexivity)). discriminate. }
      rewrite !NN. reflexivity.
    - cbn [map with_namespaces]. change (if startswith $"rs:" $"rs:md" then rs_ns (skipn 3 $"rs:md") else sitemap_ns $"rs:md") with (rs_name $"md").
      rewrite Emd. cbn [bind]. exact Ap. }
  rewrite Xmd. cbn [bind]. clear Xmd.
  destruct (links_round (newline sm) (links r) L) as (ln' & Eln & Fln). fold lns in Eln.
  set (r1 := MkR (c :: u) ts (r_length r) (r_mime_type r) (r_md5 r) (r_sha1 r) (r_sha256 r)
                 (r_change r) (if s_spec_1_0 sm then None else r_ts_datetime r) (r_path r) None
                 (r_capability r) None None None None).
  exists (match map with_namespaces lns with [] => r1 | _ => set_ln (Some ln') r1 end). split.
  - destruct (map with_namespaces lns) as [|x ls] eqn:Els; [reflexivity|]. rewrite Eln. reflexivity.
  - assert (Lk : links (match map with_namespaces lns with [] => r1 | _ => set_ln (Some ln') r1 end) = ln').
    { destruct (map with_namespaces lns) eqn:Els; [|reflexivity]. cbn in Eln. now injection Eln as <-. }
    unfold read_back. rewrite Lk. rewrite Eu.
    destruct (map with_namespaces lns); unfold r1; cbn; repeat split; auto.
Qed.

(** * SitemapAccept: which documents are accepted *)

From Verif Require Import Py PyFacts Float64 W3C W3CSpec W3CParse Resource ResourceSpec ResourceFacts
  Xml Sitemap SitemapSpec SitemapFacts.

(** [f] succeeds exactly if [P]; otherwise it raises SitemapParseError. *)
Definition decides {A} (f : res A) (P : Prop) : Prop :=
  ((exists x, f = Ok x) /\ P) \/ (f = Err SitemapParseError /\ ~ P).

Lemma int_att_decides k keys e : in_strs k keys = true -> xml_att_name k = k ->
  (exists d', int_att k (understood keys e) = Some d'
     /\ (forall k', k' <> k -> sget k' d' = sget k' (understood keys e))
     /\ (forall s, sget k (x_atts e) = Some s -> exists n, parse_int s = Some n /\ sget k d' = Some (PInt n))
     /\ (sget k (x_atts e) = None -> sget k d' = None))
  \/ (int_att k (understood keys e) = None /\ ~ (forall s, sget k (x_atts e) = Some s -> is_int s)).
Proof.
  intros M N. unfold int_att. rewrite sget_understood, M, N.
  destruct (sget k (x_atts e)) as [s|] eqn:E; cbn [option_map].
  - destruct (parse_int s) as [n|] eqn:P.
    + left. exists (sset k (PInt n) (understood keys e)). split; [reflexivity|]. split; [|split; [|discriminate]].
      * intros k' D. now apply sget_sset_ne.
      * intros s' [= <-]. exists n. split; [exact P|]. apply sget_sset_eq.
    + right. split; [reflexivity|]. intros H. destruct (H s eq_refl) as [n Q]. congruence.
  - left. exists (understood keys e). split; [reflexivity|]. split; [reflexivity|]. split; [discriminate|].
    intros _. rewrite sget_understood, M, N, E. reflexivity.
Qed.

Lemma md_mem sm : in_strs $"length" (md_att_keys sm) = true /\ in_strs $"change" (md_att_keys sm) = true
  /\ in_strs $"capability" (md_att_keys sm) = true /\ in_strs $"datetime" (md_att_keys sm) = negb (s_spec_1_0 sm).
Proof. unfold md_att_keys. destruct (s_spec_1_0 sm); repeat split; reflexivity. Qed.

Lemma change_words c : in_strs c [$"created"; $"updated"; $"deleted"] = true <->
  c = $"created" \/ c = $"updated" \/ c = $"deleted".
Proof. rewrite in_strs_In. cbn [In]. intuition. Qed.

Lemma md_decides sm e :
  (exists md, md_from_etree sm e = Ok md /\ ok_md e
     /\ sget $"change" md = option_map PStr (sget $"change" (x_atts e))
     /\ sget $"capability" md = option_map PStr (sget $"capability" (x_atts e))
     /\ sget $"datetime" md = (if s_spec_1_0 sm then None else option_map PStr (sget $"datetime" (x_atts e))))
  \/ (md_from_etree sm e = Err SitemapParseError /\ ~ ok_md e).
Proof.
  destruct (md_mem sm) as (M1 & M2 & M3 & M4). unfold md_from_etree.
  pose proof (sget_understood $"change" (md_att_keys sm) e) as U. rewrite M2 in U.
  change (xml_att_name $"change") with ($"change") in U. rewrite U.
  destruct (sget $"change" (x_atts e)) as [c|] eqn:C; cbn [option_map].
  - destruct (in_strs c [$"created"; $"updated"; $"deleted"]) eqn:I; cbn [negb].
    + destruct (int_att_decides $"length" (md_att_keys sm) e M1 eq_refl) as [(d' & -> & K & L & _)|[-> L]].
      * left. exists d'. split; [reflexivity|]. split; [|split; [|split]].
        -- split; [intros c' E; replace c' with c by congruence; now apply change_words|].
           intros s E. destruct (L s E) as (n & P & _). now exists n.
        -- rewrite K by discriminate. exact U.
        -- rewrite K by discriminate. rewrite sget_understood, M3. reflexivity.
        -- rewrite K by discriminate. rewrite sget_understood, M4. destruct (s_spec_1_0 sm); reflexivity.
      * right. split; [reflexivity|]. intros [_ H]. now apply L.
    + right. split; [reflexivity|]. intros [H _]. specialize (H c C). apply change_words in H. congruence.
  - destruct (int_att_decides $"length" (md_att_keys sm) e M1 eq_refl) as [(d' & -> & K & L & _)|[-> L]].
    * left. exists d'. split; [reflexivity|]. split; [|split; [|split]].
      -- split; [intros c' E; congruence|]. intros s E. destruct (L s E) as (n & P & _). now exists n.
      -- rewrite K by discriminate. exact U.
      -- rewrite K by discriminate. rewrite sget_understood, M3. reflexivity.
      -- rewrite K by discriminate. rewrite sget_understood, M4. destruct (s_spec_1_0 sm); reflexivity.
    * right. split; [reflexivity|]. intros [_ H]. now apply L.
Qed.

Lemma smem_understood k keys e : in_strs k keys = true -> xml_att_name k = k ->
  smem k (understood keys e) = match sget k (x_atts e) with Some _ => true | None => false end.
Proof. intros M N. unfold smem. rewrite sget_understood, M, N. destruct (sget k (x_atts e)); reflexivity. Qed.

Lemma int_att_again k d : int_att k d =
  match sget k d with
  | Some (PStr s) => match parse_int s with Some n => Some (sset k (PInt n) d) | None => None end
  | _ => Some d
  end.
Proof. unfold int_att. destruct (sget k d) as [[| |]|]; reflexivity. Qed.

Lemma ln_decides e : decides (ln_from_etree e) (ok_ln e).
Proof.
  unfold decides, ln_from_etree, ok_ln. rewrite !smem_understood by reflexivity.
  destruct (sget $"href" (x_atts e)) as [h|] eqn:H; cbn [negb].
  2: { right. split; [reflexivity|]. intros ((s & X) & _). discriminate. }
  destruct (sget $"rel" (x_atts e)) as [l|] eqn:R; cbn [negb].
  2: { right. split; [reflexivity|]. intros (_ & (s & X) & _). discriminate. }
  destruct (int_att_decides $"length" ln_att_keys e eq_refl eq_refl) as [(d' & -> & K & L & _)|[-> L]].
  2: { right. split; [reflexivity|]. intros (_ & _ & X & _). now apply L. }
  rewrite int_att_again, K by discriminate. rewrite sget_understood.
  change (in_strs $"pri" ln_att_keys) with true. change (xml_att_name $"pri") with ($"pri"). cbv iota.
  assert (L' : forall s, sget $"length" (x_atts e) = Some s -> is_int s).
  { intros s E. destruct (L s E) as (n & P & _). now exists n. }
  destruct (sget $"pri" (x_atts e)) as [p|] eqn:P; cbn [option_map].
  - destruct (parse_int p) as [n|] eqn:Q.
    + rewrite sget_sset_eq. destruct ((n <? 1) || (999999 <? n)) eqn:B.
      * right. split; [reflexivity|]. intros (_ & _ & _ & X). destruct (X p eq_refl) as (m & X1 & X2).
        rewrite X1 in Q. injection Q as ->. apply orb_true_iff in B as [B|B]; apply Z.ltb_lt in B; lia.
      * left. split; [eauto|]. split; [eauto|]. split; [eauto|]. split; [exact L'|].
        intros s [= <-]. exists n. split; [exact Q|]. apply orb_false_iff in B as [B1 B2].
        apply Z.ltb_ge in B1, B2. lia.
    + right. split; [reflexivity|]. intros (_ & _ & _ & X). destruct (X p eq_refl) as (m & X1 & X2). congruence.
  - rewrite K by discriminate. rewrite sget_understood.
    change (in_strs $"pri" ln_att_keys) with true. change (xml_att_name $"pri") with ($"pri"). cbv iota.
    rewrite P. cbn [option_map].
    left. split; [eauto|]. split; [eauto|]. split; [eauto|]. split; [exact L'|]. discriminate.
Qed.

Lemma mapM_decides {A} (f : xml -> res A) P l : (forall e, decides (f e) (P e)) -> decides (mapM f l) (Forall P l).
Proof.
  intros D. induction l as [|e l IH]; cbn [mapM].
  - left. split; [eauto|constructor].
  - destruct (D e) as [[[x ->] H]|[-> H]]; cbn [bind].
    + destruct IH as [[[xs ->] K]|[-> K]]; cbn [bind].
      * left. split; [eauto|now constructor].
      * right. split; [reflexivity|]. intros F. inversion F; auto.
    + right. split; [reflexivity|]. intros F. inversion F; auto.
Qed.

Lemma str_to_datetime_opt_decides o :
  (exists t, str_to_datetime_opt o = Ok t /\ forall s, o = Some s -> is_time s)
  \/ (str_to_datetime_opt o = Err ValueError /\ ~ forall s, o = Some s -> is_time s).
Proof.
  destruct o as [s|]; cbn [str_to_datetime_opt].
  - destruct (str_to_datetime s) as [t|x] eqn:E; cbn [bind].
    + left. exists (Some t). split; [reflexivity|]. intros s' [= <-]. now exists t.
    + right. split; [now rewrite (str_to_datetime_err s x E)|]. intros H. destruct (H s eq_refl). congruence.
  - left. exists None. split; [reflexivity|]. discriminate.
Qed.

Lemma apply_md_decides sm e md r : ok_md e ->
  sget $"change" md = option_map PStr (sget $"change" (x_atts e)) ->
  sget $"datetime" md = (if s_spec_1_0 sm then None else option_map PStr (sget $"datetime" (x_atts e))) ->
  (exists r', apply_md md r = Ok r'
     /\ (s_spec_1_0 sm = false -> forall s, sget $"datetime" (x_atts e) = Some s -> is_time s))
  \/ (apply_md md r = Err ValueError
     /\ ~ (s_spec_1_0 sm = false -> forall s, sget $"datetime" (x_atts e) = Some s -> is_time s)).
Proof.
  intros [C _] E1 E2. unfold apply_md.
  assert (X : forall r0, exists r1, copy_str $"capability" (fun v r => Ok (set_capability v r)) md r0 = Ok r1).
  { intros r0. unfold copy_str. destruct (sget $"capability" md) as [[| |]|]; eauto. }
  destruct (X r) as [r1 ->]. cbn [bind]. clear X.
  assert (X : exists r2, copy_str $"change" set_change md r1 = Ok r2).
  { unfold copy_str. rewrite E1. destruct (sget $"change" (x_atts e)) as [c|]; cbn [option_map]; [|eauto].
    rewrite set_change_total; [eauto|]. right. destruct (C c eq_refl) as [->|[->| ->]]; auto. }
  destruct X as [r2 ->]. cbn [bind].
  assert (T : forall r3, exists r4,
    (let r := match sget $"length" md with Some (PInt n) => set_length (Some n) r3 | _ => r3 end in
     let* r := copy_str $"path" (fun v r => Ok (set_path v r)) md r in
     let* r := copy_str $"mime_type" (fun v r => Ok (set_mime_type v r)) md r in
     copy_str $"hash" (fun v r => Ok (fst (set_hash v r))) md r) = Ok r4).
  { intros r3. cbv zeta. unfold copy_str.
    destruct (sget $"path" md) as [[| |]|]; cbn [bind];
    destruct (sget $"mime_type" md) as [[| |]|]; cbn [bind];
    destruct (sget $"hash" md) as [[| |]|]; eauto. }
  replace (copy_str $"datetime" set_datetime md r2)
    with (match sget $"datetime" md with Some (PStr s) => set_datetime (Some s) r2 | _ => Ok r2 end) by reflexivity.
  rewrite E2. destruct (s_spec_1_0 sm).
  - destruct (T r2) as [r4 T4]. left. exists r4. split; [exact T4|discriminate].
  - destruct (sget $"datetime" (x_atts e)) as [s|] eqn:D; cbn [option_map].
    + unfold set_datetime. destruct (str_to_datetime_opt_decides (Some s)) as [(t & -> & H)|[-> H]]; cbn [bind].
      * destruct (T (set_ts_datetime t r2)) as [r4 T4]. left. exists r4. split; [exact T4|]. intros _. exact H.
      * right. split; [reflexivity|]. intros K. apply H. now apply K.
    + destruct (T r2) as [r4 T4]. left. exists r4. split; [exact T4|discriminate].
Qed.

Lemma links_decides e r :
  let f := match kids_named (rs_ns $"ln") e with
           | [] => Ok r
           | ls => let* ln := mapM ln_from_etree ls in Ok (set_ln (Some ln) r)
           end in
  decides f (Forall ok_ln (kids_named (rs_ns $"ln") e)).
Proof.
  cbv zeta. destruct (kids_named (rs_ns $"ln") e) as [|l ls]; [left; split; [eauto|constructor]|].
  destruct (mapM_decides ln_from_etree ok_ln (l :: ls) ln_decides) as [[[x ->] F]|[-> F]].
  - left. split; [eexists; reflexivity|exact F].
  - right. split; [reflexivity|exact F].
Qed.

Definition ok_rest (e : xml) : Prop :=
  (List.length (kids_named (rs_ns $"md") e) <= 1)%nat
  /\ Forall ok_md (kids_named (rs_ns $"md") e) /\ Forall ok_ln (kids_named (rs_ns $"ln") e).
Definition ok_datetime (spec_1_0 : bool) (e : xml) : Prop :=
  spec_1_0 = false -> forall m s, In m (kids_named (rs_ns $"md") e) ->
    sget $"datetime" (x_atts m) = Some s -> is_time s.

Lemma rest_decides sm e r :
  let f := let* r := match kids_named (rs_ns $"md") e with
                     | [] => Ok r
                     | [m] => let* md := md_from_etree sm m in apply_md md r
                     | _ => Err SitemapParseError
                     end in
           match kids_named (rs_ns $"ln") e with
           | [] => Ok r
           | ls => let* ln := mapM ln_from_etree ls in Ok (set_ln (Some ln) r)
           end in
  (exists r', f = Ok r' /\ ok_rest e /\ ok_datetime (s_spec_1_0 sm) e)
  \/ (f = Err SitemapParseError /\ ~ ok_rest e)
  \/ (f = Err ValueError /\ ~ ok_datetime (s_spec_1_0 sm) e).
Proof.
  cbv zeta. unfold ok_rest, ok_datetime.
  destruct (kids_named (rs_ns $"md") e) as [|m [|m2 ms]].
  - cbn [bind]. destruct (links_decides e r) as [[[r' L1] L2]|[L1 L2]].
    + left. exists r'. split; [exact L1|]. split; [split; [cbn; lia|split; [constructor|exact L2]]|intros _ ? ? []].
    + right; left. split; [exact L1|]. intros (_ & _ & H). now apply L2.
  - destruct (md_decides sm m) as [(md & -> & O & C1 & _ & C2)|[-> O]]; cbn [bind].
    + destruct (apply_md_decides sm m md r O C1 C2) as [(r1 & -> & D)|[-> D]]; cbn [bind].
      * destruct (links_decides e r1) as [[[r' L1] L2]|[L1 L2]].
        -- left. exists r'. split; [exact L1|]. split; [split; [cbn; lia|split; [constructor; [exact O|constructor]|exact L2]]|].
           intros S m' s [<-|[]] E. now apply (D S s).
        -- right; left. split; [exact L1|]. intros (_ & _ & H). now apply L2.
      * right; right. split; [reflexivity|]. intros K. apply D. intros S s E. apply (K S m s); [now left|exact E].
    + right; left. split; [reflexivity|]. intros (_ & Q & _). apply O. now inversion Q.
  - right; left. split; [reflexivity|]. intros (Q & _). cbn in Q. lia.
Qed.

(** An entry is accepted exactly if it is well formed and its times can be read; otherwise
    SitemapParseError is raised, or ValueError because of a time. *)
Lemma entry_decides sm e :
  (exists r, resource_from_etree sm e = Ok r /\ ok_entry e /\ ok_times (s_spec_1_0 sm) e)
  \/ (resource_from_etree sm e = Err SitemapParseError /\ ~ ok_entry e)
  \/ (resource_from_etree sm e = Err ValueError /\ ~ ok_times (s_spec_1_0 sm) e).
Proof.
  unfold resource_from_etree, ok_entry, ok_times.
  change (findall (sm_name $"loc") e) with (kids_named (sitemap_ns $"loc") e).
  change (findall (sm_name $"lastmod") e) with (kids_named (sitemap_ns $"lastmod") e).
  change (findall (rs_name $"md") e) with (kids_named (rs_ns $"md") e).
  change (findall (rs_name $"ln") e) with (kids_named (rs_ns $"ln") e).
  destruct (kids_named (sitemap_ns $"loc") e) as [|loc [|loc2 locs]].
  1, 3: right; left; split; [reflexivity|]; intros ((? & ? & ? & ? & _) & _); discriminate.
  destruct (x_text loc) as [[|c u]|] eqn:X.
  1, 3: right; left; split; [reflexivity|]; intros ((l & ? & ? & [= <-] & ?) & _); congruence.
  assert (LOC : exists loc0 c s, [loc] = [loc0] /\ x_text loc0 = Some (c :: s)) by eauto 6.
  destruct (kids_named (sitemap_ns $"lastmod") e) as [|lm [|lm2 lms]].
  - cbn [bind]. destruct (rest_decides sm e (new_resource (c :: u))) as [(r' & R & (O1 & O2 & O3) & D)|[[R O]|[R D]]].
    + left. exists r'. split; [exact R|]. split; [split; [exact LOC|split; [cbn; lia|auto]]|split; [intros ? ? []|exact D]].
    + right; left. split; [exact R|]. intros (_ & _ & H1 & H2 & H3). apply O. now split.
    + right; right. split; [exact R|]. intros (_ & H). now apply D.
  - unfold set_lastmod. destruct (str_to_datetime_opt_decides (x_text lm)) as [(t & -> & H)|[-> H]]; cbn [bind].
    + destruct (rest_decides sm e (set_timestamp t (new_resource (c :: u)))) as [(r' & R & (O1 & O2 & O3) & D)|[[R O]|[R D]]].
      * left. exists r'. split; [exact R|]. split; [split; [exact LOC|split; [cbn; lia|auto]]|split; [|exact D]].
        intros lm' s [<-|[]] E. now apply H.
      * right; left. split; [exact R|]. intros (_ & _ & H1 & H2 & H3). apply O. now split.
      * right; right. split; [exact R|]. intros (_ & K). now apply D.
    + right; right. split; [reflexivity|]. intros [K _]. apply H. intros s E. apply (K lm s); [now left|exact E].
  - right; left; split; [reflexivity|]. intros (_ & H & _). cbn in H. lia.
Qed.

(** ** The children of the root *)

Definition named_in (n : str) (l : list xml) : list xml := filter (fun k => str_eqb (x_tag k) n) l.
Lemma kids_named_in n e : kids_named n e = named_in n (x_kids e).
Proof. reflexivity. Qed.
Lemma named_in_cons n e l : named_in n (e :: l) = if str_eqb (x_tag e) n then e :: named_in n l else named_in n l.
Proof. reflexivity. Qed.

(** What is required of the children when the loop has come so far. *)
Definition ok_list (tag : str) (l : list xml) (pre seen : bool) : Prop :=
  Forall ok_entry (named_in tag l)
  /\ Forall ok_md (named_in (rs_ns $"md") l)
  /\ Forall ok_ln (named_in (rs_ns $"ln") l)
  /\ (List.length (named_in (rs_ns $"md") l) <= if seen then 0 else 1)%nat
  /\ (pre = false -> forall k, In k l -> x_tag k <> rs_ns $"md" /\ x_tag k <> rs_ns $"ln")
  /\ (forall before e after, l = before ++ e :: after -> x_tag e = tag ->
        forall k, In k after -> x_tag k <> rs_ns $"md" /\ x_tag k <> rs_ns $"ln").

Lemma in_named n e l : In e (named_in n l) <-> In e l /\ x_tag e = n.
Proof. unfold named_in. rewrite filter_In. destruct (str_eqb_spec (x_tag e) n); intuition congruence. Qed.

(** The outcome of the loop, for a container that accepts everything. *)
Definition ok_all_times (spec_1_0 : bool) (tag : str) (l : list xml) : Prop :=
  Forall (ok_times spec_1_0) (named_in tag l).

Lemma rs_md_ln : rs_ns $"md" <> rs_ns $"ln".
Proof. discriminate. Qed.

Lemma ok_list_entry tag e l pre seen : tag <> rs_ns $"md" -> tag <> rs_ns $"ln" -> x_tag e = tag ->
  ok_list tag (e :: l) pre seen <-> ok_entry e /\ ok_list tag l false seen.
Proof.
  intros N1 N2 E. unfold ok_list. rewrite !named_in_cons. rewrite E, str_eqb_refl.
  destruct (str_eqb_spec tag (rs_ns $"md")) as [|_]; [contradiction|].
  destruct (str_eqb_spec tag (rs_ns $"ln")) as [|_]; [contradiction|]. split.
  - intros (A & B & C & D & F & G). inversion A; subst. split; [assumption|].
    split; [assumption|]. split; [exact B|]. split; [exact C|]. split; [exact D|]. split.
    + intros _ k I. exact (G [] e l eq_refl eq_refl k I).
    + intros before x after Q T k I. apply (G (e :: before) x after); [now rewrite Q|exact T|exact I].
  - intros (O & A & B & C & D & F & G). split; [now constructor|]. split; [exact B|]. split; [exact C|].
    split; [exact D|]. split.
    + intros _ k [<-|I]; [now rewrite E|now apply F].
    + intros [|b before] x after Q T k I.
      * injection Q as -> ->. now apply F.
      * injection Q as -> Q. now apply (G before x after).
Qed.

Lemma ok_list_md tag e l pre seen : tag <> rs_ns $"md" -> x_tag e = rs_ns $"md" ->
  ok_list tag (e :: l) pre seen <-> pre = true /\ seen = false /\ ok_md e /\ ok_list tag l pre true.
Proof.
  intros N E. unfold ok_list. rewrite !named_in_cons. rewrite E, str_eqb_refl.
  destruct (str_eqb_spec (rs_ns $"md") tag) as [|_]; [congruence|].
  destruct (str_eqb_spec (rs_ns $"md") (rs_ns $"ln")) as [X|_]; [now destruct (rs_md_ln X)|]. split.
  - intros (A & B & C & D & F & G). inversion B; subst.
    assert (P : pre = true).
    { destruct pre; [reflexivity|]. destruct (F eq_refl e) as [X _]; [now left|]. congruence. }
    split; [exact P|]. split; [destruct seen; [cbn in D; lia|reflexivity]|]. split; [assumption|].
    split; [exact A|]. split; [assumption|]. split; [exact C|]. split; [destruct seen; cbn in D; lia|]. split.
    + subst. discriminate.
    + intros before x after Q T k I. apply (G (e :: before) x after); [now rewrite Q|exact T|exact I].
  - intros (-> & -> & O & A & B & C & D & F & G). split; [exact A|]. split; [now constructor|]. split; [exact C|].
    split; [cbn [List.length]; lia|]. split; [discriminate|].
    intros [|b before] x after Q T k I.
    + injection Q as -> ->. congruence.
    + injection Q as -> Q. now apply (G before x after).
Qed.

Lemma ok_list_ln tag e l pre seen : tag <> rs_ns $"ln" -> x_tag e = rs_ns $"ln" ->
  ok_list tag (e :: l) pre seen <-> pre = true /\ ok_ln e /\ ok_list tag l pre seen.
Proof.
  intros N E. unfold ok_list. rewrite !named_in_cons. rewrite E, str_eqb_refl.
  destruct (str_eqb_spec (rs_ns $"ln") tag) as [|_]; [congruence|].
  destruct (str_eqb_spec (rs_ns $"ln") (rs_ns $"md")) as [X|_]; [now destruct (rs_md_ln (eq_sym X))|]. split.
  - intros (A & B & C & D & F & G). inversion C; subst.
    assert (P : pre = true).
    { destruct pre; [reflexivity|]. destruct (F eq_refl e) as [_ X]; [now left|]. congruence. }
    split; [exact P|]. split; [assumption|].
    split; [exact A|]. split; [assumption|]. split; [assumption|]. split; [exact D|]. split.
    + subst. discriminate.
    + intros before x after Q T k I. apply (G (e :: before) x after); [now rewrite Q|exact T|exact I].
  - intros (-> & O & A & B & C & D & F & G). split; [exact A|]. split; [exact B|]. split; [now constructor|].
    split; [exact D|]. split; [discriminate|].
    intros [|b before] x after Q T k I.
    + injection Q as -> ->. congruence.
    + injection Q as -> Q. now apply (G before x after).
Qed.

Lemma ok_list_other tag e l pre seen : x_tag e <> tag -> x_tag e <> rs_ns $"md" -> x_tag e <> rs_ns $"ln" ->
  ok_list tag (e :: l) pre seen <-> ok_list tag l pre seen.
Proof.
  intros N1 N2 N3. unfold ok_list. rewrite !named_in_cons.
  destruct (str_eqb_spec (x_tag e) tag); [congruence|].
  destruct (str_eqb_spec (x_tag e) (rs_ns $"md")); [congruence|].
  destruct (str_eqb_spec (x_tag e) (rs_ns $"ln")); [congruence|]. split.
  - intros (A & B & C & D & F & G). split; [exact A|]. split; [exact B|]. split; [exact C|]. split; [exact D|]. split.
    + intros P k I. apply F; [exact P|now right].
    + intros before x after Q T k I. apply (G (e :: before) x after); [now rewrite Q|exact T|exact I].
  - intros (A & B & C & D & F & G). split; [exact A|]. split; [exact B|]. split; [exact C|]. split; [exact D|]. split.
    + intros P k [<-|I]; [now split|now apply F].
    + intros [|b before] x after Q T k I.
      * injection Q as -> ->. congruence.
      * injection Q as -> Q. now apply (G before x after).
Qed.

(** The capability in the md read, given the one before. *)
Definition cap_of (l : list xml) (old : option pv) : option pv :=
  match named_in (rs_ns $"md") l with
  | m :: _ => option_map PStr (sget $"capability" (x_atts m))
  | [] => old
  end.

Lemma loop_decides {C} sm (add : resource -> C -> res C) tag kids : tag <> rs_ns $"md" -> tag <> rs_ns $"ln" ->
  forall pre seen d,
  (exists d', parse_kids sm add tag kids pre seen d = Ok d' /\ ok_list tag kids pre seen
     /\ ok_all_times (s_spec_1_0 sm) tag kids /\ sget $"capability" (d_md d') = cap_of kids (sget $"capability" (d_md d)))
  \/ (parse_kids sm add tag kids pre seen d = Err SitemapParseError /\ ~ ok_list tag kids pre seen)
  \/ (parse_kids sm add tag kids pre seen d = Err ValueError /\ ~ ok_all_times (s_spec_1_0 sm) tag kids)
  \/ (exists r c x, parse_kids sm add tag kids pre seen d = Err x /\ add r c = Err x).
Proof.
  intros N1 N2. induction kids as [|e kids IH]; intros pre seen d; cbn [parse_kids].
  - left. exists d. split; [reflexivity|]. split; [|split; [constructor|reflexivity]].
    split; [constructor|]. split; [constructor|]. split; [constructor|]. split; [cbn; destruct seen; lia|].
    split; [intros _ k []|]. intros [|] ? ? Q; discriminate.
  - change (rs_name $"md") with (rs_ns $"md"). change (rs_name $"ln") with (rs_ns $"ln").
    unfold ok_all_times, cap_of. rewrite !named_in_cons. fold (ok_all_times (s_spec_1_0 sm) tag kids).
    destruct (str_eqb_spec (x_tag e) tag) as [E|NE].
    + replace (str_eqb (x_tag e) (rs_ns $"md")) with false.
      2: { destruct (str_eqb_spec (x_tag e) (rs_ns $"md")); congruence. }
      fold (cap_of kids (sget $"capability" (d_md d))).
      rewrite ok_list_entry by assumption.
      destruct (entry_decides sm e) as [(r & -> & O & T)|[[-> O]|[-> T]]]; cbn [bind].
      * destruct (add r (d_items d)) as [c|x] eqn:A; cbn [bind]; [|right; right; right; eauto].
        destruct (IH false seen (MkDoc (d_md d) (d_ln d) c)) as [(d' & P & O' & T' & K)|[[P O']|[[P T']|(r' & c' & x' & P & A')]]].
        -- left. exists d'. split; [exact P|]. split; [now apply ok_list_entry|]. split; [now constructor|exact K].
        -- right; left. split; [exact P|]. intros [_ H]. now apply O'.
        -- right; right; left. split; [exact P|]. intros H. inversion H; auto.
        -- right; right; right. eauto.
      * right; left. split; [reflexivity|]. intros [H _]. now apply O.
      * right; right; left. split; [reflexivity|]. intros H. inversion H; auto.
    + destruct (str_eqb_spec (x_tag e) (rs_ns $"md")) as [E|NE'].
      * rewrite ok_list_md by assumption.
        destruct pre; cbn [negb]; [|right; left; split; [reflexivity|]; intros (? & _); discriminate].
        destruct seen; [right; left; split; [reflexivity|]; intros (_ & ? & _); discriminate|].
        destruct (md_decides sm e) as [(md & -> & O & C1 & CC & C2)|[-> O]]; cbn [bind].
        -- destruct (IH true true (MkDoc md (d_ln d) (d_items d))) as [(d' & P & O' & T' & K)|[[P O']|[[P T']|(r' & c' & x' & P & A')]]].
           ++ left. exists d'. split; [exact P|]. split; [now apply ok_list_md|]. split; [exact T'|]. rewrite K.
              unfold cap_of. destruct O' as (_ & _ & _ & L & _).
              destruct (named_in (rs_ns $"md") kids); [exact CC|cbn in L; lia].
           ++ right; left. split; [exact P|]. intros (_ & _ & _ & H). now apply O'.
           ++ right; right; left. split; [exact P|exact T'].
           ++ right; right; right. eauto.
        -- right; left. split; [reflexivity|]. intros (_ & _ & H & _). now apply O.
      * fold (cap_of kids (sget $"capability" (d_md d))).
        destruct (str_eqb_spec (x_tag e) (rs_ns $"ln")) as [E|NE''].
        -- rewrite ok_list_ln by assumption.
           destruct pre; cbn [negb]; [|right; left; split; [reflexivity|]; intros (? & _); discriminate].
           destruct (ln_decides e) as [[[l ->] O]|[-> O]]; cbn [bind].
           ++ destruct (IH true seen (MkDoc (d_md d) (d_ln d ++ [l]) (d_items d))) as [(d' & P & O' & T' & K)|[[P O']|[[P T']|(r' & c' & x' & P & A')]]].
              ** left. exists d'. split; [exact P|]. split; [now apply ok_list_ln|]. split; [exact T'|exact K].
              ** right; left. split; [exact P|]. intros (_ & _ & H). now apply O'.
              ** right; right; left. split; [exact P|exact T'].
              ** right; right; right. eauto.
           ++ right; left. split; [reflexivity|]. intros (_ & H & _). now apply O.
        -- pose proof (ok_list_other tag e kids pre seen NE NE' NE'') as Q.
           destruct (IH pre seen d) as [(d' & P & O' & T' & K)|[[P O']|[[P T']|(r' & c' & x' & P & A')]]].
           ++ left. exists d'. split; [exact P|]. split; [now apply Q|]. split; [exact T'|exact K].
           ++ right; left. split; [exact P|]. intros H. apply O'. now apply Q.
           ++ right; right; left. split; [exact P|exact T'].
           ++ right; right; right. eauto.
Qed.

Lemma ok_list_kids tag root : ok_list tag (x_kids root) true false <-> ok_kids tag root.
Proof.
  unfold ok_list, ok_kids. rewrite !kids_named_in. split.
  - intros (A & B & C & D & _ & G). auto 10.
  - intros (A & B & C & D & G). split; [exact A|]. split; [exact B|]. split; [exact C|]. split; [exact D|].
    split; [discriminate|exact G].
Qed.

Lemma capability_decides {C} cap root (d : doc C) :
  sget $"capability" (d_md d) = option_map PStr (stated_capability root) ->
  decides (check_capability cap d) (ok_capability cap root).
Proof.
  intros E. unfold decides, check_capability, ok_capability. destruct cap as [c|].
  2: { left. split; [eauto|discriminate]. }
  rewrite E. destruct (stated_capability root) as [k|]; cbn [option_map bind].
  - rewrite E. cbn [option_map pv_eqb]. destruct (str_eqb_spec k c) as [->|NE].
    + left. split; [eauto|]. intros c' [= <-]. now left.
    + right. split; [reflexivity|]. intros H. destruct (H c eq_refl) as [X|[X _]]; congruence.
  - destruct (str_eqb_spec c $"resourcelist") as [->|NE].
    + cbn [bind d_md]. rewrite sget_sset_eq. left. cbn [pv_eqb]. rewrite str_eqb_refl. split; [eauto|].
      intros c' [= <-]. now right.
    + right. split; [reflexivity|]. intros H. destruct (H c eq_refl) as [X|[_ X]]; congruence.
Qed.

(** Everything there is to say about the outcome of reading a tree. *)
Lemma tree_decides {C} sm (add : resource -> C -> res C) cap si (d : doc C) root :
  sget $"capability" (d_md d) = None ->
  (exists d' i, parse_tree sm add cap si d root = Ok (d', i) /\ acceptable cap si root i
     /\ times_readable (s_spec_1_0 sm) root i)
  \/ ((parse_tree sm add cap si d root = Err SitemapParseError \/ parse_tree sm add cap si d root = Err SitemapIndexError)
      /\ forall i : bool, ~ acceptable cap si root i)
  \/ (parse_tree sm add cap si d root = Err ValueError
      /\ exists i : bool, x_tag root = sitemap_ns (if i then $"sitemapindex" else $"urlset")
                   /\ ~ times_readable (s_spec_1_0 sm) root i)
  \/ (exists r c x, parse_tree sm add cap si d root = Err x /\ add r c = Err x).
Proof.
  intros D. unfold parse_tree.
  assert (RUN : forall i : bool, x_tag root = sitemap_ns (if i then $"sitemapindex" else $"urlset") ->
    (si = None \/ si = Some i) ->
    let f := (let* d := parse_kids sm add (sitemap_ns (if i then $"sitemap" else $"url")) (x_kids root) true false d in
              let* d := check_capability cap d in Ok (d, i)) in
    (exists d' i, f = Ok (d', i) /\ acceptable cap si root i /\ times_readable (s_spec_1_0 sm) root i)
    \/ ((f = Err SitemapParseError \/ f = Err SitemapIndexError) /\ forall i : bool, ~ acceptable cap si root i)
    \/ (f = Err ValueError
      /\ exists i : bool, x_tag root = sitemap_ns (if i then $"sitemapindex" else $"urlset")
                   /\ ~ times_readable (s_spec_1_0 sm) root i)
    \/ (exists r c x, f = Err x /\ add r c = Err x)).
  { intros i T SI. cbv zeta.
    assert (UNIQ : forall j : bool, x_tag root = sitemap_ns (if j then $"sitemapindex" else $"urlset") -> j = i).
    { intros j X. rewrite T in X. destruct i, j; try reflexivity; discriminate X. }
    destruct (loop_decides sm add (sitemap_ns (if i then $"sitemap" else $"url")) (x_kids root)) with (pre := true) (seen := false) (d := d)
      as [(d' & -> & O' & T' & K)|[[-> O']|[[-> T']|(r' & c' & x' & -> & A')]]].
    1, 2: destruct i; discriminate.
    - cbn [bind]. rewrite D in K.
      assert (K' : sget $"capability" (d_md d') = option_map PStr (stated_capability root)).
      { rewrite K. unfold cap_of, stated_capability. rewrite kids_named_in.
        destruct (named_in (rs_ns $"md") (x_kids root)); reflexivity. }
      destruct (capability_decides cap root d' K') as [[[d2 ->] Q]|[-> Q]]; cbn [bind].
      + left. exists d2, i. split; [reflexivity|]. split; [|exact T'].
        split; [exact T|]. split; [exact SI|]. split; [now apply ok_list_kids|exact Q].
      + right; left. split; [now left|]. intros j (_ & _ & _ & X). now apply Q.
    - right; left. split; [now left|]. intros j (Tj & _ & X & _). rewrite (UNIQ j Tj) in X.
      apply O'. now apply ok_list_kids.
    - right; right; left. split; [reflexivity|]. exists i. split; [exact T|exact T'].
    - right; right; right. cbn [bind]. eauto. }
  change (sm_name $"urlset") with (sitemap_ns $"urlset"). change (sm_name $"sitemapindex") with (sitemap_ns $"sitemapindex").
  destruct (str_eqb_spec (x_tag root) (sitemap_ns $"urlset")) as [T|N1].
  - destruct si as [[|]|].
    + right; left. split; [now right|]. intros i (Ti & [X|X] & _); [discriminate|]. injection X as <-.
      rewrite T in Ti. discriminate Ti.
    + apply (RUN false); auto.
    + apply (RUN false); auto.
  - destruct (str_eqb_spec (x_tag root) (sitemap_ns $"sitemapindex")) as [T|N2].
    + destruct si as [[|]|].
      * apply (RUN true); auto.
      * right; left. split; [now right|]. intros i (Ti & [X|X] & _); [discriminate|]. injection X as <-.
        rewrite T in Ti. discriminate Ti.
      * apply (RUN true); auto.
    + right; left. split; [now left|]. intros [|] (Ti & _); congruence.
Qed.

(** For a container that accepts every resource. *)
Lemma accepted_iff sm cap si root :
  (exists d i, parse_tree sm (fun r l => Ok (l ++ [r])) cap si (MkDoc [] [] []) root = Ok (d, i))
  <-> exists i, acceptable cap si root i /\ times_readable (s_spec_1_0 sm) root i.
Proof.
  destruct (tree_decides sm (fun r l => Ok (l ++ [r])) cap si (MkDoc [] [] []) root eq_refl)
    as [(d' & i & -> & A & T)|[[H A]|[[-> (j & T & R)]|(r & c & x & _ & X)]]].
  - split; eauto.
  - split.
    + intros (d & i & X). destruct H as [H|H]; rewrite H in X; discriminate.
    + intros (i & X & _). now destruct (A i).
  - split; [intros (d & i & X); discriminate|]. intros (i & (X & _) & Y). exfalso.
    assert (i = j) as -> by (rewrite T in X; destruct i, j; try reflexivity; discriminate X). now apply R.
  - discriminate.
Qed.

Lemma accepted_is_acceptable {C} sm (add : resource -> C -> res C) cap si (d d' : doc C) root i :
  sget $"capability" (d_md d) = None ->
  parse_tree sm add cap si d root = Ok (d', i) ->
  acceptable cap si root i /\ times_readable (s_spec_1_0 sm) root i.
Proof.
  intros D E. destruct (tree_decides sm add cap si d root D)
    as [(d2 & j & X & A & T)|[[[H|H] A]|[[H _]|(r & c & x & H & _)]]]; try congruence.
  rewrite E in X. injection X as <- <-. auto.
Qed.

Lemma accepted_text {C} sm (add : resource -> C -> res C) cap si (d d' : doc C) text i :
  sget $"capability" (d_md d) = None ->
  parse_xml sm add cap si d text = Ok (d', i) ->
  exists root, parse_text text = Ok root /\ acceptable cap si root i /\ times_readable (s_spec_1_0 sm) root i.
Proof.
  unfold parse_xml. intros D E. destruct (parse_text text) as [root|]; [|discriminate]. cbn [bind] in E.
  exists root. split; [reflexivity|]. eapply accepted_is_acceptable; eauto.
Qed.

(** The kinds of exception. *)
Lemma parse_errors {C} sm (add : resource -> C -> res C) cap si (d : doc C) root x :
  sget $"capability" (d_md d) = None -> (forall r c e, add r c <> Err e) ->
  parse_tree sm add cap si d root = Err x ->
  ((x = SitemapParseError \/ x = SitemapIndexError) /\ forall i : bool, ~ acceptable cap si root i)
  \/ (x = ValueError /\ exists i : bool, x_tag root = sitemap_ns (if i then $"sitemapindex" else $"urlset")
        /\ ~ times_readable (s_spec_1_0 sm) root i).
Proof.
  intros D A E. destruct (tree_decides sm add cap si d root D)
    as [(d2 & j & X & _)|[[H N]|[[H T]|(r & c & y & _ & H)]]].
  - congruence.
  - left. split; [|exact N]. destruct H as [H|H]; rewrite E in H; injection H as ->; auto.
  - right. rewrite E in H. injection H as ->. auto.
  - now destruct (A r c y).
Qed.

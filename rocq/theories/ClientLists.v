(** * ClientLists: what the lists are like that the client reads *)

From Verif Require Import Py PyFacts Float64 Float64Facts W3C Mapper UrlAuthority Resource ResourceSpec ResourceFacts
  Container ContainerSpec ContainerFacts Xml Sitemap ListIndex Capability Opener Url Client.

(** ** Times *)

Lemma rne_abs_le n e : 0 <= e -> Z.abs n <= 2 ^ 53 * 2 ^ e -> Z.abs (rne n (2 ^ e)) <= 2 ^ 53.
Proof.
  intros H N. pose proof (pow2_pos e H) as P.
  assert (rne n (2 ^ e) <= 2 ^ 53) by (apply rne_le; lia).
  assert (- 2 ^ 53 <= rne n (2 ^ e)) by (apply rne_ge; lia). lia.
Qed.
Lemma rnd_form n : exists m k, rnd n 1 = m * 2 ^ k /\ 0 <= k /\ Z.abs m <= 2 ^ 53.
Proof.
  unfold rnd, ulp_exp. rewrite Z.div_1_r, Z.mul_1_l. set (e := Z.max 0 (Z.log2 (Z.abs n) - 52)).
  exists (rne n (2 ^ e)), e. split; [reflexivity|]. split; [lia|]. apply rne_abs_le; [lia|].
  destruct (Z.eq_dec n 0) as [->|N]; [lia|]. rewrite <- Z.pow_add_r by lia.
  destruct (Z.log2_spec (Z.abs n)) as [_ L]; [lia|].
  assert (2 ^ Z.succ (Z.log2 (Z.abs n)) <= 2 ^ (53 + e)) by (apply Z.pow_le_mono_r; lia). lia.
Qed.
Lemma rnd_double n : is_double (rnd n 1).
Proof. destruct (rnd_form n) as (m & k & -> & K & M). apply rnd_exact; auto. Qed.
Lemma double_form x : is_double x -> exists m k, x = m * 2 ^ k /\ 0 <= k /\ Z.abs m <= 2 ^ 53.
Proof. intros D. destruct (rnd_form x) as (m & k & E & R). exists m, k. unfold is_double in D. rewrite D in E. auto. Qed.
Lemma rem_double x : is_double x -> is_double (Z.rem x SEC).
Proof.
  intros D. destruct (double_form x D) as (m & k & -> & K & M). unfold SEC.
  destruct (Z.le_gt_cases 1074 k) as [G|L].
  - replace (Z.rem (m * 2 ^ k) (2 ^ 1074)) with 0; [reflexivity|].
    symmetry. apply Z.rem_divide; [apply Z.pow_nonzero; lia|]. apply Z.divide_mul_r. apply pow2_divide. lia.
  - assert (2 ^ 1074 = 2 ^ (1074 - k) * 2 ^ k) as E by (rewrite <- Z.pow_add_r by lia; f_equal; lia). rewrite E.
    pose proof (pow2_pos k K). pose proof (pow2_pos (1074 - k) ltac:(lia)).
    rewrite Z.mul_rem_distr_r by lia. apply rnd_exact; auto.
    pose proof (Z.rem_le (Z.abs m) (2 ^ (1074 - k)) ltac:(lia) ltac:(lia)) as R.
    rewrite <- Z.rem_abs by lia. rewrite (Z.abs_eq (2 ^ (1074 - k))) by lia. lia.
Qed.
Lemma whole_seconds_diff t : whole_seconds t - t = - Z.rem t SEC.
Proof. unfold whole_seconds. rewrite int_part_quot. pose proof SEC_pos. pose proof (Z.quot_rem t SEC ltac:(lia)). lia. Qed.
Lemma rem_small t : Z.abs (Z.rem t SEC) < SEC.
Proof. pose proof SEC_pos. pose proof (Z.rem_bound_abs t SEC ltac:(lia)). lia. Qed.
Lemma whole_seconds_close t : Z.abs (whole_seconds t - t) < SEC.
Proof. rewrite whole_seconds_diff, Z.abs_opp. apply rem_small. Qed.
Lemma whole_seconds_equal t : is_double t -> Z.abs (fsub (whole_seconds t) t) < SEC.
Proof.
  intros D. unfold fsub. rewrite whole_seconds_diff, rnd_neg, Z.abs_opp, (rem_double t D). apply rem_small.
Qed.
Lemma equal_close a b : Z.abs (fsub a b) < SEC -> Z.abs (a - b) < SEC.
Proof.
  rewrite fsub_abs. intros H. destruct (Z.lt_ge_cases (Z.abs (a - b)) SEC) as [|G]; auto.
  pose proof (rnd_ge_pow2 (Z.abs (a - b)) 1074 ltac:(lia) G) as R. unfold SEC in H. lia.
Qed.

Lemma str_to_datetime_double s t : str_to_datetime s = Ok t -> is_double t.
Proof.
  unfold str_to_datetime. destruct s as [|c s]; [discriminate|]. destruct (cut_fraction _) as [s' frac].
  unfold parse_full. repeat (match goal with |- (match ?x with _ => _ end = _ -> _) => destruct x; try discriminate
    | |- (let* _ := ?x in _) = _ -> _ => destruct x; cbn; try discriminate end).
  all: intros [= <-]; apply rnd_double.
Qed.

(** ** Entries *)

Definition time_double (t : option Z) : Prop := match t with Some x => is_double x | None => True end.
Definition entry_ok (r : resource) : Prop :=
  time_double (r_timestamp r) /\ time_double (r_ts_datetime r) /\ valid_change (r_change r).

Lemma hash_loop_times es : forall r seen errors,
  let r' := fst (hash_loop es r seen errors) in
  r_timestamp r' = r_timestamp r /\ r_ts_datetime r' = r_ts_datetime r /\ r_change r' = r_change r.
Proof.
  induction es as [|e es IH]; intros r seen errors; cbn; auto. destruct (split1 _ e) as [[ty v]|]; cbn; auto.
  destruct (in_strs ty seen); [apply IH|].
  destruct (str_eqb ty $"md5"); [apply (IH (set_md5 (Some v) r))|].
  destruct (str_eqb ty $"sha-1"); [apply (IH (set_sha1 (Some v) r))|].
  destruct (str_eqb ty $"sha-256"); [apply (IH (set_sha256 (Some v) r))|]. apply IH.
Qed.
Lemma datetime_opt_double s t : str_to_datetime_opt s = Ok t -> time_double t.
Proof.
  destruct s as [s|]; cbn; [|intros [= <-]; exact I]. destruct (str_to_datetime s) as [x|] eqn:E; [|discriminate].
  cbn. intros [= <-]. cbn. apply (str_to_datetime_double s), E.
Qed.
Lemma change_types c : in_strs c CHANGE_TYPES = true -> valid_change (Some c).
Proof.
  intros H. apply in_strs_In in H. right. cbn in H. decompose [or] H; subst; auto. contradiction.
Qed.
Lemma copy_str_ok att set md r r' :
  (forall v x x', entry_ok x -> set (Some v) x = Ok x' -> entry_ok x') ->
  entry_ok r -> copy_str att set md r = Ok r' -> entry_ok r'.
Proof.
  intros S R. unfold copy_str. destruct (sget att md) as [[v|n|]|]; try (intros [= <-]; exact R). apply S, R.
Qed.
Ltac step_ok H := match type of H with
  | bind ?x _ = Ok _ => let r := fresh "r" in let E := fresh "E" in destruct x as [r|] eqn:E; [cbn [bind] in H|discriminate] end.
Lemma apply_md_ok md r r' : entry_ok r -> apply_md md r = Ok r' -> entry_ok r'.
Proof.
  intros R H. unfold apply_md in H.
  assert (forall v x x', entry_ok x -> Ok (set_capability (Some v) x) = Ok x' -> entry_ok x') as S1
    by (intros v x x' X [= <-]; exact X).
  assert (forall v x x', entry_ok x -> set_change (Some v) x = Ok x' -> entry_ok x') as S2.
  { intros v x x' (A & B & C). unfold set_change. destruct (in_strs v CHANGE_TYPES) eqn:I; [|discriminate]. intros [= <-].
    split; [exact A|]. split; [exact B|]. apply change_types, I. }
  assert (forall v x x', entry_ok x -> set_datetime (Some v) x = Ok x' -> entry_ok x') as S3.
  { intros v x x' (A & B & C) E. unfold set_datetime in E. destruct (str_to_datetime_opt (Some v)) as [t|] eqn:T; [|discriminate].
    cbn in E. injection E as <-. split; [exact A|]. split; [|exact C]. apply (datetime_opt_double (Some v)), T. }
  assert (forall v x x', entry_ok x -> Ok (set_path (Some v) x) = Ok x' -> entry_ok x') as S4
    by (intros v x x' X [= <-]; exact X).
  assert (forall v x x', entry_ok x -> Ok (set_mime_type (Some v) x) = Ok x' -> entry_ok x') as S5
    by (intros v x x' X [= <-]; exact X).
  assert (forall v x x', entry_ok x -> Ok (fst (set_hash (Some v) x)) = Ok x' -> entry_ok x') as S6.
  { intros v x x' (A & B & C) [= <-]. unfold set_hash.
    destruct (hash_loop_times (split_ws v) (set_sha256 None (set_sha1 None (set_md5 None x))) [] false) as (H1 & H2 & H3).
    unfold entry_ok. rewrite H1, H2, H3. repeat split; assumption. }
  step_ok H. apply (copy_str_ok _ _ _ _ _ S1 R) in E.
  step_ok H. apply (copy_str_ok _ _ _ _ _ S2 E) in E0.
  step_ok H. apply (copy_str_ok _ _ _ _ _ S3 E0) in E1.
  match type of H with context [copy_str $"path" _ _ ?x] => assert (entry_ok x) as E1' end.
  { destruct (sget $"length" md) as [[]|]; exact E1. }
  step_ok H. apply (copy_str_ok _ _ _ _ _ S4 E1') in E2.
  step_ok H. apply (copy_str_ok _ _ _ _ _ S5 E2) in E3.
  apply (copy_str_ok _ _ _ _ _ S6 E3) in H. exact H.
Qed.
Lemma resource_from_etree_ok sm e r : resource_from_etree sm e = Ok r -> entry_ok r.
Proof.
  unfold resource_from_etree. destruct (findall _ e) as [|loc [|]]; try discriminate.
  destruct (x_text loc) as [[|c s]|]; try discriminate. intros H.
  assert (entry_ok (new_resource (c :: s))) as R0 by (repeat split; left; reflexivity).
  step_ok H. assert (entry_ok r0) as R1.
  { destruct (findall (sm_name $"lastmod") e) as [|lm [|]]; [injection E as <-; exact R0| |discriminate].
    unfold set_lastmod in E. destruct (str_to_datetime_opt (x_text lm)) as [t|] eqn:T; [|discriminate].
    cbn in E. injection E as <-. split; [apply (datetime_opt_double _ _ T)|apply R0]. }
  step_ok H. assert (entry_ok r1) as R2.
  { destruct (findall (rs_name $"md") e) as [|m [|]]; [injection E0 as <-; exact R1| |discriminate].
    destruct (md_from_etree sm m) as [md|]; [|discriminate]. cbn in E0. eapply apply_md_ok; eauto. }
  destruct (findall (rs_name $"ln") e) as [|l ls]; [injection H as <-; exact R2|].
  destruct (mapM ln_from_etree (l :: ls)) as [ln|]; [|discriminate]. cbn in H. injection H as <-. exact R2.
Qed.

(** ** Documents *)

Section Inv.
  Context {C : Type} (add : resource -> C -> res C) (P : C -> Prop).
  Hypothesis add_ok : forall r c c', entry_ok r -> P c -> add r c = Ok c' -> P c'.

  Lemma parse_kids_inv sm tag kids : forall pre seen d d', P (d_items d) ->
    parse_kids sm add tag kids pre seen d = Ok d' -> P (d_items d').
  Proof.
    induction kids as [|e kids IH]; cbn [parse_kids]; intros pre seen d d' H E; [injection E as <-; exact H|].
    destruct (str_eqb (x_tag e) tag).
    - destruct (resource_from_etree sm e) as [r|] eqn:R; [|discriminate]. cbn [bind] in E.
      destruct (add r (d_items d)) as [items|] eqn:A; [|discriminate]. cbn [bind] in E.
      apply IH in E; auto. cbn. eapply add_ok; eauto. eapply resource_from_etree_ok; eauto.
    - destruct (str_eqb (x_tag e) (rs_name $"md")).
      + destruct pre; [|discriminate]. destruct seen; [discriminate|]. cbn [negb] in E.
        destruct (md_from_etree sm e); [|discriminate]. cbn [bind] in E. apply IH in E; auto.
      + destruct (str_eqb (x_tag e) (rs_name $"ln")); [|apply IH in E; auto].
        destruct pre; [|discriminate]. cbn [negb] in E. destruct (ln_from_etree e); [|discriminate].
        cbn [bind] in E. apply IH in E; auto.
  Qed.
  Lemma check_capability_inv name (d d' : doc C) : P (d_items d) -> check_capability name d = Ok d' -> P (d_items d').
  Proof.
    intros H. unfold check_capability. destruct name as [c|]; [|intros [= <-]; exact H].
    destruct (sget _ (d_md d)); cbn [bind].
    - destruct (sget _ (d_md d)); [|discriminate]. destruct (pv_eqb _ _); [intros [= <-]; exact H|discriminate].
    - destruct (str_eqb c _); [|discriminate]. cbn [bind]. destruct (sget _ _); [|discriminate].
      destruct (pv_eqb _ _); [intros [= <-]; exact H|discriminate].
  Qed.
  Lemma parse_xml_inv sm name six d text d' ix : P (d_items d) ->
    parse_xml sm add name six d text = Ok (d', ix) -> P (d_items d').
  Proof.
    intros H. unfold parse_xml. destruct (parse_text text) as [root|]; [|discriminate]. cbn [bind]. unfold parse_tree.
    assert (forall tag b, (let* d := parse_kids sm add tag (x_kids root) true false d in
      let* d := check_capability name d in Ok (d, b)) = Ok (d', ix) -> P (d_items d')) as K.
    { intros tag b E. destruct (parse_kids _ _ _ _ _ _ _) as [d1|] eqn:E1; [|discriminate]. cbn [bind] in E.
      destruct (check_capability name d1) as [d2|] eqn:E2; [|discriminate]. cbn [bind] in E. injection E as <- <-.
      apply (check_capability_inv name d1); auto. apply (parse_kids_inv _ _ _ _ _ d d1 H E1). }
    destruct (str_eqb (x_tag root) _); [destruct six as [[|]|]; try discriminate; apply K|].
    destruct (str_eqb (x_tag root) _); [destruct six as [[|]|]; try discriminate; apply K|discriminate].
  Qed.
End Inv.

Lemma insert_all_inv {C} insert (P : C -> Prop) :
  (forall r c c', entry_ok r -> P c -> insert r c = Ok c' -> P c') ->
  forall rs c c', Forall entry_ok rs -> P c -> insert_all insert rs c = Ok c' -> P c'.
Proof.
  intros A. induction rs as [|r rs IH]; cbn; intros c c' F H E; [injection E as <-; exact H|].
  inversion F; subst. destruct (insert r c) as [c1|] eqn:E1; [|discriminate]. cbn in E. eauto.
Qed.
Lemma read_component_inv {C} (k : kind C) (P : C -> Prop) fetch l iu f c u c' :
  (forall r c c', entry_ok r -> P c -> k_insert k r c = Ok c' -> P c') -> P c ->
  read_component k fetch l iu f c u = Ok c' -> P c'.
Proof.
  intros A H. unfold read_component.
  match goal with |- (let* _ := ?x in _) = _ -> _ => destruct x as [uri|]; [cbn [bind]|discriminate] end.
  match goal with |- (let* _ := ?x in _) = _ -> _ => destruct x as [text|]; [cbn [bind]|discriminate] end.
  destruct (parse_xml _ _ _ _ _ _) as [[d ix]|] eqn:E; [cbn [bind]|discriminate].
  apply insert_all_inv; auto.
  apply (parse_xml_inv (fun r rs => Ok (rs ++ [r])) (Forall entry_ok)) in E; auto; [|constructor].
  intros r c1 c2 R F [= <-]. apply Forall_app. auto.
Qed.
Lemma read_components_inv {C} (k : kind C) (P : C -> Prop) fetch l iu f :
  (forall r c c', entry_ok r -> P c -> k_insert k r c = Ok c' -> P c') ->
  forall us c c', P c -> read_components k fetch l iu f us c = Ok c' -> P c'.
Proof.
  intros A. induction us as [|u us IH]; cbn; intros c c' H E; [injection E as <-; exact H|].
  destruct (read_component k fetch l iu f c u) as [c1|] eqn:E1; [|discriminate]. cbn in E.
  apply (IH c1); auto. apply (read_component_inv k P fetch l iu f c u c1); auto.
Qed.
Lemma list_read_inv {C} (k : kind C) (P : C -> Prop) fetch io l uri l' :
  (forall r c c', entry_ok r -> P c -> k_add k r c = Ok c' -> P c') ->
  (forall r c c', entry_ok r -> P c -> k_insert k r c = Ok c' -> P c') ->
  P (d_items (l_doc l)) -> P (k_empty k) -> list_read k fetch io l uri = Ok l' -> P (d_items (l_doc l')).
Proof.
  intros A B H0 H1. unfold list_read. destruct (fetch uri) as [text|]; [cbn [bind]|discriminate].
  destruct (parse_xml _ _ _ _ _ _) as [[d ix]|] eqn:E; [cbn [bind]|discriminate].
  apply (parse_xml_inv (k_add k) P A) in E; auto.
  destruct ix; cbn [negb]; [|intros [= <-]; exact E].
  destruct (l_allow l); [cbn [negb]|discriminate]. destruct io; [intros [= <-]; exact E|].
  destruct (k_uris k (d_items d)) as [us|]; [cbn [bind]|discriminate].
  destruct (read_components _ _ _ _ _ _ _) as [c|] eqn:E2; [cbn [bind]|discriminate]. intros [= <-]. cbn.
  apply (read_components_inv k P fetch l uri (is_file_uri uri) B _ _ _ H1 E2).
Qed.

(** ** The lists *)

Definition list_ok (d : rdict) : Prop := wf_rl d /\ forall u r, In (u, r) d -> entry_ok r.

Lemma list_ok_add r d d' : entry_ok r -> list_ok d -> rl_add r false d = Ok d' -> list_ok d'.
Proof.
  intros R [W O]. unfold rl_add. destruct (smem (r_uri r) d) eqn:M; [discriminate|]. cbn [andb negb]. intros [= <-].
  apply smem_false in M. destruct W as [N W]. split.
  - split; [apply (NoDup_sset (r_uri r) r d N)|]. intros u x. rewrite (sset_fresh _ _ _ M), in_app_iff. intros [I|[[= <- <-]|[]]]; auto.
  - intros u x. rewrite (sset_fresh _ _ _ M), in_app_iff. intros [I|[[= <- <-]|[]]]; eauto.
Qed.
Lemma list_ok_nil : list_ok [].
Proof. split; [split; [exact (NoDup_nil _)|intros u r []]|intros u r []]. Qed.
Lemma read_resource_list_ok fetch c uri d : read_resource_list fetch c uri = Ok d -> list_ok d.
Proof.
  unfold read_resource_list. destruct (list_read _ _ _ _ _) as [l|e] eqn:E; cbn [wrapped]; [|destruct e; discriminate].
  cbn [bind]. intros [= <-]. apply (list_read_inv resource_list_kind list_ok) in E; auto.
  - intros r a b. apply list_ok_add.
  - intros r a b. apply list_ok_add.
  - apply list_ok_nil.
  - apply list_ok_nil.
Qed.
Lemma first_found_ok {A} (f : str -> res A) us o x : first_found f us o = Ok x -> (exists u, In u us /\ f u = Ok x) \/ o = Ok x.
Proof.
  induction us as [|u us IH]; cbn; [auto|]. destruct (f u) as [y|e] eqn:E.
  - intros [= <-]. left. exists u. auto.
  - destruct e; try discriminate. intros H. destruct (IH H) as [(v & I & Ev)|]; [left; exists v; auto|auto].
Qed.
Lemma find_resource_list_ok fetch c d : find_resource_list fetch c = Ok d -> list_ok d.
Proof.
  unfold find_resource_list. destruct (c_sitemap_name c); [apply read_resource_list_ok|].
  destruct (c_capability_list c) as [u|].
  - destruct (find_from_capability_list fetch u) as [rl|]; [apply read_resource_list_ok|discriminate].
  - destruct (sitemap c) as [sm|]; [cbn [bind]|discriminate]. destruct (uri_host sm) as [h|]; [cbn [bind]|discriminate].
    destruct (urljoin sm _) as [d1|]; [cbn [bind]|discriminate]. destruct (urljoin h _) as [d2|]; [cbn [bind]|discriminate].
    intros H. apply first_found_ok in H. destruct H as [(u & _ & H)|H].
    + destruct (find_from_source_description _ _) as [rl|]; [|discriminate]. apply read_resource_list_ok in H. exact H.
    + destruct (urljoin sm _) as [l1|]; [cbn [bind] in H|discriminate]. destruct (urljoin sm _) as [l2|]; [cbn [bind] in H|discriminate].
      destruct (urljoin h _) as [l3|]; [cbn [bind] in H|discriminate].
      apply first_found_ok in H. destruct H as [(u & _ & H)|]; [|discriminate]. apply read_resource_list_ok in H. exact H.
Qed.

(** Changes read from a change list all have a type. *)
Definition changes_ok (rs : list resource) : Prop := Forall (fun r => entry_ok r /\ known_change r = true) rs.
Lemma known_change_iff r : known_change r = true <->
  r_change r = Some $"updated" \/ r_change r = Some $"created" \/ r_change r = Some $"deleted".
Proof.
  unfold known_change, change_is. assert (forall s, opt_eqb str_eqb (r_change r) (Some s) = true <-> r_change r = Some s) as O.
  { intros s. destruct (r_change r) as [x|]; cbn; [|split; discriminate]. destruct (str_eqb_spec x s); split; congruence. }
  rewrite !orb_true_iff, !O. tauto.
Qed.
Lemma change_list_ok fetch uri name multi ms l :
  list_read change_list_kind fetch false (new_list change_list_kind name multi ms) uri = Ok l -> changes_ok (d_items (l_doc l)).
Proof.
  intros E. apply (list_read_inv change_list_kind changes_ok) in E; auto; try constructor; try discriminate.
  intros r a b R A. cbn. unfold cl_add. destruct (r_change r) as [ch|] eqn:C; [|discriminate]. intros [= <-].
  apply Forall_app. split; [exact A|]. constructor; [|constructor]. split; [exact R|]. apply known_change_iff.
  destruct R as (_ & _ & [N|[V|[V|V]]]); rewrite C in *; auto. discriminate.
Qed.

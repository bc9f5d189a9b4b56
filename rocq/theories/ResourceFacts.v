From Verif Require Import Py PyFacts Float64 Float64Facts W3C Resource ResourceSpec.

(** ** split_ws *)

Lemma split_ws_aux_word w s cur :
  (forall c, In c w -> is_space c = false) ->
  split_ws_aux (w ++ s) cur = split_ws_aux s (rev w ++ cur).
Proof.
  revert cur; induction w as [|x w IH]; intros cur H; simpl; auto.
  rewrite (H x) by (left; auto). rewrite IH by (intros; apply H; right; auto).
  now rewrite <- app_assoc.
Qed.

Lemma split_ws_join ws :
  Forall (fun w => w <> [] /\ forall c, In c w -> is_space c = false) ws ->
  split_ws (join $" " ws) = ws.
Proof.
  unfold split_ws. induction ws as [|w ws IH]; intros F; auto.
  inversion F as [|? ? [N S] F']; subst. cbn [join].
  destruct ws as [|w' ws].
  - rewrite <- (app_nil_r w) at 1. rewrite split_ws_aux_word by auto. cbn [split_ws_aux].
    rewrite app_nil_r. destruct (rev w) eqn:E.
    + exfalso; apply N. rewrite <- (rev_involutive w), E; auto.
    + rewrite <- E, rev_involutive; auto.
  - rewrite split_ws_aux_word by auto. rewrite app_nil_r.
    change ($" " ++ join $" " (w' :: ws)) with (" "%char :: join $" " (w' :: ws)).
    cbn [split_ws_aux]. replace (is_space " "%char) with true by reflexivity.
    destruct (rev w) eqn:E.
    + exfalso; apply N. rewrite <- (rev_involutive w), E; auto.
    + rewrite <- E, rev_involutive, IH; auto.
Qed.

(** ** C05 *)

Definition put_digests (m s1 s2 : option str) (r : resource) : resource :=
  set_sha256 s2 (set_sha1 s1 (set_md5 m r)).

Lemma hash_round_trip r s :
  ws_free (r_md5 r) -> ws_free (r_sha1 r) -> ws_free (r_sha256 r) ->
  set_hash (get_hash r) s =
  (set_sha256 (r_sha256 r) (set_sha1 (r_sha1 r) (set_md5 (r_md5 r) s)), None).
Proof.
  intros M S1 S2. unfold set_hash, get_hash.
  assert (P : forall p v, p <> [] -> (forall c, In c p -> is_space c = false) ->
     ws_free (Some v) -> p ++ v <> [] /\ forall c, In c (p ++ v) -> is_space c = false).
  { intros p v N Hp Hv. split; [destruct p; easy|].
    intros c Hc. apply in_app_iff in Hc as [Hc|Hc]; eauto. }
  assert (P1 : forall c, In c $"md5:" -> is_space c = false) by (apply chars_are_not; reflexivity).
  assert (P2 : forall c, In c $"sha-1:" -> is_space c = false) by (apply chars_are_not; reflexivity).
  assert (P3 : forall c, In c $"sha-256:" -> is_space c = false) by (apply chars_are_not; reflexivity).
  destruct (r_md5 r) as [m|] eqn:Em, (r_sha1 r) as [a|] eqn:Ea, (r_sha256 r) as [b|] eqn:Eb;
    cbn [prefixed app]; try reflexivity;
  rewrite split_ws_join by
    (repeat (apply Forall_cons; [apply P; [easy|assumption|assumption]|]); apply Forall_nil);
  reflexivity.
Qed.

(** ** C06 *)

Lemma first_for_cons_eq ty v ps : first_for ty ((ty, v) :: ps) = Some v.
Proof. unfold first_for; cbn. now rewrite str_eqb_refl. Qed.
Lemma first_for_cons_ne ty ty' v ps : ty <> ty' -> first_for ty ((ty', v) :: ps) = first_for ty ps.
Proof.
  intros H; unfold first_for; cbn. destruct (str_eqb_spec ty' ty); congruence.
Qed.
Lemma first_for_app ty ps qs :
  first_for ty (ps ++ qs) =
  match first_for ty ps with Some v => Some v | None => first_for ty qs end.
Proof.
  induction ps as [|[t v] ps IH]; cbn; auto.
  unfold first_for in *; cbn in *. destruct (str_eqb t ty); auto.
Qed.
Lemma first_for_none ty ps : first_for ty ps = None <-> ~ In ty (map fst ps).
Proof.
  induction ps as [|[t v] ps IH]; cbn; [unfold first_for; simpl; tauto|].
  destruct (str_eq_dec t ty) as [->|N].
  - rewrite first_for_cons_eq. split; [easy|tauto].
  - rewrite first_for_cons_ne by auto. rewrite IH. tauto.
Qed.

Definition digests_of (ps : list (str * str)) (r : resource) : resource :=
  put_digests (first_for $"md5" ps) (first_for $"sha-1" ps) (first_for $"sha-256" ps) r.

Lemma hash_loop_result entries : forall r done seen errors,
  (forall t, In t seen <-> In t (map fst done)) ->
  fst (hash_loop entries (digests_of done r) seen errors)
  = digests_of (done ++ typed_entries entries) r.
Proof.
  induction entries as [|e es IH]; intros r done seen errors S; cbn [hash_loop typed_entries].
  - now rewrite app_nil_r.
  - destruct (split1 ":"%char e) as [[ty v]|]; [|now rewrite app_nil_r].
    replace (done ++ (ty, v) :: typed_entries es) with ((done ++ [(ty, v)]) ++ typed_entries es)
      by (rewrite <- app_assoc; reflexivity).
    assert (S' : forall t, In t (ty :: seen) <-> In t (map fst (done ++ [(ty, v)]))).
    { intros t. rewrite map_app, in_app_iff, <- S. simpl. tauto. }
    destruct (in_strs ty seen) eqn:I.
    + apply in_strs_In in I. rewrite S in I.
      rewrite <- IH with (seen := seen) (errors := true).
      * do 2 f_equal. unfold digests_of. rewrite !first_for_app.
        assert (forall t, (match first_for t done with Some v0 => Some v0 | None => first_for t [(ty, v)] end) = first_for t done) as E.
        { intros t. destruct (first_for t done) eqn:F; auto.
          apply first_for_none in F. rewrite first_for_cons_ne; auto. intros ->; auto. }
        now rewrite !E.
      * intros t. rewrite <- S'. cbn [In]. split; [auto|].
        intros [<-|H]; auto. now apply S.
    + apply in_strs_false in I. rewrite S in I. apply first_for_none in I.
      assert (D : forall t, first_for t (done ++ [(ty, v)]) =
                            if str_eqb t ty then Some v else first_for t done).
      { intros t. rewrite first_for_app. destruct (str_eqb_spec t ty) as [->|N].
        - now rewrite I, first_for_cons_eq.
        - rewrite first_for_cons_ne by auto. destruct (first_for t done); auto. }
      assert (DD : digests_of (done ++ [(ty, v)]) r =
        if str_eqb ty $"md5" then set_md5 (Some v) (digests_of done r)
        else if str_eqb ty $"sha-1" then set_sha1 (Some v) (digests_of done r)
        else if str_eqb ty $"sha-256" then set_sha256 (Some v) (digests_of done r)
        else digests_of done r).
      { unfold digests_of. rewrite !D.
        rewrite (str_eqb_sym $"md5"), (str_eqb_sym $"sha-1"), (str_eqb_sym $"sha-256").
        destruct (str_eqb_spec ty $"md5") as [->|]; [reflexivity|].
        destruct (str_eqb_spec ty $"sha-1") as [->|]; [reflexivity|].
        destruct (str_eqb_spec ty $"sha-256") as [->|]; reflexivity. }
      destruct (str_eqb ty $"md5"); [rewrite <- DD; apply IH; auto|].
      destruct (str_eqb ty $"sha-1"); [rewrite <- DD; apply IH; auto|].
      destruct (str_eqb ty $"sha-256"); [rewrite <- DD; apply IH; auto|].
      rewrite <- DD; apply IH; auto.
Qed.

Lemma hash_loop_error entries : forall r seen errors,
  snd (hash_loop entries r seen errors) = None \/
  snd (hash_loop entries r seen errors) = Some ValueError.
Proof.
  induction entries as [|e es IH]; intros; cbn [hash_loop]; [destruct errors; auto|].
  destruct (split1 ":"%char e) as [[ty v]|]; auto.
  repeat match goal with |- context [if ?b then _ else _] => destruct b end; auto.
Qed.

Lemma hash_loop_errors entries : forall r seen errors,
  snd (hash_loop entries r seen errors) <> None <->
  errors = true \/ (exists e, In e entries /\ ~ In ":"%char e)
  \/ ~ NoDup (map fst (typed_entries entries))
  \/ (exists t, In t seen /\ In t (map fst (typed_entries entries)))
  \/ (exists t, In t (map fst (typed_entries entries)) /\ ~ In t supported_hashes).
Proof.
  induction entries as [|e es IH]; intros r seen errors; cbn [hash_loop typed_entries].
  - destruct errors; cbn.
    + split; [auto|easy].
    + split; [easy|]. intros [H|[(x & [] & _)|[H|[(x & _ & [])|(x & [] & _)]]]]; [easy|].
      exfalso; apply H; constructor.
  - destruct (split1 ":"%char e) as [[ty v]|] eqn:Sp.
    2:{ apply split1_none in Sp. cbn. split; [|easy]. intros _. right; left; eauto. }
    apply split1_spec in Sp as [Ee _].
    assert (Ec : In ":"%char e) by (rewrite Ee, in_app_iff; simpl; auto).
    cbn [map fst].
    destruct (in_strs ty seen) eqn:I.
    + apply in_strs_In in I. rewrite IH. split; auto 10.
      intros _. do 3 right. left. exists ty. simpl; auto.
    + apply in_strs_false in I.
      assert (K : forall r' errs', (errs' = true <-> errors = true \/ ~ In ty supported_hashes) ->
        (snd (hash_loop es r' (ty :: seen) errs') <> None <->
        errors = true \/ (exists e0, In e0 (e :: es) /\ ~ In ":"%char e0) \/
        ~ NoDup (ty :: map fst (typed_entries es)) \/
        (exists t, In t seen /\ In t (ty :: map fst (typed_entries es))) \/
        (exists t, In t (ty :: map fst (typed_entries es)) /\ ~ In t supported_hashes))).
      { intros r' errs' HE. rewrite IH, HE. clear IH HE. split.
        - intros [[H|H]|[(x & X & Y)|[H|[(x & X & Y)|(x & X & Y)]]]]; auto.
          + do 4 right. exists ty; simpl; auto.
          + right; left; exists x; simpl; auto.
          + do 2 right; left. intros ND; apply H. now inversion ND.
          + destruct X as [<-|X].
            * do 2 right; left. intros ND; inversion ND; auto.
            * do 3 right; left. exists x; simpl; auto.
          + do 4 right. exists x; simpl; auto.
        - intros [H|[(x & [<-|X] & Y)|[H|[(x & X & [<-|Y])|(x & [<-|X] & Y)]]]]; auto; try tauto.
          + right; left; eauto.
          + destruct (in_dec str_eq_dec ty (map fst (typed_entries es))) as [J|J].
            * do 3 right; left. exists ty; simpl; auto.
            * do 2 right; left. intros ND; apply H. constructor; auto.
          + do 3 right; left. exists x; simpl; auto.
          + do 4 right. exists x; auto. }
      destruct (str_eqb_spec ty $"md5") as [->|N1].
      { apply K. split; [auto|]. intros [|H]; auto. exfalso; apply H; simpl; auto. }
      destruct (str_eqb_spec ty $"sha-1") as [->|N2].
      { apply K. split; [auto|]. intros [|H]; auto. exfalso; apply H; simpl; auto. }
      destruct (str_eqb_spec ty $"sha-256") as [->|N3].
      { apply K. split; [auto|]. intros [|H]; auto. exfalso; apply H; simpl; auto. }
      apply K. split; auto. intros _. right. simpl. intuition.
Qed.

Lemma hash_parse s r r' e :
  set_hash (Some s) r = (r', e) ->
  let ps := typed_entries (split_ws s) in
  r' = set_sha256 (first_for $"sha-256" ps)
         (set_sha1 (first_for $"sha-1" ps) (set_md5 (first_for $"md5" ps) r))
  /\ (e = None \/ e = Some ValueError)
  /\ (e = Some ValueError <->
       (exists entry, In entry (split_ws s) /\ ~ In ":"%char entry)
       \/ ~ NoDup (map fst ps)
       \/ (exists ty, In ty (map fst ps) /\ ~ In ty supported_hashes)).
Proof.
  intros H ps. unfold set_hash in H.
  assert (H1 := hash_loop_result (split_ws s) r [] [] false).
  assert (H2 := hash_loop_error (split_ws s) (digests_of [] r) [] false).
  assert (H3 := hash_loop_errors (split_ws s) (digests_of [] r) [] false).
  change (digests_of [] r) with (set_sha256 None (set_sha1 None (set_md5 None r))) in *.
  rewrite H in *. cbn [fst snd] in *. split; [|split]; auto.
  - apply H1. simpl; tauto.
  - split.
    + intros ->. apply proj1 in H3.
      destruct H3 as [H3|[H3|[H3|[(t & [] & _)|H3]]]]; auto; easy.
    + intros K. destruct H2 as [->|]; auto. exfalso.
      apply proj2 in H3. apply H3; auto. tauto.
Qed.

(** ** C07 *)

Lemma clash_agree {A} (eqb : A -> A -> bool) (E : forall x y, eqb x y = true <-> x = y) a b :
  clash eqb a b = false <-> agree a b.
Proof.
  unfold clash, agree. destruct a as [x|], b as [y|]; split; try easy.
  - rewrite negb_false_iff, E. intros -> ? ? [= ->] [= ->]; auto.
  - intros H. rewrite negb_false_iff, E. auto.
Qed.

Lemma on_grid_some x : (2 ^ 1022 | x) -> on_grid (Some x).
Proof. intros H y E. injection E as <-. exact H. Qed.
Lemma on_grid_none : on_grid None.
Proof. intros y E. discriminate. Qed.

Lemma equal_iff r s delta :
  equal r s delta = true <->
  r_uri r = r_uri s /\
  match r_timestamp r, r_timestamp s with
  | None, None => True
  | Some a, Some b => Z.abs (fsub a b) < delta
  | _, _ => False
  end /\
  agree (r_md5 r) (r_md5 s) /\ agree (r_sha1 r) (r_sha1 s) /\
  agree (r_sha256 r) (r_sha256 s) /\ agree (r_length r) (r_length s).
Proof.
  unfold equal.
  rewrite <- (clash_agree str_eqb str_eqb_eq (r_md5 r)),
    <- (clash_agree str_eqb str_eqb_eq (r_sha1 r)),
    <- (clash_agree str_eqb str_eqb_eq (r_sha256 r)),
    <- (clash_agree Z.eqb Z.eqb_eq (r_length r)).
  rewrite <- (str_eqb_eq (r_uri r)).
  destruct (str_eqb (r_uri r) (r_uri s)); cbn [negb]; [|intuition congruence].
  destruct (r_timestamp r) as [a|], (r_timestamp s) as [b|]; try (intuition congruence);
    [destruct (Z.leb_spec delta (Z.abs (fsub a b))); [intuition lia|]|];
    destruct (clash str_eqb (r_md5 r) (r_md5 s)), (clash str_eqb (r_sha1 r) (r_sha1 s)),
      (clash str_eqb (r_sha256 r) (r_sha256 s)), (clash Z.eqb (r_length r) (r_length s));
    intuition congruence.
Qed.

Lemma r_eqb_spec r s :
  on_grid (r_timestamp r) -> on_grid (r_timestamp s) ->
  (r_eqb r s = true <-> no_proof_of_inequality r s).
Proof.
  intros Gr Gs. unfold r_eqb, no_proof_of_inequality. rewrite equal_iff.
  unfold close_times.
  destruct (r_timestamp r) as [a|], (r_timestamp s) as [b|]; try tauto.
  rewrite fsub_lt_sec; [tauto|apply Gr; auto|apply Gs; auto].
Qed.

Lemma fsub_self a : fsub a a = 0.
Proof. unfold fsub. rewrite Z.sub_diag. reflexivity. Qed.

Lemma equal_refl r delta : 0 < delta -> equal r r delta = true.
Proof.
  intros H. apply equal_iff. split; auto. split.
  - destruct (r_timestamp r); auto. rewrite fsub_self. simpl. auto.
  - unfold agree. repeat split; congruence.
Qed.
Lemma r_eqb_refl r : r_eqb r r = true.
Proof. apply equal_refl. apply SEC_pos. Qed.

Lemma agree_sym {A} (a b : option A) : agree a b -> agree b a.
Proof. unfold agree; intros H x y X Y. symmetry; eauto. Qed.

Lemma fsub_abs_sym a b : Z.abs (fsub a b) = Z.abs (fsub b a).
Proof. rewrite !fsub_abs. f_equal. lia. Qed.

Lemma equal_sym r s delta : equal r s delta = equal s r delta.
Proof.
  assert (forall r s, equal r s delta = true -> equal s r delta = true).
  { intros r0 s0. rewrite !equal_iff. intros (A & B & C & D & E & F).
    repeat split; auto using agree_sym.
    destruct (r_timestamp r0), (r_timestamp s0); auto. now rewrite fsub_abs_sym. }
  destruct (equal r s delta) eqn:E1, (equal s r delta) eqn:E2; auto.
  - apply H in E1. congruence.
  - apply H in E2. congruence.
Qed.

Definition r_at (u : str) (t : Z) : resource := set_timestamp (Some t) (new_resource u).

Lemma r_eqb_not_transitive :
  exists r s t, r_eqb r s = true /\ r_eqb s t = true /\ r_eqb r t = false.
Proof.
  exists (r_at $"http://a/" 0), (r_at $"http://a/" (SEC / 2)), (r_at $"http://a/" SEC).
  vm_compute. auto.
Qed.

Lemma equal_default_not_reflexive : exists r, equal r r 0 = false.
Proof. exists (r_at $"http://a/" 0). vm_compute. auto. Qed.

Lemma equal_default_with_timestamp r s t :
  r_timestamp r = Some t -> equal r s 0 = false.
Proof.
  intros H. destruct (equal r s 0) eqn:E; auto. apply equal_iff in E as (_ & E & _).
  rewrite H in E. destruct (r_timestamp s); lia.
Qed.

(** ** C08 *)

Lemma in_change_types c : in_strs c CHANGE_TYPES = true <-> valid_change (Some c).
Proof.
  rewrite in_strs_In. unfold CHANGE_TYPES, valid_change. cbn [In].
  intuition congruence.
Qed.

Lemma set_change_ok v r r' : set_change v r = Ok r' -> r' = store_change v r /\ valid_change v.
Proof.
  unfold set_change. destruct v as [c|].
  - destruct (in_strs c CHANGE_TYPES) eqn:E; intros [= <-]. split; auto. now apply in_change_types.
  - intros [= <-]. split; auto. left; auto.
Qed.
Lemma set_change_total v r : valid_change v -> set_change v r = Ok (store_change v r).
Proof.
  unfold set_change. destruct v as [c|]; auto. intros H. apply in_change_types in H. now rewrite H.
Qed.

Lemma override_change {A} (v : option A) set r :
  (forall x r, r_change (set x r) = r_change r) ->
  r_change (override v set r) = r_change r.
Proof. intros H. destruct v; simpl; auto. Qed.

Lemma bind_ok {A B} (x : res A) (f : A -> res B) b :
  bind x f = Ok b -> exists a, x = Ok a /\ f a = Ok b.
Proof. destruct x; simpl; [eauto|easy]. Qed.

Lemma override_res_ok {A} (v : option A) set r r' :
  override_res v set r = Ok r' -> (v = None /\ r' = r) \/ (exists x, v = Some x /\ set (Some x) r = Ok r').
Proof. destruct v; simpl; [right; eauto|intros [= ->]; auto]. Qed.

(** Inversion of a successful construction. *)
Lemma make_resource_inv src a r' :
  make_resource src a = Ok r' ->
  exists r0, (match src with Some s => r0 = s | None => r0 = new_resource [] /\ a_uri a <> None end) /\
  r_uri r' = match a_uri a with Some u => u | None => r_uri r0 end /\
  time_given_or (a_lastmod a) (a_timestamp a) (r_timestamp r0) (r_timestamp r') /\
  r_length r' = given_or (a_length a) (r_length r0) /\
  r_mime_type r' = given_or (a_mime_type a) (r_mime_type r0) /\
  r_md5 r' = given_or (a_md5 a) (r_md5 r0) /\
  r_sha1 r' = given_or (a_sha1 a) (r_sha1 r0) /\
  r_sha256 r' = given_or (a_sha256 a) (r_sha256 r0) /\
  r_change r' = given_or (a_change a) (r_change r0) /\
  (a_change a = None \/ valid_change (a_change a)) /\
  time_given_or (a_datetime a) (a_ts_datetime a) (r_ts_datetime r0) (r_ts_datetime r') /\
  r_path r' = given_or (a_path a) (r_path r0) /\
  r_ln r' = given_or (a_ln a) (r_ln r0) /\
  r_capability r' = given_or (a_capability a) (r_capability r0) /\
  time_given_or (a_md_at a) (a_ts_at a) (r_ts_at r0) (r_ts_at r') /\
  time_given_or (a_md_completed a) (a_ts_completed a) (r_ts_completed r0) (r_ts_completed r') /\
  time_given_or (a_md_from a) (a_ts_from a) (r_ts_from r0) (r_ts_from r') /\
  time_given_or (a_md_until a) (a_ts_until a) (r_ts_until r0) (r_ts_until r').
Proof.
  unfold make_resource.
  destruct (match src with Some s => (s, true) | None => (new_resource [], false) end) as [r0 h] eqn:E0.
  intros H. exists r0.
  destruct (match a_uri a with Some u => (set_uri u r0, true) | None => (r0, h) end) as [r1 h'] eqn:E1.
  (* peel the binds from the end *)
  apply bind_ok in H as (r2 & H2 & H). 
  apply bind_ok in H as (r3 & H3 & H).
  apply bind_ok in H as (r4 & H4 & H).
  apply bind_ok in H as (r5 & H5 & H).
  apply bind_ok in H as (r6 & H6 & H).
  apply bind_ok in H as (r7 & H7 & H).
  apply bind_ok in H as (r8 & H8 & H).
  destruct h' eqn:Eh; [|easy]. injection H as <-.
  split.
  { destruct src; [congruence|]. injection E0 as <- <-. split; auto.
    intros N. rewrite N in E1. congruence. }
  assert (U : r_uri r1 = match a_uri a with Some u => u | None => r_uri r0 end /\ r1 = set_uri (r_uri r1) r0).
  { destruct (a_uri a); inversion E1; subst r1; split; auto; destruct r0; reflexivity. }
  destruct U as [U R1]. rewrite <- U. clear E1 U Eh.
  set (u := r_uri r1) in *. clearbody u. subst r1.
  destruct r0 as [fu f1 f2 f3 f4 f5 f6 f7 f8 f9 f10 f11 f12 f13 f14 f15].
  assert (TT : forall (v:option str) setter (r r' : resource),
     override_res v (fun v r => let* t := str_to_datetime_opt v in Ok (setter t r)) r = Ok r' ->
     (v = None /\ r' = r) \/ (exists s t, v = Some s /\ str_to_datetime s = Ok t /\ r' = setter (Some t) r)).
  { intros v setter r r' HH. apply override_res_ok in HH as [[-> ->]|(x & -> & HH)]; auto.
    right. apply bind_ok in HH as (t & HT & HH). cbn in HT. apply bind_ok in HT as (t' & HT & [= <-]).
    injection HH as <-. eauto. }
  apply TT in H3; apply TT in H4; apply TT in H5; apply TT in H6; apply TT in H7; apply TT in H8.
  clear TT E0.
  assert (C : (a_change a = None \/ valid_change (a_change a)) /\
     r2 = MkR u (given_or (a_timestamp a) f1) (given_or (a_length a) f2) (given_or (a_mime_type a) f3)
       (given_or (a_md5 a) f4) (given_or (a_sha1 a) f5) (given_or (a_sha256 a) f6)
       (given_or (a_change a) f7) f8 f9 f10 f11 f12 f13 f14 f15).
  { apply override_res_ok in H2 as [[E ->]|(x & E & H2)].
    - rewrite E. split; auto.
      destruct (a_timestamp a), (a_length a), (a_mime_type a), (a_md5 a), (a_sha1 a), (a_sha256 a); reflexivity.
    - apply set_change_ok in H2 as [-> V]. rewrite E. split; auto.
      destruct (a_timestamp a), (a_length a), (a_mime_type a), (a_md5 a), (a_sha1 a), (a_sha256 a); reflexivity. }
  destruct C as [C ->]. clear H2.
  match type of H3 with _ \/ (exists _ _, _ /\ _ /\ _ = set_timestamp _ ?R) => set (rr := R) in * end.
  assert (RR : rr = MkR u (given_or (a_timestamp a) f1) (given_or (a_length a) f2) (given_or (a_mime_type a) f3)
       (given_or (a_md5 a) f4) (given_or (a_sha1 a) f5) (given_or (a_sha256 a) f6)
       (given_or (a_change a) f7) (given_or (a_ts_datetime a) f8) (given_or (a_path a) f9)
       (given_or (a_ln a) f10) (given_or (a_capability a) f11)
       (given_or (a_ts_at a) f12) (given_or (a_ts_completed a) f13) (given_or (a_ts_from a) f14)
       (given_or (a_ts_until a) f15)).
  { unfold rr. 
    destruct (a_ts_datetime a), (a_path a), (a_ts_at a), (a_ts_completed a), (a_ts_from a), (a_ts_until a), (a_capability a), (a_ln a); reflexivity. }
  rewrite RR in H3. clear RR rr.
  destruct H3 as [[E3 ->]|(s3 & t3 & E3 & P3 & ->)]; rewrite E3; clear E3;
  (destruct H4 as [[E4 ->]|(s4 & t4 & E4 & P4 & ->)]; rewrite E4; clear E4;
  (destruct H5 as [[E5 ->]|(s5 & t5 & E5 & P5 & ->)]; rewrite E5; clear E5;
  (destruct H6 as [[E6 ->]|(s6 & t6 & E6 & P6 & ->)]; rewrite E6; clear E6;
  (destruct H7 as [[E7 ->]|(s7 & t7 & E7 & P7 & ->)]; rewrite E7; clear E7;
  (destruct H8 as [[E8 ->]|(s8 & t8 & E8 & P8 & ->)]; rewrite E8; clear E8;
   cbn [r_uri r_timestamp r_length r_mime_type r_md5 r_sha1 r_sha256 r_change r_ts_datetime r_path r_ln r_capability r_ts_at r_ts_completed r_ts_from r_ts_until set_timestamp set_ts_datetime set_ts_at set_ts_completed set_ts_from set_ts_until time_given_or];
   repeat split; eauto))))).
Qed.

Lemma hash_loop_change entries : forall r seen errors,
  r_change (fst (hash_loop entries r seen errors)) = r_change r.
Proof.
  induction entries as [|e es IH]; intros; cbn [hash_loop]; auto.
  destruct (split1 ":"%char e) as [[ty v]|]; auto.
  repeat match goal with |- context [if ?b then _ else _] => destruct b end; rewrite ?IH; auto.
Qed.

Lemma apply_op_change o r : valid_change (r_change r) -> valid_change (r_change (fst (apply_op o r))).
Proof.
  intros V. destruct o; cbn [apply_op fst]; auto.
  1:{ destruct (set_change v r) eqn:E; simpl; auto. apply set_change_ok in E as [-> ?]; auto. }
  all: try (match goal with
      | |- context [keep _ (?f ?v ?x)] => unfold f; destruct (str_to_datetime_opt v); cbn; auto
      end).
  - destruct v; cbn [set_hash]; [rewrite hash_loop_change|]; auto.
  - unfold link_set. destruct (existsb _ _); cbn; auto.
  - destruct (make_resource (Some r) a) eqn:E; cbn; auto.
    apply make_resource_inv in E as (r0 & -> & _ & _ & _ & _ & _ & _ & _ & -> & C & _).
    unfold given_or. destruct (a_change a); auto. destruct C; [easy|auto].
Qed.

Lemma apply_ops_change ops r : valid_change (r_change r) -> valid_change (r_change (apply_ops ops r)).
Proof.
  revert r; unfold apply_ops; induction ops; intros r V; simpl; auto.
  apply IHops. now apply apply_op_change.
Qed.

Lemma change_always_valid a r ops :
  make_resource None a = Ok r -> valid_change (r_change (apply_ops ops r)).
Proof.
  intros H. apply apply_ops_change.
  apply make_resource_inv in H as (r0 & [-> _] & _ & _ & _ & _ & _ & _ & _ & -> & C & _).
  unfold given_or. destruct (a_change a); [|left; reflexivity]. destruct C; [easy|auto].
Qed.

Lemma bad_change_rejected r c :
  ~ valid_change (Some c) -> apply_op (OpChange (Some c)) r = (r, Some ChangeTypeError).
Proof.
  intros H. cbn [apply_op set_change]. destruct (in_strs c CHANGE_TYPES) eqn:E; auto.
  apply in_change_types in E. tauto.
Qed.

(** ** C09 *)

Lemma copy_total r a :
  (a_change a = None \/ valid_change (a_change a)) ->
  (forall s, In (Some s) [a_lastmod a; a_datetime a; a_md_at a; a_md_completed a; a_md_from a; a_md_until a] ->
     exists t, str_to_datetime s = Ok t) ->
  exists r', make_resource (Some r) a = Ok r'.
Proof.
  intros C D. unfold make_resource.
  assert (TT : forall v f (setter : option Z -> resource -> resource) r0,
    In v [a_lastmod a; a_datetime a; a_md_at a; a_md_completed a; a_md_from a; a_md_until a] ->
    (forall v r, f v r = let* t := str_to_datetime_opt v in Ok (setter t r)) ->
    exists y, override_res v f r0 = Ok y).
  { intros v f setter r0 I F. destruct v as [s|]; cbn [override_res]; [|eauto].
    destruct (D s I) as [t T]. rewrite F. cbn. rewrite T. cbn. eauto. }
  destruct (match a_uri a with Some u => (set_uri u r, true) | None => (r, true) end) as [r1 h] eqn:E1.
  assert (h = true) by (destruct (a_uri a); congruence). subst h.
  match goal with |- context [bind (override_res (a_change a) set_change ?x) _] =>
    assert (exists y, override_res (a_change a) set_change x = Ok y) as [y2 ->] end.
  { destruct (a_change a); cbn [override_res]; [|eauto]. destruct C; [easy|].
    rewrite set_change_total; eauto. }
  cbn [bind].
  repeat match goal with |- context [bind (override_res ?v ?f ?x) _] =>
    let E := fresh in
    edestruct (TT v f) as [? E]; [cbn [In]; tauto|intros; reflexivity|rewrite E; cbn [bind]; clear E] end.
  eauto.
Qed.

Lemma no_uri_rejected a r : a_uri a = None -> make_resource None a <> Ok r.
Proof.
  intros H E. apply make_resource_inv in E as (r0 & [_ N] & _). auto.
Qed.

(** ** C10 *)

Lemma sget_set_atts k atts l :
  ~ In k (map fst atts) -> sget k (set_atts atts l) = sget k l.
Proof.
  revert l; induction atts as [|[k' v'] atts IH]; intros l H; cbn in *; auto.
  rewrite IH by tauto. apply sget_sset_ne. intuition.
Qed.
Lemma sget_set_atts_in k v atts l :
  NoDup (map fst atts) -> In (k, v) atts -> sget k (set_atts atts l) = Some v.
Proof.
  revert l; induction atts as [|[k' v'] atts IH]; intros l ND H; cbn in *; [easy|].
  inversion ND; subst. destruct H as [[= -> ->]|H]; auto.
  fold (set_atts atts (sset k v l)). rewrite sget_set_atts by auto. apply sget_sset_eq.
Qed.

Lemma no_params atts :
  existsb (fun kv : str * pv => in_strs (fst kv) link_params) atts = false ->
  ~ In $"rel" (map fst atts) /\ ~ In $"href" (map fst atts).
Proof.
  intros H. split; intros I; apply in_map_iff in I as ([k v] & E & I); cbn in E; subst k;
  assert (existsb (fun kv : str * pv => in_strs (fst kv) link_params) atts = true)
    by (apply existsb_exists; eexists; split; [eauto|reflexivity]); congruence.
Qed.

Lemma link_has_rel_iff rel l : link_has_rel rel l = true <-> sget $"rel" l = Some (PStr rel).
Proof.
  unfold link_has_rel. destruct (sget $"rel" l) as [[s|n|]|]; cbn; try easy.
  rewrite str_eqb_eq. split; congruence.
Qed.

Lemma find_update_first_eq rel f ln l :
  find_link rel ln = Some l -> link_has_rel rel (f l) = true ->
  find_link rel (update_first rel f ln) = Some (f l).
Proof.
  unfold find_link. induction ln as [|x ln IH]; cbn; [easy|].
  destruct (link_has_rel rel x) eqn:E; cbn.
  - intros [= ->] H. now rewrite H.
  - intros H K. rewrite E. auto.
Qed.
Lemma find_update_first_ne rel rel' f ln :
  (forall l, link_has_rel rel l = true -> link_has_rel rel' l = false /\ link_has_rel rel' (f l) = false) ->
  find_link rel' (update_first rel f ln) = find_link rel' ln.
Proof.
  intros H. unfold find_link. induction ln as [|x ln IH]; cbn; auto.
  destruct (link_has_rel rel x) eqn:E; cbn.
  - destruct (H x E) as [-> ->]. auto.
  - now rewrite IH.
Qed.
Lemma find_link_app rel a b :
  find_link rel (a ++ b) = match find_link rel a with Some l => Some l | None => find_link rel b end.
Proof. unfold find_link. induction a; cbn; auto. destruct (link_has_rel rel a); auto. Qed.

Lemma find_link_single rel l :
  find_link rel [l] = if link_has_rel rel l then Some l else None.
Proof. reflexivity. Qed.

Lemma length_update_first rel f ln : List.length (update_first rel f ln) = List.length ln.
Proof. induction ln; cbn; auto. destruct (link_has_rel rel a); cbn; auto. Qed.

Lemma in_update_first rel f ln l :
  In l ln -> In l (update_first rel f ln) \/ find_link rel ln = Some l.
Proof.
  unfold find_link. induction ln as [|x ln IH]; cbn; [easy|].
  destruct (link_has_rel rel x) eqn:E; cbn; intuition congruence.
Qed.

Lemma new_link rel href atts :
  ~ In $"rel" (map fst atts) -> ~ In $"href" (map fst atts) ->
  let l := set_atts atts [($"rel", PStr rel); ($"href", PStr href)] in
  sget $"rel" l = Some (PStr rel) /\ sget $"href" l = Some (PStr href).
Proof. intros A B. cbv zeta. rewrite !sget_set_atts by auto. auto. Qed.

Lemma link_set_laws rel href atts r r' :
  NoDup (map fst atts) ->
  link_set rel href false atts r = Ok r' ->
  (exists l, get_link rel r' = Some l /\ sget $"rel" l = Some (PStr rel) /\
             sget $"href" l = Some (PStr href) /\
             forall k v, In (k, v) atts -> sget k l = Some v)
  /\ (forall rel', rel' <> rel -> get_link rel' r' = get_link rel' r)
  /\ (forall l, In l (links r) -> In l (links r') \/ get_link rel r = Some l)
  /\ (List.length (links r) <= List.length (links r') <= S (List.length (links r)))%nat
  /\ r' = set_ln (r_ln r') r.
Proof.
  intros ND. unfold link_set. destruct (existsb _ atts) eqn:P; [easy|].
  apply no_params in P as [P1 P2]. intros [= <-].
  pose proof (new_link rel href atts P1 P2) as [N1 N2].
  set (new := set_atts atts [($"rel", PStr rel); ($"href", PStr href)]) in *.
  assert (R : link_has_rel rel new = true) by now apply link_has_rel_iff.
  assert (NW : forall k v, In (k, v) atts -> sget k new = Some v) by (intros; now apply sget_set_atts_in).
  assert (RN : forall rel', rel' <> rel -> link_has_rel rel' new = false).
  { intros rel' Hn. destruct (link_has_rel rel' new) eqn:E; auto.
    apply link_has_rel_iff in E. congruence. }
  unfold get_link, links. cbn [r_ln set_ln].
  set (ln := match r_ln r with Some ln => ln | None => [] end).
  assert (G : forall x, match r_ln r with Some ln => find_link x ln | None => None end = find_link x ln).
  { unfold ln. destruct (r_ln r); auto. }
  setoid_rewrite G.
  destruct (find_link rel ln) as [l0|] eqn:F.
  - set (f := fun l : link => set_atts atts (sset $"href" (PStr href) l)).
    pose proof (find_some _ _ F) as [I0 H0].
    assert (Hf : forall l, link_has_rel rel l = true -> sget $"rel" (f l) = Some (PStr rel)).
    { intros l Hl. unfold f. rewrite sget_set_atts by auto. rewrite sget_sset_ne by easy.
      now apply link_has_rel_iff. }
    split; [|split; [|split; [|split]]].
    + exists (f l0). rewrite find_update_first_eq with (l := l0); auto.
      * split; auto. split; auto. split.
        -- unfold f. rewrite sget_set_atts by auto. apply sget_sset_eq.
        -- intros; now apply sget_set_atts_in.
      * apply link_has_rel_iff. apply Hf. exact H0.
    + intros rel' Hn. apply find_update_first_ne. intros l Hl. pose proof (Hf l Hl) as Hfl.
      apply link_has_rel_iff in Hl. split.
      * destruct (link_has_rel rel' l) eqn:E; auto. apply link_has_rel_iff in E. congruence.
      * destruct (link_has_rel rel' (f l)) eqn:E; auto. apply link_has_rel_iff in E. congruence.
    + intros l Hl. rewrite <- F. now apply in_update_first.
    + rewrite length_update_first. lia.
    + destruct r; reflexivity.
  - split; [|split; [|split; [|split]]].
    + exists new. rewrite find_link_app, F. rewrite find_link_single. rewrite R. auto.
    + intros rel' Hn. rewrite find_link_app. destruct (find_link rel' ln); auto.
      rewrite find_link_single. now rewrite RN.
    + intros l Hl. left. apply in_app_iff; auto.
    + rewrite app_length. simpl. lia.
    + destruct r; reflexivity.
Qed.

Lemma link_add_laws rel href atts r r' :
  NoDup (map fst atts) ->
  link_add rel href atts r = Ok r' ->
  (exists l, links r' = links r ++ [l] /\ sget $"rel" l = Some (PStr rel) /\
             sget $"href" l = Some (PStr href) /\ forall k v, In (k, v) atts -> sget k l = Some v)
  /\ (forall rel' l, get_link rel' r = Some l -> get_link rel' r' = Some l)
  /\ (forall rel', rel' <> rel -> get_link rel' r' = get_link rel' r).
Proof.
  intros ND. unfold link_add, link_set. destruct (existsb _ atts) eqn:P; [easy|].
  apply no_params in P as [P1 P2]. intros [= <-].
  pose proof (new_link rel href atts P1 P2) as [N1 N2].
  set (new := set_atts atts [($"rel", PStr rel); ($"href", PStr href)]) in *.
  assert (NW : forall k v, In (k, v) atts -> sget k new = Some v) by (intros; now apply sget_set_atts_in).
  unfold get_link, links. cbn [r_ln set_ln].
  set (ln := match r_ln r with Some ln => ln | None => [] end).
  assert (G : forall x, match r_ln r with Some ln => find_link x ln | None => None end = find_link x ln).
  { unfold ln. destruct (r_ln r); auto. }
  setoid_rewrite G.
  assert (E : match find_link rel ln with Some _ => ln ++ [new] | None => ln ++ [new] end = ln ++ [new])
    by (destruct (find_link rel ln); auto).
  rewrite E. split; [|split].
  - exists new; auto.
  - intros rel' l H. now rewrite find_link_app, H.
  - intros rel' Hn. rewrite find_link_app. destruct (find_link rel' ln); auto.
    rewrite find_link_single.
    destruct (link_has_rel rel' new) eqn:E'; auto. apply link_has_rel_iff in E'. congruence.
Qed.

(** * Proofs about shared lists of links *)

From Verif Require Import Py PyFacts Resource ResourceFacts Shared SharedSpec.
From Coq Require Import Lia.

Lemma upd_length {A} n (x : A) l : List.length (upd n x l) = List.length l.
Proof. revert n. induction l as [|y l IH]; intros [|n]; cbn; auto. Qed.
Lemma upd_same {A} n (x y : A) l : nth_error l n = Some y -> nth_error (upd n x l) n = Some x.
Proof. revert n. induction l as [|z l IH]; intros [|n]; cbn; try discriminate; auto. Qed.
Lemma upd_other {A} n m (x : A) l : n <> m -> nth_error (upd n x l) m = nth_error l m.
Proof. revert n m. induction l as [|z l IH]; intros [|n] [|m] N; cbn; auto; try congruence. Qed.
Lemma upd_idem {A} n (x : A) l : nth_error l n = Some x -> upd n x l = l.
Proof. revert n. induction l as [|z l IH]; intros [|n]; cbn; try discriminate; [now intros [= ->]|]. intro H. now rewrite IH. Qed.
Lemma map_upd {A B} (f : A -> B) n x l : map f (upd n x l) = upd n (f x) (map f l).
Proof. revert n. induction l as [|z l IH]; intros [|n]; cbn; auto. now rewrite IH. Qed.
Lemma nth_error_ext {A} (l l' : list A) : (forall n, nth_error l n = nth_error l' n) -> l = l'.
Proof.
  revert l'. induction l as [|x l IH]; intros [|y l'] H; auto; try (specialize (H O); discriminate).
  pose proof (H O) as E. injection E as ->. f_equal. apply IH. intro n. exact (H (S n)).
Qed.
Lemma set_ln_twice v v' r : set_ln v (set_ln v' r) = set_ln v r.
Proof. reflexivity. Qed.
Lemma set_ln_self r : set_ln (r_ln r) r = r.
Proof. now destruct r. Qed.

(** References point into the store. *)
Definition inside (st : store) : Prop := forall i o a, nth_error (objs st) i = Some o -> o_ln o = Some a -> (a < List.length (lists st))%nat.
Definition apart (st : store) : Prop := forall i j o o' a, nth_error (objs st) i = Some o -> nth_error (objs st) j = Some o' ->
  o_ln o = Some a -> o_ln o' = Some a -> i = j.

Lemma place_view new ln old m m' p r : place new ln old m = (m', p) -> (forall a, old = Some a -> (a < List.length m)%nat) ->
  view m' (MkObj (set_ln None r) p) = set_ln ln r.
Proof.
  unfold place, view. cbn [o_res o_ln]. rewrite set_ln_twice. destruct ln as [l|]; [|now intros [= <- <-]].
  destruct old as [a|]; [destruct new|]; intros [= <- <-] H; f_equal; try (rewrite nth_error_app2, Nat.sub_diag by lia; reflexivity).
  specialize (H a eq_refl). apply nth_error_Some in H. destruct (nth_error m a) eqn:E; [|easy]. now rewrite (upd_same _ _ _ _ E).
Qed.
Lemma place_inside new ln old m m' p : place new ln old m = (m', p) -> (forall a, old = Some a -> (a < List.length m)%nat) ->
  (List.length m <= List.length m')%nat /\ (forall a, p = Some a -> (a < List.length m')%nat).
Proof.
  unfold place. destruct ln as [l|]; [|now intros [= <- <-]].
  destruct old as [a|]; [destruct new|]; intros [= <- <-] H; rewrite ?app_length, ?upd_length; cbn; split; try lia; intros b [= <-]; try lia; auto.
Qed.
(** Another object is read as before unless it refers to the list that is written. *)
Lemma place_others new ln old m m' p a : place new ln old m = (m', p) -> (a < List.length m)%nat -> old <> Some a ->
  nth_error m' a = nth_error m a /\ p <> Some a.
Proof.
  unfold place. destruct ln as [l|]; [|intros [= <- <-]; split; [auto|discriminate]].
  destruct old as [b|]; [destruct new|]; intros [= <- <-] H N; rewrite ?nth_error_app1 by lia; split; auto; try (intros [= E]; lia).
  rewrite upd_other; auto.
Qed.

Lemma hash_loop_ln entries : forall r seen errors, r_ln (fst (hash_loop entries r seen errors)) = r_ln r.
Proof.
  induction entries as [|e es IH]; intros r seen errors; cbn [hash_loop]; auto. destruct (split1 _ _) as [[ty v]|]; auto.
  destruct (in_strs _ _); auto. repeat (destruct (str_eqb _ _); [now rewrite IH|]). now rewrite IH.
Qed.
Lemma keep_time (f : option str -> resource -> res resource) set v r :
  (forall v r, f v r = (let* t := W3C.str_to_datetime_opt v in Ok (set t r))) -> (forall t r, r_ln (set t r) = r_ln r) ->
  r_ln (fst (keep r (f v r))) = r_ln r.
Proof. intros F H. rewrite F. destruct (W3C.str_to_datetime_opt v); cbn; auto. Qed.
(** Only assignments to ln, copies with ln given and link_set change what links are read. *)
Lemma op_links op r r' raised : apply_op op r = (r', raised) ->
  match op with OpLn _ | OpLinkSet _ _ _ _ => True | OpCopy a => a_ln a <> None | _ => False end \/ r_ln r' = r_ln r.
Proof.
  intro E. assert (R : r' = fst (apply_op op r)) by now rewrite E. clear E. subst r'.
  destruct op; cbn [apply_op]; try (now left); try (right; reflexivity).
  - right. unfold set_change. destruct v; [destruct (in_strs _ _)|]; reflexivity.
  - right. now apply (keep_time _ set_timestamp).
  - right. now apply (keep_time _ set_ts_datetime).
  - right. now apply (keep_time _ set_ts_at).
  - right. now apply (keep_time _ set_ts_completed).
  - right. now apply (keep_time _ set_ts_from).
  - right. now apply (keep_time _ set_ts_until).
  - right. unfold set_hash. destruct v; [|reflexivity]. now rewrite hash_loop_ln.
  - destruct (a_ln a) eqn:A; [left; discriminate|right]. destruct (make_resource (Some r) a) as [x|] eqn:E; [|reflexivity]. cbn.
    apply make_resource_inv in E as (r0 & -> & E). decompose [and] E. rewrite A in *. cbn in *. congruence.
Qed.

(** ** Every event keeps references inside *)

Lemma step_inside st e : inside st -> inside (step st e).
Proof.
  intros I. destruct e as [[i|] a|i op]; cbn [step].
  - destruct (nth_error (objs st) i) as [o|] eqn:O; auto. destruct (make_resource _ a) as [r|]; auto.
    destruct (place _ _ _ _) as [m p] eqn:P. apply place_inside in P as (L & Pa); [|intros x Hx; now apply (I i o)].
    intros j o' b. cbn. intros H B. destruct (Nat.lt_ge_cases j (List.length (objs st))).
    + rewrite nth_error_app1 in H by auto. specialize (I j o' b H B). lia.
    + rewrite nth_error_app2 in H by auto. destruct (j - _)%nat as [|[|k]]; cbn in H; try discriminate. injection H as <-. auto.
  - destruct (make_resource None a) as [r|]; auto. destruct (place _ _ _ _) as [m p] eqn:P.
    apply place_inside in P as (L & Pa); [|discriminate].
    intros j o' b. cbn. intros H B. destruct (Nat.lt_ge_cases j (List.length (objs st))).
    + rewrite nth_error_app1 in H by auto. specialize (I j o' b H B). lia.
    + rewrite nth_error_app2 in H by auto. destruct (j - _)%nat as [|[|k]]; cbn in H; try discriminate. injection H as <-. auto.
  - destruct (nth_error (objs st) i) as [o|] eqn:O; auto. destruct (apply_op op _) as [r raised].
    destruct (place _ _ _ _) as [m p] eqn:P. apply place_inside in P as (L & Pa); [|intros x Hx; now apply (I i o)].
    intros j o' b. cbn. intros H B. destruct (Nat.eq_dec i j) as [<-|N].
    + rewrite (upd_same _ _ _ _ O) in H. injection H as <-. auto.
    + rewrite upd_other in H by auto. specialize (I j o' b H B). lia.
Qed.
Lemma run_inside es st : inside st -> inside (run es st).
Proof. revert st. induction es as [|e es IH]; intros st I; cbn; auto. apply IH. now apply step_inside. Qed.
Lemma inside_nothing : inside nothing.
Proof. intros [|i] o a; discriminate. Qed.
Lemma apart_nothing : apart nothing.
Proof. intros [|i] j o o' a; discriminate. Qed.

(** ** Attributes other than the links *)

Lemma step_obj st e i o : nth_error (objs st) i = Some o -> ~ about i e -> nth_error (objs (step st e)) i = Some o.
Proof.
  intros O N. pose proof (proj1 (nth_error_Some (objs st) i) ltac:(congruence)) as L. destruct e as [[j|] a|j op]; cbn [step].
  - destruct (nth_error (objs st) j); auto. destruct (make_resource _ a); auto. destruct (place _ _ _ _). cbn. now rewrite nth_error_app1.
  - destruct (make_resource _ a); auto. destruct (place _ _ _ _). cbn. now rewrite nth_error_app1.
  - destruct (nth_error (objs st) j) as [o'|]; auto. destruct (apply_op _ _). destruct (place _ _ _ _). cbn. rewrite upd_other; auto.
Qed.
Lemma others_kept es e i r : ~ about i e -> nth_error (seen (run es nothing)) i = Some r ->
  exists r', nth_error (seen (run (es ++ [e]) nothing)) i = Some r' /\ set_ln None r' = set_ln None r.
Proof.
  intros N. unfold run. rewrite fold_left_app. cbn [fold_left]. fold (run es nothing). generalize (run es nothing). intros st.
  unfold seen. rewrite !nth_error_map. destruct (nth_error (objs st) i) as [o|] eqn:O; [|discriminate]. cbn. intros [= <-].
  rewrite (step_obj st e i o O N). eexists; split; [reflexivity|]. unfold view. now rewrite !set_ln_twice.
Qed.

(** ** Careful sessions *)

Lemma place_map st ln p m' new old : place new ln old (lists st) = (m', p) -> inside st ->
  (forall j o a, nth_error (objs st) j = Some o -> o_ln o = Some a -> old = Some a -> nth_error m' a = nth_error (lists st) a) ->
  map (view m') (objs st) = seen st.
Proof.
  intros P I H. unfold seen. apply nth_error_ext. intro j. rewrite !nth_error_map.
  destruct (nth_error (objs st) j) as [o|] eqn:O; [|reflexivity]. cbn. f_equal. unfold view. destruct (o_ln o) as [a|] eqn:A; [|reflexivity].
  f_equal. destruct old as [b|].
  - destruct (Nat.eq_dec a b) as [<-|N]; [now apply (H j o)|]. refine (proj1 (place_others _ _ _ _ _ _ a P (I _ _ _ O A) _)). congruence.
  - refine (proj1 (place_others _ _ _ _ _ _ a P (I _ _ _ O A) _)). congruence.
Qed.
Lemma step_new st r p m' new : place new (r_ln r) None (lists st) = (m', p) -> inside st -> apart st ->
  seen (MkStore m' (objs st ++ [MkObj (set_ln None r) p])) = seen st ++ [r] /\ apart (MkStore m' (objs st ++ [MkObj (set_ln None r) p])).
Proof.
  intros P I Ap. split.
  - unfold seen at 1. cbn [lists objs]. rewrite map_app. cbn [map].
    rewrite (place_view _ _ _ _ _ _ r P) by discriminate. rewrite set_ln_self. f_equal. apply (place_map _ _ _ _ _ _ P I). discriminate.
  - assert (Fresh : forall j o a, nth_error (objs st) j = Some o -> o_ln o = Some a -> p <> Some a).
    { intros j o a O A. refine (proj2 (place_others _ _ _ _ _ _ a P (I _ _ _ O A) _)). discriminate. }
    intros i j o o' a. cbn [objs]. intros H H' A A'.
    destruct (Nat.lt_ge_cases i (List.length (objs st))) as [Li|Li], (Nat.lt_ge_cases j (List.length (objs st))) as [Lj|Lj];
      rewrite ?(nth_error_app1 _ _ Li), ?(nth_error_app2 _ _ Li) in H; rewrite ?(nth_error_app1 _ _ Lj), ?(nth_error_app2 _ _ Lj) in H'.
    + eauto.
    + destruct (j - _)%nat as [|[|k]]; cbn in H'; try discriminate. injection H' as <-. cbn in A'. now destruct (Fresh i o a H A).
    + destruct (i - _)%nat as [|[|k]]; cbn in H; try discriminate. injection H as <-. cbn in A. now destruct (Fresh j o' a H' A').
    + destruct (i - _)%nat as [|[|k]] eqn:Ei; cbn in H; try discriminate. destruct (j - _)%nat as [|[|k]] eqn:Ej; cbn in H'; try discriminate. lia.
Qed.
Lemma seen_nth st i : nth_error (seen st) i = option_map (view (lists st)) (nth_error (objs st) i).
Proof. unfold seen. apply nth_error_map. Qed.
Lemma step_own st e : inside st -> apart st ->
  match e with New (Some i) a => a_ln a <> None \/ (forall r, nth_error (seen st) i = Some r -> r_ln r = None) | _ => True end ->
  seen (step st e) = own_step (seen st) e /\ apart (step st e).
Proof.
  intros I Ap C. destruct e as [[i|] a|i op]; cbn [step own_step].
  - rewrite seen_nth in *. destruct (nth_error (objs st) i) as [o|] eqn:O; [|auto]. cbn [option_map] in *.
    destruct (make_resource _ a) as [r|] eqn:M; [|auto]. destruct (place _ _ _ _) as [m p] eqn:P.
    assert (Pn : place true (r_ln r) None (lists st) = (m, p)).
    { destruct (a_ln a) as [l|] eqn:A; cbn [is_given] in P.
      - rewrite <- P. unfold place. destruct (r_ln r), (o_ln o); reflexivity.
      - destruct C as [C|C]; [easy|]. specialize (C _ eq_refl). apply make_resource_inv in M as (r0 & -> & E). decompose [and] E.
        rewrite A in *. cbn [ResourceSpec.given_or] in *. assert (r_ln r = None) as N by congruence. rewrite N in *. cbn in *. exact P. }
    now apply (step_new _ _ _ _ true).
  - destruct (make_resource None a) as [r|]; [|auto]. destruct (place _ _ _ _) as [m p] eqn:P. now apply (step_new _ _ _ _ true).
  - rewrite seen_nth. destruct (nth_error (objs st) i) as [o|] eqn:O; [|auto]. cbn [option_map].
    destruct (apply_op op _) as [r raised]. cbn [fst]. destruct (place _ _ _ _) as [m p] eqn:P.
    assert (Io : forall a, o_ln o = Some a -> (a < List.length (lists st))%nat) by (intros; eapply I; eauto). split.
    + unfold seen at 1. cbn [lists objs]. rewrite map_upd, (place_view _ _ _ _ _ _ r P Io), set_ln_self.
      apply nth_error_ext. intro j. destruct (Nat.eq_dec i j) as [<-|N].
      * erewrite !upd_same; [reflexivity| |]; unfold seen; rewrite nth_error_map, O; reflexivity.
      * rewrite !upd_other by auto. unfold seen. rewrite !nth_error_map. destruct (nth_error (objs st) j) as [o'|] eqn:O'; [|reflexivity].
        cbn. f_equal. unfold view. destruct (o_ln o') as [b|] eqn:B; [|reflexivity]. f_equal.
        refine (proj1 (place_others _ _ _ _ _ _ b P (I _ _ _ O' B) _)). intro E. now apply N, (Ap i j o o' b).
    + intros j k o' o'' b. cbn [objs]. intros H H' B B'. destruct (Nat.eq_dec i j) as [<-|N], (Nat.eq_dec i k) as [<-|N']; auto.
      * rewrite (upd_same _ _ _ _ O) in H. injection H as <-. rewrite upd_other in H' by auto. cbn in B. exfalso.
        refine (proj2 (place_others _ _ _ _ _ _ b P (I _ _ _ H' B') _) B). intro E. now apply N', (Ap i k o o'' b).
      * rewrite (upd_same _ _ _ _ O) in H'. injection H' as <-. rewrite upd_other in H by auto. cbn in B'. exfalso.
        refine (proj2 (place_others _ _ _ _ _ _ b P (I _ _ _ H B) _) B'). intro E. now apply N, (Ap i j o o' b).
      * rewrite upd_other in H, H' by auto. eauto.
Qed.
Lemma careful_own es : careful [] es -> seen (run es nothing) = own_run es [].
Proof.
  change (careful (seen nothing) es -> seen (run es nothing) = own_run es (seen nothing)). generalize inside_nothing apart_nothing. generalize nothing. unfold run, own_run.
  induction es as [|e es IH]; intros st I Ap C; cbn [fold_left]; [reflexivity|]. destruct C as [C1 C2].
  destruct (step_own st e I Ap C1) as [S Ap']. rewrite <- S. apply IH; auto using step_inside. now rewrite S.
Qed.
Lemma own_others rs e i r : ~ about i e -> nth_error rs i = Some r -> nth_error (own_step rs e) i = Some r.
Proof.
  intros N H. pose proof (proj1 (nth_error_Some rs i) ltac:(congruence)) as L. destruct e as [[j|] a|j op]; cbn [own_step].
  - destruct (nth_error rs j); auto. destruct (make_resource _ _); auto. now rewrite nth_error_app1.
  - destruct (make_resource _ _); auto. now rewrite nth_error_app1.
  - destruct (nth_error rs j); auto. rewrite upd_other; auto.
Qed.
Lemma careful_app es e rs : careful rs (es ++ [e]) -> careful rs es.
Proof. revert rs. induction es as [|x es IH]; intros rs; cbn; auto. intros [H1 H2]. split; auto. Qed.
Lemma careful_independent es e i r : careful [] (es ++ [e]) -> ~ about i e ->
  nth_error (seen (run es nothing)) i = Some r -> nth_error (seen (run (es ++ [e]) nothing)) i = Some r.
Proof.
  intros C N H. rewrite careful_own in * by eauto using careful_app. unfold own_run. rewrite fold_left_app. cbn. now apply own_others.
Qed.

(** ** Copies share *)

Definition share (i k : nat) (st : store) : Prop :=
  exists o o' a, nth_error (objs st) i = Some o /\ nth_error (objs st) k = Some o' /\ o_ln o = Some a /\ o_ln o' = Some a.
Lemma link_set_some rel href dup atts r : r_ln r <> None -> r_ln (fst (apply_op (OpLinkSet rel href dup atts) r)) <> None.
Proof. intro H. cbn. unfold link_set. destruct (existsb _ _); cbn; auto. discriminate. Qed.
Lemma op_keeps i st op o a : inside st -> nth_error (objs st) i = Some o -> o_ln o = Some a -> ~ gives_links i (Do i op) ->
  exists o', nth_error (objs (step st (Do i op))) i = Some o' /\ o_ln o' = Some a.
Proof.
  intros I O A N. cbn [step]. rewrite O. destruct (apply_op op _) as [r raised] eqn:E. destruct (place _ _ _ _) as [m p] eqn:P. cbn [objs].
  rewrite (upd_same _ _ _ _ O). eexists; split; [reflexivity|]. cbn.
  assert (NL : new_list op raised = false).
  { unfold new_list. destruct raised; auto. destruct op; auto; [exfalso; apply N; now split|]. cbn.
    destruct (a_ln a0) eqn:G; auto. exfalso. apply N. split; [reflexivity|]. congruence. }
  assert (V : r_ln (view (lists st) o) <> None).
  { unfold view. rewrite A. cbn. apply nth_error_Some. eauto. }
  assert (R : r_ln r <> None).
  { destruct (op_links op _ _ _ E) as [H| ->]; auto. destruct op; try easy.
    - exfalso. apply N. split; cbn; auto.
    - change r with (fst (r, raised)). rewrite <- E. now apply link_set_some.
    - exfalso. apply N. split; cbn; auto. }
  rewrite NL, A in P. unfold place in P. destruct (r_ln r); [|easy]. now injection P as _ <-.
Qed.
Lemma classic_about n e : about n e \/ ~ about n e.
Proof. destruct e as [|m op]; cbn; [now right|]. destruct (Nat.eq_dec m n); auto. Qed.
Lemma step_share i k st e : inside st -> i <> k -> share i k st -> ~ gives_links i e -> ~ gives_links k e -> share i k (step st e).
Proof.
  intros I NE (o & o' & a & O & O' & A & A') N N'.
  assert (T : forall n, about n e -> exists op, e = Do n op) by (intros n H; destruct e; [easy|]; cbn in H; subst; eauto).
  destruct (classic_about i e) as [B|B].
  - destruct (T _ B) as [op ->]. destruct (op_keeps i st op o a I O A N) as (x & X & Xa). exists x, o', a. repeat split; auto. apply step_obj; auto.
  - destruct (classic_about k e) as [B'|B'].
    + destruct (T _ B') as [op ->]. destruct (op_keeps k st op o' a I O' A' N') as (x & X & Xa). exists o, x, a. repeat split; auto. now apply step_obj.
    + exists o, o', a. repeat split; auto using step_obj.
Qed.
Lemma copies_share es i a r r' es' : nth_error (seen (run es nothing)) i = Some r -> r_ln r <> None -> a_ln a = None ->
  make_resource (Some r) a = Ok r' -> let k := List.length (seen (run es nothing)) in
  (forall e, In e es' -> ~ gives_links i e /\ ~ gives_links k e) ->
  exists x y, nth_error (seen (run (es ++ New (Some i) a :: es') nothing)) i = Some x /\
    nth_error (seen (run (es ++ New (Some i) a :: es') nothing)) k = Some y /\ r_ln x = r_ln y /\ r_ln x <> None.
Proof.
  intros H L A M k N. unfold run. rewrite fold_left_app. cbn [fold_left]. fold (run es nothing). pose proof (run_inside es _ inside_nothing) as I.
  revert H k N. generalize dependent (run es nothing). intros st I H k N. fold (run es' (step st (New (Some i) a))).
  unfold seen in H. rewrite nth_error_map in H. destruct (nth_error (objs st) i) as [o|] eqn:O; [|discriminate]. injection H as H.
  pose proof (proj1 (nth_error_Some (objs st) i) ltac:(congruence)) as Li.
  assert (K : k = List.length (objs st)) by (unfold k, seen; apply map_length). clearbody k. subst k. set (k := List.length (objs st)) in *.
  assert (S : share i k (step st (New (Some i) a))).
  { cbn [step]. rewrite O, H, M, A. cbn [is_given].
    assert (E : r_ln r' = r_ln r). { apply make_resource_inv in M as (r0 & -> & E). decompose [and] E. rewrite A in *. cbn in *. congruence. }
    rewrite <- H in L. unfold view in L. destruct (o_ln o) as [p|] eqn:P; [|cbn in L; congruence].
    unfold place. rewrite E. rewrite <- H. unfold view. rewrite P. cbn [r_ln set_ln].
    destruct (nth_error (lists st) p) as [l|] eqn:Q; [|cbn in L; congruence]. exists o, (MkObj (set_ln None r') (Some p)), p. cbn [objs].
    rewrite nth_error_app1 by auto. rewrite nth_error_app2, Nat.sub_diag by lia. auto. }
  apply step_inside with (e := New (Some i) a) in I. revert I S. generalize (step st (New (Some i) a)). intros st' I S.
  assert (NE : i <> k) by lia. clearbody k. clear - I S N NE.
  revert st' I S. induction es' as [|e es' IH]; intros st' I S; cbn.
  - destruct S as (o & o' & p & O & O' & P & P'). unfold seen. rewrite !nth_error_map, O, O'. cbn. do 2 eexists. repeat split.
    + unfold view. cbn. now rewrite P, P'.
    + unfold view. cbn. rewrite P. apply nth_error_Some. eauto.
  - apply IH; [intros; apply N; now right|now apply step_inside|]. apply step_share; auto; apply (N e); now left.
Qed.

(** ** New links end the sharing *)

Definition alone (i : nat) (st : store) : Prop := forall o a, nth_error (objs st) i = Some o -> o_ln o = Some a ->
  forall j o', nth_error (objs st) j = Some o' -> o_ln o' = Some a -> j = i.
Lemma given_alone i v st o : inside st -> nth_error (objs st) i = Some o ->
  alone i (step st (Do i (OpLn v))) /\ nth_error (seen (step st (Do i (OpLn v)))) i = Some (set_ln v (view (lists st) o)).
Proof.
  intros I O. cbn [step apply_op new_list]. rewrite O. cbn [fst]. destruct (place _ _ _ _) as [m p] eqn:P. split.
  - intros x a. cbn [objs]. rewrite (upd_same _ _ _ _ O). intros [= <-] A j o' O' A'. cbn in A. subst p.
    destruct (Nat.eq_dec i j) as [<-|N]; auto. rewrite upd_other in O' by auto. exfalso. specialize (I _ _ _ O' A'). clear - P I.
    unfold place in P. cbn in P. destruct v; [|discriminate]. destruct (o_ln o); injection P as _ P; lia.
  - rewrite seen_nth. cbn [objs lists]. rewrite (upd_same _ _ _ _ O). cbn [option_map].
    rewrite (place_view _ _ _ _ _ _ _ P); [reflexivity|]. intros a A. eapply I; eauto.
Qed.
Lemma place_alone st i o new ln old m p j o' : inside st -> alone i st -> nth_error (objs st) i = Some o ->
  nth_error (objs st) j = Some o' -> j <> i -> old = o_ln o' -> place new ln old (lists st) = (m, p) ->
  view m o = view (lists st) o /\ (forall a, o_ln o = Some a -> p <> Some a).
Proof.
  intros I A O O' N -> P.
  assert (B : forall a, o_ln o = Some a -> nth_error m a = nth_error (lists st) a /\ p <> Some a).
  { intros a E. refine (place_others _ _ _ _ _ _ a P (I _ _ _ O E) _). intro E'. exact (N (A o a O E j o' O' E')). }
  split; [|intros a E; apply (B a E)]. unfold view. destruct (o_ln o) as [a|]; [|reflexivity]. now rewrite (proj1 (B a eq_refl)).
Qed.
Lemma app_alone st i o m r p : alone i st -> nth_error (objs st) i = Some o -> (forall a, o_ln o = Some a -> p <> Some a) ->
  alone i (MkStore m (objs st ++ [MkObj r p])).
Proof.
  intros A O F x a. cbn [objs]. pose proof (proj1 (nth_error_Some (objs st) i) ltac:(congruence)) as L.
  rewrite nth_error_app1 by auto. rewrite O. intros [= <-] E j o' O' E'. destruct (Nat.lt_ge_cases j (List.length (objs st))) as [Lj|Lj].
  - rewrite nth_error_app1 in O' by auto. eapply A; eauto.
  - rewrite nth_error_app2 in O' by auto. destruct (j - _)%nat as [|[|k]]; cbn in O'; try discriminate. injection O' as <-. cbn in E'. now destruct (F a E).
Qed.
Lemma alone_step i st e o : inside st -> alone i st -> nth_error (objs st) i = Some o -> ~ about i e -> (forall a, e <> New (Some i) a) ->
  alone i (step st e) /\ nth_error (seen (step st e)) i = nth_error (seen st) i.
Proof.
  intros I A O N N'.
  pose proof (step_obj st e i o O N) as O1. rewrite !seen_nth, O1, O. cbn [option_map]. revert O1. destruct e as [[j|] a|j op]; cbn [step].
  - destruct (nth_error (objs st) j) as [o'|] eqn:O'; [|auto]. destruct (make_resource _ a) as [r|]; [|auto].
    destruct (place _ _ _ _) as [m p] eqn:P. intros _. cbn [lists].
    destruct (place_alone st i o _ _ _ _ _ j o' I A O O' ltac:(intros ->; now apply (N' a)) eq_refl P) as [V F].
    rewrite V. split; [now apply (app_alone _ _ o)|reflexivity].
  - destruct (make_resource _ a) as [r|]; [|auto]. destruct (place _ _ _ _) as [m p] eqn:P. intros _. cbn [lists].
    assert (B : forall b, o_ln o = Some b -> nth_error m b = nth_error (lists st) b /\ p <> Some b).
    { intros b E. refine (place_others _ _ _ _ _ _ b P (I _ _ _ O E) _). discriminate. }
    split; [apply (app_alone _ _ o); auto; intros b E; apply (B b E)|]. unfold view. destruct (o_ln o) as [b|]; [|reflexivity]. now rewrite (proj1 (B b eq_refl)).
  - destruct (nth_error (objs st) j) as [o'|] eqn:O'; [|auto]. destruct (apply_op _ _) as [r raised].
    destruct (place _ _ _ _) as [m p] eqn:P. intros O1. cbn [lists]. assert (NE : j <> i) by (intros ->; now apply N).
    destruct (place_alone st i o _ _ _ _ _ j o' I A O O' NE eq_refl P) as [V F]. rewrite V. split; [|reflexivity].
    intros x b. cbn [objs] in *. rewrite O1. intros [= <-] E k y. destruct (Nat.eq_dec j k) as [<-|Nk].
    + rewrite (upd_same _ _ _ _ O'). intros [= <-] E'. cbn in E'. now destruct (F b E).
    + rewrite upd_other by auto. intros Y E'. eapply A; eauto.
Qed.
Lemma new_links es i r v es' : nth_error (seen (run es nothing)) i = Some r ->
  (forall e, In e es' -> ~ about i e /\ forall a, e <> New (Some i) a) ->
  nth_error (seen (run (es ++ Do i (OpLn v) :: es') nothing)) i = Some (set_ln v r).
Proof.
  unfold run. rewrite fold_left_app. cbn [fold_left]. fold (run es nothing). pose proof (run_inside es _ inside_nothing) as I.
  revert I. generalize (run es nothing). intros st I H N. rewrite seen_nth in H. destruct (nth_error (objs st) i) as [o|] eqn:O; [|discriminate].
  injection H as <-. destruct (given_alone i v st o I O) as [A S]. apply step_inside with (e := Do i (OpLn v)) in I. rewrite <- S.
  assert (X : nth_error (objs (step st (Do i (OpLn v)))) i <> None) by (intro E; rewrite seen_nth, E in S; discriminate).
  clear S O. fold (run es' (step st (Do i (OpLn v)))). revert A I X N. generalize (step st (Do i (OpLn v))) as st'. clear.
  induction es' as [|e es' IH]; intros st A I X N; [reflexivity|]. cbn. destruct (nth_error (objs st) i) as [o|] eqn:O; [|easy].
  destruct (N e (or_introl eq_refl)) as [N1 N2]. destruct (alone_step i st e o I A O N1 N2) as [A' S]. rewrite <- S.
  apply IH; auto using step_inside.
  - now rewrite (step_obj st e i o O N1).
  - intros x Hx. apply N. now right.
Qed.

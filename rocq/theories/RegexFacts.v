(** * RegexFacts: a relational reading of the regular expression matcher *)

From Verif Require Import Py PyFacts Regex.
Local Open Scope nat_scope.

(** [R r p c w k c']: at position [p] with groups [c], [r] can match [w] when [k]
    follows, leaving groups [c']. *)
Inductive R : re -> nat -> list (nat * str) -> str -> str -> list (nat * str) -> Prop :=
| R_eps p c k : R Eps p c [] k c
| R_cls p c neg items x k : cls_match neg items x = true -> R (Cls neg items) p c [x] k c
| R_cat a b p c w1 w2 k c1 c2 :
    R a p c w1 (w2 ++ k) c1 -> R b (p + List.length w1) c1 w2 k c2 ->
    R (Cat a b) p c (w1 ++ w2) k c2
| R_altl a b p c w k c' : R a p c w k c' -> R (Alt a b) p c w k c'
| R_altr a b p c w k c' : R b p c w k c' -> R (Alt a b) p c w k c'
| R_star0 a p c k : R (Star a) p c [] k c
| R_star1 a p c w1 w2 k c1 c2 :
    w1 <> [] -> R a p c w1 (w2 ++ k) c1 -> R (Star a) (p + List.length w1) c1 w2 k c2 ->
    R (Star a) p c (w1 ++ w2) k c2
| R_grp n a p c w k c' : R a p c w k c' -> R (Grp n a) p c w k (dset Nat.eqb n w c')
| R_bos c k : R Bos 0 c [] k c
| R_eos0 p c : R Eos p c [] [] c
| R_eos1 p c : R Eos p c [] [nl] c.

Definition run_sound_for (r : re) := forall p s c st,
  In st (run r (MSt p s c)) ->
  exists w k c', s = w ++ k /\ st = MSt (p + List.length w) k c' /\ R r p c w k c'.

Lemma star_loop_sound a : run_sound_for a -> forall fuel p s c st,
  In st (star_loop (run a) fuel (MSt p s c)) ->
  exists w k c', s = w ++ k /\ st = MSt (p + List.length w) k c' /\ R (Star a) p c w k c'.
Proof.
  intros Ha. induction fuel as [|f IH]; intros p s c st; cbn [star_loop].
  - intros [<-|[]]. exists [], s, c. repeat split; [simpl; f_equal; lia|constructor].
  - rewrite in_app_iff. intros [H|[<-|[]]].
    2:{ exists [], s, c. repeat split; [simpl; f_equal; lia|constructor]. }
    apply in_flat_map in H as (st1 & H1 & H2).
    apply Ha in H1 as (w1 & k1 & c1 & -> & -> & R1). cbn [m_pos] in H2.
    destruct (Nat.eqb_spec (p + List.length w1) p); [easy|].
    apply IH in H2 as (w2 & k & c2 & -> & -> & R2).
    exists (w1 ++ w2), k, c2. rewrite app_assoc, app_length. repeat split.
    + f_equal; lia.
    + econstructor; eauto. destruct w1; simpl in *; [lia|easy].
Qed.

Lemma run_sound r : run_sound_for r.
Proof.
  induction r; intros p s c st; cbn [run].
  - intros [<-|[]]. exists [], s, c. repeat split; [simpl; f_equal; lia|constructor].
  - cbn [m_rest m_pos m_caps]. destruct s as [|x s]; [easy|].
    destruct (cls_match neg items x) eqn:E; [|easy]. intros [<-|[]].
    exists [x], s, c. repeat split; [simpl; f_equal; lia|now constructor].
  - intros H. apply in_flat_map in H as (st1 & H1 & H2).
    apply IHr1 in H1 as (w1 & k1 & c1 & -> & -> & R1).
    apply IHr2 in H2 as (w2 & k & c2 & -> & -> & R2).
    exists (w1 ++ w2), k, c2. rewrite app_assoc, app_length. repeat split.
    + f_equal; lia.
    + econstructor; eauto.
  - rewrite in_app_iff. intros [H|H].
    + apply IHr1 in H as (w & k & c' & -> & -> & H). exists w, k, c'. repeat split; auto. now constructor.
    + apply IHr2 in H as (w & k & c' & -> & -> & H). exists w, k, c'. repeat split; auto. now apply R_altr.
  - apply star_loop_sound; auto.
  - rewrite in_map_iff. intros (st1 & <- & H).
    apply IHr in H as (w & k & c' & -> & -> & H).
    exists w, k, (dset Nat.eqb n w c'). cbn [m_pos m_rest m_caps]. repeat split.
    + f_equal. replace (p + List.length w - p) with (List.length w) by lia.
      now rewrite firstn_app, firstn_all, Nat.sub_diag, firstn_O, app_nil_r.
    + now constructor.
  - cbn [m_pos]. destruct (Nat.eqb_spec p 0) as [->|]; [|easy]. intros [<-|[]].
    exists [], s, c. repeat split. constructor.
  - cbn [m_rest]. destruct s as [|x [|y s]].
    + intros [<-|[]]. exists [], [], c. repeat split; [simpl; f_equal; lia|constructor].
    + destruct (ceqb x nl) eqn:E; [|easy]. apply ceqb_eq in E as ->. intros [<-|[]].
      exists [], [nl], c. repeat split; [simpl; f_equal; lia|constructor].
    + easy.
Qed.

Definition run_complete_for (r : re) := forall p c w k c',
  R r p c w k c' -> In (MSt (p + List.length w) k c') (run r (MSt p (w ++ k) c)).

Lemma star_loop_complete a : run_complete_for a -> forall w p c k c' fuel,
  List.length w <= fuel -> R (Star a) p c w k c' ->
  In (MSt (p + List.length w) k c') (star_loop (run a) fuel (MSt p (w ++ k) c)).
Proof.
  intros Ha w. remember (List.length w) as n eqn:En. revert w En.
  induction n as [n IH] using lt_wf_ind. intros w En p c k c' fuel F H.
  inversion H as [| | | | |? ? ? ?|? ? ? w1 w2 ? c1 ? NE R1 R2| | | |]; subst.
  - simpl. rewrite Nat.add_0_r. destruct fuel; cbn [star_loop]; [left; auto|].
    apply in_app_iff. right. left; auto.
  - rewrite app_length in *. destruct w1 as [|x w1]; [easy|]. cbn [List.length] in *.
    destruct fuel as [|f]; [lia|]. cbn [star_loop]. apply in_app_iff. left.
    apply in_flat_map. exists (MSt (p + List.length (x :: w1)) (w2 ++ k) c1). split.
    + rewrite <- app_assoc. now apply Ha.
    + cbn [m_pos List.length]. destruct (Nat.eqb_spec (p + S (List.length w1)) p); [lia|].
      replace (p + (S (List.length w1) + List.length w2))
        with ((p + S (List.length w1)) + List.length w2) by lia.
      eapply (IH (List.length w2)); auto; lia.
Qed.

Lemma run_complete r : run_complete_for r.
Proof.
  induction r; intros p c w k c' H.
  - inversion H; subst. simpl. rewrite Nat.add_0_r. auto.
  - inversion H; subst. cbn.
    match goal with E : cls_match _ _ _ = true |- _ => rewrite E end. left. f_equal. lia.
  - inversion H; subst. cbn [run]. apply in_flat_map. rewrite <- app_assoc, app_length.
    eexists. split; [apply IHr1; eauto|].
    replace (p + (List.length w1 + List.length w2)) with ((p + List.length w1) + List.length w2) by lia.
    now apply IHr2.
  - inversion H; subst; cbn [run]; apply in_app_iff; auto.
  - cbn [run]. apply star_loop_complete; auto. cbn [m_rest]. rewrite app_length. lia.
  - inversion H; subst. cbn [run]. apply in_map_iff. eexists. split; [|apply IHr; eauto].
    cbn [m_pos m_rest m_caps]. f_equal.
    f_equal. replace (p + List.length w - p) with (List.length w) by lia.
    now rewrite firstn_app, firstn_all, Nat.sub_diag, firstn_O, app_nil_r.
  - inversion H; subst. simpl. auto.
  - inversion H; subst; simpl; rewrite Nat.add_0_r; auto.
Qed.

(** re.match and R. *)
Lemma re_match_sound r s st :
  re_match r s = Some st ->
  exists w k c, s = w ++ k /\ st = MSt (List.length w) k c /\ R r 0 [] w k c.
Proof.
  unfold re_match. intros H.
  assert (In st (run r (MSt 0 s []))) as I by (destruct (run _ _); [easy|injection H as ->; left; auto]).
  now apply run_sound in I.
Qed.
Lemma re_match_none r s : re_match r s = None <-> forall w k c, s = w ++ k -> ~ R r 0 [] w k c.
Proof.
  unfold re_match. split.
  - intros H w k c -> HR. apply run_complete in HR. destruct (run _ _); easy.
  - intros H. destruct (run r (MSt 0 s [])) as [|st l] eqn:E; auto. exfalso.
    assert (In st (run r (MSt 0 s []))) as I by (rewrite E; left; auto).
    apply run_sound in I as (w & k & c & -> & _ & I). eapply H; eauto.
Qed.
Lemma re_match_some r w k c : R r 0 [] w k c -> exists st, re_match r (w ++ k) = Some st.
Proof.
  intros H. destruct (re_match r (w ++ k)) eqn:E; eauto.
  exfalso. rewrite re_match_none in E. eapply E; eauto.
Qed.
(** When only one match is possible, it is the one found. *)
Lemma re_match_unique r s w k c :
  s = w ++ k -> R r 0 [] w k c ->
  (forall w' k' c', s = w' ++ k' -> R r 0 [] w' k' c' -> w' = w /\ c' = c) ->
  re_match r s = Some (MSt (List.length w) k c).
Proof.
  intros -> H U. destruct (re_match_some _ _ _ _ H) as [st E]. rewrite E. f_equal.
  apply re_match_sound in E as (w' & k' & c' & E1 & -> & H').
  destruct (U w' k' c' E1 H') as [-> ->]. apply app_inv_head in E1. now subst.
Qed.

(** Inversion principles as equivalences. *)
Lemma R_eps_iff p c w k c' : R Eps p c w k c' <-> w = [] /\ c' = c.
Proof. split; [intros H; inversion H; auto|intros [-> ->]; constructor]. Qed.
Lemma R_cls_iff neg items p c w k c' :
  R (Cls neg items) p c w k c' <-> exists x, w = [x] /\ cls_match neg items x = true /\ c' = c.
Proof. split; [intros H; inversion H; subst; eauto|intros (x & -> & H & ->); now constructor]. Qed.
Lemma R_cat_iff a b p c w k c' :
  R (Cat a b) p c w k c' <->
  exists w1 w2 c1, w = w1 ++ w2 /\ R a p c w1 (w2 ++ k) c1 /\ R b (p + List.length w1) c1 w2 k c'.
Proof.
  split; [intros H; inversion H; subst; eauto 6|].
  intros (w1 & w2 & c1 & -> & H1 & H2). econstructor; eauto.
Qed.
Lemma R_alt_iff a b p c w k c' : R (Alt a b) p c w k c' <-> R a p c w k c' \/ R b p c w k c'.
Proof. split; [intros H; inversion H; auto|intros [|]; [now apply R_altl|now apply R_altr]]. Qed.
Lemma R_grp_iff n a p c w k c' :
  R (Grp n a) p c w k c' <-> exists c1, R a p c w k c1 /\ c' = dset Nat.eqb n w c1.
Proof. split; [intros H; inversion H; subst; eauto|intros (c1 & H & ->); now constructor]. Qed.
Lemma R_eos_iff p c w k c' : R Eos p c w k c' <-> w = [] /\ c' = c /\ (k = [] \/ k = [nl]).
Proof. split; [intros H; inversion H; auto|intros (-> & -> & [->| ->]); constructor]. Qed.
Lemma R_bos_iff p c w k c' : R Bos p c w k c' <-> w = [] /\ c' = c /\ p = 0.
Proof. split; [intros H; inversion H; auto|intros (-> & -> & ->); constructor]. Qed.
Lemma R_star_cls_iff neg items p c w k c' :
  R (Star (Cls neg items)) p c w k c' <-> forallb (cls_match neg items) w = true /\ c' = c.
Proof.
  split.
  - intros H. remember (Star (Cls neg items)) as r eqn:E. induction H; try discriminate E; auto.
    injection E as ->. apply R_cls_iff in H0 as (x & -> & A & ->).
    destruct (IHR2 eq_refl) as [B ->]. simpl. rewrite A. auto.
  - intros [H ->]. revert p; induction w as [|x w IH]; intros p; [constructor|].
    simpl in H. apply andb_true_iff in H as [A B].
    change (x :: w) with ([x] ++ w). econstructor; [easy| |apply IH; auto]. now constructor.
Qed.

(** A sequence of single-character classes. *)
Fixpoint clss (ps : list (bool * list citem)) : re :=
  match ps with
  | [] => Eps
  | [(n, i)] => Cls n i
  | (n, i) :: ps' => Cat (Cls n i) (clss ps')
  end.
Lemma R_clss_iff ps p c w k c' :
  R (clss ps) p c w k c' <->
  Forall2 (fun q x => cls_match (fst q) (snd q) x = true) ps w /\ c' = c.
Proof.
  revert p w; induction ps as [|[n i] ps IH]; intros p w.
  - cbn. rewrite R_eps_iff. split; intros [A B]; [subst; auto|inversion A; auto].
  - destruct ps as [|q ps].
    + cbn [clss]. rewrite R_cls_iff. split.
      * intros (x & -> & H & ->). auto.
      * intros [H ->]. inversion H; subst. inversion H4; subst. eauto.
    + change (clss ((n, i) :: q :: ps)) with (Cat (Cls n i) (clss (q :: ps))).
      rewrite R_cat_iff. split.
      * intros (w1 & w2 & c1 & -> & H1 & H2). apply R_cls_iff in H1 as (x & -> & H & ->).
        apply IH in H2 as [H2 ->]. split; auto. constructor; auto.
      * intros [H ->]. inversion H; subst. exists [y], l', c. repeat split; auto.
        -- now constructor.
        -- apply IH. auto.
Qed.

(** What a group captured. *)
Lemma cap_get_set n w c p k :
  cap_get n (MSt p k (dset Nat.eqb n w c)) = Some w.
Proof.
  unfold cap_get. cbn [m_caps]. induction c as [|[m x] c IH]; cbn [dset dget]; [now rewrite Nat.eqb_refl|].
  destruct (Nat.eqb_spec n m) as [->|N]; cbn [dget].
  - now rewrite Nat.eqb_refl.
  - apply Nat.eqb_neq in N. now rewrite N.
Qed.
Lemma cap_get_other n m w c p k : n <> m ->
  cap_get n (MSt p k (dset Nat.eqb m w c)) = cap_get n (MSt p k c).
Proof.
  intros N. apply Nat.eqb_neq in N as N'. unfold cap_get. cbn [m_caps].
  induction c as [|[q x] c IH]; cbn [dset dget]; [now rewrite N'|].
  destruct (Nat.eqb_spec m q) as [->|N2]; cbn [dget]; [now rewrite N'|].
  destruct (Nat.eqb n q); auto.
Qed.
Lemma cap_get_nil n p k : cap_get n (MSt p k []) = None.
Proof. reflexivity. Qed.

(** Take apart every hypothesis about a concrete pattern. *)
Ltac rinv1 :=
  match goal with
  | H : R Eps _ _ _ _ _ |- _ => apply R_eps_iff in H; destruct H as [? ?]
  | H : R (Cls _ _) _ _ _ _ _ |- _ => apply R_cls_iff in H; destruct H as (? & ? & ? & ?)
  | H : R (Cat _ _) _ _ _ _ _ |- _ => apply R_cat_iff in H; destruct H as (? & ? & ? & ? & ? & ?)
  | H : R (Alt _ _) _ _ _ _ _ |- _ => apply R_alt_iff in H; destruct H as [H|H]
  | H : R (Grp _ _) _ _ _ _ _ |- _ => apply R_grp_iff in H; destruct H as (? & ? & ?)
  | H : R Eos _ _ _ _ _ |- _ => apply R_eos_iff in H; destruct H as (? & ? & ?)
  | H : R Bos _ _ _ _ _ |- _ => apply R_bos_iff in H; destruct H as (? & ? & ?)
  | H : R (Star (Cls _ _)) _ _ _ _ _ |- _ => apply R_star_cls_iff in H; destruct H as (? & ?)
  end; subst.
Ltac rinv := repeat rinv1.

(** Prove that a concrete pattern matches. *)
Lemma R_cat_intro a b p c w k c' w1 w2 c1 :
  w = w1 ++ w2 -> R a p c w1 (w2 ++ k) c1 -> R b (p + List.length w1) c1 w2 k c' ->
  R (Cat a b) p c w k c'.
Proof. intros -> H1 H2. econstructor; eauto. Qed.
Lemma R_grp_intro n a p c w k c1 c' :
  R a p c w k c1 -> c' = dset Nat.eqb n w c1 -> R (Grp n a) p c w k c'.
Proof. intros H ->. now constructor. Qed.

Lemma cls_digit x : cls_match false [CDigit false] x = is_digit x.
Proof. unfold cls_match. cbn [existsb citem_match]. destruct (is_digit x); reflexivity. Qed.
Lemma cls_not_digit x : cls_match true [CDigit false] x = negb (is_digit x).
Proof. unfold cls_match. cbn [existsb citem_match]. destruct (is_digit x); reflexivity. Qed.
Lemma cls_single x y : cls_match false [CSingle x] y = ceqb x y.
Proof. unfold cls_match. cbn [existsb citem_match]. destruct (ceqb x y); reflexivity. Qed.
Lemma cls_dot x : cls_match true [CSingle nl] x = negb (ceqb nl x).
Proof. unfold cls_match. cbn [existsb citem_match]. destruct (ceqb nl x); reflexivity. Qed.

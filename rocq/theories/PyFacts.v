(** * PyFacts: lemmas about the Python fragment of Py.v *)

From Verif Require Import Py.
From Coq Require Import Permutation Sorting.Sorted.

(** ** Equality *)

Lemma ceqb_eq a b : ceqb a b = true <-> a = b.
Proof. apply Ascii.eqb_eq. Qed.
Lemma ceqb_refl a : ceqb a a = true.
Proof. apply ceqb_eq; reflexivity. Qed.
Lemma ceqb_neq a b : ceqb a b = false <-> a <> b.
Proof. apply Ascii.eqb_neq. Qed.

Lemma str_eqb_eq a b : str_eqb a b = true <-> a = b.
Proof.
  revert b; induction a as [|x a IH]; destruct b as [|y b]; simpl; try easy.
  rewrite andb_true_iff, ceqb_eq, IH. split; [intros [-> ->]|intros [= -> ->]]; auto.
Qed.
Lemma str_eqb_refl a : str_eqb a a = true.
Proof. apply str_eqb_eq; reflexivity. Qed.
Lemma str_eqb_neq a b : str_eqb a b = false <-> a <> b.
Proof. rewrite <- str_eqb_eq. destruct (str_eqb a b); split; congruence. Qed.
Lemma str_eqb_spec a b : reflect (a = b) (str_eqb a b).
Proof. destruct (str_eqb a b) eqn:E; constructor; [now apply str_eqb_eq|now apply str_eqb_neq]. Qed.
Lemma str_eqb_sym a b : str_eqb a b = str_eqb b a.
Proof. destruct (str_eqb_spec a b), (str_eqb_spec b a); congruence. Qed.
Lemma str_eq_dec (a b : str) : {a = b} + {a <> b}.
Proof. destruct (str_eqb_spec a b); auto. Qed.

Lemma code_inj a b : code a = code b -> a = b.
Proof.
  unfold code; intros H. rewrite <- (ascii_N_embedding a), <- (ascii_N_embedding b). congruence.
Qed.

(** ** Order *)

Lemma str_ltb_irrefl a : str_ltb a a = false.
Proof. induction a; simpl; auto. rewrite N.ltb_irrefl. auto. Qed.

Lemma str_ltb_trans a b c : str_ltb a b = true -> str_ltb b c = true -> str_ltb a c = true.
Proof.
  revert b c; induction a as [|x a IH]; destruct b as [|y b], c as [|z c]; simpl; try easy.
  destruct (N.ltb_spec (code x) (code y)), (N.ltb_spec (code y) (code x)),
    (N.ltb_spec (code y) (code z)), (N.ltb_spec (code z) (code y)),
    (N.ltb_spec (code x) (code z)), (N.ltb_spec (code z) (code x)); try lia; try easy.
  intros; eapply IH; eauto.
Qed.

Lemma str_ltb_total a b : str_ltb a b = true \/ a = b \/ str_ltb b a = true.
Proof.
  revert b; induction a as [|x a IH]; destruct b as [|y b]; simpl; auto.
  destruct (N.ltb_spec (code x) (code y)), (N.ltb_spec (code y) (code x)); auto.
  assert (x = y) by (apply code_inj; lia). subst.
  destruct (IH b) as [|[->|]]; auto.
Qed.

Lemma str_ltb_asym a b : str_ltb a b = true -> str_ltb b a = false.
Proof.
  intros H. destruct (str_ltb b a) eqn:E; auto.
  pose proof (str_ltb_trans _ _ _ H E). now rewrite str_ltb_irrefl in H0.
Qed.

Lemma str_leb_spec a b : str_leb a b = true <-> str_ltb a b = true \/ a = b.
Proof.
  unfold str_leb. rewrite negb_true_iff. split.
  - intros H. destruct (str_ltb_total a b) as [|[|]]; auto. congruence.
  - intros [H| ->]; [now apply str_ltb_asym|apply str_ltb_irrefl].
Qed.
Lemma str_leb_refl a : str_leb a a = true.
Proof. apply str_leb_spec; auto. Qed.
Lemma str_leb_trans a b c : str_leb a b = true -> str_leb b c = true -> str_leb a c = true.
Proof.
  rewrite !str_leb_spec. intros [H| ->] [K| ->]; auto.
  left; eapply str_ltb_trans; eauto.
Qed.
Lemma str_leb_antisym a b : str_leb a b = true -> str_leb b a = true -> a = b.
Proof.
  rewrite !str_leb_spec. intros [H|H] [K|K]; auto.
  apply str_ltb_asym in H. congruence.
Qed.
Lemma str_leb_total a b : str_leb a b = true \/ str_leb b a = true.
Proof. rewrite !str_leb_spec. destruct (str_ltb_total a b) as [|[|]]; auto. Qed.

(** ** Prefixes *)

Lemma startswith_spec p s : startswith p s = true <-> exists t, s = p ++ t.
Proof.
  revert s; induction p as [|x p IH]; intros s; simpl.
  - split; eauto.
  - destruct s as [|y s]; [split; [easy|intros [t H]; easy]|].
    rewrite andb_true_iff, ceqb_eq, IH. split.
    + intros [-> [t ->]]; eauto.
    + intros [t [= -> ->]]; eauto.
Qed.
Lemma startswith_app p t : startswith p (p ++ t) = true.
Proof. apply startswith_spec; eauto. Qed.

Lemma endswith_spec p s : endswith p s = true <-> exists t, s = t ++ p.
Proof.
  unfold endswith. rewrite startswith_spec. split; intros [t H].
  - exists (rev t). rewrite <- (rev_involutive s), H, rev_app_distr, rev_involutive. auto.
  - exists (rev t). rewrite H, rev_app_distr. auto.
Qed.

Lemma has_char_In c s : has_char c s = true <-> In c s.
Proof.
  unfold has_char. rewrite existsb_exists. split.
  - intros (x & H & E). apply ceqb_eq in E. subst; auto.
  - intros H; exists c; split; auto. apply ceqb_refl.
Qed.
Lemma has_char_false c s : has_char c s = false <-> ~ In c s.
Proof. rewrite <- has_char_In. destruct (has_char c s); split; congruence. Qed.

Lemma in_strs_In x l : in_strs x l = true <-> In x l.
Proof.
  unfold in_strs. rewrite existsb_exists. split.
  - intros (y & H & E). apply str_eqb_eq in E. subst; auto.
  - intros H; exists x; split; auto. apply str_eqb_refl.
Qed.
Lemma in_strs_false x l : in_strs x l = false <-> ~ In x l.
Proof. rewrite <- in_strs_In. destruct (in_strs x l); split; congruence. Qed.

(** ** Dictionaries *)

Section DictFacts.
  Context {V : Type}.
  Implicit Types (d : list (str * V)) (k : str) (v : V).

  Lemma sget_in k v d : sget k d = Some v -> In (k, v) d.
  Proof.
    induction d as [|[k' v'] d IH]; simpl; try easy.
    destruct (str_eqb_spec k k') as [->|]; [intros [= ->]|]; auto.
  Qed.
  Lemma sget_none k d : sget k d = None <-> ~ In k (dkeys d).
  Proof.
    unfold dkeys; induction d as [|[k' v'] d IH]; simpl; [tauto|].
    destruct (str_eqb_spec k k') as [->|]; [split; [easy|intros []; auto]|].
    rewrite IH. split; [intros ? [|]; congruence|tauto].
  Qed.
  Lemma sget_some_key k d : (exists v, sget k d = Some v) <-> In k (dkeys d).
  Proof.
    destruct (sget k d) eqn:E.
    - split; eauto. intros _. apply sget_in in E. unfold dkeys. now apply (in_map fst) in E.
    - apply sget_none in E. split; [intros [v H]; easy|easy].
  Qed.
  Lemma smem_In k d : smem k d = true <-> In k (dkeys d).
  Proof.
    unfold dmem. rewrite <- sget_some_key.
    destruct (sget k d); split; eauto; [easy|intros [? H]; easy].
  Qed.
  Lemma smem_false k d : smem k d = false <-> ~ In k (dkeys d).
  Proof. rewrite <- smem_In. destruct (smem k d); split; congruence. Qed.

  Lemma in_sget k v d : NoDup (dkeys d) -> In (k, v) d -> sget k d = Some v.
  Proof.
    unfold dkeys; induction d as [|[k' v'] d IH]; simpl; try easy.
    intros ND [H|H].
    - injection H as -> ->. now rewrite str_eqb_refl.
    - inversion ND; subst. destruct (str_eqb_spec k k') as [->|]; auto.
      exfalso; apply H2. now apply (in_map fst) in H.
  Qed.

  Lemma sget_sset_eq k v d : sget k (sset k v d) = Some v.
  Proof.
    induction d as [|[k' v'] d IH]; simpl; [now rewrite str_eqb_refl|].
    destruct (str_eqb k k') eqn:E; simpl; now rewrite E.
  Qed.
  Lemma sget_sset_ne k k' v d : k <> k' -> sget k (sset k' v d) = sget k d.
  Proof.
    intros NE. induction d as [|[k2 v2] d IH]; simpl.
    - destruct (str_eqb_spec k k'); congruence.
    - destruct (str_eqb_spec k' k2) as [->|]; simpl.
      + destruct (str_eqb_spec k k2); congruence.
      + now rewrite IH.
  Qed.
  Lemma sget_sset k k' v d : sget k (sset k' v d) = if str_eqb k k' then Some v else sget k d.
  Proof.
    destruct (str_eqb_spec k k') as [->|]; [apply sget_sset_eq|now apply sget_sset_ne].
  Qed.

  Lemma dkeys_sset_mem k v d : In k (dkeys d) -> dkeys (sset k v d) = dkeys d.
  Proof.
    unfold dkeys; induction d as [|[k' v'] d IH]; simpl; try easy.
    destruct (str_eqb_spec k k') as [->|]; simpl; auto.
    intros [|]; [congruence|]. now rewrite IH.
  Qed.
  Lemma sset_fresh k v d : ~ In k (dkeys d) -> sset k v d = d ++ [(k, v)].
  Proof.
    unfold dkeys; induction d as [|[k' v'] d IH]; simpl; auto.
    intros H. destruct (str_eqb_spec k k') as [->|]; [tauto|]. rewrite IH; tauto.
  Qed.
  Lemma dkeys_sset_fresh k v d : ~ In k (dkeys d) -> dkeys (sset k v d) = dkeys d ++ [k].
  Proof. intros H. rewrite sset_fresh; auto. unfold dkeys. now rewrite map_app. Qed.
  Lemma in_dkeys_sset x k v d : In x (dkeys (sset k v d)) <-> x = k \/ In x (dkeys d).
  Proof.
    destruct (in_dec str_eq_dec k (dkeys d)).
    - rewrite dkeys_sset_mem; auto. split; auto. intros [->|]; auto.
    - rewrite dkeys_sset_fresh; auto. rewrite in_app_iff. simpl. intuition.
  Qed.
  Lemma NoDup_sset k v d : NoDup (dkeys d) -> NoDup (dkeys (sset k v d)).
  Proof.
    intros ND. destruct (in_dec str_eq_dec k (dkeys d)).
    - now rewrite dkeys_sset_mem.
    - rewrite dkeys_sset_fresh; auto. apply NoDup_app_iff || idtac.
      assert (Permutation (k :: dkeys d) (dkeys d ++ [k])) by (apply Permutation_cons_append).
      eapply Permutation_NoDup; eauto. constructor; auto.
  Qed.

  Lemma in_dkeys_sdel x k d : NoDup (dkeys d) -> In x (dkeys (sdel k d)) <-> x <> k /\ In x (dkeys d).
  Proof.
    unfold dkeys; induction d as [|[k' v'] d IH]; simpl; [tauto|].
    intros ND; inversion ND; subst.
    destruct (str_eqb_spec k k') as [->|].
    - split; [intros H; split; auto; intros ->; auto|intuition congruence].
    - simpl. rewrite IH; auto. split; [intros [->|[]]; auto|intuition].
  Qed.
  Lemma NoDup_sdel k d : NoDup (dkeys d) -> NoDup (dkeys (sdel k d)).
  Proof.
    induction d as [|[k' v'] d IH]; simpl; auto.
    intros ND. unfold dkeys in *. simpl in ND. inversion ND; subst.
    destruct (str_eqb k k'); auto. simpl. constructor; auto.
    intros H. apply H1. apply in_dkeys_sdel in H; unfold dkeys; tauto.
  Qed.
  Lemma sget_sdel_ne k k' d : k <> k' -> sget k (sdel k' d) = sget k d.
  Proof.
    intros NE. induction d as [|[k2 v2] d IH]; simpl; auto.
    destruct (str_eqb_spec k' k2) as [->|]; simpl; [destruct (str_eqb_spec k k2); congruence|].
    now rewrite IH.
  Qed.
  Lemma sget_sdel_eq k d : NoDup (dkeys d) -> sget k (sdel k d) = None.
  Proof. intros ND. apply sget_none. rewrite in_dkeys_sdel; tauto. Qed.
  Lemma sget_app k d1 d2 :
    sget k (d1 ++ d2) = match sget k d1 with Some v => Some v | None => sget k d2 end.
  Proof.
    induction d1 as [|[k' v'] d1 IH]; simpl; auto. destruct (str_eqb k k'); auto.
  Qed.
End DictFacts.

(** ** Sorting *)

Definition str_le (a b : str) : Prop := str_leb a b = true.
Definition str_lt (a b : str) : Prop := str_ltb a b = true.

Lemma insert_str_perm x l : Permutation (x :: l) (insert_str x l).
Proof.
  induction l as [|y l IH]; simpl; auto.
  destruct (str_leb x y); auto.
  transitivity (y :: x :: l); [constructor|auto].
Qed.
Lemma sort_strs_perm l : Permutation l (sort_strs l).
Proof.
  induction l; simpl; auto. transitivity (a :: sort_strs l); auto. apply insert_str_perm.
Qed.
Lemma insert_str_sorted x l :
  StronglySorted str_le l -> StronglySorted str_le (insert_str x l).
Proof.
  induction l as [|y l IH]; simpl; intros S.
  - repeat constructor.
  - inversion S; subst. destruct (str_leb x y) eqn:E.
    + constructor; auto. constructor; auto.
      eapply Forall_impl; [|eauto]. intros z Hz. eapply str_leb_trans; eauto.
    + constructor; auto.
      assert (str_le y x). { destruct (str_leb_total x y); unfold str_le in *; congruence. }
      eapply Permutation_Forall; [apply insert_str_perm|]. constructor; auto.
Qed.
Lemma sort_strs_sorted l : StronglySorted str_le (sort_strs l).
Proof. induction l; simpl; [constructor|]. now apply insert_str_sorted. Qed.
Lemma sort_strs_In x l : In x (sort_strs l) <-> In x l.
Proof.
  split; apply Permutation_in; [symmetry|]; apply sort_strs_perm.
Qed.
Lemma sort_strs_NoDup l : NoDup l -> NoDup (sort_strs l).
Proof. intros H; eapply Permutation_NoDup; [apply sort_strs_perm|auto]. Qed.

Lemma sorted_le_lt l : StronglySorted str_le l -> NoDup l -> StronglySorted str_lt l.
Proof.
  induction 1; intros ND; constructor; inversion ND; subst; auto.
  rewrite Forall_forall in *. intros y Hy. specialize (H0 y Hy).
  apply str_leb_spec in H0 as [|]; auto. subst. tauto.
Qed.
Lemma sort_strs_strict l : NoDup l -> StronglySorted str_lt (sort_strs l).
Proof. intros; apply sorted_le_lt; [apply sort_strs_sorted|now apply sort_strs_NoDup]. Qed.

(** A strictly sorted list is determined by its members. *)
Lemma strict_sorted_ext l1 l2 :
  StronglySorted str_lt l1 -> StronglySorted str_lt l2 ->
  (forall x, In x l1 <-> In x l2) -> l1 = l2.
Proof.
  intros S1; revert l2; induction S1 as [|a l1 S1 IH F1]; intros l2 S2 E.
  - destruct l2 as [|b l2]; auto. exfalso; apply (E b); left; auto.
  - destruct S2 as [|b l2 S2 F2]; [exfalso; apply (E a); left; auto|].
    rewrite Forall_forall in F1, F2.
    assert (a = b).
    { destruct (proj1 (E a)) as [|Ha]; [left; auto|auto|].
      destruct (proj2 (E b)) as [|Hb]; [left; auto|auto|].
      apply F1 in Hb. apply F2 in Ha. unfold str_lt in *.
      apply str_ltb_asym in Hb. congruence. }
    subst b. f_equal. apply IH; auto. intros x. split; intros H.
    + destruct (proj1 (E x)) as [|]; [right; auto| |auto]. subst x.
      apply F1 in H. unfold str_lt in H. rewrite str_ltb_irrefl in H. easy.
    + destruct (proj2 (E x)) as [|]; [right; auto| |auto]. subst x.
      apply F2 in H. unfold str_lt in H. rewrite str_ltb_irrefl in H. easy.
Qed.

(** ** split / join *)

Lemma split_on_nonempty c s : split_on c s <> [].
Proof. destruct s; simpl; try easy. destruct (ceqb a c); try easy. destruct (split_on c s); easy. Qed.

Lemma join_split_on c s : join [c] (split_on c s) = s.
Proof.
  induction s as [|x s IH]; simpl; auto.
  destruct (ceqb x c) eqn:E.
  - apply ceqb_eq in E as ->. pose proof (split_on_nonempty c s).
    destruct (split_on c s) as [|f fs]; [easy|]. simpl. simpl in IH. now rewrite IH.
  - pose proof (split_on_nonempty c s).
    destruct (split_on c s) as [|f fs]; [easy|]. destruct fs; simpl in *; congruence.
Qed.

Lemma split_on_no c s : ~ In c s -> split_on c s = [s].
Proof.
  induction s as [|x s IH]; simpl; auto. intros H.
  destruct (ceqb x c) eqn:E; [apply ceqb_eq in E; tauto|]. rewrite IH; tauto.
Qed.
Lemma split_on_app c a b : ~ In c a -> split_on c (a ++ c :: b) = a :: split_on c b.
Proof.
  induction a as [|x a IH]; simpl; intros H.
  - now rewrite ceqb_refl.
  - destruct (ceqb x c) eqn:E; [apply ceqb_eq in E; tauto|]. rewrite IH; tauto.
Qed.
Lemma split_on_fields c s f : In f (split_on c s) -> ~ In c f.
Proof.
  revert f; induction s as [|x s IH]; simpl; intros f.
  - intros [<-|[]]; auto.
  - destruct (ceqb x c) eqn:E.
    + intros [<-|H]; auto.
    + apply ceqb_neq in E. destruct (split_on c s) as [|g gs].
      * intros [<-|[]]. simpl. intuition.
      * intros [<-|H]; [|apply IH; right; auto].
        simpl. intros [|]; [congruence|]. apply (IH g); [left|]; auto.
Qed.

Lemma split1_spec c s a b : split1 c s = Some (a, b) <-> s = a ++ c :: b /\ ~ In c a.
Proof.
  revert a b; induction s as [|x s IH]; simpl; intros a b.
  - split; [easy|]. intros [H _]. now destruct a.
  - destruct (ceqb x c) eqn:E.
    + apply ceqb_eq in E as ->. split.
      * intros [= <- <-]. auto.
      * intros [H N]. destruct a as [|y a]; simpl in *; [congruence|].
        injection H as -> _. tauto.
    + apply ceqb_neq in E. destruct (split1 c s) as [[a' b']|] eqn:S.
      * destruct (proj1 (IH a' b') eq_refl) as [-> N]. split.
        -- intros [= <- <-]. simpl. intuition.
        -- intros [H N']. destruct a as [|y a]; simpl in *; [congruence|].
           injection H as <- H.
           assert (K : Some (a', b') = Some (a, b)) by (apply IH; split; [auto|intuition]).
           congruence.
      * split; [easy|]. intros [H N]. destruct a as [|y a]; simpl in *; [congruence|].
        injection H as -> ->. destruct (IH a b) as [_ H]. discriminate H; auto.
Qed.
Lemma split1_none c s : split1 c s = None <-> ~ In c s.
Proof.
  induction s as [|x s IH]; simpl; [tauto|].
  destruct (ceqb x c) eqn:E.
  - apply ceqb_eq in E. split; [easy|tauto].
  - apply ceqb_neq in E. destruct (split1 c s) as [[a b]|]; split; try easy.
    + intros H. exfalso. assert (K : Some (a, b) = None) by (apply IH; tauto). easy.
    + intros _. intuition.
Qed.

Lemma rsplit1_spec c s a b : rsplit1 c s = Some (a, b) <->
  exists a', a = a' ++ [c] /\ s = a' ++ c :: b /\ ~ In c b.
Proof.
  revert a b; induction s as [|x s IH]; simpl; intros a b.
  - split; [easy|]. intros (a' & _ & H & _). now destruct a'.
  - destruct (rsplit1 c s) as [[a1 b1]|] eqn:E.
    + destruct (proj1 (IH a1 b1) eq_refl) as (a' & -> & -> & N). split.
      * intros [= <- <-]. exists (x :: a'). auto.
      * intros (a2 & -> & H & N2). destruct a2 as [|y a2]; simpl in *.
        -- injection H as -> <-. exfalso; apply N2. rewrite in_app_iff; simpl; auto.
        -- injection H as -> H.
           assert (K : Some (a' ++ [c], b1) = Some (a2 ++ [c], b)) by (apply IH; eauto).
           congruence.
    + assert (N : ~ In c s).
      { intros H. apply in_split in H as (l1 & l2 & ->).
        assert (exists l3 l4, l1 ++ c :: l2 = l3 ++ c :: l4 /\ ~ In c l4) as (l3 & l4 & H & N).
        { clear. revert l1. induction l2 as [|y l2 IHl]; intros l1; [exists l1, []; auto|].
          destruct (IHl (l1 ++ [c])) as (l3 & l4 & H & N) || idtac.
          destruct (in_dec ascii_dec c (y :: l2)) as [I|I]; [|eauto].
          apply in_split in I as (m1 & m2 & I). rewrite I.
          clear IHl H N l3 l4.
          assert (forall m2 m0, exists l3 l4, m0 ++ c :: m2 = l3 ++ c :: l4 /\ ~ In c l4) as G.
          { clear. intros m2. induction m2 as [m2 IH] using (induction_ltof1 _ (@List.length ascii)).
            intros m0. destruct (in_dec ascii_dec c m2) as [I|I]; [|eauto].
            apply in_split in I as (u & v & ->).
            destruct (IH v) with (m0 := m0 ++ c :: u) as (l3 & l4 & H & N).
            - unfold ltof. rewrite app_length. simpl. lia.
            - exists l3, l4. rewrite <- H, <- app_assoc. auto. }
          destruct (G m2 (l1 ++ c :: m1)) as (l3 & l4 & H & N).
          exists l3, l4. rewrite <- H, <- app_assoc. auto. }
        assert (K : None = Some (l3 ++ [c], l4)) by (apply IH; eauto). easy. }
      destruct (ceqb x c) eqn:F.
      * apply ceqb_eq in F as ->. split.
        -- intros [= <- <-]. exists []. auto.
        -- intros (a' & -> & H & N'). destruct a' as [|y a']; simpl in *; [congruence|].
           injection H as <- ->. exfalso; apply N. rewrite in_app_iff; simpl; auto.
      * apply ceqb_neq in F. split; [easy|].
        intros (a' & -> & H & N'). destruct a' as [|y a']; simpl in *; [congruence|].
        injection H as <- ->. exfalso; apply N. rewrite in_app_iff; simpl; auto.
Qed.
Lemma rsplit1_none c s : rsplit1 c s = None <-> ~ In c s.
Proof.
  induction s as [|x s IH]; simpl; [tauto|].
  destruct (rsplit1 c s) as [[a b]|].
  - split; [easy|]. intros H. assert (K : Some (a, b) = None) by (apply IH; tauto). easy.
  - destruct (ceqb x c) eqn:F.
    + apply ceqb_eq in F. split; [easy|tauto].
    + apply ceqb_neq in F. intuition.
Qed.

(** ** Decimal numbers *)

Lemma code_ascii_of_N n : (n < 256)%N -> code (ascii_of_N n) = n.
Proof. apply N_ascii_embedding. Qed.

Lemma digit_val_char n : 0 <= n < 10 -> digit_val (digit_char n) = n.
Proof.
  intros H. unfold digit_val, digit_char. rewrite code_ascii_of_N by lia. lia.
Qed.
Lemma is_digit_range c : is_digit c = true <-> (48 <= code c <= 57)%N.
Proof.
  unfold is_digit, in_range. rewrite andb_true_iff, !N.leb_le. tauto.
Qed.
Lemma is_digit_char n : 0 <= n < 10 -> is_digit (digit_char n) = true.
Proof.
  intros H. apply is_digit_range. unfold digit_char. rewrite code_ascii_of_N; lia.
Qed.
Lemma digit_char_val c : is_digit c = true -> digit_char (digit_val c) = c.
Proof.
  intros H. apply is_digit_range in H. apply code_inj.
  unfold digit_val, digit_char. rewrite code_ascii_of_N; lia.
Qed.
Lemma digit_val_range c : is_digit c = true -> 0 <= digit_val c < 10.
Proof. intros H. apply is_digit_range in H. unfold digit_val. lia. Qed.

Lemma fixed_digits_length k n : List.length (fixed_digits k n) = k.
Proof.
  revert n; induction k; intros n; simpl; auto. rewrite app_length, IHk. simpl. lia.
Qed.
Lemma fixed_digits_digits k n : forallb is_digit (fixed_digits k n) = true.
Proof.
  revert n; induction k; intros n; simpl; auto.
  rewrite forallb_app, IHk. simpl. rewrite is_digit_char; auto.
  apply Z.mod_pos_bound; lia.
Qed.
Lemma digits_val_app a c : digits_val (a ++ [c]) = 10 * digits_val a + digit_val c.
Proof. unfold digits_val. now rewrite fold_left_app. Qed.
Lemma digits_val_fixed k n : 0 <= n < 10 ^ Z.of_nat k -> digits_val (fixed_digits k n) = n.
Proof.
  revert n; induction k; intros n H.
  - simpl in *. unfold digits_val; simpl. lia.
  - simpl fixed_digits. rewrite digits_val_app, IHk.
    + rewrite digit_val_char by (apply Z.mod_pos_bound; lia).
      pose proof (Z.div_mod n 10). lia.
    + rewrite Nat2Z.inj_succ, Z.pow_succ_r in H by lia.
      split; [apply Z.div_pos; lia|apply Z.div_lt_upper_bound; lia].
Qed.
Lemma digits_val_bound s : forallb is_digit s = true -> 0 <= digits_val s < 10 ^ Z.of_nat (List.length s).
Proof.
  induction s as [|c s IH] using rev_ind.
  - unfold digits_val; simpl; lia.
  - rewrite forallb_app, andb_true_iff. simpl. rewrite andb_true_r. intros [H D].
    rewrite digits_val_app, app_length. cbn [List.length]. apply digit_val_range in D.
    specialize (IH H). replace (Z.of_nat (List.length s + 1)) with (Z.succ (Z.of_nat (List.length s))) by lia.
    rewrite Z.pow_succ_r by lia. lia.
Qed.
Lemma fixed_digits_val s :
  forallb is_digit s = true -> fixed_digits (List.length s) (digits_val s) = s.
Proof.
  induction s as [|c s IH] using rev_ind; auto.
  rewrite forallb_app, andb_true_iff. simpl. rewrite andb_true_r. intros [H D].
  rewrite digits_val_app, app_length. cbn [List.length]. rewrite Nat.add_1_r. cbn [fixed_digits]. specialize (IH H).
  pose proof (digit_val_range _ D).
  replace ((10 * digits_val s + digit_val c) / 10) with (digits_val s) by
    (apply Z.div_unique with (digit_val c); lia).
  replace ((10 * digits_val s + digit_val c) mod 10) with (digit_val c) by
    (apply Z.mod_unique with (digits_val s); lia).
  rewrite IH, digit_char_val; auto.
Qed.

Lemma ndigits_fuel_bound f n : 0 <= n -> n < 2 ^ Z.of_nat f ->
  n < 10 ^ Z.of_nat (ndigits_fuel f n).
Proof.
  revert n; induction f; intros n H K; simpl ndigits_fuel.
  - simpl in *. lia.
  - destruct (Z.ltb_spec n 10); [simpl; lia|].
    rewrite Nat2Z.inj_succ, Z.pow_succ_r by lia.
    rewrite Nat2Z.inj_succ, Z.pow_succ_r in K by lia.
    assert (n / 10 < 10 ^ Z.of_nat (ndigits_fuel f (n / 10))).
    { apply IHf; [apply Z.div_pos; lia|]. apply Z.div_lt_upper_bound; [lia|].
      assert (0 < 2 ^ Z.of_nat f) by (apply Z.pow_pos_nonneg; lia). lia. }
    pose proof (Z.div_mod n 10). pose proof (Z.mod_pos_bound n 10). lia.
Qed.
Lemma ndigits_bound n : 0 <= n -> n < 10 ^ Z.of_nat (ndigits n).
Proof.
  intros H. unfold ndigits. apply ndigits_fuel_bound; auto.
  pose proof (Z.log2_nonneg n). rewrite Z2Nat.id by lia.
  destruct (Z.eq_dec n 0) as [->|]; [simpl; lia|].
  pose proof (Z.log2_spec n). rewrite Z.add_1_r. lia.
Qed.
Lemma digits_val_print_nat n : 0 <= n -> digits_val (print_nat n) = n.
Proof. intros H. apply digits_val_fixed. split; auto. now apply ndigits_bound. Qed.
Lemma digits_val_print_pad k n : 0 <= n -> digits_val (print_pad k n) = n.
Proof.
  intros H. apply digits_val_fixed. split; auto.
  eapply Z.lt_le_trans; [apply ndigits_bound; auto|].
  apply Z.pow_le_mono_r; lia.
Qed.
Lemma print_nat_inj a b : 0 <= a -> 0 <= b -> print_nat a = print_nat b -> a = b.
Proof. intros A B H. rewrite <- (digits_val_print_nat a), <- (digits_val_print_nat b); congruence. Qed.
Lemma print_pad_inj k a b : 0 <= a -> 0 <= b -> print_pad k a = print_pad k b -> a = b.
Proof. intros A B H. rewrite <- (digits_val_print_pad k a), <- (digits_val_print_pad k b); congruence. Qed.

Lemma ndigits_pos n : (0 < ndigits n)%nat.
Proof. unfold ndigits. destruct (Z.to_nat (Z.log2 n + 1)); simpl; [lia|]. destruct (n <? 10); lia. Qed.

Lemma print_nat_digits n : forallb is_digit (print_nat n) = true.
Proof. apply fixed_digits_digits. Qed.
Lemma print_nat_nonempty n : print_nat n <> [].
Proof.
  intros H. pose proof (fixed_digits_length (ndigits n) n) as L.
  unfold print_nat in H. rewrite H in L. pose proof (ndigits_pos n). simpl in L. lia.
Qed.

Lemma is_digit_not_space c : is_digit c = true -> is_space c = false.
Proof.
  intros H. apply is_digit_range in H. unfold is_space, in_range.
  repeat match goal with |- context [(?a <=? ?b)%N] => destruct (N.leb_spec a b) end; simpl; auto; lia.
Qed.

Lemma int_digits_all s acc b :
  forallb is_digit s = true -> (s <> [] \/ b = true) ->
  int_digits s acc b = Some (fold_left (fun a c => 10 * a + digit_val c) s acc).
Proof.
  revert acc b; induction s as [|c s IH]; intros acc b D N; cbn [int_digits fold_left].
  - destruct N as [N| ->]; easy.
  - cbn [forallb] in D. apply andb_true_iff in D as [D1 D2]. rewrite D1. apply IH; auto.
Qed.

Lemma strip_ws_digits s : (forall c, In c s -> is_space c = false) -> strip_ws s = s.
Proof.
  intros H. unfold strip_ws.
  set (ls := fix ls s := match s with [] => [] | x :: s' => if is_space x then ls s' else s end).
  assert (L : forall s, (forall c, In c s -> is_space c = false) -> ls s = s).
  { clear. intros [|c s] H; auto. simpl. rewrite (H c); simpl; auto. }
  rewrite (L s), (L (rev s)); auto using rev_involutive.
  intros c Hc. apply H. now apply in_rev.
Qed.

Lemma parse_print_int n : parse_int (print_int n) = Some n.
Proof.
  unfold print_int. destruct (Z.ltb_spec n 0).
  - unfold parse_int.
    rewrite strip_ws_digits.
    + rewrite int_digits_all; [|apply print_nat_digits|left; apply print_nat_nonempty].
      fold (digits_val (print_nat (- n))). rewrite digits_val_print_nat by lia.
      simpl. f_equal. lia.
    + intros c [<-|Hc]; auto.
      pose proof (print_nat_digits (- n)) as D. rewrite forallb_forall in D.
      apply is_digit_not_space; auto.
  - unfold parse_int. rewrite strip_ws_digits.
    + pose proof (print_nat_digits n) as D. pose proof (print_nat_nonempty n) as N.
      destruct (print_nat n) as [|c s] eqn:E; [easy|].
      assert (int_digits (c :: s) 0 false = Some n) as I.
      { rewrite int_digits_all; auto. fold (digits_val (c :: s)). rewrite <- E.
        now rewrite digits_val_print_nat by lia. }
      assert (is_digit c = true) as Dc by (cbn [forallb] in D; apply andb_true_iff in D; tauto).
      destruct (ceqb c "-"%char) eqn:E1; [apply ceqb_eq in E1 as ->; discriminate Dc|].
      destruct (ceqb c "+"%char) eqn:E2; [apply ceqb_eq in E2 as ->; discriminate Dc|].
      apply ceqb_neq in E1, E2.
      destruct c as [[] [] [] [] [] [] [] []]; auto; try (exfalso; apply E1; reflexivity);
        exfalso; apply E2; reflexivity.
    + intros c Hc.
      pose proof (print_nat_digits n) as D. rewrite forallb_forall in D.
      apply is_digit_not_space; auto.
Qed.

(** ** Checking a character predicate on a concrete string *)

Lemma chars_are {p : ascii -> bool} {s} : forallb p s = true -> forall c, In c s -> p c = true.
Proof. intros H. now apply forallb_forall. Qed.
Lemma chars_are_not {p : ascii -> bool} {s} :
  forallb (fun c => negb (p c)) s = true -> forall c, In c s -> p c = false.
Proof.
  intros H c Hc. rewrite forallb_forall in H. apply H in Hc. now apply negb_true_iff.
Qed.

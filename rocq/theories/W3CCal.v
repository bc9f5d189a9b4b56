(** * W3CCal: facts about the calendar functions of W3C.v *)

From Verif Require Import Py PyFacts Float64 Float64Facts Regex W3C W3CSpec.

Lemma is_leap_spec y : is_leap y = true <-> leap y.
Proof.
  unfold is_leap, leap. rewrite andb_true_iff, orb_true_iff, negb_true_iff, !Z.eqb_eq, Z.eqb_neq.
  assert (y mod 400 = 0 -> y mod 4 = 0).
  { intros H. pose proof (Z.div_mod y 400). rewrite H in *.
    replace y with (4 * (100 * (y / 400))) by lia. rewrite Z.mul_comm, Z.mod_mul; lia. }
  tauto.
Qed.

Lemma days_in_month_spec y m : 1 <= m <= 12 -> month_length y m (days_in_month y m).
Proof.
  intros H. assert (m = 1 \/ m = 2 \/ m = 3 \/ m = 4 \/ m = 5 \/ m = 6 \/ m = 7 \/ m = 8 \/ m = 9
    \/ m = 10 \/ m = 11 \/ m = 12) as C by lia.
  unfold month_length, days_in_month.
  destruct C as [->|[->|[->|[->|[->|[->|[->|[->|[->|[->|[->| ->]]]]]]]]]]]; cbn -[Z.add]; try tauto.
  rewrite <- is_leap_spec. destruct (is_leap y); [right; right; left|right; right; right]; auto.
Qed.
Lemma month_length_unique y m a b : month_length y m a -> month_length y m b -> a = b.
Proof.
  unfold month_length. cbn. intros H K.
  destruct H as [[H ?]|[[H ?]|[(H & L & ?)|(H & L & ?)]]],
    K as [[K ?]|[[K ?]|[(K & L' & ?)|(K & L' & ?)]]]; try tauto; lia.
Qed.
Lemma month_length_range y m a : month_length y m a -> 1 <= m <= 12.
Proof.
  unfold month_length. cbn. intros H. destruct H as [[H ?]|[[H ?]|[(H & L & ?)|(H & L & ?)]]]; lia.
Qed.

Lemma valid_date_spec y m d : valid_date y m d = true <-> real_date y m d.
Proof.
  unfold valid_date, real_date. rewrite !andb_true_iff, !Z.leb_le. split.
  - intros H. split; [lia|]. exists (days_in_month y m). split; [apply days_in_month_spec; lia|lia].
  - intros [H (len & L & D)]. pose proof (month_length_range _ _ _ L) as MR.
    pose proof (days_in_month_spec y m MR) as S. rewrite (month_length_unique _ _ _ _ S L). lia.
Qed.
Lemma valid_time_spec h mi s : valid_time h mi s = true <-> real_time h mi s.
Proof. unfold valid_time, real_time. rewrite !andb_true_iff, !Z.leb_le. lia. Qed.

Lemma ord2y_spec n y r :
  1 <= n <= 3652059 -> ord2y n = (y, r) ->
  days_before_year y + r + 1 = n /\ 0 <= r < 365 + (if is_leap y then 1 else 0) /\ 1 <= y <= 9999.
Proof.
  intros Hn. unfold ord2y, days_before_year, is_leap.
  set (n0 := n - 1).
  pose proof (Z.div_mod n0 146097 ltac:(lia)) as E1. pose proof (Z.mod_pos_bound n0 146097 ltac:(lia)) as B1.
  set (a := n0 / 146097) in *. set (n1 := n0 mod 146097) in *.
  pose proof (Z.div_mod n1 36524 ltac:(lia)) as E2. pose proof (Z.mod_pos_bound n1 36524 ltac:(lia)) as B2.
  set (b := n1 / 36524) in *. set (n2 := n1 mod 36524) in *.
  pose proof (Z.div_mod n2 1461 ltac:(lia)) as E3. pose proof (Z.mod_pos_bound n2 1461 ltac:(lia)) as B3.
  set (c := n2 / 1461) in *. set (n3 := n2 mod 1461) in *.
  pose proof (Z.div_mod n3 365 ltac:(lia)) as E4. pose proof (Z.mod_pos_bound n3 365 ltac:(lia)) as B4.
  set (e := n3 / 365) in *. set (n4 := n3 mod 365) in *.
  clearbody a b c e n1 n2 n3 n4. assert (n0 = n - 1) by reflexivity. clearbody n0.
  assert (0 <= a <= 24) by lia. assert (0 <= b <= 4) by lia. assert (0 <= c <= 24) by lia.
  assert (0 <= e <= 4) by lia.
  destruct (Z.eqb_spec e 4) as [->|Ne]; [|destruct (Z.eqb_spec b 4) as [->|Nb]]; cbn [orb];
    intros [= <- <-].
  - replace (a * 400 + 1 + b * 100 + c * 4 + 4 - 1 - 1) with (400 * a + 100 * b + 4 * c + 3) by lia.
    replace (a * 400 + 1 + b * 100 + c * 4 + 4 - 1) with (400 * a + 100 * b + 4 * c + 4) by lia.
    assert (b <> 4) by lia.
    assert ((400 * a + 100 * b + 4 * c + 3) / 4 = 100 * a + 25 * b + c) as -> by
      (symmetry; apply Z.div_unique with 3; lia).
    assert ((400 * a + 100 * b + 4 * c + 3) / 100 = 4 * a + b) as -> by
      (symmetry; apply Z.div_unique with (4 * c + 3); lia).
    assert ((400 * a + 100 * b + 4 * c + 3) / 400 = a) as -> by
      (symmetry; apply Z.div_unique with (100 * b + 4 * c + 3); lia).
    assert ((400 * a + 100 * b + 4 * c + 4) mod 4 = 0) as -> by
      (symmetry; apply Z.mod_unique with (100 * a + 25 * b + c + 1); lia).
    assert (c <> 24 \/ (c = 24 /\ b = 3)) as CC.
    { assert (n3 = 1460) by lia. destruct (Z.eq_dec c 24); [right|left]; lia. }
    assert ((negb ((400 * a + 100 * b + 4 * c + 4) mod 100 =? 0)
            || ((400 * a + 100 * b + 4 * c + 4) mod 400 =? 0)) = true) as ->.
    { apply orb_true_iff. rewrite negb_true_iff, Z.eqb_neq, Z.eqb_eq.
      destruct CC as [C|[-> ->]].
      - left. assert ((400 * a + 100 * b + 4 * c + 4) mod 100 = 4 * c + 4) as -> by
          (symmetry; apply Z.mod_unique with (4 * a + b); lia). lia.
      - right. symmetry; apply Z.mod_unique with (a + 1); lia. }
    cbn [andb Z.eqb]. lia.
  - assert (n2 = 0) by lia. assert (c = 0) by lia. assert (e = 0) by lia. subst n2 c e. change (4 * 100) with 400.
    replace (a * 400 + 1 + 400 + 0 * 4 + 0 - 1 - 1) with (400 * a + 399) by lia.
    replace (a * 400 + 1 + 400 + 0 * 4 + 0 - 1) with (400 * a + 400) by lia.
    assert ((400 * a + 399) / 4 = 100 * a + 99) as -> by (symmetry; apply Z.div_unique with 3; lia).
    assert ((400 * a + 399) / 100 = 4 * a + 3) as -> by (symmetry; apply Z.div_unique with 99; lia).
    assert ((400 * a + 399) / 400 = a) as -> by (symmetry; apply Z.div_unique with 399; lia).
    assert ((400 * a + 400) mod 4 = 0) as -> by (symmetry; apply Z.mod_unique with (100 * a + 100); lia).
    assert ((400 * a + 400) mod 400 = 0) as -> by (symmetry; apply Z.mod_unique with (a + 1); lia).
    rewrite orb_true_r. cbn [andb Z.eqb]. lia.
  - replace (a * 400 + 1 + b * 100 + c * 4 + e - 1) with (400 * a + 100 * b + 4 * c + e) by lia.
    assert ((400 * a + 100 * b + 4 * c + e) / 4 = 100 * a + 25 * b + c) as -> by
      (symmetry; apply Z.div_unique with e; lia).
    assert ((400 * a + 100 * b + 4 * c + e) / 100 = 4 * a + b) as -> by
      (symmetry; apply Z.div_unique with (4 * c + e); lia).
    assert ((400 * a + 100 * b + 4 * c + e) / 400 = a) as -> by
      (symmetry; apply Z.div_unique with (100 * b + 4 * c + e); lia).
    split; [lia|]. split; [|lia]. split; [lia|]. destruct (_ && _); lia.
Qed.

Ltac dim :=
  repeat match goal with
  | |- context [days_in_month ?y ?m] =>
      let v := eval cbv -[is_leap] in (days_in_month y m) in change (days_in_month y m) with v
  end.

Lemma find_month_spec y r m d :
  0 <= r < 365 + (if is_leap y then 1 else 0) -> find_month 11 y 1 r = (m, d) ->
  days_before_month y m + d = r + 1 /\ 1 <= m <= 12 /\ 1 <= d <= days_in_month y m.
Proof.
  intros Hr.
  assert (D : forall k, (k <= 12)%nat -> days_before_month y (Z.of_nat k + 1) =
     days_before_month y (Z.of_nat k) + (if Z.of_nat k =? 0 then 0 else days_in_month y (Z.of_nat k))).
  { intros k Hk. unfold days_before_month. destruct k; [reflexivity|].
    replace (Z.to_nat (Z.of_nat (S k) + 1 - 1)) with (S k) by lia.
    replace (Z.to_nat (Z.of_nat (S k) - 1)) with k by lia.
    rewrite seq_S, fold_left_app. cbn [fold_left].
    destruct (Z.eqb_spec (Z.of_nat (S k)) 0); [lia|reflexivity]. }
  assert (DIM : forall q, 28 <= days_in_month y q).
  { intros q. unfold days_in_month. destruct (q =? 2); [destruct (is_leap y); lia|].
    destruct (_ || _); lia. }
  assert (G : forall k mm n, (k <= 11)%nat -> 1 <= mm -> mm + Z.of_nat k = 12 -> 0 <= n ->
     n < 365 + (if is_leap y then 1 else 0) - days_before_month y mm ->
     forall m d, find_month k y mm n = (m, d) ->
     days_before_month y m + d = days_before_month y mm + n + 1 /\ 1 <= m <= 12 /\ 1 <= d <= days_in_month y m).
  { induction k as [|k IH]; intros mm n Hk H1 H2 H3 H4 m0 d0; cbn [find_month].
    - intros [= <- <-]. assert (mm = 12) as -> by lia.
      split; [lia|]. split; [lia|].
      assert (days_before_month y 12 + days_in_month y 12 = 365 + (if is_leap y then 1 else 0)).
      { unfold days_before_month. cbn [Z.sub Z.to_nat Z.add Z.opp Z.pos_sub Pos.pred_double Pos.to_nat Pos.iter_op Nat.add seq fold_left Init.Nat.add].
        unfold days_in_month. cbn. destruct (is_leap y); reflexivity. }
      lia.
    - destruct (Z.ltb_spec n (days_in_month y mm)).
      + intros [= <- <-]. split; [lia|]. lia.
      + intros E. 
        assert (days_before_month y (mm + 1) = days_before_month y mm + days_in_month y mm) as ES.
        { pose proof (D (Z.to_nat mm)) as Q. rewrite Z2Nat.id in Q by lia.
          rewrite Q by lia. destruct (Z.eqb_spec mm 0); [lia|reflexivity]. }
        destruct (IH (mm + 1) (n - days_in_month y mm)) with (m := m0) (d := d0) as (A & B & C); auto; try lia. }
  intros E. destruct (G 11%nat 1 r) with (m := m) (d := d) as (A & B & C); auto; try lia.
  all: change (days_before_month y 1) with 0 in *; lia.
Qed.

Lemma ord2ymd_spec n y m d :
  1 <= n <= 3652059 -> ord2ymd n = (y, m, d) -> ymd2ord y m d = n /\ valid_date y m d = true.
Proof.
  intros Hn. unfold ord2ymd. destruct (ord2y n) as [y0 r] eqn:E1.
  destruct (find_month 11 y0 1 r) as [m0 d0] eqn:E2. intros [= <- <- <-].
  destruct (ord2y_spec _ _ _ Hn E1) as (A & B & C).
  destruct (find_month_spec _ _ _ _ B E2) as (A2 & B2 & C2).
  unfold ymd2ord, valid_date. split; [lia|]. rewrite !andb_true_iff, !Z.leb_le. lia.
Qed.

(** Ordinals count days: the next day has the next ordinal. *)
Lemma days_before_month_S y m : 1 <= m ->
  days_before_month y (m + 1) = days_before_month y m + days_in_month y m.
Proof.
  intros H. unfold days_before_month.
  replace (Z.to_nat (m + 1 - 1)) with (S (Z.to_nat (m - 1))) by lia.
  rewrite seq_S, fold_left_app. cbn [fold_left]. do 2 f_equal. lia.
Qed.
Lemma days_before_year_S y :
  days_before_year (y + 1) = days_before_year y + 365 + (if is_leap y then 1 else 0).
Proof.
  unfold days_before_year, is_leap. replace (y + 1 - 1) with y by lia.
  pose proof (Z.div_mod y 4 ltac:(lia)). pose proof (Z.mod_pos_bound y 4 ltac:(lia)).
  pose proof (Z.div_mod y 100 ltac:(lia)). pose proof (Z.mod_pos_bound y 100 ltac:(lia)).
  pose proof (Z.div_mod y 400 ltac:(lia)). pose proof (Z.mod_pos_bound y 400 ltac:(lia)).
  pose proof (Z.div_mod (y - 1) 4 ltac:(lia)). pose proof (Z.mod_pos_bound (y - 1) 4 ltac:(lia)).
  pose proof (Z.div_mod (y - 1) 100 ltac:(lia)). pose proof (Z.mod_pos_bound (y - 1) 100 ltac:(lia)).
  pose proof (Z.div_mod (y - 1) 400 ltac:(lia)). pose proof (Z.mod_pos_bound (y - 1) 400 ltac:(lia)).
  destruct (Z.eqb_spec (y mod 4) 0), (Z.eqb_spec (y mod 100) 0), (Z.eqb_spec (y mod 400) 0);
    cbn [andb orb negb]; lia.
Qed.
Lemma next_day_ord y m d y' m' d' :
  1 <= m -> next_day y m d y' m' d' -> ymd2ord y' m' d' = ymd2ord y m d + 1.
Proof.
  intros Hm (len & L & H).
  assert (days_in_month y m = len).
  { eapply month_length_unique; [|eauto]. apply days_in_month_spec. eapply month_length_range; eauto. }
  unfold ymd2ord. destruct H as [(A & [= -> -> ->])|[(A & B & [= -> -> ->])|(A & B & [= -> -> ->])]].
  - lia.
  - rewrite days_before_month_S by lia. lia.
  - subst m. rewrite days_before_year_S.
    change (days_before_month (y + 1) 1) with 0.
    assert (days_before_month y 12 + days_in_month y 12 = 365 + (if is_leap y then 1 else 0)).
    { unfold days_before_month. cbn. unfold days_in_month. cbn. destruct (is_leap y); reflexivity. }
    lia.
Qed.

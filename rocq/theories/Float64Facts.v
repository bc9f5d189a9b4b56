From Verif Require Import Py Float64.

Lemma SEC_pos : 0 < SEC.
Proof. unfold SEC. apply Z.pow_pos_nonneg; lia. Qed.

(** ** Stripping common zero bits changes no quotient *)

Lemma strip2_ok a : forall b, exists c, a = (fst (strip2 a b) * c)%positive /\ b = (snd (strip2 a b) * c)%positive.
Proof.
  induction a as [a IH|a IH|]; intros [b|b|]; cbn [strip2]; try (exists 1%positive; cbn [fst snd]; split; lia).
  destruct (IH b) as (c & A & B). exists (2 * c)%positive. split; lia.
Qed.
Lemma strip_ok n d : exists c, 0 < c /\ n = fst (strip n d) * c /\ d = snd (strip n d) * c /\ (d = 0 -> c = 1).
Proof.
  assert (forall k, 0 < Zpos k) as P by lia.
  destruct n as [|a|a], d as [|b|b]; cbn [strip]; try (exists 1; cbn [fst snd]; repeat split; lia);
    destruct (strip2_ok a b) as (c & A & B); destruct (strip2 a b) as [a' b']; cbn [fst snd] in *; exists (Zpos c); repeat split; lia.
Qed.
Lemma rne_def n d : rne n d =
  if 2 * (n mod d) <? d then n / d else if d <? 2 * (n mod d) then n / d + 1 else if Z.even (n / d) then n / d else n / d + 1.
Proof.
  unfold rne. destruct (strip_ok n d) as (c & C & A & B & Z0). destruct (strip n d) as [x y]. cbn [fst snd] in *. cbv zeta.
  destruct (Z.eq_dec d 0) as [D|D].
  - rewrite (Z0 D), Z.mul_1_r in A, B. now subst.
  - assert (y <> 0) by nia. subst n d. rewrite Z.div_mul_cancel_r, Z.mul_mod_distr_r by lia. set (r := x mod y). set (q := x / y).
    destruct (Z.ltb_spec (2 * r) y), (Z.ltb_spec (2 * (r * c)) (y * c)), (Z.ltb_spec y (2 * r)), (Z.ltb_spec (y * c) (2 * (r * c))); try reflexivity; nia.
Qed.
Lemma int_part_quot t : int_part t = Z.quot t SEC.
Proof.
  unfold int_part. destruct (strip_ok t SEC) as (c & C & A & B & _). pose proof SEC_pos as SP. destruct (strip t SEC) as [x y]. cbn [fst snd] in *.
  transitivity (Z.quot (x * c) (y * c)); [symmetry; apply Z.quot_mul_cancel_r; intros ->; nia|congruence].
Qed.
Lemma frac_part_rem t : frac_part t = Z.rem t SEC.
Proof. unfold frac_part. rewrite int_part_quot. pose proof (Z.quot_rem' t SEC). lia. Qed.

Lemma rne_mult a d : 0 < d -> rne (a * d) d = a.
Proof.
  intros H. rewrite ?rne_def. rewrite Z.div_mul, Z.mod_mul by lia.
  destruct (Z.ltb_spec (2 * 0) d); lia.
Qed.

(** [rne] is a nearest integer. *)
Lemma rne_near n d : 0 < d -> 2 * Z.abs (rne n d * d - n) <= d.
Proof.
  intros H. rewrite ?rne_def.
  pose proof (Z.div_mod n d). pose proof (Z.mod_pos_bound n d).
  set (q := n / d) in *. set (r := n mod d) in *.
  destruct (Z.ltb_spec (2 * r) d); [nia|].
  destruct (Z.ltb_spec d (2 * r)); [nia|]. destruct (Z.even q); nia.
Qed.

(** A strictly nearest integer is the result. *)
Lemma rne_unique n d m : 0 < d -> 2 * Z.abs (m * d - n) < d -> rne n d = m.
Proof.
  intros H K. pose proof (rne_near n d H). set (x := rne n d) in *.
  assert (Z.abs ((x - m) * d) < d) by (replace ((x - m) * d) with ((x * d - n) - (m * d - n)) by ring; lia).
  assert (Z.abs (x - m) < 1) by nia. lia.
Qed.

Lemma rne_ge n d m : 0 < d -> m * d <= n -> m <= rne n d.
Proof.
  intros H K. rewrite ?rne_def.
  assert (m <= n / d) by (apply Z.div_le_lower_bound; lia).
  destruct (2 * (n mod d) <? d); [lia|]. destruct (d <? 2 * (n mod d)); [lia|].
  destruct (Z.even (n / d)); lia.
Qed.
Lemma rne_le n d m : 0 < d -> n <= m * d -> rne n d <= m.
Proof.
  intros H K. rewrite ?rne_def.
  pose proof (Z.div_mod n d). pose proof (Z.mod_pos_bound n d).
  set (q := n / d) in *. set (r := n mod d) in *.
  assert (q <= m) by nia. destruct (Z.eq_dec q m) as [->|].
  - assert (r = 0) by nia. rewrite H3. destruct (Z.ltb_spec (2*0) d); lia.
  - destruct (2 * r <? d); [lia|]. destruct (d <? 2 * r); [lia|]. destruct (Z.even q); lia.
Qed.

Lemma rne_mono n m d : 0 < d -> n <= m -> rne n d <= rne m d.
Proof.
  intros H K.
  pose proof (Z.div_mod n d ltac:(lia)) as Dn. pose proof (Z.mod_pos_bound n d H) as Bn.
  pose proof (Z.div_mod m d ltac:(lia)) as Dm. pose proof (Z.mod_pos_bound m d H) as Bm.
  assert (Q : n / d <= m / d) by (apply Z.div_le_mono; lia).
  rewrite ?rne_def.
  set (q := n / d) in *. set (r := n mod d) in *.
  set (q' := m / d) in *. set (r' := m mod d) in *.
  destruct (Z.eq_dec q q') as [E|E].
  - rewrite <- E in *. assert (r <= r') by nia.
    destruct (Z.ltb_spec (2 * r) d), (Z.ltb_spec (2 * r') d),
      (Z.ltb_spec d (2 * r)), (Z.ltb_spec d (2 * r')); destruct (Z.even q); lia.
  - destruct (2 * r <? d), (d <? 2 * r), (2 * r' <? d), (d <? 2 * r'), (Z.even q), (Z.even q'); lia.
Qed.

Lemma ulp_exp_nonneg n d : 0 <= ulp_exp n d.
Proof. unfold ulp_exp. lia. Qed.

Lemma pow2_pos e : 0 <= e -> 0 < 2 ^ e.
Proof. intros; apply Z.pow_pos_nonneg; lia. Qed.

Lemma pow2_divide a b : 0 <= a <= b -> (2 ^ a | 2 ^ b).
Proof. intros H. exists (2 ^ (b - a)). rewrite <- Z.pow_add_r by lia. f_equal; lia. Qed.

Lemma rnd_neg n : rnd (- n) 1 = - rnd n 1.
Proof.
  unfold rnd, ulp_exp. rewrite Z.abs_opp.
  set (e := Z.max 0 (Z.log2 (Z.abs n / 1) - 52)).
  assert (0 < 2 ^ e) by (apply pow2_pos; lia). rewrite Z.mul_1_l.
  set (d := 2 ^ e) in *.
  assert (rne (- n) d = - rne n d); [|nia].
  rewrite ?rne_def.
  pose proof (Z.div_mod n d ltac:(lia)) as Dn. pose proof (Z.mod_pos_bound n d H) as Bn.
  destruct (Z.eq_dec (n mod d) 0) as [R|R].
  - rewrite Z.div_opp_l_z, Z.mod_opp_l_z by lia. rewrite R.
    destruct (Z.ltb_spec (2 * 0) d); lia.
  - rewrite Z.div_opp_l_nz, Z.mod_opp_l_nz by lia.
    set (q := n / d) in *. set (r := n mod d) in *.
    destruct (Z.ltb_spec (2 * r) d), (Z.ltb_spec d (2 * r)),
      (Z.ltb_spec (2 * (d - r)) d), (Z.ltb_spec d (2 * (d - r))); try lia.
    replace (- q - 1) with (- (q + 1)) by lia.
    rewrite Z.even_opp, Z.even_add. destruct (Z.even q); simpl; lia.
Qed.

(** Numbers with at most 53 significant bits are represented exactly. *)
Lemma rnd_exact k m : 0 <= k -> Z.abs m <= 2 ^ 53 -> rnd (m * 2 ^ k) 1 = m * 2 ^ k.
Proof.
  intros K M. unfold rnd, ulp_exp. rewrite Z.div_1_r, Z.mul_1_l.
  pose proof (pow2_pos k K).
  set (e := Z.max 0 (Z.log2 (Z.abs (m * 2 ^ k)) - 52)).
  assert (0 <= e) by lia.
  assert (D : exists c, m * 2 ^ k = c * 2 ^ e).
  { destruct (Z.eq_dec m 0) as [->|M0]; [exists 0; lia|].
    assert (L : Z.log2 (Z.abs (m * 2 ^ k)) = Z.log2 (Z.abs m) + k).
    { rewrite Z.abs_mul, (Z.abs_eq (2 ^ k)) by lia. rewrite Z.log2_mul_pow2 by lia. lia. }
    destruct (Z.eq_dec (Z.abs m) (2 ^ 53)) as [E|E].
    - assert (e <= k + 53).
      { unfold e. rewrite L, E, Z.log2_pow2 by lia. lia. }
      assert (m = 2 ^ 53 \/ m = - 2 ^ 53) as [->| ->] by lia.
      + exists (2 ^ (53 + k - e)). rewrite <- !Z.pow_add_r by lia. f_equal; lia.
      + exists (- 2 ^ (53 + k - e)). rewrite !Z.mul_opp_l. f_equal.
        rewrite <- !Z.pow_add_r by lia. f_equal; lia.
    - assert (Z.log2 (Z.abs m) < 53) by (apply Z.log2_lt_pow2; lia).
      exists (m * 2 ^ (k - e)). rewrite <- Z.mul_assoc, <- Z.pow_add_r by lia.
      do 2 f_equal. lia. }
  destruct D as [c ->]. rewrite rne_mult; auto. apply pow2_pos; auto.
Qed.

(** Rounding does not cross a power of two. *)
Lemma rnd_ge_pow2 n k : 0 <= k -> 2 ^ k <= n -> 2 ^ k <= rnd n 1.
Proof.
  intros K H. unfold rnd, ulp_exp. rewrite Z.div_1_r, Z.mul_1_l.
  pose proof (pow2_pos k K). rewrite Z.abs_eq by lia.
  set (e := Z.max 0 (Z.log2 n - 52)).
  destruct (Z.le_gt_cases e k) as [L|G].
  - pose proof (pow2_divide e k ltac:(lia)) as [c E]. rewrite E.
    apply Z.mul_le_mono_nonneg_r; [apply Z.pow_nonneg; lia|].
    apply rne_ge; [apply pow2_pos; lia|lia].
  - assert (2 ^ k <= 2 ^ e) by (apply Z.pow_le_mono_r; lia).
    assert (2 ^ e <= n).
    { transitivity (2 ^ Z.log2 n); [apply Z.pow_le_mono_r; lia|]. apply Z.log2_spec; lia. }
    assert (1 <= rne n (2 ^ e)) by (apply rne_ge; [apply pow2_pos|]; lia).
    nia.
Qed.

(** Difference of two times that are multiples of 2^-52 s compared to one second. *)
Definition TICK : Z := 2 ^ 1022.
Lemma SEC_TICK : SEC = 2 ^ 52 * TICK.
Proof. unfold SEC, TICK. rewrite <- Z.pow_add_r by lia. reflexivity. Qed.
Lemma TICK_pos : 0 < TICK.
Proof. unfold TICK. apply pow2_pos; lia. Qed.

Lemma fsub_abs a b : Z.abs (fsub a b) = rnd (Z.abs (a - b)) 1.
Proof.
  unfold fsub. destruct (Z.le_gt_cases 0 (a - b)).
  - rewrite (Z.abs_eq (a - b)) by lia. apply Z.abs_eq.
    unfold rnd. apply Z.mul_nonneg_nonneg; [|apply Z.pow_nonneg; lia].
    apply rne_ge; [|lia]. pose proof (pow2_pos _ (ulp_exp_nonneg (a - b) 1)). lia.
  - rewrite (Z.abs_neq (a - b)) by lia. rewrite rnd_neg. apply Z.abs_neq.
    assert (0 <= rnd (- (a - b)) 1).
    { unfold rnd. apply Z.mul_nonneg_nonneg; [|apply Z.pow_nonneg; lia].
      apply rne_ge; [|lia]. pose proof (pow2_pos _ (ulp_exp_nonneg (- (a - b)) 1)). lia. }
    rewrite rnd_neg in H0. lia.
Qed.

Lemma fsub_lt_sec a b :
  (TICK | a) -> (TICK | b) -> (Z.abs (fsub a b) < SEC <-> Z.abs (a - b) < SEC).
Proof.
  intros [x ->] [y ->]. rewrite fsub_abs.
  replace (x * TICK - y * TICK) with ((x - y) * TICK) by ring.
  pose proof TICK_pos. rewrite Z.abs_mul, (Z.abs_eq TICK) by lia.
  set (z := Z.abs (x - y)). assert (0 <= z) by (unfold z; lia).
  rewrite SEC_TICK. split; intros K.
  - destruct (Z.lt_ge_cases (z * TICK) (2 ^ 52 * TICK)) as [|G]; auto. exfalso.
    assert (2 ^ 1074 <= rnd (z * TICK) 1).
    { apply rnd_ge_pow2; [lia|]. fold SEC. rewrite SEC_TICK. auto. }
    fold SEC in H1. rewrite SEC_TICK in H1. lia.
  - unfold TICK at 1. rewrite rnd_exact; [exact K|lia|].
    assert (z < 2 ^ 52) by nia. rewrite Z.abs_eq by lia.
    apply Z.lt_le_incl. eapply Z.lt_trans; [eauto|]. reflexivity.
Qed.

(** * W3CRound: writing a timestamp and reading it back *)

From Verif Require Import Py PyFacts Float64 Float64Facts Regex RegexFacts W3C W3CSpec W3CCal W3CFacts W3CParse.

(** ** Printing *)

Lemma ndigits_fuel_le f n k : 0 <= n < 10 ^ Z.of_nat (S k) -> (ndigits_fuel f n <= S k)%nat.
Proof.
  revert n k; induction f as [|f IH]; intros n k H; cbn [ndigits_fuel]; [lia|].
  destruct (Z.ltb_spec n 10); [lia|].
  destruct k as [|k]; [cbn in H; lia|].
  apply le_n_S, IH. rewrite Nat2Z.inj_succ, Z.pow_succ_r in H by lia.
  split; [apply Z.div_pos; lia|apply Z.div_lt_upper_bound; lia].
Qed.
Lemma print_pad_digits k n : 0 <= n < 10 ^ Z.of_nat (S k) -> digits (S k) (print_pad (S k) n).
Proof.
  intros H. split; [|apply fixed_digits_digits]. unfold print_pad. rewrite fixed_digits_length.
  pose proof (ndigits_fuel_le (Z.to_nat (Z.log2 n + 1)) n k H). unfold ndigits. lia.
Qed.

Definition iso_sec (n us : Z) : option (str * option str) :=
  Some (print_pad 2 (n mod 86400 mod 60), if us =? 0 then None else Some (print_pad 6 us)).

Lemma isoformat_read n us :
  in_years n -> 0 <= us < 1000000 ->
  exists s, isoformat n us = Some s /\
    str_to_datetime (s ++ $"Z") =
      Ok (fadd (n * SEC) (if us =? 0 then 0 else float_of_ratio us 1000000)) /\
    full_datetime (s ++ $"Z").
Proof.
  intros Hn Hus. unfold in_years in Hn.
  pose proof (Z.div_mod n 86400 ltac:(lia)) as DM. pose proof (Z.mod_pos_bound n 86400 ltac:(lia)) as MB.
  unfold isoformat. set (days := n / 86400) in *. set (r := n mod 86400) in *.
  assert (O : 1 <= days + EPOCH_ORD <= 3652059) by (unfold EPOCH_ORD; lia).
  destruct (Z.leb_spec 1 (days + EPOCH_ORD)); [|lia].
  destruct (Z.leb_spec (days + EPOCH_ORD) 3652059); [|lia]. cbn [andb].
  destruct (ord2ymd (days + EPOCH_ORD)) as [[y m] d] eqn:EO.
  apply ord2ymd_spec in EO as [EO V]; [|lia].
  assert (VD : real_date y m d) by now apply valid_date_spec.
  assert (Y : 1 <= y <= 9999) by apply VD.
  assert (M : 1 <= m <= 12 /\ 1 <= d <= 31).
  { destruct VD as (_ & len & L & D). pose proof (month_length_range _ _ _ L). split; auto.
    unfold month_length in L. lia. }
  eexists. split; [reflexivity|].
  pose proof (Z.div_mod r 3600 ltac:(lia)) as D1. pose proof (Z.mod_pos_bound r 3600 ltac:(lia)) as B1.
  pose proof (Z.div_mod r 60 ltac:(lia)) as D2. pose proof (Z.mod_pos_bound r 60 ltac:(lia)) as B2.
  pose proof (Z.div_mod (r / 60) 60 ltac:(lia)) as D3. pose proof (Z.mod_pos_bound (r / 60) 60 ltac:(lia)) as B3.
  assert (D4 : r / 60 / 60 = r / 3600) by (rewrite Z.div_div by lia; reflexivity).
  set (h := r / 3600) in *. set (mi := r / 60 mod 60) in *. set (sec := r mod 60) in *.
  assert (HB : 0 <= h <= 23) by lia.
  assert (RT : r = h * 3600 + mi * 60 + sec) by lia.
  pose (secs := Some (print_pad 2 sec, if us =? 0 then None else Some (print_pad 6 us))).
  assert (DD : date_digits (print_pad 4 y) (print_pad 2 m) (print_pad 2 d)).
  { split; [|split]; apply print_pad_digits; cbn; lia. }
  assert (TD : time_digits (print_pad 2 h) (print_pad 2 mi) secs).
  { split; [|split]; [apply print_pad_digits; cbn; lia..|]. subst secs.
    assert (digits 2 (print_pad 2 sec)) by (apply print_pad_digits; cbn; lia).
    destruct (Z.eqb_spec us 0); auto. split; auto.
    assert (digits 6 (print_pad 6 us)) as [L D6] by (apply print_pad_digits; cbn; lia).
    split; auto. intros Q; rewrite Q in L; discriminate L. }
  assert (ES : (print_pad 4 y ++ $"-" ++ print_pad 2 m ++ $"-" ++ print_pad 2 d ++ $"T"
          ++ print_pad 2 h ++ $":" ++ print_pad 2 mi ++ $":" ++ print_pad 2 sec
          ++ (if us =? 0 then [] else $"." ++ print_pad 6 us)) ++ $"Z" =
     full_str (print_pad 4 y) (print_pad 2 m) (print_pad 2 d) (print_pad 2 h) (print_pad 2 mi) secs Zulu).
  { unfold full_str, date_str, time_str, secs, zone_str. destruct (Z.eqb_spec us 0);
    repeat rewrite <- app_assoc; reflexivity. }
  rewrite ES.
  assert (RV : raw_value (print_pad 4 y) (print_pad 2 m) (print_pad 2 d) (print_pad 2 h) (print_pad 2 mi)
     (sec_digits secs) Zulu (frac_val secs) =
     Ok (fadd (n * SEC) (if us =? 0 then 0 else float_of_ratio us 1000000))).
  { apply raw_value_ok. unfold secs. cbn [sec_digits frac_val]. rewrite !digits_val_print_pad by lia.
    split; [assumption|]. split; [unfold real_time; lia|]. split; [exact I|]. cbn [zone_offset].
    replace (timegm y m d h mi sec + 0) with n by (unfold timegm; rewrite EO; lia).
    f_equal. destruct (Z.eqb_spec us 0); auto. rewrite digits_val_print_pad by lia.
    assert (digits 6 (print_pad 6 us)) as [-> _] by (apply print_pad_digits; cbn; lia). reflexivity. }
  split.
  - pose proof (str_to_datetime_value _ _ _ _ _ secs Zulu [] DD TD I (or_introl eq_refl)) as SV.
    rewrite app_nil_r in SV. rewrite SV. exact RV.
  - eapply raw_value_full; eauto. exact I.
Qed.

(** ** Rounding *)

Lemma rne_nearest n d m : 0 < d -> Z.abs (rne n d * d - n) <= Z.abs (m * d - n).
Proof.
  intros H. rewrite ?rne_def.
  pose proof (Z.div_mod n d ltac:(lia)) as DM. pose proof (Z.mod_pos_bound n d H) as MB.
  set (q := n / d) in *. set (r := n mod d) in *.
  assert (C : m <= q \/ q + 1 <= m) by lia.
  assert (m <= q -> r <= Z.abs (m * d - n)) by nia.
  assert (q + 1 <= m -> d - r <= Z.abs (m * d - n)) by nia.
  destruct (Z.ltb_spec (2 * r) d).
  { replace (q * d - n) with (- r) by lia. lia. }
  destruct (Z.ltb_spec d (2 * r)).
  { replace ((q + 1) * d - n) with (d - r) by lia. lia. }
  destruct (Z.even q).
  - replace (q * d - n) with (- r) by lia. lia.
  - replace ((q + 1) * d - n) with (d - r) by lia. lia.
Qed.

Lemma rne_stable A B d : 0 < d ->
  (forall j, 2 * Z.abs (A - B) < Z.abs (2 * B - (2 * j + 1) * d)) -> rne A d = rne B d.
Proof.
  intros H G. pose proof (rne_near B d H) as N. set (m := rne B d) in *. apply rne_unique; auto.
  pose proof (G m). pose proof (G (m - 1)). nia.
Qed.

Lemma rne_scale a c d : 0 < c -> 0 < d -> rne (a * c) (d * c) = rne a d.
Proof.
  intros C D. rewrite ?rne_def. rewrite Z.div_mul_cancel_r, Z.mul_mod_distr_r by lia.
  set (r := a mod d). set (q := a / d).
  destruct (Z.ltb_spec (2 * r) d), (Z.ltb_spec (2 * (r * c)) (d * c)); try nia; auto.
  destruct (Z.ltb_spec d (2 * r)), (Z.ltb_spec (d * c) (2 * (r * c))); try nia; auto.
Qed.

(** Error of one rounding. *)
Lemma rnd_err n e : 0 <= e -> Z.abs n < 2 ^ (e + 53) -> 2 * Z.abs (rnd n 1 - n) <= 2 ^ e.
Proof.
  intros He Hn. unfold rnd. set (u := ulp_exp n 1).
  assert (U : u <= e).
  { unfold u, ulp_exp. rewrite Z.div_1_r. apply Z.max_lub; auto.
    destruct (Z.eq_dec (Z.abs n) 0) as [->|]; [cbn; lia|].
    assert (Z.log2 (Z.abs n) < e + 53) by (apply Z.log2_lt_pow2; lia). lia. }
  assert (0 <= u) by apply ulp_exp_nonneg.
  pose proof (pow2_pos u ltac:(lia)). rewrite Z.mul_1_l.
  pose proof (rne_near n (2 ^ u) ltac:(lia)).
  assert (2 ^ u <= 2 ^ e) by (apply Z.pow_le_mono_r; lia). lia.
Qed.

(** ** Splitting a timestamp into seconds and microseconds *)

Definition U : Z := 2 ^ 1020.
Lemma U_pos : 0 < U. Proof. apply pow2_pos. lia. Qed.
Lemma SEC_U : SEC = 2 ^ 54 * U.
Proof. unfold SEC, U. rewrite <- Z.pow_add_r by lia. reflexivity. Qed.
Lemma pow_U k : 0 <= k -> 2 ^ (1020 + k) = 2 ^ k * U.
Proof. intros. unfold U. rewrite Z.pow_add_r by lia. ring. Qed.

Lemma split_ok x k :
  2 * Z.abs (x * 1000000 - k * SEC) <= SEC - 2 ^ 22 * U ->
  split_timestamp x = (k / 1000000, k mod 1000000).
Proof.
  intros H. pose proof U_pos as UP. unfold split_timestamp. rewrite int_part_quot, frac_part_rem.
  pose proof SEC_pos as SP. pose proof (Z.quot_rem' x SEC) as QR. pose proof (Z.rem_bound_abs x SEC ltac:(lia)) as RB.
  set (ip := Z.quot x SEC) in *. set (fp := Z.rem x SEC) in *.
  assert (F : 2 * Z.abs (fmul_int fp 1000000 - fp * 1000000) <= 2 ^ (1020 + 21)).
  { apply rnd_err; [lia|]. replace (1020 + 21 + 53) with (1020 + 74) by lia. rewrite pow_U by lia.
    rewrite SEC_U in RB. change (2 ^ 74) with (2 ^ 54 * 1048576). nia. }
  rewrite pow_U in F by lia. set (fm := fmul_int fp 1000000) in *.
  assert (R : rne fm SEC = k - ip * 1000000).
  { apply rne_unique; auto.
    replace ((k - ip * 1000000) * SEC - fm) with
      ((k * SEC - x * 1000000) - (fm - fp * 1000000)) by (rewrite QR; ring).
    change (2 ^ 22) with (4 * 2 ^ 20) in H. change (2 ^ 21) with (2 * 2 ^ 20) in F.
    assert (0 < 2 ^ 20 * U) by (apply Z.mul_pos_pos; lia). lia. }
  assert (UB : -1000000 <= rne fm SEC <= 1000000).
  { pose proof (rne_near fm SEC SP) as N. set (us := rne fm SEC) in *.
    assert (Z.abs (us * SEC) < 1000001 * SEC).
    { rewrite SEC_U in *. change (2 ^ 54) with (2 ^ 21 * 2 ^ 33) in *. change (2 ^ 33) with 8589934592 in *.
      set (V := 2 ^ 21 * U) in *.
      assert (0 < V) by (apply Z.mul_pos_pos; lia).
      replace (2 ^ 21 * 8589934592 * U) with (8589934592 * V) in * by (unfold V; ring). lia. }
    nia. }
  rewrite R in *. set (us := k - ip * 1000000) in *.
  destruct (Z.leb_spec 1000000 us).
  - f_equal; [apply Z.div_unique with (us - 1000000)|apply Z.mod_unique with (ip + 1)]; lia.
  - destruct (Z.ltb_spec us 0).
    + f_equal; [apply Z.div_unique with (us + 1000000)|apply Z.mod_unique with (ip - 1)]; lia.
    + f_equal; [apply Z.div_unique with us|apply Z.mod_unique with ip]; lia.
Qed.

Lemma nudge_bound : 0 < rounding_nudge < 2 ^ 31 * U.
Proof. split; apply Z.ltb_lt; vm_compute; reflexivity. Qed.

(** ** Whole seconds *)

Lemma fadd_int_0 n : Z.abs n <= 2 ^ 53 -> fadd (n * SEC) 0 = n * SEC.
Proof. intros H. unfold fadd. rewrite Z.add_0_r. unfold SEC. now apply rnd_exact. Qed.

Lemma nudged_int n : in_years n -> split_timestamp (fadd (n * SEC) rounding_nudge) = (n, 0).
Proof.
  intros H. unfold in_years in H.
  assert (S : split_timestamp (fadd (n * SEC) rounding_nudge) =
    ((n * 1000000) / 1000000, (n * 1000000) mod 1000000)).
  { apply split_ok. pose proof U_pos as UP. pose proof nudge_bound as NB. set (g := rounding_nudge) in *.
    unfold fadd, rnd. rewrite Z.mul_1_l. set (e := ulp_exp (n * SEC + g) 1).
    assert (E : 0 <= e <= 1074).
    { split; [apply ulp_exp_nonneg|]. unfold e, ulp_exp. rewrite Z.div_1_r. apply Z.max_lub; [lia|].
      assert (L : Z.log2 (Z.abs (n * SEC + g)) <= Z.log2 (2 ^ (1020 + 100))).
      { apply Z.log2_le_mono. rewrite pow_U by lia. rewrite SEC_U.
        change (2 ^ 100) with (2 ^ 31 * 590295810358705651712).
        change (2 ^ 54) with (2 ^ 31 * 8388608).
        set (V := 2 ^ 31 * U) in *.
        assert (0 < V) by (apply Z.mul_pos_pos; lia).
        replace (2 ^ 31 * 590295810358705651712 * U) with (590295810358705651712 * V) by (unfold V; ring).
        replace (n * (2 ^ 31 * 8388608 * U)) with (n * 8388608 * V) by (unfold V; ring). nia. }
      rewrite Z.log2_pow2 in L by lia. lia. }
    assert (P : 0 < 2 ^ e) by (apply pow2_pos; lia).
    pose proof (rne_nearest (n * SEC + g) (2 ^ e) (n * 2 ^ (1074 - e)) P) as N.
    replace (n * 2 ^ (1074 - e) * 2 ^ e) with (n * SEC) in N.
    2:{ unfold SEC. rewrite <- Z.mul_assoc, <- Z.pow_add_r by lia. do 2 f_equal. lia. }
    set (x := rne (n * SEC + g) (2 ^ e) * 2 ^ e) in *.
    assert (Z.abs (x - n * SEC) <= 2 * g) by lia.
    replace (x * 1000000 - n * 1000000 * SEC) with ((x - n * SEC) * 1000000) by ring.
    rewrite Z.abs_mul. change (Z.abs 1000000) with 1000000.
    assert (SEC = 2 ^ 31 * U * 8388608) by (rewrite SEC_U; change (2 ^ 54) with (2 ^ 31 * 8388608); ring).
    replace (2 ^ 22 * U) with (4194304 * U) by reflexivity.
    change (2 ^ 31) with 2147483648 in *. lia. }
  rewrite S. now rewrite Z.div_mul, Z.mod_mul by lia.
Qed.

Theorem whole_seconds_round_trip nf n : in_years n ->
  exists s, datetime_to_str nf (n * SEC) = Ok s /\ str_to_datetime s = Ok (n * SEC) /\ full_datetime s.
Proof.
  intros H. destruct (isoformat_read n 0 H ltac:(lia)) as (s & I1 & I2 & I3).
  exists (s ++ $"Z"). split; [|split; auto].
  - unfold datetime_to_str. destruct nf.
    + rewrite int_part_quot, Z.quot_mul by (pose proof SEC_pos; lia). now rewrite I1.
    + rewrite nudged_int by auto. now rewrite I1.
  - rewrite I2. change (0 =? 0) with true. cbv iota. f_equal. apply fadd_int_0. unfold in_years in H. cbn. lia.
Qed.

(** ** Microseconds *)

Lemma log2_between s v c : 0 <= c -> 1 <= s -> s * 2 ^ c <= v < (s + 1) * 2 ^ c -> Z.log2 v = Z.log2 s + c.
Proof.
  intros C S H. pose proof (Z.log2_spec s ltac:(lia)) as L. pose proof (Z.log2_nonneg s).
  apply Z.log2_unique; [lia|]. rewrite Z.pow_add_r by lia.
  replace (Z.succ (Z.log2 s + c)) with (Z.succ (Z.log2 s) + c) by lia. rewrite Z.pow_add_r by lia.
  pose proof (pow2_pos c C). nia.
Qed.

Section Micro.
Variable k : Z.
Hypothesis K1 : 2 ^ 14 * 1000000 <= k.
Hypothesis K2 : k < 2 ^ 33 * 1000000.
Let secs := k / 1000000.
Let us := k mod 1000000.
Let e := Z.log2 secs + 1022.
Let t := float_of_ratio k 1000000.

Lemma k_split : k = secs * 1000000 + us.
Proof. unfold secs, us. pose proof (Z.div_mod k 1000000). lia. Qed.
Lemma us_range : 0 <= us < 1000000.
Proof. unfold us. apply Z.mod_pos_bound. lia. Qed.
Lemma secs_range : 2 ^ 14 <= secs < 2 ^ 33.
Proof. unfold secs. split; [apply Z.div_le_lower_bound; lia|apply Z.div_lt_upper_bound; lia]. Qed.
Lemma e_range : 1036 <= e <= 1054.
Proof.
  pose proof secs_range as S. unfold e.
  assert (14 <= Z.log2 secs) by (apply Z.log2_le_pow2; lia).
  assert (Z.log2 secs < 33) by (apply Z.log2_lt_pow2; lia). lia.
Qed.
Lemma t_exp : ulp_exp (k * SEC) 1000000 = e.
Proof.
  pose proof secs_range as S. pose proof us_range as R. pose proof k_split as KS. pose proof SEC_pos as SP.
  unfold ulp_exp. rewrite Z.abs_eq by nia.
  rewrite (log2_between secs _ 1074).
  - pose proof e_range. unfold e in *. lia.
  - lia.
  - lia.
  - fold SEC. split; [apply Z.div_le_lower_bound; nia|apply Z.div_lt_upper_bound; nia].
Qed.
Lemma e_pos : 0 < 2 ^ e.
Proof. pose proof e_range. apply pow2_pos. lia. Qed.
Lemma t_eq : t = rne (k * SEC) (1000000 * 2 ^ e) * 2 ^ e.
Proof. unfold t, float_of_ratio, rnd. now rewrite t_exp. Qed.
Lemma t_err : 2 * Z.abs (t * 1000000 - k * SEC) <= 1000000 * 2 ^ e.
Proof.
  rewrite t_eq. pose proof e_pos.
  pose proof (rne_near (k * SEC) (1000000 * 2 ^ e) ltac:(lia)) as N.
  set (m := rne _ _) in *. replace (m * 2 ^ e * 1000000) with (m * (1000000 * 2 ^ e)) by ring. exact N.
Qed.
(** [t] lies between two powers of two. *)
Lemma t_range : 2 ^ (e + 52) <= t <= 2 ^ (e + 53).
Proof.
  pose proof secs_range as S. pose proof us_range as R. pose proof k_split as KS. pose proof SEC_pos as SP.
  pose proof e_range as ER. pose proof e_pos as EP.
  rewrite t_eq. pose proof (Z.log2_spec secs ltac:(lia)) as L. pose proof (Z.log2_nonneg secs) as LN.
  assert (SE : SEC * 2 ^ Z.log2 secs = 2 ^ (e + 52)).
  { unfold SEC, e. rewrite <- Z.pow_add_r by lia. f_equal. lia. }
  assert (SE' : SEC * 2 ^ Z.succ (Z.log2 secs) = 2 ^ (e + 53)).
  { unfold SEC, e. rewrite <- Z.pow_add_r by lia. f_equal. lia. }
  assert (2 ^ (e + 52) = 2 ^ 52 * 2 ^ e) by (rewrite Z.pow_add_r by lia; ring).
  assert (2 ^ (e + 53) = 2 ^ 53 * 2 ^ e) by (rewrite Z.pow_add_r by lia; ring).
  split.
  - assert (2 ^ 52 <= rne (k * SEC) (1000000 * 2 ^ e)); [|nia]. apply rne_ge; [lia|].
    replace (2 ^ 52 * (1000000 * 2 ^ e)) with (1000000 * (SEC * 2 ^ Z.log2 secs)) by (rewrite SE; lia). nia.
  - assert (rne (k * SEC) (1000000 * 2 ^ e) <= 2 ^ 53); [|nia]. apply rne_le; [lia|].
    replace (2 ^ 53 * (1000000 * 2 ^ e)) with (1000000 * (SEC * 2 ^ Z.succ (Z.log2 secs))) by (rewrite SE'; lia). nia.
Qed.

(** Adding the nudge: nothing happens to a large time, and a small time stays close. *)
Lemma nudged_t : 2 * Z.abs (fadd t rounding_nudge * 1000000 - k * SEC) <= SEC - 2 ^ 22 * U.
Proof.
  pose proof t_err as TE. pose proof t_range as TR. pose proof nudge_bound as NB. set (g := rounding_nudge) in *.
  pose proof e_range as ER. pose proof e_pos as EP. pose proof U_pos as UP.
  assert (TP : 2 ^ (e + 54) = 2 * 2 ^ (e + 53)) by (rewrite <- Z.pow_succ_r by lia; f_equal; lia).
  assert (P53 : 2 ^ (e + 53) = 2 ^ 53 * 2 ^ e) by (rewrite Z.pow_add_r by lia; ring).
  assert (P0 : 0 < 2 ^ (e + 52)) by (apply pow2_pos; lia).
  destruct (Z.le_gt_cases e 1051) as [SM|LG].
  - assert (X : 2 * Z.abs (fadd t g - (t + g)) <= 2 ^ (e + 1)).
    { apply rnd_err; [lia|]. replace (e + 1 + 53) with (e + 54) by lia. rewrite TP.
      assert (2 ^ 31 * U <= 2 ^ (e + 53)); [|lia].
      rewrite <- (pow_U 31) by lia. apply Z.pow_le_mono_r; lia. }
    assert (E1 : 2 ^ (e + 1) <= 2 ^ (1020 + 32)) by (apply Z.pow_le_mono_r; lia).
    assert (E0 : 2 ^ e <= 2 ^ (1020 + 31)) by (apply Z.pow_le_mono_r; lia).
    rewrite pow_U in E1, E0 by lia. rewrite SEC_U in *. set (x := fadd t g) in *.
    change (2 ^ 54) with 18014398509481984 in *. change (2 ^ 31) with 2147483648 in *.
    change (2 ^ 32) with 4294967296 in *. change (2 ^ 22) with 4194304 in *.
    set (T := t * 1000000 - _) in *.
    replace (x * 1000000 - k * (18014398509481984 * U)) with
       (T + 1000000 * (x - (t + g)) + 1000000 * g) by (unfold T; ring). lia.
  - assert (X : fadd t g = t).
    { unfold fadd, rnd. rewrite Z.mul_1_l. set (e' := ulp_exp (t + g) 1).
      assert (G : 2 * g < 2 ^ e).
      { assert (2 ^ (1020 + 32) <= 2 ^ e) as Q by (apply Z.pow_le_mono_r; lia).
        rewrite pow_U in Q by lia. change (2 ^ 32) with (2 * 2 ^ 31) in Q. lia. }
      assert (D : (2 ^ e | t)) by (rewrite t_eq; apply Z.divide_factor_r).
      assert (EE : e' = e \/ e' = e + 1 /\ t = 2 ^ (e + 53)).
      { unfold e', ulp_exp. rewrite Z.div_1_r, Z.abs_eq by lia.
        destruct (Z.lt_ge_cases (t + g) (2 ^ (e + 53))) as [LT|GE].
        - left. rewrite (Z.log2_unique _ (e + 52)); [lia|lia|].
          replace (Z.succ (e + 52)) with (e + 53) by lia. lia.
        - right. rewrite (Z.log2_unique _ (e + 53)); [|lia|].
          + split; [lia|]. destruct D as [m D]. rewrite D, P53 in *.
            clear -TR GE G EP NB. destruct TR as [_ TR]. generalize dependent (2 ^ 53). intros c TR GE.
            assert (m <= c) by nia. assert (c < m + 1) by nia. f_equal. lia.
          + replace (Z.succ (e + 53)) with (e + 54) by lia. lia. }
      assert (GE' : exists m, t = m * 2 ^ e' /\ 2 * g < 2 ^ e' /\ 0 < 2 ^ e').
      { destruct EE as [->|[-> ->]].
        - destruct D as [m D]. exists m. auto.
        - exists (2 ^ 52). replace (2 ^ (e + 1)) with (2 * 2 ^ e) by (rewrite <- Z.pow_succ_r by lia; f_equal; lia).
          split; [|lia]. rewrite P53. change (2 ^ 53) with (2 * 2 ^ 52). ring. }
      destruct GE' as (m & Em & Eg & Ep). rewrite Em. f_equal. apply rne_unique; auto. lia. }
    rewrite X. assert (E0 : 2 ^ e <= 2 ^ (1020 + 34)) by (apply Z.pow_le_mono_r; lia).
    rewrite pow_U in E0 by lia. rewrite SEC_U in *.
    change (2 ^ 54) with 18014398509481984 in *. change (2 ^ 34) with 17179869184 in *.
    change (2 ^ 22) with 4194304 in *. lia.
Qed.

(** Seconds plus the rounded fraction is the same double. *)
Lemma refold : fadd (secs * SEC) (float_of_ratio us 1000000) = t.
Proof.
  pose proof secs_range as S. pose proof us_range as R. pose proof k_split as KS. pose proof SEC_pos as SP.
  pose proof e_range as ER. pose proof e_pos as EP. pose proof U_pos as UP.
  set (F := float_of_ratio us 1000000).
  assert (FE : 2 * Z.abs (F * 1000000 - us * SEC) <= 1000000 * (2 * U)).
  { unfold F, float_of_ratio, rnd. set (f := ulp_exp (us * SEC) 1000000).
    assert (f <= 1021).
    { unfold f, ulp_exp. apply Z.max_lub; [lia|]. rewrite Z.abs_eq by nia.
      destruct (Z.eq_dec us 0) as [->|]; [cbn; lia|].
      assert (us * SEC / 1000000 < 2 ^ 1074) by (apply Z.div_lt_upper_bound; [lia|]; fold SEC; nia).
      destruct (Z.le_gt_cases (us * SEC / 1000000) 0) as [Q|Q].
      { rewrite Z.log2_nonpos; lia. }
      apply Z.log2_lt_pow2 in H; lia. }
    assert (0 <= f) by apply ulp_exp_nonneg.
    assert (0 < 2 ^ f) by (apply pow2_pos; lia).
    assert (2 ^ f <= 2 ^ (1020 + 1)) as Q by (apply Z.pow_le_mono_r; lia). rewrite pow_U in Q by lia.
    change (2 ^ 1) with 2 in Q.
    pose proof (rne_near (us * SEC) (1000000 * 2 ^ f) ltac:(lia)) as N.
    set (m := rne _ _) in *. replace (m * 2 ^ f * 1000000) with (m * (1000000 * 2 ^ f)) by ring. lia. }
  assert (SU : SEC = 18014398509481984 * U) by (rewrite SEC_U; reflexivity).
  assert (FR : 0 <= F < SEC).
  { split.
    - unfold F, float_of_ratio, rnd. set (f := ulp_exp _ _). assert (0 <= f) by apply ulp_exp_nonneg.
      assert (0 < 2 ^ f) by (apply pow2_pos; lia).
      apply Z.mul_nonneg_nonneg; [|lia]. apply rne_ge; nia.
    - nia. }
  rewrite t_eq. unfold fadd, rnd.
  assert (EX : ulp_exp (secs * SEC + F) 1 = e).
  { unfold ulp_exp. rewrite Z.div_1_r, Z.abs_eq by nia. rewrite (log2_between secs _ 1074).
    - unfold e in *. lia.
    - lia.
    - lia.
    - fold SEC. nia. }
  rewrite EX. f_equal. rewrite Z.mul_1_l.
  rewrite <- (rne_scale _ 1000000 (2 ^ e)) by lia. rewrite (Z.mul_comm (2 ^ e)).
  apply rne_stable; [lia|]. intros j.
  replace ((secs * SEC + F) * 1000000 - k * SEC) with (F * 1000000 - us * SEC) by (rewrite KS; ring).
  assert (SE : SEC = 2 ^ (1068 - e) * 2 ^ 6 * 2 ^ e).
  { unfold SEC. rewrite <- !Z.pow_add_r by lia. f_equal. lia. }
  assert (Q : 2 * (k * SEC) - (2 * j + 1) * (1000000 * 2 ^ e) =
    (2 * (k * 2 ^ (1068 - e)) - (2 * j + 1) * 15625) * (64 * 2 ^ e)).
  { rewrite SE. change 1000000 with (15625 * 64). change (2 ^ 6) with 64. ring. }
  rewrite Q, Z.abs_mul. rewrite (Z.abs_eq (64 * 2 ^ e)) by lia.
  assert (O : 1 <= Z.abs (2 * (k * 2 ^ (1068 - e)) - (2 * j + 1) * 15625)).
  { set (q := k * 2 ^ (1068 - e)). assert (2 * q - (2 * j + 1) * 15625 <> 0) by lia. lia. }
  assert (G : 64 * 65536 * U <= 64 * 2 ^ e).
  { assert (2 ^ (1020 + 16) <= 2 ^ e) as G by (apply Z.pow_le_mono_r; lia). rewrite pow_U in G by lia.
    change (2 ^ 16) with 65536 in G. lia. }
  nia.
Qed.

Lemma micro : exists s, datetime_to_str false t = Ok s /\ str_to_datetime s = Ok t /\ full_datetime s.
Proof.
  pose proof us_range as R. pose proof secs_range as S.
  assert (Y : in_years secs) by (unfold in_years; cbn in S; lia).
  destruct (isoformat_read secs us Y R) as (s & I1 & I2 & I3).
  exists (s ++ $"Z"). split; [|split; auto].
  - unfold datetime_to_str. rewrite (split_ok _ k nudged_t). fold secs. fold us. now rewrite I1.
  - rewrite I2. f_equal. destruct (Z.eqb_spec us 0) as [E|E].
    + rewrite <- refold, E. unfold float_of_ratio. change (rnd (0 * SEC) 1000000) with 0. reflexivity.
    + apply refold.
Qed.
End Micro.

Theorem micro_round_trip k :
  2 ^ 14 * 1000000 <= k < 2 ^ 33 * 1000000 ->
  exists s, datetime_to_str false (float_of_ratio k 1000000) = Ok s /\
            str_to_datetime s = Ok (float_of_ratio k 1000000) /\ full_datetime s.
Proof. intros [H1 H2]. now apply micro. Qed.

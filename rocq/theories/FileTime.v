(** * FileTime: modification times in the range of 32 bit clocks can be written *)

From Verif Require Import Py PyFacts Float64 Float64Facts W3C W3CSpec W3CFacts W3CRound Resource SitemapSpec.

Lemma fmul_fp_err fp : Z.abs fp < SEC -> 2 * Z.abs (fmul_int fp 1000000 - fp * 1000000) <= 2 ^ (1020 + 21).
Proof.
  intros RB. apply rnd_err; [lia|]. replace (1020 + 21 + 53) with (1020 + 74) by lia. rewrite pow_U by lia.
  pose proof U_pos. rewrite SEC_U in RB. change (2 ^ 74) with (2 ^ 54 * 1048576). nia.
Qed.

Lemma split_range x : 0 <= x -> forall s us, split_timestamp x = (s, us) ->
  0 <= us < 1000000 /\ Z.quot x SEC - 1 <= s <= Z.quot x SEC + 1.
Proof.
  intros P s us H. pose proof U_pos as UP. pose proof SEC_pos as SP. unfold split_timestamp in H. rewrite int_part_quot, frac_part_rem in H.
  pose proof (Z.rem_bound_abs x SEC ltac:(lia)) as RB. set (ip := Z.quot x SEC) in *. set (fp := Z.rem x SEC) in *.
  pose proof (fmul_fp_err fp ltac:(lia)) as F. rewrite pow_U in F by lia. set (fm := fmul_int fp 1000000) in *.
  pose proof (rne_near fm SEC ltac:(lia)) as N. set (u := rne fm SEC) in *.
  assert (S2 : SEC = 18014398509481984 * U) by apply SEC_U. change (2 ^ 21) with 2097152 in F.
  assert (B : -1000000 <= u <= 1000000).
  { assert (Z.abs fp <= SEC - 1) by lia. split; nia. }
  destruct (Z.leb_spec 1000000 u); [injection H as <- <-; lia|].
  destruct (Z.ltb_spec u 0); injection H as <- <-; lia.
Qed.

Lemma fadd_nudge_bounds t : 2 ^ 15 * SEC <= t <= 2 ^ 32 * SEC ->
  (2 ^ 15 - 1) * SEC <= fadd t rounding_nudge <= (2 ^ 32 + 1) * SEC.
Proof.
  intros H. pose proof nudge_bound as NB. pose proof U_pos as UP. pose proof SEC_U as SU.
  set (g := rounding_nudge) in *. unfold fadd.
  assert (E : 2 * Z.abs (rnd (t + g) 1 - (t + g)) <= 2 ^ (1020 + 34)).
  { apply rnd_err; [lia|]. replace (1020 + 34 + 53) with (1020 + 87) by lia. rewrite pow_U by lia.
    change (2 ^ 87) with (2 ^ 33 * 2 ^ 54). rewrite SU in H. rewrite Z.abs_eq by nia. nia. }
  rewrite pow_U in E by lia. change (2 ^ 34) with 17179869184 in E. change (2 ^ 31) with 2147483648 in NB.
  change (2 ^ 54) with 18014398509481984 in SU. change (2 ^ 15) with 32768 in *. change (2 ^ 32) with 4294967296 in *.
  set (x := rnd (t + g) 1) in *. clearbody x g. rewrite SU in *. nia.
Qed.

(** A time between 1970-01-01T09:07 and 2106 is written like one that is read back
    without loss. *)
Lemma written_time t : 2 ^ 15 * SEC <= t <= 2 ^ 32 * SEC ->
  exists t', plain_time (Some t') /\ datetime_to_str false t = datetime_to_str false t'.
Proof.
  intros H. pose proof SEC_pos as SP. apply fadd_nudge_bounds in H.
  destruct (split_timestamp (fadd t rounding_nudge)) as [s us] eqn:E.
  set (x := fadd t rounding_nudge) in *.
  destruct (split_range x ltac:(nia) s us E) as [B1 B2].
  assert (Q : 2 ^ 15 - 1 <= Z.quot x SEC <= 2 ^ 32 + 1).
  { rewrite Z.quot_div_nonneg by lia. split; [apply Z.div_le_lower_bound; lia|apply Z.div_le_upper_bound; lia]. }
  set (k := s * 1000000 + us).
  assert (K : 2 ^ 14 * 1000000 <= k < 2 ^ 33 * 1000000).
  { unfold k. change (2 ^ 14) with 16384. change (2 ^ 33) with 8589934592.
    change (2 ^ 15) with 32768 in *. change (2 ^ 32) with 4294967296 in *. lia. }
  exists (float_of_ratio k 1000000). split.
  - intros t' [= <-]. right. exists k. auto.
  - unfold datetime_to_str. fold x. rewrite E. destruct K as [K1 K2].
    rewrite (split_ok _ k (nudged_t k K1 K2)). unfold k.
    rewrite Z.div_add_l, (Z.div_small us), Z.add_0_r by lia.
    rewrite (Z.add_comm (s * 1000000) us), Z.mod_add, Z.mod_small by lia. reflexivity.
Qed.

(** * TimeLoss: how much of a time is lost when it is written *)

From Verif Require Import Py PyFacts Float64 Float64Facts W3C W3CSpec W3CFacts W3CRound Resource SitemapSpec FileTime.

Lemma split_close x : 0 <= x -> forall s us, split_timestamp x = (s, us) ->
  2 * Z.abs ((s * 1000000 + us) * SEC - x * 1000000) <= SEC + 2 ^ 21 * U.
Proof.
  intros P s us H. pose proof U_pos as UP. pose proof SEC_pos as SP. unfold split_timestamp in H. rewrite int_part_quot, frac_part_rem in H.
  pose proof (Z.rem_bound_abs x SEC ltac:(lia)) as RB. pose proof (Z.quot_rem' x SEC) as QR.
  set (ip := Z.quot x SEC) in *. set (fp := Z.rem x SEC) in *.
  pose proof (fmul_fp_err fp ltac:(lia)) as F. rewrite pow_U in F by lia. set (fm := fmul_int fp 1000000) in *.
  pose proof (rne_near fm SEC ltac:(lia)) as N. set (u := rne fm SEC) in *.
  assert (K : s * 1000000 + us = ip * 1000000 + u).
  { destruct (1000000 <=? u); [|destruct (u <? 0)]; injection H as <- <-; lia. }
  rewrite K. replace ((ip * 1000000 + u) * SEC - x * 1000000) with ((u * SEC - fm) + (fm - fp * 1000000)) by (rewrite QR; ring).
  lia.
Qed.

(** A time between 1970-01-01T09:07 and 2106 is written like one that is read back
    without loss and is less than two microseconds away. *)
Lemma time_loss t : 2 ^ 15 * SEC <= t <= 2 ^ 32 * SEC ->
  exists t', plain_time (Some t') /\ datetime_to_str false t = datetime_to_str false t'
    /\ 1000000 * Z.abs (t' - t) < 2 * SEC.
Proof.
  intros H. pose proof SEC_pos as SP. pose proof (fadd_nudge_bounds t H) as HB.
  destruct (split_timestamp (fadd t rounding_nudge)) as [s us] eqn:E.
  assert (XE : 2 * Z.abs (fadd t rounding_nudge - t) <= 3 * 2 ^ 33 * U).
  { pose proof nudge_bound as NB. pose proof U_pos as UP. pose proof SEC_U as SU.
    set (g := rounding_nudge) in *. unfold fadd.
    assert (X : 2 * Z.abs (rnd (t + g) 1 - (t + g)) <= 2 ^ (1020 + 34)).
    { apply rnd_err; [lia|]. replace (1020 + 34 + 53) with (1020 + 87) by lia. rewrite pow_U by lia.
      change (2 ^ 87) with (2 ^ 33 * 2 ^ 54). rewrite SU in H. rewrite Z.abs_eq by nia. nia. }
    rewrite pow_U in X by lia. change (2 ^ 34) with 17179869184 in X. change (2 ^ 31) with 2147483648 in NB.
    change (2 ^ 33) with 8589934592. lia. }
  set (x := fadd t rounding_nudge) in *.
  destruct (split_range x ltac:(nia) s us E) as [B1 B2]. pose proof (split_close x ltac:(nia) s us E) as C.
  assert (Q : 2 ^ 15 - 1 <= Z.quot x SEC <= 2 ^ 32 + 1).
  { rewrite Z.quot_div_nonneg by lia. split; [apply Z.div_le_lower_bound; lia|apply Z.div_le_upper_bound; lia]. }
  set (k := s * 1000000 + us) in *.
  assert (K : 2 ^ 14 * 1000000 <= k < 2 ^ 33 * 1000000).
  { unfold k. change (2 ^ 14) with 16384. change (2 ^ 33) with 8589934592.
    change (2 ^ 15) with 32768 in *. change (2 ^ 32) with 4294967296 in *. lia. }
  exists (float_of_ratio k 1000000). split; [|split].
  - intros t' [= <-]. right. exists k. auto.
  - unfold datetime_to_str. fold x. rewrite E. destruct K as [K1 K2].
    rewrite (split_ok _ k (nudged_t k K1 K2)). unfold k.
    rewrite Z.div_add_l, (Z.div_small us), Z.add_0_r by lia.
    rewrite (Z.add_comm (s * 1000000) us), Z.mod_add, Z.mod_small by lia. reflexivity.
  - destruct K as [K1 K2]. pose proof (t_err k K1 K2) as TE. pose proof (e_range k K1 K2) as ER.
    set (e := Z.log2 (k / 1000000) + 1022) in *.
    assert (PE : 2 ^ e <= 2 ^ (1020 + 34)) by (apply Z.pow_le_mono_r; lia).
    rewrite pow_U in PE by lia. set (p := 2 ^ e) in *. set (t' := float_of_ratio k 1000000) in *.
    pose proof U_pos as UP. pose proof SEC_U as SU. set (kk := k * SEC) in *.
    clearbody p kk t' x. clear H HB E B1 B2 Q k K1 K2 e ER s us.
    change (2 ^ 54) with 18014398509481984 in SU. change (2 ^ 34) with 17179869184 in PE.
    change (2 ^ 33) with 8589934592 in XE. change (2 ^ 21) with 2097152 in C. lia.
Qed.

(** * W3CLaws: equivalent spellings, zones, the calendar *)

From Verif Require Import Py PyFacts Float64 Float64Facts Regex RegexFacts W3C W3CSpec W3CCal W3CFacts W3CParse W3CRound.

Lemma full_no_tail y mo d h mi sec z :
  date_digits y mo d -> time_digits h mi sec -> zone_digits z ->
  str_to_datetime (full_str y mo d h mi sec z) = raw_value y mo d h mi (sec_digits sec) z (frac_val sec).
Proof.
  intros D T Z. pose proof (str_to_datetime_value y mo d h mi sec z [] D T Z (or_introl eq_refl)) as V.
  now rewrite app_nil_r in V.
Qed.

Lemma spelling_year y : digits 4 y ->
  str_to_datetime y = str_to_datetime (full_str y $"01" $"01" $"00" $"00" (Some ($"00", None)) Zulu).
Proof.
  intros D. rewrite str_to_datetime_y, full_no_tail; auto; repeat split; auto; apply D.
Qed.
Lemma spelling_month y mo : digits 4 y -> digits 2 mo ->
  str_to_datetime (y ++ $"-" ++ mo) =
  str_to_datetime (full_str y mo $"01" $"00" $"00" (Some ($"00", None)) Zulu).
Proof.
  intros D D'. rewrite str_to_datetime_ym, full_no_tail; auto; repeat split; auto; apply D || apply D'.
Qed.
Lemma spelling_day y mo d : date_digits y mo d ->
  str_to_datetime (date_str y mo d) =
  str_to_datetime (full_str y mo d $"00" $"00" (Some ($"00", None)) Zulu).
Proof. intros D. rewrite str_to_datetime_ymd, full_no_tail; auto; [repeat split|exact I]. Qed.

Lemma spelling_seconds y mo d h mi z :
  date_digits y mo d -> digits 2 h -> digits 2 mi -> zone_digits z ->
  str_to_datetime (full_str y mo d h mi None z) =
  str_to_datetime (full_str y mo d h mi (Some ($"00", None)) z).
Proof.
  intros D H M Z. rewrite !full_no_tail; auto; try (split; auto; fail).
  repeat split; auto; apply H || apply M.
Qed.

Lemma spelling_zone y mo d h mi sec :
  date_digits y mo d -> time_digits h mi sec ->
  str_to_datetime (full_str y mo d h mi sec (Plus $"00" $"00")) = str_to_datetime (full_str y mo d h mi sec Zulu) /\
  str_to_datetime (full_str y mo d h mi sec (Minus $"00" $"00")) = str_to_datetime (full_str y mo d h mi sec Zulu).
Proof.
  intros D T. rewrite !full_no_tail; auto; try exact I; try (split; split; reflexivity).
Qed.

Lemma zone_law y mo d h mi sec z t :
  date_digits y mo d -> time_digits h mi sec -> zone_digits z ->
  str_to_datetime (full_str y mo d h mi sec z) = Ok t ->
  exists w f, str_to_datetime (full_str y mo d h mi sec Zulu) = Ok (fadd (w * SEC) f) /\
    t = fadd ((w + zone_offset z) * SEC) f.
Proof.
  intros D T Z H. rewrite full_no_tail in H by auto. apply raw_value_ok in H as (RD & RT & RZ & ->).
  eexists _, (frac_val sec). split; [|reflexivity].
  rewrite full_no_tail by (auto; exact I). apply raw_value_ok.
  split; [assumption|]. split; [assumption|]. split; [exact I|]. cbn [zone_offset]. now rewrite Z.add_0_r.
Qed.

Ltac fold_out :=
  repeat match goal with |- context [fold_left ?f ?l 0] =>
    let v := eval vm_compute in (fold_left f l 0) in change (fold_left f l 0) with v end.
Lemma real_date_ord y m d : real_date y m d -> 1 <= ymd2ord y m d <= 3652059.
Proof.
  intros (Y & len & L & D). unfold ymd2ord.
  pose proof (month_length_range _ _ _ L) as M.
  assert (MO : forall a b, a <= b -> days_before_year a <= days_before_year b).
  { intros a b AB. destruct (Z.eq_dec a b) as [->|]; [lia|].
    unfold days_before_year. Z.div_mod_to_equations; lia. }
  pose proof (MO 1 y ltac:(lia)) as B1. change (days_before_year 1) with 0 in B1.
  pose proof (MO (y + 1) 10000 ltac:(lia)) as B2. change (days_before_year 10000) with 3652059 in B2.
  rewrite days_before_year_S in B2.
  assert (B3 : 0 <= days_before_month y m /\ days_before_month y m + d <= 365 + (if is_leap y then 1 else 0)).
  { assert (d <= days_in_month y m).
    { rewrite (month_length_unique _ _ _ _ (days_in_month_spec y m M) L). lia. }
    assert (m = 1 \/ m = 2 \/ m = 3 \/ m = 4 \/ m = 5 \/ m = 6 \/ m = 7 \/ m = 8 \/ m = 9
    \/ m = 10 \/ m = 11 \/ m = 12) as C by lia.
    unfold days_before_month, days_in_month in *. clear -C D H. revert D H. generalize (is_leap y); intros b.
    repeat (destruct C as [->|C]; [destruct b; fold_out; cbn -[Z.add]; intros; lia|]). subst. destruct b; fold_out; cbn -[Z.add]; intros; lia. }
  lia.
Qed.

Lemma timegm_in_years y m d h mi s : real_date y m d -> real_time h mi s -> in_years (timegm y m d h mi s).
Proof.
  intros D (H & M & S). apply real_date_ord in D. unfold timegm, in_years, EPOCH_ORD. lia.
Qed.

Lemma whole_value y mo d h mi s z t :
  date_digits y mo d -> digits 2 h -> digits 2 mi -> digits 2 s -> zone_digits z ->
  str_to_datetime (full_str y mo d h mi (Some (s, None)) z) = Ok t <->
  real_date (digits_val y) (digits_val mo) (digits_val d) /\
  real_time (digits_val h) (digits_val mi) (digits_val s) /\ real_zone z /\
  t = (timegm (digits_val y) (digits_val mo) (digits_val d) (digits_val h) (digits_val mi) (digits_val s)
        + zone_offset z) * SEC.
Proof.
  intros D H M S Z. rewrite full_no_tail by (auto; split; auto). rewrite raw_value_ok. cbn [sec_digits frac_val].
  split; intros (RD & RT & RZ & E); (split; [assumption|]; split; [assumption|]; split; [assumption|]);
    rewrite fadd_int_0 in *; auto.
  all: pose proof (timegm_in_years _ _ _ _ _ _ RD RT) as IY; unfold in_years in IY;
    assert (Z.abs (zone_offset z) <= 100000); [|cbn; lia];
    destruct z as [|hh mm|hh mm]; cbn in *; [lia| |];
    destruct Z as [[L1 D1] [L2 D2]]; pose proof (digits_val_bound hh D1) as B1; pose proof (digits_val_bound mm D2) as B2;
    destruct RZ; lia.
Qed.

Lemma w3c_no_nl s : w3c_datetime s -> ~ In nl s.
Proof.
  intros W. apply accepts_all in W as W'. destruct W as [(y & mo & d & (D1 & D2 & D3) & _ & C)|
    (y & mo & d & h & mi & sec & z & -> & (D1 & D2 & D3) & (D4 & D5 & D6) & Z & _)].
  - destruct C as [(-> & -> & ->)|[(-> & ->)| ->]]; expl_body; unfold date_str, lit;
      cbn [list_ascii_of_string app In]; intros I; repeat destruct I as [I|I]; subst; easy.
  - unfold full_str. rewrite !in_app_iff. intros [I|[I|[I|I]]].
    + expl_body. unfold date_str, lit in I; cbn [list_ascii_of_string app In] in I; repeat destruct I as [I|I]; subst; easy.
    + destruct I as [I|[]]. discriminate I.
    + unfold time_str in I. rewrite !in_app_iff in I. destruct I as [I|[I|[I|I]]].
      * apply digits2 in D4 as (? & ? & -> & ? & ?). cbn in I. repeat destruct I as [I|I]; subst; easy.
      * destruct I as [I|[]]. discriminate I.
      * apply digits2 in D5 as (? & ? & -> & ? & ?). cbn in I. repeat destruct I as [I|I]; subst; easy.
      * destruct sec as [[s [f|]]|]; [| |easy].
        -- destruct D6 as [D6 [F0 F]]. rewrite !in_app_iff in I. destruct I as [[I|[]]|[I|[[I|[]]|I]]]; try discriminate I.
           ++ apply digits2 in D6 as (? & ? & -> & ? & ?). cbn in I. repeat destruct I as [I|I]; subst; easy.
           ++ revert I. apply digit_not_in; auto.
        -- rewrite !in_app_iff in I. destruct I as [[I|[]]|I]; try discriminate I.
           apply digits2 in D6 as (? & ? & -> & ? & ?). cbn in I. repeat destruct I as [I|I]; subst; easy.
    + destruct (zone_shape z Z) as (x & X & E & _ & N). rewrite E in I. contradiction.
Qed.

(** ** The statements used in Prop_W3C.v *)

Lemma zones_reversed :
  exists y mo d h mi s z t u,
    date_digits y mo d /\ time_digits h mi (Some (s, None)) /\ zone_digits z /\
    str_to_datetime (full_str y mo d h mi (Some (s, None)) z) = Ok t /\
    str_to_datetime (full_str y mo d h mi (Some (s, None)) Zulu) = Ok u /\
    t <> u - zone_offset z * SEC.
Proof.
  exists $"2012", $"01", $"01", $"12", $"00", $"00", (Plus $"01" $"00").
  eexists _, _. split; [repeat split; reflexivity|]. split; [repeat split; reflexivity|].
  split; [repeat split; reflexivity|].
  split; [apply whole_value; [repeat split; reflexivity..|] |split; [apply whole_value; [repeat split; reflexivity..|]|]].
  - split; [apply valid_date_spec; reflexivity|]. split; [apply valid_time_spec; reflexivity|].
    split; [vm_compute; split; discriminate|reflexivity].
  - split; [apply valid_date_spec; reflexivity|]. split; [apply valid_time_spec; reflexivity|].
    split; [exact I|reflexivity].
  - cbn [zone_offset]. intros E. apply Z.eqb_eq in E. vm_compute in E. discriminate E.
Qed.

Lemma zone_law_whole y mo d h mi s z t u :
  date_digits y mo d -> time_digits h mi (Some (s, None)) -> zone_digits z ->
  str_to_datetime (full_str y mo d h mi (Some (s, None)) z) = Ok t ->
  str_to_datetime (full_str y mo d h mi (Some (s, None)) Zulu) = Ok u ->
  t = u + zone_offset z * SEC.
Proof.
  intros D (D1 & D2 & D3) Z T V. apply whole_value in T as (_ & _ & _ & ->); auto.
  apply whole_value in V as (_ & _ & _ & ->); auto; [|exact I]. cbn [zone_offset]. ring.
Qed.

Lemma newline_accepted : exists s t, str_to_datetime s = Ok t /\ ~ w3c_datetime s.
Proof.
  exists ($"2012-01-01T12:00:00Z" ++ [nl]).
  destruct (accepts_all $"2012-01-01T12:00:00Z") as [t Et].
  - right. exists $"2012", $"01", $"01", $"12", $"00", (Some ($"00", None)), Zulu.
    split; [reflexivity|]. split; [repeat split|]. split; [repeat split|]. split; [exact I|].
    split; [apply valid_date_spec; reflexivity|]. split; [apply valid_time_spec; reflexivity|exact I].
  - exists t. split.
    + pose proof (str_to_datetime_value $"2012" $"01" $"01" $"12" $"00" (Some ($"00", None)) Zulu) as V.
      change $"2012-01-01T12:00:00Z" with (full_str $"2012" $"01" $"01" $"12" $"00" (Some ($"00", None)) Zulu) in *.
      rewrite V; [|repeat split..|exact I|right; reflexivity].
      rewrite <- (app_nil_r (full_str _ _ _ _ _ _ _)) in Et.
      rewrite V in Et; [exact Et|repeat split..|exact I|left; reflexivity].
    + intros W. apply w3c_no_nl in W. apply W. apply in_app_iff. right; left; auto.
Qed.

Lemma next_day_value y mo d y' mo' d' h mi s t t' :
  date_digits y mo d -> date_digits y' mo' d' -> time_digits h mi (Some (s, None)) ->
  next_day (digits_val y) (digits_val mo) (digits_val d) (digits_val y') (digits_val mo') (digits_val d') ->
  str_to_datetime (full_str y mo d h mi (Some (s, None)) Zulu) = Ok t ->
  str_to_datetime (full_str y' mo' d' h mi (Some (s, None)) Zulu) = Ok t' ->
  t' = t + 86400 * SEC.
Proof.
  intros D D' (D1 & D2 & D3) N T T'.
  apply whole_value in T as ((_ & len & L & _) & _ & _ & ->); auto; [|exact I].
  apply whole_value in T' as (_ & _ & _ & ->); auto; [|exact I].
  apply month_length_range in L as M. apply next_day_ord in N; [|lia].
  unfold timegm. rewrite N. ring.
Qed.

Lemma time_of_day_value y mo d h mi s t :
  date_digits y mo d -> time_digits h mi (Some (s, None)) ->
  str_to_datetime (full_str y mo d h mi (Some (s, None)) Zulu) = Ok t ->
  exists t0, str_to_datetime (full_str y mo d $"00" $"00" (Some ($"00", None)) Zulu) = Ok t0 /\
    t = t0 + (digits_val h * 3600 + digits_val mi * 60 + digits_val s) * SEC.
Proof.
  intros D (D1 & D2 & D3) T. apply whole_value in T as (RD & _ & _ & ->); auto; [|exact I].
  eexists. split.
  - apply whole_value; auto; [split; reflexivity..|exact I|].
    split; [assumption|]. split; [apply real_time_0|]. split; [exact I|reflexivity].
  - unfold timegm. change (digits_val $"00") with 0. ring.
Qed.

Lemma epoch_value : str_to_datetime $"1970-01-01T00:00:00Z" = Ok 0.
Proof.
  change $"1970-01-01T00:00:00Z" with (full_str $"1970" $"01" $"01" $"00" $"00" (Some ($"00", None)) Zulu).
  apply whole_value; [repeat split..|exact I|].
  split; [apply valid_date_spec; reflexivity|]. split; [apply real_time_0|]. split; [exact I|reflexivity].
Qed.

Lemma truncates n f : in_years n -> 0 <= n -> 0 <= f < SEC ->
  exists s, datetime_to_str true (n * SEC + f) = Ok s /\ str_to_datetime s = Ok (n * SEC).
Proof.
  intros Y N F. destruct (isoformat_read n 0 Y ltac:(lia)) as (s & I1 & I2 & _).
  exists (s ++ $"Z"). split.
  - unfold datetime_to_str. rewrite int_part_quot. replace (Z.quot (n * SEC + f) SEC) with n; [now rewrite I1|].
    pose proof SEC_pos. rewrite Z.quot_div_nonneg by nia. apply Z.div_unique with f; lia.
  - rewrite I2. change (0 =? 0) with true. cbv iota. f_equal. apply fadd_int_0. unfold in_years in Y. cbn. lia.
Qed.

Lemma spelling_year' y : digits 4 y -> str_to_datetime y = str_to_datetime (y ++ $"-01-01T00:00:00Z").
Proof. intros D. rewrite spelling_year by auto. unfold full_str, date_str. rewrite <- !app_assoc. reflexivity. Qed.
Lemma spelling_month' y mo : digits 4 y -> digits 2 mo ->
  str_to_datetime (y ++ $"-" ++ mo) = str_to_datetime (y ++ $"-" ++ mo ++ $"-01T00:00:00Z").
Proof. intros D D'. rewrite spelling_month by auto. unfold full_str, date_str. rewrite <- !app_assoc. reflexivity. Qed.
Lemma spelling_day' y mo d : date_digits y mo d ->
  str_to_datetime (date_str y mo d) = str_to_datetime (date_str y mo d ++ $"T00:00:00Z").
Proof. intros D. rewrite spelling_day by auto. reflexivity. Qed.

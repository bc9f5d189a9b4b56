(** * Properties C01-C04, C68: W3C datetimes *)

From Verif Require Import Py Float64 W3C W3CSpec W3CCal W3CParse W3CRound W3CLaws.

(** C01: writing a timestamp and reading the string gives the same number. *)
Theorem C01_whole_seconds : forall no_fractions n, in_years n ->
  exists s, datetime_to_str no_fractions (n * SEC) = Ok s /\
            str_to_datetime s = Ok (n * SEC) /\ full_datetime s.
Proof. exact whole_seconds_round_trip. Qed.
Print Assumptions C01_whole_seconds.

Theorem C01_microseconds : forall k,
  2 ^ 14 * 1000000 <= k < 2 ^ 33 * 1000000 ->
  exists s, datetime_to_str false (float_of_ratio k 1000000) = Ok s /\
            str_to_datetime s = Ok (float_of_ratio k 1000000) /\ full_datetime s.
Proof. exact micro_round_trip. Qed.
Print Assumptions C01_microseconds.

(** no_fractions drops the fraction of a second. *)
Theorem C01_no_fractions : forall n f, in_years n -> 0 <= n -> 0 <= f < SEC ->
  exists s, datetime_to_str true (n * SEC + f) = Ok s /\ str_to_datetime s = Ok (n * SEC).
Proof. exact truncates. Qed.
Print Assumptions C01_no_fractions.

Example C01_example :
  in_years 1325376000 /\ 2 ^ 14 * 1000000 <= 1325376000123456 < 2 ^ 33 * 1000000 /\
  datetime_to_str false (float_of_ratio 1325376000123456 1000000) = Ok $"2012-01-01T00:00:00.123456Z".
Proof. unfold in_years. split; [lia|]. split; [cbn; lia|]. vm_compute. reflexivity. Qed.

(** C02: equivalent spellings, existing times or not. *)
Theorem C02_year : forall y, digits 4 y ->
  str_to_datetime y = str_to_datetime (y ++ $"-01-01T00:00:00Z").
Proof. exact spelling_year'. Qed.
Theorem C02_month : forall y mo, digits 4 y -> digits 2 mo ->
  str_to_datetime (y ++ $"-" ++ mo) = str_to_datetime (y ++ $"-" ++ mo ++ $"-01T00:00:00Z").
Proof. exact spelling_month'. Qed.
Theorem C02_day : forall y mo d, date_digits y mo d ->
  str_to_datetime (date_str y mo d) = str_to_datetime (date_str y mo d ++ $"T00:00:00Z").
Proof. exact spelling_day'. Qed.
Theorem C02_seconds : forall y mo d h mi z,
  date_digits y mo d -> digits 2 h -> digits 2 mi -> zone_digits z ->
  str_to_datetime (full_str y mo d h mi None z) = str_to_datetime (full_str y mo d h mi (Some ($"00", None)) z).
Proof. exact spelling_seconds. Qed.
Theorem C02_zone : forall y mo d h mi sec,
  date_digits y mo d -> time_digits h mi sec ->
  str_to_datetime (full_str y mo d h mi sec (Plus $"00" $"00")) = str_to_datetime (full_str y mo d h mi sec Zulu) /\
  str_to_datetime (full_str y mo d h mi sec (Minus $"00" $"00")) = str_to_datetime (full_str y mo d h mi sec Zulu).
Proof. exact spelling_zone. Qed.
Print Assumptions C02_year.
Print Assumptions C02_month.
Print Assumptions C02_day.
Print Assumptions C02_seconds.
Print Assumptions C02_zone.

Example C02_example :
  digits 4 $"2012" /\ str_to_datetime $"2012" = Ok (1325376000 * SEC) /\
  full_str $"2012" $"01" $"01" $"12" $"30" None (Plus $"00" $"00") = $"2012-01-01T12:30+00:00".
Proof. split; [split; reflexivity|]. split; vm_compute; reflexivity. Qed.

(** C03: a zone +hh:mm should denote an earlier instant.  It denotes a later one. *)
Theorem C03_zones_refuted :
  exists y mo d h mi s z t u,
    date_digits y mo d /\ time_digits h mi (Some (s, None)) /\ zone_digits z /\
    str_to_datetime (full_str y mo d h mi (Some (s, None)) z) = Ok t /\
    str_to_datetime (full_str y mo d h mi (Some (s, None)) Zulu) = Ok u /\
    t <> u - zone_offset z * SEC.
Proof. exact zones_reversed. Qed.
Print Assumptions C03_zones_refuted.

(** What the code does, for every wall-clock time and offset: the sign is reversed. *)
Theorem C03_zones_reversed : forall y mo d h mi s z t u,
  date_digits y mo d -> time_digits h mi (Some (s, None)) -> zone_digits z ->
  str_to_datetime (full_str y mo d h mi (Some (s, None)) z) = Ok t ->
  str_to_datetime (full_str y mo d h mi (Some (s, None)) Zulu) = Ok u ->
  t = u + zone_offset z * SEC.
Proof. exact zone_law_whole. Qed.
Print Assumptions C03_zones_reversed.

(** With a fraction of a second, up to the rounding of the last addition. *)
Theorem C03_zones_reversed_fraction : forall y mo d h mi sec z t,
  date_digits y mo d -> time_digits h mi sec -> zone_digits z ->
  str_to_datetime (full_str y mo d h mi sec z) = Ok t ->
  exists w f, str_to_datetime (full_str y mo d h mi sec Zulu) = Ok (fadd (w * SEC) f) /\
    t = fadd ((w + zone_offset z) * SEC) f.
Proof. exact zone_law. Qed.
Print Assumptions C03_zones_reversed_fraction.

Example C03_example :
  str_to_datetime $"2012-01-01T12:00:00+01:00" = Ok (1325422800 * SEC) /\
  str_to_datetime $"2012-01-01T12:00:00Z" = Ok (1325419200 * SEC) /\
  zone_offset (Plus $"01" $"00") = 3600.
Proof. split; [|split]; vm_compute; reflexivity. Qed.

(** C04: only existing W3C datetimes are accepted ... but for a trailing newline. *)
Theorem C04_refuted : exists s t, str_to_datetime s = Ok t /\ ~ w3c_datetime s.
Proof. exact newline_accepted. Qed.
Print Assumptions C04_refuted.

Theorem C04_accepts_only : forall s t, str_to_datetime s = Ok t ->
  w3c_datetime s \/ exists s', s = s' ++ [nl] /\ full_datetime s'.
Proof. exact accepts_only. Qed.
Print Assumptions C04_accepts_only.

Theorem C04_accepts_all : forall s, w3c_datetime s -> exists t, str_to_datetime s = Ok t.
Proof. exact accepts_all. Qed.
Print Assumptions C04_accepts_all.

Theorem C04_errors : forall s e, str_to_datetime s = Err e -> e = ValueError.
Proof. exact str_to_datetime_err. Qed.
Print Assumptions C04_errors.

Theorem C04_none_empty :
  str_to_datetime_opt None = Ok None /\ str_to_datetime_opt (Some []) = Err ValueError.
Proof. split; reflexivity. Qed.
Print Assumptions C04_none_empty.

Example C04_example :
  str_to_datetime $"2012-02-29T23:59:59.5-02:30" <> Err ValueError /\
  str_to_datetime $"2013-02-29" = Err ValueError /\
  str_to_datetime $"2012-01-01T12:00:00" = Err ValueError /\
  str_to_datetime $"12 Jan 2012" = Err ValueError.
Proof. split; [vm_compute; discriminate|]. repeat split; vm_compute; reflexivity. Qed.

(** C68: times are read by the Gregorian calendar: the epoch is 0, each hour,
    minute and second counts, and each day is 86400 s after the one before. *)
Theorem C68_epoch : str_to_datetime $"1970-01-01T00:00:00Z" = Ok 0.
Proof. exact epoch_value. Qed.
Theorem C68_time_of_day : forall y mo d h mi s t,
  date_digits y mo d -> time_digits h mi (Some (s, None)) ->
  str_to_datetime (full_str y mo d h mi (Some (s, None)) Zulu) = Ok t ->
  exists t0, str_to_datetime (full_str y mo d $"00" $"00" (Some ($"00", None)) Zulu) = Ok t0 /\
    t = t0 + (digits_val h * 3600 + digits_val mi * 60 + digits_val s) * SEC.
Proof. exact time_of_day_value. Qed.
Theorem C68_next_day : forall y mo d y' mo' d' h mi s t t',
  date_digits y mo d -> date_digits y' mo' d' -> time_digits h mi (Some (s, None)) ->
  next_day (digits_val y) (digits_val mo) (digits_val d) (digits_val y') (digits_val mo') (digits_val d') ->
  str_to_datetime (full_str y mo d h mi (Some (s, None)) Zulu) = Ok t ->
  str_to_datetime (full_str y' mo' d' h mi (Some (s, None)) Zulu) = Ok t' ->
  t' = t + 86400 * SEC.
Proof. exact next_day_value. Qed.
Print Assumptions C68_epoch.
Print Assumptions C68_time_of_day.
Print Assumptions C68_next_day.

Example C68_example :
  next_day 2012 2 28 2012 2 29 /\ next_day 2012 2 29 2012 3 1 /\ next_day 2011 12 31 2012 1 1.
Proof.
  assert (L : leap 2012) by (left; split; [reflexivity|discriminate]).
  split; [|split].
  - exists 29. split; [right; right; left; auto|]. left. split; [lia|reflexivity].
  - exists 29. split; [right; right; left; auto|]. right; left. split; [reflexivity|split; [lia|reflexivity]].
  - exists 31. split; [left; split; [cbn; tauto|reflexivity]|]. right; right. auto.
Qed.

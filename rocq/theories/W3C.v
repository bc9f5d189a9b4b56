(** * W3C: model of resync/w3c_datetime.py *)

From Verif Require Import Py Regex Float64.

(** ** Calendar: Python's datetime.date ordinals (Lib/datetime.py _is_leap,
    _days_before_year, _days_in_month, _ymd2ord, _ord2ymd), used by
    calendar.timegm and datetime.utcfromtimestamp in w3c_datetime.py:38,121. *)

Definition is_leap (y : Z) : bool :=
  (y mod 4 =? 0) && (negb (y mod 100 =? 0) || (y mod 400 =? 0)).
Definition days_before_year (y : Z) : Z :=
  let z := y - 1 in z * 365 + z / 4 - z / 100 + z / 400.
Definition days_in_month (y m : Z) : Z :=
  if m =? 2 then (if is_leap y then 29 else 28)
  else if (m =? 4) || (m =? 6) || (m =? 9) || (m =? 11) then 30 else 31.
(** Days before month [m] in year [y]: sum over the preceding months. *)
Definition days_before_month (y m : Z) : Z :=
  fold_left (fun a k => a + days_in_month y (Z.of_nat k)) (seq 1 (Z.to_nat (m - 1))) 0.
Definition ymd2ord (y m d : Z) : Z := days_before_year y + days_before_month y m + d.

(** Ordinal (1 = 0001-01-01) to year, month, day. *)
Definition ord2y (n : Z) : Z * Z :=
  let n := n - 1 in
  let n400 := n / 146097 in let n := n mod 146097 in
  let n100 := n / 36524 in let n := n mod 36524 in
  let n4 := n / 1461 in let n := n mod 1461 in
  let n1 := n / 365 in let n := n mod 365 in
  let y := n400 * 400 + 1 + n100 * 100 + n4 * 4 + n1 in
  if (n1 =? 4) || (n100 =? 4) then (y - 1, 365) else (y, n).
(** Day [n] (0 = 1 January) of year [y] to month and day: _ord2ymd guesses the
    month and corrects it, here the months are tried in turn. *)
Fixpoint find_month (k : nat) (y m n : Z) : Z * Z :=
  match k with
  | O => (m, n + 1)
  | S k' => if n <? days_in_month y m then (m, n + 1)
            else find_month k' y (m + 1) (n - days_in_month y m)
  end.
Definition ord2ymd (n : Z) : Z * Z * Z :=
  let '(y, r) := ord2y n in
  let '(m, d) := find_month 11 y 1 r in (y, m, d).

Definition EPOCH_ORD : Z := 719163.   (* date(1970,1,1).toordinal() *)

(** calendar.timegm of a valid date and time of day. *)
Definition timegm (y mo d h mi s : Z) : Z :=
  (ymd2ord y mo d - EPOCH_ORD) * 86400 + h * 3600 + mi * 60 + s.

Definition valid_date (y m d : Z) : bool :=
  (1 <=? y) && (y <=? 9999) && (1 <=? m) && (m <=? 12) && (1 <=? d) && (d <=? days_in_month y m).
Definition valid_time (h mi s : Z) : bool :=
  (0 <=? h) && (h <=? 23) && (0 <=? mi) && (mi <=? 59) && (0 <=? s) && (s <=? 59).

(** ** Writing: datetime_to_str, w3c_datetime.py:17-38 *)

(** datetime(...).isoformat() for a time [secs] whole seconds after the epoch and
    [us] microseconds; [None] (ValueError or OverflowError) when the year is
    outside 1..9999. *)
Definition isoformat (secs us : Z) : option str :=
  let days := secs / 86400 in
  let r := secs mod 86400 in
  let ord := days + EPOCH_ORD in
  if (1 <=? ord) && (ord <=? 3652059) then
    let '(y, m, d) := ord2ymd ord in
    Some (print_pad 4 y ++ $"-" ++ print_pad 2 m ++ $"-" ++ print_pad 2 d ++ $"T"
          ++ print_pad 2 (r / 3600) ++ $":" ++ print_pad 2 (r / 60 mod 60) ++ $":"
          ++ print_pad 2 (r mod 60)
          ++ (if us =? 0 then [] else $"." ++ print_pad 6 us))
  else None.

(** The conversion done inside datetime.utcfromtimestamp (CPython
    _PyTime_DoubleToDenominator with ROUND_HALF_EVEN): integral and fractional
    part, the latter times 10^6 (a rounded float product), rounded to an integer
    number of microseconds, with carry.  Result: seconds and microseconds. *)
Definition split_timestamp (t : Z) : Z * Z :=
  let ip := int_part t in
  let fp := frac_part t in
  let fm := fmul_int fp 1000000 in
  let us := rne fm SEC in
  if 1000000 <=? us then (ip + 1, us - 1000000)
  else if us <? 0 then (ip - 1, us + 1000000)
  else (ip, us).

Definition rounding_nudge : Z := float_of_ratio 1 10000000.   (* 0.0000001 *)

(** datetime_to_str(dt, no_fractions) for a number [dt] (w3c_datetime.py:34-38).
    'now' is the clock, so the caller supplies the number. *)
Definition datetime_to_str (no_fractions : bool) (t : Z) : res str :=
  let '(secs, us) :=
    if no_fractions then (int_part t, 0)                 (* int(dt) truncates *)
    else split_timestamp (fadd t rounding_nudge) in
  match isoformat secs us with
  | Some s => Ok (s ++ $"Z")
  | None => Err ValueError
  end.

(** ** Reading: str_to_datetime, w3c_datetime.py:41-121 *)

(** The three patterns of w3c_datetime.py:81,89,104, from their text. *)
Definition pat_date : str := $"\d\d\d\d(\-\d\d(\-\d\d)?)?$".
Definition pat_frac : str := $"(.*\d{2}:\d{2}:\d{2})(\.\d+)([^\d].*)?$".
Definition pat_full : str :=
  $"(\d\d\d\d\-\d\d\-\d\dT\d\d:\d\d(:\d\d)?)(Z|([+-])(\d\d):(\d\d))$".
Definition re_date : re := Eval vm_compute in re_const pat_date.
Definition re_frac : re := Eval vm_compute in re_const pat_frac.
Definition re_full : re := Eval vm_compute in re_const pat_full.

(** float(".ddd"), w3c_datetime.py:96. *)
Definition parse_fraction (s : str) : Z :=
  match s with
  | [] => 0
  | _ :: ds => float_of_ratio (digits_val ds) (10 ^ Z.of_nat (List.length ds))
  end.

(** dateutil_parser.parse of "YYYY-MM-DDThh:mm[:ss]Z" and calendar.timegm of the
    result (w3c_datetime.py:108-109,121).  Simplification: dateutil is not
    modelled; on this restricted input it splits the fields and constructs a
    datetime, which raises ValueError if a field is out of range. *)
Definition field (s : str) (from len : nat) : Z := digits_val (firstn len (skipn from s)).
Definition dateutil_timegm (s : str) : res Z :=
  let y := field s 0 4 in let mo := field s 5 2 in let d := field s 8 2 in
  let h := field s 11 2 in let mi := field s 14 2 in
  let sec := if (List.length s =? 17)%nat then 0 else field s 17 2 in
  if valid_date y mo d && valid_time h mi sec then Ok (timegm y mo d h mi sec)
  else Err ValueError.

Definition group (n : nat) (st : mst) : str :=
  match cap_get n st with Some s => s | None => [] end.

(** Expand a bare date to a full datetime, lines 81-87. *)
Definition expand_date (s : str) : str :=
  match re_match re_date s with
  | None => s
  | Some m =>
      (match cap_get 1 m with
       | None => s ++ $"-01-01"
       | Some _ => match cap_get 2 m with None => s ++ $"-01" | Some _ => s end
       end) ++ $"T00:00:00Z"
  end.

(** Cut out the fraction, lines 89-96: the string without it and its value. *)
Definition cut_fraction (s : str) : str * Z :=
  match re_match re_frac s with
  | None => (s, 0)
  | Some m =>
      (group 1 m ++ group 3 m, parse_fraction (group 2 m))
  end.

(** Lines 104-121. *)
Definition parse_full (s : str) (frac : Z) : res Z :=
  match re_match re_full s with
  | None => Err ValueError
  | Some m =>
      let* secs := dateutil_timegm (group 1 m ++ $"Z") in
      if str_eqb (group 3 m) $"Z" then Ok (fadd (secs * SEC) frac)
      else
        let hh := digits_val (group 5 m) in
        let mm := digits_val (group 6 m) in
        if (23 <? hh) || (59 <? mm) then Err ValueError
        else
          let off := hh * 3600 + mm * 60 in
          let off := if str_eqb (group 4 m) $"-" then - off else off in
          Ok (fadd ((secs + off) * SEC) frac)
  end.

(** str_to_datetime(s) for a string [s]; the None case is in [str_to_datetime_opt]. *)
Definition str_to_datetime (s : str) : res Z :=
  match s with
  | [] => Err ValueError
  | _ => let '(s', frac) := cut_fraction (expand_date s) in parse_full s' frac
  end.

Definition str_to_datetime_opt (s : option str) : res (option Z) :=
  match s with
  | None => Ok None
  | Some s => let* t := str_to_datetime s in Ok (Some t)
  end.

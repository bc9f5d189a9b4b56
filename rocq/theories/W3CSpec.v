(** * W3CSpec: the W3C datetime grammar (https://www.w3.org/TR/NOTE-datetime) and
    the Gregorian calendar, independently of the code *)

From Verif Require Import Py Float64.

(** [n] decimal digits. *)
Definition digits (n : nat) (s : str) : Prop := List.length s = n /\ forallb is_digit s = true.
Definition some_digits (s : str) : Prop := s <> [] /\ forallb is_digit s = true.

(** Time zone designators. *)
Inductive zone : Type := Zulu | Plus (hh mm : str) | Minus (hh mm : str).
Definition zone_str (z : zone) : str :=
  match z with
  | Zulu => $"Z"
  | Plus hh mm => $"+" ++ hh ++ $":" ++ mm
  | Minus hh mm => $"-" ++ hh ++ $":" ++ mm
  end.
Definition zone_digits (z : zone) : Prop :=
  match z with Zulu => True | Plus hh mm | Minus hh mm => digits 2 hh /\ digits 2 mm end.

Definition date_str (y mo d : str) : str := y ++ $"-" ++ mo ++ $"-" ++ d.
(** hh:mm, hh:mm:ss or hh:mm:ss.fff *)
Definition time_str (h mi : str) (sec : option (str * option str)) : str :=
  h ++ $":" ++ mi ++
  match sec with
  | None => []
  | Some (s, None) => $":" ++ s
  | Some (s, Some f) => $":" ++ s ++ $"." ++ f
  end.
Definition full_str (y mo d h mi : str) (sec : option (str * option str)) (z : zone) : str :=
  date_str y mo d ++ $"T" ++ time_str h mi sec ++ zone_str z.

Definition date_digits (y mo d : str) : Prop := digits 4 y /\ digits 2 mo /\ digits 2 d.
Definition time_digits (h mi : str) (sec : option (str * option str)) : Prop :=
  digits 2 h /\ digits 2 mi /\
  match sec with
  | None => True
  | Some (s, None) => digits 2 s
  | Some (s, Some f) => digits 2 s /\ some_digits f
  end.

(** The Gregorian calendar. *)
Definition leap (y : Z) : Prop := (y mod 4 = 0 /\ y mod 100 <> 0) \/ y mod 400 = 0.
Definition month_length (y m len : Z) : Prop :=
  (In m [1; 3; 5; 7; 8; 10; 12] /\ len = 31) \/
  (In m [4; 6; 9; 11] /\ len = 30) \/
  (m = 2 /\ leap y /\ len = 29) \/ (m = 2 /\ ~ leap y /\ len = 28).
Definition real_date (y m d : Z) : Prop :=
  1 <= y <= 9999 /\ exists len, month_length y m len /\ 1 <= d <= len.
Definition real_time (h mi s : Z) : Prop := 0 <= h <= 23 /\ 0 <= mi <= 59 /\ 0 <= s <= 59.
Definition real_zone (z : zone) : Prop :=
  match z with
  | Zulu => True
  | Plus hh mm | Minus hh mm => digits_val hh <= 23 /\ digits_val mm <= 59
  end.
Definition sec_val (sec : option (str * option str)) : Z :=
  match sec with None => 0 | Some (s, _) => digits_val s end.

(** A full datetime of the grammar that exists. *)
Definition full_datetime (s : str) : Prop :=
  exists y mo d h mi sec z,
    s = full_str y mo d h mi sec z /\
    date_digits y mo d /\ time_digits h mi sec /\ zone_digits z /\
    real_date (digits_val y) (digits_val mo) (digits_val d) /\
    real_time (digits_val h) (digits_val mi) (sec_val sec) /\ real_zone z.
(** A bare date: YYYY, YYYY-MM or YYYY-MM-DD. *)
Definition bare_date (s : str) : Prop :=
  exists y mo d, date_digits y mo d /\ real_date (digits_val y) (digits_val mo) (digits_val d) /\
    (s = y /\ mo = $"01" /\ d = $"01" \/
     s = y ++ $"-" ++ mo /\ d = $"01" \/
     s = date_str y mo d).
Definition w3c_datetime (s : str) : Prop := bare_date s \/ full_datetime s.

(** The day after. *)
Definition next_day (y m d y' m' d' : Z) : Prop :=
  exists len, month_length y m len /\
  (d < len /\ (y', m', d') = (y, m, d + 1) \/
   d = len /\ m < 12 /\ (y', m', d') = (y, m + 1, 1) \/
   d = len /\ m = 12 /\ (y', m', d') = (y + 1, 1, 1)).

(** Zone offset in seconds east of Greenwich. *)
Definition zone_offset (z : zone) : Z :=
  match z with
  | Zulu => 0
  | Plus hh mm => digits_val hh * 3600 + digits_val mm * 60
  | Minus hh mm => - (digits_val hh * 3600 + digits_val mm * 60)
  end.

(** Seconds since the epoch that fall in years 1 to 9999. *)
Definition in_years (n : Z) : Prop := -62135596800 <= n < 253402300800.

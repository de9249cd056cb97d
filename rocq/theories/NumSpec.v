(** Numerals, durations and dates as text, independent of the printing and parsing code. *)
From Verif Require Import Base RefsSpec CellModel.

(** [s] is a decimal numeral of [n]. *)
Definition numeral (s : str) (n : N) : Prop := s <> [] /\ all_digit s /\ dec s = n.
(** The numeral without leading zeros. *)
Definition shortest (s : str) (n : N) : Prop := numeral s n /\ (hd 0 s = 48 -> s = [48]).
Definition int_text (s : str) (z : Z) : Prop :=
  exists d n, numeral d n /\ (s = d /\ z = Z.of_N n \/ s = 45 :: d /\ z = (- Z.of_N n)%Z).

(** ** Durations (XML Schema without years and months) *)
(** [t] is the numeral of an optional component, followed by its unit letter. *)
Definition component (u : char) (o : option N) (t : str) : Prop :=
  match o with None => t = [] | Some n => exists d, numeral d n /\ t = d ++ [u] end.
(** [f] are the digits behind the decimal point, worth [nano] nanoseconds. Digits behind the
    ninth are cut off. *)
Definition fraction (f : str) (nano : N) : Prop :=
  f <> [] /\ all_digit f /\
  if (Nat.leb (length f) 9) then nano = dec f * 10 ^ (9 - N.of_nat (length f))
  else nano = dec f / 10 ^ (N.of_nat (length f) - 9).
Definition opt_fraction (o : option N) (t : str) : Prop :=
  match o with None => t = [] | Some nano => exists f, fraction f nano /\ t = 46 :: f end.
Definition seconds_text (o : option (N * option N)) (t : str) : Prop :=
  match o with
  | None => t = []
  | Some (n, f) => exists d ft, numeral d n /\ opt_fraction f ft /\ t = d ++ ft ++ [83]
  end.
Definition oget (o : option N) : Z := match o with Some n => Z.of_N n | None => 0 end.
Definition duration_text (s : str) (ns : Z) : Prop :=
  exists day hour minute sec dt rest,
    component 68 day dt /\
    (rest = [] /\ hour = None /\ minute = None /\ sec = None \/
     exists ht mt st, component 72 hour ht /\ component 77 minute mt /\ seconds_text sec st
       /\ rest = 84 :: ht ++ mt ++ st) /\
    s = 80 :: dt ++ rest /\
    ns = (1000000000 * (86400 * oget day + 3600 * oget hour + 60 * oget minute
          + match sec with Some (n, _) => Z.of_N n | None => 0 end)
          + match sec with Some (_, f) => oget f | None => 0 end)%Z.
(** chrono's durations: up to i64::MAX milliseconds either way. *)
Definition duration_range (ns : Z) : Prop :=
  (- 9223372036854775807000000 <= ns <= 9223372036854775807000000)%Z.

(** ** Dates *)
Definition days_in (y : Z) (m : N) : N :=
  match m with
  | 2 => if ((y mod 400 =? 0) || (y mod 4 =? 0) && negb (y mod 100 =? 0))%Z then 29 else 28
  | 4 | 6 | 9 | 11 => 30
  | _ => 31
  end.
(** A point in time on chrono's proleptic Gregorian calendar; a leap second is second 59 with
    a nanosecond count of 10^9 or more. *)
Record valid_datetime (d : datetime) : Prop := {
  vd_year : (-262143 <= dt_year d <= 262142)%Z;
  vd_month : 1 <= dt_month d <= 12;
  vd_day : 1 <= dt_day d <= days_in (dt_year d) (dt_month d);
  vd_hour : dt_hour d <= 23;
  vd_minute : dt_minute d <= 59;
  vd_second : dt_second d <= 59;
  vd_nano : dt_nano d < 1000000000 \/ dt_second d = 59 /\ dt_nano d < 2000000000 }.

(** The fields of a date-time text, before any check of their values. *)
Record fields := Fields {
  f_year : Z; f_month : N; f_day : N; f_hour : N; f_minute : N; f_second : N; f_nano : N }.
Definition clock_text (h m s n : N) (t : str) : Prop :=
  t = [] /\ h = 0 /\ m = 0 /\ s = 0 /\ n = 0 \/
  exists ht mt st ft f, numeral ht h /\ numeral mt m /\ numeral st s /\ opt_fraction f ft
    /\ n = match f with Some n => n | None => 0 end
    /\ t = 84 :: ht ++ 58 :: mt ++ 58 :: st ++ ft.
Definition datetime_shape (t : str) (f : fields) : Prop :=
  exists neg yt y mt dt ct (z : bool), numeral yt y /\ numeral mt (f_month f) /\ numeral dt (f_day f)
    /\ clock_text (f_hour f) (f_minute f) (f_second f) (f_nano f) ct
    /\ f_year f = (if neg : bool then - Z.of_N y else Z.of_N y)%Z
    /\ t = (if neg then [45] else []) ++ yt ++ 45 :: mt ++ 45 :: dt ++ ct ++ (if z then [90] else []).
(** The point in time the fields denote, if any: second 60 is the leap second. *)
Definition denotes (f : fields) (d : datetime) : Prop :=
  valid_datetime d /\ dt_year d = f_year f /\ dt_month d = f_month f /\ dt_day d = f_day f
  /\ dt_hour d = f_hour f /\ dt_minute d = f_minute f
  /\ (f_second f <= 59 /\ dt_second d = f_second f /\ dt_nano d = f_nano f /\ f_nano f < 1000000000 \/
      f_second f = 60 /\ dt_second d = 59 /\ dt_nano d = f_nano f + 1000000000 /\ f_nano f < 1000000000).

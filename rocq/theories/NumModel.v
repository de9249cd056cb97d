(** Numbers and dates as text: io/parse.rs, io/format.rs, and what std and chrono do for them. *)
From Verif Require Import Base RefsModel CellModel.

(** std [Display] of an unsigned integer; [room] bounds the number of digits. *)
Fixpoint digits_of (room : nat) (n : N) (acc : str) : str :=
  match room with
  | O => acc
  | S r => let acc := 48 + n mod 10 :: acc in if n / 10 =? 0 then acc else digits_of r (n / 10) acc
  end.
Definition show_N (n : N) : str := digits_of (S (N.to_nat (N.log2 n))) n [].
(** std [Display] of a signed integer. *)
Definition show_Z (z : Z) : str := (if (z <? 0)%Z then [45] else []) ++ show_N (Z.abs_N z).
(** Zero padding, [{:0w$}] for an unsigned integer. *)
Definition pad (w : nat) (s : str) : str := repeat 48 (w - length s) ++ s.

(** ** Integers *)

(** An optional leading '-'. *)
Definition split_sign (s : str) : bool * str :=
  match s with c :: d => if c =? 45 then (true, d) else (false, s) | [] => (false, s) end.
(** std [from_str_radix(10)] for a non-empty string of digits with optional '-', limits [lo], [hi]. *)
Definition std_int (lo hi : Z) (s : str) : res Z :=
  let (neg, d) := split_sign s in
  match d with
  | [] => Err
  | _ => let v := Z.of_N (dec_value 0 d) in
         let v := if neg then (- v)%Z else v in
         if ((lo <=? v) && (v <=? hi))%Z then Ok v else Err
  end.
(** parse.rs 427-434 [all_digits], 204-216 [token_u32], 147-150 [parse_u32]. *)
Definition parse_u32 (s : str) : res N :=
  if forallb is_digit s then let* z := std_int 0 4294967295 s in Ok (Z.to_N z) else Err.
(** parse.rs 437-450 [sign_all_digits]. *)
Definition sign_all_digits (s : str) : bool :=
  match s with
  | c :: r => ((c =? 45) || is_digit c) && forallb is_digit r
  | [] => false
  end.
Definition parse_int (lo hi : Z) (s : str) : res Z := if sign_all_digits s then std_int lo hi s else Err.
(** parse.rs 189-201 [token_i16], 219-231 [token_i32], 234-246 [token_i64]. *)
Definition parse_i16 := parse_int (-32768) 32767.
Definition parse_i32 := parse_int (-2147483648) 2147483647.
Definition i64_min : Z := -9223372036854775808.
Definition i64_max : Z := 9223372036854775807.
Definition parse_i64 := parse_int i64_min i64_max.
(** parse.rs 179-186 [token_bool]. *)
Definition parse_bool (s : str) : res bool :=
  if str_eqb s (lit "true") then Ok true else if str_eqb s (lit "false") then Ok false else Err.
Definition show_bool (b : bool) : str := if b then lit "true" else lit "false".

(** Finite floats are carried as the text [Display] prints: optional '-', digits, and an
    optional fraction. parse.rs 249-252 [token_float] accepts these and gives back the same
    float (trusted); its other spellings (exponents, "+1", ".5", "inf") are not modelled. *)
Definition float_text (s : str) : bool :=
  let (a, r) := span is_digit (snd (split_sign s)) in
  match a, r with
  | [], _ => false
  | _, [] => true
  | _, c :: f => (c =? 46) && forallb is_digit f && negb (is_nil f)
  end.
Definition parse_f64 (s : str) : res str := if float_text s then Ok s else Err.

(** ** Tokens *)

(** parse.rs 256-267 [token_datepart]. *)
Definition token_datepart : parser N := fun s =>
  let* (n, r) := take1 is_digit s in
  let v := dec_value 0 n in
  if (Z.of_N v <=? i64_max)%Z then Ok (v, r) else Err.
(** parse.rs 272-285 [token_nano]: the first nine digits, filled up with zeros. *)
Definition token_nano : parser N := fun s =>
  let* (n, r) := take1 is_digit s in
  Ok (dec_value 0 (firstn 9 (n ++ repeat 48 9)), r).
(** nom [terminated(p, byte(c))] and [preceded(byte(c), p)]. *)
Definition terminated {A} (p : parser A) (c : char) : parser A := fun s =>
  let* (a, s1) := p s in let* (_, s2) := tag1 c s1 in Ok (a, s2).
Definition preceded {A} (c : char) (p : parser A) : parser A := fun s =>
  let* (_, s1) := tag1 c s in p s1.

(** ** Durations, chrono [TimeDelta] in nanoseconds *)

(** The range: [i64::MAX] milliseconds in both directions. *)
Definition dur_max : Z := i64_max * 1000000.
Definition dur_ok (ns : Z) : bool := ((- dur_max <=? ns) && (ns <=? dur_max))%Z.
(** [try_days], [try_hours], [try_minutes], [try_seconds]: [None] outside the range. The
    product of an i64 with the unit is computed in i64 ([checked_mul]) before that. *)
Definition try_unit (secs : Z) (n : N) : res Z :=
  let v := (Z.of_N n * secs)%Z in
  if (v <=? i64_max)%Z && dur_ok (v * 1000000000) then Ok (v * 1000000000)%Z else Err.
(** [TimeDelta += ..]: panics on overflow. *)
Definition dur_add (a b : Z) : res Z := if dur_ok (a + b) then Ok (a + b)%Z else Panic.

(** format.rs 5-22 [format_duration2]; [num_*] round towards zero, [%] is the remainder. *)
Definition format_duration2 (ns : Z) : str :=
  lit "PT" ++ show_Z (Z.quot ns 3600000000000) ++ lit "H"
  ++ show_Z (Z.rem (Z.quot ns 60000000000) 60) ++ lit "M"
  ++ show_Z (Z.rem (Z.quot ns 1000000000) 60) ++ lit "."
  ++ show_Z (Z.rem (Z.quot ns 1000000) 1000) ++ lit "S".

(** parse.rs 353-410 [token_duration]. *)
Definition add_part (acc : res Z) (secs : Z) (o : option N) : res Z :=
  let* a := acc in
  match o with None => Ok a | Some n => let* d := try_unit secs n in dur_add a d end.
Definition token_seconds : parser (N * option N) :=
  terminated (fun s => let* (n, s1) := token_datepart s in
                       let* (f, s2) := opt (preceded 46 token_nano) s1 in Ok ((n, f), s2)) 83.
Definition token_time : parser (option N * option N * option (N * option N)) := fun s =>
  let* (_, s1) := tag1 84 s in
  let* (h, s2) := opt (terminated token_datepart 72) s1 in
  let* (m, s3) := opt (terminated token_datepart 77) s2 in
  let* (sec, s4) := opt token_seconds s3 in
  Ok ((h, m, sec), s4).
Definition parse_duration (s : str) : res Z :=
  let* (_, s1) := tag1 80 s in
  let* (day, s2) := opt (terminated token_datepart 68) s1 in
  let* (time, s3) := opt token_time s2 in
  match s3 with
  | _ :: _ => Err
  | [] =>
      let acc := add_part (Ok 0%Z) 86400 day in
      match time with
      | None => acc
      | Some (h, m, sec) =>
          let acc := add_part (add_part acc 3600 h) 60 m in
          match sec with
          | None => acc
          | Some (n, f) =>
              let acc := add_part acc 1 (Some n) in
              let* a := acc in
              match f with None => Ok a | Some nano => dur_add a (Z.of_N nano) end
          end
      end
  end.

(** ** Dates, chrono [NaiveDateTime] *)

Definition leap_year (y : Z) : bool :=
  ((y mod 4 =? 0) && (negb (y mod 100 =? 0) || (y mod 400 =? 0)))%Z.
Definition month_days (y : Z) (m : N) : N :=
  if (m =? 4) || (m =? 6) || (m =? 9) || (m =? 11) then 30
  else if m =? 2 then (if leap_year y then 29 else 28) else 31.
(** chrono's years, [NaiveDate::MIN]/[MAX] rounded inwards to whole years. *)
Definition year_min : Z := -262143.
Definition year_max : Z := 262142.
(** A valid [NaiveDateTime]; 10^9 and more nanoseconds are a leap second. *)
Definition datetime_ok (d : datetime) : bool :=
  ((year_min <=? dt_year d)%Z && (dt_year d <=? year_max)%Z
   && (1 <=? dt_month d) && (dt_month d <=? 12)
   && (1 <=? dt_day d) && (dt_day d <=? month_days (dt_year d) (dt_month d))
   && (dt_hour d <? 24) && (dt_minute d <? 60) && (dt_second d <? 60)
   && ((dt_nano d <? 1000000000) || ((dt_second d =? 59) && (dt_nano d <? 2000000000)))).
(** [NaiveDateTime::default()] *)
Definition datetime0 : datetime := DateTime 1970 1 1 0 0 0 0.

(** chrono's [format("%Y-%m-%dT%H:%M:%S%.f")], write.rs 39. [%Y] has an explicit sign
    outside 0..=9999; [%S] shows a leap second as 60; [%.f] shows 0, 3, 6 or 9 digits. *)
Definition show_year (y : Z) : str :=
  if ((0 <=? y) && (y <=? 9999))%Z then pad 4 (show_N (Z.to_N y))
  else if (y <? 0)%Z then 45 :: pad 4 (show_N (Z.abs_N y)) else 43 :: pad 4 (show_N (Z.to_N y)).
Definition show_frac (nano : N) : str :=
  if nano =? 0 then []
  else if nano mod 1000000 =? 0 then 46 :: pad 3 (show_N (nano / 1000000))
  else if nano mod 1000 =? 0 then 46 :: pad 6 (show_N (nano / 1000))
  else 46 :: pad 9 (show_N nano).
Definition format_datetime (d : datetime) : str :=
  show_year (dt_year d) ++ lit "-" ++ pad 2 (show_N (dt_month d)) ++ lit "-" ++ pad 2 (show_N (dt_day d))
  ++ lit "T" ++ pad 2 (show_N (dt_hour d)) ++ lit ":" ++ pad 2 (show_N (dt_minute d)) ++ lit ":"
  ++ pad 2 (show_N (dt_second d + dt_nano d / 1000000000)) ++ show_frac (dt_nano d mod 1000000000).

(** [as u32], [as i32] of an i64 *)
Definition as_u32 (n : N) : N := n mod 4294967296.
Definition as_i32 (z : Z) : Z := let m := (z mod 4294967296)%Z in if (m <? 2147483648)%Z then m else (m - 4294967296)%Z.

(** chrono [Parsed::to_naive_datetime_with_offset] for the fields set here. *)
Definition to_datetime (y : Z) (mo d hdiv hmod mi s : N) (nano : option N) : option datetime :=
  if (hdiv <=? 1) && (hmod <=? 11) && (mi <=? 59) && (s <=? 60)
     && (match nano with Some n => n <=? 999999999 | None => true end) then
    let n := match nano with Some n => n | None => 0 end in
    let dt := if s =? 60 then DateTime y mo d (hdiv * 12 + hmod) mi 59 (1000000000 + n)
              else DateTime y mo d (hdiv * 12 + hmod) mi s n in
    if datetime_ok dt then Some dt else None
  else None.

(** parse.rs 288-350 [token_datetime]. *)
Definition token_clock : parser (N * N * N * option N) := fun s =>
  let* (_, s1) := tag1 84 s in
  let* (h, s2) := token_datepart s1 in
  let* (_, s3) := tag1 58 s2 in
  let* (m, s4) := token_datepart s3 in
  let* (_, s5) := tag1 58 s4 in
  let* (sec, s6) := token_datepart s5 in
  let* (f, s7) := opt (preceded 46 token_nano) s6 in
  Ok ((h, m, sec, f), s7).
Definition parse_datetime (s : str) : res datetime :=
  let* (minus, s1) := opt (tag1 45) s in
  let* (year, s2) := token_datepart s1 in
  let* (_, s3) := tag1 45 s2 in
  let* (month, s4) := token_datepart s3 in
  let* (_, s5) := tag1 45 s4 in
  let* (day, s6) := token_datepart s5 in
  let* (time, s7) := opt token_clock s6 in
  let* (_, s8) := opt (tag1 90) s7 in
  match s8 with
  | _ :: _ => Err
  | [] =>
      let y := as_i32 (match minus with Some _ => - Z.of_N year | None => Z.of_N year end)%Z in
      let r := match time with
        | Some (h, m, sec, f) =>
            to_datetime y (as_u32 month) (as_u32 day) (as_u32 (h / 12)) (as_u32 (h mod 12)) (as_u32 m) (as_u32 sec)
              (option_map as_u32 f)
        | None => to_datetime y (as_u32 month) (as_u32 day) 0 0 0 0 None
        end in
      Ok (match r with Some d => d | None => datetime0 end)
  end.

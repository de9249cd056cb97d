(** Values made from and turned into Rust types. *)
From Verif Require Import Base XmlModel CellModel CellIoModel.

(** An f64: not a number, infinite or [(-1)^neg * m * 2^e]. One number can be written in several ways. *)
Inductive f64 := Nan | Inf (neg : bool) | Fin (neg : bool) (m : N) (e : Z).

(** The integer types of the conversions, with their least and greatest value. *)
Inductive ity := I64 | I32 | I16 | I8 | U64 | U32 | U16 | U8.
Definition least (t : ity) : Z := match t with I64 => -(2^63) | I32 => -(2^31) | I16 => -(2^15) | I8 => -(2^7) | _ => 0 end%Z.
Definition greatest (t : ity) : Z :=
  match t with
  | I64 => 2^63 - 1 | I32 => 2^31 - 1 | I16 => 2^15 - 1 | I8 => 2^7 - 1
  | U64 => 2^64 - 1 | U32 => 2^32 - 1 | U16 => 2^16 - 1 | U8 => 2^8 - 1
  end%Z.

(** [as f64] of an integer: 53 binary digits are kept, the rest is rounded to the nearest, half to even (Rust reference, numeric cast). *)
Definition round53 (n : N) : N * N :=
  let k := N.size n - 53 in
  let q := n / 2^k in
  let r := n mod 2^k in
  (match (2 * r) ?= 2^k with Lt => q | Eq => if N.odd q then q + 1 else q | Gt => q + 1 end, k).
Definition to_f64 (x : Z) : f64 := let (m, k) := round53 (Z.abs_N x) in Fin (Z.ltb x 0) m (Z.of_N k).
(** [as i64] and so on of an f64: towards zero, then the nearest of the type; not a number gives 0. *)
Definition trunc (neg : bool) (m : N) (e : Z) : Z :=
  let a := (if 0 <=? e then Z.of_N m * 2^e else Z.of_N m / 2^(- e))%Z in if neg then (- a)%Z else a.
Definition clamp (t : ity) (x : Z) : Z := if Z.ltb x (least t) then least t else if Z.ltb (greatest t) x then greatest t else x.
Definition to_int (t : ity) (f : f64) : Z :=
  match f with Nan => 0%Z | Inf true => least t | Inf false => greatest t | Fin s m e => clamp t (trunc s m e) end.

(** value_.rs:31-42 [Value], with the f64 as a number. *)
Inductive val :=
| CEmpty | CBool (b : bool) | CNumber (f : f64) | CPercent (f : f64) | CCurrency (f : f64) (c : str) | CText (s : str) | CXml (l : list xnode)
| CDateTime (d : datetime) | CDuration (ns : Z).
(** value_.rs:12-29, 58-73 [ValueType] and [value_type]. *)
Inductive vtype := TyEmpty | TyBool | TyNumber | TyPercent | TyCurrency | TyText | TyXml | TyDateTime | TyDuration.
Definition value_type (v : val) : vtype :=
  match v with
  | CEmpty => TyEmpty | CBool _ => TyBool | CNumber _ => TyNumber | CPercent _ => TyPercent | CCurrency _ _ => TyCurrency | CText _ => TyText | CXml _ => TyXml
  | CDuration _ => TyDuration | CDateTime _ => TyDateTime
  end.

(** [unwrap_or]. *)
Definition or_else {A} (o : option A) (d : A) : A := match o with Some x => x | None => d end.
(** value_.rs:76-81 [as_bool_or]. *)
Definition as_bool_or (v : val) (d : bool) : bool := match v with CBool b => b | _ => d end.
(** value_.rs:83-264 [as_i64_opt] to [as_u8_opt] and their variants; they differ in the type alone. *)
Definition as_int_opt (t : ity) (v : val) : option Z :=
  match v with CNumber n => Some (to_int t n) | CPercent p => Some (to_int t p) | CCurrency v _ => Some (to_int t v) | _ => None end.
Definition as_int_or (t : ity) (v : val) (d : Z) : Z := or_else (as_int_opt t v) d.
Definition as_int_or_default (t : ity) (v : val) : Z := or_else (as_int_opt t v) 0%Z.
(** value_.rs:294-315 [as_f64_opt], … *)
Definition as_f64_opt (v : val) : option f64 := match v with CNumber n => Some n | CCurrency v _ => Some v | CPercent p => Some p | _ => None end.
Definition as_f64_or (v : val) (d : f64) : f64 := or_else (as_f64_opt v) d.
Definition as_f64_or_default (v : val) : f64 := or_else (as_f64_opt v) (Fin false 0 0).
(** value_.rs:317-371 [as_str_opt], [as_string_opt], … and [as_cow_str_or]. *)
Definition as_str_opt (v : val) : option str := match v with CText s => Some s | _ => None end.
Definition as_str_or (v : val) (d : str) : str := or_else (as_str_opt v) d.
Definition as_str_or_default (v : val) : str := or_else (as_str_opt v) [].
Definition as_string_opt (v : val) : option str := match v with CText s => Some s | _ => None end.
Definition as_string_or_default (v : val) : str := or_else (as_string_opt v) [].
Fixpoint add_texts (l : list xnode) (newline : bool) (buf : str) : str :=
  match l with [] => buf | t :: r => add_texts r true ((if newline then buf ++ [c_nl] else buf) ++ extract_text t) end.
Definition as_cow_or (v : val) (d : str) : str := match v with CText s => s | CXml l => add_texts l false [] | _ => d end.
(** value_.rs:373-440: durations in nanoseconds, date and time. [NaiveDateTime::default] is the beginning of 1970. *)
Definition as_timeduration_opt (v : val) : option Z := match v with CDuration d => Some d | _ => None end.
Definition as_timeduration_or (v : val) (d : Z) : Z := or_else (as_timeduration_opt v) d.
Definition as_timeduration_or_default (v : val) : Z := or_else (as_timeduration_opt v) 0%Z.
Definition epoch : datetime := DateTime 1970 1 1 0 0 0 0.
Definition as_datetime_opt (v : val) : option datetime := match v with CDateTime d => Some d | _ => None end.
Definition as_datetime_or (v : val) (d : datetime) : datetime := or_else (as_datetime_opt v) d.
Definition as_datetime_or_default (v : val) : datetime := or_else (as_datetime_opt v) epoch.
(** chrono's [NaiveDate] and [NaiveTime] by their fields. *)
Record date := Date { da_year : Z; da_month : N; da_day : N }.
Record time := Time { ti_hour : N; ti_minute : N; ti_second : N; ti_nano : N }.
Definition date_of (d : datetime) : date := Date (dt_year d) (dt_month d) (dt_day d).
Definition as_date_opt (v : val) : option date := match v with CDateTime d => Some (date_of d) | _ => None end.
Definition as_date_or (v : val) (d : date) : date := or_else (as_date_opt v) d.
Definition as_date_or_default (v : val) : date := or_else (as_date_opt v) (Date 1970 1 1).
(** value_.rs:442-460, 463-477 [currency], [new_currency], [new_percentage]; the macros call them. *)
Definition currency (v : val) : str := match v with CCurrency _ c => c | _ => [] end.
Definition new_currency (c : str) (f : f64) : val := CCurrency f c.
Definition new_percentage (f : f64) : val := CPercent f.

(** value_.rs:479-688: the [From] implementations. References are those of the type itself. An f32 is an f64 with fewer digits, [as f64]
    changes nothing. [Decimal] is not modelled. *)
Inductive source :=
| OfUnit | OfStr (s : str) | OfTag (t : xnode) | OfTags (l : list xnode) | OfInt (t : ity) (x : Z) | OfFloat (f : f64) | OfBool (b : bool)
| OfDateTime (d : datetime) | OfDate (d : date) | OfTime (t : time) | OfDuration (ns : Z).
Definition from (s : source) : val :=
  match s with
  | OfUnit => CEmpty
  | OfStr s => CText s
  | OfTag t => CXml [t]
  | OfTags l => CXml l
  | OfInt _ x => CNumber (to_f64 x)
  | OfFloat f => CNumber f
  | OfBool b => CBool b
  | OfDateTime d => CDateTime d
  | OfDate d => CDateTime (DateTime (da_year d) (da_month d) (da_day d) 0 0 0 0)
  | OfTime t => CDateTime (DateTime 1899 12 30 (ti_hour t) (ti_minute t) (ti_second t) (ti_nano t))
  | OfDuration ns => CDuration ns
  end.
(** The implementations for [Option]. *)
Definition from_opt (s : option source) : val := match s with Some s => from s | None => CEmpty end.

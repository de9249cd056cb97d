(** What the methods of the builders of format parts are said to do, and what a value format shows (ODF 1.3, part 3, 16.29). *)
From Verif Require Import Base NumModel StyleModel FmtModel.

(** ** Settings *)

(** The attributes a method is documented to set (format/builder.rs, the comments of the methods; ODF 19.341-19.368), with their texts.
    [None]: the attribute is not there afterwards. *)
Definition documented (o : setting) : list (str * option str) :=
  match o with
  | DecimalPlaces n => [(lit "number:decimal-places", Some (show_N n))]
  | FixedDecimalPlaces n => [(lit "number:decimal-places", Some (show_N n)); (lit "number:min-decimal-places", Some (show_N n))]
  | Grouping => [(lit "number:grouping", Some (lit "true"))]
  | MinDecimalPlaces n => [(lit "number:min-decimal-places", Some (show_N n))]
  | MinIntegerDigits n => [(lit "number:min-integer-digits", Some (show_N n))]
  | DisplayFactor x => [(lit "number:display-factor", Some x)]
  | DecimalReplacement c => [(lit "number:decimal-replacement", Some [c])]
  | ExponentInterval n => [(lit "number:exponent-interval", Some (show_N n))]
  | ForcedExponentSign b => [(lit "number:forced-exponent-sign", Some (if b then lit "true" else lit "false"))]
  | MinExponentDigits n => [(lit "number:min-exponent-digits", Some (show_N n))]
  | Denominator z => [(lit "number:denominator-value", Some (show_Z z))]
  | MaxDenominator z => [(lit "number:max-denominator-value", Some (show_Z z))]
  | MinDenominatorDigits n => [(lit "number:min-denominator-digits", Some (show_N n))]
  | MinNumeratorDigits n => [(lit "number:min-numerator-digits", Some (show_N n))]
  | SymbolLocale l => [(lit "number:language", Some (lo_lang l)); (lit "number:country", lo_region l); (lit "number:script", lo_script l)]
  | LongStyle | Style NLong => [(lit "number:style", Some (lit "long"))]
  | ShortStyle | Style NShort => [(lit "number:style", Some (lit "short"))]
  | Calendar Gregorian => [(lit "number:calendar", Some (lit "gregorian"))]
  | Calendar Gengou => [(lit "number:calendar", Some (lit "gengou"))]
  | Calendar Roc => [(lit "number:calendar", Some (lit "ROC"))]
  | Calendar Hanja => [(lit "number:calendar", Some (lit "hanja"))]
  | Calendar Hijri => [(lit "number:calendar", Some (lit "hijri"))]
  | Calendar Jewish => [(lit "number:calendar", Some (lit "jewish"))]
  | Calendar Buddhist => [(lit "number:calendar", Some (lit "buddhist"))]
  | Textual => [(lit "number:textual", Some (lit "true"))]
  | PossessiveForm => [(lit "number:possessive-form", Some (lit "true"))]
  | EmbeddedText _ _ | FillChar _ | Symbol _ | TextOf _ => []
  end.
(** The text the methods set, and the position. *)
Definition documented_text (o : setting) : option str :=
  match o with EmbeddedText s _ | Symbol s | TextOf s => Some s | FillChar c => Some [c] | _ => None end.
Definition documented_pos (o : setting) : option Z := match o with EmbeddedText _ p => Some p | _ => None end.

Definition is_locale (o : setting) : bool := match o with SymbolLocale _ => true | _ => false end.
(** The builder has the method. *)
Definition keeps (t : ptype) (o : setting) : Prop := has t o = true.
(** The settings that do what they are said to: all but the minimum of the integer digits of a fraction. *)
Definition faithful (t : ptype) (o : setting) : Prop := match t, o with PFraction, MinIntegerDigits _ => False | _, _ => True end.

(** The value of [k] after the settings: that of the last one which concerns it. *)
Fixpoint last_of {T} (k : str) (l : list (str * option T)) : option T :=
  match l with
  | [] => None
  | (k', v) :: r => if existsb (fun p => str_eqb (fst p) k) r then last_of k r else if str_eqb k' k then v else None
  end.
Fixpoint last_some {A T} (f : A -> option T) (l : list A) : option T :=
  match l with [] => None | x :: r => match last_some f r with Some v => Some v | None => f x end end.
(** The value an attribute has: that of its first occurrence. *)
Fixpoint value_of (k : str) (a : list (str * str)) : option str :=
  match a with [] => None | (k', v) :: r => if str_eqb k' k then Some v else value_of k r end.

(** ** What a format shows *)

(** The decimal digits: the last [w] of them, all of them, and at least [w] of them. *)
Fixpoint digits (w : nat) (n : N) : str := match w with O => [] | S w' => digits w' (n / 10) ++ [48 + n mod 10] end.
Fixpoint width (fuel : nat) (n : N) : nat := match fuel with O => 1%nat | S f => if n <? 10 then 1%nat else S (width f (n / 10)) end.
Definition decimal (n : N) : str := digits (width (N.size_nat n) n) n.
Definition at_least (w : nat) (n : N) : str := if (width (N.size_nat n) n <? w)%nat then digits w n else decimal n.

(** An application that shows values: what the standard leaves to it, or to the language. *)
Record consumer := Consumer {
  c_point : str;                          (** the decimal separator *)
  c_group : str -> str;                   (** separators put between the integer digits *)
  c_round : N -> N -> N -> N;             (** [c_round m d p]: m/10^d as a number of 1/10^p *)
  c_places : N;                           (** number of decimals if none is given *)
  c_min_places : N -> N;                  (** least number of decimals if none is given, for a number of decimals *)
  c_min_integer : N;                      (** least number of integer digits if none is given *)
  c_true : str; c_false : str;            (** the truth values *)
  c_am : str; c_pm : str;
  c_symbol : list (str * str) -> str;     (** the currency symbol if none is given, for the attributes *)
  c_name : ptype -> list (str * str) -> N -> N -> N -> str  (** names of months, days, eras, the week and the quarter of a date *)
}.

(** Values: a truth value; sign, m and d of ±m/10^d; a date and time; a length of time in nanoseconds. *)
Inductive value :=
| SBool (b : bool) | SNumber (neg : bool) (m d : N)
| SDate (y mo d h mi s ns : N)
| STime (ns : N).

(** The number that digits are. *)
Definition number_of (s : str) : N := fold_left (fun a c => 10 * a + (c - 48)) s 0.
Definition number_or (s : option str) (d : N) : N := match s with Some t => number_of t | None => d end.
Definition is_long (a : list (str * str)) : bool := match value_of (lit "number:style") a with Some s => str_eqb s (lit "long") | None => false end.
Definition is_true (k : str) (a : list (str * str)) : bool := match value_of k a with Some s => str_eqb s (lit "true") | None => false end.
Definition is_false (k : str) (a : list (str * str)) : bool := match value_of k a with Some s => str_eqb s (lit "false") | None => false end.

(** Decimals without trailing zeros, but at least [w] of them; the digits come in reverse. *)
Fixpoint strip (extra : nat) (s : str) : str :=
  match extra, s with S e, 48 :: r => strip e r | _, _ => s end.
Definition decimals (least : nat) (s : str) : str := rev (strip (length s - least) (rev s)).

(** 16.29.3 number:number. A scaled number, one with a replacement for its decimals and embedded text are left out. *)
Definition shown_number (c : consumer) (a : list (str * str)) (m d : N) : str :=
  let places := number_or (value_of (lit "number:decimal-places") a) (c_places c) in
  let least := number_or (value_of (lit "number:min-decimal-places") a) (c_min_places c places) in
  let int_least := number_or (value_of (lit "number:min-integer-digits") a) (c_min_integer c) in
  let r := c_round c m d places in
  let int := r / 10 ^ places in
  let int_text := if (int =? 0) && (int_least =? 0) then [] else at_least (N.to_nat int_least) int in
  let frac := decimals (N.to_nat least) (digits (N.to_nat places) (r mod 10 ^ places)) in
  (if is_true (lit "number:grouping") a then c_group c int_text else int_text) ++ match frac with [] => [] | _ => c_point c ++ frac end.
Definition plain_number (p : part) : bool :=
  match pt_content p, value_of (lit "number:display-factor") (pt_attr p), value_of (lit "number:decimal-replacement") (pt_attr p) with
  | None, None, None => true | _, _, _ => false
  end.

(** 16.29.8: the text of the element, or the symbol of the language and country if it has none or blanks only. *)
Definition blank (s : str) : bool := forallb (fun c => (c =? 32) || (c =? 9) || (c =? 10) || (c =? 13)) s.
Definition shown_symbol (c : consumer) (p : part) : str :=
  match pt_content p with Some s => if blank s then c_symbol c (pt_attr p) else s | None => c_symbol c (pt_attr p) end.
Definition shown_text (p : part) : str := match pt_content p with Some s => s | None => [] end.
Definition two (long : bool) (n : N) : str := if long then digits 2 n else decimal n.
Definition gregorian (p : part) : bool :=
  match value_of (lit "number:calendar") (pt_attr p) with None => true | Some s => str_eqb s (lit "gregorian") end.

(** Hours with AM and PM: 12, 1, ..., 11. *)
Definition half_day (h : N) : N := if h mod 12 =? 0 then 12 else h mod 12.
Definition shown_second (c : consumer) (p : part) (whole : str) (ns : N) : str :=
  let n := number_or (value_of (lit "number:decimal-places") (pt_attr p)) 0 in
  if n =? 0 then whole else whole ++ c_point c ++ digits (N.to_nat n) (ns * 10 ^ n / 1000000000).

(** 16.29.11-16.29.22: a part of a date. *)
Definition shown_date (c : consumer) (ampm : bool) (y mo d h mi s ns : N) (p : part) : option str :=
  let long := is_long (pt_attr p) in
  match pt_type p with
  | PTextPart => Some (shown_text p)
  | PDay => if gregorian p then Some (two long d) else None
  | PMonth => if negb (gregorian p) then None
              else if is_true (lit "number:textual") (pt_attr p) then Some (c_name c PMonth (pt_attr p) y mo d) else Some (two long mo)
  | PYear => if gregorian p then Some (if long then at_least 4 y else digits 2 y) else None
  | PEra | PDayOfWeek | PWeek | PQuarter => Some (c_name c (pt_type p) (pt_attr p) y mo d)
  | PHours => Some (two long (if ampm then half_day h else h))
  | PMinutes => Some (two long mi)
  | PSeconds => Some (shown_second c p (two long s) ns)
  | PAmPm => Some (if h <? 12 then c_am c else c_pm c)
  | _ => None
  end.
(** 16.29.18, 19.367: a part of a time style. The largest unit shown is not cut at a day or an hour if number:truncate-on-overflow is false. *)
Inductive unit3 := UHours | UMinutes | USeconds.
Definition largest (l : list part) : unit3 :=
  if existsb (fun p => match pt_type p with PHours => true | _ => false end) l then UHours
  else if existsb (fun p => match pt_type p with PMinutes => true | _ => false end) l then UMinutes else USeconds.
Definition wide (long : bool) (n : N) : str := if long then at_least 2 n else decimal n.
Definition shown_time (c : consumer) (ampm trunc : bool) (top : unit3) (t : N) (p : part) : option str :=
  let long := is_long (pt_attr p) in
  let secs := t / 1000000000 in
  let ns := t mod 1000000000 in
  let h := match trunc, top with false, UHours => secs / 3600 | _, _ => secs / 3600 mod 24 end in
  let mi := match trunc, top with false, UMinutes => secs / 60 | _, _ => secs / 60 mod 60 end in
  let s := match trunc, top with false, USeconds => secs | _, _ => secs mod 60 end in
  match pt_type p with
  | PTextPart => Some (shown_text p)
  | PHours => Some (wide long (if ampm then half_day h else h))
  | PMinutes => Some (wide long mi)
  | PSeconds => Some (shown_second c p (wide long s) ns)
  | PAmPm => Some (if secs / 3600 mod 24 <? 12 then c_am c else c_pm c)
  | _ => None
  end.

Fixpoint concat_all (l : list (option str)) : option str :=
  match l with [] => Some [] | o :: r => match o, concat_all r with Some a, Some b => Some (a ++ b) | _, _ => None end end.

(** The text shown for a value in a format of a kind; [None] for the wrong kind of value and for what is not described here: style maps, the
    format and the order of the language instead of that of the style. The sign of a number comes first. *)
Definition shows (c : consumer) (f : BookModel.family) (b : fbody) (v : value) : option str :=
  let ampm := existsb (fun p => match pt_type p with PAmPm => true | _ => false end) (fb_parts b) in
  let plain := match fb_maps b, value_of (lit "number:format-source") (fb_attr b), value_of (lit "number:automatic-order") (fb_attr b) with
               | None, None, None => true | _, _, _ => false end in
  let numbers (neg : bool) (m d : N) (money : bool) :=
    option_map (fun s => (if neg then [45] else []) ++ s)
      (concat_all (map (fun p => match pt_type p with
        | PTextPart => Some (shown_text p)
        | PNumber => if plain_number p then Some (shown_number c (pt_attr p) m d) else None
        | PCurrency => if money then Some (shown_symbol c p) else None
        | _ => None
        end) (fb_parts b))) in
  if negb plain then None else
  match f, v with
  | BookModel.FmtBoolean, SBool x =>
      concat_all (map (fun p => match pt_type p with PTextPart => Some (shown_text p) | PBoolean => Some (if x then c_true c else c_false c) | _ => None end) (fb_parts b))
  | BookModel.FmtNumber, SNumber neg m d => numbers neg m d false
  | BookModel.FmtPercentage, SNumber neg m d => numbers neg (m * 100) d false
  | BookModel.FmtCurrency, SNumber neg m d => numbers neg m d true
  | BookModel.FmtDateTime, SDate y mo d h mi s ns => concat_all (map (shown_date c ampm y mo d h mi s ns) (fb_parts b))
  | BookModel.FmtTimeDuration, STime t =>
      concat_all (map (shown_time c ampm (negb (is_false (lit "number:truncate-on-overflow") (fb_attr b))) (largest (fb_parts b)) t) (fb_parts b))
  | _, _ => None
  end.

(** ** Texts the predefined formats are named for *)

Definition Y_M_D (y mo d : N) : str := at_least 4 y ++ lit "-" ++ digits 2 mo ++ lit "-" ++ digits 2 d.
Definition D_M_Y (y mo d : N) : str := digits 2 d ++ lit "." ++ digits 2 mo ++ lit "." ++ at_least 4 y.
Definition M_D_Y (y mo d : N) : str := digits 2 mo ++ lit "/" ++ digits 2 d ++ lit "/" ++ at_least 4 y.
Definition H_M_S (h mi s : N) : str := digits 2 h ++ lit ":" ++ digits 2 mi ++ lit ":" ++ digits 2 s.
(** ±m/10^d with [p] decimals, at least [least] of them shown, at least [i] integer digits. *)
Definition amount (c : consumer) (i least p : N) (grouped : bool) (m d : N) : str :=
  let r := c_round c m d p in
  let int := if (r / 10 ^ p =? 0) && (i =? 0) then [] else at_least (N.to_nat i) (r / 10 ^ p) in
  (if grouped then c_group c int else int)
  ++ match decimals (N.to_nat least) (digits (N.to_nat p) (r mod 10 ^ p)) with [] => [] | f => c_point c ++ f end.
Definition sign (neg : bool) : str := if neg then lit "-" else [].

(** ** The default styles of a workbook *)

Definition date_text (l : known) : N -> N -> N -> str := match l with En => Y_M_D | EnUs => M_D_Y | CsCz | DeAt => D_M_Y end.
Definition clock (c : consumer) (l : known) (h mi s : N) : str :=
  match l with EnUs => H_M_S (half_day h) mi s ++ lit " " ++ (if h <? 12 then c_am c else c_pm c) | _ => H_M_S h mi s end.
Definition interval (ns : N) : str :=
  at_least 2 (ns / 1000000000 / 3600) ++ lit ":" ++ digits 2 (ns / 1000000000 / 60 mod 60) ++ lit ":" ++ digits 2 (ns / 1000000000 mod 60).
(** What a default style of each kind is to show in a locale. *)
Definition expected (c : consumer) (l : known) (k : kind) (v : value) : option str :=
  match k, v with
  | KBool, SBool x => Some (if x then c_true c else c_false c)
  | KNumber, SNumber neg m d => Some (sign neg ++ amount c 1 (c_min_places c 2) 2 false m d)
  | KPercent, SNumber neg m d => Some (sign neg ++ amount c 1 (c_min_places c 2) 2 false (m * 100) d ++ lit "%")
  | KCurrency, SNumber neg m d => Some (sign neg ++ symbol_of l ++ lit " " ++ amount c 1 2 2 true m d)
  | KDate, SDate y mo d _ _ _ _ => Some (date_text l y mo d)
  | KDatetime, SDate y mo d h mi s _ => Some (date_text l y mo d ++ lit " " ++ H_M_S h mi s)
  | KTime, SDate _ _ _ h mi s _ => Some (clock c l h mi s)
  | KInterval, STime ns => Some (interval ns)
  | _, _ => None
  end.
Definition is_format (f : BookModel.family) : bool :=
  match f with
  | BookModel.FmtBoolean | BookModel.FmtNumber | BookModel.FmtPercentage | BookModel.FmtCurrency | BookModel.FmtText | BookModel.FmtDateTime
  | BookModel.FmtTimeDuration => true
  | _ => false
  end.
(** The format a cell style names. *)
Definition names (b : BookModel.book body) (s n : str) : Prop :=
  exists o u sb, BookModel.style BookModel.FCell s b = Some (BookModel.Named s (BStyle o u sb)) /\ value_of (lit "style:data-style-name") (sb_attr sb) = Some n.
(** The cell style names a format, which is the only one of its name and shows the values of the kind as expected. *)
Definition resolves (b : BookModel.book body) (exp : value -> option str -> Prop) (c : consumer) (s : str) : Prop :=
  exists n f o u fb, names b s n /\ is_format f = true /\ BookModel.style f n b = Some (BookModel.Named n (BFormat o u fb))
    /\ (forall g, is_format g = true -> g <> f -> BookModel.style g n b = None)
    /\ (exists v t, exp v (Some t)) /\ (forall v t, exp v (Some t) -> shows c f fb v = Some t).

(** Concrete values. *)
Definition plain_consumer : consumer :=
  Consumer (lit ".") (fun s => s) (fun m d p => m * 10 ^ p / 10 ^ d) 2 (fun p => p) 1 (lit "TRUE") (lit "FALSE") (lit "AM") (lit "PM")
    (fun _ => lit "$") (fun _ _ _ _ _ => []).
Example texts_shown :
  (digits 2 7, decimal 0, decimal 1234, at_least 4 476, at_least 2 100, decimals 1 (lit "500"), decimals 0 (lit "00"), amount plain_consumer 1 0 2 true 123450 3)
  = (lit "07", lit "0", lit "1234", lit "0476", lit "100", lit "5", [], lit "123.45").
Proof. vm_compute. reflexivity. Qed.

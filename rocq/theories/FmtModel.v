(** The builders of the parts of a value format, the predefined formats, the formats of the locales, and what they put into a new workbook. *)
From Verif Require Import Base NumModel BookModel StyleModel.

(** ** Attributes *)

(** attrmap2.rs:59-69 [set_attr] and 88-96 [clear_attr] on the list of names and values ([FmtProofs.put_attr_set], [FmtProofs.del_attr_clear]
    relate them to the two vectors of AttrModel). *)
Fixpoint put_attr (k v : str) (a : attrs) : attrs :=
  match a with
  | [] => [(k, v)]
  | (k', v') :: r => if str_eqb k' k then (k, v) :: r else (k', v') :: put_attr k v r
  end.
Fixpoint del_attr (k : str) (a : attrs) : attrs :=
  match a with
  | [] => []
  | (k', v') :: r => if str_eqb k' k then r else (k', v') :: del_attr k r
  end.
(** attrmap2.rs:100-107 [attr]. *)
Fixpoint get_attr (k : str) (a : attrs) : option str :=
  match a with [] => None | (k', v) :: r => if str_eqb k' k then Some v else get_attr k r end.

(** icu_locale_core [Locale]: the texts of the language, the script and the region; variants, extensions and further parts as one text, not
    used by the writer. [Locale::UNKNOWN] has the language "und" and nothing else. *)
Record locale := Locale { lo_lang : str; lo_script : option str; lo_region : option str; lo_rest : str }.
Definition opt_eqb (a b : option str) : bool := match a, b with Some x, Some y => str_eqb x y | None, None => true | _, _ => false end.
Definition locale_eqb (a b : locale) : bool :=
  str_eqb (lo_lang a) (lo_lang b) && opt_eqb (lo_script a) (lo_script b) && opt_eqb (lo_region a) (lo_region b) && str_eqb (lo_rest a) (lo_rest b).
Definition unknown : locale := Locale (lit "und") None None [].

(** macro_attr_number.rs:33-53 [set_locale]. *)
Definition set_locale (l : locale) (a : attrs) : attrs :=
  if negb (locale_eqb l unknown) then
    let a := put_attr (lit "number:language") (lo_lang l) a in
    let a := match lo_region l with Some r => put_attr (lit "number:country") r a | None => del_attr (lit "number:country") a end in
    match lo_script l with Some s => put_attr (lit "number:script") s a | None => del_attr (lit "number:script") a end
  else del_attr (lit "number:script") (del_attr (lit "number:country") (del_attr (lit "number:language") a)).
(** macro_attr_number.rs:263-266 [set_truncate_on_overflow]. *)
Definition set_truncate (b : bool) (a : attrs) : attrs := put_attr (lit "number:truncate-on-overflow") (show_bool b) a.

(** ** Builders *)

(** format/mod.rs: [FormatNumberStyle] and [FormatCalendarStyle] and their texts. *)
Inductive nstyle := NShort | NLong.
Definition show_nstyle (s : nstyle) : str := match s with NShort => lit "short" | NLong => lit "long" end.
Inductive calendar := Gregorian | Gengou | Roc | Hanja | Hijri | Jewish | Buddhist.
Definition show_calendar (c : calendar) : str :=
  match c with
  | Gregorian => lit "gregorian" | Gengou => lit "gengou" | Roc => lit "ROC" | Hanja => lit "hanja" | Hijri => lit "hijri"
  | Jewish => lit "jewish" | Buddhist => lit "buddhist"
  end.

(** The methods of the builders; a number is a u8, the one of [denominator] an i64. The factor of [display_factor] is its text. *)
Inductive setting :=
| DecimalPlaces (n : N) | FixedDecimalPlaces (n : N) | Grouping | MinDecimalPlaces (n : N) | MinIntegerDigits (n : N) | DisplayFactor (x : str)
| DecimalReplacement (c : char) | EmbeddedText (s : str) (p : Z) | FillChar (c : char)
| ExponentInterval (n : N) | ForcedExponentSign (b : bool) | MinExponentDigits (n : N)
| Denominator (z : Z) | MaxDenominator (z : Z) | MinDenominatorDigits (n : N) | MinNumeratorDigits (n : N)
| SymbolLocale (l : locale) | Symbol (s : str)
| LongStyle | ShortStyle | Style (s : nstyle) | Calendar (c : calendar) | Textual | PossessiveForm | TextOf (s : str).

(** Which builder has which method: format/builder.rs, by the lines of the impl blocks. *)
Definition has (t : ptype) (o : setting) : bool :=
  match t, o with
  (* 13-147 *)
  | PNumber, (DecimalPlaces _ | FixedDecimalPlaces _ | Grouping | MinDecimalPlaces _ | MinIntegerDigits _ | DisplayFactor _ | DecimalReplacement _ | EmbeddedText _ _) => true
  (* 157-198 *)
  | PFill, FillChar _ => true
  (* 217-331 *)
  | PScientific, (DecimalPlaces _ | ExponentInterval _ | ForcedExponentSign _ | Grouping | MinDecimalPlaces _ | MinExponentDigits _ | MinIntegerDigits _) => true
  (* 351-447 *)
  | PFraction, (Denominator _ | Grouping | MaxDenominator _ | MinDenominatorDigits _ | MinIntegerDigits _ | MinNumeratorDigits _) => true
  (* 472-536 *)
  | PCurrency, (SymbolLocale _ | Symbol _) => true
  (* 554-623, 762-831, 849-918, 936-1005, 1079-1148 *)
  | (PDay | PYear | PEra | PDayOfWeek | PQuarter), (LongStyle | ShortStyle | Style _ | Calendar _) => true
  (* 645-745 *)
  | PMonth, (LongStyle | ShortStyle | Style _ | Calendar _ | Textual | PossessiveForm) => true
  (* 1022-1061 *)
  | PWeek, Calendar _ => true
  (* 1166-1225, 1243-1302 *)
  | (PHours | PMinutes), (LongStyle | ShortStyle | Style _) => true
  (* 1322-1390 *)
  | PSeconds, (DecimalPlaces _ | LongStyle | ShortStyle | Style _) => true
  (* 1473-1509 *)
  | PTextPart, TextOf _ => true
  (* 1407-1429, 1437-1459, 1525-1547: no methods *)
  | _, _ => false
  end.

Definition on_attr (f : attrs -> attrs) (p : part) : part := Part (pt_type p) (f (pt_attr p)) (pt_pos p) (pt_content p).
Definition set_attr (k v : str) : part -> part := on_attr (put_attr k v).
(** format/mod.rs [FormatPart::set_content]. *)
Definition set_content (s : str) (p : part) : part := Part (pt_type p) (pt_attr p) (pt_pos p) (Some s).
Definition set_embedded (s : str) (z : Z) (p : part) : part := Part (pt_type p) (pt_attr p) (Some z) (Some s).

(** format/builder.rs: one method. *)
Definition apply_setting (t : ptype) (o : setting) : part -> part :=
  match o with
  | DecimalPlaces n => set_attr (lit "number:decimal-places") (show_N n)
  | FixedDecimalPlaces n => fun p => set_attr (lit "number:min-decimal-places") (show_N n) (set_attr (lit "number:decimal-places") (show_N n) p)
  | Grouping => set_attr (lit "number:grouping") (lit "true")
  | MinDecimalPlaces n => set_attr (lit "number:min-decimal-places") (show_N n)
  | MinIntegerDigits n =>
      match t with
      | PFraction => set_attr (lit "number:min-numerator-digits") (show_N n) (* 433-437 *)
      | _ => set_attr (lit "number:min-integer-digits") (show_N n)
      end
  | DisplayFactor x => set_attr (lit "number:display-factor") x
  | DecimalReplacement c => set_attr (lit "number:decimal-replacement") [c]
  | EmbeddedText s z => set_embedded s z
  | FillChar c => set_content [c]
  | ExponentInterval n => set_attr (lit "number:exponent-interval") (show_N n)
  | ForcedExponentSign b => set_attr (lit "number:forced-exponent-sign") (show_bool b)
  | MinExponentDigits n => set_attr (lit "number:min-exponent-digits") (show_N n)
  | Denominator z => set_attr (lit "number:denominator-value") (show_Z z)
  | MaxDenominator z => set_attr (lit "number:max-denominator-value") (show_Z z)
  | MinDenominatorDigits n => set_attr (lit "number:min-denominator-digits") (show_N n)
  | MinNumeratorDigits n => set_attr (lit "number:min-numerator-digits") (show_N n)
  | SymbolLocale l => fun p => (* 517-527 *)
      let p := set_attr (lit "number:language") (lo_lang l) p in
      let p := match lo_region l with Some r => set_attr (lit "number:country") r p | None => p end in
      match lo_script l with Some s => set_attr (lit "number:script") s p | None => p end
  | Symbol s => set_content s
  | LongStyle => set_attr (lit "number:style") (lit "long")
  | ShortStyle => set_attr (lit "number:style") (lit "short")
  | Style s => set_attr (lit "number:style") (show_nstyle s)
  | Calendar c => set_attr (lit "number:calendar") (show_calendar c)
  | Textual => set_attr (lit "number:textual") (show_bool true)
  | PossessiveForm => set_attr (lit "number:possessive-form") (show_bool true)
  | TextOf s => set_content s
  end.
(** [if_then] of each builder. *)
Definition if_then (c : bool) (o : setting) : list setting := if c then [o] else [].

(** format/mod.rs [FormatPart::new], the methods, and [build], which is [push_part] (macro_format.rs:193-195). *)
Definition part0 (t : ptype) : part := Part t [] None None.
Definition made (t : ptype) (l : list setting) : part := fold_left (fun p o => apply_setting t o p) l (part0 t).
Definition push_made (t : ptype) (l : list setting) (b : fbody) : fbody := FBody (fb_attr b) (fb_text b) (fb_parts b ++ [made t l]) (fb_maps b).

(** A value format: macro_format.rs:5-21, with the origin and the use. *)
Definition vformat : Type := named (origin * suse * fbody).
(** macro_format.rs:45-55 [new_named] and 58-70 [new_localized]; the defaults are style/mod.rs:142-180. *)
Definition new_named (n : str) : vformat := Named n (OContent, UAutomatic, FBody [] [] [] None).
Definition new_localized (n : str) (l : locale) : vformat := Named n (OContent, UAutomatic, FBody (set_locale l []) [] [] None).
Definition on_body (f : fbody -> fbody) (v : vformat) : vformat := let '(Named n (o, u, b)) := v in Named n (o, u, f b).
Definition with_part (t : ptype) (l : list setting) (v : vformat) : vformat := on_body (push_made t l) v.
(** macro_format.rs:506-515 [part_text]. *)
Definition with_text (s : string) : vformat -> vformat := with_part PTextPart [TextOf (lit s)].
Definition truncate (b : bool) : vformat -> vformat := on_body (fun f => FBody (set_truncate b (fb_attr f)) (fb_text f) (fb_parts f) (fb_maps f)).

Notation "v |> f" := (f v) (at level 50, f at level 49, left associativity, only parsing).

(** macro_format.rs:543-770: the deprecated methods that add a part. *)
Definition push_number (d : N) (g : bool) := with_part PNumber (DecimalPlaces d :: if_then g Grouping ++ [MinDecimalPlaces 0; MinIntegerDigits 1]).
Definition push_number_fix (d : N) (g : bool) := with_part PNumber (FixedDecimalPlaces d :: if_then g Grouping ++ [MinIntegerDigits 1]).
Definition push_fraction (d : Z) (mind mini minn : N) (g : bool) :=
  with_part PFraction ([Denominator d; MinDenominatorDigits mind; MinIntegerDigits mini; MinNumeratorDigits minn] ++ if_then g Grouping).
Definition push_month (s : nstyle) (textual : bool) := with_part PMonth (Style s :: if_then textual Textual).
Definition push_seconds (s : nstyle) (d : N) := with_part PSeconds [Style s; DecimalPlaces d].

(** ** format/create.rs *)

(** Parts that occur again and again there. *)
Definition long (t : ptype) : vformat -> vformat := with_part t [Style NLong].
Definition dmy (v : vformat) : vformat := v |> long PDay |> with_text "." |> long PMonth |> with_text "." |> long PYear.
Definition mdy (v : vformat) : vformat := v |> long PMonth |> with_text "/" |> long PDay |> with_text "/" |> long PYear.
Definition ymd (v : vformat) : vformat := v |> long PYear |> with_text "-" |> long PMonth |> with_text "-" |> long PDay.
Definition hms (v : vformat) : vformat := v |> long PHours |> with_text ":" |> long PMinutes |> with_text ":" |> long PSeconds.

(** 9-13, 16-29, 32-45, 48-57. *)
Definition create_loc_boolean_format (n : str) (l : locale) : vformat := with_part PBoolean [] (new_localized n l).
Definition create_loc_number_format (n : str) (l : locale) (d : N) (g : bool) : vformat :=
  with_part PNumber ([MinIntegerDigits 1; DecimalPlaces d] ++ if_then g Grouping) (new_localized n l).
Definition create_loc_number_format_fixed (n : str) (l : locale) (d : N) (g : bool) : vformat :=
  with_part PNumber ([MinIntegerDigits 1; FixedDecimalPlaces d] ++ if_then g Grouping) (new_localized n l).
Definition create_loc_percentage_format (n : str) (l : locale) (d : N) : vformat :=
  new_localized n l |> with_part PNumber [DecimalPlaces d] |> with_text "%".
(** 60-87, 90-112. *)
Definition create_loc_currency_prefix (n : str) (l sl : locale) (s : str) : vformat :=
  new_localized n l |> with_part PCurrency [SymbolLocale sl; Symbol s] |> with_text " "
    |> with_part PNumber [DecimalPlaces 2; MinDecimalPlaces 2; Grouping]
    |> with_part PNumber [DecimalPlaces 2; MinDecimalPlaces 2; Grouping].
Definition create_loc_currency_suffix (n : str) (l sl : locale) (s : str) : vformat :=
  new_localized n l |> with_part PNumber [DecimalPlaces 2; MinDecimalPlaces 2; Grouping] |> with_text " "
    |> with_part PCurrency [SymbolLocale sl; Symbol s].
(** 115-178. *)
Definition create_loc_date_dmy_format (n : str) (l : locale) : vformat := dmy (new_localized n l).
Definition create_loc_date_mdy_format (n : str) (l : locale) : vformat := mdy (new_localized n l).
Definition create_loc_datetime_format (n : str) (l : locale) : vformat := new_localized n l |> dmy |> with_text " " |> hms.
Definition create_loc_time_format (n : str) (l : locale) : vformat := hms (new_localized n l).
Definition create_loc_time_interval_format (n : str) (l : locale) : vformat := new_localized n l |> truncate false |> hms.
(** 181-222. *)
Definition create_boolean_format (n : str) : vformat := with_part PBoolean [] (new_named n).
Definition create_number_format (n : str) (d : N) (g : bool) : vformat := with_part PNumber (DecimalPlaces d :: if_then g Grouping) (new_named n).
Definition create_number_format_fixed (n : str) (d : N) (g : bool) : vformat :=
  with_part PNumber ([MinIntegerDigits 1; FixedDecimalPlaces d] ++ if_then g Grouping) (new_named n).
Definition create_percentage_format (n : str) (d : N) : vformat := new_named n |> with_part PNumber [FixedDecimalPlaces d] |> with_text "%".
(** 225-262. *)
Definition create_currency_prefix (n : str) (sl : locale) (s : str) : vformat :=
  new_named n |> with_part PCurrency [SymbolLocale sl; Symbol s] |> with_text " " |> with_part PNumber [FixedDecimalPlaces 2; Grouping].
Definition create_currency_suffix (n : str) (sl : locale) (s : str) : vformat :=
  new_named n |> with_part PNumber [FixedDecimalPlaces 2; Grouping] |> with_text " " |> with_part PCurrency [SymbolLocale sl; Symbol s].
(** 265-337. *)
Definition create_date_iso_format (n : str) : vformat := ymd (new_named n).
Definition create_date_dmy_format (n : str) : vformat := dmy (new_named n).
Definition create_date_mdy_format (n : str) : vformat := mdy (new_named n).
Definition create_datetime_format (n : str) : vformat := new_named n |> ymd |> with_text " " |> hms.
Definition create_time_of_day_format (n : str) : vformat := hms (new_named n).
Definition create_time_interval_format (n : str) : vformat := new_named n |> truncate false |> hms.

(** ** The locales *)

(** defaultstyles.rs:17-62 [DefaultFormat] and 71-114 [DefaultStyle]. *)
Inductive kind := KBool | KNumber | KPercent | KCurrency | KDate | KDatetime | KTime | KInterval.
Definition all_kinds : list kind := [KBool; KNumber; KPercent; KCurrency; KDate; KDatetime; KTime; KInterval].
Definition default_format (k : kind) : str :=
  match k with
  | KBool => lit "bool1" | KNumber => lit "num1" | KPercent => lit "percent1" | KCurrency => lit "currency1" | KDate => lit "date1"
  | KDatetime => lit "datetime1" | KTime => lit "time1" | KInterval => lit "interval1"
  end.
Definition default_style (k : kind) : str :=
  match k with
  | KBool => lit "default-bool" | KNumber => lit "default-num" | KPercent => lit "default-percent" | KCurrency => lit "default-currency"
  | KDate => lit "default-date" | KDatetime => lit "default-datetime" | KTime => lit "default-time" | KInterval => lit "default-interval"
  end.

(** locale/mod.rs:47-68 with all features: the locales there is data for. *)
Inductive known := En | CsCz | DeAt | EnUs.
Definition locale_of (l : known) : locale :=
  match l with
  | En => Locale (lit "en") None None [] | CsCz => Locale (lit "cs") None (Some (lit "CZ")) []
  | DeAt => Locale (lit "de") None (Some (lit "AT")) [] | EnUs => Locale (lit "en") None (Some (lit "US")) []
  end.
(** locale/mod.rs:71-73. *)
Definition localized_format (l : locale) : option known :=
  if locale_eqb l (locale_of En) then Some En else if locale_eqb l (locale_of CsCz) then Some CsCz
  else if locale_eqb l (locale_of DeAt) then Some DeAt else if locale_eqb l (locale_of EnUs) then Some EnUs else None.

(** locale/default.rs, cs_cz.rs, de_at.rs, en_us.rs. 50: the symbol of the currency, "$", "Kč", "€". *)
Definition symbol_of (l : known) : str := match l with En | EnUs => lit "$" | CsCz => [75; 269] | DeAt => [8364] end.
(** 61-69. *)
Definition date_parts (l : known) : vformat -> vformat := match l with En => ymd | EnUs => mdy | CsCz | DeAt => dmy end.
(** 71-77: en_us.rs has the days first here. *)
Definition datetime_parts (l : known) : vformat -> vformat := match l with En => ymd | _ => dmy end.
(** 87-88: the name is that of the date and time, but in en_us.rs. 97-98 (en_us.rs 99-101) likewise. *)
Definition time_name (l : known) : str := match l with EnUs => default_format KTime | _ => default_format KDatetime end.
Definition interval_name (l : known) : str := match l with EnUs => default_format KInterval | _ => default_format KDatetime end.
(** 23-107 [boolean_format] ... [time_interval_format]. *)
Definition loc_format (l : known) (k : kind) : vformat :=
  match k with
  | KBool => with_part PBoolean [] (new_localized (default_format KBool) (locale_of l))
  | KNumber => with_part PNumber [MinIntegerDigits 1; DecimalPlaces 2] (new_localized (default_format KNumber) (locale_of l))
  | KPercent => new_localized (default_format KPercent) (locale_of l) |> with_part PNumber [MinIntegerDigits 1; DecimalPlaces 2] |> with_text "%"
  | KCurrency => new_localized (default_format KCurrency) (locale_of l) |> with_part PCurrency [SymbolLocale (locale_of l); Symbol (symbol_of l)]
      |> with_text " " |> with_part PNumber [MinIntegerDigits 1; DecimalPlaces 2; MinDecimalPlaces 2; Grouping]
  | KDate => date_parts l (new_localized (default_format KDate) (locale_of l))
  | KDatetime => new_localized (default_format KDatetime) (locale_of l) |> datetime_parts l |> with_text " " |> hms
  | KTime => match l with
      | EnUs => new_localized (time_name l) (locale_of l) |> hms |> with_text " " |> with_part PAmPm []
      | _ => hms (new_localized (time_name l) (locale_of l))
      end
  | KInterval => new_localized (interval_name l) (locale_of l) |> truncate false |> hms
  end.
(** workbook_.rs:305-313: to which table each of them goes. *)
Definition loc_family (k : kind) : family :=
  match k with
  | KBool => FmtBoolean | KNumber => FmtNumber | KPercent => FmtPercentage | KCurrency => FmtCurrency
  | KDate | KDatetime | KTime => FmtDateTime | KInterval => FmtTimeDuration
  end.

(** ** The workbook *)

(** value_.rs [ValueType], as far as it has a default style. *)
Inductive vtype := VtBoolean | VtNumber | VtPercentage | VtCurrency | VtDateTime | VtTimeDuration.
Definition vtype_eqb (a b : vtype) : bool :=
  match a, b with
  | VtBoolean, VtBoolean | VtNumber, VtNumber | VtPercentage, VtPercentage | VtCurrency, VtCurrency | VtDateTime, VtDateTime
  | VtTimeDuration, VtTimeDuration => true
  | _, _ => false
  end.
(** workbook_.rs:48-92: the styles and formats and [def_styles], a map. *)
Record wbook := WBook { wb_styles : book body; wb_def : vtype -> option str }.

Definition as_body (v : vformat) : named body := let '(Named n (o, u, b)) := v in Named n (BFormat o u b).
(** style/cellstyle.rs:89-113 [CellStyle::new]. *)
Definition new_cellstyle (n f : str) : named body :=
  Named n (BStyle OContent UAutomatic (SBody (put_attr (lit "style:data-style-name") f []) [] [] [] None None)).
(** workbook_.rs:796-1023 [add_boolean_format] ..., 629-636 [add_cellstyle]: [add_style]; the names are not empty here. *)
Fixpoint add_all (l : list (family * named body)) (b : book body) : res (book body) :=
  match l with [] => Ok b | (f, s) :: r => let* (b1, _) := add_style f s b in add_all r b1 end.
Definition put_def (t : vtype) (s : str) (d : vtype -> option str) : vtype -> option str := fun u => if vtype_eqb t u then Some s else d u.

(** workbook_.rs:339-344, defaultstyles.rs:174-179. *)
Definition def_pairs : list (vtype * str) :=
  [(VtBoolean, default_style KBool); (VtNumber, default_style KNumber); (VtPercentage, default_style KPercent);
   (VtCurrency, default_style KCurrency); (VtDateTime, default_style KDate); (VtTimeDuration, default_style KInterval)].
(** workbook_.rs:316-337, defaultstyles.rs:145-172. *)
Definition default_cells : list (family * named body) := map (fun k => (FCell, new_cellstyle (default_style k) (default_format k))) all_kinds.
Definition settings (formats : list (family * named body)) (w : wbook) : res wbook :=
  let* b := add_all (formats ++ default_cells) (wb_styles w) in
  Ok (WBook b (fold_left (fun d p => put_def (fst p) (snd p) d) def_pairs (wb_def w))).
(** workbook_.rs:303-345 [locale_settings]. *)
Definition locale_settings (l : locale) (w : wbook) : res wbook :=
  settings (match localized_format l with Some k => map (fun d => (loc_family d, as_body (loc_format k d))) all_kinds | None => [] end) w.
(** workbook_.rs:291-295 [new], with 248-281 [new_empty]. *)
Definition new_book (l : locale) : res wbook := locale_settings l (WBook book0 (fun _ => None)).

(** defaultstyles.rs:118-143 [create_default_styles], deprecated. *)
Definition default_formats : list (family * named body) :=
  [(FmtBoolean, as_body (create_boolean_format (default_format KBool)));
   (FmtNumber, as_body (create_number_format (default_format KNumber) 2 false));
   (FmtPercentage, as_body (create_percentage_format (default_format KPercent) 2));
   (FmtCurrency, as_body (create_currency_prefix (default_format KCurrency) (locale_of DeAt) [8364]));
   (FmtDateTime, as_body (create_date_dmy_format (default_format KDate)));
   (FmtDateTime, as_body (create_datetime_format (default_format KDatetime)));
   (FmtTimeDuration, as_body (create_time_of_day_format (default_format KTime)));
   (FmtTimeDuration, as_body (create_time_interval_format (default_format KInterval)))].
Definition create_default_styles (w : wbook) : res wbook := settings default_formats w.

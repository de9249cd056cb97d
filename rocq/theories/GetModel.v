(** The getters of the attributes: formats, column and row styles. *)
From Verif Require Import Base NumModel EnumModel BookModel StyleModel FmtModel SetModel.

(** The icu crate (not in the repository): [Language::try_from_utf8] takes two or three letters and lowers them, [Script::try_from_utf8] four
    letters, the first made upper, and [Region::try_from_utf8] two letters, made upper, or three digits. *)
Definition upper_letter (c : char) : bool := (65 <=? c) && (c <=? 90).
Definition lower_letter (c : char) : bool := (97 <=? c) && (c <=? 122).
Definition letter (c : char) : bool := upper_letter c || lower_letter c.
Definition to_upper (c : char) : char := if lower_letter c then c - 32 else c.
Definition to_lower (c : char) : char := if upper_letter c then c + 32 else c.
Definition parse_language (s : str) : option str :=
  if forallb letter s && ((length s =? 2)%nat || (length s =? 3)%nat) then Some (map to_lower s) else None.
Definition parse_script (s : str) : option str :=
  if forallb letter s && (length s =? 4)%nat then match s with c :: r => Some (to_upper c :: map to_lower r) | [] => None end else None.
Definition parse_region (s : str) : option str :=
  if forallb letter s && (length s =? 2)%nat then Some (map to_upper s)
  else if forallb (fun c => (48 <=? c) && (c <=? 57)) s && (length s =? 3)%nat then Some s else None.

(** macro_attr_number.rs:10-12 [title] *)
Definition get_title (a : attrs) : option str := get_attr (lit "number:title") a.
Definition opt_parse (f : str -> option str) (o : option str) : option str := match o with Some s => f s | None => None end.
(** macro_attr_number.rs:55-79 [locale] *)
Definition get_locale (a : attrs) : option locale :=
  match get_attr (lit "number:language") a with
  | Some l =>
      match parse_language l with
      | Some l => Some (Locale l (opt_parse parse_script (get_attr (lit "number:script") a)) (opt_parse parse_region (get_attr (lit "number:country") a)) [])
      | None => None
      end
  | None => None
  end.
(** macro_attr_number.rs:112-130 [transliteration_locale]: it reads the attributes of the locale. *)
Definition get_transliteration_locale (a : attrs) : option locale :=
  match get_attr (lit "number:language") a with
  | Some l =>
      match parse_language l with
      | Some l => Some (Locale l None (opt_parse parse_region (get_attr (lit "number:country") a)) [])
      | None => None
      end
  | None => None
  end.
(** macro_attr_number.rs:155-160 [transliteration_format] *)
Definition get_transliteration_format (a : attrs) : option char :=
  match get_attr (lit "number:transliteration-format") a with Some (c :: _) => Some c | _ => None end.
(** [ParseStyleAttr::parse_attr] and [parse_attr_def], style/mod.rs:183-203 *)
Definition parse_opt {A} (f : str -> res A) (o : option str) : res (option A) := match o with Some s => let* v := f s in Ok (Some v) | None => Ok None end.
Definition parse_def {A} (f : str -> res A) (o : option str) (d : A) : res A := let* v := parse_opt f o in Ok (match v with Some v => v | None => d end).
Definition ok_bool (o : option str) : option bool := match o with Some s => match parse_bool s with Ok b => Some b | _ => None end | None => None end.
(** macro_attr_number.rs:180-182, 204-210, 237-239 and 269-275: [transliteration_style], [automatic_order], [format_source] and [truncate_on_overflow];
    macro_attr_style.rs:1884-1889 [volatile]. *)
Definition get_transliteration_style (a : attrs) : res (option translit) := parse_opt parse_translit (get_attr (lit "number:transliteration-style") a).
Definition get_automatic_order (a : attrs) : option bool := ok_bool (get_attr (lit "number:automatic-order") a).
Definition get_format_source (a : attrs) : res (option fmtsource) := parse_opt parse_fmtsource (get_attr (lit "number:format-source") a).
Definition get_truncate_on_overflow (a : attrs) : option bool := ok_bool (get_attr (lit "number:truncate-on-overflow") a).
Definition get_volatile (a : attrs) : option bool := ok_bool (get_attr (lit "style:volatile") a).
(** macro_attr_style.rs:1332-1334, 1361-1363, 1624-1626 and 1644-1646: [col_width], [use_optimal_col_width], [row_height] and [use_optimal_row_height]. *)
Definition get_col_width (a : attrs) : res length_ := parse_def parse_length (get_attr (lit "style:column-width") a) LDefault.
Definition get_use_optimal_col_width (a : attrs) : res bool := parse_def parse_bool (get_attr (lit "style:use-optimal-column-width") a) false.
Definition get_row_height (a : attrs) : res length_ := parse_def parse_length (get_attr (lit "style:row-height") a) LDefault.
Definition get_use_optimal_row_height (a : attrs) : res bool := parse_def parse_bool (get_attr (lit "style:use-optimal-row-height") a) false.

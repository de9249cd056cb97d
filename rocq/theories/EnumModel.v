(** Enumerated attribute values and lengths as text. *)
From Verif Require Import Base HeaderModel NumModel.

(** A chain of literal match arms. *)
Fixpoint arms {A} (l : list (str * A)) (s : str) : res A :=
  match l with
  | [] => Err
  | (n, v) :: r => if str_eqb s n then Ok v else arms r s
  end.

(** sheet_.rs 33-41 and parse.rs 65-76 *)
Definition show_visibility (v : visibility) : str :=
  match v with Visible => lit "visible" | Collapsed => lit "collapse" | Filtered => lit "filter" end.
Definition parse_visibility : str -> res visibility :=
  arms [(lit "visible", Visible); (lit "filter", Filtered); (lit "collapse", Collapsed)].

(** xlink.rs 15-22 and parse.rs 79-89 *)
Inductive xactuate := OnLoad | OnRequest.
Definition show_xactuate (v : xactuate) : str := match v with OnLoad => lit "OnLoad" | OnRequest => lit "OnRequest" end.
Definition parse_xactuate : str -> res xactuate := arms [(lit "onLoad", OnLoad); (lit "onRequest", OnRequest)].

(** xlink.rs 33-40 and parse.rs 92-102 *)
Inductive xshow := XNew | XReplace.
Definition show_xshow (v : xshow) : str := match v with XNew => lit "new" | XReplace => lit "replace" end.
Definition parse_xshow : str -> res xshow := arms [(lit "new", XNew); (lit "replace", XReplace)].

(** xlink.rs 62-74 and parse.rs 105-120 *)
Inductive xtype := XSimple | XExtended | XLocator | XArc | XResource | XTitle | XNone.
Definition show_xtype (v : xtype) : str :=
  match v with XSimple => lit "simple" | XExtended => lit "extended" | XLocator => lit "locator" | XArc => lit "arc"
  | XResource => lit "resource" | XTitle => lit "title" | XNone => lit "none" end.
Definition parse_xtype : str -> res xtype :=
  arms [(lit "simple", XSimple); (lit "extended", XExtended); (lit "locator", XLocator); (lit "arc", XArc);
        (lit "resource", XResource); (lit "title", XTitle); (lit "none", XNone)].

(** write.rs 1430-1434 and validation.rs 44-58 *)
Inductive vdisplay := NoDisplay | Unsorted | SortAscending.
Definition show_vdisplay (v : vdisplay) : str :=
  match v with NoDisplay => lit "no" | Unsorted => lit "unsorted" | SortAscending => lit "sort-ascending" end.
Definition parse_vdisplay : str -> res vdisplay :=
  arms [(lit "unsorted", Unsorted); (lit "sort-ascending", SortAscending); (lit "none", NoDisplay)].

(** validation.rs 132-140 and read.rs 2172-2185 *)
Inductive msgtype := MError | MWarning | MInfo.
Definition show_msgtype (v : msgtype) : str :=
  match v with MError => lit "stop" | MWarning => lit "warning" | MInfo => lit "information" end.
Definition parse_msgtype : str -> res msgtype :=
  arms [(lit "stop", MError); (lit "warning", MWarning); (lit "information", MInfo)].

(** sheet_.rs 1604-1621, written with [as i16] (write.rs 592) *)
Inductive splitmode := SplitNone | SplitSplit | SplitHeading.
Definition splitmode_i16 (v : splitmode) : Z := match v with SplitNone => 0 | SplitSplit => 1 | SplitHeading => 2 end.
Definition i16_splitmode (n : Z) : res splitmode :=
  if (n =? 0)%Z then Ok SplitNone else if (n =? 1)%Z then Ok SplitSplit else if (n =? 2)%Z then Ok SplitHeading else Err.

(** style/units.rs 174-198 *)
Inductive fmtsource := FsFixed | FsLanguage.
Definition show_fmtsource (v : fmtsource) : str := match v with FsFixed => lit "fixed" | FsLanguage => lit "language" end.
Definition parse_fmtsource : str -> res fmtsource := arms [(lit "fixed", FsFixed); (lit "language", FsLanguage)].

(** style/units.rs 217-243 *)
Inductive translit := TShort | TMedium | TLong.
Definition show_translit (v : translit) : str := match v with TShort => lit "short" | TMedium => lit "medium" | TLong => lit "long" end.
Definition parse_translit : str -> res translit := arms [(lit "short", TShort); (lit "medium", TMedium); (lit "long", TLong)].

(** style/units.rs 325-353 *)
Inductive pageusage := PAll | PLeft | PMirrored | PRight.
Definition show_pageusage (v : pageusage) : str :=
  match v with PAll => lit "all" | PLeft => lit "left" | PMirrored => lit "mirrored" | PRight => lit "right" end.
Definition parse_pageusage : str -> res pageusage :=
  arms [(lit "all", PAll); (lit "left", PLeft); (lit "mirrored", PMirrored); (lit "right", PRight)].

(** style/units.rs 34-108 [Length]; a float is the text [Display] prints ([NumModel.parse_f64]). *)
Inductive lunit := Cm | Mm | In_ | Pt | Pc | Em.
Inductive length_ := LDefault | Len (v : str) (u : lunit).
Definition show_unit (u : lunit) : str :=
  match u with Cm => lit "cm" | Mm => lit "mm" | In_ => lit "in" | Pt => lit "pt" | Pc => lit "pc" | Em => lit "em" end.
Definition show_length (l : length_) : str := match l with LDefault => [] | Len v u => v ++ show_unit u end.
Definition ends_with (s t : str) : bool := str_eqb (skipn (length s - length t) s) t && Nat.leb (length t) (length s).
Definition cut2 (s : str) : str := firstn (length s - 2) s.
Definition parse_length (s : str) : res length_ :=
  if ends_with s (lit "cm") then let* v := parse_f64 (cut2 s) in Ok (Len v Cm)
  else if ends_with s (lit "mm") then let* v := parse_f64 (cut2 s) in Ok (Len v Mm)
  else if ends_with s (lit "in") then let* v := parse_f64 (cut2 s) in Ok (Len v In_)
  else if ends_with s (lit "pt") then let* v := parse_f64 (cut2 s) in Ok (Len v Pt)
  else if ends_with s (lit "pc") then let* v := parse_f64 (cut2 s) in Ok (Len v Pc)
  else if ends_with s (lit "em") then let* v := parse_f64 (cut2 s) in Ok (Len v Em)
  else Err.

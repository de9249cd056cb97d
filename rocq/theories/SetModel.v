(** The attribute setters of the styles, fonts, tab stops, page layouts, value formats, annotations and frames, with the units they take. *)
From Verif Require Import Base NumModel RefsModel EnumModel BookModel StyleModel FmtModel.

(** ** Units *)

(** A float is the text [Display] prints ([NumModel.float_text]), or "NaN", "inf", "-inf". [0f64 <= v] on such a text. *)
Definition pos_float (v : str) : bool :=
  match v with
  | c :: r => if c =? 45 then forallb (fun d => (d =? 48) || (d =? 46)) r else negb (str_eqb v (lit "NaN"))
  | [] => true
  end.
(** style/units.rs:55-67 [Length::is_positive]. *)
Definition pos_length (l : length_) : bool := match l with LDefault => true | Len v _ => pos_float v end.

(** style/units.rs:16-23, 25-33 *)
Inductive Angle := Angle_Deg (v : str) | Angle_Grad (v : str) | Angle_Rad (v : str).
Definition show_Angle (e : Angle) : str := match e with Angle_Deg v => v ++ lit "deg" | Angle_Grad v => v ++ lit "grad" | Angle_Rad v => v ++ lit "rad" end.
(** style/units.rs:111-114, 116-122 *)
Inductive Percent := Percent_Percent (v : str).
Definition show_Percent (e : Percent) : str := match e with Percent_Percent v => v ++ lit "%" end.
(** style/units.rs:127-130, 144-151 *)
Inductive LengthPercent := LengthPercent_Length (x : length_) | LengthPercent_Percent (x : Percent).
Definition show_LengthPercent (e : LengthPercent) : str := match e with LengthPercent_Length x => show_length x | LengthPercent_Percent x => show_Percent x end.
(** style/units.rs:258-265, 267-278 *)
Inductive FontFamilyGeneric := FontFamilyGeneric_Decorative | FontFamilyGeneric_Modern | FontFamilyGeneric_Roman | FontFamilyGeneric_Script | FontFamilyGeneric_Swiss | FontFamilyGeneric_System.
Definition show_FontFamilyGeneric (e : FontFamilyGeneric) : str := match e with FontFamilyGeneric_Decorative => lit "decorative" | FontFamilyGeneric_Modern => lit "modern" | FontFamilyGeneric_Roman => lit "roman" | FontFamilyGeneric_Script => lit "script" | FontFamilyGeneric_Swiss => lit "swiss" | FontFamilyGeneric_System => lit "system" end.
(** style/units.rs:286-291, 293-300 *)
Inductive FontPitch := FontPitch_Variable | FontPitch_Fixed.
Definition show_FontPitch (e : FontPitch) : str := match e with FontPitch_Variable => lit "variable" | FontPitch_Fixed => lit "fixed" end.
(** style/units.rs:368-373, 375-384 *)
Inductive TabStopType := TabStopType_Center | TabStopType_Left | TabStopType_Right | TabStopType_Char.
Definition show_TabStopType (e : TabStopType) : str := match e with TabStopType_Center => lit "center" | TabStopType_Left => lit "left" | TabStopType_Right => lit "right" | TabStopType_Char => lit "char" end.
(** style/units.rs:403-413, 415-429 *)
Inductive FontStretch := FontStretch_Normal | FontStretch_UltraCondensed | FontStretch_ExtraCondensed | FontStretch_Condensed | FontStretch_SemiCondensed | FontStretch_SemiExpanded | FontStretch_Expanded | FontStretch_ExtraExpanded | FontStretch_UltraExpanded.
Definition show_FontStretch (e : FontStretch) : str := match e with FontStretch_Normal => lit "normal" | FontStretch_UltraCondensed => lit "ultra-condensed" | FontStretch_ExtraCondensed => lit "extra-condensed" | FontStretch_Condensed => lit "condensed" | FontStretch_SemiCondensed => lit "semi-condensed" | FontStretch_SemiExpanded => lit "semi-expanded" | FontStretch_Expanded => lit "expanded" | FontStretch_ExtraExpanded => lit "extra-expanded" | FontStretch_UltraExpanded => lit "ultra-expanded" end.
(** style/units.rs:435-446, 448-463 *)
Inductive Border := Border_None | Border_Hidden | Border_Dotted | Border_Dashed | Border_Solid | Border_Double | Border_Groove | Border_Ridge | Border_Inset | Border_Outset.
Definition show_Border (e : Border) : str := match e with Border_None => lit "none" | Border_Hidden => lit "hidden" | Border_Dotted => lit "dotted" | Border_Dashed => lit "dashed" | Border_Solid => lit "solid" | Border_Double => lit "double" | Border_Groove => lit "groove" | Border_Ridge => lit "ridge" | Border_Inset => lit "inset" | Border_Outset => lit "outset" end.
(** style/units.rs:476-480, 482-491 *)
Inductive PageBreak := PageBreak_Auto | PageBreak_Column | PageBreak_Page.
Definition show_PageBreak (e : PageBreak) : str := match e with PageBreak_Auto => lit "auto" | PageBreak_Column => lit "column" | PageBreak_Page => lit "page" end.
(** style/units.rs:509-512, 536-543 *)
Inductive FontSize := FontSize_Length (x : length_) | FontSize_Percent (x : Percent).
Definition show_FontSize (e : FontSize) : str := match e with FontSize_Length x => show_length x | FontSize_Percent x => show_Percent x end.
(** style/units.rs:556-560, 562-570 *)
Inductive FontStyle := FontStyle_Normal | FontStyle_Italic | FontStyle_Oblique.
Definition show_FontStyle (e : FontStyle) : str := match e with FontStyle_Normal => lit "normal" | FontStyle_Italic => lit "italic" | FontStyle_Oblique => lit "oblique" end.
(** style/units.rs:582-585, 587-594 *)
Inductive FontVariant := FontVariant_Normal | FontVariant_SmallCaps.
Definition show_FontVariant (e : FontVariant) : str := match e with FontVariant_Normal => lit "normal" | FontVariant_SmallCaps => lit "small-caps" end.
(** style/units.rs:608-620, 622-638 *)
Inductive FontWeight := FontWeight_Normal | FontWeight_Bold | FontWeight_W100 | FontWeight_W200 | FontWeight_W300 | FontWeight_W400 | FontWeight_W500 | FontWeight_W600 | FontWeight_W700 | FontWeight_W800 | FontWeight_W900.
Definition show_FontWeight (e : FontWeight) : str := match e with FontWeight_Normal => lit "normal" | FontWeight_Bold => lit "bold" | FontWeight_W100 => lit "100" | FontWeight_W200 => lit "200" | FontWeight_W300 => lit "300" | FontWeight_W400 => lit "400" | FontWeight_W500 => lit "500" | FontWeight_W600 => lit "600" | FontWeight_W700 => lit "700" | FontWeight_W800 => lit "800" | FontWeight_W900 => lit "900" end.
(** style/units.rs:647-650, 652-659 *)
Inductive Hyphenation := Hyphenation_Auto | Hyphenation_Page.
Definition show_Hyphenation (e : Hyphenation) : str := match e with Hyphenation_Auto => lit "auto" | Hyphenation_Page => lit "page" end.
(** style/units.rs:670-673, 675-682 *)
Inductive HyphenationLadderCount := HyphenationLadderCount_NoLimit | HyphenationLadderCount_Count (x : N).
Definition show_HyphenationLadderCount (e : HyphenationLadderCount) : str := match e with HyphenationLadderCount_NoLimit => lit "no_limit" | HyphenationLadderCount_Count x => show_N x end.
(** style/units.rs:691-694, 696-704 *)
Inductive TextKeep := TextKeep_Auto | TextKeep_Always.
Definition show_TextKeep (e : TextKeep) : str := match e with TextKeep_Auto => lit "auto" | TextKeep_Always => lit "always" end.
(** style/units.rs:719-722, 730-737 *)
Inductive LetterSpacing := LetterSpacing_Normal | LetterSpacing_Length (x : length_).
Definition show_LetterSpacing (e : LetterSpacing) : str := match e with LetterSpacing_Normal => lit "normal" | LetterSpacing_Length x => show_length x end.
(** style/units.rs:756-760, 785-793 *)
Inductive LineHeight := LineHeight_Normal | LineHeight_Length (x : length_) | LineHeight_Percent (x : Percent).
Definition show_LineHeight (e : LineHeight) : str := match e with LineHeight_Normal => lit "normal" | LineHeight_Length x => show_length x | LineHeight_Percent x => show_Percent x end.
(** style/units.rs:806-809, 833-840 *)
Inductive Margin := Margin_Length (x : length_) | Margin_Percent (x : Percent).
Definition show_Margin (e : Margin) : str := match e with Margin_Length x => show_length x | Margin_Percent x => show_Percent x end.
(** style/units.rs:856-865, 867-880 *)
Inductive TextAlign := TextAlign_Start | TextAlign_Center | TextAlign_End | TextAlign_Justify | TextAlign_Inside | TextAlign_Outside | TextAlign_Left | TextAlign_Right.
Definition show_TextAlign (e : TextAlign) : str := match e with TextAlign_Start => lit "start" | TextAlign_Center => lit "center" | TextAlign_End => lit "end" | TextAlign_Justify => lit "justify" | TextAlign_Inside => lit "inside" | TextAlign_Outside => lit "outside" | TextAlign_Left => lit "left" | TextAlign_Right => lit "right" end.
(** style/units.rs:892-896, 898-906 *)
Inductive TextAlignLast := TextAlignLast_Start | TextAlignLast_Center | TextAlignLast_Justify.
Definition show_TextAlignLast (e : TextAlignLast) : str := match e with TextAlignLast_Start => lit "start" | TextAlignLast_Center => lit "center" | TextAlignLast_Justify => lit "justify" end.
(** style/units.rs:920-923, 937-944 *)
Inductive Indent := Indent_Length (x : length_) | Indent_Percent (x : Percent).
Definition show_Indent (e : Indent) : str := match e with Indent_Length x => show_length x | Indent_Percent x => show_Percent x end.
(** style/units.rs:960-965, 967-976 *)
Inductive TextTransform := TextTransform_None | TextTransform_Lowercase | TextTransform_Uppercase | TextTransform_Capitalize.
Definition show_TextTransform (e : TextTransform) : str := match e with TextTransform_None => lit "none" | TextTransform_Lowercase => lit "lowercase" | TextTransform_Uppercase => lit "uppercase" | TextTransform_Capitalize => lit "capitalize" end.
(** style/units.rs:987-990, 992-999 *)
Inductive WrapOption := WrapOption_NoWrap | WrapOption_Wrap.
Definition show_WrapOption (e : WrapOption) : str := match e with WrapOption_NoWrap => lit "no-wrap" | WrapOption_Wrap => lit "wrap" end.
(** style/units.rs:1019-1035, 1037-1047 *)
Inductive CellProtect := CellProtect_FormulaHidden | CellProtect_HiddenAndProtected | CellProtect_None | CellProtect_Protected | CellProtect_ProtectedFormulaHidden.
Definition show_CellProtect (e : CellProtect) : str := match e with CellProtect_FormulaHidden => lit "formula-hidden" | CellProtect_HiddenAndProtected => lit "hidden-and-protected" | CellProtect_None => lit "none" | CellProtect_Protected => lit "protected" | CellProtect_ProtectedFormulaHidden => lit "protected formula-hidden" end.
(** style/units.rs:1062-1065, 1067-1074 *)
Inductive WritingDirection := WritingDirection_Ltr | WritingDirection_Ttb.
Definition show_WritingDirection (e : WritingDirection) : str := match e with WritingDirection_Ltr => lit "ltr" | WritingDirection_Ttb => lit "ttb" end.
(** style/units.rs:1087-1091, 1093-1101 *)
Inductive TextRelief := TextRelief_None | TextRelief_Embossed | TextRelief_Engraved.
Definition show_TextRelief (e : TextRelief) : str := match e with TextRelief_None => lit "none" | TextRelief_Embossed => lit "embossed" | TextRelief_Engraved => lit "engraved" end.
(** style/units.rs:1117-1121, 1123-1131 *)
Inductive GlyphOrientation := GlyphOrientation_Auto | GlyphOrientation_Zero | GlyphOrientation_Angle (x : Angle).
Definition show_GlyphOrientation (e : GlyphOrientation) : str := match e with GlyphOrientation_Auto => lit "auto" | GlyphOrientation_Zero => lit "0" | GlyphOrientation_Angle x => show_Angle x end.
(** style/units.rs:1140-1143, 1145-1153 *)
Inductive LineBreak := LineBreak_Normal | LineBreak_Strict.
Definition show_LineBreak (e : LineBreak) : str := match e with LineBreak_Normal => lit "normal" | LineBreak_Strict => lit "strict" end.
(** style/units.rs:1170-1178, 1180-1192 *)
Inductive StyleNumFormat := StyleNumFormat_None | StyleNumFormat_Number | StyleNumFormat_LowerAlpha | StyleNumFormat_Alpha | StyleNumFormat_LowerRoman | StyleNumFormat_Roman | StyleNumFormat_Text (v : str).
Definition show_StyleNumFormat (e : StyleNumFormat) : str := match e with StyleNumFormat_None => lit "" | StyleNumFormat_Number => lit "1" | StyleNumFormat_LowerAlpha => lit "a" | StyleNumFormat_Alpha => lit "A" | StyleNumFormat_LowerRoman => lit "i" | StyleNumFormat_Roman => lit "I" | StyleNumFormat_Text v => v end.
(** style/units.rs:1205-1208, 1210-1217 *)
Inductive PageNumber := PageNumber_Auto | PageNumber_Number (x : N).
Definition show_PageNumber (e : PageNumber) : str := match e with PageNumber_Auto => lit "auto" | PageNumber_Number x => show_N x end.
(** style/units.rs:1235-1244, 1246-1259 *)
Inductive PrintContent := PrintContent_Headers | PrintContent_Grid | PrintContent_Annotations | PrintContent_Objects | PrintContent_Charts | PrintContent_Drawings | PrintContent_Formulas | PrintContent_ZeroValues.
Definition show_PrintContent (e : PrintContent) : str := match e with PrintContent_Headers => lit "headers" | PrintContent_Grid => lit "grid" | PrintContent_Annotations => lit "annotations" | PrintContent_Objects => lit "objects" | PrintContent_Charts => lit "charts" | PrintContent_Drawings => lit "drawings" | PrintContent_Formulas => lit "formulas" | PrintContent_ZeroValues => lit "zero-values" end.
(** style/units.rs:1273-1276, 1278-1285 *)
Inductive PrintOrder := PrintOrder_Ltr | PrintOrder_Ttb.
Definition show_PrintOrder (e : PrintOrder) : str := match e with PrintOrder_Ltr => lit "ltr" | PrintOrder_Ttb => lit "ttb" end.
(** style/units.rs:1297-1300, 1302-1309 *)
Inductive PrintOrientation := PrintOrientation_Landscape | PrintOrientation_Portrait.
Definition show_PrintOrientation (e : PrintOrientation) : str := match e with PrintOrientation_Landscape => lit "landscape" | PrintOrientation_Portrait => lit "portrait" end.
(** style/units.rs:1323-1326, 1328-1335 *)
Inductive PunctuationWrap := PunctuationWrap_Hanging | PunctuationWrap_Simple.
Definition show_PunctuationWrap (e : PunctuationWrap) : str := match e with PunctuationWrap_Hanging => lit "hanging" | PunctuationWrap_Simple => lit "simple" end.
(** style/units.rs:1345-1349, 1351-1359 *)
Inductive RelativeScale := RelativeScale_Scale | RelativeScale_ScaleMin | RelativeScale_Percent (x : Percent).
Definition show_RelativeScale (e : RelativeScale) : str := match e with RelativeScale_Scale => lit "scale" | RelativeScale_ScaleMin => lit "scale-min" | RelativeScale_Percent x => show_Percent x end.
(** style/units.rs:1368-1373, 1375-1384 *)
Inductive RotationAlign := RotationAlign_None | RotationAlign_Bottom | RotationAlign_Top | RotationAlign_Center.
Definition show_RotationAlign (e : RotationAlign) : str := match e with RotationAlign_None => lit "none" | RotationAlign_Bottom => lit "bottom" | RotationAlign_Top => lit "top" | RotationAlign_Center => lit "center" end.
(** style/units.rs:1403-1408, 1410-1419 *)
Inductive PrintCentering := PrintCentering_None | PrintCentering_Horizontal | PrintCentering_Vertical | PrintCentering_Both.
Definition show_PrintCentering (e : PrintCentering) : str := match e with PrintCentering_None => lit "none" | PrintCentering_Horizontal => lit "horizontal" | PrintCentering_Vertical => lit "vertical" | PrintCentering_Both => lit "both" end.
(** style/units.rs:1434-1437, 1439-1446 *)
Inductive TextAlignSource := TextAlignSource_Fix | TextAlignSource_ValueType.
Definition show_TextAlignSource (e : TextAlignSource) : str := match e with TextAlignSource_Fix => lit "fix" | TextAlignSource_ValueType => lit "value-type" end.
(** style/units.rs:1459-1462, 1464-1471 *)
Inductive TextAutoSpace := TextAutoSpace_IdeographAlpha | TextAutoSpace_None.
Definition show_TextAutoSpace (e : TextAutoSpace) : str := match e with TextAutoSpace_IdeographAlpha => lit "ideograph-alpha" | TextAutoSpace_None => lit "none" end.
(** style/units.rs:1488-1492, 1494-1502 *)
Inductive TextCombine := TextCombine_None | TextCombine_Letters | TextCombine_Lines.
Definition show_TextCombine (e : TextCombine) : str := match e with TextCombine_None => lit "none" | TextCombine_Letters => lit "letters" | TextCombine_Lines => lit "lines" end.
(** style/units.rs:1522-1528, 1530-1540 *)
Inductive TextEmphasize := TextEmphasize_None | TextEmphasize_Accent | TextEmphasize_Circle | TextEmphasize_Disc | TextEmphasize_Dot.
Definition show_TextEmphasize (e : TextEmphasize) : str := match e with TextEmphasize_None => lit "none" | TextEmphasize_Accent => lit "accent" | TextEmphasize_Circle => lit "circle" | TextEmphasize_Disc => lit "disc" | TextEmphasize_Dot => lit "dot" end.
(** style/units.rs:1560-1563, 1565-1572 *)
Inductive TextEmphasizePosition := TextEmphasizePosition_Above | TextEmphasizePosition_Below.
Definition show_TextEmphasizePosition (e : TextEmphasizePosition) : str := match e with TextEmphasizePosition_Above => lit "above" | TextEmphasizePosition_Below => lit "below" end.
(** style/units.rs:1590-1593, 1595-1602 *)
Inductive LineMode := LineMode_Continuous | LineMode_SkipWhiteSpace.
Definition show_LineMode (e : LineMode) : str := match e with LineMode_Continuous => lit "continuous" | LineMode_SkipWhiteSpace => lit "skip-white-space" end.
(** style/units.rs:1631-1640, 1642-1655 *)
Inductive LineStyle := LineStyle_Dash | LineStyle_DotDash | LineStyle_DotDotDash | LineStyle_Dotted | LineStyle_LongDash | LineStyle_None | LineStyle_Solid | LineStyle_Wave.
Definition show_LineStyle (e : LineStyle) : str := match e with LineStyle_Dash => lit "dash" | LineStyle_DotDash => lit "dot-dash" | LineStyle_DotDotDash => lit "dot-dot-dash" | LineStyle_Dotted => lit "dotted" | LineStyle_LongDash => lit "long-dash" | LineStyle_None => lit "none" | LineStyle_Solid => lit "solid" | LineStyle_Wave => lit "wave" end.
(** style/units.rs:1677-1681, 1683-1691 *)
Inductive LineType := LineType_None | LineType_Single | LineType_Double.
Definition show_LineType (e : LineType) : str := match e with LineType_None => lit "none" | LineType_Single => lit "single" | LineType_Double => lit "double" end.
(** style/units.rs:1721-1732, 1746-1761 *)
Inductive LineWidth := LineWidth_Auto | LineWidth_Bold | LineWidth_Percent (x : Percent) | LineWidth_Int (x : N) | LineWidth_Length (x : length_) | LineWidth_Normal | LineWidth_Dash | LineWidth_Thin | LineWidth_Medium | LineWidth_Thick.
Definition show_LineWidth (e : LineWidth) : str := match e with LineWidth_Auto => lit "auto" | LineWidth_Bold => lit "bold" | LineWidth_Percent x => show_Percent x | LineWidth_Int x => show_N x | LineWidth_Length x => show_length x | LineWidth_Normal => lit "normal" | LineWidth_Dash => lit "dash" | LineWidth_Thin => lit "thin" | LineWidth_Medium => lit "medium" | LineWidth_Thick => lit "thick" end.
(** style/units.rs:1778-1782, 1790-1798 *)
Inductive TextPosition := TextPosition_Sub | TextPosition_Super | TextPosition_Percent (x : Percent).
Definition show_TextPosition (e : TextPosition) : str := match e with TextPosition_Sub => lit "sub" | TextPosition_Super => lit "super" | TextPosition_Percent x => show_Percent x end.
(** style/units.rs:1812-1815, 1817-1824 *)
Inductive RotationScale := RotationScale_Fixed | RotationScale_LineHeight.
Definition show_RotationScale (e : RotationScale) : str := match e with RotationScale_Fixed => lit "fixed" | RotationScale_LineHeight => lit "line-height" end.
(** style/units.rs:1844-1850, 1852-1862 *)
Inductive ParaAlignVertical := ParaAlignVertical_Top | ParaAlignVertical_Middle | ParaAlignVertical_Bottom | ParaAlignVertical_Auto | ParaAlignVertical_Baseline.
Definition show_ParaAlignVertical (e : ParaAlignVertical) : str := match e with ParaAlignVertical_Top => lit "top" | ParaAlignVertical_Middle => lit "middle" | ParaAlignVertical_Bottom => lit "bottom" | ParaAlignVertical_Auto => lit "auto" | ParaAlignVertical_Baseline => lit "baseline" end.
(** style/units.rs:1879-1884, 1886-1895 *)
Inductive CellAlignVertical := CellAlignVertical_Top | CellAlignVertical_Middle | CellAlignVertical_Bottom | CellAlignVertical_Automatic.
Definition show_CellAlignVertical (e : CellAlignVertical) : str := match e with CellAlignVertical_Top => lit "top" | CellAlignVertical_Middle => lit "middle" | CellAlignVertical_Bottom => lit "bottom" | CellAlignVertical_Automatic => lit "automatic" end.
(** style/units.rs:1907-1916, 1918-1931 *)
Inductive WritingMode := WritingMode_LrTb | WritingMode_RlTb | WritingMode_TbRl | WritingMode_TbLr | WritingMode_Lr | WritingMode_Rl | WritingMode_Tb | WritingMode_Page.
Definition show_WritingMode (e : WritingMode) : str := match e with WritingMode_LrTb => lit "lr-tb" | WritingMode_RlTb => lit "rl-tb" | WritingMode_TbRl => lit "tb-rl" | WritingMode_TbLr => lit "tb-lr" | WritingMode_Lr => lit "lr" | WritingMode_Rl => lit "rl" | WritingMode_Tb => lit "tb" | WritingMode_Page => lit "page" end.
(** style/units.rs:1946-1951, 1953-1962 *)
Inductive TableAlign := TableAlign_Center | TableAlign_Left | TableAlign_Right | TableAlign_Margins.
Definition show_TableAlign (e : TableAlign) : str := match e with TableAlign_Center => lit "center" | TableAlign_Left => lit "left" | TableAlign_Right => lit "right" | TableAlign_Margins => lit "margins" end.
(** style/units.rs:1980-1983, 1985-1992 *)
Inductive TableBorderModel := TableBorderModel_Collapsing | TableBorderModel_Separating.
Definition show_TableBorderModel (e : TableBorderModel) : str := match e with TableBorderModel_Collapsing => lit "collapsing" | TableBorderModel_Separating => lit "separating" end.
(** style/units.rs:2000-2002, 2004-2010 *)
Inductive TextCondition := TextCondition_None.
Definition show_TextCondition (e : TextCondition) : str := match e with TextCondition_None => lit "none" end.
(** style/units.rs:2023-2027, 2029-2037 *)
Inductive TextDisplay := TextDisplay_None | TextDisplay_Condition | TextDisplay_True.
Definition show_TextDisplay (e : TextDisplay) : str := match e with TextDisplay_None => lit "none" | TextDisplay_Condition => lit "condition" | TextDisplay_True => lit "true" end.

(** style/units.rs [is_positive] of [FontSize], [LineHeight] and [Margin]: any percentage counts as positive. *)
Definition pos_FontSize (s : FontSize) : bool := match s with FontSize_Length l => pos_length l | FontSize_Percent _ => true end.
Definition pos_LineHeight (s : LineHeight) : bool := match s with LineHeight_Length l => pos_length l | _ => true end.
Definition pos_Margin (s : Margin) : bool := match s with Margin_Length l => pos_length l | Margin_Percent _ => true end.

(** [Rgb<u8>]. *)
Record rgb := Rgb { c_r : N; c_g : N; c_b : N }.
(** [{:02x}] of a u8. *)
Definition hexdigit (n : N) : char := if n <? 10 then 48 + n else 87 + n.
Definition hex2 (n : N) : str := [hexdigit (n / 16); hexdigit (n mod 16)].
(** style/mod.rs:204-242 [color_string], [shadow_string], [rel_width_string], [border_string], [border_line_width_string] and [text_position]. *)
Definition color_string (c : rgb) : str := lit "#" ++ hex2 (c_r c) ++ hex2 (c_g c) ++ hex2 (c_b c).
Definition shadow_string (x y : length_) (blur : option length_) (c : rgb) : str :=
  match blur with
  | Some b => color_string c ++ lit " " ++ show_length x ++ lit " " ++ show_length y ++ lit " " ++ show_length b
  | None => color_string c ++ lit " " ++ show_length x ++ lit " " ++ show_length y
  end.
Definition rel_width_string (v : str) : str := v ++ lit "*".
Definition border_string (w : length_) (b : Border) (c : rgb) : str := show_length w ++ lit " " ++ show_Border b ++ lit " " ++ color_string c.
Definition border_line_width_string (i s o : length_) : str := show_length i ++ lit " " ++ show_length s ++ lit " " ++ show_length o.
Definition text_position (p : TextPosition) (s : option Percent) : str :=
  match s with Some s => show_TextPosition p ++ lit " " ++ show_Percent s | None => show_TextPosition p end.
(** The loops of [set_print], [set_draw_class_names] and [set_draw_transform]: each text followed by a blank. *)
Definition spaced (l : list str) : str := flat_map (fun s => s ++ [32]) l.

(** ** Setters *)

Definition put (k v : str) (a : attrs) : res attrs := Ok (put_attr k v a).
(** The body of [set_locale], [set_locale_asian] and [set_locale_complex]. *)
Definition put_locale (kl kc ks : str) (l : locale) (a : attrs) : attrs :=
  if negb (locale_eqb l unknown) then
    let a := put_attr kl (lo_lang l) a in
    let a := match lo_region l with Some r => put_attr kc r a | None => del_attr kc a end in
    match lo_script l with Some s => put_attr ks s a | None => del_attr ks a end
  else del_attr ks (del_attr kc (del_attr kl a)).
(** macro_attr_number.rs [set_transliteration_locale]: without the script. *)
Definition put_locale2 (kl kc : str) (l : locale) (a : attrs) : attrs :=
  if negb (locale_eqb l unknown) then
    let a := put_attr kl (lo_lang l) a in
    match lo_region l with Some r => put_attr kc r a | None => del_attr kc a end
  else del_attr kc (del_attr kl a).

(** One constructor for each function of the macros, named by the prefix of the macro and the function. A reference to a style is its name, a
    u8 or u32 a number; [svg_rx] and [svg_ry] are not used and left out. *)
Inductive setter :=
| style_set_default_outline_level (level : N) (* macro_attr_style.rs:18-21 *)
| style_set_master_page (masterpage : str) (* macro_attr_style.rs:35-38 *)
| style_set_next_style (name : str) (* macro_attr_style.rs:47-50 *)
| style_set_cell_protect (protect : CellProtect) (* macro_attr_style.rs:71-74 *)
| style_set_decimal_places (d : N) (* macro_attr_style.rs:85-87 *)
| style_set_diagonal_bl_tr (width : length_) (border : Border) (color : rgb) (* macro_attr_style.rs:96-99 *)
| style_set_diagonal_bl_tr_widths (inner : length_) (spacing : length_) (outer : length_) (* macro_attr_style.rs:104-109 *)
| style_set_diagonal_tl_br (width : length_) (border : Border) (color : rgb) (* macro_attr_style.rs:114-117 *)
| style_set_diagonal_tl_br_widths (inner : length_) (spacing : length_) (outer : length_) (* macro_attr_style.rs:122-127 *)
| style_set_direction (direction : WritingDirection) (* macro_attr_style.rs:141-143 *)
| style_set_glyph_orientation_vertical (glyph_orientation : GlyphOrientation) (* macro_attr_style.rs:156-161 *)
| style_set_print_content (p : bool) (* macro_attr_style.rs:172-174 *)
| style_set_repeat_content (p : bool) (* macro_attr_style.rs:190-193 *)
| style_set_rotation_align (align : RotationAlign) (* macro_attr_style.rs:203-206 *)
| style_set_rotation_scale (scale : RotationScale) (* macro_attr_style.rs:219-222 *)
| style_set_rotation_angle (angle : Angle) (* macro_attr_style.rs:230-233 *)
| style_set_shadow (x_offset : length_) (y_offset : length_) (blur : option length_) (color : rgb) (* macro_attr_style.rs:254-265 *)
| style_set_shrink_to_fit (shrink : bool) (* macro_attr_style.rs:280-283 *)
| style_set_text_align_source (align : TextAlignSource) (* macro_attr_style.rs:296-299 *)
| style_set_vertical_align (align : CellAlignVertical) (* macro_attr_style.rs:317-320 *)
| style_set_auto_text_indent (indent : bool) (* macro_attr_style.rs:335-338 *)
| style_set_background_transpareny (percent : Percent) (* macro_attr_style.rs:348-351 *)
| style_set_contextual_spacing (spacing : bool) (* macro_attr_style.rs:370-373 *)
| style_set_font_independent_line_spacing (spacing : bool) (* macro_attr_style.rs:389-392 *)
| style_set_join_border (j : bool) (* macro_attr_style.rs:429-431 *)
| style_set_justify_single_word (justify : bool) (* macro_attr_style.rs:449-452 *)
| style_set_line_break (linebreak : LineBreak) (* macro_attr_style.rs:466-469 *)
| style_set_line_height_at_least (height : length_) (* macro_attr_style.rs:481-485 *)
| style_set_line_spacing (spacing : length_) (* macro_attr_style.rs:496-499 *)
| style_set_page_number (page_number : PageNumber) (* macro_attr_style.rs:519-522 *)
| style_set_punctuation_wrap (wrap : PunctuationWrap) (* macro_attr_style.rs:539-542 *)
| style_set_register_true (register : bool) (* macro_attr_style.rs:558-561 *)
| style_set_snap_to_layout_grid (snap : bool) (* macro_attr_style.rs:578-581 *)
| style_set_tab_stop_distance (tab : length_) (* macro_attr_style.rs:593-597 *)
| style_set_text_autospace (space : TextAutoSpace) (* macro_attr_style.rs:613-616 *)
| style_set_vertical_align_para (align : ParaAlignVertical) (* macro_attr_style.rs:636-639 *)
| style_set_writing_mode (writing_mode : WritingMode) (* macro_attr_style.rs:649-652 *)
| style_set_writing_mode_automatic (auto : bool) (* macro_attr_style.rs:673-676 *)
| style_set_line_number (n : N) (* macro_attr_style.rs:688-690 *)
| style_set_number_lines (ls : bool) (* macro_attr_style.rs:703-705 *)
| style_set_font_name (name : str) (* macro_attr_style.rs:718-720 *)
| style_set_locale_asian (locale : locale) (* macro_attr_style.rs:730-750 *)
| style_set_font_name_asian (name : str) (* macro_attr_style.rs:761-763 *)
| style_set_font_size_asian (size : FontSize) (* macro_attr_style.rs:780-784 *)
| style_set_font_size_rel_asian (size : FontSize) (* macro_attr_style.rs:794-797 *)
| style_set_font_style_asian (s : FontStyle) (* macro_attr_style.rs:805-808 *)
| style_set_font_italic_asian (* macro_attr_style.rs:811-814 *)
| style_set_font_weight_asian (weight : FontWeight) (* macro_attr_style.rs:822-825 *)
| style_set_font_bold_asian (* macro_attr_style.rs:828-831 *)
| style_set_font_attr_asian (size : FontSize) (bold : bool) (italic : bool) (* macro_attr_style.rs:838-846 *)
| style_set_locale_complex (locale : locale) (* macro_attr_style.rs:856-877 *)
| style_set_font_name_complex (name : str) (* macro_attr_style.rs:888-890 *)
| style_set_font_size_complex (size : FontSize) (* macro_attr_style.rs:907-911 *)
| style_set_font_size_rel_complex (size : FontSize) (* macro_attr_style.rs:920-923 *)
| style_set_font_style_complex (s : FontStyle) (* macro_attr_style.rs:930-933 *)
| style_set_font_italic_complex (* macro_attr_style.rs:937-940 *)
| style_set_font_weight_complex (weight : FontWeight) (* macro_attr_style.rs:948-951 *)
| style_set_font_bold_complex (* macro_attr_style.rs:954-957 *)
| style_set_font_attr_complex (size : FontSize) (bold : bool) (italic : bool) (* macro_attr_style.rs:964-972 *)
| style_set_font_relief (relief : TextRelief) (* macro_attr_style.rs:985-987 *)
| style_set_text_position (pos : TextPosition) (scale : option Percent) (* macro_attr_style.rs:1003-1006 *)
| style_set_letter_kerning (kerning : bool) (* macro_attr_style.rs:1014-1017 *)
| style_set_text_combine (pos : TextCombine) (* macro_attr_style.rs:1034-1036 *)
| style_set_text_combine_start_char (c : char) (* macro_attr_style.rs:1044-1047 *)
| style_set_text_combine_end_char (c : char) (* macro_attr_style.rs:1055-1058 *)
| style_set_text_emphasize (emphasize : TextEmphasize) (position : TextEmphasizePosition) (* macro_attr_style.rs:1077-1086 *)
| style_set_text_line_through_color (color : rgb) (* macro_attr_style.rs:1097-1100 *)
| style_set_text_line_through_mode (lmode : LineMode) (* macro_attr_style.rs:1108-1111 *)
| style_set_text_line_through_style (lstyle : LineStyle) (* macro_attr_style.rs:1130-1133 *)
| style_set_text_line_through_text (text : str) (* macro_attr_style.rs:1147-1150 *)
| style_set_text_line_through_text_style (style_ref : str) (* macro_attr_style.rs:1157-1162 *)
| style_set_text_line_through_type (ltype : LineType) (* macro_attr_style.rs:1176-1179 *)
| style_set_text_line_through_width (lwidth : LineWidth) (* macro_attr_style.rs:1197-1200 *)
| style_set_font_text_outline (outline : bool) (* macro_attr_style.rs:1208-1211 *)
| style_set_text_overline_color (color : rgb) (* macro_attr_style.rs:1223-1226 *)
| style_set_text_overline_mode (lmode : LineMode) (* macro_attr_style.rs:1230-1233 *)
| style_set_text_overline_style (lstyle : LineStyle) (* macro_attr_style.rs:1236-1239 *)
| style_set_text_overline_type (ltype : LineType) (* macro_attr_style.rs:1242-1245 *)
| style_set_text_overline_width (lwidth : LineWidth) (* macro_attr_style.rs:1250-1253 *)
| style_set_text_underline_color (color : rgb) (* macro_attr_style.rs:1263-1266 *)
| style_set_text_underline_mode (lmode : LineMode) (* macro_attr_style.rs:1271-1274 *)
| style_set_text_underline_style (lstyle : LineStyle) (* macro_attr_style.rs:1277-1280 *)
| style_set_text_underline_type (ltype : LineType) (* macro_attr_style.rs:1283-1286 *)
| style_set_text_underline_width (lwidth : LineWidth) (* macro_attr_style.rs:1291-1294 *)
| style_set_use_window_font_color (window_color : bool) (* macro_attr_style.rs:1303-1306 *)
| style_set_dynamic_spacing (dynamic : bool) (* macro_attr_style.rs:1313-1316 *)
| style_set_col_width (width : length_) (* macro_attr_style.rs:1323-1329 *)
| style_set_rel_col_width (rel : str) (* macro_attr_style.rs:1344-1347 *)
| style_set_use_optimal_col_width (opt : bool) (* macro_attr_style.rs:1355-1358 *)
| style_set_font_family_generic (font : FontFamilyGeneric) (* macro_attr_style.rs:1378-1381 *)
| style_set_font_pitch (pitch : FontPitch) (* macro_attr_style.rs:1392-1394 *)
| style_set_first_page_number (n : N) (* macro_attr_style.rs:1403-1406 *)
| style_set_footnote_max_height (height : length_) (* macro_attr_style.rs:1417-1420 *)
| style_set_num_format (fm : StyleNumFormat) (* macro_attr_style.rs:1437-1440 *)
| style_set_num_letter_sync (sync : bool) (* macro_attr_style.rs:1455-1458 *)
| style_set_num_prefix (prefix : str) (* macro_attr_style.rs:1469-1471 *)
| style_set_num_suffix (suffix : str) (* macro_attr_style.rs:1482-1484 *)
| style_set_paper_tray_name (tray : str) (* macro_attr_style.rs:1496-1499 *)
| style_set_print (p : list PrintContent) (* macro_attr_style.rs:1518-1525 *)
| style_set_print_orientation (orientation : PrintOrientation) (* macro_attr_style.rs:1537-1540 *)
| style_set_print_page_order (o : PrintOrder) (* macro_attr_style.rs:1554-1557 *)
| style_set_scale_to (percent : Percent) (* macro_attr_style.rs:1566-1568 *)
| style_set_scale_to_pages (pages : N) (* macro_attr_style.rs:1577-1580 *)
| style_set_table_centering (center : PrintCentering) (* macro_attr_style.rs:1598-1601 *)
| style_set_min_row_height (min_height : length_) (* macro_attr_style.rs:1608-1612 *)
| style_set_row_height (height : length_) (* macro_attr_style.rs:1619-1621 *)
| style_set_use_optimal_row_height (opt : bool) (* macro_attr_style.rs:1638-1641 *)
| style_set_may_break_between_rows (br : bool) (* macro_attr_style.rs:1658-1661 *)
| style_set_rel_width (rel_width : RelativeScale) (* macro_attr_style.rs:1682-1684 *)
| style_set_rel_height (rel_height : RelativeScale) (* macro_attr_style.rs:1709-1712 *)
| style_set_width (width : length_) (* macro_attr_style.rs:1720-1722 *)
| style_set_char (c : char) (* macro_attr_style.rs:1729-1731 *)
| style_set_leader_color (color : rgb) (* macro_attr_style.rs:1740-1743 *)
| style_set_leader_style (s : LineStyle) (* macro_attr_style.rs:1765-1767 *)
| style_set_leader_text (text : char) (* macro_attr_style.rs:1782-1784 *)
| style_set_leader_text_style (styleref : str) (* macro_attr_style.rs:1794-1797 *)
| style_set_leader_type (t : LineType) (* macro_attr_style.rs:1810-1812 *)
| style_set_leader_width (w : LineWidth) (* macro_attr_style.rs:1830-1832 *)
| style_set_position (pos : length_) (* macro_attr_style.rs:1847-1849 *)
| style_set_type (t : TabStopType) (* macro_attr_style.rs:1864-1866 *)
| style_set_volatile (volatile : bool) (* macro_attr_style.rs:1879-1881 *)
| style_set_display_name (name : str) (* macro_attr_style.rs:1898-1900 *)
| style_set_auto_update (auto : bool) (* macro_attr_style.rs:1919-1921 *)
| style_set_class (cls : str) (* macro_attr_style.rs:1932-1934 *)
| style_set_parent_style (name : str) (* macro_attr_style.rs:1945-1948 *)
| fo_set_background_color (color : rgb) (* macro_attr_fo.rs:11-14 *)
| fo_set_border (width : length_) (border : Border) (color : rgb) (* macro_attr_fo.rs:21-24 *)
| fo_set_border_bottom (width : length_) (border : Border) (color : rgb) (* macro_attr_fo.rs:27-30 *)
| fo_set_border_left (width : length_) (border : Border) (color : rgb) (* macro_attr_fo.rs:33-36 *)
| fo_set_border_right (width : length_) (border : Border) (color : rgb) (* macro_attr_fo.rs:39-42 *)
| fo_set_border_top (width : length_) (border : Border) (color : rgb) (* macro_attr_fo.rs:45-48 *)
| fo_set_padding (padding : length_) (* macro_attr_fo.rs:62-65 *)
| fo_set_padding_bottom (padding : length_) (* macro_attr_fo.rs:75-78 *)
| fo_set_padding_left (padding : length_) (* macro_attr_fo.rs:88-91 *)
| fo_set_padding_right (padding : length_) (* macro_attr_fo.rs:101-104 *)
| fo_set_padding_top (padding : length_) (* macro_attr_fo.rs:114-117 *)
| fo_set_wrap_option (wrap : WrapOption) (* macro_attr_fo.rs:127-129 *)
| fo_set_border_line_width (inner : length_) (spacing : length_) (outer : length_) (* macro_attr_fo.rs:149-154 *)
| fo_set_border_line_width_bottom (inner : length_) (spacing : length_) (outer : length_) (* macro_attr_fo.rs:170-180 *)
| fo_set_border_line_width_left (inner : length_) (spacing : length_) (outer : length_) (* macro_attr_fo.rs:196-206 *)
| fo_set_border_line_width_right (inner : length_) (spacing : length_) (outer : length_) (* macro_attr_fo.rs:222-232 *)
| fo_set_border_line_width_top (inner : length_) (spacing : length_) (outer : length_) (* macro_attr_fo.rs:248-253 *)
| fo_set_break_before (pagebreak : PageBreak) (* macro_attr_fo.rs:263-265 *)
| fo_set_break_after (pagebreak : PageBreak) (* macro_attr_fo.rs:271-273 *)
| fo_set_hyphenation_keep (hyphenation : Hyphenation) (* macro_attr_fo.rs:280-283 *)
| fo_set_hyphenation_ladder_count (hyphenation : HyphenationLadderCount) (* macro_attr_fo.rs:290-293 *)
| fo_set_keep_together (keep_together : TextKeep) (* macro_attr_fo.rs:306-309 *)
| fo_set_keep_with_next (keep_with_next : TextKeep) (* macro_attr_fo.rs:318-321 *)
| fo_set_line_height (line_height : LineHeight) (* macro_attr_fo.rs:342-346 *)
| fo_set_margin (margin : Margin) (* macro_attr_fo.rs:362-365 *)
| fo_set_margin_bottom (margin : Margin) (* macro_attr_fo.rs:379-382 *)
| fo_set_margin_left (margin : Margin) (* macro_attr_fo.rs:397-400 *)
| fo_set_margin_right (margin : Margin) (* macro_attr_fo.rs:415-418 *)
| fo_set_margin_top (margin : Margin) (* macro_attr_fo.rs:432-435 *)
| fo_set_orphans (orphans : N) (* macro_attr_fo.rs:445-447 *)
| fo_set_text_align (align : TextAlign) (* macro_attr_fo.rs:464-466 *)
| fo_set_text_align_last (align : TextAlignLast) (* macro_attr_fo.rs:478-480 *)
| fo_set_text_indent (indent : Indent) (* macro_attr_fo.rs:496-498 *)
| fo_set_widows (num : N) (* macro_attr_fo.rs:514-516 *)
| fo_set_color (color : rgb) (* macro_attr_fo.rs:525-527 *)
| fo_set_locale (locale : locale) (* macro_attr_fo.rs:537-556 *)
| fo_set_font_size (size : FontSize) (* macro_attr_fo.rs:572-575 *)
| fo_set_font_size_rel (size : FontSize) (* macro_attr_fo.rs:584-586 *)
| fo_set_font_style (s : FontStyle) (* macro_attr_fo.rs:594-596 *)
| fo_set_font_italic (* macro_attr_fo.rs:599-601 *)
| fo_set_font_weight (weight : FontWeight) (* macro_attr_fo.rs:609-611 *)
| fo_set_font_bold (* macro_attr_fo.rs:614-617 *)
| fo_set_font_variant (var : FontVariant) (* macro_attr_fo.rs:624-626 *)
| fo_set_font_attr (size : FontSize) (bold : bool) (italic : bool) (* macro_attr_fo.rs:633-641 *)
| fo_set_hyphenate (hyphenate : bool) (* macro_attr_fo.rs:648-650 *)
| fo_set_hyphenation_push_char_count (count : N) (* macro_attr_fo.rs:657-660 *)
| fo_set_hyphenation_remain_char_count (count : N) (* macro_attr_fo.rs:667-670 *)
| fo_set_letter_spacing (spacing : LetterSpacing) (* macro_attr_fo.rs:678-680 *)
| fo_set_text_shadow (x_offset : length_) (y_offset : length_) (blur : option length_) (color : rgb) (* macro_attr_fo.rs:687-698 *)
| fo_set_text_transform (trans : TextTransform) (* macro_attr_fo.rs:709-711 *)
| fo_set_min_height (height : LengthPercent) (* macro_attr_fo.rs:718-720 *)
| fo_set_page_height (height : length_) (* macro_attr_fo.rs:727-730 *)
| fo_set_page_width (width : length_) (* macro_attr_fo.rs:737-740 *)
| svg_set_font_family (name : str) (* macro_attr_svg.rs:4-6 *)
| svg_set_font_stretch (stretch : FontStretch) (* macro_attr_svg.rs:13-15 *)
| svg_set_font_style (s : FontStyle) (* macro_attr_svg.rs:22-24 *)
| svg_set_font_variant (variant : FontVariant) (* macro_attr_svg.rs:31-33 *)
| svg_set_font_weight (weight : FontWeight) (* macro_attr_svg.rs:40-42 *)
| svg_set_height (height : length_) (* macro_attr_svg.rs:49-51 *)
| svg_set_width (width : length_) (* macro_attr_svg.rs:58-60 *)
| svg_set_x (x : length_) (* macro_attr_svg.rs:101-103 *)
| svg_set_y (y : length_) (* macro_attr_svg.rs:111-113 *)
| table_set_align (align : TableAlign) (* macro_attr_table.rs:12-14 *)
| table_set_border_model (border : TableBorderModel) (* macro_attr_table.rs:32-34 *)
| table_set_display (display : bool) (* macro_attr_table.rs:45-47 *)
| table_set_tab_color (color : rgb) (* macro_attr_table.rs:55-57 *)
| table_set_table_end_cell_address (cellref : cellref) (* macro_attr_table.rs:65-68 *)
| table_set_table_end_x (x : length_) (* macro_attr_table.rs:76-78 *)
| table_set_table_end_y (y : length_) (* macro_attr_table.rs:86-88 *)
| table_set_table_table_background (is_bg : bool) (* macro_attr_table.rs:100-103 *)
| text_set_text_condition (cond : TextCondition) (* macro_attr_text.rs:5-7 *)
| text_set_display (cond : TextDisplay) (* macro_attr_text.rs:19-21 *)
| draw_set_draw_caption_id (id : str) (* macro_attr_draw.rs:9-11 *)
| draw_set_draw_name (id : str) (* macro_attr_draw.rs:19-21 *)
| draw_set_draw_class_names (ns : list str) (* macro_attr_draw.rs:32-39 *)
| draw_set_draw_corner_radius (radius : N) (* macro_attr_draw.rs:54-56 *)
| draw_set_draw_id (id : str) (* macro_attr_draw.rs:71-73 *)
| draw_set_draw_layer (layer : str) (* macro_attr_draw.rs:82-84 *)
| draw_set_draw_style_name (s : str) (* macro_attr_draw.rs:92-95 *)
| draw_set_draw_text_style_name (s : str) (* macro_attr_draw.rs:104-107 *)
| draw_set_draw_transform (ts : list str) (* macro_attr_draw.rs:135-142 *)
| draw_set_draw_z_index (z_index : N) (* macro_attr_draw.rs:159-161 *)
| draw_set_draw_caption_point_x (x : length_) (* macro_attr_draw.rs:169-171 *)
| draw_set_draw_caption_point_y (y : length_) (* macro_attr_draw.rs:179-181 *)
| draw_set_draw_copy_of (name : str) (* macro_attr_draw.rs:193-195 *)
| draw_set_draw_filter_name (name : str) (* macro_attr_draw.rs:203-205 *)
| draw_set_draw_mime_type (name : str) (* macro_attr_draw.rs:216-218 *)
| xlink_set_xlink_actuate (actuate : xactuate) (* macro_attr_xlink.rs:4-6 *)
| xlink_set_xlink_href (href : str) (* macro_attr_xlink.rs:14-16 *)
| xlink_set_xlink_show (show : xshow) (* macro_attr_xlink.rs:23-25 *)
| xlink_set_xlink_type (ty : xtype) (* macro_attr_xlink.rs:33-35 *)
| number_set_title (ti : str) (* macro_attr_number.rs:5-7 *)
| number_set_locale (locale : locale) (* macro_attr_number.rs:33-52 *)
| number_set_transliteration_locale (locale : locale) (* macro_attr_number.rs:93-109 *)
| number_set_transliteration_format (fm : char) (* macro_attr_number.rs:149-152 *)
| number_set_transliteration_style (s : translit) (* macro_attr_number.rs:174-177 *)
| number_set_automatic_order (volatile : bool) (* macro_attr_number.rs:198-201 *)
| number_set_format_source (source : fmtsource) (* macro_attr_number.rs:231-234 *)
| number_set_truncate_on_overflow (truncate : bool) (* macro_attr_number.rs:263-266 *)
| xml_set_xml_id (id : str) (* macro_style.rs:124-126 *).

(** What the setters do. The macros [style_text_align_source], [style_vertical_align], [style_leader_color], the page macros and those of
    macro_attr_number.rs name the map themselves; it is the one they are given wherever they are used. *)
Definition run (s : setter) (a : attrs) : res attrs :=
  match s with
  | style_set_default_outline_level level => put (lit "style:default-outline-level") (show_N level) a
  | style_set_master_page masterpage => put (lit "style:master-page-name") (masterpage) a
  | style_set_next_style name => put (lit "style:next-style-name") (name) a
  | style_set_cell_protect protect => put (lit "style:cell-protect") (show_CellProtect protect) a
  | style_set_decimal_places d => put (lit "style:decimal-places") (show_N d) a
  | style_set_diagonal_bl_tr width border color => put (lit "style:diagonal-bl-tr") (border_string width border color) a
  | style_set_diagonal_bl_tr_widths inner spacing outer => put (lit "style:diagonal-bl-tr-widths") (border_line_width_string inner spacing outer) a
  | style_set_diagonal_tl_br width border color => put (lit "style:diagonal-tl-br") (border_string width border color) a
  | style_set_diagonal_tl_br_widths inner spacing outer => put (lit "style:diagonal-tl-br-widths") (border_line_width_string inner spacing outer) a
  | style_set_direction direction => put (lit "style:direction") (show_WritingDirection direction) a
  | style_set_glyph_orientation_vertical glyph_orientation => put (lit "style:glyph-orientation-vertical") (show_GlyphOrientation glyph_orientation) a
  | style_set_print_content p => put (lit "style:print-content") (show_bool p) a
  | style_set_repeat_content p => put (lit "style:repeat-content") (show_bool p) a
  | style_set_rotation_align align => put (lit "style:rotation-align") (show_RotationAlign align) a
  | style_set_rotation_scale scale => put (lit "style:text-rotation-scale") (show_RotationScale scale) a
  | style_set_rotation_angle angle => put (lit "style:rotation-angle") (show_Angle angle) a
  | style_set_shadow x_offset y_offset blur color => put (lit "style:shadow") (shadow_string x_offset y_offset blur color) a
  | style_set_shrink_to_fit shrink => put (lit "style:shrink-to-fit") (show_bool shrink) a
  | style_set_text_align_source align => put (lit "style:text-align-source") (show_TextAlignSource align) a
  | style_set_vertical_align align => put (lit "style:vertical-align") (show_CellAlignVertical align) a
  | style_set_auto_text_indent indent => put (lit "style:auto-text-indent") (show_bool indent) a
  | style_set_background_transpareny percent => put (lit "style:background-transparency") (show_Percent percent) a
  | style_set_contextual_spacing spacing => put (lit "style:contextual-spacing") (show_bool spacing) a
  | style_set_font_independent_line_spacing spacing => put (lit "style:font-independent-line-spacing") (show_bool spacing) a
  | style_set_join_border j => put (lit "style:join-border") (show_bool j) a
  | style_set_justify_single_word justify => put (lit "style:justify-single-word") (show_bool justify) a
  | style_set_line_break linebreak => put (lit "style:line-break") (show_LineBreak linebreak) a
  | style_set_line_height_at_least height => if pos_length height then put (lit "style:line-height-at-least") (show_length height) a else Panic
  | style_set_line_spacing spacing => put (lit "style:line-spacing") (show_length spacing) a
  | style_set_page_number page_number => put (lit "style:page-number") (show_PageNumber page_number) a
  | style_set_punctuation_wrap wrap => put (lit "style:punctuation-wrap") (show_PunctuationWrap wrap) a
  | style_set_register_true register => put (lit "style:register-true") (show_bool register) a
  | style_set_snap_to_layout_grid snap => put (lit "style:snap-to-layout-grid") (show_bool snap) a
  | style_set_tab_stop_distance tab => if pos_length tab then put (lit "style:tab-stop-distance") (show_length tab) a else Panic
  | style_set_text_autospace space => put (lit "style:text-autospace") (show_TextAutoSpace space) a
  | style_set_vertical_align_para align => put (lit "style:vertical-align") (show_ParaAlignVertical align) a
  | style_set_writing_mode writing_mode => put (lit "style:writing-mode") (show_WritingMode writing_mode) a
  | style_set_writing_mode_automatic auto => put (lit "style:writing-mode-automatic") (show_bool auto) a
  | style_set_line_number n => put (lit "text:line-number") (show_N n) a
  | style_set_number_lines ls => put (lit "text:number-lines") (show_bool ls) a
  | style_set_font_name name => put (lit "style:font-name") (name) a
  | style_set_locale_asian locale => Ok (put_locale (lit "style:language-asian") (lit "style:country-asian") (lit "style:script-asian") locale a)
  | style_set_font_name_asian name => put (lit "style:font-name-asian") (name) a
  | style_set_font_size_asian size => if pos_FontSize size then put (lit "style:font-size-asian") (show_FontSize size) a else Panic
  | style_set_font_size_rel_asian size => put (lit "style:font-size-rel-asian") (show_FontSize size) a
  | style_set_font_style_asian s => put (lit "style:font-style-asian") (show_FontStyle s) a
  | style_set_font_italic_asian => put (lit "style:font-style-asian") (lit "italic") a
  | style_set_font_weight_asian weight => put (lit "style:font-weight-asian") (show_FontWeight weight) a
  | style_set_font_bold_asian => put (lit "style:font-weight-asian") (show_FontWeight FontWeight_Bold) a
  | style_set_font_attr_asian size bold italic => let* a := if pos_FontSize size then put (lit "style:font-size-asian") (show_FontSize size) a else Panic in let* a := if bold then put (lit "style:font-weight-asian") (show_FontWeight FontWeight_Bold) a else Ok a in if italic then put (lit "style:font-style-asian") (lit "italic") a else Ok a
  | style_set_locale_complex locale => Ok (put_locale (lit "style:language-complex") (lit "style:country-complex") (lit "style:script-complex") locale a)
  | style_set_font_name_complex name => put (lit "style:font-name-complex") (name) a
  | style_set_font_size_complex size => if pos_FontSize size then put (lit "style:font-size-complex") (show_FontSize size) a else Panic
  | style_set_font_size_rel_complex size => put (lit "style:font-size-rel-complex") (show_FontSize size) a
  | style_set_font_style_complex s => put (lit "style:font-style-complex") (show_FontStyle s) a
  | style_set_font_italic_complex => put (lit "style:font-style-complex") (lit "italic") a
  | style_set_font_weight_complex weight => put (lit "style:font-weight-complex") (show_FontWeight weight) a
  | style_set_font_bold_complex => put (lit "style:font-weight-complex") (show_FontWeight FontWeight_Bold) a
  | style_set_font_attr_complex size bold italic => let* a := if pos_FontSize size then put (lit "style:font-size-complex") (show_FontSize size) a else Panic in let* a := if bold then put (lit "style:font-weight-complex") (show_FontWeight FontWeight_Bold) a else Ok a in if italic then put (lit "style:font-style-complex") (lit "italic") a else Ok a
  | style_set_font_relief relief => put (lit "style:font-relief") (show_TextRelief relief) a
  | style_set_text_position pos scale => put (lit "style:text-position") (text_position pos scale) a
  | style_set_letter_kerning kerning => put (lit "style:letter-kerning") (show_bool kerning) a
  | style_set_text_combine pos => put (lit "style:text-combine") (show_TextCombine pos) a
  | style_set_text_combine_start_char c => put (lit "style:text-combine-start-char") ([c]) a
  | style_set_text_combine_end_char c => put (lit "style:text-combine-end-char") ([c]) a
  | style_set_text_emphasize emphasize position => put (lit "style:text-emphasize") (show_TextEmphasize emphasize ++ lit " " ++ show_TextEmphasizePosition position) a
  | style_set_text_line_through_color color => put (lit "style:text-line-through-color") (color_string color) a
  | style_set_text_line_through_mode lmode => put (lit "style:text-line-through-mode") (show_LineMode lmode) a
  | style_set_text_line_through_style lstyle => put (lit "style:text-line-through-style") (show_LineStyle lstyle) a
  | style_set_text_line_through_text text => put (lit "style:text-line-through-text") (text) a
  | style_set_text_line_through_text_style style_ref => put (lit "style:text-line-through-text-style") (style_ref) a
  | style_set_text_line_through_type ltype => put (lit "style:text-line-through-type") (show_LineType ltype) a
  | style_set_text_line_through_width lwidth => put (lit "style:text-line-through-width") (show_LineWidth lwidth) a
  | style_set_font_text_outline outline => put (lit "style:text-outline") (show_bool outline) a
  | style_set_text_overline_color color => put (lit "style:text-overline-color") (color_string color) a
  | style_set_text_overline_mode lmode => put (lit "style:text-overline-mode") (show_LineMode lmode) a
  | style_set_text_overline_style lstyle => put (lit "style:text-overline-style") (show_LineStyle lstyle) a
  | style_set_text_overline_type ltype => put (lit "style:text-overline-type") (show_LineType ltype) a
  | style_set_text_overline_width lwidth => put (lit "style:text-overline-width") (show_LineWidth lwidth) a
  | style_set_text_underline_color color => put (lit "style:text-underline-color") (color_string color) a
  | style_set_text_underline_mode lmode => put (lit "style:text-underline-mode") (show_LineMode lmode) a
  | style_set_text_underline_style lstyle => put (lit "style:text-underline-style") (show_LineStyle lstyle) a
  | style_set_text_underline_type ltype => put (lit "style:text-underline-type") (show_LineType ltype) a
  | style_set_text_underline_width lwidth => put (lit "style:text-underline-width") (show_LineWidth lwidth) a
  | style_set_use_window_font_color window_color => put (lit "style:use-window-font-color") (show_bool window_color) a
  | style_set_dynamic_spacing dynamic => put (lit "style:dynamic-spacing") (show_bool dynamic) a
  | style_set_col_width width => match width with LDefault => Ok (del_attr (lit "style:column-width") a) | _ => put (lit "style:column-width") (show_length width) a end
  | style_set_rel_col_width rel => put (lit "style:rel-column-width") (rel_width_string rel) a
  | style_set_use_optimal_col_width opt => put (lit "style:use-optimal-column-width") (show_bool opt) a
  | style_set_font_family_generic font => put (lit "style:font-family-generic") (show_FontFamilyGeneric font) a
  | style_set_font_pitch pitch => put (lit "style:font-pitch") (show_FontPitch pitch) a
  | style_set_first_page_number n => put (lit "style:first-page-number") (show_N n) a
  | style_set_footnote_max_height height => put (lit "style:footnote-max-height") (show_length height) a
  | style_set_num_format fm => put (lit "style:num-format") (show_StyleNumFormat fm) a
  | style_set_num_letter_sync sync => put (lit "style:num-letter-sync") (show_bool sync) a
  | style_set_num_prefix prefix => put (lit "style:num-prefix") (prefix) a
  | style_set_num_suffix suffix => put (lit "style:num-suffix") (suffix) a
  | style_set_paper_tray_name tray => put (lit "style:paper-tray-name") (tray) a
  | style_set_print p => put (lit "style:print") (spaced (map show_PrintContent p)) a
  | style_set_print_orientation orientation => put (lit "style:print-orientation") (show_PrintOrientation orientation) a
  | style_set_print_page_order o => put (lit "style:print-page-order") (show_PrintOrder o) a
  | style_set_scale_to percent => put (lit "style:scale-to") (show_Percent percent) a
  | style_set_scale_to_pages pages => put (lit "style:scale-to-pages") (show_N pages) a
  | style_set_table_centering center => put (lit "style:table-centering") (show_PrintCentering center) a
  | style_set_min_row_height min_height => if pos_length min_height then put (lit "style:min-row-height") (show_length min_height) a else Panic
  | style_set_row_height height => put (lit "style:row-height") (show_length height) a
  | style_set_use_optimal_row_height opt => put (lit "style:use-optimal-row-height") (show_bool opt) a
  | style_set_may_break_between_rows br => put (lit "style:may-break-between-rows") (show_bool br) a
  | style_set_rel_width rel_width => put (lit "style:rel-width") (show_RelativeScale rel_width) a
  | style_set_rel_height rel_height => put (lit "style:rel-height") (show_RelativeScale rel_height) a
  | style_set_width width => put (lit "style:width") (show_length width) a
  | style_set_char c => put (lit "style:char") ([c]) a
  | style_set_leader_color color => put (lit "style:leader-color") (color_string color) a
  | style_set_leader_style s => put (lit "style:leader-style") (show_LineStyle s) a
  | style_set_leader_text text => put (lit "style:leader-text") ([text]) a
  | style_set_leader_text_style styleref => put (lit "style:leader-text-style") (styleref) a
  | style_set_leader_type t => put (lit "style:leader-type") (show_LineType t) a
  | style_set_leader_width w => put (lit "style:leader-width") (show_LineWidth w) a
  | style_set_position pos => put (lit "style:position") (show_length pos) a
  | style_set_type t => put (lit "style:type") (show_TabStopType t) a
  | style_set_volatile volatile => put (lit "style:volatile") (show_bool volatile) a
  | style_set_display_name name => put (lit "style:display-name") (name) a
  | style_set_auto_update auto => put (lit "style:auto-update") (show_bool auto) a
  | style_set_class cls => put (lit "style:class") (cls) a
  | style_set_parent_style name => put (lit "style:parent-style-name") (name) a
  | fo_set_background_color color => put (lit "fo:background-color") (color_string color) a
  | fo_set_border width border color => put (lit "fo:border") (border_string width border color) a
  | fo_set_border_bottom width border color => put (lit "fo:border-bottom") (border_string width border color) a
  | fo_set_border_left width border color => put (lit "fo:border-left") (border_string width border color) a
  | fo_set_border_right width border color => put (lit "fo:border-right") (border_string width border color) a
  | fo_set_border_top width border color => put (lit "fo:border-top") (border_string width border color) a
  | fo_set_padding padding => if pos_length padding then put (lit "fo:padding") (show_length padding) a else Panic
  | fo_set_padding_bottom padding => if pos_length padding then put (lit "fo:padding-bottom") (show_length padding) a else Panic
  | fo_set_padding_left padding => if pos_length padding then put (lit "fo:padding-left") (show_length padding) a else Panic
  | fo_set_padding_right padding => if pos_length padding then put (lit "fo:padding-right") (show_length padding) a else Panic
  | fo_set_padding_top padding => if pos_length padding then put (lit "fo:padding-top") (show_length padding) a else Panic
  | fo_set_wrap_option wrap => put (lit "fo:wrap-option") (show_WrapOption wrap) a
  | fo_set_border_line_width inner spacing outer => put (lit "style:border-line-width") (border_line_width_string inner spacing outer) a
  | fo_set_border_line_width_bottom inner spacing outer => put (lit "style:border-line-width-bottom") (border_line_width_string inner spacing outer) a
  | fo_set_border_line_width_left inner spacing outer => put (lit "style:border-line-width-left") (border_line_width_string inner spacing outer) a
  | fo_set_border_line_width_right inner spacing outer => put (lit "style:border-line-width-right") (border_line_width_string inner spacing outer) a
  | fo_set_border_line_width_top inner spacing outer => put (lit "style:border-line-width-top") (border_line_width_string inner spacing outer) a
  | fo_set_break_before pagebreak => put (lit "fo:break-before") (show_PageBreak pagebreak) a
  | fo_set_break_after pagebreak => put (lit "fo:break-after") (show_PageBreak pagebreak) a
  | fo_set_hyphenation_keep hyphenation => put (lit "fo:hyphenation-keep") (show_Hyphenation hyphenation) a
  | fo_set_hyphenation_ladder_count hyphenation => put (lit "fo:hyphenation-ladder-count") (show_HyphenationLadderCount hyphenation) a
  | fo_set_keep_together keep_together => put (lit "fo:keep-together") (show_TextKeep keep_together) a
  | fo_set_keep_with_next keep_with_next => put (lit "fo:keep-with-next") (show_TextKeep keep_with_next) a
  | fo_set_line_height line_height => if pos_LineHeight line_height then put (lit "fo:line-height") (show_LineHeight line_height) a else Panic
  | fo_set_margin margin => if pos_Margin margin then put (lit "fo:margin") (show_Margin margin) a else Panic
  | fo_set_margin_bottom margin => if pos_Margin margin then put (lit "fo:margin-bottom") (show_Margin margin) a else Panic
  | fo_set_margin_left margin => if pos_Margin margin then put (lit "fo:margin-left") (show_Margin margin) a else Panic
  | fo_set_margin_right margin => if pos_Margin margin then put (lit "fo:margin-right") (show_Margin margin) a else Panic
  | fo_set_margin_top margin => if pos_Margin margin then put (lit "fo:margin-top") (show_Margin margin) a else Panic
  | fo_set_orphans orphans => put (lit "fo:orphans") (show_N orphans) a
  | fo_set_text_align align => put (lit "fo:text-align") (show_TextAlign align) a
  | fo_set_text_align_last align => put (lit "fo:text-align-last") (show_TextAlignLast align) a
  | fo_set_text_indent indent => put (lit "fo:text-indent") (show_Indent indent) a
  | fo_set_widows num => put (lit "fo:widows") (show_N num) a
  | fo_set_color color => put (lit "fo:color") (color_string color) a
  | fo_set_locale locale => Ok (put_locale (lit "fo:language") (lit "fo:country") (lit "fo:script") locale a)
  | fo_set_font_size size => if pos_FontSize size then put (lit "fo:font-size") (show_FontSize size) a else Panic
  | fo_set_font_size_rel size => put (lit "fo:font-size-rel") (show_FontSize size) a
  | fo_set_font_style s => put (lit "fo:font-style") (show_FontStyle s) a
  | fo_set_font_italic => put (lit "fo:font-style") (lit "italic") a
  | fo_set_font_weight weight => put (lit "fo:font-weight") (show_FontWeight weight) a
  | fo_set_font_bold => put (lit "fo:font-weight") (show_FontWeight FontWeight_Bold) a
  | fo_set_font_variant var => put (lit "fo:font-variant") (show_FontVariant var) a
  | fo_set_font_attr size bold italic => let* a := if pos_FontSize size then put (lit "fo:font-size") (show_FontSize size) a else Panic in let* a := if bold then put (lit "fo:font-weight") (show_FontWeight FontWeight_Bold) a else Ok a in if italic then put (lit "fo:font-style") (lit "italic") a else Ok a
  | fo_set_hyphenate hyphenate => put (lit "fo:hyphenate") (show_bool hyphenate) a
  | fo_set_hyphenation_push_char_count count => put (lit "fo:hyphenation-push-char-count") (show_N count) a
  | fo_set_hyphenation_remain_char_count count => put (lit "fo:hyphenation-remain-char-count") (show_N count) a
  | fo_set_letter_spacing spacing => put (lit "fo:letter-spacing") (show_LetterSpacing spacing) a
  | fo_set_text_shadow x_offset y_offset blur color => put (lit "fo:text-shadow") (shadow_string x_offset y_offset blur color) a
  | fo_set_text_transform trans => put (lit "fo:text-transform") (show_TextTransform trans) a
  | fo_set_min_height height => put (lit "fo:min-height") (show_LengthPercent height) a
  | fo_set_page_height height => put (lit "fo:page-height") (show_length height) a
  | fo_set_page_width width => put (lit "fo:page-width") (show_length width) a
  | svg_set_font_family name => put (lit "svg:font-family") (name) a
  | svg_set_font_stretch stretch => put (lit "svg:font-stretch") (show_FontStretch stretch) a
  | svg_set_font_style s => put (lit "svg:font-style") (show_FontStyle s) a
  | svg_set_font_variant variant => put (lit "svg:font-variant") (show_FontVariant variant) a
  | svg_set_font_weight weight => put (lit "svg:font-weight") (show_FontWeight weight) a
  | svg_set_height height => put (lit "svg:height") (show_length height) a
  | svg_set_width width => put (lit "svg:width") (show_length width) a
  | svg_set_x x => put (lit "svg:x") (show_length x) a
  | svg_set_y y => put (lit "svg:y") (show_length y) a
  | table_set_align align => put (lit "table:align") (show_TableAlign align) a
  | table_set_border_model border => put (lit "table:border-model") (show_TableBorderModel border) a
  | table_set_display display => put (lit "table:display") (show_bool display) a
  | table_set_tab_color color => put (lit "table:tab-color") (color_string color) a
  | table_set_table_end_cell_address cellref => let* v := fmt_cell_ref cellref in Ok (put_attr (lit "table:end-cell-address") v a)
  | table_set_table_end_x x => put (lit "table:end-x") (show_length x) a
  | table_set_table_end_y y => put (lit "table:end-y") (show_length y) a
  | table_set_table_table_background is_bg => put (lit "table:table-background") (show_bool is_bg) a
  | text_set_text_condition cond => put (lit "text:condition") (show_TextCondition cond) a
  | text_set_display cond => put (lit "text:display") (show_TextDisplay cond) a
  | draw_set_draw_caption_id id => put (lit "draw:caption-id") (id) a
  | draw_set_draw_name id => put (lit "draw:name") (id) a
  | draw_set_draw_class_names ns => put (lit "draw:class-names") (spaced ns) a
  | draw_set_draw_corner_radius radius => put (lit "draw:corner-radius") (show_N radius) a
  | draw_set_draw_id id => put (lit "draw:id") (id) a
  | draw_set_draw_layer layer => put (lit "draw:layer") (layer) a
  | draw_set_draw_style_name s => put (lit "draw:style-name") (s) a
  | draw_set_draw_text_style_name s => put (lit "draw:text-style-name") (s) a
  | draw_set_draw_transform ts => put (lit "draw:transform") (spaced ts) a
  | draw_set_draw_z_index z_index => put (lit "draw:z-index") (show_N z_index) a
  | draw_set_draw_caption_point_x x => put (lit "draw:caption-point-x") (show_length x) a
  | draw_set_draw_caption_point_y y => put (lit "draw:caption-point-y") (show_length y) a
  | draw_set_draw_copy_of name => put (lit "draw:copy-of") (name) a
  | draw_set_draw_filter_name name => put (lit "draw:filter-name") (name) a
  | draw_set_draw_mime_type name => put (lit "draw:mime-type") (name) a
  | xlink_set_xlink_actuate actuate => put (lit "xlink:actuate") (show_xactuate actuate) a
  | xlink_set_xlink_href href => put (lit "xlink:href") (href) a
  | xlink_set_xlink_show show => put (lit "xlink:show") (show_xshow show) a
  | xlink_set_xlink_type ty => put (lit "xlink:type") (show_xtype ty) a
  | number_set_title ti => put (lit "number:title") (ti) a
  | number_set_locale locale => Ok (put_locale (lit "number:language") (lit "number:country") (lit "number:script") locale a)
  | number_set_transliteration_locale locale => Ok (put_locale2 (lit "number:transliteration-language") (lit "number:transliteration-country") locale a)
  | number_set_transliteration_format fm => put (lit "number:transliteration-format") ([fm]) a
  | number_set_transliteration_style s => put (lit "number:transliteration-style") (show_translit s) a
  | number_set_automatic_order volatile => put (lit "number:automatic-order") (show_bool volatile) a
  | number_set_format_source source => put (lit "number:format-source") (show_fmtsource source) a
  | number_set_truncate_on_overflow truncate => put (lit "number:truncate-on-overflow") (show_bool truncate) a
  | xml_set_xml_id id => put (lit "xml_id") (id) a
  end.

(** The name of the function. *)
Definition fn_name (s : setter) : str :=
  match s with
  | style_set_default_outline_level _ => lit "set_default_outline_level"
  | style_set_master_page _ => lit "set_master_page"
  | style_set_next_style _ => lit "set_next_style"
  | style_set_cell_protect _ => lit "set_cell_protect"
  | style_set_decimal_places _ => lit "set_decimal_places"
  | style_set_diagonal_bl_tr _ _ _ => lit "set_diagonal_bl_tr"
  | style_set_diagonal_bl_tr_widths _ _ _ => lit "set_diagonal_bl_tr_widths"
  | style_set_diagonal_tl_br _ _ _ => lit "set_diagonal_tl_br"
  | style_set_diagonal_tl_br_widths _ _ _ => lit "set_diagonal_tl_br_widths"
  | style_set_direction _ => lit "set_direction"
  | style_set_glyph_orientation_vertical _ => lit "set_glyph_orientation_vertical"
  | style_set_print_content _ => lit "set_print_content"
  | style_set_repeat_content _ => lit "set_repeat_content"
  | style_set_rotation_align _ => lit "set_rotation_align"
  | style_set_rotation_scale _ => lit "set_rotation_scale"
  | style_set_rotation_angle _ => lit "set_rotation_angle"
  | style_set_shadow _ _ _ _ => lit "set_shadow"
  | style_set_shrink_to_fit _ => lit "set_shrink_to_fit"
  | style_set_text_align_source _ => lit "set_text_align_source"
  | style_set_vertical_align _ => lit "set_vertical_align"
  | style_set_auto_text_indent _ => lit "set_auto_text_indent"
  | style_set_background_transpareny _ => lit "set_background_transpareny"
  | style_set_contextual_spacing _ => lit "set_contextual_spacing"
  | style_set_font_independent_line_spacing _ => lit "set_font_independent_line_spacing"
  | style_set_join_border _ => lit "set_join_border"
  | style_set_justify_single_word _ => lit "set_justify_single_word"
  | style_set_line_break _ => lit "set_line_break"
  | style_set_line_height_at_least _ => lit "set_line_height_at_least"
  | style_set_line_spacing _ => lit "set_line_spacing"
  | style_set_page_number _ => lit "set_page_number"
  | style_set_punctuation_wrap _ => lit "set_punctuation_wrap"
  | style_set_register_true _ => lit "set_register_true"
  | style_set_snap_to_layout_grid _ => lit "set_snap_to_layout_grid"
  | style_set_tab_stop_distance _ => lit "set_tab_stop_distance"
  | style_set_text_autospace _ => lit "set_text_autospace"
  | style_set_vertical_align_para _ => lit "set_vertical_align_para"
  | style_set_writing_mode _ => lit "set_writing_mode"
  | style_set_writing_mode_automatic _ => lit "set_writing_mode_automatic"
  | style_set_line_number _ => lit "set_line_number"
  | style_set_number_lines _ => lit "set_number_lines"
  | style_set_font_name _ => lit "set_font_name"
  | style_set_locale_asian _ => lit "set_locale_asian"
  | style_set_font_name_asian _ => lit "set_font_name_asian"
  | style_set_font_size_asian _ => lit "set_font_size_asian"
  | style_set_font_size_rel_asian _ => lit "set_font_size_rel_asian"
  | style_set_font_style_asian _ => lit "set_font_style_asian"
  | style_set_font_italic_asian => lit "set_font_italic_asian"
  | style_set_font_weight_asian _ => lit "set_font_weight_asian"
  | style_set_font_bold_asian => lit "set_font_bold_asian"
  | style_set_font_attr_asian _ _ _ => lit "set_font_attr_asian"
  | style_set_locale_complex _ => lit "set_locale_complex"
  | style_set_font_name_complex _ => lit "set_font_name_complex"
  | style_set_font_size_complex _ => lit "set_font_size_complex"
  | style_set_font_size_rel_complex _ => lit "set_font_size_rel_complex"
  | style_set_font_style_complex _ => lit "set_font_style_complex"
  | style_set_font_italic_complex => lit "set_font_italic_complex"
  | style_set_font_weight_complex _ => lit "set_font_weight_complex"
  | style_set_font_bold_complex => lit "set_font_bold_complex"
  | style_set_font_attr_complex _ _ _ => lit "set_font_attr_complex"
  | style_set_font_relief _ => lit "set_font_relief"
  | style_set_text_position _ _ => lit "set_text_position"
  | style_set_letter_kerning _ => lit "set_letter_kerning"
  | style_set_text_combine _ => lit "set_text_combine"
  | style_set_text_combine_start_char _ => lit "set_text_combine_start_char"
  | style_set_text_combine_end_char _ => lit "set_text_combine_end_char"
  | style_set_text_emphasize _ _ => lit "set_text_emphasize"
  | style_set_text_line_through_color _ => lit "set_text_line_through_color"
  | style_set_text_line_through_mode _ => lit "set_text_line_through_mode"
  | style_set_text_line_through_style _ => lit "set_text_line_through_style"
  | style_set_text_line_through_text _ => lit "set_text_line_through_text"
  | style_set_text_line_through_text_style _ => lit "set_text_line_through_text_style"
  | style_set_text_line_through_type _ => lit "set_text_line_through_type"
  | style_set_text_line_through_width _ => lit "set_text_line_through_width"
  | style_set_font_text_outline _ => lit "set_font_text_outline"
  | style_set_text_overline_color _ => lit "set_text_overline_color"
  | style_set_text_overline_mode _ => lit "set_text_overline_mode"
  | style_set_text_overline_style _ => lit "set_text_overline_style"
  | style_set_text_overline_type _ => lit "set_text_overline_type"
  | style_set_text_overline_width _ => lit "set_text_overline_width"
  | style_set_text_underline_color _ => lit "set_text_underline_color"
  | style_set_text_underline_mode _ => lit "set_text_underline_mode"
  | style_set_text_underline_style _ => lit "set_text_underline_style"
  | style_set_text_underline_type _ => lit "set_text_underline_type"
  | style_set_text_underline_width _ => lit "set_text_underline_width"
  | style_set_use_window_font_color _ => lit "set_use_window_font_color"
  | style_set_dynamic_spacing _ => lit "set_dynamic_spacing"
  | style_set_col_width _ => lit "set_col_width"
  | style_set_rel_col_width _ => lit "set_rel_col_width"
  | style_set_use_optimal_col_width _ => lit "set_use_optimal_col_width"
  | style_set_font_family_generic _ => lit "set_font_family_generic"
  | style_set_font_pitch _ => lit "set_font_pitch"
  | style_set_first_page_number _ => lit "set_first_page_number"
  | style_set_footnote_max_height _ => lit "set_footnote_max_height"
  | style_set_num_format _ => lit "set_num_format"
  | style_set_num_letter_sync _ => lit "set_num_letter_sync"
  | style_set_num_prefix _ => lit "set_num_prefix"
  | style_set_num_suffix _ => lit "set_num_suffix"
  | style_set_paper_tray_name _ => lit "set_paper_tray_name"
  | style_set_print _ => lit "set_print"
  | style_set_print_orientation _ => lit "set_print_orientation"
  | style_set_print_page_order _ => lit "set_print_page_order"
  | style_set_scale_to _ => lit "set_scale_to"
  | style_set_scale_to_pages _ => lit "set_scale_to_pages"
  | style_set_table_centering _ => lit "set_table_centering"
  | style_set_min_row_height _ => lit "set_min_row_height"
  | style_set_row_height _ => lit "set_row_height"
  | style_set_use_optimal_row_height _ => lit "set_use_optimal_row_height"
  | style_set_may_break_between_rows _ => lit "set_may_break_between_rows"
  | style_set_rel_width _ => lit "set_rel_width"
  | style_set_rel_height _ => lit "set_rel_height"
  | style_set_width _ => lit "set_width"
  | style_set_char _ => lit "set_char"
  | style_set_leader_color _ => lit "set_leader_color"
  | style_set_leader_style _ => lit "set_leader_style"
  | style_set_leader_text _ => lit "set_leader_text"
  | style_set_leader_text_style _ => lit "set_leader_text_style"
  | style_set_leader_type _ => lit "set_leader_type"
  | style_set_leader_width _ => lit "set_leader_width"
  | style_set_position _ => lit "set_position"
  | style_set_type _ => lit "set_type"
  | style_set_volatile _ => lit "set_volatile"
  | style_set_display_name _ => lit "set_display_name"
  | style_set_auto_update _ => lit "set_auto_update"
  | style_set_class _ => lit "set_class"
  | style_set_parent_style _ => lit "set_parent_style"
  | fo_set_background_color _ => lit "set_background_color"
  | fo_set_border _ _ _ => lit "set_border"
  | fo_set_border_bottom _ _ _ => lit "set_border_bottom"
  | fo_set_border_left _ _ _ => lit "set_border_left"
  | fo_set_border_right _ _ _ => lit "set_border_right"
  | fo_set_border_top _ _ _ => lit "set_border_top"
  | fo_set_padding _ => lit "set_padding"
  | fo_set_padding_bottom _ => lit "set_padding_bottom"
  | fo_set_padding_left _ => lit "set_padding_left"
  | fo_set_padding_right _ => lit "set_padding_right"
  | fo_set_padding_top _ => lit "set_padding_top"
  | fo_set_wrap_option _ => lit "set_wrap_option"
  | fo_set_border_line_width _ _ _ => lit "set_border_line_width"
  | fo_set_border_line_width_bottom _ _ _ => lit "set_border_line_width_bottom"
  | fo_set_border_line_width_left _ _ _ => lit "set_border_line_width_left"
  | fo_set_border_line_width_right _ _ _ => lit "set_border_line_width_right"
  | fo_set_border_line_width_top _ _ _ => lit "set_border_line_width_top"
  | fo_set_break_before _ => lit "set_break_before"
  | fo_set_break_after _ => lit "set_break_after"
  | fo_set_hyphenation_keep _ => lit "set_hyphenation_keep"
  | fo_set_hyphenation_ladder_count _ => lit "set_hyphenation_ladder_count"
  | fo_set_keep_together _ => lit "set_keep_together"
  | fo_set_keep_with_next _ => lit "set_keep_with_next"
  | fo_set_line_height _ => lit "set_line_height"
  | fo_set_margin _ => lit "set_margin"
  | fo_set_margin_bottom _ => lit "set_margin_bottom"
  | fo_set_margin_left _ => lit "set_margin_left"
  | fo_set_margin_right _ => lit "set_margin_right"
  | fo_set_margin_top _ => lit "set_margin_top"
  | fo_set_orphans _ => lit "set_orphans"
  | fo_set_text_align _ => lit "set_text_align"
  | fo_set_text_align_last _ => lit "set_text_align_last"
  | fo_set_text_indent _ => lit "set_text_indent"
  | fo_set_widows _ => lit "set_widows"
  | fo_set_color _ => lit "set_color"
  | fo_set_locale _ => lit "set_locale"
  | fo_set_font_size _ => lit "set_font_size"
  | fo_set_font_size_rel _ => lit "set_font_size_rel"
  | fo_set_font_style _ => lit "set_font_style"
  | fo_set_font_italic => lit "set_font_italic"
  | fo_set_font_weight _ => lit "set_font_weight"
  | fo_set_font_bold => lit "set_font_bold"
  | fo_set_font_variant _ => lit "set_font_variant"
  | fo_set_font_attr _ _ _ => lit "set_font_attr"
  | fo_set_hyphenate _ => lit "set_hyphenate"
  | fo_set_hyphenation_push_char_count _ => lit "set_hyphenation_push_char_count"
  | fo_set_hyphenation_remain_char_count _ => lit "set_hyphenation_remain_char_count"
  | fo_set_letter_spacing _ => lit "set_letter_spacing"
  | fo_set_text_shadow _ _ _ _ => lit "set_text_shadow"
  | fo_set_text_transform _ => lit "set_text_transform"
  | fo_set_min_height _ => lit "set_min_height"
  | fo_set_page_height _ => lit "set_page_height"
  | fo_set_page_width _ => lit "set_page_width"
  | svg_set_font_family _ => lit "set_font_family"
  | svg_set_font_stretch _ => lit "set_font_stretch"
  | svg_set_font_style _ => lit "set_font_style"
  | svg_set_font_variant _ => lit "set_font_variant"
  | svg_set_font_weight _ => lit "set_font_weight"
  | svg_set_height _ => lit "set_height"
  | svg_set_width _ => lit "set_width"
  | svg_set_x _ => lit "svg_x"
  | svg_set_y _ => lit "svg_y"
  | table_set_align _ => lit "set_align"
  | table_set_border_model _ => lit "set_border_model"
  | table_set_display _ => lit "set_display"
  | table_set_tab_color _ => lit "set_tab_color"
  | table_set_table_end_cell_address _ => lit "set_table_end_cell_address"
  | table_set_table_end_x _ => lit "set_table_end_x"
  | table_set_table_end_y _ => lit "set_table_end_y"
  | table_set_table_table_background _ => lit "set_table_table_background"
  | text_set_text_condition _ => lit "set_text_condition"
  | text_set_display _ => lit "set_display"
  | draw_set_draw_caption_id _ => lit "set_draw_caption_id"
  | draw_set_draw_name _ => lit "set_draw_name"
  | draw_set_draw_class_names _ => lit "set_draw_class_names"
  | draw_set_draw_corner_radius _ => lit "set_draw_corner_radius"
  | draw_set_draw_id _ => lit "set_draw_id"
  | draw_set_draw_layer _ => lit "set_draw_layer"
  | draw_set_draw_style_name _ => lit "set_draw_style_name"
  | draw_set_draw_text_style_name _ => lit "set_draw_text_style_name"
  | draw_set_draw_transform _ => lit "set_draw_transform"
  | draw_set_draw_z_index _ => lit "set_draw_z_index"
  | draw_set_draw_caption_point_x _ => lit "set_draw_caption_point_x"
  | draw_set_draw_caption_point_y _ => lit "set_draw_caption_point_y"
  | draw_set_draw_copy_of _ => lit "set_draw_copy_of"
  | draw_set_draw_filter_name _ => lit "set_draw_filter_name"
  | draw_set_draw_mime_type _ => lit "set_draw_mime_type"
  | xlink_set_xlink_actuate _ => lit "set_xlink_actuate"
  | xlink_set_xlink_href _ => lit "set_xlink_href"
  | xlink_set_xlink_show _ => lit "set_xlink_show"
  | xlink_set_xlink_type _ => lit "set_xlink_type"
  | number_set_title _ => lit "set_title"
  | number_set_locale _ => lit "set_locale"
  | number_set_transliteration_locale _ => lit "set_transliteration_locale"
  | number_set_transliteration_format _ => lit "set_transliteration_format"
  | number_set_transliteration_style _ => lit "set_transliteration_style"
  | number_set_automatic_order _ => lit "set_automatic_order"
  | number_set_format_source _ => lit "set_format_source"
  | number_set_truncate_on_overflow _ => lit "set_truncate_on_overflow"
  | xml_set_xml_id _ => lit "set_xml_id"
  end.

(** The macros, by name, with the lines of their definitions. *)
Inductive macro :=
| m_style_default_outline_level (* macro_attr_style.rs:1-23 *)
| m_style_master_page (* macro_attr_style.rs:25-40 *)
| m_style_next_style (* macro_attr_style.rs:42-52 *)
| m_style_cell_protect (* macro_attr_style.rs:54-76 *)
| m_style_decimal_places (* macro_attr_style.rs:78-89 *)
| m_style_diagonal (* macro_attr_style.rs:91-129 *)
| m_style_direction (* macro_attr_style.rs:131-145 *)
| m_style_glyph_orientation_vertical (* macro_attr_style.rs:147-163 *)
| m_style_print_content (* macro_attr_style.rs:165-176 *)
| m_style_repeat_content (* macro_attr_style.rs:178-195 *)
| m_style_rotation_align (* macro_attr_style.rs:197-208 *)
| m_style_rotation_scale (* macro_attr_style.rs:210-224 *)
| m_style_rotation_angle (* macro_attr_style.rs:226-235 *)
| m_style_shadow (* macro_attr_style.rs:237-267 *)
| m_style_shrink_to_fit (* macro_attr_style.rs:269-285 *)
| m_style_text_align_source (* macro_attr_style.rs:287-301 *)
| m_style_vertical_align (* macro_attr_style.rs:303-322 *)
| m_style_auto_text_indent (* macro_attr_style.rs:324-340 *)
| m_style_background_transparency (* macro_attr_style.rs:342-353 *)
| m_style_contextual_spacing (* macro_attr_style.rs:355-375 *)
| m_style_font_independent_line_spacing (* macro_attr_style.rs:377-394 *)
| m_style_join_border (* macro_attr_style.rs:396-433 *)
| m_style_justify_single_word (* macro_attr_style.rs:435-454 *)
| m_style_line_break (* macro_attr_style.rs:456-471 *)
| m_style_line_height_at_least (* macro_attr_style.rs:473-487 *)
| m_style_line_spacing (* macro_attr_style.rs:489-501 *)
| m_style_page_number (* macro_attr_style.rs:503-524 *)
| m_style_punctuation_wrap (* macro_attr_style.rs:526-544 *)
| m_style_register_true (* macro_attr_style.rs:546-563 *)
| m_style_snap_to_layout_grid (* macro_attr_style.rs:565-583 *)
| m_style_tab_stop_distance (* macro_attr_style.rs:585-599 *)
| m_style_text_autospace (* macro_attr_style.rs:601-618 *)
| m_style_vertical_align_para (* macro_attr_style.rs:620-641 *)
| m_style_writing_mode (* macro_attr_style.rs:643-654 *)
| m_style_writing_mode_automatic (* macro_attr_style.rs:656-678 *)
| m_style_line_number (* macro_attr_style.rs:680-692 *)
| m_style_number_lines (* macro_attr_style.rs:694-707 *)
| m_style_font_name (* macro_attr_style.rs:709-722 *)
| m_style_locale_asian (* macro_attr_style.rs:724-752 *)
| m_style_font_name_asian (* macro_attr_style.rs:754-765 *)
| m_style_font_size_asian (* macro_attr_style.rs:767-786 *)
| m_style_font_size_rel_asian (* macro_attr_style.rs:788-799 *)
| m_style_font_style_asian (* macro_attr_style.rs:801-816 *)
| m_style_font_weight_asian (* macro_attr_style.rs:818-833 *)
| m_style_font_attr_asian (* macro_attr_style.rs:835-848 *)
| m_style_locale_complex (* macro_attr_style.rs:850-879 *)
| m_style_font_name_complex (* macro_attr_style.rs:881-892 *)
| m_style_font_size_complex (* macro_attr_style.rs:894-913 *)
| m_style_font_size_rel_complex (* macro_attr_style.rs:914-925 *)
| m_style_font_style_complex (* macro_attr_style.rs:926-942 *)
| m_style_font_weight_complex (* macro_attr_style.rs:944-959 *)
| m_style_font_attr_complex (* macro_attr_style.rs:961-974 *)
| m_style_font_relief (* macro_attr_style.rs:976-989 *)
| m_style_text_position (* macro_attr_style.rs:991-1008 *)
| m_style_letter_kerning (* macro_attr_style.rs:1010-1019 *)
| m_style_text_combine (* macro_attr_style.rs:1021-1038 *)
| m_style_text_combine_start_char (* macro_attr_style.rs:1040-1049 *)
| m_style_text_combine_end_char (* macro_attr_style.rs:1051-1060 *)
| m_style_text_emphasize (* macro_attr_style.rs:1062-1088 *)
| m_style_text_line_through (* macro_attr_style.rs:1090-1202 *)
| m_style_text_outline (* macro_attr_style.rs:1204-1213 *)
| m_style_text_overline (* macro_attr_style.rs:1215-1255 *)
| m_style_text_underline (* macro_attr_style.rs:1257-1296 *)
| m_style_use_window_font_color (* macro_attr_style.rs:1298-1308 *)
| m_style_dynamic_spacing (* macro_attr_style.rs:1310-1318 *)
| m_style_column_width (* macro_attr_style.rs:1320-1336 *)
| m_style_rel_column_width (* macro_attr_style.rs:1338-1349 *)
| m_style_use_optimal_column_width (* macro_attr_style.rs:1351-1365 *)
| m_style_font_family_generic (* macro_attr_style.rs:1367-1383 *)
| m_style_font_pitch (* macro_attr_style.rs:1385-1396 *)
| m_style_first_page_number (* macro_attr_style.rs:1398-1408 *)
| m_style_footnote_max_height (* macro_attr_style.rs:1410-1422 *)
| m_style_num_format (* macro_attr_style.rs:1424-1442 *)
| m_style_num_letter_sync (* macro_attr_style.rs:1444-1460 *)
| m_style_num_prefix (* macro_attr_style.rs:1462-1473 *)
| m_style_num_suffix (* macro_attr_style.rs:1475-1486 *)
| m_style_paper_tray_name (* macro_attr_style.rs:1488-1501 *)
| m_style_print (* macro_attr_style.rs:1503-1527 *)
| m_style_print_orientation (* macro_attr_style.rs:1529-1542 *)
| m_style_print_page_order (* macro_attr_style.rs:1544-1559 *)
| m_style_scale_to (* macro_attr_style.rs:1561-1570 *)
| m_style_scale_to_pages (* macro_attr_style.rs:1572-1582 *)
| m_style_table_centering (* macro_attr_style.rs:1584-1603 *)
| m_style_min_row_height (* macro_attr_style.rs:1605-1614 *)
| m_style_row_height (* macro_attr_style.rs:1616-1628 *)
| m_style_use_optimal_row_height (* macro_attr_style.rs:1630-1648 *)
| m_style_may_break_between_rows (* macro_attr_style.rs:1650-1663 *)
| m_style_rel_width (* macro_attr_style.rs:1665-1686 *)
| m_style_rel_height (* macro_attr_style.rs:1689-1714 *)
| m_style_width (* macro_attr_style.rs:1716-1724 *)
| m_style_char (* macro_attr_style.rs:1726-1733 *)
| m_style_leader_color (* macro_attr_style.rs:1735-1745 *)
| m_style_leader_style (* macro_attr_style.rs:1747-1769 *)
| m_style_leader_text (* macro_attr_style.rs:1771-1786 *)
| m_style_leader_text_style (* macro_attr_style.rs:1788-1799 *)
| m_style_leader_type (* macro_attr_style.rs:1801-1814 *)
| m_style_leader_width (* macro_attr_style.rs:1816-1834 *)
| m_style_position (* macro_attr_style.rs:1836-1851 *)
| m_style_type (* macro_attr_style.rs:1853-1868 *)
| m_style_volatile (* macro_attr_style.rs:1871-1891 *)
| m_style_display_name (* macro_attr_style.rs:1894-1902 *)
| m_style_auto_update (* macro_attr_style.rs:1905-1923 *)
| m_style_class (* macro_attr_style.rs:1926-1936 *)
| m_style_parent_style_name (* macro_attr_style.rs:1939-1950 *)
| m_fo_background_color (* macro_attr_fo.rs:1-16 *)
| m_fo_border (* macro_attr_fo.rs:18-50 *)
| m_fo_padding (* macro_attr_fo.rs:52-119 *)
| m_fo_wrap_option (* macro_attr_fo.rs:121-131 *)
| m_fo_border_line_width (* macro_attr_fo.rs:133-255 *)
| m_fo_break (* macro_attr_fo.rs:257-275 *)
| m_fo_hyphenation (* macro_attr_fo.rs:277-295 *)
| m_fo_keep_together (* macro_attr_fo.rs:297-311 *)
| m_fo_keep_with_next (* macro_attr_fo.rs:313-323 *)
| m_fo_line_height (* macro_attr_fo.rs:325-348 *)
| m_fo_margin (* macro_attr_fo.rs:350-437 *)
| m_fo_orphans (* macro_attr_fo.rs:439-449 *)
| m_fo_text_align (* macro_attr_fo.rs:451-468 *)
| m_fo_text_align_last (* macro_attr_fo.rs:470-482 *)
| m_fo_text_indent (* macro_attr_fo.rs:484-500 *)
| m_fo_widows (* macro_attr_fo.rs:502-518 *)
| m_fo_color (* macro_attr_fo.rs:520-529 *)
| m_fo_locale (* macro_attr_fo.rs:531-558 *)
| m_fo_font_size (* macro_attr_fo.rs:560-577 *)
| m_fo_font_size_rel (* macro_attr_fo.rs:578-588 *)
| m_fo_font_style (* macro_attr_fo.rs:590-603 *)
| m_fo_font_weight (* macro_attr_fo.rs:605-619 *)
| m_fo_font_variant (* macro_attr_fo.rs:621-628 *)
| m_fo_font_attr (* macro_attr_fo.rs:630-643 *)
| m_fo_hyphenate (* macro_attr_fo.rs:645-652 *)
| m_fo_hyphenation_push_char_count (* macro_attr_fo.rs:654-662 *)
| m_fo_hyphenation_remain_char_count (* macro_attr_fo.rs:664-672 *)
| m_fo_letter_spacing (* macro_attr_fo.rs:674-682 *)
| m_fo_text_shadow (* macro_attr_fo.rs:684-700 *)
| m_fo_text_transform (* macro_attr_fo.rs:702-713 *)
| m_fo_min_height (* macro_attr_fo.rs:715-722 *)
| m_fo_page_height (* macro_attr_fo.rs:724-732 *)
| m_fo_page_width (* macro_attr_fo.rs:734-742 *)
| m_svg_font_family (* macro_attr_svg.rs:1-8 *)
| m_svg_font_stretch (* macro_attr_svg.rs:10-17 *)
| m_svg_font_style (* macro_attr_svg.rs:19-26 *)
| m_svg_font_variant (* macro_attr_svg.rs:28-35 *)
| m_svg_font_weight (* macro_attr_svg.rs:37-44 *)
| m_svg_height (* macro_attr_svg.rs:46-53 *)
| m_svg_width (* macro_attr_svg.rs:55-62 *)
| m_svg_x (* macro_attr_svg.rs:97-105 *)
| m_svg_y (* macro_attr_svg.rs:107-115 *)
| m_table_align (* macro_attr_table.rs:1-16 *)
| m_table_border_model (* macro_attr_table.rs:18-36 *)
| m_table_display (* macro_attr_table.rs:38-49 *)
| m_table_tab_color (* macro_attr_table.rs:51-59 *)
| m_table_end_cell_address (* macro_attr_table.rs:61-70 *)
| m_table_end_x (* macro_attr_table.rs:72-80 *)
| m_table_end_y (* macro_attr_table.rs:82-90 *)
| m_table_table_background (* macro_attr_table.rs:92-105 *)
| m_text_condition (* macro_attr_text.rs:1-9 *)
| m_text_display (* macro_attr_text.rs:11-23 *)
| m_draw_caption_id (* macro_attr_draw.rs:1-13 *)
| m_draw_name (* macro_attr_draw.rs:15-23 *)
| m_draw_class_names (* macro_attr_draw.rs:25-41 *)
| m_draw_corner_radius (* macro_attr_draw.rs:43-58 *)
| m_draw_id (* macro_attr_draw.rs:60-75 *)
| m_draw_layer (* macro_attr_draw.rs:77-86 *)
| m_draw_style_name (* macro_attr_draw.rs:88-97 *)
| m_draw_text_style_name (* macro_attr_draw.rs:99-109 *)
| m_draw_transform (* macro_attr_draw.rs:111-144 *)
| m_draw_z_index (* macro_attr_draw.rs:146-163 *)
| m_draw_caption_point_x (* macro_attr_draw.rs:165-173 *)
| m_draw_caption_point_y (* macro_attr_draw.rs:175-183 *)
| m_draw_copy_of (* macro_attr_draw.rs:185-197 *)
| m_draw_filter_name (* macro_attr_draw.rs:199-207 *)
| m_draw_mime_type (* macro_attr_draw.rs:209-220 *)
| m_xlink_actuate (* macro_attr_xlink.rs:1-8 *)
| m_xlink_href (* macro_attr_xlink.rs:10-18 *)
| m_xlink_show (* macro_attr_xlink.rs:20-27 *)
| m_xlink_type (* macro_attr_xlink.rs:29-37 *)
| m_number_title (* macro_attr_number.rs:2-14 *)
| m_number_locale (* macro_attr_number.rs:19-80 *)
| m_number_transliteration_locale (* macro_attr_number.rs:84-132 *)
| m_number_transliteration_format (* macro_attr_number.rs:135-162 *)
| m_number_transliteration_style (* macro_attr_number.rs:165-184 *)
| m_number_automatic_order (* macro_attr_number.rs:187-212 *)
| m_number_format_source (* macro_attr_number.rs:215-241 *)
| m_number_truncate_on_overflow (* macro_attr_number.rs:244-277 *)
| m_xml_id (* macro_style.rs:120-128 *).
Definition macro_of (s : setter) : macro :=
  match s with
  | style_set_default_outline_level _ => m_style_default_outline_level
  | style_set_master_page _ => m_style_master_page
  | style_set_next_style _ => m_style_next_style
  | style_set_cell_protect _ => m_style_cell_protect
  | style_set_decimal_places _ => m_style_decimal_places
  | style_set_diagonal_bl_tr _ _ _ | style_set_diagonal_bl_tr_widths _ _ _ | style_set_diagonal_tl_br _ _ _ | style_set_diagonal_tl_br_widths _ _ _ => m_style_diagonal
  | style_set_direction _ => m_style_direction
  | style_set_glyph_orientation_vertical _ => m_style_glyph_orientation_vertical
  | style_set_print_content _ => m_style_print_content
  | style_set_repeat_content _ => m_style_repeat_content
  | style_set_rotation_align _ => m_style_rotation_align
  | style_set_rotation_scale _ => m_style_rotation_scale
  | style_set_rotation_angle _ => m_style_rotation_angle
  | style_set_shadow _ _ _ _ => m_style_shadow
  | style_set_shrink_to_fit _ => m_style_shrink_to_fit
  | style_set_text_align_source _ => m_style_text_align_source
  | style_set_vertical_align _ => m_style_vertical_align
  | style_set_auto_text_indent _ => m_style_auto_text_indent
  | style_set_background_transpareny _ => m_style_background_transparency
  | style_set_contextual_spacing _ => m_style_contextual_spacing
  | style_set_font_independent_line_spacing _ => m_style_font_independent_line_spacing
  | style_set_join_border _ => m_style_join_border
  | style_set_justify_single_word _ => m_style_justify_single_word
  | style_set_line_break _ => m_style_line_break
  | style_set_line_height_at_least _ => m_style_line_height_at_least
  | style_set_line_spacing _ => m_style_line_spacing
  | style_set_page_number _ => m_style_page_number
  | style_set_punctuation_wrap _ => m_style_punctuation_wrap
  | style_set_register_true _ => m_style_register_true
  | style_set_snap_to_layout_grid _ => m_style_snap_to_layout_grid
  | style_set_tab_stop_distance _ => m_style_tab_stop_distance
  | style_set_text_autospace _ => m_style_text_autospace
  | style_set_vertical_align_para _ => m_style_vertical_align_para
  | style_set_writing_mode _ => m_style_writing_mode
  | style_set_writing_mode_automatic _ => m_style_writing_mode_automatic
  | style_set_line_number _ => m_style_line_number
  | style_set_number_lines _ => m_style_number_lines
  | style_set_font_name _ => m_style_font_name
  | style_set_locale_asian _ => m_style_locale_asian
  | style_set_font_name_asian _ => m_style_font_name_asian
  | style_set_font_size_asian _ => m_style_font_size_asian
  | style_set_font_size_rel_asian _ => m_style_font_size_rel_asian
  | style_set_font_style_asian _ | style_set_font_italic_asian => m_style_font_style_asian
  | style_set_font_weight_asian _ | style_set_font_bold_asian => m_style_font_weight_asian
  | style_set_font_attr_asian _ _ _ => m_style_font_attr_asian
  | style_set_locale_complex _ => m_style_locale_complex
  | style_set_font_name_complex _ => m_style_font_name_complex
  | style_set_font_size_complex _ => m_style_font_size_complex
  | style_set_font_size_rel_complex _ => m_style_font_size_rel_complex
  | style_set_font_style_complex _ | style_set_font_italic_complex => m_style_font_style_complex
  | style_set_font_weight_complex _ | style_set_font_bold_complex => m_style_font_weight_complex
  | style_set_font_attr_complex _ _ _ => m_style_font_attr_complex
  | style_set_font_relief _ => m_style_font_relief
  | style_set_text_position _ _ => m_style_text_position
  | style_set_letter_kerning _ => m_style_letter_kerning
  | style_set_text_combine _ => m_style_text_combine
  | style_set_text_combine_start_char _ => m_style_text_combine_start_char
  | style_set_text_combine_end_char _ => m_style_text_combine_end_char
  | style_set_text_emphasize _ _ => m_style_text_emphasize
  | style_set_text_line_through_color _ | style_set_text_line_through_mode _ | style_set_text_line_through_style _ | style_set_text_line_through_text _ | style_set_text_line_through_text_style _ | style_set_text_line_through_type _ | style_set_text_line_through_width _ => m_style_text_line_through
  | style_set_font_text_outline _ => m_style_text_outline
  | style_set_text_overline_color _ | style_set_text_overline_mode _ | style_set_text_overline_style _ | style_set_text_overline_type _ | style_set_text_overline_width _ => m_style_text_overline
  | style_set_text_underline_color _ | style_set_text_underline_mode _ | style_set_text_underline_style _ | style_set_text_underline_type _ | style_set_text_underline_width _ => m_style_text_underline
  | style_set_use_window_font_color _ => m_style_use_window_font_color
  | style_set_dynamic_spacing _ => m_style_dynamic_spacing
  | style_set_col_width _ => m_style_column_width
  | style_set_rel_col_width _ => m_style_rel_column_width
  | style_set_use_optimal_col_width _ => m_style_use_optimal_column_width
  | style_set_font_family_generic _ => m_style_font_family_generic
  | style_set_font_pitch _ => m_style_font_pitch
  | style_set_first_page_number _ => m_style_first_page_number
  | style_set_footnote_max_height _ => m_style_footnote_max_height
  | style_set_num_format _ => m_style_num_format
  | style_set_num_letter_sync _ => m_style_num_letter_sync
  | style_set_num_prefix _ => m_style_num_prefix
  | style_set_num_suffix _ => m_style_num_suffix
  | style_set_paper_tray_name _ => m_style_paper_tray_name
  | style_set_print _ => m_style_print
  | style_set_print_orientation _ => m_style_print_orientation
  | style_set_print_page_order _ => m_style_print_page_order
  | style_set_scale_to _ => m_style_scale_to
  | style_set_scale_to_pages _ => m_style_scale_to_pages
  | style_set_table_centering _ => m_style_table_centering
  | style_set_min_row_height _ => m_style_min_row_height
  | style_set_row_height _ => m_style_row_height
  | style_set_use_optimal_row_height _ => m_style_use_optimal_row_height
  | style_set_may_break_between_rows _ => m_style_may_break_between_rows
  | style_set_rel_width _ => m_style_rel_width
  | style_set_rel_height _ => m_style_rel_height
  | style_set_width _ => m_style_width
  | style_set_char _ => m_style_char
  | style_set_leader_color _ => m_style_leader_color
  | style_set_leader_style _ => m_style_leader_style
  | style_set_leader_text _ => m_style_leader_text
  | style_set_leader_text_style _ => m_style_leader_text_style
  | style_set_leader_type _ => m_style_leader_type
  | style_set_leader_width _ => m_style_leader_width
  | style_set_position _ => m_style_position
  | style_set_type _ => m_style_type
  | style_set_volatile _ => m_style_volatile
  | style_set_display_name _ => m_style_display_name
  | style_set_auto_update _ => m_style_auto_update
  | style_set_class _ => m_style_class
  | style_set_parent_style _ => m_style_parent_style_name
  | fo_set_background_color _ => m_fo_background_color
  | fo_set_border _ _ _ | fo_set_border_bottom _ _ _ | fo_set_border_left _ _ _ | fo_set_border_right _ _ _ | fo_set_border_top _ _ _ => m_fo_border
  | fo_set_padding _ | fo_set_padding_bottom _ | fo_set_padding_left _ | fo_set_padding_right _ | fo_set_padding_top _ => m_fo_padding
  | fo_set_wrap_option _ => m_fo_wrap_option
  | fo_set_border_line_width _ _ _ | fo_set_border_line_width_bottom _ _ _ | fo_set_border_line_width_left _ _ _ | fo_set_border_line_width_right _ _ _ | fo_set_border_line_width_top _ _ _ => m_fo_border_line_width
  | fo_set_break_before _ | fo_set_break_after _ => m_fo_break
  | fo_set_hyphenation_keep _ | fo_set_hyphenation_ladder_count _ => m_fo_hyphenation
  | fo_set_keep_together _ => m_fo_keep_together
  | fo_set_keep_with_next _ => m_fo_keep_with_next
  | fo_set_line_height _ => m_fo_line_height
  | fo_set_margin _ | fo_set_margin_bottom _ | fo_set_margin_left _ | fo_set_margin_right _ | fo_set_margin_top _ => m_fo_margin
  | fo_set_orphans _ => m_fo_orphans
  | fo_set_text_align _ => m_fo_text_align
  | fo_set_text_align_last _ => m_fo_text_align_last
  | fo_set_text_indent _ => m_fo_text_indent
  | fo_set_widows _ => m_fo_widows
  | fo_set_color _ => m_fo_color
  | fo_set_locale _ => m_fo_locale
  | fo_set_font_size _ => m_fo_font_size
  | fo_set_font_size_rel _ => m_fo_font_size_rel
  | fo_set_font_style _ | fo_set_font_italic => m_fo_font_style
  | fo_set_font_weight _ | fo_set_font_bold => m_fo_font_weight
  | fo_set_font_variant _ => m_fo_font_variant
  | fo_set_font_attr _ _ _ => m_fo_font_attr
  | fo_set_hyphenate _ => m_fo_hyphenate
  | fo_set_hyphenation_push_char_count _ => m_fo_hyphenation_push_char_count
  | fo_set_hyphenation_remain_char_count _ => m_fo_hyphenation_remain_char_count
  | fo_set_letter_spacing _ => m_fo_letter_spacing
  | fo_set_text_shadow _ _ _ _ => m_fo_text_shadow
  | fo_set_text_transform _ => m_fo_text_transform
  | fo_set_min_height _ => m_fo_min_height
  | fo_set_page_height _ => m_fo_page_height
  | fo_set_page_width _ => m_fo_page_width
  | svg_set_font_family _ => m_svg_font_family
  | svg_set_font_stretch _ => m_svg_font_stretch
  | svg_set_font_style _ => m_svg_font_style
  | svg_set_font_variant _ => m_svg_font_variant
  | svg_set_font_weight _ => m_svg_font_weight
  | svg_set_height _ => m_svg_height
  | svg_set_width _ => m_svg_width
  | svg_set_x _ => m_svg_x
  | svg_set_y _ => m_svg_y
  | table_set_align _ => m_table_align
  | table_set_border_model _ => m_table_border_model
  | table_set_display _ => m_table_display
  | table_set_tab_color _ => m_table_tab_color
  | table_set_table_end_cell_address _ => m_table_end_cell_address
  | table_set_table_end_x _ => m_table_end_x
  | table_set_table_end_y _ => m_table_end_y
  | table_set_table_table_background _ => m_table_table_background
  | text_set_text_condition _ => m_text_condition
  | text_set_display _ => m_text_display
  | draw_set_draw_caption_id _ => m_draw_caption_id
  | draw_set_draw_name _ => m_draw_name
  | draw_set_draw_class_names _ => m_draw_class_names
  | draw_set_draw_corner_radius _ => m_draw_corner_radius
  | draw_set_draw_id _ => m_draw_id
  | draw_set_draw_layer _ => m_draw_layer
  | draw_set_draw_style_name _ => m_draw_style_name
  | draw_set_draw_text_style_name _ => m_draw_text_style_name
  | draw_set_draw_transform _ => m_draw_transform
  | draw_set_draw_z_index _ => m_draw_z_index
  | draw_set_draw_caption_point_x _ => m_draw_caption_point_x
  | draw_set_draw_caption_point_y _ => m_draw_caption_point_y
  | draw_set_draw_copy_of _ => m_draw_copy_of
  | draw_set_draw_filter_name _ => m_draw_filter_name
  | draw_set_draw_mime_type _ => m_draw_mime_type
  | xlink_set_xlink_actuate _ => m_xlink_actuate
  | xlink_set_xlink_href _ => m_xlink_href
  | xlink_set_xlink_show _ => m_xlink_show
  | xlink_set_xlink_type _ => m_xlink_type
  | number_set_title _ => m_number_title
  | number_set_locale _ => m_number_locale
  | number_set_transliteration_locale _ => m_number_transliteration_locale
  | number_set_transliteration_format _ => m_number_transliteration_format
  | number_set_transliteration_style _ => m_number_transliteration_style
  | number_set_automatic_order _ => m_number_automatic_order
  | number_set_format_source _ => m_number_format_source
  | number_set_truncate_on_overflow _ => m_number_truncate_on_overflow
  | xml_set_xml_id _ => m_xml_id
  end.

(** ** Where they are offered *)

(** The types with setters. *)
Inductive fkind := FBoolean | FNumber | FPercentage | FCurrency | FText | FDateTime | FTimeDuration.
Inductive holder :=
| CellStyle | ColStyle | RowStyle | TableStyle | TextStyle | ParagraphStyle | GraphicStyle | FontFaceDecl | TabStop | PageStyle | HeaderFooterStyle | Annotation | DrawFrame | DrawImage | ValueFormat (k : fkind).
(** The attribute maps: of style:style, of the formatting properties, of fonts, tab stops, page layouts, headers and footers, annotations,
    frames and images, and of the number styles. *)
Inductive slot :=
| Style_attr | Cell_props | Col_props | Row_props | Table_props | Para_props | Text_props | Font_face | Tab_stop | Page_props | Hf_props
| Annotation_attr | Frame_attr | Image_attr | Format_attr.

(** The macros of the value formats: macro_format.rs:71-124. *)
Definition format_macros : list macro := [
  m_number_locale; m_number_title; m_number_transliteration_locale; m_number_transliteration_format; m_number_transliteration_style;
  m_style_display_name; m_style_volatile].
Definition format_text_macros : list macro := [
  m_fo_background_color; m_fo_color; m_style_font_name; m_fo_font_size; m_fo_font_size_rel; m_fo_font_style; m_fo_font_weight; m_fo_font_variant;
  m_fo_font_attr; m_style_locale_asian; m_style_font_name_asian; m_style_font_size_asian; m_style_font_size_rel_asian; m_style_font_style_asian;
  m_style_font_weight_asian; m_style_font_attr_asian; m_style_locale_complex; m_style_font_name_complex; m_style_font_size_complex;
  m_style_font_size_rel_complex; m_style_font_style_complex; m_style_font_weight_complex; m_style_font_attr_complex; m_fo_hyphenate;
  m_fo_hyphenation_push_char_count; m_fo_hyphenation_remain_char_count; m_fo_letter_spacing; m_fo_text_shadow; m_fo_text_transform;
  m_style_font_relief; m_style_text_position; m_style_rotation_angle; m_style_rotation_scale; m_style_letter_kerning; m_style_text_combine;
  m_style_text_combine_start_char; m_style_text_combine_end_char; m_style_text_emphasize; m_style_text_line_through; m_style_text_outline;
  m_style_text_overline; m_style_text_underline; m_style_use_window_font_color; m_text_condition; m_text_display].
(** format/mod.rs:172, 201-202, 236-237 *)
Definition format_own_macros (k : fkind) : list macro :=
  match k with FCurrency => [m_number_automatic_order] | FDateTime => [m_number_automatic_order; m_number_format_source]
  | FTimeDuration => [m_number_format_source; m_number_truncate_on_overflow] | _ => [] end.

(** Which macros a type uses on which of its maps; those of style:style also by macro_style.rs:39-42. *)
Definition offers (h : holder) (s : slot) : list macro :=
  match h, s with
  (* macro_style.rs:39-42 *)
  | CellStyle, Style_attr => [
      m_style_auto_update; m_style_class; m_style_display_name; m_style_parent_style_name]
  (* style/cellstyle.rs:171-189 *)
  | CellStyle, Cell_props => [
      m_fo_background_color; m_fo_border; m_fo_padding; m_fo_wrap_option; m_fo_border_line_width; m_style_cell_protect; m_style_decimal_places;
      m_style_diagonal; m_style_direction; m_style_glyph_orientation_vertical; m_style_print_content; m_style_repeat_content; m_style_rotation_align;
      m_style_rotation_angle; m_style_shadow; m_style_shrink_to_fit; m_style_text_align_source; m_style_vertical_align; m_style_writing_mode]
  (* style/cellstyle.rs:199-232 *)
  | CellStyle, Para_props => [
      m_fo_break; m_fo_hyphenation; m_fo_keep_together; m_fo_keep_with_next; m_fo_line_height; m_fo_margin; m_fo_orphans; m_fo_text_align;
      m_fo_text_align_last; m_fo_text_indent; m_fo_widows; m_style_auto_text_indent; m_style_background_transparency; m_style_contextual_spacing;
      m_style_font_independent_line_spacing; m_style_join_border; m_style_justify_single_word; m_style_line_break; m_style_line_height_at_least;
      m_style_line_spacing; m_style_page_number; m_style_punctuation_wrap; m_style_register_true; m_style_snap_to_layout_grid;
      m_style_tab_stop_distance; m_style_text_autospace; m_style_vertical_align_para; m_style_writing_mode_automatic; m_style_line_number;
      m_style_number_lines]
  (* style/cellstyle.rs:239-283 *)
  | CellStyle, Text_props => [
      m_fo_color; m_fo_locale; m_style_font_name; m_fo_font_size; m_fo_font_size_rel; m_fo_font_style; m_fo_font_weight; m_fo_font_variant;
      m_fo_font_attr; m_style_locale_asian; m_style_font_name_asian; m_style_font_size_asian; m_style_font_size_rel_asian; m_style_font_style_asian;
      m_style_font_weight_asian; m_style_font_attr_asian; m_style_locale_complex; m_style_font_name_complex; m_style_font_size_complex;
      m_style_font_size_rel_complex; m_style_font_style_complex; m_style_font_weight_complex; m_style_font_attr_complex; m_fo_hyphenate;
      m_fo_hyphenation_push_char_count; m_fo_hyphenation_remain_char_count; m_fo_letter_spacing; m_fo_text_shadow; m_fo_text_transform;
      m_style_font_relief; m_style_text_position; m_style_letter_kerning; m_style_text_combine; m_style_text_combine_start_char;
      m_style_text_combine_end_char; m_style_text_emphasize; m_style_text_line_through; m_style_text_outline; m_style_text_overline;
      m_style_text_underline; m_style_use_window_font_color; m_text_condition; m_text_display]
  (* macro_style.rs:39-42 *)
  | ColStyle, Style_attr => [
      m_style_auto_update; m_style_class; m_style_display_name; m_style_parent_style_name]
  (* style/colstyle.rs:77-80 *)
  | ColStyle, Col_props => [
      m_fo_break; m_style_column_width; m_style_rel_column_width; m_style_use_optimal_column_width]
  (* macro_style.rs:39-42 *)
  | RowStyle, Style_attr => [
      m_style_auto_update; m_style_class; m_style_display_name; m_style_parent_style_name]
  (* style/rowstyle.rs:77-82 *)
  | RowStyle, Row_props => [
      m_fo_background_color; m_fo_break; m_fo_keep_together; m_style_min_row_height; m_style_row_height; m_style_use_optimal_row_height]
  (* macro_style.rs:39-42, style/tablestyle.rs:55 *)
  | TableStyle, Style_attr => [
      m_style_auto_update; m_style_class; m_style_display_name; m_style_parent_style_name; m_style_master_page]
  (* style/tablestyle.rs:77-91 *)
  | TableStyle, Table_props => [
      m_fo_background_color; m_fo_break; m_fo_keep_with_next; m_fo_margin; m_style_may_break_between_rows; m_style_page_number; m_style_rel_width;
      m_style_width; m_style_shadow; m_style_writing_mode; m_table_align; m_table_border_model; m_table_display; m_table_tab_color]
  (* macro_style.rs:39-42 *)
  | TextStyle, Style_attr => [
      m_style_auto_update; m_style_class; m_style_display_name; m_style_parent_style_name]
  (* style/textstyle.rs:78-123 *)
  | TextStyle, Text_props => [
      m_fo_background_color; m_fo_color; m_fo_locale; m_style_font_name; m_fo_font_size; m_fo_font_size_rel; m_fo_font_style; m_fo_font_weight;
      m_fo_font_variant; m_fo_font_attr; m_style_locale_asian; m_style_font_name_asian; m_style_font_size_asian; m_style_font_size_rel_asian;
      m_style_font_style_asian; m_style_font_weight_asian; m_style_font_attr_asian; m_style_locale_complex; m_style_font_name_complex;
      m_style_font_size_complex; m_style_font_size_rel_complex; m_style_font_style_complex; m_style_font_weight_complex; m_style_font_attr_complex;
      m_fo_hyphenate; m_fo_hyphenation_push_char_count; m_fo_hyphenation_remain_char_count; m_fo_letter_spacing; m_fo_text_shadow;
      m_fo_text_transform; m_style_font_relief; m_style_text_position; m_style_rotation_angle; m_style_rotation_scale; m_style_letter_kerning;
      m_style_text_combine; m_style_text_combine_start_char; m_style_text_combine_end_char; m_style_text_emphasize; m_style_text_line_through;
      m_style_text_outline; m_style_text_overline; m_style_text_underline; m_style_use_window_font_color; m_text_condition; m_text_display]
  (* macro_style.rs:39-42, style/paragraphstyle.rs:106-108 *)
  | ParagraphStyle, Style_attr => [
      m_style_auto_update; m_style_class; m_style_display_name; m_style_parent_style_name; m_style_default_outline_level; m_style_master_page;
      m_style_next_style]
  (* style/paragraphstyle.rs:121-156 *)
  | ParagraphStyle, Para_props => [
      m_fo_background_color; m_fo_border; m_fo_break; m_fo_hyphenation; m_fo_keep_together; m_fo_keep_with_next; m_fo_line_height; m_fo_margin;
      m_fo_orphans; m_fo_padding; m_fo_text_align; m_fo_text_align_last; m_fo_text_indent; m_fo_widows; m_style_auto_text_indent;
      m_style_background_transparency; m_fo_border_line_width; m_style_contextual_spacing; m_style_font_independent_line_spacing; m_style_join_border;
      m_style_justify_single_word; m_style_line_break; m_style_line_height_at_least; m_style_line_spacing; m_style_page_number;
      m_style_punctuation_wrap; m_style_register_true; m_style_shadow; m_style_snap_to_layout_grid; m_style_tab_stop_distance; m_style_text_autospace;
      m_style_vertical_align_para; m_style_writing_mode; m_style_writing_mode_automatic; m_style_line_number; m_style_number_lines]
  (* style/paragraphstyle.rs:162-206 *)
  | ParagraphStyle, Text_props => [
      m_fo_color; m_fo_locale; m_style_font_name; m_fo_font_size; m_fo_font_size_rel; m_fo_font_style; m_fo_font_weight; m_fo_font_variant;
      m_fo_font_attr; m_style_locale_asian; m_style_font_name_asian; m_style_font_size_asian; m_style_font_size_rel_asian; m_style_font_style_asian;
      m_style_font_weight_asian; m_style_font_attr_asian; m_style_locale_complex; m_style_font_name_complex; m_style_font_size_complex;
      m_style_font_size_rel_complex; m_style_font_style_complex; m_style_font_weight_complex; m_style_font_attr_complex; m_fo_hyphenate;
      m_fo_hyphenation_push_char_count; m_fo_hyphenation_remain_char_count; m_fo_letter_spacing; m_fo_text_shadow; m_fo_text_transform;
      m_style_font_relief; m_style_text_position; m_style_rotation_scale; m_style_letter_kerning; m_style_text_combine;
      m_style_text_combine_start_char; m_style_text_combine_end_char; m_style_text_emphasize; m_style_text_line_through; m_style_text_outline;
      m_style_text_overline; m_style_text_underline; m_style_use_window_font_color; m_text_condition; m_text_display]
  (* macro_style.rs:39-42 *)
  | GraphicStyle, Style_attr => [
      m_style_auto_update; m_style_class; m_style_display_name; m_style_parent_style_name]
  (* style/graphicstyle.rs:111-146 *)
  | GraphicStyle, Para_props => [
      m_fo_background_color; m_fo_border; m_fo_break; m_fo_hyphenation; m_fo_keep_together; m_fo_keep_with_next; m_fo_line_height; m_fo_margin;
      m_fo_orphans; m_fo_padding; m_fo_text_align; m_fo_text_align_last; m_fo_text_indent; m_fo_widows; m_style_auto_text_indent;
      m_style_background_transparency; m_fo_border_line_width; m_style_contextual_spacing; m_style_font_independent_line_spacing; m_style_join_border;
      m_style_justify_single_word; m_style_line_break; m_style_line_height_at_least; m_style_line_spacing; m_style_page_number;
      m_style_punctuation_wrap; m_style_register_true; m_style_shadow; m_style_snap_to_layout_grid; m_style_tab_stop_distance; m_style_text_autospace;
      m_style_vertical_align_para; m_style_writing_mode; m_style_writing_mode_automatic; m_style_line_number; m_style_number_lines]
  (* style/graphicstyle.rs:152-196 *)
  | GraphicStyle, Text_props => [
      m_fo_color; m_fo_locale; m_style_font_name; m_fo_font_size; m_fo_font_size_rel; m_fo_font_style; m_fo_font_weight; m_fo_font_variant;
      m_fo_font_attr; m_style_locale_asian; m_style_font_name_asian; m_style_font_size_asian; m_style_font_size_rel_asian; m_style_font_style_asian;
      m_style_font_weight_asian; m_style_font_attr_asian; m_style_locale_complex; m_style_font_name_complex; m_style_font_size_complex;
      m_style_font_size_rel_complex; m_style_font_style_complex; m_style_font_weight_complex; m_style_font_attr_complex; m_fo_hyphenate;
      m_fo_hyphenation_push_char_count; m_fo_hyphenation_remain_char_count; m_fo_letter_spacing; m_fo_text_shadow; m_fo_text_transform;
      m_style_font_relief; m_style_text_position; m_style_rotation_scale; m_style_letter_kerning; m_style_text_combine;
      m_style_text_combine_start_char; m_style_text_combine_end_char; m_style_text_emphasize; m_style_text_line_through; m_style_text_outline;
      m_style_text_overline; m_style_text_underline; m_style_use_window_font_color; m_text_condition; m_text_display]
  (* style/fontface.rs:92-98 *)
  | FontFaceDecl, Font_face => [
      m_style_font_family_generic; m_style_font_pitch; m_svg_font_family; m_svg_font_stretch; m_svg_font_style; m_svg_font_variant; m_svg_font_weight]
  (* style/tabstop.rs:40-48 *)
  | TabStop, Tab_stop => [
      m_style_char; m_style_leader_color; m_style_leader_style; m_style_leader_text; m_style_leader_text_style; m_style_leader_type;
      m_style_leader_width; m_style_position; m_style_type]
  (* style/pagestyle.rs:128-150 *)
  | PageStyle, Page_props => [
      m_fo_page_height; m_fo_page_width; m_style_first_page_number; m_style_footnote_max_height; m_style_num_format; m_style_num_letter_sync;
      m_style_num_prefix; m_style_num_suffix; m_style_paper_tray_name; m_style_print; m_style_print_orientation; m_style_print_page_order;
      m_style_scale_to; m_style_scale_to_pages; m_style_table_centering; m_style_writing_mode; m_fo_background_color; m_fo_border;
      m_fo_border_line_width; m_fo_margin; m_fo_padding; m_style_dynamic_spacing; m_style_shadow]
  (* style/pagestyle.rs:170-178 *)
  | HeaderFooterStyle, Hf_props => [
      m_fo_background_color; m_fo_border; m_fo_margin; m_fo_min_height; m_fo_padding; m_fo_border_line_width; m_style_dynamic_spacing; m_style_shadow;
      m_svg_height]
  (* draw.rs:137-155 *)
  | Annotation, Annotation_attr => [
      m_draw_caption_point_x; m_draw_caption_point_y; m_draw_class_names; m_draw_corner_radius; m_draw_id; m_draw_layer; m_draw_style_name;
      m_draw_text_style_name; m_draw_transform; m_draw_z_index; m_svg_height; m_svg_width; m_svg_x; m_svg_y; m_table_end_cell_address; m_table_end_x;
      m_table_end_y; m_table_table_background; m_xml_id]
  (* draw.rs:318-339 *)
  | DrawFrame, Frame_attr => [
      m_draw_name; m_draw_caption_id; m_draw_class_names; m_draw_corner_radius; m_draw_copy_of; m_draw_id; m_draw_layer; m_draw_style_name;
      m_draw_text_style_name; m_draw_transform; m_draw_z_index; m_style_rel_height; m_style_rel_width; m_svg_height; m_svg_width; m_svg_x; m_svg_y;
      m_table_end_cell_address; m_table_end_x; m_table_end_y; m_table_table_background; m_xml_id]
  (* draw.rs:434-440 *)
  | DrawImage, Image_attr => [
      m_draw_filter_name; m_draw_mime_type; m_xlink_actuate; m_xlink_href; m_xlink_show; m_xlink_type; m_xml_id]
  | ValueFormat k, Format_attr => format_macros ++ format_own_macros k
  | ValueFormat _, Text_props => format_text_macros
  | _, _ => []
  end.

(** Which text a setter ought to give its attribute. *)
From Verif Require Import Base NumModel RefsModel EnumModel BookModel StyleModel FmtModel SetModel FmtSpec SetSpec.
From Coq Require Import String.
Local Open Scope string_scope.
Local Open Scope list_scope.
Local Open Scope N_scope.

(** ** The text of an argument *)

Definition truth (b : bool) : str := lit (if b then "true" else "false").
Definition unit_text (u : lunit) : str := lit (match u with Cm => "cm" | Mm => "mm" | In_ => "in" | Pt => "pt" | Pc => "pc" | Em => "em" end).
Definition length_text (l : length_) : str := match l with Len v u => v ++ unit_text u | LDefault => [] end.
Definition hex_text (n : N) : str := [nth (N.to_nat (n / 16)) (lit "0123456789abcdef") 0; nth (N.to_nat (n mod 16)) (lit "0123456789abcdef") 0].
Definition color_text (c : rgb) : str := 35 :: hex_text (c_r c) ++ hex_text (c_g c) ++ hex_text (c_b c).
Definition text_Percent (p : Percent) : str := match p with Percent_Percent v => v ++ [37] end.
Definition text_Angle (a : Angle) : str := match a with Angle_Deg v => v ++ lit "deg" | Angle_Grad v => v ++ lit "grad" | Angle_Rad v => v ++ lit "rad" end.
Definition followed (l : list str) : str := flat_map (fun s => s ++ [32]) l.
Fixpoint blank_between (l : list str) : str := match l with [] => [] | s :: r => match r with [] => s | _ => s ++ 32 :: blank_between r end end.
(** A value of an enumeration is written as the name of the variant in the kebab case; those that are not are the last four. *)
Definition text_LengthPercent (e : LengthPercent) : str :=
  match e with LengthPercent_Length x => length_text x | LengthPercent_Percent x => text_Percent x end.
Definition text_FontFamilyGeneric (e : FontFamilyGeneric) : str :=
  match e with FontFamilyGeneric_Decorative => lit "decorative" | FontFamilyGeneric_Modern => lit "modern" | FontFamilyGeneric_Roman => lit "roman"
   | FontFamilyGeneric_Script => lit "script" | FontFamilyGeneric_Swiss => lit "swiss" | FontFamilyGeneric_System => lit "system" end.
Definition text_FontPitch (e : FontPitch) : str := match e with FontPitch_Variable => lit "variable" | FontPitch_Fixed => lit "fixed" end.
Definition text_TabStopType (e : TabStopType) : str :=
  match e with TabStopType_Center => lit "center" | TabStopType_Left => lit "left" | TabStopType_Right => lit "right" | TabStopType_Char => lit "char" end.
Definition text_FontStretch (e : FontStretch) : str :=
  match e with FontStretch_Normal => lit "normal" | FontStretch_UltraCondensed => lit "ultra-condensed"
   | FontStretch_ExtraCondensed => lit "extra-condensed" | FontStretch_Condensed => lit "condensed"
   | FontStretch_SemiCondensed => lit "semi-condensed" | FontStretch_SemiExpanded => lit "semi-expanded" | FontStretch_Expanded => lit "expanded"
   | FontStretch_ExtraExpanded => lit "extra-expanded" | FontStretch_UltraExpanded => lit "ultra-expanded" end.
Definition text_Border (e : Border) : str :=
  match e with Border_None => lit "none" | Border_Hidden => lit "hidden" | Border_Dotted => lit "dotted" | Border_Dashed => lit "dashed"
   | Border_Solid => lit "solid" | Border_Double => lit "double" | Border_Groove => lit "groove" | Border_Ridge => lit "ridge"
   | Border_Inset => lit "inset" | Border_Outset => lit "outset" end.
Definition text_PageBreak (e : PageBreak) : str :=
  match e with PageBreak_Auto => lit "auto" | PageBreak_Column => lit "column" | PageBreak_Page => lit "page" end.
Definition text_FontSize (e : FontSize) : str := match e with FontSize_Length x => length_text x | FontSize_Percent x => text_Percent x end.
Definition text_FontStyle (e : FontStyle) : str :=
  match e with FontStyle_Normal => lit "normal" | FontStyle_Italic => lit "italic" | FontStyle_Oblique => lit "oblique" end.
Definition text_FontVariant (e : FontVariant) : str :=
  match e with FontVariant_Normal => lit "normal" | FontVariant_SmallCaps => lit "small-caps" end.
Definition text_FontWeight (e : FontWeight) : str :=
  match e with FontWeight_Normal => lit "normal" | FontWeight_Bold => lit "bold" | FontWeight_W100 => lit "100" | FontWeight_W200 => lit "200"
   | FontWeight_W300 => lit "300" | FontWeight_W400 => lit "400" | FontWeight_W500 => lit "500" | FontWeight_W600 => lit "600"
   | FontWeight_W700 => lit "700" | FontWeight_W800 => lit "800" | FontWeight_W900 => lit "900" end.
Definition text_Hyphenation (e : Hyphenation) : str := match e with Hyphenation_Auto => lit "auto" | Hyphenation_Page => lit "page" end.
Definition text_TextKeep (e : TextKeep) : str := match e with TextKeep_Auto => lit "auto" | TextKeep_Always => lit "always" end.
Definition text_LetterSpacing (e : LetterSpacing) : str :=
  match e with LetterSpacing_Normal => lit "normal" | LetterSpacing_Length x => length_text x end.
Definition text_LineHeight (e : LineHeight) : str :=
  match e with LineHeight_Normal => lit "normal" | LineHeight_Length x => length_text x | LineHeight_Percent x => text_Percent x end.
Definition text_Margin (e : Margin) : str := match e with Margin_Length x => length_text x | Margin_Percent x => text_Percent x end.
Definition text_TextAlign (e : TextAlign) : str :=
  match e with TextAlign_Start => lit "start" | TextAlign_Center => lit "center" | TextAlign_End => lit "end" | TextAlign_Justify => lit "justify"
   | TextAlign_Inside => lit "inside" | TextAlign_Outside => lit "outside" | TextAlign_Left => lit "left" | TextAlign_Right => lit "right" end.
Definition text_TextAlignLast (e : TextAlignLast) : str :=
  match e with TextAlignLast_Start => lit "start" | TextAlignLast_Center => lit "center" | TextAlignLast_Justify => lit "justify" end.
Definition text_Indent (e : Indent) : str := match e with Indent_Length x => length_text x | Indent_Percent x => text_Percent x end.
Definition text_TextTransform (e : TextTransform) : str :=
  match e with TextTransform_None => lit "none" | TextTransform_Lowercase => lit "lowercase" | TextTransform_Uppercase => lit "uppercase"
   | TextTransform_Capitalize => lit "capitalize" end.
Definition text_WrapOption (e : WrapOption) : str := match e with WrapOption_NoWrap => lit "no-wrap" | WrapOption_Wrap => lit "wrap" end.
Definition text_WritingDirection (e : WritingDirection) : str :=
  match e with WritingDirection_Ltr => lit "ltr" | WritingDirection_Ttb => lit "ttb" end.
Definition text_TextRelief (e : TextRelief) : str :=
  match e with TextRelief_None => lit "none" | TextRelief_Embossed => lit "embossed" | TextRelief_Engraved => lit "engraved" end.
Definition text_LineBreak (e : LineBreak) : str := match e with LineBreak_Normal => lit "normal" | LineBreak_Strict => lit "strict" end.
Definition text_PageNumber (e : PageNumber) : str := match e with PageNumber_Auto => lit "auto" | PageNumber_Number x => show_N x end.
Definition text_PrintContent (e : PrintContent) : str :=
  match e with PrintContent_Headers => lit "headers" | PrintContent_Grid => lit "grid" | PrintContent_Annotations => lit "annotations"
   | PrintContent_Objects => lit "objects" | PrintContent_Charts => lit "charts" | PrintContent_Drawings => lit "drawings"
   | PrintContent_Formulas => lit "formulas" | PrintContent_ZeroValues => lit "zero-values" end.
Definition text_PrintOrder (e : PrintOrder) : str := match e with PrintOrder_Ltr => lit "ltr" | PrintOrder_Ttb => lit "ttb" end.
Definition text_PrintOrientation (e : PrintOrientation) : str :=
  match e with PrintOrientation_Landscape => lit "landscape" | PrintOrientation_Portrait => lit "portrait" end.
Definition text_PunctuationWrap (e : PunctuationWrap) : str :=
  match e with PunctuationWrap_Hanging => lit "hanging" | PunctuationWrap_Simple => lit "simple" end.
Definition text_RelativeScale (e : RelativeScale) : str :=
  match e with RelativeScale_Scale => lit "scale" | RelativeScale_ScaleMin => lit "scale-min" | RelativeScale_Percent x => text_Percent x end.
Definition text_RotationAlign (e : RotationAlign) : str :=
  match e with RotationAlign_None => lit "none" | RotationAlign_Bottom => lit "bottom" | RotationAlign_Top => lit "top"
   | RotationAlign_Center => lit "center" end.
Definition text_PrintCentering (e : PrintCentering) : str :=
  match e with PrintCentering_None => lit "none" | PrintCentering_Horizontal => lit "horizontal" | PrintCentering_Vertical => lit "vertical"
   | PrintCentering_Both => lit "both" end.
Definition text_TextAlignSource (e : TextAlignSource) : str :=
  match e with TextAlignSource_Fix => lit "fix" | TextAlignSource_ValueType => lit "value-type" end.
Definition text_TextAutoSpace (e : TextAutoSpace) : str :=
  match e with TextAutoSpace_IdeographAlpha => lit "ideograph-alpha" | TextAutoSpace_None => lit "none" end.
Definition text_TextCombine (e : TextCombine) : str :=
  match e with TextCombine_None => lit "none" | TextCombine_Letters => lit "letters" | TextCombine_Lines => lit "lines" end.
Definition text_TextEmphasize (e : TextEmphasize) : str :=
  match e with TextEmphasize_None => lit "none" | TextEmphasize_Accent => lit "accent" | TextEmphasize_Circle => lit "circle"
   | TextEmphasize_Disc => lit "disc" | TextEmphasize_Dot => lit "dot" end.
Definition text_TextEmphasizePosition (e : TextEmphasizePosition) : str :=
  match e with TextEmphasizePosition_Above => lit "above" | TextEmphasizePosition_Below => lit "below" end.
Definition text_LineMode (e : LineMode) : str :=
  match e with LineMode_Continuous => lit "continuous" | LineMode_SkipWhiteSpace => lit "skip-white-space" end.
Definition text_LineStyle (e : LineStyle) : str :=
  match e with LineStyle_Dash => lit "dash" | LineStyle_DotDash => lit "dot-dash" | LineStyle_DotDotDash => lit "dot-dot-dash"
   | LineStyle_Dotted => lit "dotted" | LineStyle_LongDash => lit "long-dash" | LineStyle_None => lit "none" | LineStyle_Solid => lit "solid"
   | LineStyle_Wave => lit "wave" end.
Definition text_LineType (e : LineType) : str :=
  match e with LineType_None => lit "none" | LineType_Single => lit "single" | LineType_Double => lit "double" end.
Definition text_LineWidth (e : LineWidth) : str :=
  match e with LineWidth_Auto => lit "auto" | LineWidth_Bold => lit "bold" | LineWidth_Percent x => text_Percent x | LineWidth_Int x => show_N x
   | LineWidth_Length x => length_text x | LineWidth_Normal => lit "normal" | LineWidth_Dash => lit "dash" | LineWidth_Thin => lit "thin"
   | LineWidth_Medium => lit "medium" | LineWidth_Thick => lit "thick" end.
Definition text_TextPosition (e : TextPosition) : str :=
  match e with TextPosition_Sub => lit "sub" | TextPosition_Super => lit "super" | TextPosition_Percent x => text_Percent x end.
Definition text_RotationScale (e : RotationScale) : str :=
  match e with RotationScale_Fixed => lit "fixed" | RotationScale_LineHeight => lit "line-height" end.
Definition text_ParaAlignVertical (e : ParaAlignVertical) : str :=
  match e with ParaAlignVertical_Top => lit "top" | ParaAlignVertical_Middle => lit "middle" | ParaAlignVertical_Bottom => lit "bottom"
   | ParaAlignVertical_Auto => lit "auto" | ParaAlignVertical_Baseline => lit "baseline" end.
Definition text_CellAlignVertical (e : CellAlignVertical) : str :=
  match e with CellAlignVertical_Top => lit "top" | CellAlignVertical_Middle => lit "middle" | CellAlignVertical_Bottom => lit "bottom"
   | CellAlignVertical_Automatic => lit "automatic" end.
Definition text_WritingMode (e : WritingMode) : str :=
  match e with WritingMode_LrTb => lit "lr-tb" | WritingMode_RlTb => lit "rl-tb" | WritingMode_TbRl => lit "tb-rl" | WritingMode_TbLr => lit "tb-lr"
   | WritingMode_Lr => lit "lr" | WritingMode_Rl => lit "rl" | WritingMode_Tb => lit "tb" | WritingMode_Page => lit "page" end.
Definition text_TableAlign (e : TableAlign) : str :=
  match e with TableAlign_Center => lit "center" | TableAlign_Left => lit "left" | TableAlign_Right => lit "right"
   | TableAlign_Margins => lit "margins" end.
Definition text_TableBorderModel (e : TableBorderModel) : str :=
  match e with TableBorderModel_Collapsing => lit "collapsing" | TableBorderModel_Separating => lit "separating" end.
Definition text_TextCondition (e : TextCondition) : str := match e with TextCondition_None => lit "none" end.
Definition text_TextDisplay (e : TextDisplay) : str :=
  match e with TextDisplay_None => lit "none" | TextDisplay_Condition => lit "condition" | TextDisplay_True => lit "true" end.
Definition text_HyphenationLadderCount (e : HyphenationLadderCount) : str :=
  match e with HyphenationLadderCount_NoLimit => lit "no-limit" | HyphenationLadderCount_Count x => show_N x end.
Definition text_CellProtect (e : CellProtect) : str :=
  match e with CellProtect_FormulaHidden => lit "formula-hidden" | CellProtect_HiddenAndProtected => lit "hidden-and-protected"
   | CellProtect_None => lit "none" | CellProtect_Protected => lit "protected" | CellProtect_ProtectedFormulaHidden => lit "protected formula-hidden" end.
Definition text_GlyphOrientation (e : GlyphOrientation) : str :=
  match e with GlyphOrientation_Auto => lit "auto" | GlyphOrientation_Zero => lit "0" | GlyphOrientation_Angle x => text_Angle x end.
Definition text_StyleNumFormat (e : StyleNumFormat) : str :=
  match e with StyleNumFormat_None => lit "" | StyleNumFormat_Number => lit "1" | StyleNumFormat_LowerAlpha => lit "a"
   | StyleNumFormat_Alpha => lit "A" | StyleNumFormat_LowerRoman => lit "i" | StyleNumFormat_Roman => lit "I" | StyleNumFormat_Text x => x end.
(** The text a setter gives its attribute. Not here: those of locales, of fonts as a whole, of cell references and of a column width that is not given. *)
Definition argument_text (s : setter) : option str :=
  match s with
  | style_set_default_outline_level x => Some (show_N x)
  | style_set_master_page x => Some x
  | style_set_next_style x => Some x
  | style_set_cell_protect x => Some (text_CellProtect x)
  | style_set_decimal_places x => Some (show_N x)
  | style_set_diagonal_bl_tr x y z => Some (blank_between [length_text x; text_Border y; color_text z])
  | style_set_diagonal_bl_tr_widths x y z => Some (blank_between [length_text x; length_text y; length_text z])
  | style_set_diagonal_tl_br x y z => Some (blank_between [length_text x; text_Border y; color_text z])
  | style_set_diagonal_tl_br_widths x y z => Some (blank_between [length_text x; length_text y; length_text z])
  | style_set_direction x => Some (text_WritingDirection x)
  | style_set_glyph_orientation_vertical x => Some (text_GlyphOrientation x)
  | style_set_print_content x => Some (truth x)
  | style_set_repeat_content x => Some (truth x)
  | style_set_rotation_align x => Some (text_RotationAlign x)
  | style_set_rotation_scale x => Some (text_RotationScale x)
  | style_set_rotation_angle x => Some (text_Angle x)
  | style_set_shadow x y b c => Some (blank_between (color_text c :: length_text x :: length_text y :: map length_text (match b with Some b => [b] | None => [] end)))
  | style_set_shrink_to_fit x => Some (truth x)
  | style_set_text_align_source x => Some (text_TextAlignSource x)
  | style_set_vertical_align x => Some (text_CellAlignVertical x)
  | style_set_auto_text_indent x => Some (truth x)
  | style_set_background_transpareny x => Some (text_Percent x)
  | style_set_contextual_spacing x => Some (truth x)
  | style_set_font_independent_line_spacing x => Some (truth x)
  | style_set_join_border x => Some (truth x)
  | style_set_justify_single_word x => Some (truth x)
  | style_set_line_break x => Some (text_LineBreak x)
  | style_set_line_height_at_least x => Some (length_text x)
  | style_set_line_spacing x => Some (length_text x)
  | style_set_page_number x => Some (text_PageNumber x)
  | style_set_punctuation_wrap x => Some (text_PunctuationWrap x)
  | style_set_register_true x => Some (truth x)
  | style_set_snap_to_layout_grid x => Some (truth x)
  | style_set_tab_stop_distance x => Some (length_text x)
  | style_set_text_autospace x => Some (text_TextAutoSpace x)
  | style_set_vertical_align_para x => Some (text_ParaAlignVertical x)
  | style_set_writing_mode x => Some (text_WritingMode x)
  | style_set_writing_mode_automatic x => Some (truth x)
  | style_set_line_number x => Some (show_N x)
  | style_set_number_lines x => Some (truth x)
  | style_set_font_name x => Some x
  | style_set_font_name_asian x => Some x
  | style_set_font_size_asian x => Some (text_FontSize x)
  | style_set_font_size_rel_asian x => Some (text_FontSize x)
  | style_set_font_style_asian x => Some (text_FontStyle x)
  | style_set_font_italic_asian => Some (lit "italic")
  | style_set_font_weight_asian x => Some (text_FontWeight x)
  | style_set_font_bold_asian => Some (lit "bold")
  | style_set_font_name_complex x => Some x
  | style_set_font_size_complex x => Some (text_FontSize x)
  | style_set_font_size_rel_complex x => Some (text_FontSize x)
  | style_set_font_style_complex x => Some (text_FontStyle x)
  | style_set_font_italic_complex => Some (lit "italic")
  | style_set_font_weight_complex x => Some (text_FontWeight x)
  | style_set_font_bold_complex => Some (lit "bold")
  | style_set_font_relief x => Some (text_TextRelief x)
  | style_set_text_position x y => Some (blank_between (text_TextPosition x :: map text_Percent (match y with Some y => [y] | None => [] end)))
  | style_set_letter_kerning x => Some (truth x)
  | style_set_text_combine x => Some (text_TextCombine x)
  | style_set_text_combine_start_char x => Some ([x])
  | style_set_text_combine_end_char x => Some ([x])
  | style_set_text_emphasize x y => Some (blank_between [text_TextEmphasize x; text_TextEmphasizePosition y])
  | style_set_text_line_through_color x => Some (color_text x)
  | style_set_text_line_through_mode x => Some (text_LineMode x)
  | style_set_text_line_through_style x => Some (text_LineStyle x)
  | style_set_text_line_through_text x => Some x
  | style_set_text_line_through_text_style x => Some x
  | style_set_text_line_through_type x => Some (text_LineType x)
  | style_set_text_line_through_width x => Some (text_LineWidth x)
  | style_set_font_text_outline x => Some (truth x)
  | style_set_text_overline_color x => Some (color_text x)
  | style_set_text_overline_mode x => Some (text_LineMode x)
  | style_set_text_overline_style x => Some (text_LineStyle x)
  | style_set_text_overline_type x => Some (text_LineType x)
  | style_set_text_overline_width x => Some (text_LineWidth x)
  | style_set_text_underline_color x => Some (color_text x)
  | style_set_text_underline_mode x => Some (text_LineMode x)
  | style_set_text_underline_style x => Some (text_LineStyle x)
  | style_set_text_underline_type x => Some (text_LineType x)
  | style_set_text_underline_width x => Some (text_LineWidth x)
  | style_set_use_window_font_color x => Some (truth x)
  | style_set_dynamic_spacing x => Some (truth x)
  | style_set_col_width (Len v u) => Some (length_text (Len v u))
  | style_set_rel_col_width x => Some (x ++ [42])
  | style_set_use_optimal_col_width x => Some (truth x)
  | style_set_font_family_generic x => Some (text_FontFamilyGeneric x)
  | style_set_font_pitch x => Some (text_FontPitch x)
  | style_set_first_page_number x => Some (show_N x)
  | style_set_footnote_max_height x => Some (length_text x)
  | style_set_num_format x => Some (text_StyleNumFormat x)
  | style_set_num_letter_sync x => Some (truth x)
  | style_set_num_prefix x => Some x
  | style_set_num_suffix x => Some x
  | style_set_paper_tray_name x => Some x
  | style_set_print x => Some (followed (map text_PrintContent x))
  | style_set_print_orientation x => Some (text_PrintOrientation x)
  | style_set_print_page_order x => Some (text_PrintOrder x)
  | style_set_scale_to x => Some (text_Percent x)
  | style_set_scale_to_pages x => Some (show_N x)
  | style_set_table_centering x => Some (text_PrintCentering x)
  | style_set_min_row_height x => Some (length_text x)
  | style_set_row_height x => Some (length_text x)
  | style_set_use_optimal_row_height x => Some (truth x)
  | style_set_may_break_between_rows x => Some (truth x)
  | style_set_rel_width x => Some (text_RelativeScale x)
  | style_set_rel_height x => Some (text_RelativeScale x)
  | style_set_width x => Some (length_text x)
  | style_set_char x => Some ([x])
  | style_set_leader_color x => Some (color_text x)
  | style_set_leader_style x => Some (text_LineStyle x)
  | style_set_leader_text x => Some ([x])
  | style_set_leader_text_style x => Some x
  | style_set_leader_type x => Some (text_LineType x)
  | style_set_leader_width x => Some (text_LineWidth x)
  | style_set_position x => Some (length_text x)
  | style_set_type x => Some (text_TabStopType x)
  | style_set_volatile x => Some (truth x)
  | style_set_display_name x => Some x
  | style_set_auto_update x => Some (truth x)
  | style_set_class x => Some x
  | style_set_parent_style x => Some x
  | fo_set_background_color x => Some (color_text x)
  | fo_set_border x y z => Some (blank_between [length_text x; text_Border y; color_text z])
  | fo_set_border_bottom x y z => Some (blank_between [length_text x; text_Border y; color_text z])
  | fo_set_border_left x y z => Some (blank_between [length_text x; text_Border y; color_text z])
  | fo_set_border_right x y z => Some (blank_between [length_text x; text_Border y; color_text z])
  | fo_set_border_top x y z => Some (blank_between [length_text x; text_Border y; color_text z])
  | fo_set_padding x => Some (length_text x)
  | fo_set_padding_bottom x => Some (length_text x)
  | fo_set_padding_left x => Some (length_text x)
  | fo_set_padding_right x => Some (length_text x)
  | fo_set_padding_top x => Some (length_text x)
  | fo_set_wrap_option x => Some (text_WrapOption x)
  | fo_set_border_line_width x y z => Some (blank_between [length_text x; length_text y; length_text z])
  | fo_set_border_line_width_bottom x y z => Some (blank_between [length_text x; length_text y; length_text z])
  | fo_set_border_line_width_left x y z => Some (blank_between [length_text x; length_text y; length_text z])
  | fo_set_border_line_width_right x y z => Some (blank_between [length_text x; length_text y; length_text z])
  | fo_set_border_line_width_top x y z => Some (blank_between [length_text x; length_text y; length_text z])
  | fo_set_break_before x => Some (text_PageBreak x)
  | fo_set_break_after x => Some (text_PageBreak x)
  | fo_set_hyphenation_keep x => Some (text_Hyphenation x)
  | fo_set_hyphenation_ladder_count x => Some (text_HyphenationLadderCount x)
  | fo_set_keep_together x => Some (text_TextKeep x)
  | fo_set_keep_with_next x => Some (text_TextKeep x)
  | fo_set_line_height x => Some (text_LineHeight x)
  | fo_set_margin x => Some (text_Margin x)
  | fo_set_margin_bottom x => Some (text_Margin x)
  | fo_set_margin_left x => Some (text_Margin x)
  | fo_set_margin_right x => Some (text_Margin x)
  | fo_set_margin_top x => Some (text_Margin x)
  | fo_set_orphans x => Some (show_N x)
  | fo_set_text_align x => Some (text_TextAlign x)
  | fo_set_text_align_last x => Some (text_TextAlignLast x)
  | fo_set_text_indent x => Some (text_Indent x)
  | fo_set_widows x => Some (show_N x)
  | fo_set_color x => Some (color_text x)
  | fo_set_font_size x => Some (text_FontSize x)
  | fo_set_font_size_rel x => Some (text_FontSize x)
  | fo_set_font_style x => Some (text_FontStyle x)
  | fo_set_font_italic => Some (lit "italic")
  | fo_set_font_weight x => Some (text_FontWeight x)
  | fo_set_font_bold => Some (lit "bold")
  | fo_set_font_variant x => Some (text_FontVariant x)
  | fo_set_hyphenate x => Some (truth x)
  | fo_set_hyphenation_push_char_count x => Some (show_N x)
  | fo_set_hyphenation_remain_char_count x => Some (show_N x)
  | fo_set_letter_spacing x => Some (text_LetterSpacing x)
  | fo_set_text_shadow x y b c => Some (blank_between (color_text c :: length_text x :: length_text y :: map length_text (match b with Some b => [b] | None => [] end)))
  | fo_set_text_transform x => Some (text_TextTransform x)
  | fo_set_min_height x => Some (text_LengthPercent x)
  | fo_set_page_height x => Some (length_text x)
  | fo_set_page_width x => Some (length_text x)
  | svg_set_font_family x => Some x
  | svg_set_font_stretch x => Some (text_FontStretch x)
  | svg_set_font_style x => Some (text_FontStyle x)
  | svg_set_font_variant x => Some (text_FontVariant x)
  | svg_set_font_weight x => Some (text_FontWeight x)
  | svg_set_height x => Some (length_text x)
  | svg_set_width x => Some (length_text x)
  | svg_set_x x => Some (length_text x)
  | svg_set_y x => Some (length_text x)
  | table_set_align x => Some (text_TableAlign x)
  | table_set_border_model x => Some (text_TableBorderModel x)
  | table_set_display x => Some (truth x)
  | table_set_tab_color x => Some (color_text x)
  | table_set_table_end_x x => Some (length_text x)
  | table_set_table_end_y x => Some (length_text x)
  | table_set_table_table_background x => Some (truth x)
  | text_set_text_condition x => Some (text_TextCondition x)
  | text_set_display x => Some (text_TextDisplay x)
  | draw_set_draw_caption_id x => Some x
  | draw_set_draw_name x => Some x
  | draw_set_draw_class_names x => Some (followed x)
  | draw_set_draw_corner_radius x => Some (show_N x)
  | draw_set_draw_id x => Some x
  | draw_set_draw_layer x => Some x
  | draw_set_draw_style_name x => Some x
  | draw_set_draw_text_style_name x => Some x
  | draw_set_draw_transform x => Some (followed x)
  | draw_set_draw_z_index x => Some (show_N x)
  | draw_set_draw_caption_point_x x => Some (length_text x)
  | draw_set_draw_caption_point_y x => Some (length_text x)
  | draw_set_draw_copy_of x => Some x
  | draw_set_draw_filter_name x => Some x
  | draw_set_draw_mime_type x => Some x
  | xlink_set_xlink_actuate x => Some (lit (match x with OnLoad => "onLoad" | OnRequest => "onRequest" end))
  | xlink_set_xlink_href x => Some x
  | xlink_set_xlink_show x => Some (lit (match x with XNew => "new" | XReplace => "replace" end))
  | xlink_set_xlink_type x => Some (lit (match x with XSimple => "simple" | XExtended => "extended" | XLocator => "locator" | XArc => "arc" | XResource => "resource" | XTitle => "title" | XNone => "none" end))
  | number_set_title x => Some x
  | number_set_transliteration_format x => Some ([x])
  | number_set_transliteration_style x => Some (lit (match x with TShort => "short" | TMedium => "medium" | TLong => "long" end))
  | number_set_automatic_order x => Some (truth x)
  | number_set_format_source x => Some (lit (match x with FsFixed => "fixed" | FsLanguage => "language" end))
  | number_set_truncate_on_overflow x => Some (truth x)
  | xml_set_xml_id x => Some x
  | _ => None
  end.
(** Arguments with another text than they ought to have: no-limit, and when a link is followed. *)
Definition misspelt (s : setter) : bool :=
  match s with fo_set_hyphenation_ladder_count HyphenationLadderCount_NoLimit | xlink_set_xlink_actuate _ => true | _ => false end.
(** The setters of a locale, and where the language, the country and the script go. *)
Definition locale_to (s : setter) : option (locale * (string * string * string)) :=
  match s with
  | fo_set_locale l => Some (l, ("fo:language", "fo:country", "fo:script"))
  | style_set_locale_asian l => Some (l, ("style:language-asian", "style:country-asian", "style:script-asian"))
  | style_set_locale_complex l => Some (l, ("style:language-complex", "style:country-complex", "style:script-complex"))
  | number_set_locale l => Some (l, ("number:language", "number:country", "number:script"))
  | _ => None
  end.
(** The setters of a font as a whole, and where the size, the weight and the style go. *)
Definition font_to (s : setter) : option (FontSize * bool * bool * (string * string * string)) :=
  match s with
  | fo_set_font_attr z b i => Some (z, b, i, ("fo:font-size", "fo:font-weight", "fo:font-style"))
  | style_set_font_attr_asian z b i => Some (z, b, i, ("style:font-size-asian", "style:font-weight-asian", "style:font-style-asian"))
  | style_set_font_attr_complex z b i => Some (z, b, i, ("style:font-size-complex", "style:font-weight-complex", "style:font-style-complex"))
  | _ => None
  end.
(** A number that is less than zero, or none at all. *)
Definition negative (l : length_) : Prop := match l with Len v _ => v = lit "NaN" \/ (exists r, v = 45 :: r /\ exists d, In d r /\ d <> 48 /\ d <> 46) | LDefault => False end.

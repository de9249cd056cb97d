(** Lemmas for SetProps. *)
From Verif Require Import Base NumModel RefsSpec RefsModel EnumModel BookModel StyleModel FmtModel SetModel FmtSpec SetSpec Lib NumProofs FmtProofs.
From Coq Require Import Lia.

(** The attributes a setter touches. *)
Definition keys (s : setter) : list str :=
  match s with
  | style_set_default_outline_level _ => [lit "style:default-outline-level"]
  | style_set_master_page _ => [lit "style:master-page-name"]
  | style_set_next_style _ => [lit "style:next-style-name"]
  | style_set_cell_protect _ => [lit "style:cell-protect"]
  | style_set_decimal_places _ => [lit "style:decimal-places"]
  | style_set_diagonal_bl_tr _ _ _ => [lit "style:diagonal-bl-tr"]
  | style_set_diagonal_bl_tr_widths _ _ _ => [lit "style:diagonal-bl-tr-widths"]
  | style_set_diagonal_tl_br _ _ _ => [lit "style:diagonal-tl-br"]
  | style_set_diagonal_tl_br_widths _ _ _ => [lit "style:diagonal-tl-br-widths"]
  | style_set_direction _ => [lit "style:direction"]
  | style_set_glyph_orientation_vertical _ => [lit "style:glyph-orientation-vertical"]
  | style_set_print_content _ => [lit "style:print-content"]
  | style_set_repeat_content _ => [lit "style:repeat-content"]
  | style_set_rotation_align _ => [lit "style:rotation-align"]
  | style_set_rotation_scale _ => [lit "style:text-rotation-scale"]
  | style_set_rotation_angle _ => [lit "style:rotation-angle"]
  | style_set_shadow _ _ _ _ => [lit "style:shadow"]
  | style_set_shrink_to_fit _ => [lit "style:shrink-to-fit"]
  | style_set_text_align_source _ => [lit "style:text-align-source"]
  | style_set_vertical_align _ => [lit "style:vertical-align"]
  | style_set_auto_text_indent _ => [lit "style:auto-text-indent"]
  | style_set_background_transpareny _ => [lit "style:background-transparency"]
  | style_set_contextual_spacing _ => [lit "style:contextual-spacing"]
  | style_set_font_independent_line_spacing _ => [lit "style:font-independent-line-spacing"]
  | style_set_join_border _ => [lit "style:join-border"]
  | style_set_justify_single_word _ => [lit "style:justify-single-word"]
  | style_set_line_break _ => [lit "style:line-break"]
  | style_set_line_height_at_least _ => [lit "style:line-height-at-least"]
  | style_set_line_spacing _ => [lit "style:line-spacing"]
  | style_set_page_number _ => [lit "style:page-number"]
  | style_set_punctuation_wrap _ => [lit "style:punctuation-wrap"]
  | style_set_register_true _ => [lit "style:register-true"]
  | style_set_snap_to_layout_grid _ => [lit "style:snap-to-layout-grid"]
  | style_set_tab_stop_distance _ => [lit "style:tab-stop-distance"]
  | style_set_text_autospace _ => [lit "style:text-autospace"]
  | style_set_vertical_align_para _ => [lit "style:vertical-align"]
  | style_set_writing_mode _ => [lit "style:writing-mode"]
  | style_set_writing_mode_automatic _ => [lit "style:writing-mode-automatic"]
  | style_set_line_number _ => [lit "text:line-number"]
  | style_set_number_lines _ => [lit "text:number-lines"]
  | style_set_font_name _ => [lit "style:font-name"]
  | style_set_locale_asian _ => [lit "style:language-asian"; lit "style:country-asian"; lit "style:script-asian"]
  | style_set_font_name_asian _ => [lit "style:font-name-asian"]
  | style_set_font_size_asian _ => [lit "style:font-size-asian"]
  | style_set_font_size_rel_asian _ => [lit "style:font-size-rel-asian"]
  | style_set_font_style_asian _ => [lit "style:font-style-asian"]
  | style_set_font_italic_asian => [lit "style:font-style-asian"]
  | style_set_font_weight_asian _ => [lit "style:font-weight-asian"]
  | style_set_font_bold_asian => [lit "style:font-weight-asian"]
  | style_set_font_attr_asian _ _ _ => [lit "style:font-size-asian"; lit "style:font-weight-asian"; lit "style:font-style-asian"]
  | style_set_locale_complex _ => [lit "style:language-complex"; lit "style:country-complex"; lit "style:script-complex"]
  | style_set_font_name_complex _ => [lit "style:font-name-complex"]
  | style_set_font_size_complex _ => [lit "style:font-size-complex"]
  | style_set_font_size_rel_complex _ => [lit "style:font-size-rel-complex"]
  | style_set_font_style_complex _ => [lit "style:font-style-complex"]
  | style_set_font_italic_complex => [lit "style:font-style-complex"]
  | style_set_font_weight_complex _ => [lit "style:font-weight-complex"]
  | style_set_font_bold_complex => [lit "style:font-weight-complex"]
  | style_set_font_attr_complex _ _ _ => [lit "style:font-size-complex"; lit "style:font-weight-complex"; lit "style:font-style-complex"]
  | style_set_font_relief _ => [lit "style:font-relief"]
  | style_set_text_position _ _ => [lit "style:text-position"]
  | style_set_letter_kerning _ => [lit "style:letter-kerning"]
  | style_set_text_combine _ => [lit "style:text-combine"]
  | style_set_text_combine_start_char _ => [lit "style:text-combine-start-char"]
  | style_set_text_combine_end_char _ => [lit "style:text-combine-end-char"]
  | style_set_text_emphasize _ _ => [lit "style:text-emphasize"]
  | style_set_text_line_through_color _ => [lit "style:text-line-through-color"]
  | style_set_text_line_through_mode _ => [lit "style:text-line-through-mode"]
  | style_set_text_line_through_style _ => [lit "style:text-line-through-style"]
  | style_set_text_line_through_text _ => [lit "style:text-line-through-text"]
  | style_set_text_line_through_text_style _ => [lit "style:text-line-through-text-style"]
  | style_set_text_line_through_type _ => [lit "style:text-line-through-type"]
  | style_set_text_line_through_width _ => [lit "style:text-line-through-width"]
  | style_set_font_text_outline _ => [lit "style:text-outline"]
  | style_set_text_overline_color _ => [lit "style:text-overline-color"]
  | style_set_text_overline_mode _ => [lit "style:text-overline-mode"]
  | style_set_text_overline_style _ => [lit "style:text-overline-style"]
  | style_set_text_overline_type _ => [lit "style:text-overline-type"]
  | style_set_text_overline_width _ => [lit "style:text-overline-width"]
  | style_set_text_underline_color _ => [lit "style:text-underline-color"]
  | style_set_text_underline_mode _ => [lit "style:text-underline-mode"]
  | style_set_text_underline_style _ => [lit "style:text-underline-style"]
  | style_set_text_underline_type _ => [lit "style:text-underline-type"]
  | style_set_text_underline_width _ => [lit "style:text-underline-width"]
  | style_set_use_window_font_color _ => [lit "style:use-window-font-color"]
  | style_set_dynamic_spacing _ => [lit "style:dynamic-spacing"]
  | style_set_col_width _ => [lit "style:column-width"]
  | style_set_rel_col_width _ => [lit "style:rel-column-width"]
  | style_set_use_optimal_col_width _ => [lit "style:use-optimal-column-width"]
  | style_set_font_family_generic _ => [lit "style:font-family-generic"]
  | style_set_font_pitch _ => [lit "style:font-pitch"]
  | style_set_first_page_number _ => [lit "style:first-page-number"]
  | style_set_footnote_max_height _ => [lit "style:footnote-max-height"]
  | style_set_num_format _ => [lit "style:num-format"]
  | style_set_num_letter_sync _ => [lit "style:num-letter-sync"]
  | style_set_num_prefix _ => [lit "style:num-prefix"]
  | style_set_num_suffix _ => [lit "style:num-suffix"]
  | style_set_paper_tray_name _ => [lit "style:paper-tray-name"]
  | style_set_print _ => [lit "style:print"]
  | style_set_print_orientation _ => [lit "style:print-orientation"]
  | style_set_print_page_order _ => [lit "style:print-page-order"]
  | style_set_scale_to _ => [lit "style:scale-to"]
  | style_set_scale_to_pages _ => [lit "style:scale-to-pages"]
  | style_set_table_centering _ => [lit "style:table-centering"]
  | style_set_min_row_height _ => [lit "style:min-row-height"]
  | style_set_row_height _ => [lit "style:row-height"]
  | style_set_use_optimal_row_height _ => [lit "style:use-optimal-row-height"]
  | style_set_may_break_between_rows _ => [lit "style:may-break-between-rows"]
  | style_set_rel_width _ => [lit "style:rel-width"]
  | style_set_rel_height _ => [lit "style:rel-height"]
  | style_set_width _ => [lit "style:width"]
  | style_set_char _ => [lit "style:char"]
  | style_set_leader_color _ => [lit "style:leader-color"]
  | style_set_leader_style _ => [lit "style:leader-style"]
  | style_set_leader_text _ => [lit "style:leader-text"]
  | style_set_leader_text_style _ => [lit "style:leader-text-style"]
  | style_set_leader_type _ => [lit "style:leader-type"]
  | style_set_leader_width _ => [lit "style:leader-width"]
  | style_set_position _ => [lit "style:position"]
  | style_set_type _ => [lit "style:type"]
  | style_set_volatile _ => [lit "style:volatile"]
  | style_set_display_name _ => [lit "style:display-name"]
  | style_set_auto_update _ => [lit "style:auto-update"]
  | style_set_class _ => [lit "style:class"]
  | style_set_parent_style _ => [lit "style:parent-style-name"]
  | fo_set_background_color _ => [lit "fo:background-color"]
  | fo_set_border _ _ _ => [lit "fo:border"]
  | fo_set_border_bottom _ _ _ => [lit "fo:border-bottom"]
  | fo_set_border_left _ _ _ => [lit "fo:border-left"]
  | fo_set_border_right _ _ _ => [lit "fo:border-right"]
  | fo_set_border_top _ _ _ => [lit "fo:border-top"]
  | fo_set_padding _ => [lit "fo:padding"]
  | fo_set_padding_bottom _ => [lit "fo:padding-bottom"]
  | fo_set_padding_left _ => [lit "fo:padding-left"]
  | fo_set_padding_right _ => [lit "fo:padding-right"]
  | fo_set_padding_top _ => [lit "fo:padding-top"]
  | fo_set_wrap_option _ => [lit "fo:wrap-option"]
  | fo_set_border_line_width _ _ _ => [lit "style:border-line-width"]
  | fo_set_border_line_width_bottom _ _ _ => [lit "style:border-line-width-bottom"]
  | fo_set_border_line_width_left _ _ _ => [lit "style:border-line-width-left"]
  | fo_set_border_line_width_right _ _ _ => [lit "style:border-line-width-right"]
  | fo_set_border_line_width_top _ _ _ => [lit "style:border-line-width-top"]
  | fo_set_break_before _ => [lit "fo:break-before"]
  | fo_set_break_after _ => [lit "fo:break-after"]
  | fo_set_hyphenation_keep _ => [lit "fo:hyphenation-keep"]
  | fo_set_hyphenation_ladder_count _ => [lit "fo:hyphenation-ladder-count"]
  | fo_set_keep_together _ => [lit "fo:keep-together"]
  | fo_set_keep_with_next _ => [lit "fo:keep-with-next"]
  | fo_set_line_height _ => [lit "fo:line-height"]
  | fo_set_margin _ => [lit "fo:margin"]
  | fo_set_margin_bottom _ => [lit "fo:margin-bottom"]
  | fo_set_margin_left _ => [lit "fo:margin-left"]
  | fo_set_margin_right _ => [lit "fo:margin-right"]
  | fo_set_margin_top _ => [lit "fo:margin-top"]
  | fo_set_orphans _ => [lit "fo:orphans"]
  | fo_set_text_align _ => [lit "fo:text-align"]
  | fo_set_text_align_last _ => [lit "fo:text-align-last"]
  | fo_set_text_indent _ => [lit "fo:text-indent"]
  | fo_set_widows _ => [lit "fo:widows"]
  | fo_set_color _ => [lit "fo:color"]
  | fo_set_locale _ => [lit "fo:language"; lit "fo:country"; lit "fo:script"]
  | fo_set_font_size _ => [lit "fo:font-size"]
  | fo_set_font_size_rel _ => [lit "fo:font-size-rel"]
  | fo_set_font_style _ => [lit "fo:font-style"]
  | fo_set_font_italic => [lit "fo:font-style"]
  | fo_set_font_weight _ => [lit "fo:font-weight"]
  | fo_set_font_bold => [lit "fo:font-weight"]
  | fo_set_font_variant _ => [lit "fo:font-variant"]
  | fo_set_font_attr _ _ _ => [lit "fo:font-size"; lit "fo:font-weight"; lit "fo:font-style"]
  | fo_set_hyphenate _ => [lit "fo:hyphenate"]
  | fo_set_hyphenation_push_char_count _ => [lit "fo:hyphenation-push-char-count"]
  | fo_set_hyphenation_remain_char_count _ => [lit "fo:hyphenation-remain-char-count"]
  | fo_set_letter_spacing _ => [lit "fo:letter-spacing"]
  | fo_set_text_shadow _ _ _ _ => [lit "fo:text-shadow"]
  | fo_set_text_transform _ => [lit "fo:text-transform"]
  | fo_set_min_height _ => [lit "fo:min-height"]
  | fo_set_page_height _ => [lit "fo:page-height"]
  | fo_set_page_width _ => [lit "fo:page-width"]
  | svg_set_font_family _ => [lit "svg:font-family"]
  | svg_set_font_stretch _ => [lit "svg:font-stretch"]
  | svg_set_font_style _ => [lit "svg:font-style"]
  | svg_set_font_variant _ => [lit "svg:font-variant"]
  | svg_set_font_weight _ => [lit "svg:font-weight"]
  | svg_set_height _ => [lit "svg:height"]
  | svg_set_width _ => [lit "svg:width"]
  | svg_set_x _ => [lit "svg:x"]
  | svg_set_y _ => [lit "svg:y"]
  | table_set_align _ => [lit "table:align"]
  | table_set_border_model _ => [lit "table:border-model"]
  | table_set_display _ => [lit "table:display"]
  | table_set_tab_color _ => [lit "table:tab-color"]
  | table_set_table_end_cell_address _ => [lit "table:end-cell-address"]
  | table_set_table_end_x _ => [lit "table:end-x"]
  | table_set_table_end_y _ => [lit "table:end-y"]
  | table_set_table_table_background _ => [lit "table:table-background"]
  | text_set_text_condition _ => [lit "text:condition"]
  | text_set_display _ => [lit "text:display"]
  | draw_set_draw_caption_id _ => [lit "draw:caption-id"]
  | draw_set_draw_name _ => [lit "draw:name"]
  | draw_set_draw_class_names _ => [lit "draw:class-names"]
  | draw_set_draw_corner_radius _ => [lit "draw:corner-radius"]
  | draw_set_draw_id _ => [lit "draw:id"]
  | draw_set_draw_layer _ => [lit "draw:layer"]
  | draw_set_draw_style_name _ => [lit "draw:style-name"]
  | draw_set_draw_text_style_name _ => [lit "draw:text-style-name"]
  | draw_set_draw_transform _ => [lit "draw:transform"]
  | draw_set_draw_z_index _ => [lit "draw:z-index"]
  | draw_set_draw_caption_point_x _ => [lit "draw:caption-point-x"]
  | draw_set_draw_caption_point_y _ => [lit "draw:caption-point-y"]
  | draw_set_draw_copy_of _ => [lit "draw:copy-of"]
  | draw_set_draw_filter_name _ => [lit "draw:filter-name"]
  | draw_set_draw_mime_type _ => [lit "draw:mime-type"]
  | xlink_set_xlink_actuate _ => [lit "xlink:actuate"]
  | xlink_set_xlink_href _ => [lit "xlink:href"]
  | xlink_set_xlink_show _ => [lit "xlink:show"]
  | xlink_set_xlink_type _ => [lit "xlink:type"]
  | number_set_title _ => [lit "number:title"]
  | number_set_locale _ => [lit "number:language"; lit "number:country"; lit "number:script"]
  | number_set_transliteration_locale _ => [lit "number:transliteration-language"; lit "number:transliteration-country"]
  | number_set_transliteration_format _ => [lit "number:transliteration-format"]
  | number_set_transliteration_style _ => [lit "number:transliteration-style"]
  | number_set_automatic_order _ => [lit "number:automatic-order"]
  | number_set_format_source _ => [lit "number:format-source"]
  | number_set_truncate_on_overflow _ => [lit "number:truncate-on-overflow"]
  | xml_set_xml_id _ => [lit "xml_id"]
  end.
Definition mkeys (m : macro) : list str :=
  match m with
  | m_style_default_outline_level => [lit "style:default-outline-level"]
  | m_style_master_page => [lit "style:master-page-name"]
  | m_style_next_style => [lit "style:next-style-name"]
  | m_style_cell_protect => [lit "style:cell-protect"]
  | m_style_decimal_places => [lit "style:decimal-places"]
  | m_style_diagonal => [lit "style:diagonal-bl-tr"; lit "style:diagonal-bl-tr-widths"; lit "style:diagonal-tl-br"; lit "style:diagonal-tl-br-widths"]
  | m_style_direction => [lit "style:direction"]
  | m_style_glyph_orientation_vertical => [lit "style:glyph-orientation-vertical"]
  | m_style_print_content => [lit "style:print-content"]
  | m_style_repeat_content => [lit "style:repeat-content"]
  | m_style_rotation_align => [lit "style:rotation-align"]
  | m_style_rotation_scale => [lit "style:text-rotation-scale"]
  | m_style_rotation_angle => [lit "style:rotation-angle"]
  | m_style_shadow => [lit "style:shadow"]
  | m_style_shrink_to_fit => [lit "style:shrink-to-fit"]
  | m_style_text_align_source => [lit "style:text-align-source"]
  | m_style_vertical_align => [lit "style:vertical-align"]
  | m_style_auto_text_indent => [lit "style:auto-text-indent"]
  | m_style_background_transparency => [lit "style:background-transparency"]
  | m_style_contextual_spacing => [lit "style:contextual-spacing"]
  | m_style_font_independent_line_spacing => [lit "style:font-independent-line-spacing"]
  | m_style_join_border => [lit "style:join-border"]
  | m_style_justify_single_word => [lit "style:justify-single-word"]
  | m_style_line_break => [lit "style:line-break"]
  | m_style_line_height_at_least => [lit "style:line-height-at-least"]
  | m_style_line_spacing => [lit "style:line-spacing"]
  | m_style_page_number => [lit "style:page-number"]
  | m_style_punctuation_wrap => [lit "style:punctuation-wrap"]
  | m_style_register_true => [lit "style:register-true"]
  | m_style_snap_to_layout_grid => [lit "style:snap-to-layout-grid"]
  | m_style_tab_stop_distance => [lit "style:tab-stop-distance"]
  | m_style_text_autospace => [lit "style:text-autospace"]
  | m_style_vertical_align_para => [lit "style:vertical-align"]
  | m_style_writing_mode => [lit "style:writing-mode"]
  | m_style_writing_mode_automatic => [lit "style:writing-mode-automatic"]
  | m_style_line_number => [lit "text:line-number"]
  | m_style_number_lines => [lit "text:number-lines"]
  | m_style_font_name => [lit "style:font-name"]
  | m_style_locale_asian => [lit "style:language-asian"; lit "style:country-asian"; lit "style:script-asian"]
  | m_style_font_name_asian => [lit "style:font-name-asian"]
  | m_style_font_size_asian => [lit "style:font-size-asian"]
  | m_style_font_size_rel_asian => [lit "style:font-size-rel-asian"]
  | m_style_font_style_asian => [lit "style:font-style-asian"]
  | m_style_font_weight_asian => [lit "style:font-weight-asian"]
  | m_style_font_attr_asian => [lit "style:font-size-asian"; lit "style:font-weight-asian"; lit "style:font-style-asian"]
  | m_style_locale_complex => [lit "style:language-complex"; lit "style:country-complex"; lit "style:script-complex"]
  | m_style_font_name_complex => [lit "style:font-name-complex"]
  | m_style_font_size_complex => [lit "style:font-size-complex"]
  | m_style_font_size_rel_complex => [lit "style:font-size-rel-complex"]
  | m_style_font_style_complex => [lit "style:font-style-complex"]
  | m_style_font_weight_complex => [lit "style:font-weight-complex"]
  | m_style_font_attr_complex => [lit "style:font-size-complex"; lit "style:font-weight-complex"; lit "style:font-style-complex"]
  | m_style_font_relief => [lit "style:font-relief"]
  | m_style_text_position => [lit "style:text-position"]
  | m_style_letter_kerning => [lit "style:letter-kerning"]
  | m_style_text_combine => [lit "style:text-combine"]
  | m_style_text_combine_start_char => [lit "style:text-combine-start-char"]
  | m_style_text_combine_end_char => [lit "style:text-combine-end-char"]
  | m_style_text_emphasize => [lit "style:text-emphasize"]
  | m_style_text_line_through => [lit "style:text-line-through-color"; lit "style:text-line-through-mode"; lit "style:text-line-through-style"; lit "style:text-line-through-text"; lit "style:text-line-through-text-style"; lit "style:text-line-through-type"; lit "style:text-line-through-width"]
  | m_style_text_outline => [lit "style:text-outline"]
  | m_style_text_overline => [lit "style:text-overline-color"; lit "style:text-overline-mode"; lit "style:text-overline-style"; lit "style:text-overline-type"; lit "style:text-overline-width"]
  | m_style_text_underline => [lit "style:text-underline-color"; lit "style:text-underline-mode"; lit "style:text-underline-style"; lit "style:text-underline-type"; lit "style:text-underline-width"]
  | m_style_use_window_font_color => [lit "style:use-window-font-color"]
  | m_style_dynamic_spacing => [lit "style:dynamic-spacing"]
  | m_style_column_width => [lit "style:column-width"]
  | m_style_rel_column_width => [lit "style:rel-column-width"]
  | m_style_use_optimal_column_width => [lit "style:use-optimal-column-width"]
  | m_style_font_family_generic => [lit "style:font-family-generic"]
  | m_style_font_pitch => [lit "style:font-pitch"]
  | m_style_first_page_number => [lit "style:first-page-number"]
  | m_style_footnote_max_height => [lit "style:footnote-max-height"]
  | m_style_num_format => [lit "style:num-format"]
  | m_style_num_letter_sync => [lit "style:num-letter-sync"]
  | m_style_num_prefix => [lit "style:num-prefix"]
  | m_style_num_suffix => [lit "style:num-suffix"]
  | m_style_paper_tray_name => [lit "style:paper-tray-name"]
  | m_style_print => [lit "style:print"]
  | m_style_print_orientation => [lit "style:print-orientation"]
  | m_style_print_page_order => [lit "style:print-page-order"]
  | m_style_scale_to => [lit "style:scale-to"]
  | m_style_scale_to_pages => [lit "style:scale-to-pages"]
  | m_style_table_centering => [lit "style:table-centering"]
  | m_style_min_row_height => [lit "style:min-row-height"]
  | m_style_row_height => [lit "style:row-height"]
  | m_style_use_optimal_row_height => [lit "style:use-optimal-row-height"]
  | m_style_may_break_between_rows => [lit "style:may-break-between-rows"]
  | m_style_rel_width => [lit "style:rel-width"]
  | m_style_rel_height => [lit "style:rel-height"]
  | m_style_width => [lit "style:width"]
  | m_style_char => [lit "style:char"]
  | m_style_leader_color => [lit "style:leader-color"]
  | m_style_leader_style => [lit "style:leader-style"]
  | m_style_leader_text => [lit "style:leader-text"]
  | m_style_leader_text_style => [lit "style:leader-text-style"]
  | m_style_leader_type => [lit "style:leader-type"]
  | m_style_leader_width => [lit "style:leader-width"]
  | m_style_position => [lit "style:position"]
  | m_style_type => [lit "style:type"]
  | m_style_volatile => [lit "style:volatile"]
  | m_style_display_name => [lit "style:display-name"]
  | m_style_auto_update => [lit "style:auto-update"]
  | m_style_class => [lit "style:class"]
  | m_style_parent_style_name => [lit "style:parent-style-name"]
  | m_fo_background_color => [lit "fo:background-color"]
  | m_fo_border => [lit "fo:border"; lit "fo:border-bottom"; lit "fo:border-left"; lit "fo:border-right"; lit "fo:border-top"]
  | m_fo_padding => [lit "fo:padding"; lit "fo:padding-bottom"; lit "fo:padding-left"; lit "fo:padding-right"; lit "fo:padding-top"]
  | m_fo_wrap_option => [lit "fo:wrap-option"]
  | m_fo_border_line_width => [lit "style:border-line-width"; lit "style:border-line-width-bottom"; lit "style:border-line-width-left"; lit "style:border-line-width-right"; lit "style:border-line-width-top"]
  | m_fo_break => [lit "fo:break-before"; lit "fo:break-after"]
  | m_fo_hyphenation => [lit "fo:hyphenation-keep"; lit "fo:hyphenation-ladder-count"]
  | m_fo_keep_together => [lit "fo:keep-together"]
  | m_fo_keep_with_next => [lit "fo:keep-with-next"]
  | m_fo_line_height => [lit "fo:line-height"]
  | m_fo_margin => [lit "fo:margin"; lit "fo:margin-bottom"; lit "fo:margin-left"; lit "fo:margin-right"; lit "fo:margin-top"]
  | m_fo_orphans => [lit "fo:orphans"]
  | m_fo_text_align => [lit "fo:text-align"]
  | m_fo_text_align_last => [lit "fo:text-align-last"]
  | m_fo_text_indent => [lit "fo:text-indent"]
  | m_fo_widows => [lit "fo:widows"]
  | m_fo_color => [lit "fo:color"]
  | m_fo_locale => [lit "fo:language"; lit "fo:country"; lit "fo:script"]
  | m_fo_font_size => [lit "fo:font-size"]
  | m_fo_font_size_rel => [lit "fo:font-size-rel"]
  | m_fo_font_style => [lit "fo:font-style"]
  | m_fo_font_weight => [lit "fo:font-weight"]
  | m_fo_font_variant => [lit "fo:font-variant"]
  | m_fo_font_attr => [lit "fo:font-size"; lit "fo:font-weight"; lit "fo:font-style"]
  | m_fo_hyphenate => [lit "fo:hyphenate"]
  | m_fo_hyphenation_push_char_count => [lit "fo:hyphenation-push-char-count"]
  | m_fo_hyphenation_remain_char_count => [lit "fo:hyphenation-remain-char-count"]
  | m_fo_letter_spacing => [lit "fo:letter-spacing"]
  | m_fo_text_shadow => [lit "fo:text-shadow"]
  | m_fo_text_transform => [lit "fo:text-transform"]
  | m_fo_min_height => [lit "fo:min-height"]
  | m_fo_page_height => [lit "fo:page-height"]
  | m_fo_page_width => [lit "fo:page-width"]
  | m_svg_font_family => [lit "svg:font-family"]
  | m_svg_font_stretch => [lit "svg:font-stretch"]
  | m_svg_font_style => [lit "svg:font-style"]
  | m_svg_font_variant => [lit "svg:font-variant"]
  | m_svg_font_weight => [lit "svg:font-weight"]
  | m_svg_height => [lit "svg:height"]
  | m_svg_width => [lit "svg:width"]
  | m_svg_x => [lit "svg:x"]
  | m_svg_y => [lit "svg:y"]
  | m_table_align => [lit "table:align"]
  | m_table_border_model => [lit "table:border-model"]
  | m_table_display => [lit "table:display"]
  | m_table_tab_color => [lit "table:tab-color"]
  | m_table_end_cell_address => [lit "table:end-cell-address"]
  | m_table_end_x => [lit "table:end-x"]
  | m_table_end_y => [lit "table:end-y"]
  | m_table_table_background => [lit "table:table-background"]
  | m_text_condition => [lit "text:condition"]
  | m_text_display => [lit "text:display"]
  | m_draw_caption_id => [lit "draw:caption-id"]
  | m_draw_name => [lit "draw:name"]
  | m_draw_class_names => [lit "draw:class-names"]
  | m_draw_corner_radius => [lit "draw:corner-radius"]
  | m_draw_id => [lit "draw:id"]
  | m_draw_layer => [lit "draw:layer"]
  | m_draw_style_name => [lit "draw:style-name"]
  | m_draw_text_style_name => [lit "draw:text-style-name"]
  | m_draw_transform => [lit "draw:transform"]
  | m_draw_z_index => [lit "draw:z-index"]
  | m_draw_caption_point_x => [lit "draw:caption-point-x"]
  | m_draw_caption_point_y => [lit "draw:caption-point-y"]
  | m_draw_copy_of => [lit "draw:copy-of"]
  | m_draw_filter_name => [lit "draw:filter-name"]
  | m_draw_mime_type => [lit "draw:mime-type"]
  | m_xlink_actuate => [lit "xlink:actuate"]
  | m_xlink_href => [lit "xlink:href"]
  | m_xlink_show => [lit "xlink:show"]
  | m_xlink_type => [lit "xlink:type"]
  | m_number_title => [lit "number:title"]
  | m_number_locale => [lit "number:language"; lit "number:country"; lit "number:script"]
  | m_number_transliteration_locale => [lit "number:transliteration-language"; lit "number:transliteration-country"]
  | m_number_transliteration_format => [lit "number:transliteration-format"]
  | m_number_transliteration_style => [lit "number:transliteration-style"]
  | m_number_automatic_order => [lit "number:automatic-order"]
  | m_number_format_source => [lit "number:format-source"]
  | m_number_truncate_on_overflow => [lit "number:truncate-on-overflow"]
  | m_xml_id => [lit "xml_id"]
  end.
Definition mcode (m : macro) : N :=
  match m with
  | m_style_default_outline_level => 0
  | m_style_master_page => 1
  | m_style_next_style => 2
  | m_style_cell_protect => 3
  | m_style_decimal_places => 4
  | m_style_diagonal => 5
  | m_style_direction => 6
  | m_style_glyph_orientation_vertical => 7
  | m_style_print_content => 8
  | m_style_repeat_content => 9
  | m_style_rotation_align => 10
  | m_style_rotation_scale => 11
  | m_style_rotation_angle => 12
  | m_style_shadow => 13
  | m_style_shrink_to_fit => 14
  | m_style_text_align_source => 15
  | m_style_vertical_align => 16
  | m_style_auto_text_indent => 17
  | m_style_background_transparency => 18
  | m_style_contextual_spacing => 19
  | m_style_font_independent_line_spacing => 20
  | m_style_join_border => 21
  | m_style_justify_single_word => 22
  | m_style_line_break => 23
  | m_style_line_height_at_least => 24
  | m_style_line_spacing => 25
  | m_style_page_number => 26
  | m_style_punctuation_wrap => 27
  | m_style_register_true => 28
  | m_style_snap_to_layout_grid => 29
  | m_style_tab_stop_distance => 30
  | m_style_text_autospace => 31
  | m_style_vertical_align_para => 32
  | m_style_writing_mode => 33
  | m_style_writing_mode_automatic => 34
  | m_style_line_number => 35
  | m_style_number_lines => 36
  | m_style_font_name => 37
  | m_style_locale_asian => 38
  | m_style_font_name_asian => 39
  | m_style_font_size_asian => 40
  | m_style_font_size_rel_asian => 41
  | m_style_font_style_asian => 42
  | m_style_font_weight_asian => 43
  | m_style_font_attr_asian => 44
  | m_style_locale_complex => 45
  | m_style_font_name_complex => 46
  | m_style_font_size_complex => 47
  | m_style_font_size_rel_complex => 48
  | m_style_font_style_complex => 49
  | m_style_font_weight_complex => 50
  | m_style_font_attr_complex => 51
  | m_style_font_relief => 52
  | m_style_text_position => 53
  | m_style_letter_kerning => 54
  | m_style_text_combine => 55
  | m_style_text_combine_start_char => 56
  | m_style_text_combine_end_char => 57
  | m_style_text_emphasize => 58
  | m_style_text_line_through => 59
  | m_style_text_outline => 60
  | m_style_text_overline => 61
  | m_style_text_underline => 62
  | m_style_use_window_font_color => 63
  | m_style_dynamic_spacing => 64
  | m_style_column_width => 65
  | m_style_rel_column_width => 66
  | m_style_use_optimal_column_width => 67
  | m_style_font_family_generic => 68
  | m_style_font_pitch => 69
  | m_style_first_page_number => 70
  | m_style_footnote_max_height => 71
  | m_style_num_format => 72
  | m_style_num_letter_sync => 73
  | m_style_num_prefix => 74
  | m_style_num_suffix => 75
  | m_style_paper_tray_name => 76
  | m_style_print => 77
  | m_style_print_orientation => 78
  | m_style_print_page_order => 79
  | m_style_scale_to => 80
  | m_style_scale_to_pages => 81
  | m_style_table_centering => 82
  | m_style_min_row_height => 83
  | m_style_row_height => 84
  | m_style_use_optimal_row_height => 85
  | m_style_may_break_between_rows => 86
  | m_style_rel_width => 87
  | m_style_rel_height => 88
  | m_style_width => 89
  | m_style_char => 90
  | m_style_leader_color => 91
  | m_style_leader_style => 92
  | m_style_leader_text => 93
  | m_style_leader_text_style => 94
  | m_style_leader_type => 95
  | m_style_leader_width => 96
  | m_style_position => 97
  | m_style_type => 98
  | m_style_volatile => 99
  | m_style_display_name => 100
  | m_style_auto_update => 101
  | m_style_class => 102
  | m_style_parent_style_name => 103
  | m_fo_background_color => 104
  | m_fo_border => 105
  | m_fo_padding => 106
  | m_fo_wrap_option => 107
  | m_fo_border_line_width => 108
  | m_fo_break => 109
  | m_fo_hyphenation => 110
  | m_fo_keep_together => 111
  | m_fo_keep_with_next => 112
  | m_fo_line_height => 113
  | m_fo_margin => 114
  | m_fo_orphans => 115
  | m_fo_text_align => 116
  | m_fo_text_align_last => 117
  | m_fo_text_indent => 118
  | m_fo_widows => 119
  | m_fo_color => 120
  | m_fo_locale => 121
  | m_fo_font_size => 122
  | m_fo_font_size_rel => 123
  | m_fo_font_style => 124
  | m_fo_font_weight => 125
  | m_fo_font_variant => 126
  | m_fo_font_attr => 127
  | m_fo_hyphenate => 128
  | m_fo_hyphenation_push_char_count => 129
  | m_fo_hyphenation_remain_char_count => 130
  | m_fo_letter_spacing => 131
  | m_fo_text_shadow => 132
  | m_fo_text_transform => 133
  | m_fo_min_height => 134
  | m_fo_page_height => 135
  | m_fo_page_width => 136
  | m_svg_font_family => 137
  | m_svg_font_stretch => 138
  | m_svg_font_style => 139
  | m_svg_font_variant => 140
  | m_svg_font_weight => 141
  | m_svg_height => 142
  | m_svg_width => 143
  | m_svg_x => 144
  | m_svg_y => 145
  | m_table_align => 146
  | m_table_border_model => 147
  | m_table_display => 148
  | m_table_tab_color => 149
  | m_table_end_cell_address => 150
  | m_table_end_x => 151
  | m_table_end_y => 152
  | m_table_table_background => 153
  | m_text_condition => 154
  | m_text_display => 155
  | m_draw_caption_id => 156
  | m_draw_name => 157
  | m_draw_class_names => 158
  | m_draw_corner_radius => 159
  | m_draw_id => 160
  | m_draw_layer => 161
  | m_draw_style_name => 162
  | m_draw_text_style_name => 163
  | m_draw_transform => 164
  | m_draw_z_index => 165
  | m_draw_caption_point_x => 166
  | m_draw_caption_point_y => 167
  | m_draw_copy_of => 168
  | m_draw_filter_name => 169
  | m_draw_mime_type => 170
  | m_xlink_actuate => 171
  | m_xlink_href => 172
  | m_xlink_show => 173
  | m_xlink_type => 174
  | m_number_title => 175
  | m_number_locale => 176
  | m_number_transliteration_locale => 177
  | m_number_transliteration_format => 178
  | m_number_transliteration_style => 179
  | m_number_automatic_order => 180
  | m_number_format_source => 181
  | m_number_truncate_on_overflow => 182
  | m_xml_id => 183
  end.
Definition mdecode (n : N) : macro :=
  match n with
  | 0 => m_style_default_outline_level
  | 1 => m_style_master_page
  | 2 => m_style_next_style
  | 3 => m_style_cell_protect
  | 4 => m_style_decimal_places
  | 5 => m_style_diagonal
  | 6 => m_style_direction
  | 7 => m_style_glyph_orientation_vertical
  | 8 => m_style_print_content
  | 9 => m_style_repeat_content
  | 10 => m_style_rotation_align
  | 11 => m_style_rotation_scale
  | 12 => m_style_rotation_angle
  | 13 => m_style_shadow
  | 14 => m_style_shrink_to_fit
  | 15 => m_style_text_align_source
  | 16 => m_style_vertical_align
  | 17 => m_style_auto_text_indent
  | 18 => m_style_background_transparency
  | 19 => m_style_contextual_spacing
  | 20 => m_style_font_independent_line_spacing
  | 21 => m_style_join_border
  | 22 => m_style_justify_single_word
  | 23 => m_style_line_break
  | 24 => m_style_line_height_at_least
  | 25 => m_style_line_spacing
  | 26 => m_style_page_number
  | 27 => m_style_punctuation_wrap
  | 28 => m_style_register_true
  | 29 => m_style_snap_to_layout_grid
  | 30 => m_style_tab_stop_distance
  | 31 => m_style_text_autospace
  | 32 => m_style_vertical_align_para
  | 33 => m_style_writing_mode
  | 34 => m_style_writing_mode_automatic
  | 35 => m_style_line_number
  | 36 => m_style_number_lines
  | 37 => m_style_font_name
  | 38 => m_style_locale_asian
  | 39 => m_style_font_name_asian
  | 40 => m_style_font_size_asian
  | 41 => m_style_font_size_rel_asian
  | 42 => m_style_font_style_asian
  | 43 => m_style_font_weight_asian
  | 44 => m_style_font_attr_asian
  | 45 => m_style_locale_complex
  | 46 => m_style_font_name_complex
  | 47 => m_style_font_size_complex
  | 48 => m_style_font_size_rel_complex
  | 49 => m_style_font_style_complex
  | 50 => m_style_font_weight_complex
  | 51 => m_style_font_attr_complex
  | 52 => m_style_font_relief
  | 53 => m_style_text_position
  | 54 => m_style_letter_kerning
  | 55 => m_style_text_combine
  | 56 => m_style_text_combine_start_char
  | 57 => m_style_text_combine_end_char
  | 58 => m_style_text_emphasize
  | 59 => m_style_text_line_through
  | 60 => m_style_text_outline
  | 61 => m_style_text_overline
  | 62 => m_style_text_underline
  | 63 => m_style_use_window_font_color
  | 64 => m_style_dynamic_spacing
  | 65 => m_style_column_width
  | 66 => m_style_rel_column_width
  | 67 => m_style_use_optimal_column_width
  | 68 => m_style_font_family_generic
  | 69 => m_style_font_pitch
  | 70 => m_style_first_page_number
  | 71 => m_style_footnote_max_height
  | 72 => m_style_num_format
  | 73 => m_style_num_letter_sync
  | 74 => m_style_num_prefix
  | 75 => m_style_num_suffix
  | 76 => m_style_paper_tray_name
  | 77 => m_style_print
  | 78 => m_style_print_orientation
  | 79 => m_style_print_page_order
  | 80 => m_style_scale_to
  | 81 => m_style_scale_to_pages
  | 82 => m_style_table_centering
  | 83 => m_style_min_row_height
  | 84 => m_style_row_height
  | 85 => m_style_use_optimal_row_height
  | 86 => m_style_may_break_between_rows
  | 87 => m_style_rel_width
  | 88 => m_style_rel_height
  | 89 => m_style_width
  | 90 => m_style_char
  | 91 => m_style_leader_color
  | 92 => m_style_leader_style
  | 93 => m_style_leader_text
  | 94 => m_style_leader_text_style
  | 95 => m_style_leader_type
  | 96 => m_style_leader_width
  | 97 => m_style_position
  | 98 => m_style_type
  | 99 => m_style_volatile
  | 100 => m_style_display_name
  | 101 => m_style_auto_update
  | 102 => m_style_class
  | 103 => m_style_parent_style_name
  | 104 => m_fo_background_color
  | 105 => m_fo_border
  | 106 => m_fo_padding
  | 107 => m_fo_wrap_option
  | 108 => m_fo_border_line_width
  | 109 => m_fo_break
  | 110 => m_fo_hyphenation
  | 111 => m_fo_keep_together
  | 112 => m_fo_keep_with_next
  | 113 => m_fo_line_height
  | 114 => m_fo_margin
  | 115 => m_fo_orphans
  | 116 => m_fo_text_align
  | 117 => m_fo_text_align_last
  | 118 => m_fo_text_indent
  | 119 => m_fo_widows
  | 120 => m_fo_color
  | 121 => m_fo_locale
  | 122 => m_fo_font_size
  | 123 => m_fo_font_size_rel
  | 124 => m_fo_font_style
  | 125 => m_fo_font_weight
  | 126 => m_fo_font_variant
  | 127 => m_fo_font_attr
  | 128 => m_fo_hyphenate
  | 129 => m_fo_hyphenation_push_char_count
  | 130 => m_fo_hyphenation_remain_char_count
  | 131 => m_fo_letter_spacing
  | 132 => m_fo_text_shadow
  | 133 => m_fo_text_transform
  | 134 => m_fo_min_height
  | 135 => m_fo_page_height
  | 136 => m_fo_page_width
  | 137 => m_svg_font_family
  | 138 => m_svg_font_stretch
  | 139 => m_svg_font_style
  | 140 => m_svg_font_variant
  | 141 => m_svg_font_weight
  | 142 => m_svg_height
  | 143 => m_svg_width
  | 144 => m_svg_x
  | 145 => m_svg_y
  | 146 => m_table_align
  | 147 => m_table_border_model
  | 148 => m_table_display
  | 149 => m_table_tab_color
  | 150 => m_table_end_cell_address
  | 151 => m_table_end_x
  | 152 => m_table_end_y
  | 153 => m_table_table_background
  | 154 => m_text_condition
  | 155 => m_text_display
  | 156 => m_draw_caption_id
  | 157 => m_draw_name
  | 158 => m_draw_class_names
  | 159 => m_draw_corner_radius
  | 160 => m_draw_id
  | 161 => m_draw_layer
  | 162 => m_draw_style_name
  | 163 => m_draw_text_style_name
  | 164 => m_draw_transform
  | 165 => m_draw_z_index
  | 166 => m_draw_caption_point_x
  | 167 => m_draw_caption_point_y
  | 168 => m_draw_copy_of
  | 169 => m_draw_filter_name
  | 170 => m_draw_mime_type
  | 171 => m_xlink_actuate
  | 172 => m_xlink_href
  | 173 => m_xlink_show
  | 174 => m_xlink_type
  | 175 => m_number_title
  | 176 => m_number_locale
  | 177 => m_number_transliteration_locale
  | 178 => m_number_transliteration_format
  | 179 => m_number_transliteration_style
  | 180 => m_number_automatic_order
  | 181 => m_number_format_source
  | 182 => m_number_truncate_on_overflow
  | _ => m_xml_id
  end.
(** One call of each setter. *)
Definition sample_ref : cellref := mkCellRef None None false 0 false 0.
Definition samples : list setter := [
  style_set_default_outline_level 1;
  style_set_master_page [];
  style_set_next_style [];
  style_set_cell_protect CellProtect_FormulaHidden;
  style_set_decimal_places 1;
  style_set_diagonal_bl_tr (Len (lit "1") Cm) Border_None (Rgb 0 0 0);
  style_set_diagonal_bl_tr_widths (Len (lit "1") Cm) (Len (lit "1") Cm) (Len (lit "1") Cm);
  style_set_diagonal_tl_br (Len (lit "1") Cm) Border_None (Rgb 0 0 0);
  style_set_diagonal_tl_br_widths (Len (lit "1") Cm) (Len (lit "1") Cm) (Len (lit "1") Cm);
  style_set_direction WritingDirection_Ltr;
  style_set_glyph_orientation_vertical GlyphOrientation_Auto;
  style_set_print_content true;
  style_set_repeat_content true;
  style_set_rotation_align RotationAlign_None;
  style_set_rotation_scale RotationScale_Fixed;
  style_set_rotation_angle (Angle_Deg (lit "1"));
  style_set_shadow (Len (lit "1") Cm) (Len (lit "1") Cm) None (Rgb 0 0 0);
  style_set_shrink_to_fit true;
  style_set_text_align_source TextAlignSource_Fix;
  style_set_vertical_align CellAlignVertical_Top;
  style_set_auto_text_indent true;
  style_set_background_transpareny (Percent_Percent (lit "1"));
  style_set_contextual_spacing true;
  style_set_font_independent_line_spacing true;
  style_set_join_border true;
  style_set_justify_single_word true;
  style_set_line_break LineBreak_Normal;
  style_set_line_height_at_least (Len (lit "1") Cm);
  style_set_line_spacing (Len (lit "1") Cm);
  style_set_page_number PageNumber_Auto;
  style_set_punctuation_wrap PunctuationWrap_Hanging;
  style_set_register_true true;
  style_set_snap_to_layout_grid true;
  style_set_tab_stop_distance (Len (lit "1") Cm);
  style_set_text_autospace TextAutoSpace_IdeographAlpha;
  style_set_vertical_align_para ParaAlignVertical_Top;
  style_set_writing_mode WritingMode_LrTb;
  style_set_writing_mode_automatic true;
  style_set_line_number 1;
  style_set_number_lines true;
  style_set_font_name [];
  style_set_locale_asian (Locale (lit "sr") (Some (lit "Latn")) (Some (lit "RS")) []);
  style_set_font_name_asian [];
  style_set_font_size_asian (FontSize_Length (Len (lit "1") Cm));
  style_set_font_size_rel_asian (FontSize_Length (Len (lit "1") Cm));
  style_set_font_style_asian FontStyle_Normal;
  style_set_font_italic_asian;
  style_set_font_weight_asian FontWeight_Normal;
  style_set_font_bold_asian;
  style_set_font_attr_asian (FontSize_Length (Len (lit "1") Cm)) true true;
  style_set_locale_complex (Locale (lit "sr") (Some (lit "Latn")) (Some (lit "RS")) []);
  style_set_font_name_complex [];
  style_set_font_size_complex (FontSize_Length (Len (lit "1") Cm));
  style_set_font_size_rel_complex (FontSize_Length (Len (lit "1") Cm));
  style_set_font_style_complex FontStyle_Normal;
  style_set_font_italic_complex;
  style_set_font_weight_complex FontWeight_Normal;
  style_set_font_bold_complex;
  style_set_font_attr_complex (FontSize_Length (Len (lit "1") Cm)) true true;
  style_set_font_relief TextRelief_None;
  style_set_text_position TextPosition_Sub None;
  style_set_letter_kerning true;
  style_set_text_combine TextCombine_None;
  style_set_text_combine_start_char 65;
  style_set_text_combine_end_char 65;
  style_set_text_emphasize TextEmphasize_None TextEmphasizePosition_Above;
  style_set_text_line_through_color (Rgb 0 0 0);
  style_set_text_line_through_mode LineMode_Continuous;
  style_set_text_line_through_style LineStyle_Dash;
  style_set_text_line_through_text [];
  style_set_text_line_through_text_style [];
  style_set_text_line_through_type LineType_None;
  style_set_text_line_through_width LineWidth_Auto;
  style_set_font_text_outline true;
  style_set_text_overline_color (Rgb 0 0 0);
  style_set_text_overline_mode LineMode_Continuous;
  style_set_text_overline_style LineStyle_Dash;
  style_set_text_overline_type LineType_None;
  style_set_text_overline_width LineWidth_Auto;
  style_set_text_underline_color (Rgb 0 0 0);
  style_set_text_underline_mode LineMode_Continuous;
  style_set_text_underline_style LineStyle_Dash;
  style_set_text_underline_type LineType_None;
  style_set_text_underline_width LineWidth_Auto;
  style_set_use_window_font_color true;
  style_set_dynamic_spacing true;
  style_set_col_width (Len (lit "1") Cm);
  style_set_rel_col_width [];
  style_set_use_optimal_col_width true;
  style_set_font_family_generic FontFamilyGeneric_Decorative;
  style_set_font_pitch FontPitch_Variable;
  style_set_first_page_number 1;
  style_set_footnote_max_height (Len (lit "1") Cm);
  style_set_num_format StyleNumFormat_None;
  style_set_num_letter_sync true;
  style_set_num_prefix [];
  style_set_num_suffix [];
  style_set_paper_tray_name [];
  style_set_print [];
  style_set_print_orientation PrintOrientation_Landscape;
  style_set_print_page_order PrintOrder_Ltr;
  style_set_scale_to (Percent_Percent (lit "1"));
  style_set_scale_to_pages 1;
  style_set_table_centering PrintCentering_None;
  style_set_min_row_height (Len (lit "1") Cm);
  style_set_row_height (Len (lit "1") Cm);
  style_set_use_optimal_row_height true;
  style_set_may_break_between_rows true;
  style_set_rel_width RelativeScale_Scale;
  style_set_rel_height RelativeScale_Scale;
  style_set_width (Len (lit "1") Cm);
  style_set_char 65;
  style_set_leader_color (Rgb 0 0 0);
  style_set_leader_style LineStyle_Dash;
  style_set_leader_text 65;
  style_set_leader_text_style [];
  style_set_leader_type LineType_None;
  style_set_leader_width LineWidth_Auto;
  style_set_position (Len (lit "1") Cm);
  style_set_type TabStopType_Center;
  style_set_volatile true;
  style_set_display_name [];
  style_set_auto_update true;
  style_set_class [];
  style_set_parent_style [];
  fo_set_background_color (Rgb 0 0 0);
  fo_set_border (Len (lit "1") Cm) Border_None (Rgb 0 0 0);
  fo_set_border_bottom (Len (lit "1") Cm) Border_None (Rgb 0 0 0);
  fo_set_border_left (Len (lit "1") Cm) Border_None (Rgb 0 0 0);
  fo_set_border_right (Len (lit "1") Cm) Border_None (Rgb 0 0 0);
  fo_set_border_top (Len (lit "1") Cm) Border_None (Rgb 0 0 0);
  fo_set_padding (Len (lit "1") Cm);
  fo_set_padding_bottom (Len (lit "1") Cm);
  fo_set_padding_left (Len (lit "1") Cm);
  fo_set_padding_right (Len (lit "1") Cm);
  fo_set_padding_top (Len (lit "1") Cm);
  fo_set_wrap_option WrapOption_NoWrap;
  fo_set_border_line_width (Len (lit "1") Cm) (Len (lit "1") Cm) (Len (lit "1") Cm);
  fo_set_border_line_width_bottom (Len (lit "1") Cm) (Len (lit "1") Cm) (Len (lit "1") Cm);
  fo_set_border_line_width_left (Len (lit "1") Cm) (Len (lit "1") Cm) (Len (lit "1") Cm);
  fo_set_border_line_width_right (Len (lit "1") Cm) (Len (lit "1") Cm) (Len (lit "1") Cm);
  fo_set_border_line_width_top (Len (lit "1") Cm) (Len (lit "1") Cm) (Len (lit "1") Cm);
  fo_set_break_before PageBreak_Auto;
  fo_set_break_after PageBreak_Auto;
  fo_set_hyphenation_keep Hyphenation_Auto;
  fo_set_hyphenation_ladder_count HyphenationLadderCount_NoLimit;
  fo_set_keep_together TextKeep_Auto;
  fo_set_keep_with_next TextKeep_Auto;
  fo_set_line_height LineHeight_Normal;
  fo_set_margin (Margin_Length (Len (lit "1") Cm));
  fo_set_margin_bottom (Margin_Length (Len (lit "1") Cm));
  fo_set_margin_left (Margin_Length (Len (lit "1") Cm));
  fo_set_margin_right (Margin_Length (Len (lit "1") Cm));
  fo_set_margin_top (Margin_Length (Len (lit "1") Cm));
  fo_set_orphans 1;
  fo_set_text_align TextAlign_Start;
  fo_set_text_align_last TextAlignLast_Start;
  fo_set_text_indent (Indent_Length (Len (lit "1") Cm));
  fo_set_widows 1;
  fo_set_color (Rgb 0 0 0);
  fo_set_locale (Locale (lit "sr") (Some (lit "Latn")) (Some (lit "RS")) []);
  fo_set_font_size (FontSize_Length (Len (lit "1") Cm));
  fo_set_font_size_rel (FontSize_Length (Len (lit "1") Cm));
  fo_set_font_style FontStyle_Normal;
  fo_set_font_italic;
  fo_set_font_weight FontWeight_Normal;
  fo_set_font_bold;
  fo_set_font_variant FontVariant_Normal;
  fo_set_font_attr (FontSize_Length (Len (lit "1") Cm)) true true;
  fo_set_hyphenate true;
  fo_set_hyphenation_push_char_count 1;
  fo_set_hyphenation_remain_char_count 1;
  fo_set_letter_spacing LetterSpacing_Normal;
  fo_set_text_shadow (Len (lit "1") Cm) (Len (lit "1") Cm) None (Rgb 0 0 0);
  fo_set_text_transform TextTransform_None;
  fo_set_min_height (LengthPercent_Length (Len (lit "1") Cm));
  fo_set_page_height (Len (lit "1") Cm);
  fo_set_page_width (Len (lit "1") Cm);
  svg_set_font_family [];
  svg_set_font_stretch FontStretch_Normal;
  svg_set_font_style FontStyle_Normal;
  svg_set_font_variant FontVariant_Normal;
  svg_set_font_weight FontWeight_Normal;
  svg_set_height (Len (lit "1") Cm);
  svg_set_width (Len (lit "1") Cm);
  svg_set_x (Len (lit "1") Cm);
  svg_set_y (Len (lit "1") Cm);
  table_set_align TableAlign_Center;
  table_set_border_model TableBorderModel_Collapsing;
  table_set_display true;
  table_set_tab_color (Rgb 0 0 0);
  table_set_table_end_cell_address sample_ref;
  table_set_table_end_x (Len (lit "1") Cm);
  table_set_table_end_y (Len (lit "1") Cm);
  table_set_table_table_background true;
  text_set_text_condition TextCondition_None;
  text_set_display TextDisplay_None;
  draw_set_draw_caption_id [];
  draw_set_draw_name [];
  draw_set_draw_class_names [];
  draw_set_draw_corner_radius 1;
  draw_set_draw_id [];
  draw_set_draw_layer [];
  draw_set_draw_style_name [];
  draw_set_draw_text_style_name [];
  draw_set_draw_transform [];
  draw_set_draw_z_index 1;
  draw_set_draw_caption_point_x (Len (lit "1") Cm);
  draw_set_draw_caption_point_y (Len (lit "1") Cm);
  draw_set_draw_copy_of [];
  draw_set_draw_filter_name [];
  draw_set_draw_mime_type [];
  xlink_set_xlink_actuate OnLoad;
  xlink_set_xlink_href [];
  xlink_set_xlink_show XNew;
  xlink_set_xlink_type XSimple;
  number_set_title [];
  number_set_locale (Locale (lit "sr") (Some (lit "Latn")) (Some (lit "RS")) []);
  number_set_transliteration_locale (Locale (lit "sr") (Some (lit "Latn")) (Some (lit "RS")) []);
  number_set_transliteration_format 65;
  number_set_transliteration_style TShort;
  number_set_automatic_order true;
  number_set_format_source FsFixed;
  number_set_truncate_on_overflow true;
  xml_set_xml_id []].

Lemma mcode_inj m m' : mcode m = mcode m' -> m = m'.
Proof. intros H. assert (forall x, mdecode (mcode x) = x) as D by (intros []; reflexivity). rewrite <- (D m), <- (D m'), H. reflexivity. Qed.
Lemma keys_macro s : incl (keys s) (mkeys (macro_of s)).
Proof. destruct s; intros k H; repeat (destruct H as [<-|H]); try contradiction; cbn [macro_of mkeys In]; auto 30. Qed.

(** ** What a setter leaves alone *)

Lemma ok_inj {A} (x y : A) : Ok x = Ok y -> x = y.
Proof. intros H. injection H. auto. Qed.
Lemma put_frame k v a k' : k' <> k -> value_of k' (put_attr k v a) = value_of k' a.
Proof. intros H. rewrite value_put. destruct (str_eqb k k') eqn:E; [|reflexivity]. apply str_eqb_eq in E. congruence. Qed.
Lemma del_frame k a k' : k' <> k -> value_of k' (del_attr k a) = value_of k' a.
Proof. intros H. apply value_del_other. destruct (str_eqb k k') eqn:E; [|reflexivity]. apply str_eqb_eq in E. congruence. Qed.
Lemma locale_frame kl kc ks l a k : ~ In k [kl; kc; ks] -> value_of k (put_locale kl kc ks l a) = value_of k a.
Proof.
  intros N. assert (k <> kl /\ k <> kc /\ k <> ks) as (N1 & N2 & N3) by (repeat split; intros ->; apply N; cbn [In]; auto).
  unfold put_locale. destruct (negb _); [destruct (lo_region l), (lo_script l)|]; repeat first [rewrite put_frame by assumption | rewrite del_frame by assumption]; reflexivity.
Qed.
Lemma locale2_frame kl kc l a k : ~ In k [kl; kc] -> value_of k (put_locale2 kl kc l a) = value_of k a.
Proof.
  intros N. assert (k <> kl /\ k <> kc) as (N1 & N2) by (repeat split; intros ->; apply N; cbn [In]; auto).
  unfold put_locale2. destruct (negb _); [destruct (lo_region l)|]; repeat first [rewrite put_frame by assumption | rewrite del_frame by assumption]; reflexivity.
Qed.
Definition font_attr (k1 k2 k3 : str) (size : FontSize) (bold italic : bool) (a : attrs) : res attrs :=
  let* a := if pos_FontSize size then put k1 (show_FontSize size) a else Panic in
  let* a := if bold then put k2 (show_FontWeight FontWeight_Bold) a else Ok a in if italic then put k3 (lit "italic") a else Ok a.
Lemma font_frame k1 k2 k3 s b i a a' k : font_attr k1 k2 k3 s b i a = Ok a' -> ~ In k [k1; k2; k3] -> value_of k a' = value_of k a.
Proof.
  intros E N. assert (k <> k1 /\ k <> k2 /\ k <> k3) as (N1 & N2 & N3) by (repeat split; intros ->; apply N; cbn [In]; auto).
  unfold font_attr, put in E. destruct (pos_FontSize s); [|discriminate E]. cbn [bind] in E.
  destruct b, i; cbn [bind] in E; apply ok_inj in E; subst a'; rewrite ?put_frame by assumption; reflexivity.
Qed.
(** A setter puts one text, or nothing if an assertion fails, or is one of a few others. *)
Lemma put_case k v a a' k' : put k v a = Ok a' -> ~ In k' [k] -> value_of k' a' = value_of k' a.
Proof. intros E N. apply ok_inj in E. subst a'. apply put_frame. intros ->. apply N. left. reflexivity. Qed.
Lemma run_frame s a a' k : run s a = Ok a' -> ~ In k (keys s) -> value_of k a' = value_of k a.
Proof.
  intros E N. destruct s; cbn [run] in E; cbn [keys] in N;
    first [ exact (put_case _ _ _ _ _ E N)
          | exact (font_frame _ _ _ _ _ _ _ _ _ E N)
          | apply ok_inj in E; subst a'; apply locale_frame; exact N
          | apply ok_inj in E; subst a'; apply locale2_frame; exact N
          | idtac ].
  all: try (match type of E with (if ?b then _ else _) = _ => destruct b; [exact (put_case _ _ _ _ _ E N)|discriminate E] end).
  all: try (destruct width; [apply ok_inj in E; subst a'; apply del_frame; intros ->; apply N; left; reflexivity|exact (put_case _ _ _ _ _ E N)]).
  - apply bind_ok in E as (v & _ & E). exact (put_case _ _ _ _ _ E N).
Qed.

(** ** Where and under which name *)

Definition slot_code (s : slot) : N :=
  match s with
  | Style_attr => 0 | Cell_props => 1 | Col_props => 2 | Row_props => 3 | Table_props => 4 | Para_props => 5 | Text_props => 6 | Font_face => 7
  | Tab_stop => 8 | Page_props => 9 | Hf_props => 10 | Annotation_attr => 11 | Frame_attr => 12 | Image_attr => 13 | Format_attr => 14
  end.
Lemma slot_code_inj s s' : slot_code s = slot_code s' -> s = s'.
Proof. destruct s, s'; intros H; try reflexivity; discriminate H. Qed.
Definition memb (k : str) (l : list str) : bool := existsb (str_eqb k) l.
Lemma memb_in k l : memb k l = true -> In k l.
Proof. intros H. apply existsb_exists in H as (x & I & E). apply str_eqb_eq in E. subst x. exact I. Qed.
Lemma in_memb k l : In k l -> memb k l = true.
Proof. intros H. apply existsb_exists. exists k. split; [exact H|]. apply str_eqb_refl. Qed.
Definition listedb (l : list (slot * string)) (s : slot) (k : str) : bool :=
  existsb (fun p => (slot_code s =? slot_code (fst p)) && str_eqb k (lit (snd p))) l.
Lemma listedb_iff l s k : listedb l s k = true <-> listed l s k.
Proof.
  unfold listedb, listed. rewrite existsb_exists, in_map_iff. split.
  - intros (p & I & E). apply andb_true_iff in E as (E1 & E2). apply N.eqb_eq, slot_code_inj in E1. apply str_eqb_eq in E2. exists p. subst. auto.
  - intros (p & E & I). exists p. split; [exact I|]. injection E as <- <-. rewrite N.eqb_refl, str_eqb_refl. reflexivity.
Qed.
Definition all_slots : list slot := [Style_attr; Cell_props; Col_props; Row_props; Table_props; Para_props; Text_props; Font_face; Tab_stop; Page_props; Hf_props;
  Annotation_attr; Frame_attr; Image_attr; Format_attr].
Definition all_holders : list holder := [CellStyle; ColStyle; RowStyle; TableStyle; TextStyle; ParagraphStyle; GraphicStyle; FontFaceDecl; TabStop; PageStyle;
  HeaderFooterStyle; Annotation; DrawFrame; DrawImage; ValueFormat FBoolean; ValueFormat FNumber; ValueFormat FPercentage; ValueFormat FCurrency;
  ValueFormat FText; ValueFormat FDateTime; ValueFormat FTimeDuration].
Lemma every_slot s : In s all_slots.
Proof. destruct s; cbn [In all_slots]; auto 30. Qed.
Lemma every_holder h : In h all_holders.
Proof. destruct h; try destruct k; cbn [In all_holders]; auto 40. Qed.

Definition placedb (h : holder) (s : slot) : bool :=
  forallb (fun m => forallb (fun k => memb k (map lit (handled s ++ unhandled s ++ handled_by h s)) || listedb misplaced s k) (mkeys m)) (offers h s).
Lemma placed_all : forallb (fun h => forallb (placedb h) all_slots) all_holders = true.
Proof. vm_compute. reflexivity. Qed.
Lemma placed h sl s k : In (macro_of s) (offers h sl) -> In k (keys s) -> documented h sl k \/ listed misplaced sl k.
Proof.
  intros O I. assert (A := placed_all). rewrite forallb_forall in A. specialize (A h (every_holder h)). rewrite forallb_forall in A.
  specialize (A sl (every_slot sl)). unfold placedb in A. rewrite forallb_forall in A. specialize (A _ O). rewrite forallb_forall in A.
  specialize (A k (keys_macro s k I)). apply orb_true_iff in A as [A|A]; [left; apply memb_in; exact A|right; apply listedb_iff; exact A].
Qed.

Definition offeredb (m : macro) (l : list macro) : bool := existsb (fun x => mcode m =? mcode x) l.
Lemma offeredb_in m l : offeredb m l = true -> In m l.
Proof. intros H. apply existsb_exists in H as (x & I & E). apply N.eqb_eq, mcode_inj in E. subst x. exact I. Qed.
Lemma in_offeredb m l : In m l -> offeredb m l = true.
Proof. intros H. apply existsb_exists. exists m. split; [exact H|]. apply N.eqb_refl. Qed.
Definition setsb (s : setter) (k : str) : bool := match run s [] with Ok a => match value_of k a with Some _ => true | None => false end | _ => false end.
Lemma setsb_ok s k : setsb s k = true -> exists a v, run s [] = Ok a /\ value_of k a = Some v.
Proof. unfold setsb. destruct (run s []) as [a| |]; [|discriminate..]. destruct (value_of k a) as [v|] eqn:E; [|discriminate]. intros _. exists a, v. auto. Qed.
Definition coveredb (h : holder) (sl : slot) (k : str) : bool :=
  match find (fun s => if offeredb (macro_of s) (offers h sl) then if memb k (keys s) then setsb s k else false else false) samples with Some _ => true | None => false end.
Lemma coveredb_ok h sl k : coveredb h sl k = true -> exists s a v, In (macro_of s) (offers h sl) /\ run s [] = Ok a /\ value_of k a = Some v.
Proof.
  unfold coveredb. destruct (find _ _) as [s|] eqn:F; [|discriminate]. intros _. apply find_some in F as (_ & E).
  destruct (offeredb (macro_of s) (offers h sl)) eqn:O; [|discriminate]. destruct (memb k (keys s)); [|discriminate]. rename E into S.
  apply setsb_ok in S as (a & v & R & V). exists s, a, v. split; [apply offeredb_in; exact O|auto].
Qed.
Lemma covered_all : forallb (fun sl => forallb (fun n => if listedb by_field sl (lit n) then true else if listedb unset sl (lit n) then true else
  match find (fun h => coveredb h sl (lit n)) all_holders with Some _ => true | None => false end) (handled sl)) all_slots = true.
Proof. vm_compute. reflexivity. Qed.
Lemma covered_own : forallb (fun h => forallb (fun sl => forallb (fun n => coveredb h sl (lit n)) (handled_by h sl)) all_slots) all_holders = true.
Proof. vm_compute. reflexivity. Qed.
(** None of the gaps is filled by anything. *)
Lemma unset_all : forallb (fun p => forallb (fun h => forallb (fun m => negb (memb (lit (snd p)) (mkeys m))) (offers h (fst p))) all_holders) unset = true.
Proof. vm_compute. reflexivity. Qed.

Definition named_forb (fn k : str) : bool :=
  match cut 58 k with
  | (ns, Some l) => str_eqb (kebab fn) l || str_eqb (kebab fn) (ns ++ 45 :: l) ||
      existsb (fun p => str_eqb (kebab fn) (lit (fst p)) && memb l (map lit (snd p))) own_names
  | _ => false
  end.
Lemma cut_some c s a b : cut c s = (a, Some b) -> s = a ++ c :: b /\ ~ In c a.
Proof.
  revert a b. induction s as [|x r IH]; intros a b H; [discriminate H|]. cbn [cut] in H. destruct (x =? c) eqn:E.
  - apply N.eqb_eq in E. subst x. injection H as <- <-. split; [reflexivity|intros []].
  - destruct (cut c r) as [a' b'] eqn:C. injection H as <- ->. destruct (IH a' b eq_refl) as (-> & N). split; [reflexivity|].
    intros [->|I]; [rewrite N.eqb_refl in E; discriminate E|exact (N I)].
Qed.
Lemma named_forb_ok fn k : named_forb fn k = true -> named_for fn k.
Proof.
  unfold named_forb, named_for. destruct (cut 58 k) as [ns [l|]] eqn:C; [|discriminate]. apply cut_some in C as (-> & N). intros H.
  exists ns, l. split; [reflexivity|]. split; [exact N|]. apply orb_true_iff in H as [H|H].
  - apply orb_true_iff in H as [H|H]; apply str_eqb_eq in H; auto.
  - right. right. apply existsb_exists in H as (p & I & E). apply andb_true_iff in E as (E & M). apply str_eqb_eq in E. apply memb_in in M. exists p. auto.
Qed.
Definition is_xml_id (s : setter) : Prop := exists id, s = xml_set_xml_id id.
Lemma named_all s : is_xml_id s \/ forallb (named_forb (fn_name s)) (keys s) = true.
Proof. destruct s; try (right; vm_compute; reflexivity). left. exists id. reflexivity. Qed.

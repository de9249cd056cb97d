(** Properties C01-C08, C42, C43: references in text form. *)
From Verif Require Import Base RefsModel FormulaModel RefsSpec RefsProofs.

(** C01 *)
Theorem C01_col_name : forall col, u32 col ->
  exists s, fmt_col_name col = Ok s /\ column_name col s /\ (1 <= length s <= 7)%nat.
Proof. exact fmt_col_name_spec. Qed.

Theorem C01_col_name_unique : forall s t, all_upper s -> all_upper t -> bij26 s = bij26 t -> s = t.
Proof. exact column_name_unique. Qed.

Theorem C01_col_name_injective : forall c1 c2 s, u32 c1 -> u32 c2 ->
  fmt_col_name c1 = Ok s -> fmt_col_name c2 = Ok s -> c1 = c2.
Proof.
  intros c1 c2 s H1 H2 E1 E2.
  destruct (fmt_col_name_spec c1 H1) as (s1 & F1 & (_ & V1) & _).
  destruct (fmt_col_name_spec c2 H2) as (s2 & F2 & (_ & V2) & _).
  rewrite F1 in E1. rewrite F2 in E2. inversion E1; inversion E2; subst. lia.
Qed.

Theorem C01_col_name_parse : forall col s, col < u32_max ->
  fmt_col_name col = Ok s -> try_u32_from_colname s = Ok col.
Proof.
  intros col s H E. destruct (fmt_col_name_spec col) as (t & F & (Hu & Hv) & Hl); [unfold u32; lia|].
  rewrite F in E. inversion E; subst. rewrite try_colname_spec; auto.
  - rewrite Hv. destruct (col + 1 <=? u32_max) eqn:E1; [f_equal; lia|lia].
  - intros ->. cbn in Hl. lia.
Qed.

(** Any accepted or rejected upper case name: exact outcome of the parser. *)
Theorem C01_colname_outcome : forall s, all_upper s -> s <> [] ->
  try_u32_from_colname s = if bij26 s <=? u32_max then Ok (bij26 s - 1) else Panic.
Proof. exact try_colname_spec. Qed.

(** The round trip is lost for the last u32 column. *)
Theorem C01_last_column_refuted : exists col s, u32 col /\ fmt_col_name col = Ok s /\
  try_u32_from_colname s <> Ok col.
Proof. exists u32_max, (lit "MWLQKWV"). repeat split; vm_compute; congruence. Qed.

Example C01_ex : fmt_col_name 16383 = Ok (lit "XFD") /\ try_u32_from_colname (lit "XFD") = Ok 16383
  /\ fmt_col_name 701 = Ok (lit "ZZ") /\ fmt_col_name 702 = Ok (lit "AAA").
Proof. vm_compute. auto. Qed.

(** C02 *)
Theorem C02_row_name : forall row, u32 row ->
  exists s, fmt_row_name row = Ok s /\ row_name row s /\ s <> [].
Proof. exact fmt_row_name_spec. Qed.

Theorem C02_row_name_unique : forall row s t, row_name row s -> row_name row t -> s = t.
Proof. exact row_name_unique. Qed.

Theorem C02_row_name_parse : forall row s, row < u32_max ->
  fmt_row_name row = Ok s -> try_u32_from_rowname s = Ok row.
Proof.
  intros row s H E. destruct (fmt_row_name_spec row) as (t & F & Hn & _); [unfold u32; lia|].
  rewrite F in E. inversion E; subst. now apply try_rowname_spec.
Qed.

Theorem C02_row_name_injective : forall r1 r2 s, u32 r1 -> u32 r2 ->
  fmt_row_name r1 = Ok s -> fmt_row_name r2 = Ok s -> r1 = r2.
Proof.
  intros c1 c2 s H1 H2 E1 E2.
  destruct (fmt_row_name_spec c1 H1) as (s1 & F1 & (_ & V1 & _) & _).
  destruct (fmt_row_name_spec c2 H2) as (s2 & F2 & (_ & V2 & _) & _).
  rewrite F1 in E1. rewrite F2 in E2. inversion E1; inversion E2; subst. lia.
Qed.

Theorem C02_last_row_refuted : exists row s, u32 row /\ fmt_row_name row = Ok s /\
  try_u32_from_rowname s <> Ok row.
Proof. exists u32_max, (lit "4294967296"). repeat split; vm_compute; congruence. Qed.

Example C02_ex : fmt_row_name 1048575 = Ok (lit "1048576") /\ try_u32_from_rowname (lit "1048576") = Ok 1048575.
Proof. vm_compute. auto. Qed.

(** C03 *)
Theorem C03_cellref_text : forall r, cellref_u32 r ->
  exists s, fmt_cell_ref r = Ok s /\ cellref_text r s.
Proof. exact cellref_text_ok. Qed.

Theorem C03_cellref_roundtrip : forall r s, cellref_u32 r -> fmt_cell_ref r = Ok s ->
  (parse_cellref s = Ok r <-> cellref_ok r).
Proof. exact cellref_roundtrip_iff. Qed.

Definition C03_ref : cellref :=
  mkCellRef (Some (lit "file:///o'brien.ods")) (Some (lit "it's a.b")) true 4 false 27.
Definition C03_bad : cellref := mkCellRef None (Some (lit "2024-Q1")) false 0 false 0.
(** '$' at the start of a name is silently lost: a different table. *)
Definition C03_bad2 : cellref := mkCellRef None (Some (lit "$x")) false 0 false 0.

Theorem C03_any_table_name_refuted :
  (exists r s, cellref_u32 r /\ fmt_cell_ref r = Ok s /\ parse_cellref s = Err) /\
  (exists r s r', cellref_u32 r /\ fmt_cell_ref r = Ok s /\ parse_cellref s = Ok r' /\ r' <> r).
Proof.
  split.
  - exists C03_bad, (lit "2024-Q1.A1"). repeat split; vm_compute; congruence.
  - exists C03_bad2, (lit "$x.A1"), (mkCellRef None (Some (lit "x")) false 0 false 0).
    repeat split; vm_compute; congruence.
Qed.

Example C03_ex : cellref_ok C03_ref /\
  fmt_cell_ref C03_ref = Ok (lit "'file:///o''brien.ods'#$'it''s a.b'.AB$5") /\
  parse_cellref (lit "'file:///o''brien.ods'#$'it''s a.b'.AB$5") = Ok C03_ref.
Proof.
  split; [|vm_compute; auto]. split; [|vm_compute; auto].
  intros n H. inversion H; subst. left. left. vm_compute. auto.
Qed.

(** C04 *)
Theorem C04_cellrange_text : forall r, cellrange_u32 r ->
  exists s, fmt_cell_range r = Ok s /\ cellrange_text r s.
Proof. exact cellrange_text_ok. Qed.

Theorem C04_cellrange_roundtrip : forall r s, cellrange_u32 r -> fmt_cell_range r = Ok s ->
  (parse_cellrange s = Ok r <-> cellrange_ok r).
Proof. exact cellrange_roundtrip_iff. Qed.

Theorem C04_any_table_name_refuted : exists r s, cellrange_u32 r /\ fmt_cell_range r = Ok s /\
  parse_cellrange s <> Ok r.
Proof.
  exists (mkCellRange None (Some (lit "a-b")) false 0 false 0 None false 1 false 1), (lit "a-b.A1:.B2").
  repeat split; vm_compute; congruence.
Qed.

Example C04_ex : let r := mkCellRange None (Some (lit "Tab 1")) true 0 false 0 (Some (lit "T2")) false 9 true 25 in
  fmt_cell_range r = Ok (lit "$'Tab 1'.A$1:$T2.$Z10") /\ parse_cellrange (lit "$'Tab 1'.A$1:$T2.$Z10") = Ok r.
Proof. vm_compute. auto. Qed.

(** C05 *)
Theorem C05_colrange_roundtrip : forall r s, colrange_u32 r -> fmt_col_range r = Ok s ->
  (parse_colrange s = Ok r <-> colrange_ok r).
Proof. exact colrange_roundtrip_iff. Qed.

Theorem C05_rowrange_roundtrip : forall r s, rowrange_u32 r -> fmt_row_range r = Ok s ->
  (parse_rowrange s = Ok r <-> rowrange_ok r).
Proof. exact rowrange_roundtrip_iff. Qed.

Example C05_ex :
  fmt_col_range (mkColRange None (Some (lit "x")) true 2 None false 30) = Ok (lit "$x.$C:.AE") /\
  parse_colrange (lit "$x.$C:.AE") = Ok (mkColRange None (Some (lit "x")) true 2 None false 30) /\
  fmt_row_range (mkRowRange None None true 2 (Some (lit "y")) false 30) = Ok (lit ".$3:$y.31") /\
  parse_rowrange (lit ".$3:$y.31") = Ok (mkRowRange None None true 2 (Some (lit "y")) false 30).
Proof. vm_compute. auto. Qed.

(** C06 *)
Theorem C06_ranges_roundtrip : forall l s, l <> [] -> Forall cellrange_ok l ->
  format_cellranges l = Ok s -> parse_cellranges s = Ok (Some l).
Proof. exact cellranges_roundtrip. Qed.

Theorem C06_ranges_total : forall l, Forall cellrange_u32 l -> exists s, format_cellranges l = Ok s.
Proof. exact format_cellranges_total. Qed.

Theorem C06_trailing_garbage_refuted : exists s r, parse_cellranges s = Ok (Some [r]) /\
  parse_cellrange s = Err.
Proof.
  exists (lit ".A1:.B2 a-b.C3:.D4"), (mkCellRange None None false 0 false 0 None false 1 false 1).
  vm_compute. auto.
Qed.

Example C06_ex :
  let l := [mkCellRange None (Some (lit "a b")) false 0 false 0 None false 1 false 1;
            mkCellRange None None true 3 true 3 (Some (lit "q")) true 4 true 4] in
  format_cellranges l = Ok (lit "'a b'.A1:.B2 .$D$4:$q.$E$5") /\
  parse_cellranges (lit "'a b'.A1:.B2 .$D$4:$q.$E$5") = Ok (Some l).
Proof. vm_compute. auto. Qed.

(** C07 *)
Theorem C07_accepted_sound : forall s r, parse_cellref s = Ok r ->
  cr_row r < u32_max /\ cr_col r < u32_max /\
  exists pre c w, s = pre ++ [46] ++ mark (cr_col_abs r) ++ c ++ mark (cr_row_abs r) ++ w /\
     column_name (cr_col r) c /\ all_digit w /\ dec w = cr_row r + 1.
Proof. exact parse_cellref_sound. Qed.

Theorem C07_panic_only_overflow : forall s, parse_cellref s = Panic ->
  exists a b c, s = a ++ b ++ c /\ all_upper b /\ u32_max < bij26 b.
Proof. exact parse_cellref_panic. Qed.

Theorem C07_no_panic_partial : forall s, letter_runs_le 6 s -> parse_cellref s <> Panic.
Proof. exact parse_cellref_no_panic. Qed.

Theorem C07_never_panics_refuted : exists s, parse_cellref s = Panic.
Proof. exists (lit ".ZZZZZZZ1"). vm_compute. reflexivity. Qed.

Example C07_ex : parse_cellref (lit "'Tab'.$AB07") = Ok (mkCellRef None (Some (lit "Tab")) false 6 true 27)
  /\ parse_cellref (lit ".A0") = Err /\ parse_cellref (lit "'x") = Err /\ parse_cellref [] = Err.
Proof. vm_compute. auto. Qed.

(** C08 *)
Theorem C08_contains : forall r row col, range_contains r row col = true <-> in_rect r row col.
Proof. exact contains_iff. Qed.

Theorem C08_origin_span : forall row col sr sc r, u32 row -> u32 col -> 0 < sr -> 0 < sc ->
  (origin_span row col (sr, sc) = Ok r <->
   row + sr <= u32_max /\ col + sc <= u32_max /\
   r = mkCellRange None None false row false col None false (row + sr - 1) false (col + sc - 1)).
Proof. exact origin_span_iff. Qed.

Theorem C08_origin_span_cells : forall row col sr sc r row' col',
  origin_span row col (sr, sc) = Ok r ->
  (range_contains r row' col' = true <-> row <= row' < row + sr /\ col <= col' < col + sc).
Proof. exact origin_span_cells. Qed.

Theorem C08_out_looped : forall r row col, rg_row r <= rg_to_row r -> rg_col r <= rg_to_col r ->
  (out_looped r row col = true <->
   forall row' col', before_or_at row col row' col' -> ~ in_rect r row' col').
Proof. exact out_looped_iff. Qed.

Theorem C08_origin_span_edge_refuted : exists row col, u32 row /\ u32 col /\
  origin_span row col (1, 1) = Panic.
Proof. exists u32_max, 0. repeat split; vm_compute; congruence. Qed.

Example C08_ex : exists r, origin_span 3 4 (2, 5) = Ok r /\ range_contains r 4 8 = true /\
  range_contains r 5 8 = false /\ range_contains r 4 9 = false /\
  out_looped r 4 8 = false /\ out_looped r 4 9 = true /\ out_looped r 3 9 = false.
Proof. eexists. vm_compute. split; [reflexivity|auto 10]. Qed.

(** C42 *)
Theorem C42_local : forall ra row ca col,
  cell_macro None ra row ca col = mkCellRef None None ra row ca col.
Proof. exact cell_macro_local. Qed.

Theorem C42_range : forall t ra row ca col ra2 row2 ca2 col2,
  cell_macro_range t ra row ca col ra2 row2 ca2 col2 =
  mkCellRange None t ra row ca col None ra2 row2 ca2 col2.
Proof. exact cell_macro_range_ok. Qed.

(** With a table the reference is absolute whatever was written. *)
Theorem C42_table : forall t ra row ca col,
  cell_macro (Some t) ra row ca col = mkCellRef None (Some t) true row true col.
Proof. exact cell_macro_table. Qed.

Theorem C42_table_refuted : exists t ra row ca col,
  cr_row_abs (cell_macro (Some t) ra row ca col) <> ra \/
  cr_col_abs (cell_macro (Some t) ra row ca col) <> ca.
Proof. exists (lit "t"), false, 1, false, 1. left. vm_compute. congruence. Qed.

(** C43 *)
Theorem C43_cell_helpers : forall row col t, u32 row -> u32 col ->
  helper_result (mkCellRef None None false row false col) (fcellref row col) /\
  helper_result (mkCellRef None None true row false col) (fcellrefr row col) /\
  helper_result (mkCellRef None None false row true col) (fcellrefc row col) /\
  helper_result (mkCellRef None None true row true col) (fcellrefa row col) /\
  helper_result (mkCellRef None (Some t) false row false col) (fcellref_table t row col) /\
  helper_result (mkCellRef None (Some t) true row false col) (fcellrefr_table t row col) /\
  helper_result (mkCellRef None (Some t) false row true col) (fcellrefc_table t row col) /\
  helper_result (mkCellRef None (Some t) true row true col) (fcellrefa_table t row col).
Proof. exact fcellref_ok. Qed.

Theorem C43_range_helpers : forall row col row2 col2 t, row <= row2 -> col <= col2 -> u32 row2 -> u32 col2 ->
  let mk t a b := mkCellRange None t a row b col None a row2 b col2 in
  range_helper_result (mk None false false) (frangeref row col row2 col2) /\
  range_helper_result (mk None true false) (frangerefr row col row2 col2) /\
  range_helper_result (mk None false true) (frangerefc row col row2 col2) /\
  range_helper_result (mk None true true) (frangerefa row col row2 col2) /\
  range_helper_result (mk (Some t) false false) (frangeref_table t row col row2 col2) /\
  range_helper_result (mk (Some t) true false) (frangerefr_table t row col row2 col2) /\
  range_helper_result (mk (Some t) false true) (frangerefc_table t row col row2 col2) /\
  range_helper_result (mk (Some t) true true) (frangerefa_table t row col row2 col2).
Proof. exact frangeref_ok. Qed.

Example C43_ex : fcellrefr 4 2 = Ok (lit "[.C$5]") /\ fcellrefc_table (lit "a b") 4 2 = Ok (lit "[$'a b'.$C5]")
  /\ frangerefa 0 0 1 1 = Ok (lit "[.$A$1:.$B$2]").
Proof. vm_compute. auto. Qed.

Print Assumptions C01_col_name.
Print Assumptions C01_col_name_unique.
Print Assumptions C01_col_name_injective.
Print Assumptions C01_col_name_parse.
Print Assumptions C01_colname_outcome.
Print Assumptions C01_last_column_refuted.
Print Assumptions C02_row_name.
Print Assumptions C02_row_name_unique.
Print Assumptions C02_row_name_parse.
Print Assumptions C02_row_name_injective.
Print Assumptions C02_last_row_refuted.
Print Assumptions C03_cellref_text.
Print Assumptions C03_cellref_roundtrip.
Print Assumptions C03_any_table_name_refuted.
Print Assumptions C04_cellrange_text.
Print Assumptions C04_cellrange_roundtrip.
Print Assumptions C04_any_table_name_refuted.
Print Assumptions C05_colrange_roundtrip.
Print Assumptions C05_rowrange_roundtrip.
Print Assumptions C06_ranges_roundtrip.
Print Assumptions C06_ranges_total.
Print Assumptions C06_trailing_garbage_refuted.
Print Assumptions C07_accepted_sound.
Print Assumptions C07_panic_only_overflow.
Print Assumptions C07_no_panic_partial.
Print Assumptions C07_never_panics_refuted.
Print Assumptions C08_contains.
Print Assumptions C08_origin_span.
Print Assumptions C08_origin_span_cells.
Print Assumptions C08_out_looped.
Print Assumptions C08_origin_span_edge_refuted.
Print Assumptions C42_local.
Print Assumptions C42_range.
Print Assumptions C42_table.
Print Assumptions C42_table_refuted.
Print Assumptions C43_cell_helpers.
Print Assumptions C43_range_helpers.

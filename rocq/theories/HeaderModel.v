(** Row and column headers, row and column groups of a sheet: src/sheet_.rs. *)
From Verif Require Import Base OMap.

(** sheet_.rs 23-31: [enum Visibility]. *)
Inductive visibility := Visible | Collapsed | Filtered.
Definition vis_eqb (a b : visibility) : bool :=
  match a, b with Visible, Visible | Collapsed, Collapsed | Filtered, Filtered => true | _, _ => false end.

(** sheet_.rs 75-85: [ColHeader] without [span].  Style references are their names;
    [Length] is modelled by its text, [None] is [Length::Default]. *)
Record colattr := mkColAttr {
  ca_style : option str; ca_cellstyle : option str; ca_visible : visibility; ca_width : option str }.
(** sheet_.rs 87-97: [ColHeader::default]. *)
Definition colattr0 := mkColAttr None None Visible None.

(** sheet_.rs 43-60: [RowHeader] without [span]. *)
Record rowattr := mkRowAttr {
  ra_style : option str; ra_cellstyle : option str; ra_visible : visibility;
  ra_repeat : N; ra_height : option str }.
(** sheet_.rs 62-73: [RowHeader::default]. *)
Definition rowattr0 := mkRowAttr None None Visible 1 None.

(** A header: its attributes and the number of rows/columns it is valid for. *)
Record hdr (A : Type) := mkHdr { h_attr : A; h_span : N }.
Arguments mkHdr {A} _ _.
Arguments h_attr {A} _.
Arguments h_span {A} _.

(** sheet_.rs: [col_header: BTreeMap<u32, ColHeader>], [row_header: BTreeMap<u32, RowHeader>]. *)
Definition hmap (A : Type) := omap N (hdr A).
Definition hget {A} (k : N) (m : hmap A) := om_get N.ltb k m.
Definition hput {A} (k : N) (h : hdr A) (m : hmap A) : hmap A := om_insert N.ltb k h m.

(** [map.range(..=k).last()]: the last entry with a key not above [k]. *)
Fixpoint om_floor {V} (k : N) (m : omap N V) : option (N * V) :=
  match m with
  | [] => None
  | (k', v) :: m' =>
      if k <? k' then None
      else match om_floor k m' with Some e => Some e | None => Some (k', v) end
  end.

(** [(base..base + span).contains(&k)], with the overflow check of the addition. *)
Definition in_span (base sp k : N) : res bool :=
  let* e := add32 base sp in Ok ((base <=? k) && (k <? e)).

(** sheet_.rs 652-662 [valid_col_header], 807-817 [valid_row_header]. *)
Definition valid_header {A} (k : N) (m : hmap A) : res (option (hdr A)) :=
  match om_floor k m with
  | None => Ok None
  | Some (b, h) => let* i := in_span b (h_span h) k in Ok (if i then Some h else None)
  end.

(** sheet_.rs 676-704: the search loop of [create_split_col_header]; [&&] is lazy, so
    the sum is only computed for [col >= base_col]. *)
Fixpoint find_covering {A} (col : N) (m : hmap A) : res (option (N * hdr A)) :=
  match m with
  | [] => Ok None
  | (b, h) :: m' =>
      if b <=? col then
        let* e := add32 b (h_span h) in
        if col <? e then Ok (Some (b, h)) else find_covering col m'
      else find_covering col m'
  end.

(** sheet_.rs 668-724: [create_split_col_header].  The header put at [col] keeps the span
    of the header it was cut from.  Returns the map; the entry at [col] exists. *)
Definition split_col {A} (d : A) (col : N) (m : hmap A) : res (hmap A) :=
  let already := match hget col m with Some h => h_span h =? 1 | None => false end in
  if already then Ok m
  else
    let* f := find_covering col m in
    match f with
    | None => Ok (hput col (mkHdr d 1) m)
    | Some (b, h) =>
        let left := col - b in
        let* c1 := add32 col 1 in
        let right := b + h_span h - c1 in
        let m1 := om_remove N.ltb b m in
        let m2 := if 0 <? left then hput b (mkHdr (h_attr h) left) m1 else m1 in
        let m3 := hput col h m2 in
        Ok (if 0 <? right then hput c1 (mkHdr (h_attr h) right) m3 else m3)
    end.

(** sheet_.rs 823-870: [create_split_row_header].  [base_row + base_span > row] always holds
    once [row] is contained, so the back part is always inserted, with span 0 if [row] was
    the last row. *)
Definition split_row {A} (d : A) (row : N) (m : hmap A) : res (hmap A) :=
  match om_floor row m with
  | None => Ok (hput row (mkHdr d 1) m)
  | Some (b, h) =>
      let* i := in_span b (h_span h) row in
      if i then
        let* r1 := add32 row 1 in
        let front := if b <? row then hput row (mkHdr (h_attr h) 1) (hput b (mkHdr (h_attr h) (row - b)) m)
                     else hput b (mkHdr (h_attr h) 1) m in
        Ok (hput r1 (mkHdr (h_attr h) (b + h_span h - r1)) front)
      else Ok (hput row (mkHdr d 1) m)
  end.

(** [self.create_split_*_header(k).field = value]; the final [get_mut(..).expect(..)]. *)
Definition set_attr {A} (k : N) (f : A -> A) (m : hmap A) : res (hmap A) :=
  match hget k m with
  | Some h => Ok (hput k (mkHdr (f (h_attr h)) (h_span h)) m)
  | None => Panic
  end.

(** Column setters: sheet_.rs 727-735, 747-755, 767-769, 793-795. *)
Inductive col_op :=
| SetColStyle (s : option str)       (* set_colstyle / clear_colstyle *)
| SetColCellStyle (s : option str)   (* set_col_cellstyle / clear_col_cellstyle *)
| SetColVisible (v : visibility)
| SetColWidth (w : option str).
Definition col_edit (o : col_op) (a : colattr) : colattr :=
  match o with
  | SetColStyle s => mkColAttr s (ca_cellstyle a) (ca_visible a) (ca_width a)
  | SetColCellStyle s => mkColAttr (ca_style a) s (ca_visible a) (ca_width a)
  | SetColVisible v => mkColAttr (ca_style a) (ca_cellstyle a) v (ca_width a)
  | SetColWidth w => mkColAttr (ca_style a) (ca_cellstyle a) (ca_visible a) w
  end.
Definition set_col (col : N) (o : col_op) (m : hmap colattr) : res (hmap colattr) :=
  let* m' := split_col colattr0 col m in set_attr col (col_edit o) m'.

(** Column getters: sheet_.rs 738-744, 758-764, 772-778, 798-804. *)
Definition col_report {B} (f : colattr -> B) (d : B) (col : N) (m : hmap colattr) : res B :=
  let* h := valid_header col m in Ok (match h with Some h => f (h_attr h) | None => d end).
Definition colstyle := col_report ca_style None.
Definition col_cellstyle := col_report ca_cellstyle None.
Definition col_visible := col_report ca_visible Visible.
Definition col_width := col_report ca_width None.

(** Row setters: sheet_.rs 885-892, 904-911, 923-925, 942-945 (asserts), 957-959. *)
Inductive row_op :=
| SetRowStyle (s : option str)
| SetRowCellStyle (s : option str)
| SetRowVisible (v : visibility)
| SetRowRepeat (n : N)
| SetRowHeight (h : option str).
Definition row_edit (o : row_op) (a : rowattr) : rowattr :=
  match o with
  | SetRowStyle s => mkRowAttr s (ra_cellstyle a) (ra_visible a) (ra_repeat a) (ra_height a)
  | SetRowCellStyle s => mkRowAttr (ra_style a) s (ra_visible a) (ra_repeat a) (ra_height a)
  | SetRowVisible v => mkRowAttr (ra_style a) (ra_cellstyle a) v (ra_repeat a) (ra_height a)
  | SetRowRepeat n => mkRowAttr (ra_style a) (ra_cellstyle a) (ra_visible a) n (ra_height a)
  | SetRowHeight h => mkRowAttr (ra_style a) (ra_cellstyle a) (ra_visible a) (ra_repeat a) h
  end.
Definition row_op_asserts (o : row_op) : bool := match o with SetRowRepeat n => 0 <? n | _ => true end.
Definition set_row (row : N) (o : row_op) (m : hmap rowattr) : res (hmap rowattr) :=
  if row_op_asserts o then let* m' := split_row rowattr0 row m in set_attr row (row_edit o) m' else Panic.

(** Row getters: sheet_.rs 895-901, 914-920, 928-934, 948-954 (0 if there is no header), 962-968. *)
Definition row_report {B} (f : rowattr -> B) (d : B) (row : N) (m : hmap rowattr) : res B :=
  let* h := valid_header row m in Ok (match h with Some h => f (h_attr h) | None => d end).
Definition rowstyle := row_report ra_style None.
Definition row_cellstyle := row_report ra_cellstyle None.
Definition row_visible := row_report ra_visible Visible.
Definition row_repeat := row_report ra_repeat 0.
Definition row_height := row_report ra_height None.

(** Sequences of setter calls. *)
Fixpoint run_cols (ops : list (N * col_op)) (m : hmap colattr) : res (hmap colattr) :=
  match ops with [] => Ok m | (c, o) :: r => let* m' := set_col c o m in run_cols r m' end.
Fixpoint run_rows (ops : list (N * row_op)) (m : hmap rowattr) : res (hmap rowattr) :=
  match ops with [] => Ok m | (c, o) :: r => let* m' := set_row c o m in run_rows r m' end.

(** sheet_.rs 1539-1546: [Grouped]. *)
Record grouped := mkGrp { g_from : N; g_to : N; g_display : bool }.
(** sheet_.rs 1588-1590. *)
Definition grp_contains (a b : grouped) : bool := (g_from a <=? g_from b) && (g_to b <=? g_to a).
(** sheet_.rs 1593-1595; [&&] binds stronger than [||]. *)
Definition grp_disjunct (a b : grouped) : bool :=
  ((g_from a <? g_from b) && (g_to a <? g_from b)) || ((g_to b <? g_from a) && (g_to b <? g_to a)).

(** sheet_.rs 1394-1401, 1458-1465: [add_col_group], [add_row_group]. *)
Definition add_group (from to : N) (gs : list grouped) : res (list grouped) :=
  if from <=? to then
    let g := mkGrp from to true in
    if forallb (fun v => grp_contains g v || grp_contains v g || grp_disjunct g v) gs
    then Ok (gs ++ [g]) else Panic
  else Panic.

Definition same_range (from to : N) (g : grouped) : bool := (g_from g =? from) && (g_to g =? to).
(** sheet_.rs 1404-1412, 1468-1476: the first group with exactly this range. *)
Fixpoint remove_group (from to : N) (gs : list grouped) : list grouped :=
  match gs with [] => [] | g :: r => if same_range from to g then r else g :: remove_group from to r end.

(** sheet_.rs 1417-1424, 1481-1488: the [display] flag of the first such group. *)
Fixpoint flag_group (from to : N) (d : bool) (gs : list grouped) : list grouped :=
  match gs with
  | [] => []
  | g :: r => if same_range from to g then mkGrp from to d :: r else g :: flag_group from to d r
  end.

(** sheet_.rs 1426-1436, 1490-1500: [for r in from..=to { set_*_visible(r, ..) }]. *)
Fixpoint upto (n : nat) (from : N) : list N :=
  match n with O => [] | S n' => from :: upto n' (from + 1) end.
Definition through (from to : N) : list N := if from <=? to then upto (N.to_nat (to - from + 1)) from else [].
Definition shown (d : bool) : visibility := if d then Visible else Collapsed.
Definition set_col_group_displayed (from to : N) (d : bool) (s : list grouped * hmap colattr) :=
  if existsb (same_range from to) (fst s) then
    let* m := run_cols (map (fun c => (c, SetColVisible (shown d))) (through from to)) (snd s) in
    Ok (flag_group from to d (fst s), m)
  else Ok s.
Definition set_row_group_displayed (from to : N) (d : bool) (s : list grouped * hmap rowattr) :=
  if existsb (same_range from to) (fst s) then
    let* m := run_rows (map (fun c => (c, SetRowVisible (shown d))) (through from to)) (snd s) in
    Ok (flag_group from to d (fst s), m)
  else Ok s.

(** The group operations as seen by the list of groups. *)
Inductive grp_op := GAdd (from to : N) | GRemove (from to : N) | GDisplay (from to : N) (d : bool).
Definition apply_grp (o : grp_op) (gs : list grouped) : res (list grouped) :=
  match o with
  | GAdd f t => add_group f t gs
  | GRemove f t => Ok (remove_group f t gs)
  | GDisplay f t d => Ok (flag_group f t d gs)
  end.
Fixpoint run_grps (ops : list grp_op) (gs : list grouped) : res (list grouped) :=
  match ops with [] => Ok gs | o :: r => let* g := apply_grp o gs in run_grps r g end.

(** Equality as used by [limited_eq], sheet_.rs 1705-1710. *)
Definition ostr_eq (a b : option str) : bool :=
  match a, b with Some x, Some y => str_eqb x y | None, None => true | _, _ => false end.
Definition limited_eq (a b : colattr) : bool :=
  ostr_eq (ca_style a) (ca_style b) && ostr_eq (ca_cellstyle a) (ca_cellstyle b)
  && vis_eqb (ca_visible a) (ca_visible b) && ostr_eq (ca_width a) (ca_width b).

(** sheet_.rs 1704-1738 [dedup_colheader].  The new map is filled in increasing key order,
    so each insertion appends. *)
Fixpoint dedup_from (c : N) (h : hdr colattr) (m : hmap colattr) : res (hmap colattr) :=
  match m with
  | [] => Ok [(c, h)]
  | (c', h') :: m' =>
      if limited_eq (h_attr h) (h_attr h') then
        let* s := add32 (h_span h) (h_span h') in dedup_from c (mkHdr (h_attr h) s) m'
      else let* r := dedup_from c' h' m' in Ok ((c, h) :: r)
  end.
Definition dedup_colheader (m : hmap colattr) : res (hmap colattr) :=
  match m with [] => Ok [] | (c, h) :: m' => dedup_from c h m' end.

(** Row/column range [Header], sheet_.rs 1525-1530. *)
Definition range : Type := N * N.

(** write.rs 438-447: the columns where headers are cut. *)
Fixpoint group_cuts (gs : list grouped) : res (list N) :=
  match gs with
  | [] => Ok []
  | g :: r => let* t := add32 (g_to g) 1 in let* c := group_cuts r in Ok (g_from g :: t :: c)
  end.
Definition cuts (gs : list grouped) (hc : option range) : res (list N) :=
  let* a := group_cuts gs in
  match hc with
  | None => Ok a
  | Some (f, t) => let* t1 := add32 t 1 in Ok (a ++ [f; t1])
  end.

(** write.rs 452-473: cut one header.  [n] columns are left between [cc] and its end;
    the current piece starts at [col], its remaining span is [end - col]. *)
Fixpoint cut_header {A} (sp : list N) (a : A) (n : nat) (cc col : N) (m : hmap A) : hmap A :=
  match n with
  | O => hput col (mkHdr a (cc - col)) m
  | S n' =>
      if existsb (N.eqb cc) sp then
        cut_header sp a n' (cc + 1) cc (if 0 <? cc - col then hput col (mkHdr a (cc - col)) m else m)
      else cut_header sp a n' (cc + 1) col m
  end.
Fixpoint cut_headers {A} (sp : list N) (ms acc : hmap A) : res (hmap A) :=
  match ms with
  | [] => Ok acc
  | (c, h) :: r =>
      let* _ := add32 c (h_span h) in
      cut_headers sp r (cut_header sp (h_attr h) (N.to_nat (h_span h)) c c acc)
  end.

(** write.rs 429-481: [calc_col_headers] for one sheet. *)
Definition calc_col_headers (gs : list grouped) (hc : option range) (m : hmap colattr) : res (hmap colattr) :=
  let* d := dedup_colheader m in
  let* sp := cuts gs hc in
  cut_headers sp d [].

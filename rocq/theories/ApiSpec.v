(** What a program that fills a new sheet leaves for a program that reads the file. *)
From Verif Require Import Base OMap XmlModel CellModel CellSpec HeaderModel CellIoModel CellIoSpec TableModel.

(** A call that stores something that can be written and read: no repeat counts, everything within the grid. *)
Definition op_fine (po : pos * cell_op) : Prop :=
  let '((r, c), o) := po in
  r < u32_max /\ c < u32_max /\
  match o with
  | SetValue v | SetStyled v _ => writable v
  | SetRepeat n => n = 1
  | SetRowSpan n => 1 <= n /\ r + n <= u32_max
  | SetColSpan n => 1 <= n /\ c + n <= u32_max
  | SetMRowSpan n | SetMColSpan n => 1 <= n <= u32_max
  | SetAnnotation a => ann_ok a
  | AddFrame f => frame_ok f
  | AddCell k => writable (k_value k) /\ k_repeat k = 1
      /\ (1 <= rspan (k_span k) /\ r + rspan (k_span k) <= u32_max) /\ (1 <= cspan_ (k_span k) /\ c + cspan_ (k_span k) <= u32_max)
      /\ 1 <= rspan (k_matrix k) <= u32_max /\ 1 <= cspan_ (k_matrix k) <= u32_max
      /\ (forall a, k_annotation k = Some a -> ann_ok a) /\ Forall frame_ok (k_frames k)
  | _ => True
  end.

(** sheet_.rs:540-557 [Sheet::new], with cells. *)
Definition sheet_of (name : str) (m : cells) : sheet := Sheet name None None true true [] [] [] [] [] None None m.

(** What is read for what the getters reported: the same but for the text of a value (C30, C31, C55), the pieces of the texts of annotations
    and frames (C44), and the style of the workbook for values of the type if there is no style. *)
Definition found_again (lb : bool) (ds : vtype -> option str) (v u : view) : Prop :=
  v_present u = true /\ value_after lb (v_value v) (v_value u) /\ v_formula u = v_formula v
  /\ v_style u = match v_style v with Some s => Some s | None => ds (value_type (v_value v)) end
  /\ v_repeat u = 1 /\ v_validation u = v_validation v
  /\ v_row_span u = v_row_span v /\ v_col_span u = v_col_span v /\ v_mrow_span u = v_mrow_span v /\ v_mcol_span u = v_mcol_span v
  /\ match v_annotation v, v_annotation u with None, None => True | Some a, Some b => ann_after lb a b | _, _ => False end
  /\ Forall2 (frame_after lb) (v_frames v) (v_frames u).
(** Nothing that would be stored: no style either, or empty cells are to be ignored. *)
Definition says_none (ign : bool) (u : view) : Prop :=
  v_value u = VEmpty /\ v_formula u = None /\ (v_style u = None \/ ign = true) /\ v_validation u = None
  /\ v_row_span u = 1 /\ v_col_span u = 1 /\ v_mrow_span u = 1 /\ v_mcol_span u = 1 /\ v_annotation u = None /\ v_frames u = [].
(** What the getters report in the file. *)
Definition reads_back (lb ign : bool) (ds : vtype -> option str) (v v' : view) : Prop :=
  if v_present v then exists u, found_again lb ds v u /\ (says_none ign u /\ v' = view_blank \/ ~ says_none ign u /\ v' = u)
  else v' = view_blank.

(** Values, annotations and frames that come back as they are. *)
Definition value_plain (v : value) : Prop := match v with VText s => s <> [] /\ ~ In 10 s | VTextXml _ => False | _ => True end.
Definition view_plain (v : view) : Prop :=
  value_plain (v_value v) /\ (forall a, v_annotation v = Some a -> ann_exact a) /\ Forall frame_exact (v_frames v).

(** A workbook of sheets filled by programs. *)
Definition filled (prog : str * list (pos * cell_op)) (sh : sheet) : Prop :=
  exists m, run_ops (snd prog) [] = Ok m /\ sh = sheet_of (fst prog) m.
Definition reads_program (lb ign : bool) (ds : vtype -> option str) (prog : str * list (pos * cell_op)) (sh : sheet) : Prop :=
  tb_name sh = fst prog /\ forall p, reads_back lb ign ds (view_expected view_blank (at_pos p (snd prog))) (view_of p (tb_cells sh)).

(** Cells hidden by the span of another cell: io/write.rs [SplitCols], [split_hidden],
    [remove_outlived], and the part of the cell loop of [write_sheet] that uses them. *)
From Verif Require Import Base OMap RefsModel CellModel.

(** write.rs 1471-1482: [SplitCols], [repeat]. *)
Record split := mkSplit { s_col : N; s_to : N; s_hidden : bool }.
Definition s_repeat (s : split) : res N := let* d := sub32 (s_to s) (s_col s) in add32 d 1.

(** write.rs 1509-1556: the column loop, [n] columns from [c].  [cur] is the piece being
    built; the result is the list of finished pieces in the order they are pushed. *)
Fixpoint split_loop (hid : N -> bool) (n : nat) (c : N) (cur : option split) : list split :=
  match n with
  | O => match cur with Some s => [s] | None => [] end
  | S n' =>
      let h := hid c in
      match cur with
      | None => split_loop hid n' (c + 1) (Some (mkSplit c c h))
      | Some s =>
          if Bool.eqb (s_hidden s) h then split_loop hid n' (c + 1) (Some (mkSplit (s_col s) c h))
          else s :: split_loop hid n' (c + 1) (Some (mkSplit c c h))
      end
  end.

(** write.rs 1485-1557: [split_hidden].  The single cell and the repeated cell are two
    branches in the source. *)
Definition split_hidden (ranges : list cellrange) (row col repeat : N) : res (list split) :=
  if repeat =? 1 then
    if existsb (fun v => range_contains v row col) ranges
    then Ok [mkSplit col col true] else Ok [mkSplit col col false]
  else
    let rs := filter (fun v => (rg_row v <=? row) && (row <=? rg_to_row v)) ranges in
    let* _ := add32 col repeat in
    Ok (split_loop (fun c => existsb (fun r => (rg_col r <=? c) && (c <=? rg_to_col r)) rs)
          (N.to_nat repeat) col None).

(** write.rs 1568-1574: [remove_outlived]. *)
Definition remove_outlived (ranges : list cellrange) (row col : N) : list cellrange :=
  filter (fun s => negb (out_looped s row col)) ranges.

(** write.rs 1724-1737: one cell; the spans afterwards and its pieces.  [split[0]] is an
    index panic if there is no piece (repeat 0) but only evaluated if the cell has [extra]. *)
Definition hide_cell (spans : list cellrange) (kv : pos * cell) : res (list cellrange * list split) :=
  let '((row, col), c) := kv in
  let spans1 := remove_outlived spans row col in
  let* sp := split_hidden spans1 row col (c_repeat c) in
  match c_extra c with
  | None => Ok (spans1, sp)
  | Some x =>
      match sp with
      | [] => Panic
      | s0 :: _ =>
          let s := x_span x in
          if negb (s_hidden s0) && ((1 <? rspan s) || (1 <? cspan_ s)) then
            let* r := origin_span row col (rspan s, cspan_ s) in Ok (spans1 ++ [r], sp)
          else Ok (spans1, sp)
      end
  end.

(** The pieces of all cells of a sheet, in the order they are written. *)
Fixpoint hide_cells (spans : list cellrange) (l : list (pos * cell)) : res (list (pos * list split)) :=
  match l with
  | [] => Ok []
  | kv :: r =>
      let* (spans', sp) := hide_cell spans kv in
      let* rest := hide_cells spans' r in
      Ok ((fst kv, sp) :: rest)
  end.

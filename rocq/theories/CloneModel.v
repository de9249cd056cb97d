(** What is done to a sheet once its table has been read: src/io/read.rs 499-618.
    Repeated rows and cells are copied, or the repeat counts are kept. *)
From Verif Require Import Base OMap CellModel HeaderModel TableModel.

(** read.rs:524-528, 559-563: repeat counts above 1000 of the last five row headers are reset. *)
Definition clear_repeat (kh : N * hdr rowattr) : N * hdr rowattr :=
  if 1000 <? ra_repeat (h_attr (snd kh)) then (fst kh, mkHdr (row_edit (SetRowRepeat 1) (h_attr (snd kh))) (h_span (snd kh))) else kh.
Definition clear_last (m : hmap rowattr) : hmap rowattr :=
  rev (map clear_repeat (firstn 5 (rev m)) ++ skipn 5 (rev m)).

(** [for i in 1..n]. *)
Definition from1 (n : N) : list N := map N.of_nat (seq 1 (N.to_nat (n - 1))).
(** A loop that pushes to a vector. *)
Fixpoint collect {A B} (f : A -> res (list B)) (l : list A) : res (list B) :=
  match l with [] => Ok [] | x :: r => let* y := f x in let* z := collect f r in Ok (y ++ z) end.
(** [for (row, col, data) in .. { sheet.data.insert((row, col), data); }] *)
Definition insert_all (l : list (pos * cell)) (m : cells) : cells :=
  fold_left (fun m kv => om_insert pltb (fst kv) (snd kv) m) l m.
Definition remove_all (l : list pos) (m : cells) : cells := fold_left (fun m p => om_remove pltb p m) l m.

(** read.rs:565-573: the copies of the cells of repeated rows; [row + 1] and [row + i] can overflow. *)
Definition cell_down (n : N) (kv : pos * cell) : res (list (pos * cell)) :=
  collect (fun i => let* r := add32 (fst (fst kv)) i in Ok [((r, snd (fst kv)), snd kv)]) (from1 n).
Definition row_down (m : cells) (kh : N * hdr rowattr) : res (list (pos * cell)) :=
  let n := ra_repeat (h_attr (snd kh)) in
  if 1 <? n then
    let* e := add32 (fst kh) 1 in
    let* l := om_range pltb (Included (fst kh, 0)) (Excluded (e, 0)) m in
    collect (cell_down n) l
  else Ok [].

(** read.rs:577-581: [repeat] and [span] of each header are swapped. *)
Definition swap_repeat (kh : N * hdr rowattr) : N * hdr rowattr :=
  (fst kh, mkHdr (row_edit (SetRowRepeat (h_span (snd kh))) (h_attr (snd kh))) (ra_repeat (h_attr (snd kh)))).

(** read.rs:585-609: one cell of the second loop, what is left of it, what is dropped, what is copied. *)
Definition set_once (c : cell) : cell := Cell (c_value c) (c_formula c) (c_style c) 1 (c_extra c).
Definition last_in_row (p : pos) (next : cells) : bool :=
  match next with (q, _) :: _ => negb (fst p =? fst q) | [] => true end.
Definition cell_right (p : pos) (n : N) (c : cell) : res (list (pos * cell)) :=
  collect (fun i => let* k := add32 (snd p) i in Ok [((fst p, k), c)]) (from1 n).
Fixpoint cells_right (m : cells) : res (cells * list pos * list (pos * cell)) :=
  match m with
  | [] => Ok ([], [], [])
  | (p, c) :: r =>
      if 1 <? c_repeat c then
        if last_in_row p r && cell_is_empty (set_once c) then
          let* (x, d, k) := cells_right r in Ok ((p, set_once c) :: x, p :: d, k)
        else
          let* l := cell_right p (c_repeat c) (set_once c) in
          let* (x, d, k) := cells_right r in Ok ((p, set_once c) :: x, d, l ++ k)
      else let* (x, d, k) := cells_right r in Ok ((p, c) :: x, d, k)
  end.

(** read.rs:552-618 [calc_cloned_sheet]. *)
Definition calc_cloned (sh : sheet) : res sheet :=
  let rows := clear_last (tb_rows sh) in
  let* l := collect (row_down (tb_cells sh)) rows in
  let* (x, d, k) := cells_right (insert_all l (tb_cells sh)) in
  Ok (put_cells (insert_all k (remove_all d x)) (put_rows (map swap_repeat rows) sh)).

(** read.rs:512-549 [calc_repeat_sheet]. *)
Fixpoint cells_dropped (m : cells) : list pos :=
  match m with
  | [] => []
  | (p, c) :: r => if (1 <? c_repeat c) && (last_in_row p r && cell_is_empty c) then p :: cells_dropped r else cells_dropped r
  end.
Definition calc_repeat (sh : sheet) : sheet :=
  put_cells (remove_all (cells_dropped (tb_cells sh)) (tb_cells sh)) (put_rows (clear_last (tb_rows sh)) sh).

(** read.rs:499-509 [calculations] for one sheet. *)
Definition calculations (use_repeat : bool) (sh : sheet) : res sheet :=
  let* cs := dedup_colheader (tb_cols sh) in
  let sh := put_cols cs sh in
  if use_repeat then Ok (calc_repeat sh) else calc_cloned sh.

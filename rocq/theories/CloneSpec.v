(** What a sheet with repeated rows and cells stands for. *)
From Verif Require Import Base OMap CellModel HeaderModel CellIoSpec TableModel.

(** How often a row is counted: the repeat count of its header, but once if the count is above
    1000 and at most four headers follow. *)
Definition counted (rows : hmap rowattr) (r n : N) : Prop :=
  exists a h b, rows = a ++ (r, h) :: b
    /\ ((length b < 5)%nat /\ 1000 < ra_repeat (h_attr h) /\ n = 1
        \/ ((length b >= 5)%nat \/ ra_repeat (h_attr h) <= 1000) /\ n = ra_repeat (h_attr h)).
(** Row [r] is row [r0] or one of its repeats. *)
Definition row_stands (rows : hmap rowattr) (r0 r : N) : Prop :=
  r = r0 \/ exists n, counted rows r0 n /\ r0 <= r < r0 + n.

(** One of the cells a repeated cell stands for. *)
Definition copy_of (d k : cell) : Prop :=
  c_value k = c_value d /\ c_formula k = c_formula d /\ c_style k = c_style d /\ c_extra k = c_extra d
  /\ c_repeat k = N.min 1 (c_repeat d).
(** A repeated cell behind all others of its row that has nothing but a style. *)
Definition left_out (m : cells) (r c : N) (d : cell) : Prop :=
  1 < c_repeat d /\ says_nothing (c_style d) (cell_content d) /\ forall b e, In ((r, b), e) m -> b <= c.

(** The cell at a position of the expanded sheet. *)
Definition expanded (rows : hmap rowattr) (m : cells) (p : pos) (k : cell) : Prop :=
  exists r c d, In ((r, c), d) m /\ row_stands rows r (fst p) /\ c <= snd p < c + N.max 1 (c_repeat d)
    /\ copy_of d k /\ ~ left_out m r c d.

(** No cells in the rows and columns that are repeats; the repeats are within the grid. *)
Definition apart (rows : hmap rowattr) (m : cells) : Prop :=
  (forall r n c d, counted rows r n -> In ((r, c), d) m -> r + n <= u32_max + 1
     /\ forall r' c' d', In ((r', c'), d') m -> r < r' -> r + n <= r')
  /\ (forall r c d, In ((r, c), d) m -> c + c_repeat d <= u32_max + 1
     /\ forall c' d', In ((r, c'), d') m -> c < c' -> c + c_repeat d <= c')
  /\ (forall r n, counted rows r n -> 1 < n -> r < u32_max).

(** What the iterators over cells say about their length: src/sheet_.rs. *)
From Verif Require Import Base OMap CellModel HeaderModel.

(** A size hint: at least so many, and at most so many if that is known. usize has 64 bits here. *)
Definition hint : Type := N * option N.

(** src/sheet_.rs:368-370 [IterRows::size_hint] *)
Definition rows_size_hint (i : iter_rows) : hint := (0, Some (ir_hint i)).
(** src/sheet_.rs:449-454 [IterCols::size_hint]; the differences are those of u32. *)
Definition cols_size_hint (i : iter_cols) : res hint :=
  let* a := sub32 (fst (ic_end i)) (fst (ic_start i)) in
  let* b := sub32 (snd (ic_end i)) (snd (ic_start i)) in
  Ok (0, Some (a * b)).

(** src/sheet_.rs:457-491 [Range]: the entries of the btree range not yet given out. *)
Record range_iter := RangeIter { ri_rest : list (pos * cell) }.
(** src/sheet_.rs:613-620 [range] *)
Definition range_new (lo hi : bound pos) (m : cells) : res range_iter :=
  let* l := om_range pltb lo hi m in Ok (RangeIter l).
(** 468-474 [next] *)
Definition range_next (i : range_iter) : option item * range_iter :=
  match ri_rest i with
  | kv :: r => (Some (item_of kv), RangeIter r)
  | [] => (None, i)
  end.
(** 481-489 [next_back]: the btree range is taken from its other end. *)
Definition range_next_back (i : range_iter) : option item * range_iter :=
  match rev (ri_rest i) with
  | kv :: r => (Some (item_of kv), RangeIter (rev r))
  | [] => (None, i)
  end.
(** 476-478 [size_hint]: that of [btree_map::Range], which has the one every iterator has if it says nothing (std). *)
Definition range_size_hint (i : range_iter) : hint := (0, None).
(** 491 [impl ExactSizeIterator]: [len] is the one std gives, [assert_eq!(upper, Some(lower))] and then [lower]. *)
Definition hint_len (h : hint) : res N :=
  match snd h with
  | Some u => if u =? fst h then Ok (fst h) else Panic
  | None => Panic
  end.
Definition range_len (i : range_iter) : res N := hint_len (range_size_hint i).

(** A program of calls from the front ([false]) and from the back ([true]), with what they return. *)
Fixpoint range_calls (ends : list bool) (i : range_iter) : list (option item) * range_iter :=
  match ends with
  | [] => ([], i)
  | b :: r =>
      let (x, i1) := if b then range_next_back i else range_next i in
      let (xs, i2) := range_calls r i1 in (x :: xs, i2)
  end.

(** src/sheet_.rs:584-586 [cell_count] *)
Definition cell_count (m : cells) : N := N.of_nat (length m).
(** src/sheet_.rs:982-990 [col_header_max], [row_header_max] *)
Definition header_max {A} (m : hmap A) : N := fold_left (fun mx k => N.max mx k) (map fst m) 0.

(** C22: covered cells. *)
From Verif Require Import Base Lib OMap OMapProofs XmlModel RefsModel CellModel SplitModel SplitSpec SplitProofs.

(** Column by column the pieces written for a (repeated) cell say "covered" exactly where an
    owner among the earlier cells claims the position. *)
Theorem C22_covered data out : om_sorted pltb data -> hide_cells [] data = Ok out ->
  length out = length data /\
  forall pre row col d post, data = pre ++ ((row, col), d) :: post ->
  exists sp, nth_error out (length pre) = Some ((row, col), sp)
    /\ pieces_cols sp = map (fun k => (k, covered (owners [] pre) (row, k))) (columns (N.to_nat (c_repeat d)) col)
    /\ alternating sp /\ Forall (fun s => s_col s <= s_to s) sp.
Proof. exact (C22_covered_thm data out). Qed.

(** The pieces add up to the repeat count, whatever ranges are given. *)
Theorem C22_length rs row col n l : split_hidden rs row col n = Ok l ->
  fold_right (fun s t => s_to s - s_col s + 1 + t) 0 l = n
  /\ Forall (fun s => s_col s <= s_to s) l.
Proof.
  intros H. destruct (split_hidden_spec _ _ _ _ _ H) as (A & _ & B). split; auto.
  rewrite <- sum_repeat by auto. rewrite A, map_length, columns_length. lia.
Qed.

(** Dropping outlived ranges never changes what is covered from there on. *)
Theorem C22_outlived rs row col p : later row col p ->
  existsb (fun v => range_contains v (fst p) (snd p)) (remove_outlived rs row col)
  = existsb (fun v => range_contains v (fst p) (snd p)) rs.
Proof. exact (outlived_keeps rs row col p). Qed.

(** Every sheet whose cells and spans stay within the grid is written. *)
Theorem C22_written data : Forall fits data -> exists out, hide_cells [] data = Ok out.
Proof. exact (hide_cells_total data []). Qed.

Definition spanned (v : str) (h w n : N) : cell :=
  Cell (VText v) None None n (Some (CExt None (CSpan h w) span1 None [])).
(** A 2x3 span at B1, a repeated cell below it which is partly covered, and a spanning cell
    inside the rectangle which owns nothing. *)
Definition C22_data : cells :=
  [ ((0, 1), spanned (lit "a") 2 3 1);
    ((1, 0), Cell (VText (lit "b")) None None 7 None);
    ((1, 8), spanned (lit "c") 1 1 1);
    ((2, 2), Cell (VText (lit "d")) None None 2 None) ].
Example C22_ex : Forall fits C22_data /\ om_sorted pltb C22_data /\
  hide_cells [] C22_data = Ok
    [ ((0, 1), [mkSplit 1 1 false]);
      ((1, 0), [mkSplit 0 0 false; mkSplit 1 3 true; mkSplit 4 6 false]);
      ((1, 8), [mkSplit 8 8 false]);
      ((2, 2), [mkSplit 2 3 false]) ].
Proof.
  split; [|split].
  - repeat constructor; vm_compute; discriminate.
  - cbn. repeat constructor.
  - vm_compute. reflexivity.
Qed.
Example C22_inner_ex :
  hide_cells [] [ ((0, 0), spanned (lit "a") 2 2 1); ((0, 1), spanned (lit "x") 5 5 1);
                  ((1, 1), spanned (lit "y") 1 1 1); ((1, 2), spanned (lit "z") 1 1 1) ]
  = Ok [ ((0, 0), [mkSplit 0 0 false]); ((0, 1), [mkSplit 1 1 true]);
         ((1, 1), [mkSplit 1 1 true]); ((1, 2), [mkSplit 2 2 false]) ]
  /\ covered (owners [] [ ((0, 0), spanned (lit "a") 2 2 1); ((0, 1), spanned (lit "x") 5 5 1) ]) (1, 2) = false.
Proof. vm_compute. split; reflexivity. Qed.

(** A repeat of zero, which [Sheet::set_cell_repeat] and [CellContent::new] allow, panics
    for every cell with a span, validation, annotation or frame. *)
Theorem C22_repeat_zero_refuted : exists data, om_sorted pltb data
  /\ (forall kv, In kv data -> fst kv = (0, 0)) /\ hide_cells [] data = Panic.
Proof.
  exists [((0, 0), spanned (lit "a") 2 2 0)]. split; [cbn; repeat constructor|].
  split; [|vm_compute; reflexivity]. intros kv [<-|[]]. reflexivity.
Qed.

Print Assumptions C22_covered.
Print Assumptions C22_length.
Print Assumptions C22_outlived.
Print Assumptions C22_written.
Print Assumptions C22_repeat_zero_refuted.

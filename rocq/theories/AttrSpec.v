(** Specification of attribute maps by the history of operations. *)
From Verif Require Import Base AttrModel.

(** The value a history (oldest first) leaves for name [k]. *)
Definition last_set (k : str) (ops : list am_op) : option str :=
  fold_left (fun cur o => match o with
    | OpSet k' v => if str_eqb k' k then Some v else cur
    | OpClear k' => if str_eqb k' k then None else cur
    end) ops None.

(** The time at which [k] was inserted and not removed since. *)
Definition inserted_at (k : str) (ops : list am_op) : option nat :=
  snd (fold_left (fun st o =>
    let '(now, cur) := st in
    (S now, match o with
      | OpSet k' _ => if str_eqb k' k then (match cur with Some t => Some t | None => Some now end) else cur
      | OpClear k' => if str_eqb k' k then None else cur
      end)) ops (O, None)).

(** Earlier in the list means inserted earlier. *)
Definition insertion_order (ops : list am_op) (keys : list str) : Prop :=
  forall i j k1 k2 t1 t2, (i < j)%nat ->
    nth_error keys i = Some k1 -> nth_error keys j = Some k2 ->
    inserted_at k1 ops = Some t1 -> inserted_at k2 ops = Some t2 -> (t1 < t2)%nat.

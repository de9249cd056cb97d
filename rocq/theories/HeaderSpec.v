(** What "only that row/column" means: stated on the contents of the header map and on
    the history of calls, without the lookup and splitting code. *)
From Verif Require Import Base OMap HeaderModel.

(** The header for [k]: the nearest one starting at or before [k], if it reaches [k]. *)
Definition header_for {A} (m : hmap A) (k b : N) (h : hdr A) : Prop :=
  In (b, h) m /\ b <= k /\ k < b + h_span h /\ (forall b' h', In (b', h') m -> b' <= k -> b' <= b).
Definition no_header_for {A} (m : hmap A) (k : N) : Prop := forall b h, ~ header_for m k b h.

(** Header maps whose ranges do not overlap and stay below [u32::MAX]. *)
Definition disjoint {A} (m : hmap A) : Prop :=
  om_sorted N.ltb m
  /\ (forall b h, In (b, h) m -> b + h_span h <= u32_max)
  /\ (forall b h b' h', In (b, h) m -> In (b', h') m -> b < b' -> b + h_span h <= b').
Definition wide {A} (m : hmap A) : Prop := forall b h, In (b, h) m -> 1 <= h_span h.

(** Two maps give the same answer for [k]. *)
Definition same_at {A} (m m' : hmap A) (k : N) : Prop :=
  forall a, (exists b h, header_for m k b h /\ h_attr h = a) <-> (exists b h, header_for m' k b h /\ h_attr h = a).
(** Header attributes seen at [k]. *)
Definition seen {A} (m : hmap A) (k : N) (a : A) : Prop := exists b h, header_for m k b h /\ h_attr h = a.
Definition seen_or {A} (d : A) (m : hmap A) (k : N) (a : A) : Prop :=
  seen m k a \/ (no_header_for m k /\ a = d).

(** The last value a history of calls gave to a field of row/column [k]. *)
Fixpoint last_set {O B} (f : O -> option B) (ops : list (N * O)) (k : N) (d : B) : B :=
  match ops with
  | [] => d
  | (c, o) :: r => last_set f r k (match f o with Some b => if c =? k then b else d | None => d end)
  end.
Definition cs_style (o : col_op) := match o with SetColStyle s => Some s | _ => None end.
Definition cs_cellstyle (o : col_op) := match o with SetColCellStyle s => Some s | _ => None end.
Definition cs_visible (o : col_op) := match o with SetColVisible s => Some s | _ => None end.
Definition cs_width (o : col_op) := match o with SetColWidth s => Some s | _ => None end.
Definition rs_style (o : row_op) := match o with SetRowStyle s => Some s | _ => None end.
Definition rs_cellstyle (o : row_op) := match o with SetRowCellStyle s => Some s | _ => None end.
Definition rs_visible (o : row_op) := match o with SetRowVisible s => Some s | _ => None end.
Definition rs_repeat (o : row_op) := match o with SetRowRepeat s => Some s | _ => None end.
Definition rs_height (o : row_op) := match o with SetRowHeight s => Some s | _ => None end.

(** Histories that never go back to an earlier row. *)
Fixpoint forward {O} (lo : N) (ops : list (N * O)) : Prop :=
  match ops with [] => True | (r, _) :: rest => lo <= r /\ forward r rest end.

(** Some call of the history was for row/column [k]. *)
Definition touched {O} (ops : list (N * O)) (k : N) : Prop := exists o, In (k, o) ops.

(** Groups: two ranges are nested or disjoint. *)
Definition nested_or_disjoint (a b : grouped) : Prop :=
  (g_from a <= g_from b /\ g_to b <= g_to a)
  \/ (g_from b <= g_from a /\ g_to a <= g_to b)
  \/ (forall x, ~ (g_from a <= x <= g_to a /\ g_from b <= x <= g_to b)).
Definition laminar (gs : list grouped) : Prop :=
  (forall g, In g gs -> g_from g <= g_to g)
  /\ (forall i j a b, nth_error gs i = Some a -> nth_error gs j = Some b -> nested_or_disjoint a b).

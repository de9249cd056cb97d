(** What frozen headers and split views ought to be after some calls. *)
From Verif Require Import Base EnumModel ViewModel FreezeModel.

Definition last_of {A} (f : view_op -> option A) (ops : list view_op) (d : A) : A :=
  fold_left (fun a o => match f o with Some b => b | None => a end) ops d.

(** How a sheet is split between columns: how, and where; the last call that says so counts. *)
Definition hor_split (o : view_op) : option (splitmode * N) :=
  match o with SplitColHeader c => Some (SplitHeading, c + 1) | SplitHorizontal c => Some (SplitSplit, c) | _ => None end.
Definition vert_split (o : view_op) : option (splitmode * N) :=
  match o with SplitRowHeader r => Some (SplitHeading, r + 1) | SplitVertical r => Some (SplitSplit, r) | _ => None end.
(** Freezing also scrolls the other part to what follows the header, and puts the cursor there. *)
Definition frozen_col (o : view_op) : option N := match o with SplitColHeader c => Some (c + 1) | _ => None end.
Definition frozen_row (o : view_op) : option N := match o with SplitRowHeader r => Some (r + 1) | _ => None end.

Definition view_wanted (ops : list view_op) (s t : sheetcfg) : Prop :=
  (sc_hor_mode t, sc_hor_pos t) = last_of hor_split ops (sc_hor_mode s, sc_hor_pos s)
  /\ (sc_vert_mode t, sc_vert_pos t) = last_of vert_split ops (sc_vert_mode s, sc_vert_pos s)
  /\ sc_right t = last_of frozen_col ops (sc_right s) /\ sc_cursor_x t = last_of frozen_col ops (sc_cursor_x s)
  /\ sc_bottom t = last_of frozen_row ops (sc_bottom s) /\ sc_cursor_y t = last_of frozen_row ops (sc_cursor_y s)
  /\ sc_active_range t = sc_active_range s /\ sc_left t = sc_left s /\ sc_top t = sc_top s
  /\ sc_zoom_type t = sc_zoom_type s /\ sc_zoom t = sc_zoom s /\ sc_page_zoom t = sc_page_zoom s /\ sc_grid t = sc_grid s.

(** Numbers are u32; a header can be frozen up to any column or row but the last number of the type. *)
Definition number_of (o : view_op) : N := match o with SplitColHeader n | SplitRowHeader n | SplitHorizontal n | SplitVertical n => n end.
Definition too_far (o : view_op) : Prop := match o with SplitColHeader n | SplitRowHeader n => n = u32_max | _ => False end.

(** What a sheet should do, in terms of the history of operations. *)
From Verif Require Import Base OMap XmlModel CellModel.

(** Operations of a history that concern position [p]. *)
Definition at_pos (p : pos) (ops : list (pos * cell_op)) : list cell_op :=
  map snd (filter (fun po => (fst (fst po) =? fst p) && (snd (fst po) =? snd p)) ops).

(** Last write wins: [w] says what an operation stores for an aspect, if anything. *)
Definition last_write {A} (w : cell_op -> option A) (start : A) (h : list cell_op) : A :=
  match find (fun o => is_some (w o)) (rev h) with
  | Some o => match w o with Some a => a | None => start end
  | None => start
  end.

(** What each operation stores for each aspect. *)
Definition w_value o := match o with
  | SetValue v | SetStyled v _ => Some v | AddCell k => Some (k_value k) | RemoveCell => Some VEmpty | _ => None end.
Definition w_formula o := match o with
  | SetFormula f => Some (Some f) | ClearFormula => Some None
  | AddCell k => Some (k_formula k) | RemoveCell => Some None | _ => None end.
Definition w_style o := match o with
  | SetStyle s | SetStyled _ s => Some (Some s) | ClearStyle => Some None
  | AddCell k => Some (k_style k) | RemoveCell => Some None | _ => None end.
Definition w_repeat o := match o with
  | SetRepeat n => Some n | AddCell k => Some (k_repeat k) | RemoveCell => Some 1 | _ => None end.
Definition w_validation o := match o with
  | SetValidation v => Some (Some v) | ClearValidation => Some None
  | AddCell k => Some (k_validation k) | RemoveCell => Some None | _ => None end.
Definition w_row_span o := match o with
  | SetRowSpan n => Some n | AddCell k => Some (rspan (k_span k)) | RemoveCell => Some 1 | _ => None end.
Definition w_col_span o := match o with
  | SetColSpan n => Some n | AddCell k => Some (cspan_ (k_span k)) | RemoveCell => Some 1 | _ => None end.
Definition w_mrow_span o := match o with
  | SetMRowSpan n => Some n | AddCell k => Some (rspan (k_matrix k)) | RemoveCell => Some 1 | _ => None end.
Definition w_mcol_span o := match o with
  | SetMColSpan n => Some n | AddCell k => Some (cspan_ (k_matrix k)) | RemoveCell => Some 1 | _ => None end.
Definition w_annotation o := match o with
  | SetAnnotation a => Some (Some a) | ClearAnnotation => Some None
  | AddCell k => Some (k_annotation k) | RemoveCell => Some None | _ => None end.
(** A cell exists after any setter; the clearing operations neither create nor remove. *)
Definition w_present o := match o with
  | ClearFormula | ClearStyle | ClearValidation | ClearAnnotation | ClearFrames => None
  | RemoveCell => Some false
  | _ => Some true end.

(** Draw frames accumulate since the last clear, removal or replacement. *)
Fixpoint frames_after (start : list dframe) (h : list cell_op) : list dframe :=
  match h with
  | [] => start
  | AddFrame f :: h' => frames_after (start ++ [f]) h'
  | (ClearFrames | RemoveCell) :: h' => frames_after [] h'
  | AddCell k :: h' => frames_after (k_frames k) h'
  | _ :: h' => frames_after start h'
  end.

Definition frames_of (o : option (list dframe)) : list dframe := match o with Some l => l | None => [] end.

(** A span of zero is requested. *)
Definition zero_span (o : cell_op) : Prop :=
  match o with SetRowSpan n | SetColSpan n | SetMRowSpan n | SetMColSpan n => n = 0 | _ => False end.

(** The spans of a content are at least one; the fields of [CellSpan] are private to the
    crate and its setters check, so every content a caller can make has this. *)
Definition content_spans_ok (k : content) : Prop :=
  1 <= rspan (k_span k) /\ 1 <= cspan_ (k_span k) /\ 1 <= rspan (k_matrix k) /\ 1 <= cspan_ (k_matrix k).

(** Everything the getters report for a position. *)
Record view := View {
  v_present : bool; v_value : value; v_formula : option str; v_style : option str; v_repeat : N;
  v_validation : option str; v_row_span : N; v_col_span : N; v_mrow_span : N; v_mcol_span : N;
  v_annotation : option annotation; v_frames : list dframe }.
Definition view_of (p : pos) (m : cells) : view :=
  View (negb (sh_is_empty p m)) (sh_value p m) (sh_formula p m) (sh_style p m) (sh_repeat p m)
    (sh_validation p m) (sh_row_span p m) (sh_col_span p m) (sh_mrow_span p m) (sh_mcol_span p m)
    (sh_annotation p m) (frames_of (sh_frames p m)).
Definition view_expected (v : view) (h : list cell_op) : view :=
  View (last_write w_present (v_present v) h) (last_write w_value (v_value v) h)
    (last_write w_formula (v_formula v) h) (last_write w_style (v_style v) h)
    (last_write w_repeat (v_repeat v) h) (last_write w_validation (v_validation v) h)
    (last_write w_row_span (v_row_span v) h) (last_write w_col_span (v_col_span v) h)
    (last_write w_mrow_span (v_mrow_span v) h) (last_write w_mcol_span (v_mcol_span v) h)
    (last_write w_annotation (v_annotation v) h) (frames_after (v_frames v) h).
Definition view_blank : view := View false VEmpty None None 1 None 1 1 1 1 None [].
Definition view_content (k : content) : view :=
  View true (k_value k) (k_formula k) (k_style k) (k_repeat k) (k_validation k)
    (rspan (k_span k)) (cspan_ (k_span k)) (rspan (k_matrix k)) (cspan_ (k_matrix k))
    (k_annotation k) (k_frames k).
(** A content given by the fields of a reference. *)
Definition view_ref (r : cref) : view :=
  View true (r_value r) (r_formula r) (r_style r) (r_repeat r) (r_validation r)
    (rspan (r_span r)) (cspan_ (r_span r)) (rspan (r_matrix r)) (cspan_ (r_matrix r))
    (r_annotation r) (frames_of (r_frames r)).

(** Row-major and column-major order of positions. *)
Definition row_major (a b : pos) : Prop := fst a < fst b \/ fst a = fst b /\ snd a < snd b.
Definition col_major (a b : pos) : Prop := snd a < snd b \/ snd a = snd b /\ fst a < fst b.

(** Inside a rectangle, end excluded. *)
Definition in_rect (s e p : pos) : Prop := fst s <= fst p < fst e /\ snd s <= snd p < snd e.

(** Inside bounds, by row-major order. *)
Definition in_bounds (lo hi : bound pos) (p : pos) : Prop :=
  match lo with Included s => s = p \/ row_major s p | Excluded s => row_major s p | Unbounded => True end /\
  match hi with Included e => e = p \/ row_major p e | Excluded e => row_major p e | Unbounded => True end.

(** [l] enumerates exactly the stored cells satisfying [P], in strictly increasing order. *)
Definition enumerates (lt : pos -> pos -> Prop) (P : pos -> Prop) (m : cells) (l : list item) : Prop :=
  (forall p r, In (p, r) l <-> P p /\ sh_ref p m = Some r) /\
  (forall i j a b, (i < j)%nat -> nth_error l i = Some a -> nth_error l j = Some b -> lt (fst a) (fst b)).

(** All positions are u32. *)
Definition cells_u32 (m : cells) : Prop := Forall (fun kv => u32 (fst (fst kv)) /\ u32 (snd (fst kv))) m.

(** Bounds for which no position can be between them in the sense std requires. *)
Definition bounds_inverted (lo hi : bound pos) : Prop :=
  match lo, hi with
  | Excluded s, Excluded e => s = e \/ row_major e s
  | (Included s | Excluded s), Included e => row_major e s
  | Included s, Excluded e => row_major e s
  | _, _ => False
  end.

(** The rectangle [iter_rows] really covers; with an excluded start (r, c) it begins in
    row r, but in column c + 1. *)
Definition in_rows (lo hi : bound pos) (p : pos) : Prop :=
  match lo with
  | Included s => fst s <= fst p /\ snd s <= snd p
  | Excluded s => fst s <= fst p /\ snd s + 1 <= snd p
  | Unbounded => True
  end /\
  match hi with
  | Included e => fst p <= fst e /\ snd p <= snd e
  | Excluded e => fst p < fst e /\ snd p < snd e
  | Unbounded => True
  end.

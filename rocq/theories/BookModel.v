(** The workbook's tables of styles and its list of sheets: src/workbook_.rs, src/ds/detach.rs. *)
From Verif Require Import Base NumModel.

(** A [HashMap<String, V>]: an association list with at most one entry for each key. Its
    iteration order is not used here. *)
Definition amap (V : Type) := list (str * V).
Fixpoint am_get {V} (k : str) (m : amap V) : option V :=
  match m with [] => None | (k', v) :: r => if str_eqb k' k then Some v else am_get k r end.
Definition am_del {V} (k : str) (m : amap V) : amap V := filter (fun kv => negb (str_eqb (fst kv) k)) m.
Definition am_put {V} (k : str) (v : V) (m : amap V) : amap V := (k, v) :: am_del k m.
Definition am_has {V} (k : str) (m : amap V) : bool := match am_get k m with Some _ => true | None => false end.

(** ** Styles *)

(** The tables of workbook_.rs:536-1123 that hand out names. *)
Inductive family :=
| FTable | FRow | FCol | FCell | FParagraph | FText | FRuby | FGraphic
| FmtBoolean | FmtNumber | FmtPercentage | FmtCurrency | FmtText | FmtDateTime | FmtTimeDuration
| FPage | FMasterPage | FValidation.
Definition family_eqb (f g : family) : bool :=
  match f, g with
  | FTable, FTable | FRow, FRow | FCol, FCol | FCell, FCell | FParagraph, FParagraph | FText, FText | FRuby, FRuby
  | FGraphic, FGraphic | FmtBoolean, FmtBoolean | FmtNumber, FmtNumber | FmtPercentage, FmtPercentage
  | FmtCurrency, FmtCurrency | FmtText, FmtText | FmtDateTime, FmtDateTime | FmtTimeDuration, FmtTimeDuration
  | FPage, FPage | FMasterPage, FMasterPage | FValidation, FValidation => true
  | _, _ => false
  end.
(** The prefixes in the same functions. *)
Definition prefix (f : family) : str :=
  match f with
  | FTable => lit "ta" | FRow => lit "ro" | FCol => lit "co" | FCell => lit "ce" | FParagraph => lit "para"
  | FText => lit "txt" | FRuby => lit "ruby" | FGraphic => lit "gr"
  | FmtBoolean => lit "val_boolean" | FmtNumber => lit "val_number" | FmtPercentage => lit "val_percentage"
  | FmtCurrency => lit "val_currency" | FmtText => lit "val_text" | FmtDateTime => lit "val_datetime"
  | FmtTimeDuration => lit "val_timeduration"
  | FPage => lit "page" | FMasterPage => lit "mp" | FValidation => lit "val"
  end.

(** A style, format, page or validation: its name and whatever else it holds. *)
Record named (A : Type) := Named { nm_name : str; nm_body : A }.
Arguments Named {A} _ _.
Arguments nm_name {A} _.
Arguments nm_body {A} _.

(** The fields [autonum] and the tables. *)
Record book (A : Type) := Book { bk_auto : amap N; bk_styles : family -> amap (named A) }.
Arguments Book {A} _ _.
Arguments bk_auto {A} _.
Arguments bk_styles {A} _ _.
Definition book0 {A} : book A := Book [] (fun _ => []).

(** workbook_.rs:199-205, 225-231: the loop; [n] bounds the number of turns, running out of it
    is [Err]. *)
Fixpoint auto_loop {V} (n : nat) (p : str) (cnt : N) (m : amap V) : res N :=
  match n with
  | O => Err
  | S n' => if am_has (p ++ show_N cnt) m then let* c := add32 cnt 1 in auto_loop n' p c m else Ok cnt
  end.
(** workbook_.rs:185-236 [auto_style_name2] and [auto_style_name]: the name and the counters. *)
Definition auto_name {V} (auto : amap N) (p : str) (m : amap V) : res (str * amap N) :=
  let* c0 := match am_get p auto with Some n => add32 n 1 | None => Ok 0 end in
  let* c := auto_loop (S (length m)) p c0 m in
  Ok (p ++ show_N c, am_put p c auto).

Definition put_styles {A} (f : family) (m : amap (named A)) (t : family -> amap (named A)) : family -> amap (named A) :=
  fun g => if family_eqb f g then m else t g.
Definition style {A} (f : family) (k : str) (b : book A) : option (named A) := am_get k (bk_styles b f).

(** workbook_.rs:536-1110 [add_tablestyle] ... [add_validation], all alike: the workbook and the
    reference returned. *)
Definition add_style {A} (f : family) (s : named A) (b : book A) : res (book A * str) :=
  let* (n, auto) := match nm_name s with
                    | [] => auto_name (bk_auto b) (prefix f) (bk_styles b f)
                    | n => Ok (n, bk_auto b)
                    end in
  Ok (Book auto (put_styles f (am_put n (Named n (nm_body s)) (bk_styles b f)) (bk_styles b)), n).
(** [remove_tablestyle] ...: the workbook; the style removed is [style f k b]. *)
Definition remove_style {A} (f : family) (k : str) (b : book A) : book A :=
  Book (bk_auto b) (put_styles f (am_del k (bk_styles b f)) (bk_styles b)).
(** [tablestyle_mut] ... used to change the style, even its name (macro_style.rs:30-32): the
    key stays. *)
Definition change_style {A} (f : family) (k : str) (g : named A -> named A) (b : book A) : book A :=
  match style f k b with
  | Some s => Book (bk_auto b) (put_styles f (am_put k (g s) (bk_styles b f)) (bk_styles b))
  | None => b
  end.

Inductive style_op (A : Type) :=
| AddStyle (f : family) (s : named A) | RemoveStyle (f : family) (k : str) | ChangeStyle (f : family) (k : str) (g : named A -> named A).
Arguments AddStyle {A} _ _.
Arguments RemoveStyle {A} _ _.
Arguments ChangeStyle {A} _ _ _.
(** A sequence of calls; the references returned by [AddStyle], in order, with the family and
    whether the style had no name. *)
Fixpoint run_styles {A} (ops : list (style_op A)) (b : book A) : res (book A * list (family * bool * str)) :=
  match ops with
  | [] => Ok (b, [])
  | AddStyle f s :: r =>
      let* (b1, n) := add_style f s b in
      let* (b2, l) := run_styles r b1 in Ok (b2, (f, match nm_name s with [] => true | _ => false end, n) :: l)
  | RemoveStyle f k :: r => run_styles r (remove_style f k b)
  | ChangeStyle f k g :: r => run_styles r (change_style f k g b)
  end.

(** ** Sheets *)

(** ds/detach.rs:6-9: a sheet or nothing, if it was detached; workbook_.rs:41 [sheets].
    [S] is the type of sheets. *)
Section Sheets.
  Context {S : Type} (name : S -> str).
  Definition slots := list (option S).

  (** workbook_.rs:416-418, ds/detach.rs:82-84, 91-93, 100-102, and the index operator of [Vec]. *)
  Definition sheet_at (l : slots) (n : nat) : res S :=
    match nth_error l n with Some (Some s) => Ok s | _ => Panic end.
  Fixpoint set_nth {T} (n : nat) (x : T) (l : list T) : list T :=
    match l, n with
    | [], _ => []
    | _ :: r, O => x :: r
    | y :: r, Datatypes.S n' => y :: set_nth n' x r
    end.
  (** workbook_.rs:425-427 [sheet_mut]. *)
  Definition sheet_edit (n : nat) (f : S -> S) (l : slots) : res slots :=
    let* s := sheet_at l n in Ok (set_nth n (Some (f s)) l).
  (** workbook_.rs:398-400, ds/detach.rs:66-69: the list and the sheet with its key. *)
  Definition detach_sheet (n : nat) (l : slots) : res (slots * (nat * S)) :=
    let* s := sheet_at l n in Ok (set_nth n None l, (n, s)).
  (** workbook_.rs:407-409, ds/detach.rs:72-75: whatever is there is replaced. *)
  Definition attach_sheet (d : nat * S) (l : slots) : res slots :=
    if (fst d <? length l)%nat then Ok (set_nth (fst d) (Some (snd d)) l) else Panic.
  (** workbook_.rs:435-437 [Vec::insert]. *)
  Definition insert_sheet (n : nat) (s : S) (l : slots) : res slots :=
    if (n <=? length l)%nat then Ok (firstn n l ++ Some s :: skipn n l) else Panic.
  (** workbook_.rs:440-442. *)
  Definition push_sheet (s : S) (l : slots) : slots := l ++ [Some s].
  (** workbook_.rs:449-451. *)
  Definition remove_sheet (n : nat) (l : slots) : res (slots * S) :=
    let* s := sheet_at l n in Ok (firstn n l ++ skipn (Datatypes.S n) l, s).
  (** workbook_.rs:377-384. *)
  Fixpoint sheet_idx (n : str) (l : slots) : res (option nat) :=
    match l with
    | [] => Ok None
    | None :: _ => Panic
    | Some s :: r => if str_eqb (name s) n then Ok (Some O) else let* o := sheet_idx n r in Ok (option_map Datatypes.S o)
    end.
  (** workbook_.rs:430-432 [iter_sheets], collected. *)
  Fixpoint iter_sheets (l : slots) : res (list S) :=
    match l with
    | [] => Ok []
    | None :: _ => Panic
    | Some s :: r => let* t := iter_sheets r in Ok (s :: t)
    end.
  (** Several sheets detached or attached, one after the other. *)
  Fixpoint detach_all (ns : list nat) (l : slots) : res (slots * list (nat * S)) :=
    match ns with
    | [] => Ok (l, [])
    | n :: r => let* (l1, d) := detach_sheet n l in let* (l2, ds) := detach_all r l1 in Ok (l2, d :: ds)
    end.
  Fixpoint attach_all (ds : list (nat * S)) (l : slots) : res slots :=
    match ds with [] => Ok l | d :: r => let* l1 := attach_sheet d l in attach_all r l1 end.
End Sheets.

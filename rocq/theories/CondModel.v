(** Condition texts of cell validations and style maps (condition.rs). *)
From Verif Require Import Base NumModel.

(** condition.rs:14-27. *)
Fixpoint double_quotes (s : str) : str :=
  match s with [] => [] | c :: r => if c =? 34 then 34 :: 34 :: double_quotes r else c :: double_quotes r end.
Definition quote (s : str) : str := 34 :: double_quotes s ++ [34].

(** What a [Value] can be made from (condition.rs:35-88). Floats are carried as the text [to_string] gives. *)
Inductive operand : Type := OText (s : str) | OInt (z : Z) | OBool (b : bool) | OFloat (t : str).
(** condition.rs:29-76: the text inside [Value]. *)
Definition operand_text (v : operand) : str :=
  match v with OText s => quote s | OInt z => show_Z z | OBool b => if b then lit "true" else lit "false" | OFloat t => t end.

Inductive cmp_op : Type := CEq | CNe | CLt | CGt | CLe | CGe.
Definition op_text (o : cmp_op) : str :=
  match o with CEq => lit "=" | CNe => lit "!=" | CLt => lit "<" | CGt => lit ">" | CLe => lit "<=" | CGe => lit ">=" end.
(** condition.rs:110-156 [value_eq] … [value_ge]. *)
Definition value_cond_text (o : cmp_op) (v : operand) : str := lit "value()" ++ op_text o ++ operand_text v.

(** The calls of [Condition] (condition.rs:177-385); the texts passed to [new] (those read from a file) are not parsed. *)
Inductive cell_kind : Type := KDate | KTime | KDecimal | KWhole.
Inductive cond : Type :=
| CCmp (o : cmp_op) (v : operand)                  (* content_eq … content_ge *)
| CLen (o : cmp_op) (n : N)                        (* content_text_length_eq … *)
| CLenBetween (inside : bool) (a b : N)            (* content_text_length_is_between, …_is_not_between *)
| CInList (l : list operand)
| CInRange (r : str)                               (* the text of the range, without brackets *)
| CIs (k : cell_kind) (c : cond)                   (* content_is_date_and … *)
| CFormula (f : str).
Definition kind_text (k : cell_kind) : str :=
  match k with
  | KDate => lit "cell-content-is-date()"
  | KTime => lit "cell-content-is-time()"
  | KDecimal => lit "cell-content-is-decimal-number()"
  | KWhole => lit "cell-content-is-whole-number()"
  end.
(** condition.rs:307-315: the text of a number gets quotes here. *)
Definition list_item (v : operand) : str :=
  let t := operand_text v in
  match t with 34 :: _ => t | _ => 34 :: t ++ [34] end.
(** condition.rs:302-318. *)
Fixpoint list_items (sep : bool) (l : list operand) : str :=
  match l with [] => [] | v :: r => (if sep then [59] else []) ++ list_item v ++ list_items true r end.
Fixpoint cond_text (c : cond) : str :=
  match c with
  | CCmp o v => lit "cell-content()" ++ op_text o ++ operand_text v
  | CLen o n => lit "cell-content-text-length()" ++ op_text o ++ show_N n
  | CLenBetween inside a b =>
      (if inside then lit "cell-content-text-length-is-between(" else lit "cell-content-text-length-is-not-between(")
      ++ show_N a ++ lit ", " ++ show_N b ++ lit ")"
  | CInList l => lit "cell-content-is-in-list(" ++ list_items false l ++ lit ")"
  | CInRange r => lit "cell-content-is-in-list(" ++ (lit "[" ++ r ++ lit "]") ++ lit ")"
  | CIs k c => kind_text k ++ lit " and " ++ cond_text c
  | CFormula f => lit "is-true-formula(" ++ f ++ lit ")"
  end.

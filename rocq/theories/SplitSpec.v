(** What it means to be covered by a spanning cell. *)
From Verif Require Import Base OMap XmlModel CellModel.

(** The rows and columns a cell claims by its span. *)
Definition spans_of (c : cell) : N * N :=
  match c_extra c with Some x => (rspan (x_span x), cspan_ (x_span x)) | None => (1, 1) end.
Definition claims (kv : pos * cell) (p : pos) : bool :=
  let '((r, c), d) := kv in
  let (h, w) := spans_of d in
  (r <=? fst p) && (fst p <? r + h) && (c <=? snd p) && (snd p <? c + w).
Definition spanning (kv : pos * cell) : bool := let (h, w) := spans_of (snd kv) in (1 <? h) || (1 <? w).
Definition covered (owners : list (pos * cell)) (p : pos) : bool := existsb (fun kv => claims kv p) owners.

(** The cells which really own their rectangle: a spanning cell that is itself covered by
    an earlier owner owns nothing. *)
Fixpoint owners (acc l : list (pos * cell)) : list (pos * cell) :=
  match l with
  | [] => acc
  | kv :: r => owners (if spanning kv && negb (covered acc (fst kv)) then acc ++ [kv] else acc) r
  end.

(** Consecutive columns. *)
Fixpoint columns (n : nat) (from : N) : list N :=
  match n with O => [] | S n' => from :: columns n' (from + 1) end.

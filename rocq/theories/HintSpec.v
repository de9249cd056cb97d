(** What the length of an iterator ought to be. *)
From Verif Require Import Base CellModel.

(** The contract of [Iterator::size_hint], for an iterator that has [n] items to come. *)
Definition hint_right (h : N * option N) (n : nat) : Prop :=
  fst h <= N.of_nat n /\ match snd h with Some u => N.of_nat n <= u | None => True end.

(** [n] calls on: [next] gives the items of [l] and then nothing more. *)
Definition gives {I} (next : I -> option item * I) (i : I) (l : list item) : Prop :=
  forall k, (fix run n i := match n with O => [] | S n' => let (x, j) := next i in x :: run n' j end) (length l + k)%nat i = map Some l ++ repeat None k.
Definition after {I} (next : I -> option item * I) (n : nat) (i : I) : I := Nat.iter n (fun i => snd (next i)) i.

(** The results of the calls from one of the ends, in their order. *)
Fixpoint from_end (b : bool) (ends : list bool) (xs : list (option item)) : list item :=
  match ends, xs with
  | c :: ends', x :: xs' => match x with Some y => if Bool.eqb b c then [y] else [] | None => [] end ++ from_end b ends' xs'
  | _, _ => []
  end.

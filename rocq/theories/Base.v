(** Common vocabulary of the model: characters, strings, outcomes, u32. *)
From Coq Require Export String Ascii NArith ZArith Lia Bool List.
From Coq Require Export ZifyBool ZifyNat ZifyN.
Export ListNotations.
Open Scope list_scope.
Open Scope N_scope.

(** A Rust [char] is its Unicode code point, a [str]/[String] its list of chars. *)
Definition char := N.
Definition str := list char.

(** Outcome of a Rust computation: a value, an [Err(_)] (payload dropped), or a
    panic (failed assert/unwrap/index, integer overflow in a checked build). *)
Inductive res (A : Type) : Type :=
| Ok (a : A)
| Err
| Panic.
Arguments Ok {A} _.
Arguments Err {A}.
Arguments Panic {A}.

Definition bind {A B} (x : res A) (f : A -> res B) : res B :=
  match x with Ok a => f a | Err => Err | Panic => Panic end.

Notation "'let*' p ':=' e 'in' k" := (bind e (fun p => k))
  (at level 200, p pattern, e at level 100, k at level 200, right associativity).

(** String literals of the Rust source (ASCII only). *)
Fixpoint lit (s : string) : str :=
  match s with
  | EmptyString => []
  | String a s' => N_of_ascii a :: lit s'
  end.

Fixpoint str_eqb (a b : str) : bool :=
  match a, b with
  | [], [] => true
  | x :: a', y :: b' => (x =? y) && str_eqb a' b'
  | _, _ => false
  end.

(** u32 arithmetic with overflow check. *)
Definition u32_max : N := 4294967295.
Definition u32 (n : N) : Prop := n <= u32_max.
Definition add32 (a b : N) : res N := if a + b <=? u32_max then Ok (a + b) else Panic.
Definition mul32 (a b : N) : res N := if a * b <=? u32_max then Ok (a * b) else Panic.
Definition sub32 (a b : N) : res N := if b <=? a then Ok (a - b) else Panic.

(** Character classes used by nom / std (ASCII). *)
Definition is_upper (c : char) : bool := (65 <=? c) && (c <=? 90).
Definition is_lower (c : char) : bool := (97 <=? c) && (c <=? 122).
Definition is_alpha (c : char) : bool := is_upper c || is_lower c.
Definition is_digit (c : char) : bool := (48 <=? c) && (c <=? 57).

(** Longest prefix satisfying [p] and the rest ([take_while] of nom). *)
Fixpoint span (p : char -> bool) (s : str) : str * str :=
  match s with
  | [] => ([], [])
  | c :: s' => if p c then let (a, b) := span p s' in (c :: a, b) else ([], s)
  end.

(** Reading the operands back from a condition text. *)
From Verif Require Import Base NumSpec CondModel.

(** A text behind its opening quote: up to the first quote that is not doubled. *)
Fixpoint read_body (s : str) : option (str * str) :=
  match s with
  | [] => None
  | c :: r =>
      if c =? 34 then
        match r with
        | c2 :: r2 => if c2 =? 34 then match read_body r2 with Some (t, k) => Some (34 :: t, k) | None => None end else Some ([], r)
        | [] => Some ([], [])
        end
      else match read_body r with Some (t, k) => Some (c :: t, k) | None => None end
  end.
Definition read_quoted (s : str) : option (str * str) := match s with 34 :: r => read_body r | _ => None end.
(** [item ; item ; … )] up to the end of the text. *)
Fixpoint read_items (n : nat) (s : str) : option (list str) :=
  match n with
  | O => None
  | S n' =>
      match read_quoted s with
      | Some (t, [41]) => Some [t]
      | Some (t, 59 :: k) => match read_items n' k with Some l => Some (t :: l) | None => None end
      | _ => None
      end
  end.
Fixpoint drop_prefix (p s : str) : option str :=
  match p, s with [], _ => Some s | a :: p', b :: s' => if a =? b then drop_prefix p' s' else None | _, _ => None end.
Definition read_list (s : str) : option (list str) :=
  match drop_prefix (lit "cell-content-is-in-list(") s with
  | Some [41] => Some []
  | Some k => read_items (length k) k
  | None => None
  end.

(** The characters of printed floats: digits, + - . and the letters of e, E, inf, NaN. *)
Definition float_char (c : char) : Prop := 48 <= c <= 57 \/ In c [43; 45; 46; 69; 78; 97; 101; 102; 105; 110].
Definition operand_ok (v : operand) : Prop := match v with OFloat t => Forall float_char t | _ => True end.
Fixpoint cond_ok (c : cond) : Prop :=
  match c with CCmp _ v => operand_ok v | CInList l => Forall operand_ok l | CIs _ c => cond_ok c | _ => True end.

(** The same operand. An integer and a float may have the same text. *)
Definition same_operand (a b : operand) : Prop :=
  match a, b with
  | OText s, OText t => s = t
  | OInt x, OInt y => x = y
  | OBool x, OBool y => x = y
  | OFloat x, OFloat y => x = y
  | OInt z, OFloat t | OFloat t, OInt z => int_text t z
  | _, _ => False
  end.
(** In a list all operands are texts. *)
Definition plain (v : operand) : str := match v with OText s => s | _ => operand_text v end.
Fixpoint same_cond (a b : cond) : Prop :=
  match a, b with
  | CCmp o v, CCmp o' v' => o = o' /\ same_operand v v'
  | CLen o n, CLen o' n' => o = o' /\ n = n'
  | CLenBetween i x y, CLenBetween i' x' y' => i = i' /\ x = x' /\ y = y'
  | CInList l, CInList l' => map plain l = map plain l'
  | CInRange r, CInRange r' => r = r'
  | CIs k c, CIs k' c' => k = k' /\ same_cond c c'
  | CFormula f, CFormula f' => f = f'
  | _, _ => False
  end.

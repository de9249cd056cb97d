(** Specification of the XML layer. *)
From Verif Require Import Base XmlModel.

(** The five characters that must not appear raw and their entities. *)
Definition special (c : char) : Prop := In c [c_quot; c_apos; c_amp; c_lt; c_gt].

Definition entity_of (c : char) : option str :=
  match c with
  | 34 => Some (lit "quot") | 39 => Some (lit "apos") | 38 => Some (lit "amp")
  | 60 => Some (lit "lt") | 62 => Some (lit "gt") | _ => None
  end.

(** Character data in which the only raw special is the '&' of one of the five
    entities. *)
Inductive clean : str -> Prop :=
| clean_nil : clean []
| clean_char c s : ~ special c -> clean s -> clean (c :: s)
| clean_ent c n s : entity_of c = Some n -> clean s -> clean (c_amp :: n ++ c_semi :: s).

(** Names that need no escaping and delimit themselves in a tag. *)
Definition name_char (c : char) : Prop :=
  ~ In c [c_quot; c_apos; c_amp; c_lt; c_gt; c_slash; c_eq; c_bslash; 32; 9; 10; 13; 33; 63].
Definition name_ok (n : str) : Prop := n <> [] /\ Forall name_char n.
(** Values that may be written raw. *)
Definition raw_value_ok (v : str) : Prop := Forall (fun c => ~ In c [c_quot; c_amp; c_lt]) v.
Definition raw_text_ok (v : str) : Prop := Forall (fun c => ~ In c [c_amp; c_lt]) v.
(** Encoding names. *)
Definition enc_ok (v : str) : Prop := Forall (fun c => ~ In c [c_quot; c_apos; c_gt]) v.

(** Calls in a sensible order: attributes only directly after the start of an
    element, and the last element is closed. [p]: an element is still open for
    attributes. *)
Inductive sensible : bool -> list call -> Prop :=
| sn_nil : sensible false []
| sn_dtd e cs : enc_ok e -> sensible false cs -> sensible false (CDtd e :: cs)
| sn_elem_text p n t cs : name_ok n -> raw_text_ok t -> sensible false cs -> sensible p (CElemText n t :: cs)
| sn_elem_text_esc p n t cs : name_ok n -> sensible false cs -> sensible p (CElemTextEsc n t :: cs)
| sn_elem p n cs : name_ok n -> sensible true cs -> sensible p (CElem n :: cs)
| sn_elem_if p b n cs : name_ok n -> sensible true cs -> sensible p (CElemIf b n :: cs)
| sn_empty p n cs : name_ok n -> sensible true cs -> sensible p (CEmpty n :: cs)
| sn_attr n v cs : name_ok n -> raw_value_ok v -> sensible true cs -> sensible true (CAttr n v :: cs)
| sn_attr_esc n v cs : name_ok n -> sensible true cs -> sensible true (CAttrEsc n v :: cs)
| sn_text p t cs : raw_text_ok t -> sensible false cs -> sensible p (CText t :: cs)
| sn_text_esc p t cs : sensible false cs -> sensible p (CTextEsc t :: cs)
| sn_end_if p b n cs : name_ok n -> sensible false cs -> sensible p (CEndIf b n :: cs)
| sn_end p n cs : name_ok n -> sensible false cs -> sensible p (CEnd n :: cs)
| sn_end_slash p n cs : name_ok n -> sensible false cs -> sensible p (CEnd (c_slash :: n) :: cs).

(** What the calls ask for, in XML terms. [esc] chooses how escaped text is
    shown: as one piece of text, or split at references. *)
Definition pending : Type := option (str * list (str * str) * bool).
Definition finish (lb : bool) (p : pending) : list event :=
  match p with
  | None => []
  | Some (n, a, true) => [EEmpty n a; EText (nl lb)]
  | Some (n, a, false) => [EStart n a]
  end.
Definition with_attr (k v : str) (p : pending) : pending :=
  match p with Some (n, a, e) => Some (n, a ++ [(k, v)], e) | None => None end.
Fixpoint asked (esc : str -> list event) (lb : bool) (p : pending) (cs : list call) : list event :=
  match cs with
  | [] => []
  | c :: cs' =>
      match c with
      | CDtd e => EOther (lit "?xml version=""1.0"" encoding=""" ++ e ++ lit """ ?")
                  :: EText (c_nl :: nl lb) :: asked esc lb p cs'
      | CElemText n t => finish lb p ++ EStart n [] :: EText t :: EEnd n :: EText (nl lb) :: asked esc lb None cs'
      | CElemTextEsc n t => finish lb p ++ EStart n [] :: esc t ++ EEnd n :: EText (nl lb) :: asked esc lb None cs'
      | CElem n => finish lb p ++ asked esc lb (Some (n, [], false)) cs'
      | CElemIf b n => finish lb p ++ asked esc lb (Some (n, [], negb b)) cs'
      | CEmpty n => finish lb p ++ asked esc lb (Some (n, [], true)) cs'
      | CAttr n v => asked esc lb (with_attr n v p) cs'
      | CAttrEsc n v => asked esc lb (with_attr n v p) cs'
      | CText t => finish lb p ++ EText t :: asked esc lb None cs'
      | CTextEsc t => finish lb p ++ esc t ++ asked esc lb None cs'
      | CEndIf true n => finish lb p ++ EEnd n :: EText (nl lb) :: asked esc lb None cs'
      | CEndIf false _ => finish lb p ++ asked esc lb None cs'
      | CEnd n => finish lb p ++ EEnd n :: EText (nl lb) :: asked esc lb None cs'
      end
  end.

(** Adjacent text is one text, empty text is none. *)
Fixpoint coalesce_from (acc : str) (evs : list event) : list event :=
  match evs with
  | [] => emit_text acc
  | EText t :: r => coalesce_from (acc ++ t) r
  | e :: r => emit_text acc ++ e :: coalesce_from [] r
  end.
Definition coalesce (evs : list event) : list event := coalesce_from [] evs.

(** Escaped text split at its references. *)
Definition esc_split (t : str) : list event :=
  map (fun c => match entity_of c with Some n => ERef n | None => EText [c] end) t.
Definition esc_whole (t : str) : list event := [EText t].

(** Replace the references to the five named entities by their text. *)
Definition deref (e : event) : event :=
  match e with
  | ERef n => match named_entity n with Some c => EText [c] | None => ERef n end
  | _ => e
  end.

(** The events the calls ask for, with references kept apart. *)
Definition events_of (lb : bool) (cs : list call) : list event := coalesce (asked esc_split lb None cs).

(** Calls that open and close elements in a properly nested way. *)
Fixpoint calls_nested (stack : list str) (cs : list call) : Prop :=
  match cs with
  | [] => stack = []
  | CElem n :: r => calls_nested (n :: stack) r
  | CElemIf true n :: r => calls_nested (n :: stack) r
  | CEnd n :: r | CEndIf true n :: r =>
      match stack with m :: s' => n = m /\ calls_nested s' r | [] => False end
  | _ :: r => calls_nested stack r
  end.

(** ** Trees *)

(** Merge adjacent text, drop empty text. *)
Definition mcons (x : xnode) (l : list xnode) : list xnode :=
  match x with
  | XText t =>
      match l with
      | XText u :: l' => XText (t ++ u) :: l'
      | _ => match t with [] => l | _ => x :: l end
      end
  | _ => x :: l
  end.
Definition merge_text (l : list xnode) : list xnode := fold_right mcons [] l.
Fixpoint norm (x : xnode) : xnode :=
  match x with
  | XText t => XText t
  | XTag n a c => XTag n a (merge_text (map norm c))
  end.

Fixpoint names_ok (x : xnode) : Prop :=
  match x with
  | XText _ => True
  | XTag n a c => name_ok n /\ Forall (fun kv => name_ok (fst kv)) a /\
      (fix all (l : list xnode) := match l with [] => True | y :: l' => names_ok y /\ all l' end) c
  end.

(** No element with content called [s] at or below [x]. *)
Fixpoint lacks (s : str) (x : xnode) : Prop :=
  match x with
  | XText _ => True
  | XTag n _ c => (c = [] \/ n <> s) /\
      (fix all (l : list xnode) := match l with [] => True | y :: l' => lacks s y /\ all l' end) c
  end.
Definition root_name_unique (n : str) (c : list xnode) : Prop := Forall (lacks n) c.

(** In a file with line breaks there is one after each end of an element. *)
Fixpoint broken (lb : bool) (x : xnode) : xnode :=
  match x with
  | XText t => x
  | XTag n a c => XTag n a (flat_map (fun y => match y with XText _ => [y] | XTag _ _ _ => [broken lb y; XText (nl lb)] end) c)
  end.

(** What it means that a file is cut off. *)
From Verif Require Import Base XmlModel.

(** The tags that are open after some events: a start tag opens one, an end tag closes the innermost. *)
Fixpoint left_open (st : list str) (evs : list event) : list str :=
  match evs with
  | [] => st
  | EStart n _ :: r => left_open (n :: st) r
  | EEnd _ :: r => left_open (tl st) r
  | _ :: r => left_open st r
  end.
(** The text ends inside no table. A complete text, [left_open [] evs = []], is one of these. *)
Definition tables_closed (evs : list event) : Prop := ~ In (lit "table:table") (left_open [] evs).

(** The text does not end inside the date of an annotation: after each start tag of a date there is another tag. *)
Definition is_tag (e : event) : Prop := match e with EStart _ _ | EEmpty _ _ | EEnd _ => True | _ => False end.
Definition dates_closed (evs : list event) : Prop := forall u a v, evs = u ++ EStart (lit "dc:date") a :: v -> Exists is_tag v.

(** A loop arrives at [evs'] with [s']: its steps have gone so far, and it has not stopped. *)
Inductive arrives {S : Type} (stop : option str) (step : S -> event -> list event -> res (S * list event)) : S -> list event -> S -> list event -> Prop :=
| arrives_here s evs : arrives stop step s evs s evs
| arrives_on s e r s1 r1 s2 r2 : (forall n, e = EEnd n -> stop <> Some n) -> step s e r = Ok (s1, r1) -> arrives stop step s1 r1 s2 r2 -> arrives stop step s (e :: r) s2 r2.

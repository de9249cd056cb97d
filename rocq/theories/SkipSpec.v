(** What comments, processing instructions, declarations and CDATA sections are, and files that differ in them only. *)
From Verif Require Import Base Lib XmlModel.

(** An event that is neither a tag nor text nor a reference. *)
Definition aside (e : event) : bool := match e with EOther _ => true | _ => false end.
(** The events without them. *)
Fixpoint plain (evs : list event) : list event :=
  match evs with [] => [] | e :: r => if aside e then plain r else e :: plain r end.

(** Two files whose events are the same otherwise. *)
Definition alike (t t' : str) : Prop :=
  exists evs evs', read_events t = Ok evs /\ read_events t' = Ok evs' /\ plain evs = plain evs'.

(** A comment and a processing instruction, as they are written in a file. The text has no quotes and no ">" in it: with those the model
    of the parser takes the end of the comment to be somewhere else than quick-xml does. *)
Definition quiet (c : str) : bool := forallb (fun x => negb ((x =? c_gt) || (x =? c_quot) || (x =? c_apos))) c.
Definition comment (c : str) : str := lit "<!--" ++ c ++ lit "-->".
Definition instruction (c : str) : str := lit "<?" ++ c ++ lit "?>".
Definition cdata (c : str) : str := lit "<![CDATA[" ++ c ++ lit "]]>".

(** A place between two events: what is before it has events of its own, and the text there does not go on behind it. *)
Definition between (a b : str) : Prop :=
  exists ea, lex (MText []) a = Ok ea
  /\ ((ea = [] \/ exists e l, ea = l ++ [e] /\ match e with EText _ => False | _ => True end)
      \/ match b with [] => True | c :: _ => c = c_lt \/ c = c_amp end).

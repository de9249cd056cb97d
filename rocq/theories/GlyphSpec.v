(** The ways XML has to write a character in a text or in the value of an attribute, and to write a tag; written from XML 1.0, 2.3, 3.1, 4.1 and 4.6. *)
From Verif Require Import Base Lib XmlModel.

(** ** References *)

Definition dec_digit (c : char) : Prop := 48 <= c <= 57.
(** The value of a hexadecimal digit, in either case. *)
Inductive hex_digit : char -> N -> Prop :=
| HDec c : 48 <= c <= 57 -> hex_digit c (c - 48)
| HLow c : 97 <= c <= 102 -> hex_digit c (c - 97 + 10)
| HUp c : 65 <= c <= 70 -> hex_digit c (c - 65 + 10).
Inductive hexadecimal : str -> N -> Prop :=
| XNone : hexadecimal [] 0
| XMore d n c v : hexadecimal d n -> hex_digit c v -> hexadecimal (d ++ [c]) (16 * n + v).
Inductive decimal : str -> N -> Prop :=
| DNone : decimal [] 0
| DMore d n c : decimal d n -> dec_digit c -> decimal (d ++ [c]) (10 * n + (c - 48)).
(** The characters of Unicode but the first one. XML 1.0 leaves out some more of them, the library does not. *)
Definition scalar (c : char) : Prop := 0 < c < 55296 \/ 57344 <= c <= 1114111.
(** What stands between "&" and ";" for the character [c]. *)
Inductive names_char : char -> str -> Prop :=
| NLt : names_char 60 (lit "lt")
| NGt : names_char 62 (lit "gt")
| NAmp : names_char 38 (lit "amp")
| NApos : names_char 39 (lit "apos")
| NQuot : names_char 34 (lit "quot")
| NDec d n : d <> [] -> decimal d n -> scalar n -> names_char n (lit "#" ++ d)
| NHex d n : d <> [] -> hexadecimal d n -> scalar n -> names_char n (lit "#x" ++ d).
Definition reference (t : str) : str := [38] ++ t ++ [59].

(** ** Files that differ in the references of their texts only *)

Definition same_event (e e' : event) : Prop :=
  e = e' \/ exists c t t', e = ERef t /\ e' = ERef t' /\ names_char c t /\ names_char c t'.
Definition same_glyphs (t t' : str) : Prop := exists evs evs', read_events t = Ok evs /\ read_events t' = Ok evs' /\ Forall2 same_event evs evs'.

(** ** Values and tags *)

(** A value in quotes [q]: each character itself or a reference. Themselves stand all but "&" and the quote; XML leaves out "<" too. *)
Inductive quoted (q : char) : str -> str -> Prop :=
| QNone : quoted q [] []
| QSelf c v s : c <> 38 -> c <> q -> quoted q v s -> quoted q (c :: v) (c :: s)
| QRef c t v s : names_char c t -> quoted q v s -> quoted q (c :: v) (reference t ++ s).
Definition white (w : str) : Prop := forall c, In c w -> c = 32 \/ c = 9 \/ c = 10 \/ c = 13.
(** A name, here: no white space and none of the characters that end it. *)
Definition plain_name (n : str) : Prop := n <> [] /\ forall c, In c n -> c <> 32 /\ c <> 9 /\ c <> 10 /\ c <> 13 /\ c <> 61 /\ c <> 62 /\ c <> 47 /\ c <> 34 /\ c <> 39 /\ c <> 60 /\ c <> 33 /\ c <> 63.
(** The attributes of a tag, with white space before each, around "=" and at the end, in either quotes. *)
Inductive attrs_text : list (str * str) -> str -> Prop :=
| ANone w : white w -> attrs_text [] w
| AMore w k w1 w2 q v s a r : w <> [] -> white w -> plain_name k -> white w1 -> white w2 -> q = 34 \/ q = 39 -> quoted q v s -> attrs_text a r ->
    attrs_text ((k, v) :: a) (w ++ k ++ w1 ++ [61] ++ w2 ++ [q] ++ s ++ [q] ++ r).
(** A tag that opens an element and one for an element with nothing in it. *)
Inductive tag_text : event -> str -> Prop :=
| TStart n a r : plain_name n -> attrs_text a r -> tag_text (EStart n a) ([60] ++ n ++ r ++ [62])
| TEmpty n a r : plain_name n -> attrs_text a r -> tag_text (EEmpty n a) ([60] ++ n ++ r ++ [47; 62])
| TEnd n w : plain_name n -> white w -> tag_text (EEnd n) ([60; 47] ++ n ++ w ++ [62]).

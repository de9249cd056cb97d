(** What a file must not contain, that reading it never panics. *)
From Verif Require Import Base NumModel XmlModel.

(** No run of more than [k] characters of a kind; [room] is how many more may follow here. *)
Fixpoint runs_le (p : char -> bool) (k room : nat) (s : str) : Prop :=
  match s with
  | [] => True
  | c :: r => if p c then match room with O => False | S m => runs_le p k m r end else runs_le p k k r
  end.
Definition digit (c : char) : bool := (48 <=? c) && (c <=? 57).
Definition upper (c : char) : bool := (65 <=? c) && (c <=? 90).
(** A number in a duration has at most eleven digits. *)
Definition small_numbers (s : str) : Prop := runs_le digit 11 11 s.
(** A column in a reference has at most six letters. *)
Definition small_columns (s : str) : Prop := runs_le upper 6 6 s.
(** The first three bytes in UTF-8 are whole characters. *)
Definition utf8_bytes (c : char) : N := if c <? 128 then 1 else if c <? 2048 then 2 else if c <? 65536 then 3 else 4.
Definition utf8_size (s : str) : N := fold_right (fun c n => utf8_bytes c + n) 0 s.
Definition three_bytes (s : str) : Prop := exists p q, s = p ++ q /\ utf8_size p = 3.

(** An attribute. *)
Definition attr_calm (kv : str * str) : Prop :=
  (fst kv = lit "table:condition" -> three_bytes (snd kv))
  /\ (fst kv = lit "table:base-cell-address" \/ fst kv = lit "style:base-cell-address" \/ fst kv = lit "table:print-ranges" -> small_columns (snd kv))
  /\ (fst kv = lit "office:time-value" \/ fst kv = lit "meta:delay" -> small_numbers (snd kv)).
(** The sum of the counts an element has in the attributes called [k] (there should be one), and whether one of them is zero. *)
Definition count_in (k : str) (kv : str * str) : N :=
  if str_eqb (fst kv) k then match parse_u32 (snd kv) with Ok n => n | _ => 0 end else 0.
Definition counts (k : str) (a : list (str * str)) : N := fold_right (fun kv n => count_in k kv + n) 0 a.
Definition no_zero (k : str) (a : list (str * str)) : Prop := forall v, In (k, v) a -> parse_u32 v <> Ok 0.
(** A tag: its attributes; rows and columns are not repeated zero times; a script has a start tag and an end tag. *)
Definition event_calm (e : event) : Prop :=
  match e with
  | EStart n a => Forall attr_calm a /\ (n = lit "table:table-row" -> no_zero (lit "table:number-rows-repeated") a)
  | EEmpty n a => Forall attr_calm a /\ (n = lit "table:table-column" -> no_zero (lit "table:number-columns-repeated") a) /\ n <> lit "office:script"
  | _ => True
  end.

(** Rows and columns of all tables, counted with their repetitions. *)
Definition rows_in (e : event) : N :=
  match e with
  | EStart n a => if str_eqb n (lit "table:table-row") then counts (lit "table:number-rows-repeated") a else 0
  | EEnd n => if str_eqb n (lit "table:table-row") then 1 else 0
  | _ => 0
  end.
Definition columns_in (e : event) : N :=
  match e with
  | EStart n a | EEmpty n a =>
      if existsb (str_eqb n) [lit "table:table-column"; lit "table:table-cell"; lit "table:covered-table-cell"]
      then 1 + counts (lit "table:number-columns-repeated") a else 0
  | _ => 0
  end.
(** Tags and attributes. *)
Definition size_of (e : event) : N := match e with EStart _ a | EEmpty _ a => 1 + N.of_nat (length a) | _ => 1 end.
Definition total (f : event -> N) (evs : list event) : N := fold_right (fun e n => f e + n) 0 evs.

(** At the end of a group of columns or of the header columns there was a column before, at the end of a group of rows or of the header rows
    there was a row. [c], [r]: whether there was one in this table; for columns, since the last row began. Elements that are read as a whole do
    not count. *)
Definition whole : list str :=
  [lit "table:table-cell"; lit "table:covered-table-cell"; lit "table:title"; lit "table:desc"; lit "table:table-source"; lit "office:dde-source";
   lit "table:scenario"; lit "office:forms"; lit "table:shapes"; lit "table:named-expressions"; lit "calcext:conditional-formats"].
Definition free (st : list str) : bool := forallb (fun n => negb (existsb (str_eqb n) whole)) st.
Definition is (n m : str) : bool := str_eqb n m.
Fixpoint behind (st : list str) (c r : bool) (evs : list event) : Prop :=
  match evs with
  | [] => True
  | EStart n _ :: q => behind (n :: st) (c && negb (is n (lit "table:table-row") || is n (lit "table:table"))) (r && negb (is n (lit "table:table"))) q
  | EEmpty n _ :: q => behind st (c || (is n (lit "table:table-column") && free st)) r q
  | EEnd n :: q =>
      (is n (lit "table:table-column-group") || is n (lit "table:table-header-columns") = true -> c = true)
      /\ (is n (lit "table:table-row-group") || is n (lit "table:table-header-rows") = true -> r = true)
      /\ behind (tl st) c (r || (is n (lit "table:table-row") && free (tl st))) q
  | _ :: q => behind st c r q
  end.

(** The text between two tags. *)
Fixpoint text_in (evs : list event) : str :=
  match evs with
  | [] => []
  | EText t :: r => t ++ text_in r
  | ERef x :: r => match entity x with Ok v => v | _ => [] end ++ text_in r
  | _ :: r => text_in r
  end.
(** Durations in the metadata: the text of the element, and each piece of text of a value of type time. *)
Definition durations_calm (evs : list event) : Prop :=
  forall p a q r, evs = p ++ EStart (lit "meta:editing-duration") a :: q ++ r -> ~ In (EEnd (lit "meta:editing-duration")) q -> small_numbers (text_in q).
Definition values_calm (evs : list event) : Prop :=
  forall p a q x r, evs = p ++ EStart (lit "meta:user-defined") a :: q ++ EText x :: r -> ~ In (EEnd (lit "meta:user-defined")) q ->
    In (lit "meta:value-type", lit "time") a -> small_numbers x.

(** A file of these events is read without panic; [room] is for what has been read before. *)
Definition tags_calm (evs : list event) : Prop := Forall event_calm evs.
Definition tables_calm (evs : list event) : Prop := behind [] false false evs /\ total rows_in evs + 2 <= u32_max /\ total columns_in evs <= u32_max.
Definition meta_calm (evs : list event) : Prop := durations_calm evs /\ values_calm evs.

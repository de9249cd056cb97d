(** What a cell written to a file and read again should be. *)
From Verif Require Import Base XmlModel XmlSpec CellModel RefsSpec NumSpec CellIoModel.

(** The text of a finite float: optional sign, digits, optional fraction. *)
Definition number_text (f : str) : Prop :=
  exists (neg : bool) a b, a <> [] /\ all_digit a /\ (b = [] \/ exists d, d <> [] /\ all_digit d /\ b = 46 :: d)
    /\ f = (if neg then [45] else []) ++ a ++ b.
(** Text without the five XML specials. *)
Definition no_specials (s : str) : Prop := Forall (fun c => ~ special c) s.
(** Durations that survive as text (C26) and dates that do (C27). *)
Definition duration_exact (ns : Z) : Prop :=
  (0 <= ns)%Z /\ duration_range ns /\
  (ns mod 1000000 = 0 /\ (ns / 1000000 mod 1000 = 0 \/ 100 <= ns / 1000000 mod 1000))%Z.
Definition date_exact (d : datetime) : Prop := valid_datetime d /\ (dt_year d <= 9999)%Z.

(** Values other than text whose payload is representable. *)
Definition typed_ok (v : value) : Prop :=
  match v with
  | VEmpty => False
  | VBool _ => True
  | VNumber f | VPercent f => number_text f
  | VCurrency f c => number_text f /\ no_specials c
  | VText _ | VTextXml _ => False
  | VDateTime d => date_exact d
  | VDuration ns => duration_exact ns
  end.

(** The payload can be read back. *)
Definition payload_ok (v : value) : Prop :=
  match v with
  | VNumber f | VPercent f => number_text f
  | VCurrency f c => number_text f /\ no_specials c
  | VDateTime d => date_exact d
  | VDuration ns => duration_exact ns
  | _ => True
  end.
(** Rich text that can be read back: paragraphs, none with another one with content inside. *)
Definition para_ok (x : xnode) : Prop :=
  match x with XTag n _ c => n = lit "text:p" /\ names_ok x /\ root_name_unique n c | XText _ => False end.
(** Values that can be read back. *)
Definition writable (v : value) : Prop := payload_ok v /\ forall l, v = VTextXml l -> Forall para_ok l.

(** The lines of a text. *)
Fixpoint join (sep : str) (l : list str) : str :=
  match l with [] => [] | [x] => x | x :: r => x ++ sep ++ join sep r end.
Definition lines_of (s : str) (ls : list str) : Prop :=
  ls <> [] /\ Forall (fun l => ~ In c_nl l) ls /\ join [c_nl] ls = s.
Definition blank (l : str) : bool := match l with [] => true | _ => false end.
(** The text with its blank lines removed. *)
Definition without_blank (ls : list str) : list str := filter (fun l => negb (blank l)) ls.

(** What can be read of a text of these lines: the blank lines are gone, a single line is
    plain text, more than one are paragraphs. If blank lines follow a single line, the line
    becomes a paragraph. *)
Fixpoint drop_blank (ls : list str) : list str :=
  match ls with [] => [] | l :: r => if blank l then drop_blank r else ls end.
Definition text_value (ls : list str) : value :=
  match drop_blank ls with
  | [] => VEmpty
  | [l] => VText l
  | l :: r => VTextXml (map (fun t => XTag (lit "text:p") [] [XText t]) (l :: without_blank r))
  end.

(** The text of a paragraph without elements. *)
Fixpoint plain_of (c : list xnode) : option str :=
  match c with
  | [] => Some []
  | XText t :: r => match plain_of r with Some u => Some (t ++ u) | None => None end
  | XTag _ _ _ :: _ => None
  end.
(** What a paragraph of rich text is read as: a text, if there are no elements in it, or nothing if this has no characters either; otherwise the
    paragraph, up to the pieces of the texts in it. *)
Inductive para_after (lb : bool) : xnode -> option (str + xnode) -> Prop :=
| pa_empty n a : para_after lb (XTag n a []) (Some (inl []))
| pa_plain n a c t : c <> [] -> plain_of c = Some t -> t <> [] -> para_after lb (XTag n a c) (Some (inl t))
| pa_blank n a c : c <> [] -> plain_of c = Some [] -> para_after lb (XTag n a c) None
| pa_rich n a c y : plain_of c = None -> norm y = norm (broken lb (XTag n a c)) -> para_after lb (XTag n a c) (Some (inr y)).
(** What can be read of rich text of these paragraphs: those that are nothing are gone, a single text is plain text. *)
Definition as_para (p : str + xnode) : xnode := match p with inl t => XTag (lit "text:p") [] [XText t] | inr y => y end.
Fixpoint drop_none {A} (l : list (option A)) : list (option A) := match l with None :: r => drop_none r | _ => l end.
Definition somes {A} (l : list (option A)) : list A := flat_map (fun o => match o with Some a => [a] | None => [] end) l.
Definition rich_value (ps : list (option (str + xnode))) : value :=
  match drop_none ps with
  | [] => VEmpty
  | [Some (inl t)] => VText t
  | l => VTextXml (map as_para (somes l))
  end.
(** The value read for a value written (C30, C31, C55). *)
Definition value_after (lb : bool) (v v' : value) : Prop :=
  match v with
  | VText s => exists ls, lines_of s ls /\ v' = text_value ls
  | VTextXml l => exists ps, Forall2 (para_after lb) l ps /\ v' = rich_value ps
  | _ => v' = v
  end.

(** ** Annotations and frames *)

(** A paragraph or list with no element of its own name inside. *)
Definition text_ok (x : xnode) : Prop :=
  match x with
  | XTag n _ c => (n = lit "text:p" \/ n = lit "text:list") /\ names_ok x /\ root_name_unique n c
  | XText _ => False
  end.
Definition attrs_ok (l : list (str * str)) : Prop := Forall (fun kv => name_ok (fst kv)) l.
(** Annotations and frames that can be written and read: dates are representable, texts are paragraphs or lists, image data has nothing that is
    special in XML, and the attributes of an annotation are not those with a place of their own. *)
Definition ann_ok (a : annotation) : Prop :=
  attrs_ok (an_attrs a) /\ Forall (fun kv => fst kv <> lit "office:display" /\ fst kv <> lit "office:name") (an_attrs a)
  /\ (forall d, an_date a = Some d -> date_exact d) /\ Forall text_ok (an_text a).
Definition image_ok (i : dimage) : Prop := attrs_ok (im_attrs i) /\ (forall v, im_data i = Some v -> raw_text_ok v) /\ Forall text_ok (im_text i).
Definition frame_ok (f : dframe) : Prop := attrs_ok (df_attrs f) /\ Forall image_ok (df_content f).

(** Texts that are equal if adjacent pieces are joined; in a file with line breaks there is one after each element inside. *)
Definition texts_same (lb : bool) (l l' : list xnode) : Prop := map norm l' = map (fun x => norm (broken lb x)) l.
Definition ann_same (lb : bool) (a b : annotation) : Prop :=
  an_name b = an_name a /\ an_display b = an_display a /\ an_creator b = an_creator a /\ an_date b = an_date a /\ an_attrs b = an_attrs a
  /\ texts_same lb (an_text a) (an_text b).
Definition image_same (lb : bool) (i j : dimage) : Prop :=
  im_attrs j = im_attrs i /\ im_data j = im_data i /\ texts_same lb (im_text i) (im_text j).
Definition frame_same (lb : bool) (f g : dframe) : Prop :=
  df_title g = df_title f /\ df_desc g = df_desc f /\ df_attrs g = df_attrs f /\ Forall2 (image_same lb) (df_content f) (df_content g).

(** Text in the pieces it is read in: each special character is one, and so is what is between two of them. *)
Inductive pieces : list str -> Prop :=
| pc_nil : pieces []
| pc_special c l : special c -> pieces l -> pieces ([c] :: l)
| pc_plain t : t <> [] -> no_specials t -> pieces [t]
| pc_between t c l : t <> [] -> no_specials t -> special c -> pieces l -> pieces (t :: [c] :: l).
Definition text_exact (x : xnode) : Prop := exists n a l, x = XTag n a (map XText l) /\ pieces l.
Definition ann_exact (a : annotation) : Prop := Forall text_exact (an_text a).
Definition frame_exact (f : dframe) : Prop := Forall (fun i => Forall text_exact (im_text i)) (df_content f).
(** What comes back: the same up to the pieces of the texts, and exactly the same if these are as they are read. *)
Definition ann_after (lb : bool) (a b : annotation) : Prop := ann_same lb a b /\ (ann_exact a -> b = a).
Definition frame_after (lb : bool) (f g : dframe) : Prop := frame_same lb f g /\ (frame_exact f -> g = f).

(** ** Cells *)

(** Cells a sheet can hold: spans are positive, numbers fit 32 bits (C46); annotations and frames can be written and read. *)
Definition span_ok (s : cspan) : Prop := 1 <= rspan s <= u32_max /\ 1 <= cspan_ s <= u32_max.
Definition spans_ok (c : cell) : Prop := match c_extra c with None => True | Some x => span_ok (x_span x) /\ span_ok (x_matrix x) end.
Definition extra_ok (c : cell) : Prop :=
  spans_ok c /\
  match c_extra c with
  | None => True
  | Some x => (forall a, x_annotation x = Some a -> ann_ok a) /\ Forall frame_ok (x_frames x)
  end.
(** The cell [d] is [c] with its annotation and frames as they come back. *)
Definition kept (lb : bool) (c d : cell) : Prop :=
  c_value d = c_value c /\ c_formula d = c_formula c /\ c_style d = c_style c /\ c_repeat d = c_repeat c /\
  match c_extra c, c_extra d with
  | None, None => True
  | Some x, Some y => x_validation y = x_validation x /\ x_span y = x_span x /\ x_matrix y = x_matrix x
      /\ match x_annotation x, x_annotation y with None, None => True | Some a, Some b => ann_after lb a b | _, _ => False end
      /\ Forall2 (frame_after lb) (x_frames x) (x_frames y)
  | _, _ => False
  end.

(** The style a cell is written with. *)
Definition written_style (ds : vtype -> option str) (c : cell) : option str :=
  match c_style c with Some s => Some s | None => ds (value_type (c_value c)) end.
(** The content of cell [c] with value, style and repeat count replaced. *)
Definition content_with (c : cell) (v : value) (st : option str) (k : N) : content :=
  let x := match c_extra c with Some x => x | None => CExt None (CSpan 1 1) (CSpan 1 1) None [] end in
  Content v st (c_formula c) k (x_validation x) (x_span x) (x_matrix x) (x_annotation x) (x_frames x).
(** Nothing but possibly the default style of the column. *)
Definition says_nothing (dflt : option str) (k : content) : Prop :=
  k_value k = VEmpty /\ k_formula k = None /\ (k_style k = None \/ k_style k = dflt) /\ k_validation k = None
  /\ k_span k = CSpan 1 1 /\ k_matrix k = CSpan 1 1 /\ k_annotation k = None /\ k_frames k = [].

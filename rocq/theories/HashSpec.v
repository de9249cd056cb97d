(** The maps of a workbook that are hash maps (workbook_.rs:43-102, io/mod.rs:13-15, lib.rs:91-95): the standard library gives their elements in an
    order that is another one in each run of a program, and with it the writer (write.rs:2389-2402, 2500-2848, 2866-3041). *)
From Coq Require Import Permutation.
From Verif Require Import Base BookModel XmlModel XmlSpec HeaderModel TableModel TableSpec StyleModel StyleSpec ValidModel MetaModel ConfigModel ConfigSpec WorkModel WorkSpec.

(** The same workbook with its hash maps in another order: fonts, the tables of styles, formats, page layouts and master pages, validations, event
    listeners, and the namespaces of each file. *)
Record reordered (w1 w2 : workbook) : Prop := Reordered {
  ro_version : wb_version w1 = wb_version w2;
  ro_meta : wb_meta w1 = wb_meta w2;
  ro_config : wb_config w1 = wb_config w2;
  ro_scripts : fst (wb_scripts w1) = fst (wb_scripts w2);
  ro_listeners : Permutation (snd (wb_scripts w1)) (snd (wb_scripts w2));
  ro_defaults : wb_defaults w1 = wb_defaults w2;
  ro_fonts : Permutation (sk_fonts (wb_styles w1)) (sk_fonts (wb_styles w2));
  ro_styles : forall f, Permutation (bk_styles (sk_book (wb_styles w1)) f) (bk_styles (sk_book (wb_styles w2)) f);
  ro_valids : forall f, Permutation (bk_styles (wb_valids w1) f) (bk_styles (wb_valids w2) f);
  ro_sheets : wb_sheets w1 = wb_sheets w2;
  ro_extra : wb_extra w1 = wb_extra w2;
  ro_ns : forall file, Permutation (ns_of file w1) (ns_of file w2) }.

(** Styles of which a program sees no difference: equal, but for the pieces of the texts in headers and footers of master pages. *)
Definition hf_alike (h1 h2 : hfoot) : Prop :=
  hf_display h1 = hf_display h2 /\ map norm (hf_left h1) = map norm (hf_left h2) /\ map norm (hf_center h1) = map norm (hf_center h2)
  /\ map norm (hf_right h1) = map norm (hf_right h2) /\ map norm (hf_content h1) = map norm (hf_content h2).
Definition body_alike (x y : body) : Prop :=
  match x, y with
  | BMaster b1, BMaster b2 => mp_display b1 = mp_display b2 /\ mp_page b1 = mp_page b2 /\ mp_next b1 = mp_next b2 /\ forall s, hf_alike (mp_hf b1 s) (mp_hf b2 s)
  | BMaster _, _ | _, BMaster _ => False
  | _, _ => x = y
  end.
Definition found_alike (o1 o2 : option (named body)) : Prop :=
  match o1, o2 with
  | Some s1, Some s2 => nm_name s1 = nm_name s2 /\ body_alike (nm_body s1) (nm_body s2)
  | None, None => True
  | _, _ => False
  end.
(** The names a reader gives to the default styles, which are written without one, go by their order. *)
Definition no_defaults (f : family) (b : stylebook) : Prop := forall s, entry b f s -> is_default (nm_body s) = false.
Definition styles_alike (b b1 b2 : stylebook) : Prop :=
  forall f k, In f kinds -> (no_defaults f b \/ ~ numbered f k) -> found_alike (found b1 f k) (found b2 f k).
(** Fonts: the same names and attributes; and the same origin, if [same]. *)
Definition fonts_alike (same : Prop) (b1 b2 : stylebook) : Prop :=
  forall k, match am_get k (sk_fonts b1), am_get k (sk_fonts b2) with
            | Some x, Some y => ft_name x = ft_name y /\ ft_attr x = ft_attr y /\ (same -> ft_origin x = ft_origin y)
            | None, None => True
            | _, _ => False
            end.
(** At most one font with the origin styles. *)
Definition one_font (b : stylebook) : Prop := forall k1 x1 k2 x2, In (k1, x1) (sk_fonts b) -> In (k2, x2) (sk_fonts b) ->
  ft_origin x1 = OStyles -> ft_origin x2 = OStyles -> k1 = k2.
Definition sheets_alike (s1 s2 : sheet) : Prop := bare s1 = bare s2 /\ map norm (tb_extra s1) = map norm (tb_extra s2).

(** Two workbooks that were read from what was written of [w]: equal in everything that is said of the one alone in C51. [files]: the files that
    have namespaces. *)
Record read_alike (files : list str) (w w1 w2 : workbook) : Prop := ReadAlike {
  ra_version : wb_version w1 = wb_version w2;
  ra_meta : wb_meta w1 = wb_meta w2;
  ra_config : plain (wb_config w1) = plain (wb_config w2);
  ra_scripts : wb_scripts w1 = wb_scripts w2;
  ra_styles : styles_alike (wb_styles w) (wb_styles w1) (wb_styles w2);
  ra_fonts : fonts_alike (one_font (wb_styles w)) (wb_styles w1) (wb_styles w2);
  ra_valids : forall v, In v (all_valids w) -> exists v', style FValidation (nm_name v) (wb_valids w1) = Some v' /\ style FValidation (nm_name v) (wb_valids w2) = Some v';
  ra_sheets : Forall2 sheets_alike (wb_sheets w1) (wb_sheets w2);
  ra_extra : map norm (wb_extra w1) = map norm (wb_extra w2);
  ra_ns : forall file k, In file files -> am_get k (ns_of file w1) = am_get k (ns_of file w2) }.

(** Files that come out of one another by any of the changes that mean nothing, in any number and order. *)
From Verif Require Import Base Lib XmlModel WorkModel.
From Verif Require SkipSpec IndentSpec SpellSpec ForeignSpec JumbleSpec GlyphSpec.

Inductive tidied : str -> str -> Prop :=
| TSame t : tidied t t
| TBack t t' : tidied t t' -> tidied t' t
| TThen t t' t'' : tidied t t' -> tidied t' t'' -> tidied t t''
(** Comments, processing instructions and declarations (C75). *)
| TComments t t' : SkipSpec.alike t t' -> tidied t t'
(** Line breaks and indentation (C76). *)
| TIndent t t' : IndentSpec.indented t t' -> tidied t t'
(** The two ways to write an element with nothing in it (C77). *)
| TSpell t t' : SpellSpec.respelt t t' -> tidied t t'
(** Elements the library does not know (C78). *)
| TForeign t t' : ForeignSpec.unpadded t t' -> tidied t t'
(** The order of attributes and attributes the library does not know (C79). *)
| TOrder t t' : JumbleSpec.rearranged t t' -> tidied t t'
(** The spelling of characters (C80). *)
| TGlyphs t t' : GlyphSpec.same_glyphs t t' -> tidied t t'
(** White space, quotes and references in one tag (C80). *)
| TTag a b e x x' ea : lex (XmlModel.MText []) a = Ok ea -> GlyphSpec.tag_text e x -> GlyphSpec.tag_text e x' -> tidied (a ++ x ++ b) (a ++ x' ++ b).
Definition tidied_files (f f' : files) : Prop :=
  tidied (fl_meta f) (fl_meta f') /\ tidied (fl_settings f) (fl_settings f') /\ tidied (fl_styles f) (fl_styles f') /\ tidied (fl_content f) (fl_content f').

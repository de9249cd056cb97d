(** The attribute setters: the right attribute in the right place (C60), with a text the schema knows (C61), and what the getters return (C62). *)
From Verif Require Import Base NumModel RefsModel EnumModel BookModel StyleModel FmtModel SetModel GetModel FmtSpec SetSpec SetText Lib NumProofs FmtProofs NumProps SetProofs SetProofs2 SetProofs3.
From Coq Require Import Lia.

(** ** C60: the right attribute in the right place *)

(** A setter a type offers for one of its maps changes no attribute but those the list of attributes has for that element, or one of the few
    misplaced ones. *)
Theorem C60_placed h sl s a a' k : In (macro_of s) (offers h sl) -> run s a = Ok a' -> value_of k a' <> value_of k a -> ~ listed misplaced sl k ->
  documented h sl k.
Proof.
  intros O E D N. destruct (in_dec (list_eq_dec N.eq_dec) k (keys s)) as [I|I].
  - destruct (placed h sl s k O I) as [P|P]; [exact P|contradiction].
  - exfalso. apply D. exact (run_frame s a a' k E I).
Qed.
(** The attribute it changes is the one it is named for. *)
Theorem C60_named s a a' k : run s a = Ok a' -> value_of k a' <> value_of k a -> (forall id, s <> xml_set_xml_id id) -> named_for (fn_name s) k.
Proof.
  intros E D X. destruct (in_dec (list_eq_dec N.eq_dec) k (keys s)) as [I|I].
  - destruct (named_all s) as [(id & ->)|F]; [destruct (X id eq_refl)|]. rewrite forallb_forall in F. apply named_forb_ok, F, I.
  - exfalso. apply D. exact (run_frame s a a' k E I).
Qed.
(** Every attribute the list marks as handled can be set, by some type that has the element. *)
Theorem C60_covered sl k : In k (map lit (handled sl)) -> ~ listed by_field sl k -> ~ listed unset sl k ->
  exists h s a v, In (macro_of s) (offers h sl) /\ run s [] = Ok a /\ value_of k a = Some v.
Proof.
  intros I N1 N2. apply in_map_iff in I as (n & <- & I). assert (A := covered_all). rewrite forallb_forall in A. specialize (A sl (every_slot sl)).
  rewrite forallb_forall in A. specialize (A n I). cbv beta in A.
  destruct (listedb by_field sl (lit n)) eqn:L1; [apply listedb_iff in L1; contradiction|].
  destruct (listedb unset sl (lit n)) eqn:L2; [apply listedb_iff in L2; contradiction|].
  destruct (find _ all_holders) as [h|] eqn:F; [|discriminate A]. apply find_some in F as (_ & F).
  apply coveredb_ok in F as (s & a & v & H). exists h, s, a, v. exact H.
Qed.
Theorem C60_covered_own h sl k : In k (map lit (handled_by h sl)) -> exists s a v, In (macro_of s) (offers h sl) /\ run s [] = Ok a /\ value_of k a = Some v.
Proof.
  intros I. apply in_map_iff in I as (n & <- & I). assert (A := covered_own). rewrite forallb_forall in A. specialize (A h (every_holder h)).
  rewrite forallb_forall in A. specialize (A sl (every_slot sl)). rewrite forallb_forall in A. specialize (A n I). apply coveredb_ok. exact A.
Qed.
(** The gaps are gaps: whatever setter is called, the attribute stays what it was. *)
Theorem C60_unset h sl s a a' k : listed unset sl k -> In (macro_of s) (offers h sl) -> run s a = Ok a' -> value_of k a' = value_of k a.
Proof.
  intros L O E. apply (run_frame s a a' k E). intros I. apply in_map_iff in L as (p & Q & L). injection Q as Q1 Q2. subst sl k.
  assert (A := unset_all). rewrite forallb_forall in A. specialize (A p L). rewrite forallb_forall in A. specialize (A h (every_holder h)).
  rewrite forallb_forall in A. specialize (A _ O). rewrite (in_memb _ _ (keys_macro s _ I)) in A. discriminate A.
Qed.
(** The misplaced ones: text properties get fo:font-size-rel for style:font-size-rel and style:rotation-angle for style:text-rotation-angle, page
    layouts style:dynamic-spacing, frames draw:corner-radius, and annotations, frames and images xml_id for xml:id. *)
Theorem C60_placed_refuted : forall p, In p misplaced -> exists h s a, In (macro_of s) (offers h (fst p)) /\ run s [] = Ok a /\
  value_of (lit (snd p)) a <> None /\ ~ documented h (fst p) (lit (snd p)).
Proof.
  assert (forall h sl n s, offeredb (macro_of s) (offers h sl) = true -> setsb s (lit n) = true ->
    memb (lit n) (map lit (handled sl ++ unhandled sl ++ handled_by h sl)) = false ->
    exists h' s' a, In (macro_of s') (offers h' sl) /\ run s' [] = Ok a /\ value_of (lit n) a <> None /\ ~ documented h' sl (lit n)) as G.
  { intros h sl n s O S M. apply setsb_ok in S as (a & v & R & V). exists h, s, a. split; [apply offeredb_in; exact O|]. split; [exact R|].
    split; [rewrite V; discriminate|]. intros D. apply in_memb in D. congruence. }
  intros p I. repeat (destruct I as [<-|I]); [..|destruct I]; cbn [fst snd].
  - apply (G TextStyle _ _ (fo_set_font_size_rel (FontSize_Length (Len (lit "2") Pt)))); vm_compute; reflexivity.
  - apply (G TextStyle _ _ (style_set_rotation_angle (Angle_Deg (lit "90")))); vm_compute; reflexivity.
  - apply (G PageStyle _ _ (style_set_dynamic_spacing true)); vm_compute; reflexivity.
  - apply (G DrawFrame _ _ (draw_set_draw_corner_radius 1)); vm_compute; reflexivity.
  - apply (G Annotation _ _ (xml_set_xml_id (lit "a"))); vm_compute; reflexivity.
  - apply (G DrawFrame _ _ (xml_set_xml_id (lit "a"))); vm_compute; reflexivity.
  - apply (G DrawImage _ _ (xml_set_xml_id (lit "a"))); vm_compute; reflexivity.
Qed.
Example C60_ex :
  run (fo_set_border (Len (lit "0.5") Mm) Border_Solid (Rgb 255 0 10)) [(lit "fo:color", lit "#000000")]
    = Ok [(lit "fo:color", lit "#000000"); (lit "fo:border", lit "0.5mm solid #ff000a")]
  /\ fn_name (fo_set_border (Len (lit "0.5") Mm) Border_Solid (Rgb 255 0 10)) = lit "set_border"
  /\ run (fo_set_padding (Len (lit "-1") Mm)) [] = Panic
  /\ offeredb m_fo_border (offers CellStyle Cell_props) = true /\ offeredb m_fo_border (offers RowStyle Row_props) = false.
Proof. vm_compute. auto 10. Qed.

(** ** C61: texts the schema knows *)

(** With sound arguments a setter adds only what the schema allows for the attribute. *)
Theorem C61_values h sl s a a' p : In (macro_of s) (offers h sl) -> sound sl s -> run s a = Ok a' -> In p a' -> In p a \/ allowed sl (fst p) (snd p).
Proof. apply run_values. Qed.
(** So whatever setters are called on an empty map, all its attributes have such texts. *)
Fixpoint runs (l : list setter) (a : attrs) : res attrs := match l with [] => Ok a | s :: r => let* a := run s a in runs r a end.
Theorem C61_all_values h sl l a' : Forall (fun s => In (macro_of s) (offers h sl) /\ sound sl s) l -> runs l [] = Ok a' ->
  Forall (fun p => allowed sl (fst p) (snd p)) a'.
Proof.
  intros F. assert (forall a, Forall (fun p => allowed sl (fst p) (snd p)) a -> runs l a = Ok a' -> Forall (fun p => allowed sl (fst p) (snd p)) a') as G.
  - induction F as [|s r (O & S) F IH]; intros a A E; cbn [runs] in E; [apply ok_inj in E; subst a'; exact A|].
    apply bind_ok in E as (a1 & E1 & E2). apply (IH a1); [|exact E2]. apply Forall_forall. intros p I.
    destruct (run_values h sl s a a1 p O S E1 I) as [J|J]; [|exact J]. rewrite Forall_forall in A. exact (A p J).
  - apply G. constructor.
Qed.
(** And no attribute twice. *)
Theorem C61_once l a' : runs l [] = Ok a' -> NoDup (map fst a').
Proof.
  assert (forall s a a1, NoDup (map fst a) -> run s a = Ok a1 -> NoDup (map fst a1)) as R.
  { intros s a a1 N E.
    assert (forall k v, put k v a = Ok a1 -> NoDup (map fst a1)) as P by (intros k v H; apply ok_inj in H; subst a1; apply put_keys; exact N).
    assert (forall kl kc ks l, Ok (put_locale kl kc ks l a) = Ok a1 -> NoDup (map fst a1)) as L.
    { intros kl kc ks lo H. apply ok_inj in H. subst a1. unfold put_locale. destruct (negb _); [destruct (lo_region lo), (lo_script lo)|];
        repeat first [apply put_keys | apply del_keys]; exact N. }
    assert (forall kl kc l, Ok (put_locale2 kl kc l a) = Ok a1 -> NoDup (map fst a1)) as L2.
    { intros kl kc lo H. apply ok_inj in H. subst a1. unfold put_locale2. destruct (negb _); [destruct (lo_region lo)|];
        repeat first [apply put_keys | apply del_keys]; exact N. }
    assert (forall k1 k2 k3 z b i, font_attr k1 k2 k3 z b i a = Ok a1 -> NoDup (map fst a1)) as T.
    { intros k1 k2 k3 z b i H. unfold font_attr, put in H. destruct (pos_FontSize z); [|discriminate H]. cbn [bind] in H.
      destruct b, i; cbn [bind] in H; apply ok_inj in H; subst a1; repeat apply put_keys; exact N. }
    destruct s; cbn [run] in E;
      first [ exact (P _ _ E) | exact (L _ _ _ _ E) | exact (L2 _ _ _ E) | exact (T _ _ _ _ _ _ E)
            | match type of E with (if ?b then _ else _) = _ => destruct b; [exact (P _ _ E)|discriminate E] end | idtac ].
    - destruct width; [apply ok_inj in E; subst a1; apply del_keys; exact N|exact (P _ _ E)].
    - apply bind_ok in E as (v & _ & E). exact (P _ _ E). }
  assert (forall a, NoDup (map fst a) -> runs l a = Ok a' -> NoDup (map fst a')) as G; [|apply G; constructor].
  induction l as [|s r IH]; intros a N E; cbn [runs] in E; [apply ok_inj in E; subst a'; exact N|].
  apply bind_ok in E as (a1 & E1 & E2). exact (IH a1 (R _ _ _ N E1) E2).
Qed.
(** What the schema does not know: the constant of the unlimited ladder count and the alignments inside and outside, both against the documentation
    of their setters; the actuate values of links with a capital letter; a radius without a unit; the unit em; a relative width with a fraction;
    a length that is not given; minus zero; a count of zero; a glyph orientation other than zero; a table as wide as its scale; and a relative font
    size in percent. *)
Definition not_allowed (h : holder) (sl : slot) (s : setter) : Prop :=
  In (macro_of s) (offers h sl) /\ exists k v, run s [] = Ok [(k, v)] /\ ~ allowed sl k v.
Theorem C61_values_refuted :
  not_allowed ParagraphStyle Para_props (fo_set_hyphenation_ladder_count HyphenationLadderCount_NoLimit) /\
  not_allowed ParagraphStyle Para_props (fo_set_text_align TextAlign_Inside) /\
  not_allowed DrawImage Image_attr (xlink_set_xlink_actuate OnLoad) /\
  not_allowed Annotation Annotation_attr (draw_set_draw_corner_radius 1) /\
  not_allowed ColStyle Col_props (style_set_col_width (Len (lit "2") Em)) /\
  not_allowed ColStyle Col_props (style_set_rel_col_width (lit "1.5")) /\
  not_allowed RowStyle Row_props (style_set_row_height LDefault) /\
  not_allowed CellStyle Cell_props (fo_set_padding (Len (lit "-0") Cm)) /\
  not_allowed PageStyle Page_props (style_set_scale_to_pages 0) /\
  not_allowed CellStyle Cell_props (style_set_glyph_orientation_vertical (GlyphOrientation_Angle (Angle_Deg (lit "90")))) /\
  not_allowed TableStyle Table_props (style_set_rel_width RelativeScale_Scale) /\
  not_allowed TextStyle Text_props (style_set_font_size_rel_asian (FontSize_Percent (Percent_Percent (lit "80")))).
Proof.
  assert (forall h sl s k v l, offeredb (macro_of s) (offers h sl) = true -> run s [] = Ok [(k, v)] -> lookup k = Some (just l) ->
    existsb (fun a => is_a a v) l = false -> not_allowed h sl s) as G.
  { intros h sl s k v l O R L E. split; [apply offeredb_in; exact O|]. exists k, v. split; [exact R|]. unfold allowed. rewrite L. intros ([T|[]] & _).
    cbn [row] in T. unfold one in T. congruence. }
  repeat split; try (eapply offeredb_in; vm_compute; reflexivity).
  all: try (eexists; eexists; split; [reflexivity|]; unfold allowed; intros A).
  all: try (match type of A with context [lookup ?k] => let t := eval vm_compute in (lookup k) in change (lookup k) with t in A end;
            destruct A as ([A|[]] & _); vm_compute in A; discriminate A).
  match type of A with context [lookup ?k] => let t := eval vm_compute in (lookup k) in change (lookup k) with t in A end.
  destruct A as (_ & _ & A). specialize (A eq_refl eq_refl). vm_compute in A. discriminate A.
Qed.
Example C61_ex :
  sound Cell_props (fo_set_border (Len (lit "0.5") Mm) Border_Solid (Rgb 255 0 10)) /\
  allowed Cell_props (lit "fo:border") (lit "0.5mm solid #ff000a") /\ ~ allowed Cell_props (lit "fo:padding") (lit "-1mm").
Proof.
  split; [|split].
  - repeat split; cbn [lengths numbers colors]; repeat constructor; try reflexivity; try discriminate.
    exists 48, (lit ".5"). split; [reflexivity|]. discriminate.
  - unfold allowed. let t := eval vm_compute in (lookup (lit "fo:border")) in change (lookup (lit "fo:border")) with t.
    split; [|split; intros H; vm_compute in H; discriminate H]. right. left.
    exists (lit "0.5mm"), (lit "solid #ff000a"). split; [reflexivity|]. split; [reflexivity|]. exists (lit "solid"), (lit "#ff000a").
    repeat split; reflexivity.
  - unfold allowed. let t := eval vm_compute in (lookup (lit "fo:padding")) in change (lookup (lit "fo:padding")) with t.
    intros ([A|[]] & _). vm_compute in A. discriminate A.
Qed.

(** The text is that of the argument, in the attribute the setter is named for, and no other attribute changes. *)
Theorem C61_text s t a a' : argument_text s = Some t -> Forall byte_color (colors s) -> misspelt s = false -> run s a = Ok a' ->
  exists k, (named_for (fn_name s) k \/ (exists id, s = xml_set_xml_id id) /\ k = lit "xml_id") /\ value_of k a' = Some t /\ forall k', k' <> k -> value_of k' a' = value_of k' a.
Proof.
  intros T C X E. destruct (text_set s t a a' T C X E) as (k & I & V & F). exists k. split; [|auto]. destruct (named_all s) as [(id & ->)|N].
  - right. split; [exists id; reflexivity|]. destruct I as [<-|[]]. reflexivity.
  - left. rewrite forallb_forall in N. apply named_forb_ok, N, I.
Qed.
Theorem C61_text_refuted s t : misspelt s = true -> argument_text s = Some t -> exists a k v, run s [] = Ok a /\ a = [(k, v)] /\ v <> t.
Proof.
  intros X T. destruct s; try discriminate X.
  - destruct hyphenation; [|discriminate X]. eexists _, _, _. split; [reflexivity|]. split; [reflexivity|].
    apply (f_equal (fun o => match o with Some x => x | None => [] end)) in T. cbn beta iota in T. subst t. vm_compute. discriminate.
  - eexists _, _, _. split; [reflexivity|]. split; [reflexivity|].
    apply (f_equal (fun o => match o with Some x => x | None => [] end)) in T. cbn beta iota in T. subst t. destruct actuate; vm_compute; discriminate.
Qed.
(** A locale goes to three attributes, of which those without a part go away, and a font to one, two or three. *)
Theorem C61_locale s l kl kc ks a a' : locale_to s = Some (l, (kl, kc, ks)) -> NoDup (map fst a) -> run s a = Ok a' ->
  let part o := if locale_eqb l unknown then None else o in
  value_of (lit kl) a' = part (Some (lo_lang l)) /\ value_of (lit kc) a' = part (lo_region l) /\ value_of (lit ks) a' = part (lo_script l) /\
  forall k, ~ In k [lit kl; lit kc; lit ks] -> value_of k a' = value_of k a.
Proof.
  intros L N E. cbv zeta.
  assert (a' = put_locale (lit kl) (lit kc) (lit ks) l a /\ NoDup [lit kl; lit kc; lit ks]) as (-> & D).
  { destruct s; try discriminate L; injection L as <- <- <- <-; apply ok_inj in E; subst a'; (split; [reflexivity|]);
      repeat (constructor; [vm_compute; intuition discriminate|]); constructor. }
  destruct (locale_set _ _ _ l a N D) as (A & B & C). repeat split; try assumption. intros k I. apply locale_frame. exact I.
Qed.
Theorem C61_font s z b i k1 k2 k3 a a' : font_to s = Some (z, b, i, (k1, k2, k3)) -> run s a = Ok a' ->
  value_of (lit k1) a' = Some (text_FontSize z) /\ value_of (lit k2) a' = (if b then Some (lit "bold") else value_of (lit k2) a) /\
  value_of (lit k3) a' = (if i then Some (lit "italic") else value_of (lit k3) a) /\
  forall k, ~ In k [lit k1; lit k2; lit k3] -> value_of k a' = value_of k a.
Proof.
  intros L E. assert (font_attr (lit k1) (lit k2) (lit k3) z b i a = Ok a' /\ NoDup [lit k1; lit k2; lit k3]) as (F & D).
  { destruct s; try discriminate L; injection L as <- <- <- <- <- <-; (split; [exact E|]);
      repeat (constructor; [vm_compute; intuition discriminate|]); constructor. }
  destruct (font_set _ _ _ _ _ _ _ _ D F) as (A & B & C). repeat split; try assumption. intros k. apply font_frame with (1 := F).
Qed.
Theorem C61_address r a a' : run (table_set_table_end_cell_address r) a = Ok a' -> exists t, fmt_cell_ref r = Ok t /\ a' = put_attr (lit "table:end-cell-address") t a.
Proof. cbn [run]. intros E. apply bind_ok in E as (t & T & E). apply ok_inj in E. subst a'. exists t. auto. Qed.
(** Every setter has its text in one of these ways, and it does not set anything only where a length is less than zero. *)
Theorem C61_all s : argument_text s <> None \/ locale_to s <> None \/ font_to s <> None \/ (exists r, s = table_set_table_end_cell_address r) \/
  s = style_set_col_width LDefault \/ exists l, s = number_set_transliteration_locale l.
Proof.
  destruct s; try (left; discriminate); try (right; left; discriminate); try (right; right; left; discriminate).
  - destruct width; [|left; discriminate]. do 4 right. left. reflexivity.
  - do 3 right. left. eexists. reflexivity.
  - do 5 right. eexists. reflexivity.
Qed.
Theorem C61_refuses s a : run s a = Panic \/ run s a = Err -> (forall r, s <> table_set_table_end_cell_address r) -> exists l, In l (lengths s) /\ negative l.
Proof.
  intros [E|E] R.
  - destruct (run_panics s a E) as [P|(r & -> & _)]; [exact P|]. destruct (R r eq_refl).
  - destruct (run_errs s a E) as (r & -> & _). destruct (R r eq_refl).
Qed.
Example C61_text_ex :
  argument_text (fo_set_border (Len (lit "0.5") Mm) Border_Solid (Rgb 255 0 10)) = Some (lit "0.5mm solid #ff000a") /\
  argument_text (style_set_shadow (Len (lit "1") Pt) (Len (lit "2") Pt) None (Rgb 1 2 3)) = Some (lit "#010203 1pt 2pt") /\
  argument_text (style_set_print_content false) = Some (lit "false") /\
  run (fo_set_padding (Len (lit "-1") Cm)) [] = Panic /\
  run (fo_set_locale (Locale (lit "de") None (Some (lit "AT")) [])) [(lit "fo:script", lit "Latn")] = Ok [(lit "fo:language", lit "de"); (lit "fo:country", lit "AT")].
Proof. repeat split; reflexivity. Qed.

(** ** C62: what the getters return *)

Lemma got k v a : get_attr k (put_attr k v a) = Some v.
Proof. rewrite get_value, value_put, str_eqb_refl. reflexivity. Qed.
Lemma language_parsed s : language_tag s -> parse_language s = Some s.
Proof.
  intros (F & L). unfold parse_language. assert (forallb letter s = true) as ->.
  { apply forallb_forall. intros c I. rewrite Forall_forall in F. specialize (F c I). unfold small in F. unfold letter, upper_letter, lower_letter. lia. }
  replace ((length s =? 2)%nat || (length s =? 3)%nat) with true by (symmetry; apply orb_true_iff; destruct L as [L|L]; [left|right]; apply Nat.eqb_eq; exact L).
  cbn [andb]. f_equal. rewrite <- (map_id s) at 2. apply map_ext_in. intros c I. rewrite Forall_forall in F. specialize (F c I). unfold small in F.
  unfold to_lower, upper_letter. replace ((65 <=? c) && (c <=? 90)) with false by lia. reflexivity.
Qed.
Lemma script_parsed s : script_tag s -> parse_script s = Some s.
Proof.
  intros (c & r & -> & C & F & L). unfold capital in C. unfold parse_script. cbn [forallb length].
  assert (letter c = true) as -> by (unfold letter, upper_letter, lower_letter; lia).
  assert (forallb letter r = true) as ->.
  { apply forallb_forall. intros d I. rewrite Forall_forall in F. specialize (F d I). unfold small in F. unfold letter, upper_letter, lower_letter. lia. }
  rewrite L. cbn [andb Nat.eqb]. f_equal. f_equal; [unfold to_upper, lower_letter; replace ((97 <=? c) && (c <=? 122)) with false by lia; reflexivity|].
  rewrite <- (map_id r) at 2. apply map_ext_in. intros d I. rewrite Forall_forall in F. specialize (F d I). unfold small in F.
  unfold to_lower, upper_letter. replace ((65 <=? d) && (d <=? 90)) with false by lia. reflexivity.
Qed.
Lemma region_parsed s : region_tag s -> parse_region s = Some s.
Proof.
  intros [(F & L)|(F & L)]; unfold parse_region; rewrite Forall_forall in F.
  - assert (forallb letter s = true) as -> by (apply forallb_forall; intros c I; specialize (F c I); unfold capital in F; unfold letter, upper_letter, lower_letter; lia).
    rewrite L. cbn [andb Nat.eqb]. f_equal. rewrite <- (map_id s) at 2. apply map_ext_in. intros c I. specialize (F c I). unfold capital in F.
    unfold to_upper, lower_letter. replace ((97 <=? c) && (c <=? 122)) with false by lia. reflexivity.
  - rewrite L. rewrite andb_false_r. assert (forallb (fun c => (48 <=? c) && (c <=? 57)) s = true) as ->; [|reflexivity].
    apply forallb_forall. intros c I. specialize (F c I). unfold digit in F. lia.
Qed.

(** A getter returns what its setter was given. *)
Theorem C62_title t a a' : run (number_set_title t) a = Ok a' -> get_title a' = Some t.
Proof. intros E. apply ok_inj in E. subst a'. apply got. Qed.
(** The locale without its variants and extensions, and none for the unknown locale. *)
Theorem C62_locale l a a' : NoDup (map fst a) -> canonical l -> run (number_set_locale l) a = Ok a' ->
  get_locale a' = if locale_eqb l unknown then None else Some (Locale (lo_lang l) (lo_script l) (lo_region l) []).
Proof.
  intros N (CL & CS & CR) E. apply ok_inj in E. subst a'. unfold put_locale, get_locale. rewrite !get_value. destruct (locale_eqb l unknown); cbn [negb].
  - assert (value_of (lit "number:language") (del_attr (lit "number:script") (del_attr (lit "number:country") (del_attr (lit "number:language") a))) = None) as ->; [|reflexivity].
    rewrite !value_del_other by reflexivity. rewrite value_del by exact N. rewrite str_eqb_refl. reflexivity.
  - set (b := put_attr (lit "number:language") (lo_lang l) a). assert (NoDup (map fst b)) as Nb by (apply put_keys; exact N).
    set (c := match lo_region l with Some r => put_attr (lit "number:country") r b | None => del_attr (lit "number:country") b end).
    assert (NoDup (map fst c)) as Nc by (unfold c; destruct (lo_region l); [apply put_keys|apply del_keys]; exact Nb).
    assert (forall k, str_eqb (lit "number:script") k = false ->
      value_of k (match lo_script l with Some s => put_attr (lit "number:script") s c | None => del_attr (lit "number:script") c end) = value_of k c) as F3.
    { intros k H. destruct (lo_script l); [rewrite value_put, H; reflexivity|apply value_del_other; exact H]. }
    assert (forall k, str_eqb (lit "number:country") k = false -> value_of k c = value_of k b) as F2.
    { intros k H. unfold c. destruct (lo_region l); [rewrite value_put, H; reflexivity|apply value_del_other; exact H]. }
    rewrite !F3 by reflexivity. rewrite F2 by reflexivity. unfold b at 1. rewrite value_put, str_eqb_refl, (language_parsed _ CL). rewrite !get_value. f_equal. f_equal.
    + destruct (lo_script l) as [s|].
      * rewrite (value_put (lit "number:script") s c), str_eqb_refl. cbn [opt_parse]. apply script_parsed, CS. reflexivity.
      * rewrite value_del by exact Nc. rewrite str_eqb_refl. reflexivity.
    + rewrite F3 by reflexivity. unfold c. destruct (lo_region l) as [r|].
      * rewrite value_put, str_eqb_refl. cbn [opt_parse]. apply region_parsed, CR. reflexivity.
      * rewrite value_del by exact Nb. rewrite str_eqb_refl. reflexivity.
Qed.
Theorem C62_transliteration_format c a a' : run (number_set_transliteration_format c) a = Ok a' -> get_transliteration_format a' = Some c.
Proof. intros E. apply ok_inj in E. subst a'. unfold get_transliteration_format. rewrite got. reflexivity. Qed.
Theorem C62_transliteration_style s a a' : run (number_set_transliteration_style s) a = Ok a' -> get_transliteration_style a' = Ok (Some s).
Proof. intros E. apply ok_inj in E. subst a'. unfold get_transliteration_style. rewrite got. destruct s; reflexivity. Qed.
Theorem C62_automatic_order b a a' : run (number_set_automatic_order b) a = Ok a' -> get_automatic_order a' = Some b.
Proof. intros E. apply ok_inj in E. subst a'. unfold get_automatic_order. rewrite got. destruct b; reflexivity. Qed.
Theorem C62_format_source s a a' : run (number_set_format_source s) a = Ok a' -> get_format_source a' = Ok (Some s).
Proof. intros E. apply ok_inj in E. subst a'. unfold get_format_source. rewrite got. destruct s; reflexivity. Qed.
Theorem C62_truncate_on_overflow b a a' : run (number_set_truncate_on_overflow b) a = Ok a' -> get_truncate_on_overflow a' = Some b.
Proof. intros E. apply ok_inj in E. subst a'. unfold get_truncate_on_overflow. rewrite got. destruct b; reflexivity. Qed.
Theorem C62_volatile b a a' : run (style_set_volatile b) a = Ok a' -> get_volatile a' = Some b.
Proof. intros E. apply ok_inj in E. subst a'. unfold get_volatile. rewrite got. destruct b; reflexivity. Qed.
Theorem C62_col_width l a a' : NoDup (map fst a) -> (forall v u, l = Len v u -> float_text v = true) -> run (style_set_col_width l) a = Ok a' ->
  get_col_width a' = Ok l.
Proof.
  intros N F E. cbn [run] in E. unfold get_col_width, parse_def, parse_opt. destruct l as [|v u]; apply ok_inj in E; subst a'.
  - rewrite get_value, value_del by exact N. rewrite str_eqb_refl. reflexivity.
  - rewrite got. rewrite (C29_length v u (F v u eq_refl)). reflexivity.
Qed.
Theorem C62_use_optimal_col_width b a a' : run (style_set_use_optimal_col_width b) a = Ok a' -> get_use_optimal_col_width a' = Ok b.
Proof. intros E. apply ok_inj in E. subst a'. unfold get_use_optimal_col_width. rewrite got. destruct b; reflexivity. Qed.
Theorem C62_row_height v u a a' : float_text v = true -> run (style_set_row_height (Len v u)) a = Ok a' -> get_row_height a' = Ok (Len v u).
Proof. intros F E. apply ok_inj in E. subst a'. unfold get_row_height, parse_def, parse_opt. rewrite got. rewrite (C29_length v u F). reflexivity. Qed.
Theorem C62_use_optimal_row_height b a a' : run (style_set_use_optimal_row_height b) a = Ok a' -> get_use_optimal_row_height a' = Ok b.
Proof. intros E. apply ok_inj in E. subst a'. unfold get_use_optimal_row_height. rewrite got. destruct b; reflexivity. Qed.

(** And no other setter changes it: a getter that looks at the attributes [ks] alone returns the same after a setter for others. *)
Definition looks_at {T} (g : attrs -> T) (ks : list str) : Prop := forall a b, (forall k, In k ks -> value_of k a = value_of k b) -> g a = g b.
Theorem C62_looks_at :
  looks_at get_title [lit "number:title"] /\ looks_at get_locale [lit "number:language"; lit "number:country"; lit "number:script"] /\
  looks_at get_transliteration_format [lit "number:transliteration-format"] /\ looks_at get_transliteration_style [lit "number:transliteration-style"] /\
  looks_at get_automatic_order [lit "number:automatic-order"] /\ looks_at get_format_source [lit "number:format-source"] /\
  looks_at get_truncate_on_overflow [lit "number:truncate-on-overflow"] /\ looks_at get_volatile [lit "style:volatile"] /\
  looks_at get_col_width [lit "style:column-width"] /\ looks_at get_use_optimal_col_width [lit "style:use-optimal-column-width"] /\
  looks_at get_row_height [lit "style:row-height"] /\ looks_at get_use_optimal_row_height [lit "style:use-optimal-row-height"].
Proof.
  repeat split; intros a b H;
    unfold get_title, get_locale, get_transliteration_format, get_transliteration_style, get_automatic_order, get_format_source, get_truncate_on_overflow,
      get_volatile, get_col_width, get_use_optimal_col_width, get_row_height, get_use_optimal_row_height; rewrite !get_value;
    rewrite !H by (cbn [In]; auto); reflexivity.
Qed.
Theorem C62_others {T} (g : attrs -> T) ks s a a' : looks_at g ks -> run s a = Ok a' -> (forall k, In k ks -> ~ named_for (fn_name s) k) ->
  (forall id, s <> xml_set_xml_id id) -> g a' = g a.
Proof.
  intros L E N X. apply L. intros k I. destruct (in_dec (list_eq_dec N.eq_dec) k (keys s)) as [J|J]; [|exact (run_frame s a a' k E J)].
  exfalso. apply (N k I). destruct (named_all s) as [(id & ->)|F]; [destruct (X id eq_refl)|]. rewrite forallb_forall in F. apply named_forb_ok, F, J.
Qed.

(** The locale of the transliteration is that of the format, whatever was set for it. *)
Theorem C62_transliteration_locale_wrong a : get_transliteration_locale a = option_map (fun l => Locale (lo_lang l) None (lo_region l) []) (get_locale a).
Proof. unfold get_transliteration_locale, get_locale. destruct (get_attr _ a) as [l|]; [|reflexivity]. destruct (parse_language l); reflexivity. Qed.
Theorem C62_transliteration_locale_ignored l a a' : run (number_set_transliteration_locale l) a = Ok a' -> get_transliteration_locale a' = get_transliteration_locale a.
Proof.
  intros E. unfold get_transliteration_locale. change get_attr with value_of.
  assert (forall k, In k [lit "number:language"; lit "number:country"] -> value_of k a' = value_of k a) as F.
  { intros k I. apply (run_frame _ _ _ k E). cbn [keys]. intros H. destruct I as [<-|[<-|[]]]; vm_compute in H; repeat (destruct H as [H|H]; [discriminate H|]); destruct H. }
  rewrite (F (lit "number:language")) by (left; reflexivity). destruct (value_of (lit "number:language") a) as [g|]; [|reflexivity].
  destruct (parse_language g); [|reflexivity]. rewrite (F (lit "number:country")) by (right; left; reflexivity). reflexivity.
Qed.
Theorem C62_transliteration_locale_refuted : exists l a, canonical l /\ run (number_set_transliteration_locale l) [] = Ok a /\ a <> [] /\
  get_transliteration_locale a = None.
Proof.
  exists (Locale (lit "ar") None (Some (lit "EG")) []). eexists. split; [|split; [reflexivity|split; [discriminate|vm_compute; reflexivity]]].
  repeat split; cbn [lo_lang lo_script lo_region]; try discriminate.
  - repeat constructor; discriminate.
  - left. reflexivity.
  - intros r H. injection H as <-. left. split; [repeat constructor; discriminate|reflexivity].
Qed.
(** A row height that is not given is written as an empty text, and the getter fails on it; a column width is taken away instead. *)
Theorem C62_row_height_refuted : exists a, run (style_set_row_height LDefault) [] = Ok a /\ get_row_height a = Err /\
  run (style_set_col_width LDefault) [] = Ok [] /\ get_col_width [] = Ok LDefault.
Proof. eexists. split; [reflexivity|]. vm_compute. auto. Qed.
Example C62_ex :
  get_locale [(lit "number:language", lit "SR"); (lit "number:country", lit "rs"); (lit "number:script", lit "LATN")]
    = Some (Locale (lit "sr") (Some (lit "Latn")) (Some (lit "RS")) [])
  /\ get_locale [(lit "number:language", lit "x1")] = None
  /\ get_col_width [(lit "style:column-width", lit "2.5cm")] = Ok (Len (lit "2.5") Cm).
Proof. vm_compute. auto. Qed.

Print Assumptions C60_placed.
Print Assumptions C60_named.
Print Assumptions C60_covered.
Print Assumptions C60_covered_own.
Print Assumptions C60_unset.
Print Assumptions C60_placed_refuted.
Print Assumptions C61_values.
Print Assumptions C61_all_values.
Print Assumptions C61_once.
Print Assumptions C61_values_refuted.
Print Assumptions C61_text.
Print Assumptions C61_text_refuted.
Print Assumptions C61_locale.
Print Assumptions C61_font.
Print Assumptions C61_address.
Print Assumptions C61_all.
Print Assumptions C61_refuses.
Print Assumptions C62_title.
Print Assumptions C62_locale.
Print Assumptions C62_transliteration_format.
Print Assumptions C62_transliteration_style.
Print Assumptions C62_automatic_order.
Print Assumptions C62_format_source.
Print Assumptions C62_truncate_on_overflow.
Print Assumptions C62_volatile.
Print Assumptions C62_col_width.
Print Assumptions C62_use_optimal_col_width.
Print Assumptions C62_row_height.
Print Assumptions C62_use_optimal_row_height.
Print Assumptions C62_looks_at.
Print Assumptions C62_others.
Print Assumptions C62_transliteration_locale_wrong.
Print Assumptions C62_transliteration_locale_ignored.
Print Assumptions C62_transliteration_locale_refuted.
Print Assumptions C62_row_height_refuted.

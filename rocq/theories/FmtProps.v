(** Builders of value formats, the predefined formats, and the default styles of a new workbook. *)
From Verif Require Import Base Lib NumModel AttrModel BookModel StyleModel FmtModel FmtSpec FmtProofs.

Definition body_of (v : vformat) : fbody := snd (nm_body v).
Definition head_of (v : vformat) : str * origin * suse := (nm_name v, fst (fst (nm_body v)), snd (fst (nm_body v))).

(** * C57: a built part is what was asked for *)

(** Any sequence of methods of a builder and [build]: one part is added, of the type of the builder, and nothing else of the format is
    touched. Each attribute of the part has the value the last method concerning it is documented to give, no attribute is there twice, and
    the text and the position are the last ones given. A fraction without [min_integer_digits], and one call of [locale]. *)
Theorem C57_builder t l v : Forall (keeps t) l -> Forall (faithful t) l -> (length (filter is_locale l) <= 1)%nat ->
  let w := with_part t l v in
  head_of w = head_of v /\ fb_attr (body_of w) = fb_attr (body_of v) /\ fb_text (body_of w) = fb_text (body_of v) /\ fb_maps (body_of w) = fb_maps (body_of v)
  /\ exists p, fb_parts (body_of w) = fb_parts (body_of v) ++ [p] /\ pt_type p = t
     /\ (forall k, value_of k (pt_attr p) = last_of k (flat_map documented l)) /\ NoDup (map fst (pt_attr p))
     /\ pt_content p = last_some documented_text l /\ pt_pos p = last_some documented_pos l.
Proof.
  intros F G L. destruct v as [n [[o u] b]]. cbn. do 4 (split; [reflexivity|]). exists (made t l). split; [reflexivity|].
  split; [apply made_type|]. split; [intros k; apply made_attr; assumption|]. split; [apply made_keys|].
  split; [apply made_content|apply made_pos].
Qed.
Example C57_builder_ex :
  let l := [MinIntegerDigits 1; DecimalPlaces 3; FixedDecimalPlaces 2; Grouping; MinDecimalPlaces 0; EmbeddedText (lit "'") 4] in
  fb_parts (body_of (with_part PNumber l (with_text "x" (new_named (lit "n")))))
  = [Part PTextPart [] None (Some (lit "x"));
     Part PNumber [(lit "number:min-integer-digits", lit "1"); (lit "number:decimal-places", lit "2"); (lit "number:min-decimal-places", lit "0");
                   (lit "number:grouping", lit "true")] (Some 4%Z) (Some (lit "'"))]
  /\ forallb (has PNumber) l = true.
Proof. vm_compute. auto. Qed.

(** The model sets attributes as [AttrMap2] does. *)
Theorem C57_attr_map k v m a : am_iter m = Ok a ->
  am_iter (am_set k v m) = Ok (put_attr k v a)
  /\ exists m' o, am_clear k m = Ok (m', o) /\ am_iter m' = Ok (del_attr k a) /\ o = value_of k a.
Proof. intros H. split; [apply put_attr_set; exact H|apply del_attr_clear; exact H]. Qed.
Example C57_attr_map_ex : am_iter (am_set (lit "a") (lit "3") (mkAttr [lit "a"; lit "b"] [lit "1"; lit "2"])) = Ok [(lit "a", lit "3"); (lit "b", lit "2")].
Proof. vm_compute. reflexivity. Qed.

(** Whatever is called, a built fraction has no number:min-integer-digits: [min_integer_digits] sets number:min-numerator-digits. Without that
    attribute no integer portion is shown (ODF 19.355). *)
Theorem C57_fraction_no_integer l : Forall (keeps PFraction) l -> value_of (lit "number:min-integer-digits") (pt_attr (made PFraction l)) = None.
Proof.
  induction l as [|o l IH] using rev_ind; intros F; [reflexivity|]. apply Forall_app in F. destruct F as [F1 F2].
  inversion F2 as [|? ? K _]; subst. rewrite made_snoc. specialize (IH F1).
  destruct o; try discriminate K; cbn [apply_setting set_attr on_attr pt_attr]; rewrite value_put, IH; reflexivity.
Qed.
Example C57_fraction_no_integer_ex : forallb (has PFraction) [MinIntegerDigits 1; Denominator 16; MinNumeratorDigits 2] = true.
Proof. reflexivity. Qed.
Theorem C57_fraction_refuted : exists l k, Forall (keeps PFraction) l /\ value_of k (pt_attr (made PFraction l)) <> last_of k (flat_map documented l).
Proof. exists [MinIntegerDigits 1], (lit "number:min-integer-digits"). split; [repeat constructor|]. vm_compute. discriminate. Qed.
(** The deprecated [push_fraction] loses its argument the same way. *)
Theorem C57_push_fraction_refuted : exists d a b e g n,
  ~ exists p, fb_parts (body_of (push_fraction d a b e g (new_named n))) = [p] /\ value_of (lit "number:min-integer-digits") (pt_attr p) = Some (show_N b).
Proof.
  exists 8%Z, 1, 1, 2, false, (lit "n"). intros (p & H & V). vm_compute in H. injection H as <-. vm_compute in V. discriminate.
Qed.
(** A second [locale] keeps the country and the script of the first one if it has none. *)
Theorem C57_locale_twice_refuted : exists l k, Forall (keeps PCurrency) l /\ value_of k (pt_attr (made PCurrency l)) <> last_of k (flat_map documented l).
Proof.
  exists [SymbolLocale (Locale (lit "en") None (Some (lit "US")) []); SymbolLocale (Locale (lit "de") None None [])], (lit "number:country").
  split; [repeat constructor|]. vm_compute. discriminate.
Qed.

(** * C58: the predefined formats show what they are named for *)

(** Whether the locale is set makes no difference to the parts. *)
Lemma shows_loc c f l t ps m v : shows c f (FBody (set_locale l []) t ps m) v = shows c f (FBody [] t ps m) v.
Proof. apply shows_attr, locale_attr. Qed.
Lemma shows_loc_trunc c f l b t ps m v : shows c f (FBody (set_truncate b (set_locale l [])) t ps m) v = shows c f (FBody (set_truncate b []) t ps m) v.
Proof. apply shows_attr, locale_trunc. Qed.
Lemma shows_number c a neg m d : plain_number (Part PNumber a None None) = true ->
  shows c FmtNumber (FBody [] [] [Part PNumber a None None] None) (SNumber neg m d) = Some (sign neg ++ shown_number c a m d).
Proof. intros H. cbn -[plain_number shown_number sign]. rewrite H. cbn -[shown_number]. rewrite app_nil_r. reflexivity. Qed.
Lemma shows_percent c a neg m d : plain_number (Part PNumber a None None) = true ->
  shows c FmtPercentage (FBody [] [] [Part PNumber a None None; Part PTextPart [] None (Some (lit "%"))] None) (SNumber neg m d)
  = Some (sign neg ++ shown_number c a (m * 100) d ++ lit "%").
Proof. intros H. cbn -[plain_number shown_number sign N.mul]. rewrite H. cbn -[shown_number N.mul]. reflexivity. Qed.
Lemma shows_prefix c a sa s neg m d : plain_number (Part PNumber a None None) = true -> blank s = false ->
  shows c FmtCurrency (FBody [] [] [Part PCurrency sa None (Some s); Part PTextPart [] None (Some (lit " ")); Part PNumber a None None] None) (SNumber neg m d)
  = Some (sign neg ++ s ++ lit " " ++ shown_number c a m d).
Proof.
  intros H B. cbn -[plain_number shown_number sign shown_symbol]. rewrite H. unfold shown_symbol. cbn -[shown_number]. rewrite B, app_nil_r. reflexivity.
Qed.
Lemma shows_suffix c a sa s neg m d : plain_number (Part PNumber a None None) = true -> blank s = false ->
  shows c FmtCurrency (FBody [] [] [Part PNumber a None None; Part PTextPart [] None (Some (lit " ")); Part PCurrency sa None (Some s)] None) (SNumber neg m d)
  = Some (sign neg ++ shown_number c a m d ++ lit " " ++ s).
Proof.
  intros H B. cbn -[plain_number shown_number sign shown_symbol]. rewrite H. unfold shown_symbol. cbn -[shown_number]. rewrite B, app_nil_r. reflexivity.
Qed.
Lemma made_symbol l s : exists a, made PCurrency [SymbolLocale l; Symbol s] = Part PCurrency a None (Some s).
Proof.
  unfold made. cbn. destruct (lo_region l), (lo_script l); eexists; reflexivity.
Qed.
Lemma blank_not s : blank s = false <-> exists x, In x s /\ ~ In x [32; 9; 10; 13].
Proof.
  induction s as [|x r IH]; cbn -[In].
  - split; [discriminate|intros (x & [] & _)].
  - fold (blank r). split.
    + intros H. apply andb_false_iff in H. destruct H as [H|H].
      * exists x. split; [left; reflexivity|]. intros [<-|[<-|[<-|[<-|[]]]]]; discriminate H.
      * apply IH in H. destruct H as (y & A & B). exists y. split; [right; exact A|exact B].
    + intros (y & [<-|A] & B); apply andb_false_iff; [left|right; apply IH; exists y; tauto].
      apply not_true_is_false. intros T. apply B. rewrite !orb_true_iff, !N.eqb_eq in T. cbn. intuition.
Qed.
Ltac amount_of := erewrite shown_amount; [reflexivity|..]; cbn -[number_of show_N]; rewrite ?number_show; reflexivity.

Section Shown.
  Context (c : consumer).

  Theorem C58_boolean n l x : shows c FmtBoolean (body_of (create_boolean_format n)) (SBool x) = Some (if x then c_true c else c_false c)
    /\ shows c FmtBoolean (body_of (create_loc_boolean_format n l)) (SBool x) = Some (if x then c_true c else c_false c).
  Proof.
    assert (A : shows c FmtBoolean (body_of (create_boolean_format n)) (SBool x) = Some (if x then c_true c else c_false c)).
    { cbn. rewrite app_nil_r. reflexivity. }
    split; [exact A|]. rewrite <- A. apply shows_loc.
  Qed.

  (** [decimal] decimals, as many of them as the application shows of a number that does not need them. *)
  Theorem C58_number n l dec g neg m d :
    shows c FmtNumber (body_of (create_number_format n dec g)) (SNumber neg m d) = Some (sign neg ++ amount c (c_min_integer c) (c_min_places c dec) dec g m d)
    /\ shows c FmtNumber (body_of (create_loc_number_format n l dec g)) (SNumber neg m d) = Some (sign neg ++ amount c 1 (c_min_places c dec) dec g m d).
  Proof.
    split.
    - destruct g; (etransitivity; [apply shows_number; reflexivity|]); do 2 f_equal; amount_of.
    - etransitivity; [apply shows_loc|]. destruct g; (etransitivity; [apply shows_number; reflexivity|]); do 2 f_equal; amount_of.
  Qed.
  (** [decimal] decimals, always. *)
  Theorem C58_number_fixed n l dec g neg m d :
    shows c FmtNumber (body_of (create_number_format_fixed n dec g)) (SNumber neg m d) = Some (sign neg ++ amount c 1 dec dec g m d)
    /\ shows c FmtNumber (body_of (create_loc_number_format_fixed n l dec g)) (SNumber neg m d) = Some (sign neg ++ amount c 1 dec dec g m d).
  Proof.
    split; [|etransitivity; [apply shows_loc|]]; destruct g; (etransitivity; [apply shows_number; reflexivity|]); do 2 f_equal; amount_of.
  Qed.
  Theorem C58_percentage n l dec neg m d :
    shows c FmtPercentage (body_of (create_percentage_format n dec)) (SNumber neg m d)
    = Some (sign neg ++ amount c (c_min_integer c) dec dec false (m * 100) d ++ lit "%")
    /\ shows c FmtPercentage (body_of (create_loc_percentage_format n l dec)) (SNumber neg m d)
    = Some (sign neg ++ amount c (c_min_integer c) (c_min_places c dec) dec false (m * 100) d ++ lit "%").
  Proof.
    split; [|etransitivity; [apply shows_loc|]]; (etransitivity; [apply shows_percent; reflexivity|]); do 2 f_equal; f_equal; amount_of.
  Qed.
  (** The symbol, two decimals, grouped. *)
  Theorem C58_currency n l sl s neg m d : (exists x, In x s /\ ~ In x [32; 9; 10; 13]) ->
    shows c FmtCurrency (body_of (create_currency_prefix n sl s)) (SNumber neg m d) = Some (sign neg ++ s ++ lit " " ++ amount c (c_min_integer c) 2 2 true m d)
    /\ shows c FmtCurrency (body_of (create_currency_suffix n sl s)) (SNumber neg m d) = Some (sign neg ++ amount c (c_min_integer c) 2 2 true m d ++ lit " " ++ s)
    /\ shows c FmtCurrency (body_of (create_loc_currency_suffix n l sl s)) (SNumber neg m d) = Some (sign neg ++ amount c (c_min_integer c) 2 2 true m d ++ lit " " ++ s).
  Proof.
    intros B. apply blank_not in B. destruct (made_symbol sl s) as [a E].
    unfold create_currency_prefix, create_currency_suffix, create_loc_currency_suffix, with_part, on_body, push_made, new_named, new_localized, with_text, body_of.
    cbn [nm_body snd fb_parts fb_attr fb_text fb_maps app with_part on_body push_made]. rewrite E.
    split; [|split; [|etransitivity; [apply shows_loc|]]].
    - etransitivity; [apply shows_prefix; [reflexivity|exact B]|]. do 4 f_equal.
    - etransitivity; [apply shows_suffix; [reflexivity|exact B]|]. do 4 f_equal.
    - etransitivity; [apply shows_suffix; [reflexivity|exact B]|]. do 4 f_equal.
  Qed.
  Theorem C58_date n l y mo d h mi s ns :
    let v := SDate y mo d h mi s ns in
    shows c FmtDateTime (body_of (create_date_iso_format n)) v = Some (Y_M_D y mo d)
    /\ shows c FmtDateTime (body_of (create_date_dmy_format n)) v = Some (D_M_Y y mo d)
    /\ shows c FmtDateTime (body_of (create_date_mdy_format n)) v = Some (M_D_Y y mo d)
    /\ shows c FmtDateTime (body_of (create_loc_date_dmy_format n l)) v = Some (D_M_Y y mo d)
    /\ shows c FmtDateTime (body_of (create_loc_date_mdy_format n l)) v = Some (M_D_Y y mo d)
    /\ shows c FmtDateTime (body_of (create_datetime_format n)) v = Some (Y_M_D y mo d ++ lit " " ++ H_M_S h mi s).
  Proof.
    cbv zeta. split; [|split; [|split; [|split; [|split]]]].
    4, 5: etransitivity; [apply shows_loc|].
    all: cbn -[at_least digits]; unfold Y_M_D, D_M_Y, M_D_Y, H_M_S; cbn -[at_least digits]; rewrite ?app_nil_r; repeat (cbn [app]; rewrite <- ?app_assoc); try reflexivity.
  Qed.
  (** The localized one: days first, not the Y-M-D it is documented to show. *)
  Theorem C58_loc_datetime n l y mo d h mi s ns :
    shows c FmtDateTime (body_of (create_loc_datetime_format n l)) (SDate y mo d h mi s ns) = Some (D_M_Y y mo d ++ lit " " ++ H_M_S h mi s).
  Proof.
    etransitivity; [apply shows_loc|].
    cbn -[at_least digits]; unfold Y_M_D, D_M_Y, M_D_Y, H_M_S; cbn -[at_least digits]; rewrite ?app_nil_r; repeat (cbn [app]; rewrite <- ?app_assoc). reflexivity.
  Qed.
  (** Time of day: a length of time shown modulo a day; interval: all of its hours. *)
  Theorem C58_time n l t :
    let secs := t / 1000000000 in
    let day := at_least 2 (secs / 3600 mod 24) ++ lit ":" ++ digits 2 (secs / 60 mod 60) ++ lit ":" ++ digits 2 (secs mod 60) in
    shows c FmtTimeDuration (body_of (create_time_of_day_format n)) (STime t) = Some day
    /\ shows c FmtTimeDuration (body_of (create_loc_time_format n l)) (STime t) = Some day
    /\ shows c FmtTimeDuration (body_of (create_time_interval_format n)) (STime t) = Some (interval t)
    /\ shows c FmtTimeDuration (body_of (create_loc_time_interval_format n l)) (STime t) = Some (interval t).
  Proof.
    cbv zeta. unfold interval.
    rewrite <- (two_digits (t / 1000000000 / 60 mod 60)), <- (two_digits (t / 1000000000 mod 60))
      by (eapply N.lt_trans; [apply N.mod_lt; discriminate|reflexivity]).
    split; [|split; [|split]].
    2: etransitivity; [apply shows_loc|].
    4: etransitivity; [apply shows_loc_trunc|].
    all: cbn -[at_least N.div N.modulo]; rewrite ?app_nil_r; repeat (cbn [app]; rewrite <- ?app_assoc); reflexivity.
  Qed.
End Shown.

(** The localized currency with the symbol first shows the amount twice. *)
Theorem C58_loc_currency_prefix_refuted : exists c n l sl s neg m d,
  shows c FmtCurrency (body_of (create_loc_currency_prefix n l sl s)) (SNumber neg m d) = Some (lit "EUR 1.501.50")
  /\ shows c FmtCurrency (body_of (create_currency_prefix n sl s)) (SNumber neg m d) = Some (lit "EUR 1.50").
Proof.
  exists plain_consumer, (lit "c"), (locale_of DeAt), (locale_of DeAt), (lit "EUR"), false, 15, 1. vm_compute. auto.
Qed.
(** The localized date and time is not in the order it is documented in. *)
Theorem C58_loc_datetime_refuted : exists c n l y mo d h mi s,
  shows c FmtDateTime (body_of (create_loc_datetime_format n l)) (SDate y mo d h mi s 0) <> Some (Y_M_D y mo d ++ lit " " ++ H_M_S h mi s).
Proof. exists plain_consumer, (lit "c"), (locale_of DeAt), 2024, 1, 2, 3, 4, 5. vm_compute. discriminate. Qed.
Example C58_ex :
  let show f v x := shows plain_consumer f (body_of v) x in
  (show FmtNumber (create_number_format_fixed [] 3 true) (SNumber true 12345 2), show FmtPercentage (create_percentage_format [] 1) (SNumber false 5 1),
   show FmtCurrency (create_currency_suffix [] (locale_of DeAt) (lit "EUR")) (SNumber false 7 0),
   show FmtDateTime (create_datetime_format []) (SDate 987 6 5 4 3 2 1), show FmtDateTime (create_loc_date_mdy_format [] (locale_of EnUs)) (SDate 2024 6 5 4 3 2 1),
   show FmtTimeDuration (create_time_interval_format []) (STime 360061000000000), show FmtTimeDuration (create_time_of_day_format []) (STime 360061000000000))
  = (Some (lit "-123.450"), Some (lit "50.0%"), Some (lit "7.00 EUR"), Some (lit "0987-06-05 04:03:02"), Some (lit "06/05/2024"),
     Some (lit "100:01:01"), Some (lit "04:01:01")).
Proof. vm_compute. reflexivity. Qed.

(** * C59: the default styles of a workbook *)

Lemma loc_shows c l k v t : (k = KDatetime -> l <> EnUs) -> expected c l k v = Some t -> shows c (loc_family k) (body_of (loc_format l k)) v = Some t.
Proof.
  intros D E. destruct k, v; try discriminate E; injection E as <-.
  - destruct l; (etransitivity; [apply shows_loc|]); cbn; rewrite app_nil_r; reflexivity.
  - destruct l; (etransitivity; [apply shows_loc|]); (etransitivity; [apply shows_number; reflexivity|]); do 2 f_equal; amount_of.
  - destruct l; (etransitivity; [apply shows_loc|]); (etransitivity; [apply shows_percent; reflexivity|]); do 2 f_equal; f_equal; amount_of.
  - destruct l; (etransitivity; [apply shows_loc|]); (etransitivity; [apply shows_prefix; reflexivity|]); do 4 f_equal.
  - destruct l; (etransitivity; [apply shows_loc|]); cbn -[at_least digits]; unfold Y_M_D, D_M_Y, M_D_Y; cbn -[at_least digits]; rewrite ?app_nil_r;
      repeat (cbn [app]; rewrite <- ?app_assoc); reflexivity.
  - destruct l; try (contradiction D; reflexivity); (etransitivity; [apply shows_loc|]); cbn -[at_least digits]; unfold Y_M_D, D_M_Y, M_D_Y, H_M_S; cbn -[at_least digits];
      rewrite ?app_nil_r; repeat (cbn [app]; rewrite <- ?app_assoc); reflexivity.
  - destruct l; (etransitivity; [apply shows_loc|]); cbn -[at_least digits half_day N.ltb]; unfold H_M_S; cbn -[at_least digits half_day N.ltb]; rewrite ?app_nil_r;
      repeat (cbn [app]; rewrite <- ?app_assoc); reflexivity.
  - unfold interval.
    rewrite <- (two_digits (ns / 1000000000 / 60 mod 60)), <- (two_digits (ns / 1000000000 mod 60))
      by (eapply N.lt_trans; [apply N.mod_lt; discriminate|reflexivity]).
    destruct l; (etransitivity; [apply shows_loc_trunc|]); cbn -[at_least N.div N.modulo]; rewrite ?app_nil_r; repeat (cbn [app]; rewrite <- ?app_assoc); reflexivity.
Qed.
Lemma expected_some c l k : exists v t, expected c l k v = Some t.
Proof.
  destruct k; [exists (SBool true)|exists (SNumber true 1 0)|exists (SNumber true 1 0)|exists (SNumber true 1 0)|exists (SDate 1 1 1 1 1 1 1)
    |exists (SDate 1 1 1 1 1 1 1)|exists (SDate 1 1 1 1 1 1 1)|exists (STime 0)]; eexists; reflexivity.
Qed.
Lemma settings_ok fs w : forallb (fun p => negb (str_eqb (nm_name (snd p)) [])) fs = true ->
  exists w', settings fs w = Ok w' /\ (forall f k, style f k (wb_styles w') = match found_in f k (fs ++ default_cells) with Some s => Some s | None => style f k (wb_styles w) end)
    /\ forall t, wb_def w' t = Some (match t with VtBoolean => default_style KBool | VtNumber => default_style KNumber | VtPercentage => default_style KPercent
         | VtCurrency => default_style KCurrency | VtDateTime => default_style KDate | VtTimeDuration => default_style KInterval end).
Proof.
  intros H. unfold settings. destruct (add_all_style (fs ++ default_cells) (wb_styles w)) as (b & E & Sb).
  { rewrite forallb_app, H. reflexivity. }
  rewrite E. cbn [bind]. eexists. split; [reflexivity|]. split; [exact Sb|]. intros []; reflexivity.
Qed.
Definition loc_formats (l : known) : list (family * named body) := map (fun d => (loc_family d, as_body (loc_format l d))) all_kinds.
Lemma locale_settings_of l w : locale_settings (locale_of l) w = settings (loc_formats l) w.
Proof. destruct l; reflexivity. Qed.
Lemma loc_formats_named l : forallb (fun p => negb (str_eqb (nm_name (snd p)) [])) (loc_formats l) = true.
Proof. destruct l; reflexivity. Qed.

(** A default style after [locale_settings]: it names a format, the only one of this name if there was none before, that shows the values
    of the kind as it should: bool, number, percentage, currency and date in each locale, and in en-US all but the date and time. *)
Theorem C59_resolves c l k w : In k [KBool; KNumber; KPercent; KCurrency; KDate] \/ l = EnUs /\ k <> KDatetime ->
  (forall g, is_format g = true -> style g (default_format k) (wb_styles w) = None) ->
  exists w', locale_settings (locale_of l) w = Ok w' /\ resolves (wb_styles w') (fun v t => expected c l k v = t) c (default_style k).
Proof.
  intros K Fr. destruct (settings_ok (loc_formats l) w (loc_formats_named l)) as (w' & E & Sb & _).
  exists w'. split; [rewrite locale_settings_of; exact E|].
  exists (default_format k), (loc_family k), OContent, UAutomatic, (body_of (loc_format l k)).
  assert (Dt : k = KDatetime -> l <> EnUs) by (intros ->; destruct K as [K|[_ K]]; [cbn in K; intuition discriminate|contradiction]).
  split; [|split; [|split; [|split; [|split]]]].
  - exists OContent, UAutomatic, (SBody [(lit "style:data-style-name", default_format k)] [] [] [] None None). rewrite Sb. destruct l, k; (split; [vm_compute; reflexivity|reflexivity]).
  - destruct k; reflexivity.
  - rewrite Sb. destruct K as [K|[-> K]].
    + destruct k; try (cbn in K; intuition discriminate); destruct l; vm_compute; reflexivity.
    + destruct k; try contradiction; vm_compute; reflexivity.
  - intros g G Ng. rewrite Sb, (Fr g G). destruct K as [K|[-> K]].
    + destruct k; try (cbn in K; intuition discriminate); destruct g; try discriminate G; try (exfalso; apply Ng; reflexivity); destruct l; vm_compute; reflexivity.
    + destruct k; try contradiction; destruct g; try discriminate G; try (exfalso; apply Ng; reflexivity); vm_compute; reflexivity.
  - apply expected_some.
  - intros v t. apply loc_shows. exact Dt.
Qed.
Example C59_resolves_ex : exists w, new_book (locale_of DeAt) = Ok w
  /\ forall n o u b, style FmtCurrency n (wb_styles w) = Some (Named n (BFormat o u b)) -> n = lit "currency1"
     -> shows plain_consumer FmtCurrency b (SNumber true 12345 1) = Some ([45; 8364] ++ lit " 1234.50").
Proof.
  destruct (settings_ok (loc_formats DeAt) (WBook book0 (fun _ => None)) eq_refl) as (w & E & Sb & _). exists w.
  split; [unfold new_book; rewrite locale_settings_of; exact E|]. intros n o u b H ->. rewrite Sb in H. vm_compute in H. injection H as <- <- <-.
  vm_compute. reflexivity.
Qed.

(** The date and time of en-US has the days first, unlike its date. *)
Theorem C59_en_us_datetime c w : (forall g, is_format g = true -> style g (default_format KDatetime) (wb_styles w) = None) ->
  exists w', locale_settings (locale_of EnUs) w = Ok w'
  /\ resolves (wb_styles w') (fun v t => exists y mo d h mi s ns, v = SDate y mo d h mi s ns /\ t = Some (D_M_Y y mo d ++ lit " " ++ H_M_S h mi s)) c (default_style KDatetime).
Proof.
  intros Fr. destruct (settings_ok (loc_formats EnUs) w (loc_formats_named EnUs)) as (w' & E & Sb & _).
  exists w'. split; [rewrite locale_settings_of; exact E|].
  exists (default_format KDatetime), FmtDateTime, OContent, UAutomatic, (body_of (loc_format EnUs KDatetime)).
  split; [|split; [reflexivity|split; [|split; [|split]]]].
  - exists OContent, UAutomatic, (SBody [(lit "style:data-style-name", default_format KDatetime)] [] [] [] None None). rewrite Sb. split; [vm_compute; reflexivity|reflexivity].
  - rewrite Sb. vm_compute. reflexivity.
  - intros g G Ng. rewrite Sb, (Fr g G). destruct g; try discriminate G; try (exfalso; apply Ng; reflexivity); vm_compute; reflexivity.
  - exists (SDate 1 1 1 1 1 1 1), (D_M_Y 1 1 1 ++ lit " " ++ H_M_S 1 1 1). exists 1, 1, 1, 1, 1, 1, 1. auto.
  - intros v t (y & mo & d & h & mi & s & ns & -> & T). injection T as ->. apply (C58_loc_datetime c (default_format KDatetime) (locale_of EnUs)).
Qed.
Theorem C59_en_us_datetime_refuted : exists w c k v t, new_book (locale_of EnUs) = Ok w /\ expected c EnUs k v = Some t
  /\ ~ resolves (wb_styles w) (fun v t => expected c EnUs k v = t) c (default_style k).
Proof.
  destruct (settings_ok (loc_formats EnUs) (WBook book0 (fun _ => None)) eq_refl) as (w & E & Sb & _). exists w.
  exists plain_consumer, KDatetime, (SDate 2024 1 2 3 4 5 0). eexists.
  split; [unfold new_book; rewrite locale_settings_of; exact E|]. split; [reflexivity|].
  intros (n & f & o & u & b & (o1 & u1 & sb & S1 & V1) & F & Sf & _ & _ & X). rewrite Sb in S1, Sf. vm_compute in S1. injection S1 as <- <- <-. vm_compute in V1. injection V1 as <-.
  destruct f; try discriminate F; vm_compute in Sf; try discriminate Sf. injection Sf as <- <- <-.
  specialize (X (SDate 2024 1 2 3 4 5 0) _ eq_refl). vm_compute in X. discriminate X.
Qed.

(** In en, cs-CZ and de-AT the formats of the time of day and of intervals have the name of the date and time. In a workbook without formats
    of these names: the default styles of the two name a format that is not there, that of the date and time shows the time only, and two
    formats have its name. *)
Theorem C59_lost c l w : l <> EnUs -> (forall g k, is_format g = true -> style g (default_format k) (wb_styles w) = None) ->
  exists w', locale_settings (locale_of l) w = Ok w'
  /\ (forall k, names (wb_styles w') (default_style k) (default_format k))
  /\ (forall g, is_format g = true -> style g (default_format KTime) (wb_styles w') = None /\ style g (default_format KInterval) (wb_styles w') = None)
  /\ (exists o u b, style FmtDateTime (default_format KDatetime) (wb_styles w') = Some (Named (default_format KDatetime) (BFormat o u b))
       /\ forall y mo d h mi s ns, shows c FmtDateTime b (SDate y mo d h mi s ns) = Some (H_M_S h mi s))
  /\ (exists o u b, style FmtTimeDuration (default_format KDatetime) (wb_styles w') = Some (Named (default_format KDatetime) (BFormat o u b))).
Proof.
  intros L Fr. destruct (settings_ok (loc_formats l) w (loc_formats_named l)) as (w' & E & Sb & _).
  exists w'. split; [rewrite locale_settings_of; exact E|]. split; [|split; [|split]].
  - intros k. exists OContent, UAutomatic, (SBody [(lit "style:data-style-name", default_format k)] [] [] [] None None). rewrite Sb.
    destruct l, k; (split; [vm_compute; reflexivity|reflexivity]).
  - intros g G. rewrite !Sb, (Fr g KTime G), (Fr g KInterval G). destruct l; try contradiction; destruct g; try discriminate G; vm_compute; auto.
  - exists OContent, UAutomatic, (body_of (loc_format l KTime)). split.
    + rewrite Sb. destruct l; try contradiction; vm_compute; reflexivity.
    + intros y mo d h mi s ns. replace (H_M_S h mi s) with (clock c l h mi s) by (destruct l; try contradiction; reflexivity).
      apply (loc_shows c l KTime (SDate y mo d h mi s ns)); [discriminate|reflexivity].
  - exists OContent, UAutomatic, (body_of (loc_format l KInterval)). rewrite Sb. destruct l; try contradiction; vm_compute; reflexivity.
Qed.
Theorem C59_lost_refuted : exists l w c k v t, new_book l = Ok w /\ l = locale_of En /\ expected c En k v = Some t
  /\ ~ resolves (wb_styles w) (fun v t => expected c En k v = t) c (default_style k).
Proof.
  destruct (settings_ok (loc_formats En) (WBook book0 (fun _ => None)) eq_refl) as (w & E & Sb & _). exists (locale_of En), w.
  exists plain_consumer, KInterval, (STime 0). eexists. split; [unfold new_book; rewrite locale_settings_of; exact E|]. split; [reflexivity|]. split; [reflexivity|].
  intros (n & f & o & u & b & (o1 & u1 & sb & S1 & V1) & F & Sf & _). rewrite Sb in S1, Sf. vm_compute in S1. injection S1 as <- <- <-. vm_compute in V1. injection V1 as <-.
  destruct f; try discriminate F; vm_compute in Sf; discriminate Sf.
Qed.

(** Nothing else changes: styles and formats of other names or kinds stay, and each type of value has its default style. *)
Theorem C59_frame l w : exists w', locale_settings l w = Ok w'
  /\ (forall f k, (forall d, f = FCell -> k <> default_style d) -> (forall d, is_format f = true -> k <> default_format d) -> style f k (wb_styles w') = style f k (wb_styles w))
  /\ (forall t, wb_def w' t = Some (match t with VtBoolean => lit "default-bool" | VtNumber => lit "default-num" | VtPercentage => lit "default-percent"
         | VtCurrency => lit "default-currency" | VtDateTime => lit "default-date" | VtTimeDuration => lit "default-interval" end)).
Proof.
  set (fs := match localized_format l with Some k => loc_formats k | None => [] end).
  destruct (settings_ok fs w) as (w' & E & Sb & Df).
  { unfold fs. destruct (localized_format l) as [k|]; [apply loc_formats_named|reflexivity]. }
  exists w'. split; [exact E|]. split; [|intros t; rewrite Df; destruct t; reflexivity].
  intros f k C F. rewrite Sb.
  assert (X : forall n g s L, found_in g n L = Some s -> In g (map fst L) /\ exists s', In (g, s') L /\ nm_name s' = n).
  { intros n g s L. induction L as [|[g0 s0] r IH]; cbn; [discriminate|]. destruct (found_in g n r) as [x|] eqn:Ex.
    - intros Q. destruct (IH Q) as [A (s' & B & B')]. split; [tauto|]. exists s'. tauto.
    - destruct (family_eqb g0 g && str_eqb (nm_name s0) n) eqn:Eq; [|discriminate]. intros _. apply andb_prop in Eq. destruct Eq as [E1 E2].
      assert (g0 = g) as -> by (destruct g0, g; try discriminate E1; reflexivity). apply str_eqb_eq in E2. split; [tauto|]. exists s0. tauto. }
  destruct (found_in f k (fs ++ default_cells)) as [s|] eqn:Ef; [|reflexivity]. exfalso. apply X in Ef. destruct Ef as (_ & s' & I & Nm).
  apply in_app_or in I. destruct I as [I|I].
  - unfold fs in I. destruct (localized_format l) as [q|]; [|destruct I]. unfold loc_formats in I. apply in_map_iff in I. destruct I as (d & Ed & _).
    injection Ed as <- <-.
    assert (G : is_format (loc_family d) = true) by (destruct d; reflexivity).
    assert (Hn : exists d', nm_name (as_body (loc_format q d)) = default_format d').
    { destruct q, d; try (eexists; reflexivity); try (exists KDatetime; reflexivity); try (exists KTime; reflexivity); exists KInterval; reflexivity. }
    destruct Hn as [d' Hn]. rewrite Hn in Nm. apply (F d' G). symmetry. exact Nm.
  - unfold default_cells in I. apply in_map_iff in I. destruct I as (d & Ed & _). injection Ed as <- <-. apply (C d eq_refl). symmetry. exact Nm.
Qed.
Example C59_frame_ex : exists w, locale_settings (locale_of EnUs) (WBook (Book [] (fun f => match f with FCell => [(lit "mine", new_cellstyle (lit "mine") [])] | _ => [] end)) (fun _ => None)) = Ok w
  /\ style FCell (lit "mine") (wb_styles w) = Some (new_cellstyle (lit "mine") []).
Proof.
  match goal with |- exists w, locale_settings _ ?b = _ /\ _ => destruct (settings_ok (loc_formats EnUs) b eq_refl) as (w & E & Sb & _) end.
  exists w. split; [rewrite locale_settings_of; exact E|]. rewrite Sb. vm_compute. reflexivity.
Qed.

(** A locale there is no data for: the default styles name formats, none of which is added. *)
Theorem C59_unsupported l w : (forall k, l <> locale_of k) -> exists w', locale_settings l w = Ok w'
  /\ (forall k, names (wb_styles w') (default_style k) (default_format k)) /\ forall g k, is_format g = true -> style g k (wb_styles w') = style g k (wb_styles w).
Proof.
  intros U. assert (N0 : localized_format l = None).
  { assert (E : forall a b, locale_eqb a b = true -> a = b).
    { intros [a1 a2 a3 a4] [b1 b2 b3 b4] H. unfold locale_eqb in H. cbn in H. apply andb_prop in H. destruct H as [H H4]. apply andb_prop in H. destruct H as [H H3].
      apply andb_prop in H. destruct H as [H1 H2]. apply str_eqb_eq in H1, H4.
      assert (O : forall x y, opt_eqb x y = true -> x = y) by (intros [x|] [y|] Q; cbn in Q; try discriminate Q; [f_equal; apply str_eqb_eq; exact Q|reflexivity]).
      apply O in H2, H3. subst. reflexivity. }
    unfold localized_format. destruct (locale_eqb l (locale_of En)) eqn:E1; [apply E in E1; destruct (U En E1)|].
    destruct (locale_eqb l (locale_of CsCz)) eqn:E2; [apply E in E2; destruct (U CsCz E2)|].
    destruct (locale_eqb l (locale_of DeAt)) eqn:E3; [apply E in E3; destruct (U DeAt E3)|].
    destruct (locale_eqb l (locale_of EnUs)) eqn:E4; [apply E in E4; destruct (U EnUs E4)|]. reflexivity. }
  unfold locale_settings. rewrite N0. destruct (settings_ok [] w eq_refl) as (w' & E & Sb & _). exists w'. split; [exact E|]. split.
  - intros k. exists OContent, UAutomatic, (SBody [(lit "style:data-style-name", default_format k)] [] [] [] None None). rewrite Sb.
    destruct k; (split; [vm_compute; reflexivity|reflexivity]).
  - intros g k G. rewrite Sb. destruct g; try discriminate G; reflexivity.
Qed.
Example C59_unsupported_ex : forall k, Locale (lit "fr") None (Some (lit "FR")) [] <> locale_of k.
Proof. intros []; discriminate. Qed.

(** [create_default_styles] adds formats for all eight. The time of day is a length of time here. *)
Definition expected_old (c : consumer) (k : kind) (v : value) : option str :=
  match k, v with
  | KNumber, SNumber neg m d => Some (sign neg ++ amount c (c_min_integer c) (c_min_places c 2) 2 false m d)
  | KPercent, SNumber neg m d => Some (sign neg ++ amount c (c_min_integer c) 2 2 false (m * 100) d ++ lit "%")
  | KCurrency, SNumber neg m d => Some (sign neg ++ [8364] ++ lit " " ++ amount c (c_min_integer c) 2 2 true m d)
  | KDatetime, SDate y mo d h mi s _ => Some (Y_M_D y mo d ++ lit " " ++ H_M_S h mi s)
  | KTime, STime t => Some (at_least 2 (t / 1000000000 / 3600 mod 24) ++ lit ":" ++ digits 2 (t / 1000000000 / 60 mod 60) ++ lit ":" ++ digits 2 (t / 1000000000 mod 60))
  | (KBool | KDate | KInterval), v => expected c DeAt k v
  | _, _ => None
  end.
Theorem C59_old c k w : (forall g, is_format g = true -> style g (default_format k) (wb_styles w) = None) ->
  exists w', create_default_styles w = Ok w' /\ resolves (wb_styles w') (fun v t => expected_old c k v = t) c (default_style k).
Proof.
  intros Fr. destruct (settings_ok default_formats w eq_refl) as (w' & E & Sb & _). exists w'. split; [exact E|].
  set (fk := match k with KTime => FmtTimeDuration | _ => loc_family k end).
  set (bk := match k with
    | KBool => create_boolean_format (default_format KBool) | KNumber => create_number_format (default_format KNumber) 2 false
    | KPercent => create_percentage_format (default_format KPercent) 2 | KCurrency => create_currency_prefix (default_format KCurrency) (locale_of DeAt) [8364]
    | KDate => create_date_dmy_format (default_format KDate) | KDatetime => create_datetime_format (default_format KDatetime)
    | KTime => create_time_of_day_format (default_format KTime) | KInterval => create_time_interval_format (default_format KInterval) end).
  exists (default_format k), fk, OContent, UAutomatic, (body_of bk).
  split; [|split; [|split; [|split; [|split]]]].
  - exists OContent, UAutomatic, (SBody [(lit "style:data-style-name", default_format k)] [] [] [] None None). rewrite Sb. destruct k; (split; [vm_compute; reflexivity|reflexivity]).
  - destruct k; reflexivity.
  - rewrite Sb. destruct k; vm_compute; reflexivity.
  - intros g G Ng. rewrite Sb, (Fr g G). destruct k; destruct g; try discriminate G; try (exfalso; apply Ng; reflexivity); vm_compute; reflexivity.
  - destruct k; [exists (SBool true)|exists (SNumber true 1 0)|exists (SNumber true 1 0)|exists (SNumber true 1 0)|exists (SDate 1 1 1 1 1 1 1)
    |exists (SDate 1 1 1 1 1 1 1)|exists (STime 0)|exists (STime 0)]; eexists; reflexivity.
  - intros v t X. destruct k, v; try discriminate X; cbn in X; injection X as <-.
    + exact (proj1 (C58_boolean c (default_format KBool) unknown b)).
    + exact (proj1 (C58_number c (default_format KNumber) unknown 2 false neg m d)).
    + exact (proj1 (C58_percentage c (default_format KPercent) unknown 2 neg m d)).
    + refine (proj1 (C58_currency c (default_format KCurrency) unknown (locale_of DeAt) [8364] neg m d _)).
      exists 8364. split; [left; reflexivity|cbn; intuition discriminate].
    + exact (proj1 (proj2 (C58_date c (default_format KDate) unknown y mo d h mi s ns))).
    + exact (proj2 (proj2 (proj2 (proj2 (proj2 (C58_date c (default_format KDatetime) unknown y mo d h mi s ns)))))).
    + exact (proj1 (C58_time c (default_format KTime) unknown ns)).
    + exact (proj1 (proj2 (proj2 (C58_time c (default_format KInterval) unknown ns)))).
Qed.
Example C59_old_ex : exists w, create_default_styles (WBook book0 (fun _ => None)) = Ok w /\ names (wb_styles w) (lit "default-interval") (lit "interval1")
  /\ style FmtTimeDuration (lit "interval1") (wb_styles w) <> None.
Proof.
  destruct (settings_ok default_formats (WBook book0 (fun _ => None)) eq_refl) as (w & E & Sb & _). exists w. split; [exact E|].
  split; [do 3 eexists; rewrite Sb; split; vm_compute; reflexivity|rewrite Sb; vm_compute; discriminate].
Qed.

Print Assumptions C57_builder.
Print Assumptions C57_attr_map.
Print Assumptions C57_fraction_no_integer.
Print Assumptions C57_fraction_refuted.
Print Assumptions C57_push_fraction_refuted.
Print Assumptions C57_locale_twice_refuted.
Print Assumptions C58_loc_currency_prefix_refuted.
Print Assumptions C58_loc_datetime_refuted.
Print Assumptions C59_resolves.
Print Assumptions C59_en_us_datetime.
Print Assumptions C59_en_us_datetime_refuted.
Print Assumptions C59_lost.
Print Assumptions C59_lost_refuted.
Print Assumptions C59_frame.
Print Assumptions C59_unsupported.
Print Assumptions C59_old.
Print Assumptions C58_boolean.
Print Assumptions C58_number.
Print Assumptions C58_number_fixed.
Print Assumptions C58_percentage.
Print Assumptions C58_currency.
Print Assumptions C58_date.
Print Assumptions C58_loc_datetime.
Print Assumptions C58_time.

(** C26-C29: durations, dates, integers, enumerations and lengths as text. *)
From Verif Require Import Base Lib RefsModel RefsSpec CellModel HeaderModel NumModel NumSpec NumProofs EnumModel.

(** ** C26 Durations *)

(** The duration parser accepts exactly the duration texts whose value is in range. *)
Theorem C26_parse s ns : parse_duration s = Ok ns <-> duration_text s ns /\ duration_range ns.
Proof. exact (parse_duration_iff s ns). Qed.
(** It panics only for duration texts out of range ... *)
Theorem C26_panic s : parse_duration s = Panic -> exists ns, duration_text s ns /\ ~ duration_range ns.
Proof. exact (parse_duration_panic s). Qed.
(** ... and there it does. *)
Theorem C26_panic_refuted : exists s, parse_duration s = Panic.
Proof. exists (lit "P106751991167DT24H"). vm_compute. reflexivity. Qed.
(** Non-negative durations survive exactly when they are whole milliseconds whose last three
    digits are 000 or at least 100. *)
Theorem C26_survives ns : (0 <= ns)%Z -> duration_range ns ->
  parse_duration (format_duration2 ns) = Ok ns <->
  (ns mod 1000000 = 0 /\ (ns / 1000000 mod 1000 = 0 \/ 100 <= ns / 1000000 mod 1000))%Z.
Proof.
  intros H R. rewrite (format_outcome ns H R). cbv zeta.
  set (ms := (ns / 1000000 mod 1000)%Z). assert (B : (0 <= ms < 1000)%Z) by (subst ms; lia).
  assert (E : (ns = ns / 1000000000 * 1000000000 + ms * 1000000 + ns mod 1000000)%Z).
  { assert (D : (ns / 1000000000 = ns / 1000000 / 1000)%Z) by (rewrite Z.div_div by lia; reflexivity). subst ms. lia. }
  set (q := (ns / 1000000000)%Z) in *. assert (M : (0 <= ns mod 1000000 < 1000000)%Z) by lia. set (l := (ns mod 1000000)%Z) in *. clearbody ms q l.
  split.
  - destruct (_ <=? _)%Z; [|discriminate]. intros Q. assert (Q' : (q * 1000000000 + read_ms ms = ns)%Z) by congruence.
    unfold read_ms in Q'. destruct (ms <? 10)%Z eqn:A; [|destruct (ms <? 100)%Z eqn:A2]; lia.
  - intros (L & C). assert (Q : read_ms ms = (ms * 1000000)%Z).
    { unfold read_ms. destruct (ms <? 10)%Z eqn:A; [|destruct (ms <? 100)%Z eqn:A2]; lia. }
    rewrite Q. replace (_ <=? _)%Z with true; [f_equal; lia|]. symmetry. unfold duration_range, dur_max, i64_max in *. lia.
Qed.
(** What comes back otherwise: the milliseconds without their leading zeros. *)
Theorem C26_outcome ns : (0 <= ns)%Z -> duration_range ns ->
  let v := (ns / 1000000000 * 1000000000 + read_ms (ns / 1000000 mod 1000))%Z in
  parse_duration (format_duration2 ns) = if (v <=? dur_max)%Z then Ok v else Panic.
Proof. exact (format_outcome ns). Qed.
(** Negative durations of a millisecond and more make the file unreadable. *)
Theorem C26_negative ns : (ns <= -1000000)%Z -> parse_duration (format_duration2 ns) = Err.
Proof. intros H. apply parse_negative, format_negative, H. Qed.
Theorem C26_leading_zero_refuted : exists ns v, (0 <= ns)%Z /\ duration_range ns /\ ns <> v /\
  parse_duration (format_duration2 ns) = Ok v.
Proof. exists 1050000000%Z, 1500000000%Z. repeat split; vm_compute; congruence || reflexivity. Qed.
Theorem C26_negative_refuted : exists ns, duration_range ns /\ parse_duration (format_duration2 ns) = Err.
Proof. exists (-3600000000000)%Z. split; [split; vm_compute; discriminate|reflexivity]. Qed.
Example C26_ex : format_duration2 3725250000000 = lit "PT1H2M5.250S"
  /\ parse_duration (lit "PT1H2M5.250S") = Ok 3725250000000%Z
  /\ parse_duration (lit "P2DT3M0.0000000019S") = Ok (2 * 86400000000000 + 180000000000 + 1)%Z
  /\ parse_duration (lit "P1Y") = Err.
Proof. vm_compute. auto. Qed.

(** ** C27 Dates *)

(** Every valid date-time up to the year 9999 survives, leap seconds included. *)
Theorem C27_survives d : valid_datetime d -> (dt_year d <= 9999)%Z -> parse_datetime (format_datetime d) = Ok d.
Proof.
  intros V H. destruct (printed_denotes d V) as (D & S & N).
  rewrite (parse_datetime_shape _ _ (format_shape d H) S). f_equal. now apply (resolve_spec (printed d) S N).
Qed.
(** Later years are written with a sign the parser rejects. *)
Theorem C27_late_years d : (9999 < dt_year d)%Z -> parse_datetime (format_datetime d) = Err.
Proof. exact (format_big_year d). Qed.
Theorem C27_late_year_refuted : exists d, valid_datetime d /\ parse_datetime (format_datetime d) = Err.
Proof.
  exists (DateTime 10000 1 1 0 0 0 0). split; [|reflexivity].
  apply datetime_ok_valid. vm_compute. reflexivity.
Qed.
(** Only texts of the right shape are accepted. *)
Theorem C27_shape t d : parse_datetime t = Ok d -> exists f, datetime_shape t f.
Proof. exact (parse_datetime_inv t d). Qed.
(** A text of that shape gives the date-time its fields denote, and 1970-01-01T00:00:00 if
    they denote none. *)
Theorem C27_parse t f d : datetime_shape t f -> small_fields f -> denotes f d -> parse_datetime t = Ok d.
Proof.
  intros H S D. rewrite (parse_datetime_shape t f H S). f_equal. apply (resolve_spec f S); auto.
  destruct D as (_ & _ & _ & _ & _ & _ & [D|D]); tauto.
Qed.
Theorem C27_invalid t f : datetime_shape t f -> small_fields f -> (forall d, ~ denotes f d) ->
  parse_datetime t = Ok (DateTime 1970 1 1 0 0 0 0).
Proof.
  intros H S D. rewrite (parse_datetime_shape t f H S). f_equal. apply (resolve_spec f S); auto.
  destruct H as (_ & _ & _ & _ & _ & ct & _ & _ & _ & _ & Hc & _). apply clock_text_parts in Hc as [(_ & _ & _ & _ & ->)|(fr & Hc & ->)]; [lia|].
  eapply frac_bound; eauto.
Qed.
(** So invalid dates are not rejected. *)
Theorem C27_reject_refuted : exists t f, datetime_shape t f /\ (forall d, ~ denotes f d) /\
  parse_datetime t = Ok (DateTime 1970 1 1 0 0 0 0).
Proof.
  exists (lit "2021-02-30"), (Fields 2021 2 30 0 0 0 0). split; [|split; [|vm_compute; reflexivity]].
  - exists false, (lit "2021"), 2021, (lit "02"), (lit "30"), [], false.
    repeat split; try discriminate; try (repeat constructor; vm_compute; congruence).
  - intros d (V & E1 & E2 & E3 & _). cbn in E1, E2, E3. destruct V as [_ _ V _ _ _ _]. rewrite E1, E2, E3 in V. vm_compute in V. destruct V as [_ V]. congruence.
Qed.
(** Numbers beyond 32 bits are cut off before the check. *)
Theorem C27_wraps_refuted : exists t, parse_datetime t = Ok (DateTime 2021 1 5 0 0 0 0) /\ t = lit "2021-4294967297-05".
Proof. eexists. split; [|reflexivity]. vm_compute. reflexivity. Qed.
Definition leap : datetime := DateTime (-44) 3 15 23 59 59 1000500000.
Example C27_ex : valid_datetime leap /\ format_datetime leap = lit "-0044-03-15T23:59:60.000500"
  /\ parse_datetime (lit "2020-02-29T06:07:08.5Z") = Ok (DateTime 2020 2 29 6 7 8 500000000)
  /\ parse_datetime (lit "2020-02") = Err.
Proof. split; [apply datetime_ok_valid; vm_compute; reflexivity|]. vm_compute. auto. Qed.

(** ** C28 Integers *)
Theorem C28_u32 s n : parse_u32 s = Ok n <-> numeral s n /\ n <= 4294967295.
Proof. exact (parse_u32_ok s n). Qed.
Theorem C28_i16 s z : parse_i16 s = Ok z <-> int_text s z /\ (-32768 <= z <= 32767)%Z.
Proof. exact (parse_int_ok _ _ s z). Qed.
Theorem C28_i32 s z : parse_i32 s = Ok z <-> int_text s z /\ (-2147483648 <= z <= 2147483647)%Z.
Proof. exact (parse_int_ok _ _ s z). Qed.
Theorem C28_i64 s z : parse_i64 s = Ok z <-> int_text s z /\ (-9223372036854775808 <= z <= 9223372036854775807)%Z.
Proof. exact (parse_int_ok _ _ s z). Qed.
Theorem C28_no_panic s : parse_u32 s <> Panic /\ parse_i16 s <> Panic /\ parse_i32 s <> Panic /\ parse_i64 s <> Panic.
Proof. split; [apply parse_u32_no_panic|]. repeat split; apply parse_int_no_panic. Qed.
Theorem C28_roundtrip :
  (forall n, n <= 4294967295 -> parse_u32 (show_N n) = Ok n) /\
  (forall z, (-32768 <= z <= 32767)%Z -> parse_i16 (show_Z z) = Ok z) /\
  (forall z, (-2147483648 <= z <= 2147483647)%Z -> parse_i32 (show_Z z) = Ok z) /\
  (forall z, (-9223372036854775808 <= z <= 9223372036854775807)%Z -> parse_i64 (show_Z z) = Ok z).
Proof.
  split; [|repeat split]; intros.
  - apply C28_u32. split; [apply show_N_numeral|auto].
  - apply C28_i16. split; [apply show_Z_text|auto].
  - apply C28_i32. split; [apply show_Z_text|auto].
  - apply C28_i64. split; [apply show_Z_text|auto].
Qed.
(** The printed text is the numeral without leading zeros. *)
Theorem C28_shortest n : shortest (show_N n) n.
Proof. exact (show_N_ok n). Qed.
Example C28_ex : parse_u32 (lit "4294967295") = Ok 4294967295 /\ parse_u32 (lit "4294967296") = Err
  /\ parse_u32 (lit "+1") = Err /\ parse_i16 (lit "-32768") = Ok (-32768)%Z /\ parse_i16 (lit "--1") = Err
  /\ show_N 4294967295 = lit "4294967295" /\ show_Z (-120) = lit "-120" /\ show_N 0 = lit "0" /\ parse_i64 (lit "-") = Err.
Proof. vm_compute. repeat split. Qed.

(** ** C29 Enumerations *)

(** Names and values are in one-to-one correspondence and nothing else is accepted. *)
Definition names_agree {A} (show : A -> str) (parse : str -> res A) : Prop :=
  forall s v, parse s = Ok v <-> s = show v.
(** The names of the OpenDocument standard. *)
Definition named {A} (show : A -> str) (l : list (A * string)) : Prop :=
  (forall v, exists n, In (v, n) l) /\ Forall (fun p => show (fst p) = lit (snd p)) l.

Lemma arms_ok {A} (l : list (str * A)) (show : A -> str) :
  Forall (fun p => fst p = show (snd p)) l -> (forall v, exists n, In (n, v) l) -> NoDup (map fst l) ->
  names_agree show (arms l).
Proof.
  intros H C ND s v. split.
  - intros E. clear C ND. induction l as [|[n w] l IH]; cbn in E; [discriminate|]. inversion H; subst. cbn in *.
    destruct (str_eqb s n) eqn:Q; [apply str_eqb_eq in Q; congruence|auto].
  - intros ->. destruct (C v) as (n & Hn).
    assert (En : n = show v) by (eapply Forall_forall in H; [|exact Hn]; exact H). subst n. clear C.
    induction l as [|[n w] l IH]; [destruct Hn|]. cbn. inversion H; inversion ND; subst. cbn [fst snd] in *.
    destruct (str_eqb (show v) n) eqn:Q.
    + apply str_eqb_eq in Q. destruct Hn as [Hn|Hn]; [congruence|]. exfalso. apply H6. rewrite <- Q. now apply (in_map fst) in Hn.
    + apply IH; auto. destruct Hn as [Hn|Hn]; auto. inversion Hn; subst. rewrite str_eqb_refl in Q. discriminate.
Qed.
Ltac enum := apply arms_ok;
  [repeat constructor
  |intros []; eexists; cbn [In]; repeat ((left; reflexivity) || right)
  |repeat (constructor; [cbn [In map fst]; intros HH; repeat (destruct HH as [HH|HH]; [vm_compute in HH; discriminate|]); exact HH|]); constructor].

Theorem C29_visibility : names_agree show_visibility parse_visibility.
Proof. enum. Qed.
Theorem C29_xlink_show : names_agree show_xshow parse_xshow.
Proof. enum. Qed.
Theorem C29_xlink_type : names_agree show_xtype parse_xtype.
Proof. enum. Qed.
Theorem C29_message_type : names_agree show_msgtype parse_msgtype.
Proof. enum. Qed.
Theorem C29_format_source : names_agree show_fmtsource parse_fmtsource.
Proof. enum. Qed.
Theorem C29_transliteration : names_agree show_translit parse_translit.
Proof. enum. Qed.
Theorem C29_page_usage : names_agree show_pageusage parse_pageusage.
Proof. enum. Qed.
Theorem C29_split_mode n v : i16_splitmode n = Ok v <-> n = splitmode_i16 v.
Proof.
  unfold i16_splitmode. split.
  - destruct (n =? 0)%Z eqn:A; [intros E; inversion E; subst; cbn; lia|].
    destruct (n =? 1)%Z eqn:B; [intros E; inversion E; subst; cbn; lia|].
    destruct (n =? 2)%Z eqn:C; [intros E; inversion E; subst; cbn; lia|discriminate].
  - intros ->. destruct v; reflexivity.
Qed.
(** Two of the ten disagree: a validation without list display, and both link actuations. *)
Theorem C29_display v : v <> NoDisplay -> parse_vdisplay (show_vdisplay v) = Ok v.
Proof. destruct v; [congruence| |]; reflexivity. Qed.
Theorem C29_display_refuted : exists v, parse_vdisplay (show_vdisplay v) = Err.
Proof. exists NoDisplay. reflexivity. Qed.
Theorem C29_actuate v : parse_xactuate (show_xactuate v) = Err.
Proof. destruct v; reflexivity. Qed.
Theorem C29_actuate_refuted : exists v, parse_xactuate (show_xactuate v) <> Ok v.
Proof. exists OnLoad. discriminate. Qed.
(** The written names are those of the standard, except for these two. *)
Local Open Scope string_scope.
Theorem C29_standard :
  named show_visibility [(Visible, "visible"); (Collapsed, "collapse"); (Filtered, "filter")]
  /\ named show_xshow [(XNew, "new"); (XReplace, "replace")]
  /\ named show_msgtype [(MError, "stop"); (MWarning, "warning"); (MInfo, "information")]
  /\ named show_fmtsource [(FsFixed, "fixed"); (FsLanguage, "language")]
  /\ named show_translit [(TShort, "short"); (TMedium, "medium"); (TLong, "long")]
  /\ named show_pageusage [(PAll, "all"); (PLeft, "left"); (PMirrored, "mirrored"); (PRight, "right")]
  /\ show_vdisplay NoDisplay <> lit "none" /\ show_xactuate OnLoad <> lit "onLoad" /\ show_xactuate OnRequest <> lit "onRequest".
Proof.
  repeat split; try discriminate; try (repeat constructor);
  intros []; eexists; cbn [In]; repeat ((left; reflexivity) || right).
Qed.
Local Close Scope string_scope.
Example C29_ex : parse_visibility (lit "collapse") = Ok Collapsed /\ parse_visibility (lit "collapsed") = Err
  /\ parse_xtype (show_xtype XNone) = Ok XNone /\ i16_splitmode 3 = Err.
Proof. vm_compute. auto. Qed.

(** Lengths: every length with a finite value survives, the default length does not. *)
Lemma show_unit_len u : length (show_unit u) = 2%nat.
Proof. destruct u; reflexivity. Qed.
Lemma ends_with_unit v u t : length t = 2%nat -> ends_with (v ++ show_unit u) t = str_eqb (show_unit u) t.
Proof.
  intros H. unfold ends_with. rewrite app_length, show_unit_len, H. replace (length v + 2 - 2)%nat with (length v) by lia.
  rewrite skipn_app, skipn_all, Nat.sub_diag. cbn [skipn app].
  replace (Nat.leb 2 (length v + 2)) with true by (symmetry; apply Nat.leb_le; lia). apply andb_true_r.
Qed.
Theorem C29_length v u : float_text v = true -> parse_length (show_length (Len v u)) = Ok (Len v u).
Proof.
  intros F. unfold parse_length. cbn [show_length]. rewrite !ends_with_unit by reflexivity.
  assert (C : cut2 (v ++ show_unit u) = v).
  { unfold cut2. rewrite app_length, show_unit_len. replace (length v + 2 - 2)%nat with (length v) by lia.
    rewrite firstn_app, firstn_all, Nat.sub_diag. cbn [firstn]. apply app_nil_r. }
  rewrite C. unfold parse_f64. rewrite F. destruct u; reflexivity.
Qed.
Theorem C29_default_length_refuted : exists l, parse_length (show_length l) = Err.
Proof. exists LDefault. reflexivity. Qed.
Example C29_length_ex : float_text (lit "-12.5") = true /\ show_length (Len (lit "-12.5") Cm) = lit "-12.5cm"
  /\ parse_length (lit "3px") = Err /\ parse_length (lit "cm") = Err.
Proof. vm_compute. auto. Qed.

Print Assumptions C26_parse.
Print Assumptions C26_panic.
Print Assumptions C26_panic_refuted.
Print Assumptions C26_survives.
Print Assumptions C26_outcome.
Print Assumptions C26_negative.
Print Assumptions C26_leading_zero_refuted.
Print Assumptions C26_negative_refuted.
Print Assumptions C27_survives.
Print Assumptions C27_late_years.
Print Assumptions C27_late_year_refuted.
Print Assumptions C27_shape.
Print Assumptions C27_parse.
Print Assumptions C27_invalid.
Print Assumptions C27_reject_refuted.
Print Assumptions C27_wraps_refuted.
Print Assumptions C28_u32.
Print Assumptions C28_i16.
Print Assumptions C28_i32.
Print Assumptions C28_i64.
Print Assumptions C28_no_panic.
Print Assumptions C28_roundtrip.
Print Assumptions C28_shortest.
Print Assumptions C29_visibility.
Print Assumptions C29_xlink_show.
Print Assumptions C29_xlink_type.
Print Assumptions C29_message_type.
Print Assumptions C29_format_source.
Print Assumptions C29_transliteration.
Print Assumptions C29_page_usage.
Print Assumptions C29_split_mode.
Print Assumptions C29_display.
Print Assumptions C29_display_refuted.
Print Assumptions C29_actuate.
Print Assumptions C29_actuate_refuted.
Print Assumptions C29_standard.
Print Assumptions C29_length.
Print Assumptions C29_default_length_refuted.

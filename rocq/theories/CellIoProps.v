(** C30, C31, C46: one cell written to a file and read again. *)
From Coq Require Import Permutation.
From Verif Require Import Base Lib XmlModel XmlSpec XmlProofs CellModel NumModel NumSpec NumProofs CellIoModel CellIoSpec CellIoProofs DrawProofs RichProofs CellOrderProofs.

(** The characters written for the cell [c], [k] times, are parsed and read as a cell: number of
    columns and cell, if one is stored. [lb]: line breaks after end tags (flat files); [h]: covered;
    [ds]: default styles; [dflt]: default cell style of the column; [ign]: option to ignore empty cells. *)
Definition through_file (lb ign : bool) (dflt : option str) (ds : vtype -> option str) (c : cell) (h : bool) (k : N) : res (N * option cell) :=
  let* evs := read_events (render lb (write_cell ds c h k)) in
  let* (x, _) := read_table_cell ign dflt evs in Ok x.

Lemma through_read lb ds c h k : writable (c_value c) -> extra_ok c -> read_events (render lb (write_cell ds c h k)) = Ok (events_of lb (write_cell ds c h k)).
Proof.
  intros (Hp & Hx) He. assert (Hn : cell_names c) by now apply ok_names. apply read_events_render.
  - rewrite <- (app_nil_r (write_cell _ _ _ _)). apply sensible_cell; auto. constructor.
  - rewrite <- (app_nil_r (write_cell _ _ _ _)). apply nested_cell. reflexivity.
Qed.
Lemma through_events lb ign dflt ds c h k : writable (c_value c) -> extra_ok c -> 1 <= k <= u32_max ->
  exists d o v, kept lb c d /\ value_after lb (c_value c) v /\ through_file lb ign dflt ds c h k = Ok (k, o) /\ option_map cell_content o =
     (let K := result ds d v k in if void_b ign dflt K then None else Some K).
Proof.
  intros W He Hk. unfold through_file. rewrite through_read by assumption. destruct (body_any lb _ W) as (t & Hb & Hv).
  destruct (read_written_kept lb ign dflt ds c h k t He Hk (proj1 W) Hb) as (d & o & Hd & Ho & Co); [now apply flushes_any|].
  exists d, o, (found (c_value c) t). split; [exact Hd|]. split; [exact Hv|]. specialize (Ho []). rewrite app_nil_r in Ho. cbn [bind]. unfold events_of. rewrite Ho. cbn [bind]. eauto.
Qed.

(** The rest of the file does not matter: the reader stops after the cell. *)
Theorem C31_in_file : forall lb ign dflt ds c h k cs, writable (c_value c) -> extra_ok c -> 1 <= k <= u32_max ->
  exists o, through_file lb ign dflt ds c h k = Ok (k, o) /\
    option_map (fun x => (fst (fst x), option_map cell_content (snd (fst x)), snd x))
      (match read_table_cell ign dflt (events_of lb (write_cell ds c h k ++ cs)) with Ok x => Some x | _ => None end)
    = Some (k, option_map cell_content o, coalesce (EText (nl lb) :: asked esc_split lb None cs)).
Proof.
  intros lb ign dflt ds c h k cs W He Hk. destruct (body_any lb _ W) as (t & Hb & _).
  destruct (read_written_kept lb ign dflt ds c h k t He Hk (proj1 W) Hb) as (d & o & _ & Ho & _); [now apply flushes_any|].
  exists o. split; [|unfold events_of; now rewrite Ho]. unfold through_file. rewrite through_read by assumption.
  cbn [bind]. unfold events_of. specialize (Ho []). rewrite app_nil_r in Ho. now rewrite Ho.
Qed.

Lemma void_nothing ign dflt K : void_b ign dflt K = true <-> says_nothing dflt K \/ (ign = true /\ says_nothing (k_style K) K).
Proof.
  destruct K as [v st f k va sp m an fr]. unfold void_b, says_nothing. cbn [k_value k_style k_formula k_repeat k_validation k_span k_matrix k_annotation k_frames].
  assert (V : value_is_empty v = true <-> v = VEmpty) by (destruct v; cbn; split; congruence).
  assert (S : forall s, span_is_empty s = true <-> s = CSpan 1 1).
  { intros [a b]. unfold span_is_empty. cbn. rewrite andb_true_iff, !N.eqb_eq. split; [intros [-> ->]; reflexivity|intros E; inversion E; auto]. }
  assert (O : forall A (o : option A), negb (CellModel.is_some o) = true <-> o = None) by (intros A [a|]; cbn; split; congruence).
  assert (L : forall A (l : list A), is_nil l = true <-> l = []) by (intros A [|a l]; cbn; split; congruence).
  assert (T : negb (CellModel.is_some st && negb (ostr_eqb st dflt) && negb ign) = true <-> (st = None \/ st = dflt) \/ ign = true).
  { destruct st as [st|]; cbn [CellModel.is_some andb]; [|cbn; tauto]. rewrite negb_true_iff, andb_false_iff, !negb_false_iff.
    assert (E : ostr_eqb (Some st) dflt = true <-> Some st = dflt).
    { destruct dflt as [d|]; cbn; [|split; congruence]. rewrite str_eqb_eq. split; congruence. }
    rewrite E. split; [intros [H|H]; auto|intros [[H|H]|H]; auto; congruence]. }
  rewrite !andb_true_iff, V, T, !S, !O, L. destruct ign; split.
  - intros H. decompose [and] H. right. tauto.
  - intros [H|[_ H]]; decompose [and] H; tauto.
  - intros H. left. decompose [and or] H; try discriminate; tauto.
  - intros [H|[H _]]; [decompose [and] H; tauto|discriminate].
Qed.
Lemma not_void ign dflt K : k_value K <> VEmpty -> void_b ign dflt K = false.
Proof. intros H. unfold void_b. destruct (k_value K); try reflexivity. congruence. Qed.

(** ** C31 *)

(** Booleans, numbers, percentages, currency amounts, dates and durations keep type and payload,
    and the cell keeps formula, style (or gets the default style of its type), validation and spans. *)
Theorem C31_survives : forall lb ign dflt ds c h k, typed_ok (c_value c) -> extra_ok c -> 1 <= k <= u32_max ->
  exists d c', kept lb c d /\ through_file lb ign dflt ds c h k = Ok (k, Some c')
    /\ cell_content c' = content_with d (c_value c) (written_style ds c) k.
Proof.
  intros lb ign dflt ds c h k Ht He Hk.
  assert (W : writable (c_value c)) by (split; [|intros l E]; destruct (c_value c); cbn in *; auto; try contradiction; discriminate).
  destruct (through_events lb ign dflt ds c h k W He Hk) as (d & o & v & Hd & Hv & Ho & Co).
  assert (F : v = c_value c) by (destruct (c_value c); try exact Hv; contradiction).
  rewrite F in Co. cbv zeta in Co. rewrite not_void in Co.
  - destruct o as [c'|]; [|discriminate]. exists d, c'. split; [assumption|]. split; [assumption|]. cbn in Co. unfold result in Co. rewrite (kept_style lb ds c d Hd) in Co. now injection Co as Co.
  - cbn. intros E. now rewrite E in Ht.
Qed.

Definition C31_cell : cell :=
  Cell (VCurrency (lit "-12.5") (lit "EUR")) (Some (lit "of:=[.A1]<""x""&1")) None 7
    (Some (CExt (Some (lit "val1")) (CSpan 2 3) (CSpan 1 4) None [])).
Lemma C31_ex_number : number_text (lit "-12.5").
Proof.
  exists true, (lit "12"), (lit ".5"). split; [discriminate|]. split; [repeat constructor; vm_compute; congruence|].
  split; [right; exists (lit "5"); split; [discriminate|split; [repeat constructor; vm_compute; congruence|reflexivity]]|reflexivity].
Qed.
Example C31_survives_ex : typed_ok (c_value C31_cell) /\ extra_ok C31_cell /\
  through_file false false None (fun t => match t with TyCurrency => Some (lit "cur") | _ => None end) C31_cell false 7
  = Ok (7, Some (Cell (VCurrency (lit "-12.5") (lit "EUR")) (Some (lit "of:=[.A1]<""x""&1")) (Some (lit "cur")) 7
      (Some (CExt (Some (lit "val1")) (CSpan 2 3) (CSpan 1 4) None [])))).
Proof.
  split; [split; [apply C31_ex_number|]|split; [|vm_compute; reflexivity]].
  - repeat constructor; intros H; repeat (destruct H as [H|H]; [discriminate|]); contradiction.
  - split; [vm_compute; repeat split; intros H; discriminate|split; [discriminate|constructor]].
Qed.

(** An empty cell is stored with what it has, unless it has nothing but possibly the default style
    of its column, or any style if empty cells are to be ignored. *)
Theorem C31_empty : forall lb ign dflt ds c h k, c_value c = VEmpty -> extra_ok c -> 1 <= k <= u32_max ->
  exists d o, kept lb c d /\
  let K := content_with d VEmpty (written_style ds c) k in
  let nothing := says_nothing dflt K \/ (ign = true /\ says_nothing (k_style K) K) in
  through_file lb ign dflt ds c h k = Ok (k, o)
    /\ (nothing -> o = None) /\ (~ nothing -> option_map cell_content o = Some K).
Proof.
  intros lb ign dflt ds c h k Hv He Hk.
  assert (W : writable (c_value c)) by (rewrite Hv; split; [exact I|discriminate]).
  destruct (through_events lb ign dflt ds c h k W He Hk) as (d & o & v & Hd & Va & Ho & Co). rewrite Hv in Va. cbn [value_after] in Va. subst v.
  exists d, o. split; [exact Hd|]. intros K nothing. split; [assumption|]. unfold nothing. rewrite <- void_nothing. unfold result in Co. rewrite (kept_style lb ds c d Hd) in Co. fold K in Co. cbv zeta in Co. split; intros H.
  - rewrite H in Co. destruct o; [discriminate|reflexivity].
  - destruct (void_b ign dflt K); [congruence|]. exact Co.
Qed.
Example C31_empty_ex :
  through_file false false (Some (lit "ce1")) (fun _ => None) (Cell VEmpty None (Some (lit "ce1")) 1 None) false 3 = Ok (3, None) /\
  through_file false false (Some (lit "ce1")) (fun _ => None) (Cell VEmpty None (Some (lit "ce2")) 1 None) false 3
  = Ok (3, Some (Cell VEmpty None (Some (lit "ce2")) 3 None)) /\
  through_file false true (Some (lit "ce1")) (fun _ => None) (Cell VEmpty None (Some (lit "ce2")) 1 None) false 3 = Ok (3, None).
Proof. vm_compute. repeat split. Qed.

(** The order of the attributes does not matter, whatever the cell contains. *)
Theorem C31_order : forall ign dflt (start : bool) n a a' r k o rest, Permutation a a' -> NoDup (map fst a) ->
  let ev x := if start then EStart n x else EEmpty n x in
  read_table_cell ign dflt (ev a :: r) = Ok (k, o, rest) ->
  exists o', read_table_cell ign dflt (ev a' :: r) = Ok (k, o', rest) /\ option_map cell_content o' = option_map cell_content o.
Proof. exact read_any_order. Qed.
Example C31_order_ex :
  let a := [(lit "office:value-type", lit "float"); (lit "table:style-name", lit "ce1"); (lit "office:value", lit "7");
            (lit "table:number-columns-spanned", lit "2")] in
  NoDup (map fst a) /\
  read_table_cell false None [EEmpty t_cell a] = Ok (1, Some (Cell (VNumber (lit "7")) None (Some (lit "ce1")) 1 (Some (CExt None (CSpan 1 2) (CSpan 1 1) None []))), []) /\
  read_table_cell false None [EEmpty t_cell (rev a)] = read_table_cell false None [EEmpty t_cell a].
Proof.
  cbv zeta. split; [|vm_compute; split; reflexivity]. cbn [map fst].
  repeat (constructor; [cbn; intros H; repeat (destruct H as [H|H]; [discriminate|]); contradiction|]). constructor.
Qed.

(** The name of a currency is escaped when written, but not unescaped when read. *)
Theorem C31_currency_refuted : exists c c', c_value c = VCurrency (lit "1") (lit "A&B") /\
  through_file false false None (fun _ => None) c false 1 = Ok (1, Some c') /\ c_value c' = VCurrency (lit "1") (lit "A&amp;B").
Proof. exists (Cell (VCurrency (lit "1") (lit "A&B")) None None 1 None). eexists. vm_compute. repeat split. Qed.
(** A file with a negative duration cannot be read (see C26), nor one with a date after the year 9999 (see C27). *)
Theorem C31_duration_refuted : exists c, c_value c = VDuration (-5400000000000) /\
  through_file false false None (fun _ => None) c false 1 = Err.
Proof. exists (Cell (VDuration (-5400000000000)) None None 1 None). split; [reflexivity|]. vm_compute. reflexivity. Qed.
Theorem C31_late_date_refuted : exists c d, c_value c = VDateTime d /\ valid_datetime d /\ dt_year d = 10000%Z /\
  through_file false false None (fun _ => None) c false 1 = Err.
Proof.
  pose (d := DateTime 10000 1 1 0 0 0 0). exists (Cell (VDateTime d) None None 1 None), d.
  split; [reflexivity|]. split; [apply datetime_ok_valid; vm_compute; reflexivity|]. split; [reflexivity|]. vm_compute. reflexivity.
Qed.

(** ** C30 *)

Lemma text_found s ls : lines_of s ls -> found (VText s) (body_content (VText s)) = text_value ls.
Proof.
  intros H. cbn [body_content]. rewrite read_lines_found. f_equal. apply (lines_of_inj s); [apply split_lines_ok|assumption].
Qed.

(** What is read of a text cell, exactly: leading blank lines are lost, a single line is plain text,
    otherwise the value is a list of paragraphs without the blank lines. *)
Theorem C30_read : forall lb ign dflt ds c h k s ls, c_value c = VText s -> lines_of s ls -> extra_ok c -> 1 <= k <= u32_max ->
  exists d o, kept lb c d /\
  let K := content_with d (text_value ls) (written_style ds c) k in
  let nothing := says_nothing dflt K \/ (ign = true /\ says_nothing (k_style K) K) in
  through_file lb ign dflt ds c h k = Ok (k, o)
    /\ (nothing -> o = None) /\ (~ nothing -> option_map cell_content o = Some K).
Proof.
  intros lb ign dflt ds c h k s ls Hv Hl He Hk.
  assert (W : writable (c_value c)) by (rewrite Hv; split; [exact I|discriminate]).
  destruct (through_events lb ign dflt ds c h k W He Hk) as (d & o & v & Hd & Va & Ho & Co). rewrite Hv in Va. destruct Va as (ls' & L' & ->). rewrite (lines_of_inj s ls' ls L' Hl) in Co. unfold result in Co. rewrite (kept_style lb ds c d Hd) in Co.
  exists d, o. split; [exact Hd|]. intros K nothing. fold K in Co. split; [assumption|]. unfold nothing. rewrite <- void_nothing. cbv zeta in Co. split; intros H.
  - rewrite H in Co. destruct o; [discriminate|reflexivity].
  - destruct (void_b ign dflt K); [congruence|]. exact Co.
Qed.

Lemma drop_without ls : without_blank (drop_blank ls) = without_blank ls.
Proof. induction ls as [|l ls IH]; [reflexivity|]. cbn. destruct l; cbn; [exact IH|reflexivity]. Qed.
Lemma join_text l : join_paras (map (fun t => XTag (lit "text:p") [] [XText t]) l) = join [c_nl] l.
Proof.
  induction l as [|x l IH]; [reflexivity|]. destruct l as [|y l]; [cbn; now rewrite app_nil_r|].
  cbn [map join_paras join] in *. rewrite IH. cbn. now rewrite app_nil_r.
Qed.
Lemma text_of_value ls : as_cow_str_or [] (text_value ls) = join [c_nl] (without_blank ls).
Proof.
  rewrite <- drop_without. unfold text_value. assert (H : match drop_blank ls with [] => True | l :: _ => l <> [] end).
  { induction ls as [|l ls IH]; [exact I|]. cbn. destruct l; cbn; [exact IH|discriminate]. }
  destruct (drop_blank ls) as [|l [|y r]]; [reflexivity| |].
  - destruct l; [congruence|reflexivity].
  - destruct l as [|a l]; [congruence|]. unfold as_cow_str_or. rewrite join_text. reflexivity.
Qed.

(** As text, the value read is the text without its blank lines. *)
Theorem C30_lines : forall lb ign dflt ds c h k s ls, c_value c = VText s -> lines_of s ls -> extra_ok c -> 1 <= k <= u32_max ->
  exists o, through_file lb ign dflt ds c h k = Ok (k, o)
    /\ as_cow_str_or [] (match o with Some c' => c_value c' | None => VEmpty end) = join [c_nl] (without_blank ls).
Proof.
  intros lb ign dflt ds c h k s ls Hv Hl He Hk.
  destruct (C30_read lb ign dflt ds c h k s ls Hv Hl He Hk) as (d & o & _ & Ho & N & Y). exists o. split; [assumption|].
  set (K := content_with d (text_value ls) (written_style ds c) k) in *. destruct (void_b ign dflt K) eqn:V.
  - rewrite N by (now apply void_nothing). rewrite <- text_of_value. apply void_nothing in V as [V|[_ V]]; destruct V as (V & _); cbn in V; now rewrite V.
  - rewrite <- not_true_iff_false, void_nothing in V. specialize (Y V). destruct o as [c'|]; [|discriminate]. inversion Y as [E].
    rewrite <- text_of_value. f_equal. assert (Q : k_value (cell_content c') = c_value c') by (destruct c' as [? ? ? ? [|]]; reflexivity).
    rewrite <- Q, E. reflexivity.
Qed.

(** The text is the same again exactly if it has no blank line or is empty. *)
Lemma without_all ls : Forall (fun l => l <> []) ls -> without_blank ls = ls.
Proof. induction 1 as [|l ls H _ IH]; [reflexivity|]. cbn. destruct l; [congruence|]. cbn. f_equal. exact IH. Qed.
Lemma join_len ls : (length (join [c_nl] (without_blank ls)) <= length (join [c_nl] ls))%nat
  /\ (length (join [c_nl] (without_blank ls)) = length (join [c_nl] ls) -> Forall (fun l => l <> []) ls \/ ls = [] \/ ls = [[]])%nat.
Proof.
  induction ls as [|l ls (I1 & I2)]; [cbn; auto|]. destruct ls as [|x ls].
  - destruct l; cbn; [auto|]. split; [lia|]. intros _. left. repeat constructor. discriminate.
  - change (join [c_nl] (l :: x :: ls)) with (l ++ c_nl :: join [c_nl] (x :: ls)).
    destruct l as [|a l].
    + change (without_blank ([] :: x :: ls)) with (without_blank (x :: ls)). cbn [app length]. split; [lia|]. intros E. exfalso. lia.
    + change (without_blank ((a :: l) :: x :: ls)) with ((a :: l) :: without_blank (x :: ls)).
      destruct (without_blank (x :: ls)) as [|y r] eqn:E.
      * cbn [join]. rewrite app_length. cbn [length]. split; [lia|]. intros. lia.
      * change (join [c_nl] ((a :: l) :: y :: r)) with ((a :: l) ++ c_nl :: join [c_nl] (y :: r)).
        rewrite !app_length. cbn [length] in *. split; [lia|]. intros Q. destruct I2 as [I2|[I2|I2]]; [lia| | |].
        -- left. constructor; [discriminate|assumption].
        -- discriminate.
        -- rewrite I2 in E. discriminate.
Qed.

Theorem C30_survives_iff : forall lb ign dflt ds c h k s ls, c_value c = VText s -> lines_of s ls -> extra_ok c -> 1 <= k <= u32_max ->
  exists o, through_file lb ign dflt ds c h k = Ok (k, o)
    /\ (as_cow_str_or [] (match o with Some c' => c_value c' | None => VEmpty end) = s
        <-> s = [] \/ Forall (fun l => l <> []) ls).
Proof.
  intros lb ign dflt ds c h k s ls Hv Hl He Hk.
  destruct (C30_lines lb ign dflt ds c h k s ls Hv Hl He Hk) as (o & Ho & E). exists o. split; [assumption|]. rewrite E.
  destruct Hl as (Hne & Hnl & Hj). split.
  - intros Q. rewrite <- Hj in Q at 1. destruct (proj2 (join_len ls)) as [H|[H|H]]; [now rewrite Q|auto|congruence|].
    left. rewrite <- Hj, H. reflexivity.
  - intros [->|H]; [|now rewrite without_all].
    assert (B : ls = [[]]).
    { destruct ls as [|l [|x r]]; [congruence| |].
      - cbn in Hj. now subst.
      - exfalso. assert (J : join [c_nl] (l :: x :: r) = l ++ c_nl :: join [c_nl] (x :: r)) by reflexivity. rewrite J in Hj. now destruct l. }
    rewrite B. reflexivity.
Qed.

(** One line of text comes back as the same plain text value. *)
Theorem C30_survives_partial : forall lb ign dflt ds c h k s, c_value c = VText s -> s <> [] -> ~ In c_nl s -> extra_ok c -> 1 <= k <= u32_max ->
  exists d c', kept lb c d /\ through_file lb ign dflt ds c h k = Ok (k, Some c') /\ cell_content c' = content_with d (VText s) (written_style ds c) k.
Proof.
  intros lb ign dflt ds c h k s Hv Hs Hn He Hk.
  assert (Hl : lines_of s [s]) by (split; [discriminate|]; split; [repeat constructor; assumption|reflexivity]).
  destruct (C30_read lb ign dflt ds c h k s [s] Hv Hl He Hk) as (d & o & Hd & Ho & _ & Y). exists d.
  assert (T : text_value [s] = VText s) by (destruct s; [congruence|reflexivity]). rewrite T in Y.
  destruct o as [c'|].
  - exists c'. split; [assumption|]. split; [assumption|]. assert (Q : Some (cell_content c') = Some (content_with d (VText s) (written_style ds c) k)).
    { apply Y. intros [N|[_ N]]; destruct N as (N & _); discriminate. } now inversion Q.
  - exfalso. assert (Q : @None content = Some (content_with d (VText s) (written_style ds c) k)).
    { apply Y. intros [N|[_ N]]; destruct N as (N & _); discriminate. } discriminate.
Qed.

Definition C30_text (s : str) : cell := Cell (VText s) None None 1 None.
Example C30_ex :
  lines_of (lit "<a> & ""b""") [lit "<a> & ""b"""] /\
  through_file false false None (fun _ => None) (C30_text (lit "<a> & ""b""")) false 2
  = Ok (2, Some (Cell (VText (lit "<a> & ""b""")) None None 2 None)) /\
  through_file true false None (fun _ => None) (C30_text (lit " x" ++ [10] ++ lit "y ")) false 1
  = Ok (1, Some (Cell (VTextXml [XTag t_p [] [XText (lit " x")]; XTag t_p [] [XText (lit "y ")]]) None None 1 None)).
Proof.
  split; [|split; vm_compute; reflexivity]. split; [discriminate|]. split; [|reflexivity].
  repeat constructor. intros H. cbn in H. repeat (destruct H as [H|H]; [discriminate|]). contradiction.
Qed.
(** Blank lines are lost, and an empty text is no cell at all. *)
Theorem C30_refuted : exists s c', through_file false false None (fun _ => None) (C30_text s) false 1 = Ok (1, Some c')
  /\ s = lit "a" ++ [10; 10] ++ lit "b" /\ as_cow_str_or [] (c_value c') = lit "a" ++ [10] ++ lit "b".
Proof. exists (lit "a" ++ [10; 10] ++ lit "b"). eexists. split; [vm_compute; reflexivity|]. vm_compute. auto. Qed.
Theorem C30_empty_refuted : through_file false false None (fun _ => None) (C30_text []) false 1 = Ok (1, None).
Proof. vm_compute. reflexivity. Qed.
(** Text of more than one line is not plain text any more. *)
Theorem C30_kind_refuted : exists s c', through_file false false None (fun _ => None) (C30_text s) false 1 = Ok (1, Some c')
  /\ as_cow_str_or [] (c_value c') = s /\ c_value c' <> VText s.
Proof. exists (lit "a" ++ [10] ++ lit "b"). eexists. split; [vm_compute; reflexivity|]. vm_compute. split; [reflexivity|discriminate]. Qed.

(** ** C46 *)

(** Spans survive: a cell with a span other than 1x1 is stored, with that span. *)
Theorem C46_survives : forall lb ign dflt ds c h k x, writable (c_value c) -> extra_ok c -> c_extra c = Some x -> 1 <= k <= u32_max ->
  exists o, through_file lb ign dflt ds c h k = Ok (k, o)
    /\ (x_span x <> CSpan 1 1 \/ x_matrix x <> CSpan 1 1 -> o <> None)
    /\ forall c', o = Some c' -> k_span (cell_content c') = x_span x /\ k_matrix (cell_content c') = x_matrix x.
Proof.
  intros lb ign dflt ds c h k x W He Hx Hk. destruct (through_events lb ign dflt ds c h k W He Hk) as (d & o & v & (_ & _ & _ & _ & Hd) & _ & Ho & Co).
  exists o. split; [assumption|]. cbv zeta in Co.
  set (K := result ds d v k) in *.
  assert (S : k_span K = x_span x /\ k_matrix K = x_matrix x) by (unfold K, result, content_with; rewrite Hx in Hd; destruct (c_extra d); [|contradiction]; cbn; tauto).
  destruct S as (S1 & S2). split.
  - intros Hs -> . destruct (void_b ign dflt K) eqn:V; [|discriminate].
    apply void_nothing in V as [V|[_ V]]; destruct V as (_ & _ & _ & _ & V1 & V2 & _); rewrite S1 in V1; rewrite S2 in V2; tauto.
  - intros c' ->. destruct (void_b ign dflt K); [discriminate|]. inversion Co as [E]. rewrite E. auto.
Qed.
Example C46_survives_ex :
  let c := Cell VEmpty None None 1 (Some (CExt None (CSpan 1 2) (CSpan 1 1) None [])) in
  writable (c_value c) /\ extra_ok c /\
  through_file true true None (fun _ => None) c false 1 = Ok (1, Some c).
Proof.
  cbv zeta. split; [split; [exact I|discriminate]|]. split; [|vm_compute; reflexivity].
  split; [vm_compute; repeat split; intros H; discriminate|split; [discriminate|constructor]].
Qed.

Print Assumptions C31_in_file.
Print Assumptions C31_survives.
Print Assumptions C31_empty.
Print Assumptions C31_order.
Print Assumptions C31_currency_refuted.
Print Assumptions C31_duration_refuted.
Print Assumptions C31_late_date_refuted.
Print Assumptions C30_read.
Print Assumptions C30_lines.
Print Assumptions C30_survives_iff.
Print Assumptions C30_survives_partial.
Print Assumptions C30_refuted.
Print Assumptions C30_empty_refuted.
Print Assumptions C30_kind_refuted.
Print Assumptions C46_survives.

(** C36: the view options of the workbook and its sheets survive. *)
From Verif Require Import Base Lib BookModel CellModel NumModel EnumModel XmlModel XmlSpec ConfigModel ConfigSpec ConfigProofs ConfigProps ViewModel ViewProofs.

(** The ranges of the types in Rust. *)
Definition cfg_ok (s : sheetcfg) : Prop :=
  Forall (fun n => n <= u32_max) [sc_cursor_x s; sc_cursor_y s; sc_hor_pos s; sc_vert_pos s; sc_left s; sc_right s; sc_top s; sc_bottom s]
  /\ Forall (fun z => (-32768 <= z <= 32767)%Z) [sc_active_range s; sc_zoom_type s]
  /\ Forall (fun z => (-2147483648 <= z <= 2147483647)%Z) [sc_zoom s; sc_page_zoom s].
Definition with_page_zoom (z : Z) (s : sheetcfg) : sheetcfg :=
  SheetCfg (sc_cursor_x s) (sc_cursor_y s) (sc_hor_mode s) (sc_vert_mode s) (sc_hor_pos s) (sc_vert_pos s) (sc_active_range s)
    (sc_left s) (sc_right s) (sc_top s) (sc_bottom s) (sc_zoom_type s) (sc_zoom s) z (sc_grid s).
(** The options that are written: with no active sheet the first one is taken. *)
Definition shown (b : bookcfg) (sheets : list (str * sheetcfg)) : bookcfg :=
  match bc_active b, sheets with
  | [], (name, _) :: _ => BookCfg name (bc_grid b) (bc_breaks b) (bc_tabs b)
  | _, _ => b
  end.

Lemma sheet_values_ok s : cfg_ok s -> Forall (fun nv => value_ok (snd nv)) (sheet_values s).
Proof.
  intros (_ & H1 & H2). inversion_clear H1 as [|? ? A1 A2]. inversion_clear A2 as [|? ? A3 _]. inversion_clear H2 as [|? ? B1 B2]. inversion_clear B2 as [|? ? B3 _].
  repeat (constructor; cbn [snd]; try apply u32_value_ok); try exact I; cbn [value_ok]; try assumption; destruct (sc_hor_mode s), (sc_vert_mode s); cbn; lia.
Qed.
Lemma calc_done b sheets c : sound c -> ready (map fst sheets) (plain c) -> Forall (fun s => cfg_ok (snd s)) sheets -> (bc_active b <> [] \/ sheets <> []) ->
  exists c', calc_config b sheets c = Ok (shown b sheets, c') /\ sound c' /\ settings_ok (plain c')
  /\ (forall q, (forall n, In n (map fst (book_values b)) -> ~ prefix_of (path p_view ++ [n]) q) -> untouched (map fst sheets) q -> ci_get_value q c' = ci_get_value q c)
  /\ (forall n v, assoc n (rev (book_values (shown b sheets))) = Some v -> ci_get_value (path p_view ++ [n]) c' = Some v)
  /\ (NoDup (map fst sheets) -> forall a s n v, In (a, s) sheets -> assoc n (rev (sheet_values s)) = Some v -> ci_get_value (path (p_table a) ++ [n]) c' = Some v).
Proof.
  intros S R O H. unfold calc_config.
  assert (E : match bc_active b, sheets with [], [] => Panic | [], (name, _) :: _ => Ok (BookCfg name (bc_grid b) (bc_breaks b) (bc_tabs b)) | _, _ => Ok b end = Ok (shown b sheets)).
  { unfold shown. destruct (bc_active b) eqn:A, sheets as [|[nm sc] r]; try reflexivity. destruct H; congruence. }
  rewrite E. clear E. cbn [bind].
  destruct (path_edit _ _ p_view (insert_all_acts (book_values (shown b sheets))) c S (proj1 (proj2 R))) as (c1 & E1 & S1 & P1). rewrite E1. cbn [bind].
  assert (R1 : ready (map fst sheets) (plain c1)). { rewrite P1. apply view_ready; [exact R|exact I]. }
  destruct (sheets_done (map fst sheets) sheets c1 S1 R1) as (c' & E & S' & R' & U & W).
  { intros s Is. now apply in_map. }
  { rewrite Forall_forall in *. intros s Is. now apply sheet_values_ok, O. }
  exists c'. rewrite E. cbn [bind]. split; [reflexivity|]. split; [exact S'|]. split; [apply R'|]. split; [|split].
  - intros q Hq Uq. rewrite !value_leaf by assumption. rewrite (U q Uq), P1. apply edit_other; [apply R|exact Hq].
  - intros n v A. rewrite value_leaf by assumption. rewrite (U _ (view_untouched _ n)), P1. apply edit_value; [apply R|exact A].
  - intros D a s n v Is A. rewrite value_leaf by assumption. now apply (W D a s).
Qed.
Lemma sheet_back c s name : cfg_ok s ->
  (forall n v, assoc n (rev (sheet_values s)) = Some v -> ci_get_value (path (p_table name) ++ [n]) c = Some v) ->
  derive_sheet c name sheetcfg0 = Ok (with_page_zoom 60 s).
Proof.
  intros (O & _) H. unfold derive_sheet.
  assert (X : exists cc, ci_get (path (p_table name)) c = Some cc /\ forall n v, assoc n (rev (sheet_values s)) = Some v -> ci_get_value [n] cc = Some v).
  { destruct (ci_get (path (p_table name)) c) as [cc|] eqn:G.
    - exists cc. split; [reflexivity|]. intros n v A. specialize (H n v A). now rewrite value_split, G in H.
    - specialize (H (lit "ShowGrid") (VBool (sc_grid s)) eq_refl). rewrite value_split, G in H. discriminate. }
  destruct X as (cc & -> & G). clear H. cbn zeta.
  rewrite (G (lit "CursorPositionX") (u32_value (sc_cursor_x s)) eq_refl).
  rewrite (G (lit "CursorPositionY") (u32_value (sc_cursor_y s)) eq_refl).
  rewrite (G (lit "HorizontalSplitMode") (VShort (splitmode_i16 (sc_hor_mode s))) eq_refl).
  rewrite (G (lit "VerticalSplitMode") (VShort (splitmode_i16 (sc_vert_mode s))) eq_refl).
  rewrite (G (lit "HorizontalSplitPosition") (u32_value (sc_hor_pos s)) eq_refl).
  rewrite (G (lit "VerticalSplitPosition") (u32_value (sc_vert_pos s)) eq_refl).
  rewrite (G (lit "ActiveSplitRange") (VShort (sc_active_range s)) eq_refl).
  rewrite (G (lit "PositionLeft") (u32_value (sc_left s)) eq_refl).
  rewrite (G (lit "PositionRight") (u32_value (sc_right s)) eq_refl).
  rewrite (G (lit "PositionTop") (u32_value (sc_top s)) eq_refl).
  rewrite (G (lit "PositionBottom") (u32_value (sc_bottom s)) eq_refl).
  rewrite (G (lit "ZoomType") (VShort (sc_zoom_type s)) eq_refl).
  rewrite (G (lit "ZoomValue") (VInt (sc_zoom s)) eq_refl).
  rewrite (G (lit "ShowGrid") (VBool (sc_grid s)) eq_refl).
  cbn [mode_of u32_of i32_of i16_of bool_of u32_value]. rewrite !mode_back. cbn [bind].
  repeat match goal with H : Forall _ (_ :: _) |- _ => let A := fresh in inversion_clear H as [|? ? A]; rewrite (u32_back _ A) end.
  reflexivity.
Qed.

(** Every option but the zoom of the page view has the value after reading that it had when the file was written, for workbooks with
    distinct sheet names. [conf] are the settings the workbook had before; [ready] says that the maps on the way to the options, where
    they exist, have the types the writer asks for. *)
Theorem C36_survives (ns : list (str * str)) (b : bookcfg) (sheets : list (str * sheetcfg)) (conf : citem) :
  Forall (fun kv => name_ok (fst kv)) ns -> sound conf -> ready (map fst sheets) (plain conf) -> NoDup (map fst sheets) ->
  Forall (fun s => cfg_ok (snd s)) sheets -> (bc_active b <> [] \/ sheets <> []) ->
  exists conf' cs, calc_config b sheets conf = Ok (shown b sheets, conf') /\ write_ods_settings ns conf' = Ok cs
  /\ forall lb, exists evs c', read_events (render lb cs) = Ok evs /\ read_settings evs = Ok (Some c')
  /\ calc_derived c' bookcfg0 (map (fun s => (fst s, sheetcfg0)) sheets) = Ok (shown b sheets, map (fun s => (fst s, with_page_zoom 60 (snd s))) sheets).
Proof.
  intros N S R D O H. destruct (calc_done b sheets conf S R O H) as (conf' & E & S' & T & _ & B & W).
  destruct (C35_survives ns conf' N S' T) as (cs & Wr & Rd). exists conf', cs. split; [exact E|]. split; [exact Wr|]. intros lb.
  destruct (Rd lb) as (evs & c' & R1 & R2 & S2 & _ & _ & V). exists evs, c'. split; [exact R1|]. split; [exact R2|]. specialize (W D).
  assert (G : forall n v, assoc n (rev (book_values (shown b sheets))) = Some v -> ci_get_value (path p_view ++ [n]) c' = match v with VString [] | VBase64 [] => None | r => Some r end).
  { intros n v A. rewrite V, (B n v A). destruct v as [[|]| | | | | | |[|]]; reflexivity. }
  unfold calc_derived.
  assert (L : derive_sheets c' (map (fun s => (fst s, sheetcfg0)) sheets) = Ok (map (fun s => (fst s, with_page_zoom 60 (snd s))) sheets)).
  { assert (W' : forall a s n v, In (a, s) sheets -> assoc n (rev (sheet_values s)) = Some v -> ci_get_value (path (p_table a) ++ [n]) c' = Some v).
    { intros a s n v Is A. rewrite V, (W a s n v Is A). assert (X : match v with VString [] | VBase64 [] => False | _ => True end).
      { clear - A. cbn [sheet_values rev app assoc] in A.
        repeat match type of A with (if ?e then _ else _) = _ => destruct e; [injection A as <-; exact I|] end. discriminate. }
      destruct v as [[|]| | | | | | |[|]]; try reflexivity; contradiction. }
    clear - O W'. induction sheets as [|[a s] r IH]; [reflexivity|]. inversion O as [|? ? O1 O2]; subst. cbn [map derive_sheets fst snd] in *.
    rewrite (sheet_back c' s a O1); [|intros n v; apply (W' a s); now left]. cbn [bind]. rewrite IH; [reflexivity|assumption|]. intros a' s' n v I. apply W'. now right. }
  rewrite L. cbn [bind]. do 2 f_equal. unfold derive_book. cbn zeta.
  rewrite (G (lit "ActiveTable") (VString (bc_active (shown b sheets))) eq_refl).
  rewrite (G (lit "HasSheetTabs") (VBool (bc_tabs (shown b sheets))) eq_refl).
  rewrite (G (lit "ShowGrid") (VBool (bc_grid (shown b sheets))) eq_refl).
  rewrite (G (lit "ShowPageBreaks") (VBool (bc_breaks (shown b sheets))) eq_refl).
  destruct (shown b sheets) as [act g br tb]. cbn [bc_active bc_grid bc_breaks bc_tabs]. destruct act; reflexivity.
Qed.
(** No other setting of the workbook is changed. *)
Theorem C36_others (b : bookcfg) (sheets : list (str * sheetcfg)) (conf : citem) :
  sound conf -> ready (map fst sheets) (plain conf) -> Forall (fun s => cfg_ok (snd s)) sheets -> (bc_active b <> [] \/ sheets <> []) ->
  exists conf', calc_config b sheets conf = Ok (shown b sheets, conf') /\ forall q,
    (forall n, In n [lit "ActiveTable"; lit "HasSheetTabs"; lit "ShowGrid"; lit "ShowPageBreaks"] -> ~ prefix_of (path p_view ++ [n]) q) ->
    untouched (map fst sheets) q -> ci_get_value q conf' = ci_get_value q conf.
Proof. intros S R O H. destruct (calc_done b sheets conf S R O H) as (c' & E & _ & _ & U & _). exists c'. split; [exact E|exact U]. Qed.
(** The settings of a new workbook are fit for every list of sheets. *)
Theorem C36_new (names : list str) : exists c, default_settings = Ok c /\ sound c /\ ready names (plain c).
Proof.
  assert (K : forall l c, sound c -> (fix go l t := match l with [] => True | (p, vs) :: r => fits p t /\ go r (edit_at p (put_all vs) t) end) l (plain c) ->
    exists c', paths_all l c = Ok c' /\ sound c' /\ plain c' = fold_left (fun t e => edit_at (fst e) (put_all (snd e)) t) l (plain c)).
  { induction l as [|[p vs] l IH]; intros c S F; [now exists c|]. destruct F as (F1 & F2). destruct (path_edit _ _ p (insert_all_acts vs) c S F1) as (c1 & E1 & S1 & P1).
    cbn [paths_all]. rewrite E1. cbn [bind]. rewrite <- P1 in F2. destruct (IH c1 S1 F2) as (c' & E & S' & P). exists c'. split; [exact E|]. split; [exact S'|]. rewrite P, P1. reflexivity. }
  unfold default_settings. cbv zeta. edestruct K as (c & E & S & P); [| |exists c; split; [exact E|]; split; [exact S|]].
  - split; [|exact I]. split; [constructor|]. now intros k.
  - vm_compute. repeat split; repeat constructor; discriminate.
  - rewrite P. clear. split; [|split].
    + eexists. split; [vm_compute; reflexivity|]. split; [|repeat constructor; eexists; vm_compute; reflexivity].
      vm_compute. repeat split; try discriminate; constructor.
    + vm_compute. repeat split.
    + apply Forall_forall. intros n _. split; vm_compute; repeat split; repeat constructor; discriminate.
Qed.

(** ** What does not survive *)

Definition view_back (b : bookcfg) (sheets : list (str * sheetcfg)) : res (bookcfg * list (str * sheetcfg)) :=
  let* c := default_settings in let* bc := calc_config b sheets c in let* cs := write_ods_settings [] (snd bc) in
  let* evs := read_events (render false cs) in let* o := read_settings evs in
  match o with Some c' => calc_derived c' bookcfg0 (map (fun s => (fst s, sheetcfg0)) sheets) | None => Err end.
Definition ex_cfg : sheetcfg := SheetCfg 3 4294967295 SplitSplit SplitHeading 1200 2 (-1) 0 7 0 9 1 250 60 false.
(** The zoom of the page view is written and not read. *)
Theorem C36_page_zoom_refuted : exists s r, cfg_ok s /\ view_back bookcfg0 [(lit "a", s)] = Ok r /\ map snd (snd r) <> [s].
Proof.
  exists (with_page_zoom 75 ex_cfg). eexists. split; [|split; [vm_compute; reflexivity|]]; [|vm_compute; discriminate].
  split; [|split]; repeat constructor; vm_compute; discriminate.
Qed.
(** Two sheets of one name share their options: those of the last are read for both. *)
Theorem C36_same_name_refuted : view_back bookcfg0 [(lit "a", sheetcfg0); (lit "a", ex_cfg)]
  = Ok (BookCfg (lit "a") true false true, [(lit "a", ex_cfg); (lit "a", ex_cfg)]).
Proof. vm_compute. reflexivity. Qed.
(** A file whose views are a map with names instead of an indexed map can be read, but not written again: the writer panics. *)
Theorem C36_panic_refuted : exists cs evs c, read_events (render false cs) = Ok evs /\ read_settings evs = Ok (Some c) /\ settings_ok (plain c)
  /\ calc_config bookcfg0 [(lit "a", sheetcfg0)] c = Panic.
Proof.
  destruct (ci_path [(lit "ooo:view-settings", Some KSet); (lit "Views", Some KMap); (lit "0", Some KEntry)] (ci_insert (lit "ViewId") (CVal (VString (lit "v")))) config0) as [c| |] eqn:E;
    [|vm_compute in E; discriminate|vm_compute in E; discriminate].
  destruct (write_ods_settings [] c) as [cs| |] eqn:W; vm_compute in E; injection E as <-; vm_compute in W; [|discriminate|discriminate]. exists cs. injection W as <-.
  eexists. eexists. split; [vm_compute; reflexivity|]. split; [vm_compute; reflexivity|]. split; [|vm_compute; reflexivity].
  eexists. split; [vm_compute; reflexivity|]. split; [|repeat constructor; eexists; reflexivity]. vm_compute. repeat split; discriminate.
Qed.

Example C36_ex : view_back (BookCfg (lit "b<&>") false true false) [(lit "a", sheetcfg0); (lit "b<&>", ex_cfg); ([], ex_cfg)]
  = Ok (BookCfg (lit "b<&>") false true false, [(lit "a", sheetcfg0); (lit "b<&>", ex_cfg); ([], ex_cfg)]).
Proof. vm_compute. reflexivity. Qed.

Print Assumptions C36_survives.
Print Assumptions C36_others.
Print Assumptions C36_new.
Print Assumptions C36_page_zoom_refuted.
Print Assumptions C36_same_name_refuted.
Print Assumptions C36_panic_refuted.
Print Assumptions C36_ex.

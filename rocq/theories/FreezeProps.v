(** C74: frozen headers and split views, and what is left of them in a file and in a copy. *)
From Verif Require Import Base Lib BookModel CellModel NumModel EnumModel XmlModel XmlSpec ConfigModel ConfigSpec ConfigProofs ConfigProps HeaderModel TableModel ViewModel ViewProofs ViewProps.
From Verif Require Import FreezeModel FreezeSpec.

(** Any calls in any order: for columns and for rows the last call counts, the two do not touch each other, and nothing else changes. *)
Theorem C74_view : forall ops s t, view_run ops s = Ok t -> view_wanted ops s t.
Proof.
  induction ops as [|o ops IH]; intros s t H; cbn [view_run] in H.
  - injection H as <-. repeat split.
  - apply bind_ok in H as (s1 & H1 & H). apply IH in H. unfold view_wanted, last_of in *. cbn [fold_left].
    destruct o as [n|n|n|n]; cbn [view_step] in H1; [apply bind_ok in H1 as (m & Hm & H1)|apply bind_ok in H1 as (m & Hm & H1)| | ];
      [unfold add32 in Hm; destruct (_ <=? _) in Hm; [|discriminate]; injection Hm as <-|unfold add32 in Hm; destruct (_ <=? _) in Hm; [|discriminate]; injection Hm as <-| | ];
      injection H1 as <-; exact H.
Qed.
(** They work unless a header is frozen at the last number of the type, and then the program stops. *)
Theorem C74_outcome : forall ops s, Forall (fun o => number_of o <= u32_max) ops ->
  (view_run ops s = Panic <-> Exists too_far ops) /\ view_run ops s <> Err.
Proof.
  induction ops as [|o ops IH]; intros s F; cbn [view_run].
  - split; [|discriminate]. split; [discriminate|]. intros H. inversion H.
  - inversion_clear F as [|? ? Fo F'].
    assert (K : (exists s1, view_step o s = Ok s1 /\ ~ too_far o) \/ (view_step o s = Panic /\ too_far o)).
    { destruct o as [n|n|n|n]; cbn [view_step too_far number_of] in *; unfold add32; [destruct (n + 1 <=? u32_max) eqn:E|destruct (n + 1 <=? u32_max) eqn:E| | ]; cbn [bind];
        try (left; eexists; split; [reflexivity|]; auto; lia); right; split; [reflexivity|lia|reflexivity|lia]. }
    destruct K as [(s1 & E & Nt)|(E & Nt)]; rewrite E; cbn [bind].
    + destruct (IH s1 F') as (A & B). split; [|exact B]. rewrite A. split; [intros X; now right|]. intros X. inversion_clear X as [? ? Y|? ? Y]; [contradiction|exact Y].
    + split; [|discriminate]. split; [intros _; now left|reflexivity].
Qed.
Lemma run_ok : forall ops s t, Forall (fun o => number_of o <= u32_max) ops -> cfg_ok s -> view_run ops s = Ok t -> cfg_ok t /\ sc_page_zoom t = sc_page_zoom s.
Proof.
  induction ops as [|o ops IH]; intros s t F C H; cbn [view_run] in H.
  - injection H as <-. split; [exact C|reflexivity].
  - inversion_clear F as [|? ? Fo F']. apply bind_ok in H as (s1 & H1 & H).
    assert (K : cfg_ok s1 /\ sc_page_zoom s1 = sc_page_zoom s).
    { destruct C as (C1 & C2). inversion_clear C1 as [|? ? X1 C3]. inversion_clear C3 as [|? ? X2 C4]. inversion_clear C4 as [|? ? X3 C5]. inversion_clear C5 as [|? ? X4 C6].
      inversion_clear C6 as [|? ? X5 C7]. inversion_clear C7 as [|? ? X6 C8]. inversion_clear C8 as [|? ? X7 C9]. inversion_clear C9 as [|? ? X8 _].
      destruct o as [n|n|n|n]; cbn [view_step number_of] in *; [apply bind_ok in H1 as (m & Hm & H1)|apply bind_ok in H1 as (m & Hm & H1)| | ];
      [unfold add32 in Hm; destruct (_ <=? _) eqn:E in Hm; [|discriminate]; injection Hm as <-|unfold add32 in Hm; destruct (_ <=? _) eqn:E in Hm; [|discriminate]; injection Hm as <-| | ];
      injection H1 as <-; (split; [|reflexivity]); (split; [|exact C2]); try apply N.leb_le in E;
        unfold sc_cursor_x, sc_cursor_y, sc_hor_pos, sc_vert_pos, sc_left, sc_right, sc_top, sc_bottom in *; repeat apply Forall_cons; try assumption; apply Forall_nil. }
    destruct K as [K1 K2]. destruct (IH s1 t F' K1 H) as (A & B). split; [exact A|congruence].
Qed.

(** Written and read again every sheet has the view its calls gave it, if the names of the sheets differ. *)
Theorem C74_file (ns : list (str * str)) (b : bookcfg) (progs : list (str * list view_op)) (sheets : list (str * sheetcfg)) (conf : citem) :
  Forall (fun kv => name_ok (fst kv)) ns -> sound conf -> ready (map fst progs) (plain conf) -> NoDup (map fst progs) -> progs <> [] ->
  Forall (fun p => Forall (fun o => number_of o <= u32_max) (snd p)) progs ->
  Forall2 (fun p s => fst s = fst p /\ view_run (snd p) sheetcfg0 = Ok (snd s)) progs sheets ->
  exists conf' cs, calc_config b sheets conf = Ok (shown b sheets, conf') /\ write_ods_settings ns conf' = Ok cs
  /\ forall lb, exists evs c' back, read_events (render lb cs) = Ok evs /\ read_settings evs = Ok (Some c')
  /\ calc_derived c' bookcfg0 (map (fun s => (fst s, sheetcfg0)) sheets) = Ok (shown b sheets, back)
  /\ back = sheets /\ Forall2 (fun p s => fst s = fst p /\ view_wanted (snd p) sheetcfg0 (snd s)) progs back.
Proof.
  intros Hn Hs Hr Hd Hne Hf H2.
  assert (E : map fst sheets = map fst progs). { clear -H2. induction H2 as [|p s ps ss [A _] _ IH]; [reflexivity|]. cbn. now rewrite A, IH. }
  assert (C0 : cfg_ok sheetcfg0). { split; [|split]; repeat (apply Forall_cons; [cbn; unfold u32_max; lia|]); apply Forall_nil. }
  assert (K : Forall (fun s => cfg_ok (snd s)) sheets /\ map (fun s => (fst s, with_page_zoom 60 (snd s))) sheets = sheets
    /\ Forall2 (fun p s => fst s = fst p /\ view_wanted (snd p) sheetcfg0 (snd s)) progs sheets).
  { clear -H2 Hf C0. induction H2 as [|p s ps ss [A B] _ IH]; [repeat constructor|]. inversion_clear Hf as [|? ? F1 F2]. destruct (IH F2) as (I1 & I2 & I3).
    destruct (run_ok _ _ _ F1 C0 B) as (D1 & D2). split; [|split].
    - constructor; assumption.
    - cbn [map]. rewrite I2. f_equal. destruct s as [n s]. cbn [fst snd] in *. f_equal. destruct s. cbn in D2. subst. reflexivity.
    - constructor; [|exact I3]. split; [exact A|]. now apply C74_view. }
  destruct K as (K1 & K2 & K3).
  destruct (C36_survives ns b sheets conf) as (conf' & cs & A & B & C); try rewrite E; try assumption.
  { right. intros ->. inversion H2. subst. congruence. }
  exists conf', cs. split; [exact A|]. split; [exact B|]. intros lb. destruct (C lb) as (evs & c' & D1 & D2 & D3). exists evs, c', sheets.
  split; [exact D1|]. split; [exact D2|]. rewrite K2 in D3. split; [exact D3|]. split; [reflexivity|exact K3].
Qed.
Definition ex_view : list view_op := [SplitHorizontal 900; SplitRowHeader 0; SplitColHeader 2; SplitVertical 77; SplitRowHeader 4].
Example C74_ex : exists t, view_run ex_view sheetcfg0 = Ok t /\ t = SheetCfg 3 5 SplitHeading SplitHeading 3 5 2 0 3 0 5 0 100 60 true
  /\ view_back bookcfg0 [(lit "a", t); (lit "b", sheetcfg0)] = Ok (BookCfg (lit "a") true false true, [(lit "a", t); (lit "b", sheetcfg0)]).
Proof. exists (SheetCfg 3 5 SplitHeading SplitHeading 3 5 2 0 3 0 5 0 100 60 true). split; [vm_compute; reflexivity|]. split; [reflexivity|]. vm_compute. reflexivity. Qed.
Example C74_outcome_ex : view_run [SplitVertical 4294967295; SplitRowHeader 4294967295] sheetcfg0 = Panic.
Proof. vm_compute. reflexivity. Qed.
(** A view that was frozen and is then split can be moved, but stays scrolled behind the former header. *)
Theorem C74_scrolled_refuted : exists t, view_run [SplitColHeader 9; SplitHorizontal 0] sheetcfg0 = Ok t /\ sc_hor_mode t = SplitSplit /\ sc_hor_pos t = 0 /\ sc_right t = 10 /\ sc_cursor_x t = 10.
Proof. eexists. split; [vm_compute; reflexivity|]. repeat split. Qed.

(** A copy without data has everything of the sheet but the cells ... *)
Theorem C74_copy : forall s v, let t := fst (clone_no_data (s, v)) in
  tb_cells t = [] /\ t = Sheet (tb_name s) (tb_style s) (tb_ranges s) (tb_print s) (tb_display s) (tb_extra s) (tb_cols s) (tb_rows s)
     (tb_gcols s) (tb_grows s) (tb_hcols s) (tb_hrows s) (tb_cells t).
Proof. intros s v. split; reflexivity. Qed.
(** ... and the view: it is lost whatever it was. *)
Theorem C74_copy_refuted : forall s v, v <> sheetcfg0 -> snd (clone_no_data (s, v)) <> v.
Proof. intros s v H E. apply H. symmetry. exact E. Qed.
Example C74_copy_ex : exists t, view_run [SplitColHeader 0] sheetcfg0 = Ok t /\ t <> sheetcfg0.
Proof. eexists. split; [vm_compute; reflexivity|]. discriminate. Qed.

Print Assumptions C74_view.
Print Assumptions C74_outcome.
Print Assumptions C74_file.
Print Assumptions C74_scrolled_refuted.
Print Assumptions C74_copy.
Print Assumptions C74_copy_refuted.

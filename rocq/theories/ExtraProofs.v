(** A sheet with elements that are kept as they are, written and read: the same as the sheet without them, and the elements. *)
From Verif Require Import Base Lib OMap NumModel EnumModel RefsModel XmlModel XmlSpec XmlProofs TreeProofs CellModel CellIoModel CellIoProofs HeaderModel TableModel.
From Verif Require Import BookModel ScriptModel ScriptProofs ValidModel ValidProofs StyleModel FlowProofs MetaModel ConfigModel.
From Verif Require Import CellIoSpec OMapProofs HeaderSpec HeaderProofs TableSpec TableRun TableCells TableCols TableRead TablePlaced TableNested TableWhole CloneModel WorkModel WorkSpec WorkFlow.

(** ** Reading does not look at them *)

Definition more (l : list xnode) (sh : sheet) : sheet := with_extra (l ++ tb_extra sh) sh.
Definition add_nodes (l : list xnode) (s : tstate) : tstate := on_sheet (more l) s.
Lemma more_nil sh : more [] sh = sh. Proof. now destruct sh. Qed.
Lemma col_default_more l s : col_default (add_nodes l s) = col_default s. Proof. reflexivity. Qed.
Lemma store_more l s x : store_cell (add_nodes l s) x = match store_cell s x with Ok s' => Ok (add_nodes l s') | Err => Err | Panic => Panic end.
Proof. destruct x as [k o]. unfold store_cell. cbn [add_nodes on_sheet ts_col]. destruct (add32 (ts_col s) k); try reflexivity. destruct o; reflexivity. Qed.
Lemma row_more l s : end_of_row (add_nodes l s) = match end_of_row s with Ok s' => Ok (add_nodes l s') | Err => Err | Panic => Panic end.
Proof.
  unfold end_of_row. cbn [add_nodes on_sheet ts_data ts_row ts_rep ts_sheet more with_extra tb_rows].
  destruct (if ts_data s then set_row (ts_row s) (SetRowRepeat (ts_rep s)) (tb_rows (ts_sheet s)) else Ok (tb_rows (ts_sheet s))); try reflexivity. cbn [bind].
  destruct (add32 (ts_row s) (ts_rep s)); reflexivity.
Qed.
Definition both (l : list xnode) (x : tstate * tmode + tstate) : tstate * tmode + tstate :=
  match x with inl (s, m) => inl (add_nodes l s, m) | inr s => inr (add_nodes l s) end.
Definition lift {A B} (f : A -> B) (r : res A) : res B := match r with Ok x => Ok (f x) | Err => Err | Panic => Panic end.
Lemma extra_more l x s : on_sheet (add_extra x) (add_nodes l s) = add_nodes l (on_sheet (add_extra x) s).
Proof. unfold add_nodes, on_sheet, add_extra, more, with_extra. cbn. now rewrite app_assoc. Qed.
Lemma event_more l ign s e : table_event ign (add_nodes l s) e = lift (both l) (table_event ign s e).
Proof.
  destruct e as [n a|n a|n|t|t|t]; cbn [table_event]; try reflexivity.
  - destruct (existsb _ _); [reflexivity|].
    destruct (str_eqb n t_cgroup). { change (ts_col (add_nodes l s)) with (ts_col s). destruct (read_group a (ts_col s)); reflexivity. }
    destruct (str_eqb n t_hcols); [reflexivity|].
    destruct (str_eqb n t_rgroup). { change (ts_row (add_nodes l s)) with (ts_row s). destruct (read_group a (ts_row s)); reflexivity. }
    destruct (str_eqb n t_hrows); [reflexivity|].
    destruct (str_eqb n t_row). { change (ts_row (add_nodes l s)) with (ts_row s). change (tb_rows (ts_sheet (add_nodes l s))) with (tb_rows (ts_sheet s)). destruct (read_row a (ts_row s) (tb_rows (ts_sheet s))) as [[k m]| |]; reflexivity. }
    destruct (str_eqb n t_cell || str_eqb n t_covered); [|reflexivity]. rewrite col_default_more. destruct (col_default s); try reflexivity. cbn [bind]. destruct (cell_read_attrs cellacc0 a); reflexivity.
  - destruct (existsb _ _); [cbn [lift both]; now rewrite extra_more|].
    destruct (str_eqb n t_column).
    { change (ts_col (add_nodes l s)) with (ts_col s). change (tb_cols (ts_sheet (add_nodes l s))) with (tb_cols (ts_sheet s)). destruct (read_col a (ts_col s) (tb_cols (ts_sheet s))) as [[k m]| |]; try reflexivity.
      cbn [bind]. destruct (add32 (ts_col s) k); reflexivity. }
    destruct (str_eqb n t_cell || str_eqb n t_covered); [|reflexivity]. rewrite col_default_more. destruct (col_default s); try reflexivity. cbn [bind]. destruct (cell_read_attrs cellacc0 a); try reflexivity. cbn [bind].
    destruct (cell_finish ign a0 a1); try reflexivity. cbn [bind]. rewrite store_more. destruct (store_cell s a2); reflexivity.
  - destruct (str_eqb n t_table); [reflexivity|].
    destruct (str_eqb n t_cgroup). { change (ts_cgroup (add_nodes l s)) with (ts_cgroup s). change (ts_col (add_nodes l s)) with (ts_col s). destruct (ts_cgroup s); [reflexivity|]. destruct (sub32 (ts_col s) 1); reflexivity. }
    destruct (str_eqb n t_hcols). { change (tb_hcols (ts_sheet (add_nodes l s))) with (tb_hcols (ts_sheet s)). change (ts_col (add_nodes l s)) with (ts_col s). change (ts_cfrom (add_nodes l s)) with (ts_cfrom s).
      destruct (extend_header _ _ _); reflexivity. }
    destruct (str_eqb n t_rgroup). { change (ts_rgroup (add_nodes l s)) with (ts_rgroup s). change (ts_row (add_nodes l s)) with (ts_row s). destruct (ts_rgroup s); [reflexivity|]. destruct (sub32 (ts_row s) 1); reflexivity. }
    destruct (str_eqb n t_hrows). { change (tb_hrows (ts_sheet (add_nodes l s))) with (tb_hrows (ts_sheet s)). change (ts_row (add_nodes l s)) with (ts_row s). change (ts_rfrom (add_nodes l s)) with (ts_rfrom s).
      destruct (extend_header _ _ _); reflexivity. }
    destruct (str_eqb n t_row); [|reflexivity]. rewrite row_more. destruct (end_of_row s); reflexivity.
Qed.
Lemma step_more l ign s m e : table_step ign (add_nodes l s) m e = lift (both l) (table_step ign s m e).
Proof.
  destruct m as [|tag x cm|tag st]; cbn [table_step].
  - apply event_more.
  - destruct (cell_step tag x cm e) as [[[x' cm']|x']| |]; try reflexivity. cbn [bind]. rewrite col_default_more. destruct (col_default s); try reflexivity. cbn [bind].
    destruct (cell_finish ign a x'); try reflexivity. cbn [bind]. rewrite store_more. destruct (store_cell s a0); reflexivity.
  - destruct (tree_step tag st e) as [[st'|x]| |]; try reflexivity. cbn [bind lift both]. now rewrite extra_more.
Qed.
Lemma loop_more l ign evs : forall s m, table_loop ign (add_nodes l s) m evs = lift (fun p => (add_nodes l (fst p), snd p)) (table_loop ign s m evs).
Proof.
  induction evs as [|e evs IH]; intros s m; [reflexivity|]. cbn [table_loop]. rewrite step_more. destruct (table_step ign s m e) as [[[s' m']|s']| |]; try reflexivity. cbn [lift both bind]. apply IH.
Qed.
Lemma calc_more l rep t : calculations rep (more l t) = lift (more l) (calculations rep t).
Proof.
  unfold calculations. change (tb_cols (more l t)) with (tb_cols t). destruct (dedup_colheader (tb_cols t)) as [cs| |]; try reflexivity. cbn [bind]. destruct rep; [reflexivity|].
  unfold calc_cloned. change (tb_rows (put_cols cs (more l t))) with (tb_rows (put_cols cs t)). change (tb_cells (put_cols cs (more l t))) with (tb_cells (put_cols cs t)).
  destruct (collect _ _); try reflexivity. cbn [bind]. destruct (cells_right _) as [[[x d] k]| |]; reflexivity.
Qed.

(** ** Reading one of them *)

Lemma tree_table ign s tag evs : forall st x r, read_xml_loop tag st evs = Ok (x, r) -> r <> [] ->
  table_loop ign s (MTree tag st) evs = table_loop ign (on_sheet (add_extra x) s) MTable r.
Proof.
  induction evs as [|e evs IH]; intros st x r H N; cbn [read_xml_loop] in H.
  - destruct st; [discriminate|]. injection H as <- <-. congruence.
  - cbn [table_loop table_step]. destruct e; cbn [tree_step].
    + cbn [bind]. auto.
    + apply bind_ok in H as (z & E & H). rewrite E. cbn [bind]. auto.
    + destruct (str_eqb n tag) eqn:E.
      * destruct st; [discriminate|]. injection H as <- <-. reflexivity.
      * destruct st as [|f st]; [discriminate|]. apply bind_ok in H as (z & E2 & H). rewrite E2. cbn [bind]. auto.
    + apply bind_ok in H as (z & E & H). rewrite E. cbn [bind]. auto.
    + apply bind_ok in H as (v & E & H). apply bind_ok in H as (z & E2 & H). rewrite E. cbn [bind]. rewrite E2. cbn [bind]. auto.
    + cbn [bind]. auto.
Qed.
(** Something else than text follows. *)
Definition goes_on (rest : list event) : Prop := exists a e b, rest = a ++ e :: b /\ not_text e.
Lemma goes_on_app a b : goes_on b -> goes_on (a ++ b).
Proof. intros (x & e & y & -> & N). exists (a ++ x), e, y. split; [now rewrite app_assoc|exact N]. Qed.
Lemma goes_on_some t b : goes_on b -> coalesce (EText t :: b) <> [].
Proof. intros (x & e & y & -> & N). change (EText t :: x ++ e :: y) with ((EText t :: x) ++ e :: y). rewrite coalesce_split by exact N. destruct (coalesce _); discriminate. Qed.
Lemma stays_known n a c : stays (XTag n a c) || leaves (XTag n a c) = true -> existsb (str_eqb n) (prelude ++ epilogue) = true.
Proof. intros H. rewrite existsb_app. cbn [stays leaves] in H. change (existsb (str_eqb n) prelude || existsb (str_eqb n) epilogue = true) in H. exact H. Qed.
Lemma node_pass lb x : extra_ok x -> stays x || leaves x = true -> exists t, norm t = norm (broken lb x)
  /\ forall ign s rest, goes_on rest -> table_loop ign s MTable (coalesce (node_events lb x ++ rest)) = table_loop ign (on_sheet (add_extra t) s) MTable (coalesce rest).
Proof.
  destruct x as [t|n a c]; [contradiction|]. intros (N & R) K. apply stays_known in K. destruct c as [|y c].
  - exists (XTag n a []). split; [reflexivity|]. intros ign s rest G. cbn [node_events app]. unfold coalesce at 1. rewrite coalesce_cons by exact I. cbn [emit_text app table_loop table_step table_event].
    rewrite K. cbn [bind]. apply (skip_first ign _ (nl lb) rest).
  - destruct (tree_read lb n a y c R) as (t & Ht & Hr). exists t. split; [exact Ht|]. intros ign s rest G. cbn [node_events app]. unfold coalesce at 1. rewrite coalesce_cons by exact I.
    cbn [emit_text app table_loop table_step table_event]. rewrite K. cbn [bind]. specialize (Hr rest). unfold read_xml in Hr.
    rewrite <- app_assoc. cbn [app]. unfold coalesce in Hr. unfold coalesce. rewrite (tree_table ign s n _ _ _ _ Hr); [|now apply (goes_on_some (nl lb))]. apply (skip_first ign _ (nl lb) rest).
Qed.
Definition behind (l : list xnode) (sh : sheet) : sheet := with_extra (tb_extra sh ++ l) sh.
Lemma nodes_pass lb l : Forall extra_ok l -> Forall (fun x => stays x || leaves x = true) l -> exists ts, map norm ts = map (fun x => norm (broken lb x)) l
  /\ forall ign s rest, goes_on rest -> table_loop ign s MTable (coalesce (flat_map (node_events lb) l ++ rest)) = table_loop ign (on_sheet (behind ts) s) MTable (coalesce rest).
Proof.
  induction l as [|x l IH]; intros O K.
  - exists []. split; [reflexivity|]. intros ign s rest G. cbn [flat_map app]. f_equal. destruct s as [sh r c d cf cg re rf rg]. unfold on_sheet. cbn [ts_sheet ts_row ts_col ts_data ts_cfrom ts_cgroup ts_rep ts_rfrom ts_rgroup].
    f_equal. unfold behind. rewrite app_nil_r. now destruct sh.
  - inversion O; subst. inversion K; subst. destruct (IH H2 H4) as (ts & E & P). destruct (node_pass lb x H1 H3) as (t & Et & Pt). exists (t :: ts). split; [cbn [map]; congruence|].
    intros ign s rest G. cbn [flat_map]. rewrite <- app_assoc. rewrite Pt by now apply goes_on_app. rewrite P by exact G. f_equal. unfold on_sheet, behind, add_extra, with_extra. cbn. now rewrite <- app_assoc.
Qed.

(** ** Writing does not look at them *)

Lemma cols_bare sh mx n : forall c, write_cols (bare sh) mx n c = write_cols sh mx n c.
Proof. induction n as [|n IH]; intros c; [reflexivity|]. cbn [write_cols]. change (tb_cols (bare sh)) with (tb_cols sh). destruct (mx <=? c); [reflexivity|]. destruct (col_item (tb_cols sh) c) as [it sp]. destruct (sp =? 0); [reflexivity|]. destruct (add32 c sp); try reflexivity. cbn [bind]. now rewrite IH. Qed.
Lemma empty_bare sh n : forall r w s, empty_rows_in (bare sh) n r w s = empty_rows_in sh n r w s.
Proof. induction n as [|n IH]; intros r w s; [reflexivity|]. cbn [empty_rows_in]. change (empty_row_in (bare sh) r w s) with (empty_row_in sh r w s). destruct (empty_row_in sh r w s) as [[a s1]| |]; try reflexivity. cbn [bind]. now rewrite IH. Qed.
Lemma rows_bare sh r rep w s : empty_rows (bare sh) r rep w s = empty_rows sh r rep w s.
Proof. unfold empty_rows. change (tb_grows (bare sh)) with (tb_grows sh). change (tb_hrows (bare sh)) with (tb_hrows sh). now rewrite empty_bare. Qed.
Lemma cell_bare sh mx pv sp s p c nx : write_cell_at (bare sh) mx pv sp s p c nx = write_cell_at sh mx pv sp s p c nx.
Proof.
  unfold write_cell_at. destruct p as [row col]. change (tb_rows (bare sh)) with (tb_rows sh). destruct (match nx with Some q => q | None => mx end) as [nrow ncol].
  destruct (sub32 nrow row) as [fr| |]; try reflexivity. cbn [bind]. destruct (if 0 <? fr then sub32 (snd mx) col else sub32 ncol col) as [fc| |]; try reflexivity. cbn [bind].
  destruct (match pv with Some v => (pv_row v, pv_rep v, pv_col v) | None => (0, 1, 0) end) as [[prow prep] pcol].
  destruct (sub32 row prow) as [br| |]; try reflexivity. cbn [bind]. destruct (if 0 <? br then Ok col else sub32 col pcol) as [bc| |]; try reflexivity. cbn [bind].
  change (end_row (bare sh)) with (end_row sh). change (start_row (bare sh)) with (start_row sh).
  destruct (if (0 <? br) && negb match pv with Some _ => false | None => true end then end_row sh prow prep s else Ok ([], s)) as [[o1 s1]| |]; try reflexivity. cbn [bind].
  destruct (0 <? br); [|reflexivity]. destruct (br <? prep); [reflexivity|]. destruct (if match pv with Some _ => false | None => true end then add32 (br - prep) 1 else Ok (br - prep)) as [sy| |]; try reflexivity. cbn [bind].
  destruct (sub32 row sy) as [r0| |]; try reflexivity. cbn [bind]. now rewrite rows_bare.
Qed.
Lemma cells_bare sh mx l : forall pv sp s, write_cells (bare sh) mx pv sp s l = write_cells sh mx pv sp s l.
Proof. induction l as [|[p c] l IH]; intros pv sp s; [reflexivity|]. cbn [write_cells]. rewrite cell_bare. destruct (write_cell_at _ _ _ _ _ _ _ _) as [[[o sp'] s']| |]; try reflexivity. cbn [bind]. now rewrite IH. Qed.
Lemma stays_filter l : filter (TableModel.is_tag prelude) l = filter stays l.
Proof. apply filter_ext. intros [t|n a c]; reflexivity. Qed.
Lemma leaves_filter l : filter (TableModel.is_tag epilogue) l = filter leaves l.
Proof. apply filter_ext. intros [t|n a c]; reflexivity. Qed.
Lemma items_bare sh body : table_items sh = Ok body -> exists b, table_items (bare sh) = Ok b /\ body = map TNode (filter stays (tb_extra sh)) ++ b.
Proof.
  unfold table_items. change (tb_cells (bare sh)) with (tb_cells sh). destruct (used_grid_size (tb_cells sh)) as [mx| |]; try discriminate. cbn [bind].
  unfold write_table_columns. change (tb_gcols (bare sh)) with (tb_gcols sh). change (tb_hcols (bare sh)) with (tb_hcols sh). destruct (max_col (snd mx) (tb_gcols sh) (tb_hcols sh)) as [mc| |]; try discriminate. cbn [bind].
  rewrite cols_bare, cells_bare. destruct (write_cols sh mc (N.to_nat mc) 0) as [cols| |]; try discriminate. cbn [bind]. destruct (write_cells _ _ _ _ _ _) as [rows| |]; try discriminate. cbn [bind].
  intros H. eexists. split; [reflexivity|]. injection H as <-. unfold nodes_in. cbn [bare with_extra tb_extra filter map app]. now rewrite stays_filter.
Qed.
Lemma nodes_calls ds l : flat_map (TableModel.item_calls ds) (map TNode l) = flat_map write_node l.
Proof. induction l as [|x l IH]; [reflexivity|]. cbn [map flat_map]. now rewrite IH. Qed.
(** What is written, in parts. *)
Lemma sheet_parts ds sh cs : write_sheet ds sh = Ok cs -> exists a b, table_attrs sh = Ok a /\ table_items (bare sh) = Ok b
  /\ cs = (CElem t_table :: a ++ flat_map write_node (filter stays (tb_extra sh)) ++ flat_map (TableModel.item_calls ds) b ++ [CEnd t_table]) ++ flat_map write_node (filter leaves (tb_extra sh))
  /\ write_sheet ds (bare sh) = Ok (CElem t_table :: a ++ flat_map (TableModel.item_calls ds) b ++ [CEnd t_table]).
Proof.
  unfold write_sheet. change (table_attrs (bare sh)) with (table_attrs sh). intros H. destruct (table_attrs sh) as [a| |]; try discriminate. cbn [bind] in *.
  destruct (table_items sh) as [body| |] eqn:Eb; try discriminate. cbn [bind] in *. destruct (items_bare sh body Eb) as (b & E & ->). rewrite E. cbn [bind]. exists a, b. split; [reflexivity|]. split; [reflexivity|].
  split; [|reflexivity]. match type of H with Ok ?x = Ok _ => assert (X : cs = x) by (injection H; auto); clear H; subst cs end.
  rewrite flat_map_app, nodes_calls. unfold nodes_in. rewrite nodes_calls. cbn [app]. rewrite <- !app_assoc. cbn [app]. now rewrite leaves_filter.
Qed.

(** ** The sheet in a file *)

Lemma sheet_flow_extra lb ign ds sh cs : write_sheet ds sh = Ok cs -> sheet_fine sh ->
  exists sh' ts a inner, table_through lb ign ds (bare sh) = Ok sh' /\ tb_extra sh' = []
  /\ map norm ts = map (fun x => norm (broken lb x)) (filter stays (tb_extra sh))
  /\ flows lb cs ((EStart t_table a :: inner ++ [EEnd t_table; EText (nl lb)]) ++ flat_map (node_events lb) (filter leaves (tb_extra sh)))
  /\ forall rest, read_table ign (EStart t_table a :: coalesce (inner ++ EEnd t_table :: EText (nl lb) :: rest)) = Ok (with_extra ts sh', coalesce (EText (nl lb) :: rest)).
Proof.
  intros H (Ok0 & Hh & Hg & He). destruct (sheet_parts ds sh cs H) as (a & b & Ea & Eb & -> & H0).
  pose proof Ok0 as ((Hs & Hc) & Hr & Hra & Hn).
  set (T := flat_map (TableModel.item_calls ds) b ++ [CEnd t_table]) in *. set (pre := filter stays (tb_extra sh)). set (post := filter leaves (tb_extra sh)).
  assert (Xpre : Forall extra_ok pre) by (apply Forall_forall; intros x I; apply filter_In in I as (I & _); rewrite Forall_forall in He; auto).
  assert (Xpost : Forall extra_ok post) by (apply Forall_forall; intros x I; apply filter_In in I as (I & _); rewrite Forall_forall in He; auto).
  assert (Nm : forall l, Forall extra_ok l -> Forall names_ok l) by (intros l; apply Forall_impl; intros [t|n a' c] X; [destruct X|apply X]).
  pose proof (flows_nodes lb pre (Nm _ Xpre)) as (P1 & P2 & P3 & P4). pose proof (flows_nodes lb post (Nm _ Xpost)) as Fpost.
  assert (Ga : Forall good_attr a) by (eapply table_attrs_good; exact Ea).
  destruct (table_walk cell_calls_ok [t_table] (bare sh) b Eb Hn Hs) as (Tg & Fi); auto; [|apply Hr|].
  { eapply Forall_impl; [|exact Hc]. intros kv (A & B). now apply writable_names. }
  assert (Sn : forall q, sensible q T) by (apply sensible_items; [exact Fi|]; intros q; apply sn_end; [name_lit|constructor]).
  assert (Ns : calls_nested [t_table] T) by (eapply tags_nested; [exact Fi|exact Tg|]; cbn; auto).
  assert (Fl : flushes T) by (unfold T; destruct b as [|i b']; [exact I|]; cbn [flat_map]; rewrite <- app_assoc; destruct i as [| | | |[]]; exact I).
  destruct (asked_last_end lb t_table (flat_map (TableModel.item_calls ds) b) None) as (inner & Ei). fold T in Ei.
  (* the bare sheet *)
  destruct (sheet_flow_asked lb ign ds (bare sh) _ H0 Ok0 Hh Hg) as (sh' & a0 & inner0 & T0 & _ & F0 & R0).
  assert (A0 : asked esc_split lb None (CElem t_table :: a ++ T) = EStart t_table (attrs_of a) :: inner ++ [EEnd t_table; EText (nl lb)]).
  { cbn [asked finish app]. rewrite asked_attr_calls by now apply FlowProofs.good_is_attr. rewrite asked_flush by exact Fl. cbn [finish app]. now rewrite Ei. }
  rewrite A0 in F0.
  injection F0 as <- F0.  apply app_inv_tail in F0. subst inner0.
  (* the sheet *)
  destruct (nodes_pass lb pre Xpre) as (ts & En & Pn). { apply Forall_forall. intros x I. apply filter_In in I as (_ & I). now rewrite I. }
  assert (Ex : tb_extra sh' = []).
  { destruct (table_back lb ign ds (bare sh) _ (fun _ => True) (fun _ _ => True) H0 Ok0 Hh Hg I (fun _ _ _ => I) (fun _ _ _ _ => I)) as (t' & hs & T' & _ & _ & _ & _ & _ & _ & _ & Hd & _).
    assert (t' = sh') by congruence. subst t'. destruct Hd as (_ & _ & _ & _ & E). now rewrite <- E. }
  exists sh', ts, (attrs_of a), (flat_map (node_events lb) pre ++ inner). split; [exact T0|]. split; [exact Ex|]. split; [exact En|]. split.
  - apply flows_app; [|exact Fpost].
    replace (EStart t_table (attrs_of a) :: (flat_map (node_events lb) pre ++ inner) ++ [EEnd t_table; EText (nl lb)])
      with (asked esc_split lb None (CElem t_table :: a ++ flat_map write_node pre ++ T)).
    + apply flows_any; [exact I| |].
      * apply sn_elem; [name_lit|]. apply sensible_attr_calls; [exact Ga|]. apply P2. exact Sn.
      * cbn [calls_nested]. apply nested_attr_calls; [now apply FlowProofs.good_is_attr|]. apply P3. exact Ns.
    + cbn [asked finish app]. rewrite asked_attr_calls by now apply FlowProofs.good_is_attr. rewrite P4 by exact Fl. cbn [finish app]. rewrite Ei, <- app_assoc. reflexivity.
  - intros rest. specialize (R0 rest). unfold read_table in *. apply bind_ok in R0 as (s0 & E0 & R0). rewrite E0. cbn [bind] in *. apply bind_ok in R0 as ((s1 & r1) & L0 & R0).
    injection R0 as <- ->. rewrite <- app_assoc.
    rewrite Pn by (exists inner, (EEnd t_table), (EText (nl lb) :: rest); split; [reflexivity|exact I]).
    assert (Z : tb_extra s0 = []).
    { enough (G : forall l s x, TableModel.fold_attrs table_attr s l = Ok x -> tb_extra x = tb_extra s) by (rewrite (G _ _ _ E0); reflexivity).
      clear. induction l as [|kv l IH]; intros s x H; cbn [TableModel.fold_attrs] in H; [now injection H as <-|]. apply bind_ok in H as (s1 & E & H). rewrite (IH _ _ H). clear IH H. destruct s as [n st pr p d e cs rs gc gr hc hr m]. unfold table_attr in E.
      repeat match type of E with (if ?c then _ else _) = _ => destruct c end; try (injection E as <-; reflexivity); apply bind_ok in E as (z & _ & E); injection E as <-; reflexivity. }
    replace (on_sheet (behind ts) (TS s0 0 0 false 0 [] 1 0 [])) with (add_nodes ts (TS s0 0 0 false 0 [] 1 0 [])).
    2: { unfold add_nodes, on_sheet, behind, more. cbn [ts_sheet]. rewrite Z, app_nil_r. reflexivity. }
    rewrite loop_more. unfold coalesce in L0. unfold coalesce. rewrite L0. cbn [lift bind fst snd]. do 2 f_equal. unfold add_nodes, on_sheet, more. cbn [ts_sheet]. now rewrite Ex, app_nil_r.
Qed.

(** A written table, read again. *)
From Verif Require Import Base Lib OMap OMapProofs XmlModel XmlSpec XmlProofs RefsModel CellModel HeaderModel HeaderSpec HeaderProofs
  SplitModel NumModel EnumModel CellIoModel CellIoSpec CellIoProofs TableModel TableRun TableCells TableCols.

(** The attributes of the table. *)
Definition head_of (sh : sheet) (r : option (list cellrange)) : sheet :=
  Sheet (tb_name sh) (tb_style sh) r (tb_print sh) (tb_display sh) [] [] [] [] [] None None [].
Definition ranges_read (sh : sheet) (r : option (list cellrange)) : Prop :=
  match tb_ranges sh with None => r = None | Some l => exists t, format_cellranges l = Ok t /\ parse_cellranges t = Ok r end.
Lemma attrs_app_head n v l : attrs_of (CAttrEsc n v :: l) = [(n, v)] ++ attrs_of l.
Proof. reflexivity. Qed.
Lemma read_table_attrs sh a r : table_attrs sh = Ok a -> ranges_read sh r ->
  Forall is_attr a /\ fold_attrs table_attr sheet0 (attrs_of a) = Ok (head_of sh r).
Proof.
  unfold table_attrs, ranges_read, head_of. destruct sh as [n st pr p d e cs rs gc gr hc hr m].
  cbn [tb_name tb_style tb_ranges tb_print tb_display]. intros H Hr. destruct pr as [l|].
  - destruct Hr as (t & Ht & Hp). rewrite Ht in H. cbn [bind] in H.
    match type of H with Ok ?x = Ok _ => assert (Ea : a = x) by (injection H; auto); clear H; subst a end. split.
    + constructor; [discriminate|]. rewrite !Forall_app. split; [apply opt_attr_attr|]. split; [constructor; [discriminate|constructor]|].
      split; [destruct p|destruct d]; try apply Forall_nil; (constructor; [discriminate|constructor]).
    + rewrite attrs_app_head, attrs_of_app.
      change (attrs_of ([CAttrEsc (lit "table:print-ranges") t] ++ ?x)) with ([(lit "table:print-ranges", t)] ++ attrs_of x). rewrite attrs_of_app, fold_attrs_app.
      replace (fold_attrs table_attr sheet0 [(lit "table:name", n)]) with (Ok (Sheet n None None true true [] [] [] [] [] None None [])) by reflexivity.
      cbn [bind]. rewrite fold_attrs_app.
      replace (fold_attrs table_attr (Sheet n None None true true [] [] [] [] [] None None []) (attrs_of (opt_attr a_style st))) with (Ok (Sheet n st None true true [] [] [] [] [] None None [])) by (destruct st; reflexivity).
      cbn [bind]. rewrite fold_attrs_app.
      replace (fold_attrs table_attr (Sheet n st None true true [] [] [] [] [] None None []) [(lit "table:print-ranges", t)]) with (let* l := parse_cellranges t in Ok (Sheet n st l true true [] [] [] [] [] None None []))
        by (cbn [attrs_of attr_of fold_attrs]; unfold table_attr; cbn [fst snd];
            change (str_eqb (lit "table:print-ranges") (lit "table:name")) with false; change (str_eqb (lit "table:print-ranges") a_style) with false;
            change (str_eqb (lit "table:print-ranges") (lit "table:print")) with false; change (str_eqb (lit "table:print-ranges") a_disp) with false;
            change (str_eqb (lit "table:print-ranges") (lit "table:print-ranges")) with true; cbv iota; destruct (parse_cellranges t); reflexivity).
      rewrite Hp. cbn [bind]. destruct p, d; reflexivity.
  - subst r. cbn [bind] in H.
    match type of H with Ok ?x = Ok _ => assert (Ea : a = x) by (injection H; auto); clear H; subst a end. split.
    + constructor; [discriminate|]. rewrite !Forall_app. split; [apply opt_attr_attr|]. split; [constructor|].
      split; [destruct p|destruct d]; try apply Forall_nil; (constructor; [discriminate|constructor]).
    + destruct st, p, d; reflexivity.
Qed.

Lemma grid_bound (m : cells) mx : used_grid_size m = Ok mx ->
  fst mx <= u32_max /\ snd mx <= u32_max /\ forall p c, In (p, c) m -> fst p < fst mx /\ snd p < snd mx.
Proof.
  unfold used_grid_size. intros H. cbv zeta in H.
  assert (G : forall (l : cells) a, let z := fold_left (fun mx kv => (N.max (fst mx) (fst (fst kv)), N.max (snd mx) (snd (fst kv)))) l a in
    fst a <= fst z /\ snd a <= snd z /\ forall p c, In (p, c) l -> fst p <= fst z /\ snd p <= snd z).
  { induction l as [|[q x] l IH]; intros a; cbn [fold_left]; cbv zeta; [repeat split; try lia; contradiction|].
    specialize (IH (N.max (fst a) (fst q), N.max (snd a) (snd q))). cbv zeta in IH. cbn [fst snd] in *. destruct IH as (A & B & C).
    split; [lia|]. split; [lia|]. intros p c [I|I]; [injection I as -> _; lia|]. eauto. }
  assert (G2 : forall p c, In (p, c) m -> fst p <= fst (grid_max m) /\ snd p <= snd (grid_max m)) by exact (proj2 (proj2 (G m (0, 0)))).
  destruct (add32 (fst (grid_max m)) 1) as [a'| |] eqn:Ea; try discriminate. cbn [bind] in H.
  destruct (add32 (snd (grid_max m)) 1) as [b'| |] eqn:Eb; try discriminate. cbn [bind] in H.
  injection H as <-. apply add32_ok in Ea. apply add32_ok in Eb. cbn [fst snd]. split; [lia|]. split; [lia|]. intros p c I. specialize (G2 _ _ I). lia.
Qed.
Lemma disjoint_total {A} (m : hmap A) : disjoint m -> forall k, exists o, valid_header k m = Ok o.
Proof.
  intros (S & U & _) k. unfold valid_header. destruct (om_floor k m) as [[b h]|] eqn:F; [|eauto]. apply floor_some in F; [|exact S].
  unfold in_span, add32. specialize (U _ _ (proj1 F)). destruct (b + h_span h <=? u32_max) eqn:E; [|lia]. cbn. eauto.
Qed.

Definition head_same (a b : sheet) : Prop :=
  tb_name a = tb_name b /\ tb_style a = tb_style b /\ tb_print a = tb_print b /\ tb_display a = tb_display b /\ tb_extra a = tb_extra b.
Definition row_expected (sh : sheet) (k : N) (stored : bool) : option rowattr :=
  row_final (row_repeat_at (tb_rows sh) k) (row_result sh k) stored.

(** Reading the table part by part. *)
Lemma table_events lb ign ds sh cs r body s : write_sheet ds sh = Ok cs -> tb_extra sh = [] -> ranges_read sh r ->
  table_items sh = Ok body -> steps lb ign ds (TS (head_of sh r) 0 0 false 0 [] 1 0 []) body s ->
  read_table ign (events_of lb cs) = Ok (ts_sheet s, coalesce [EText (nl lb)]).
Proof.
  unfold write_sheet. intros H He Hr Hb (Hs & Hf). destruct (table_attrs sh) as [a| |] eqn:Ea; try discriminate. cbn [bind] in H.
  rewrite Hb in H. cbn [bind] in H. rewrite He in H. cbn [nodes_in filter map flat_map] in H.
  match type of H with Ok ?x = Ok _ => assert (E : cs = x) by (injection H; auto); clear H; subst cs end.
  destruct (read_table_attrs sh a r Ea Hr) as (A1 & A2).
  unfold events_of. cbn [asked finish app]. rewrite asked_attr_calls by exact A1. cbn [app].
  assert (Hfl : flushes (flat_map (item_calls ds) body ++ [CEnd t_table])).
  { destruct body as [|i body]; [exact I|]. cbn [flat_map]. rewrite <- app_assoc. inversion Hf; subst. eapply item_flushes; eassumption. }
  rewrite asked_flush by exact Hfl. cbn [finish app]. unfold coalesce at 1. rewrite coalesce_cons by exact I. cbn [emit_text app].
  fold (coalesce (EText (nl lb) :: asked esc_split lb None (flat_map (item_calls ds) body ++ [CEnd t_table]))).
  unfold read_table. rewrite A2. cbn [bind].
  match goal with |- bind (table_loop ign ?s0 MTable ?e) _ = _ =>
    assert (T : table_loop ign s0 MTable e = Ok (s, coalesce [EText (nl lb)])) end.
  { etransitivity; [apply skip_text|]. rewrite (read_items lb ign ds body _ s [CEnd t_table]); [apply read_end|exact Hf|exact I|exact Hs]. }
  rewrite T. reflexivity.
Qed.

Lemma table_read lb ign ds sh cs r (P : N -> Prop) (Q : N -> option colattr -> Prop) :
  write_sheet ds sh = Ok cs -> tb_extra sh = [] -> ranges_read sh r -> om_sorted pltb (tb_cells sh) ->
  Forall (fun kv => cell_fine lb (snd kv) /\ row_fine sh (fst (fst kv))) (tb_cells sh) ->
  P 0 -> (forall c, P c -> 1 <= chunk_span sh c -> P (c + chunk_span sh c)) ->
  (forall c k, P c -> c <= k < c + chunk_span sh c -> Q k (chunk_seen sh c)) ->
  exists sh' hs, read_table ign (events_of lb cs) = Ok (sh', coalesce [EText (nl lb)])
    /\ hide_cells [] (tb_cells sh) = Ok hs /\ tb_cells sh' = placed lb ign ds (tb_cols sh') (tb_cells sh) hs []
    /\ disjoint (tb_rows sh') /\ (forall k, in_row (tb_cells sh) k -> cov (tb_rows sh') k = row_expected sh k (has_row (tb_cells sh') k))
    /\ disjoint (tb_cols sh')
    /\ (exists C mx, max_col (match used_grid_size (tb_cells sh) with Ok g => snd g | _ => 0 end) (tb_gcols sh) (tb_hcols sh) = Ok mx
          /\ mx <= C /\ (forall k, k < C -> Q k (cov (tb_cols sh') k)) /\ (forall k, C <= k -> cov (tb_cols sh') k = None))
    /\ head_same sh sh' /\ tb_ranges sh' = r /\ rows_low (tb_rows sh')
    /\ exists body s2, table_items sh = Ok body /\ steps lb ign ds (TS (head_of sh r) 0 0 false 0 [] 1 0 []) body s2 /\ sh' = ts_sheet s2.
Proof.
  intros H He Hr Hs Hf P0 Pn Qc.
  assert (Hi : exists body, table_items sh = Ok body).
  { unfold write_sheet in H. destruct (table_attrs sh); try discriminate. cbn [bind] in H. destruct (table_items sh); try discriminate. eauto. }
  destruct Hi as [body Hb]. pose proof Hb as Hb0. unfold table_items in Hb.
  destruct (used_grid_size (tb_cells sh)) as [mx| |] eqn:Eg; try discriminate. cbn [bind] in Hb.
  destruct (write_table_columns sh (snd mx)) as [cols| |] eqn:Ec; try discriminate. cbn [bind] in Hb.
  destruct (write_cells sh mx None [] (WST 0 false) (tb_cells sh)) as [rows| |] eqn:Er; try discriminate. cbn [bind] in Hb.
  rewrite He in Hb. cbn [nodes_in filter map app] in Hb. injection Hb as <-.
  destruct (grid_bound _ _ Eg) as (G1 & G2 & G3).
  unfold write_table_columns in Ec. destruct (max_col (snd mx) (tb_gcols sh) (tb_hcols sh)) as [mc| |] eqn:Em; try discriminate. cbn [bind] in Ec.
  set (s0 := TS (head_of sh r) 0 0 false 0 [] 1 0 []).
  destruct (step_write_cols lb ign ds sh Q P Pn Qc mc (N.to_nat mc) 0 cols s0 Ec P0) as (C & s1 & (S1 & R1) & (C1 & C2 & C3 & C4 & C5) & _ & C6).
  { split; [reflexivity|]. split; [apply disjoint_nil|]. split; [intros b h []|]. split; [constructor|]. intros k Hk. lia. }
  assert (C7 : mc <= C) by (apply C6; lia).
  destruct R1 as (R1 & R2 & R3 & R4 & R5 & R6 & R7 & R8 & R9 & R10 & R11 & R12 & R13).
  cbn [s0 ts_row ts_data ts_sheet head_of tb_cells tb_rows ts_rgroup tb_grows tb_hrows tb_name tb_style tb_ranges tb_print tb_display tb_extra] in *.
  set (G := fun k x b => in_row (tb_cells sh) k -> x = row_expected sh k b).
  set (free := fun k => ~ in_row (tb_cells sh) k).
  assert (B0 : between (tb_cols (ts_sheet s1)) G [] 0 s1).
  { repeat (split; [assumption || reflexivity|]). split; [|split].
    - rewrite R4. split; [apply disjoint_nil|reflexivity].
    - reflexivity.
    - split; [intros k Hk; lia|]. rewrite R4. intros b h []. }
  assert (Hrows : exists hs R s2, hide_cells [] (tb_cells sh) = Ok hs /\ steps lb ign ds s1 rows s2
    /\ between (tb_cols (ts_sheet s1)) G (placed lb ign ds (tb_cols (ts_sheet s1)) (tb_cells sh) hs []) R s2
    /\ Forall (fun kv => fst (fst kv) < R) (tb_cells sh)).
  { destruct (tb_cells sh) as [|kv l] eqn:El.
    - injection Er as <-. exists [], 0, s1. split; [reflexivity|]. split; [apply steps_nil|]. split; [exact B0|constructor].
    - assert (Gf : forall k x, free k -> G k x false) by (intros k x Hk Hin; contradiction).
      assert (Gd : forall k d, row_fine sh k -> G k (row_final (row_repeat_at (tb_rows sh) k) (row_result sh k) d) d) by (intros k d _ _; reflexivity).
      destruct (step_cells lb ign ds (tb_cols (ts_sheet s1)) G (disjoint_total _ C2) sh free Gf Gd mx _ _ _ _ _ [] s1 Er)
        as (hs & Hh & R & s2 & S2 & B2 & F2).
      + discriminate.
      + exact Hs.
      + rewrite Forall_forall in *. intros [p c] I. specialize (Hf _ I). cbn [fst snd] in *. specialize (G3 _ _ I). tauto.
      + exact G1.
      + exact G2.
      + intros k _ Hk. exact Hk.
      + intros kv' r' E. injection E as <- <-. cbn [before]. split; [exact B0|]. split; [reflexivity|]. intros k Hk (c & x & [I|I]).
        * subst kv. cbn in Hk. lia.
        * destruct kv as [p y]. destruct Hs as [Hs _]. rewrite Forall_forall in Hs. specialize (Hs _ I). unfold pltb in Hs. cbn [fst] in *. lia.
      + exists hs, R, s2. auto. }
  destruct Hrows as (hs & R & s2 & Hh & S2 & (B1 & B2 & B3 & B4 & (B5 & B6) & B7 & B8 & B9) & F2).
  pose proof (steps_app _ _ _ _ _ _ _ _ S1 S2) as S12.
  exists (ts_sheet s2), hs. split; [exact (table_events lb ign ds sh cs r _ s2 H He Hr Hb0 S12)|]. split; [exact Hh|]. rewrite B1.
  split; [exact B2|]. split; [exact B5|]. split.
  - intros k (c & x & I). rewrite Forall_forall in F2. specialize (F2 _ I). cbn [fst] in F2. rewrite B2. apply (B8 k F2). exists c, x. exact I.
  - split; [exact C2|]. split.
    + exists C, mc. split; [reflexivity|]. split; [exact C7|]. split; [exact C5|]. intros k Hk. unfold cov.
      destruct (om_floor k (tb_cols (ts_sheet s1))) as [[b h]|] eqn:F; [|reflexivity]. apply floor_some in F; [|apply C2].
      specialize (C3 _ _ (proj1 F)). destruct (k <? b + h_span h) eqn:X; [lia|reflexivity].
    + destruct S2 as (S2 & S2f). pose proof (run_head lb ign ds rows s1 s2 S2f S2) as Hh2. unfold head_part in Hh2. injection Hh2 as T1 T2 T3 T4 T5 T6.
      unfold head_same. rewrite T1, T2, T4, T5, T6, R8, R9, R11, R12, R13, He, T3, R10. split; [repeat split|split; [reflexivity|split; [exact B9|]]]. eexists. exists s2. split; [exact Hb0|]. split; [exact S12|reflexivity].
Qed.

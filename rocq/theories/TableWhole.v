(** From the conditions of the specification to the lemmas about tables. *)
From Coq Require Import Sorted.
From Verif Require Import Base Lib OMap OMapProofs XmlModel XmlSpec XmlProofs RefsModel RefsSpec RefsProofs CellModel HeaderModel HeaderSpec HeaderProofs
  SplitModel SplitSpec SplitProofs NumModel EnumModel CellIoModel CellIoSpec CellIoProofs DrawProofs RichProofs CellIoProps TableModel TableSpec TableRun TableCells TableCols TableRead TableNested TablePlaced.

Lemma writable_fine lb c : writable (c_value c) -> extra_ok c -> cell_fine lb c.
Proof.
  intros W He. split; [exact He|]. split; [exact (proj1 W)|]. destruct (body_any lb _ W) as (t & Hb & _). exists t. split; [exact Hb|]. intros Hn. now apply flushes_any.
Qed.
Lemma writable_names c : writable (c_value c) -> extra_ok c -> cell_calls_ok c.
Proof.
  intros (Hp & Hx) He. split; [exact Hp|]. now apply ok_names.
Qed.
Lemma repeats_at rows r : om_sorted N.ltb rows -> repeats rows r (row_repeat_at rows r).
Proof.
  intros Hs. unfold row_repeat_at. destruct (hget r rows) as [h|] eqn:E.
  - left. exists h. split; [apply (hget_in r h rows Hs), E|reflexivity].
  - right. split; [|reflexivity]. intros h I. apply (hget_in r h rows Hs) in I. congruence.
Qed.
Lemma repeats_fun rows r n : om_sorted N.ltb rows -> repeats rows r n -> n = row_repeat_at rows r.
Proof.
  intros Hs. unfold row_repeat_at. intros [(h & I & <-)|(N & ->)].
  - apply (hget_in r h rows Hs) in I. now rewrite I.
  - destruct (hget r rows) as [h|] eqn:E; [|reflexivity]. apply (hget_in r h rows Hs) in E. exfalso. eapply N. exact E.
Qed.
Lemma rows_fine sh : rows_ok (tb_cells sh) (tb_rows sh) -> (forall p c, In (p, c) (tb_cells sh) -> fst p < u32_max) ->
  forall p c, In (p, c) (tb_cells sh) -> row_fine sh (fst p).
Proof.
  intros (Hd & Hr) Hb p c I. set (r := fst p) in *.
  assert (Hu : row_used (tb_cells sh) r) by (exists (snd p), c; destruct p; exact I). destruct (Hr r Hu) as (R1 & R2). pose proof (Hb _ _ I) as L. fold r in L.
  unfold row_fine. destruct Hd as (Hs & Hd2 & Hd3).
  assert (Hrep : 1 <= row_repeat_at (tb_rows sh) r /\ r + row_repeat_at (tb_rows sh) r <= u32_max).
  { unfold row_repeat_at. destruct (hget r (tb_rows sh)) as [h|] eqn:E; [|lia]. apply (hget_in r h _ Hs) in E. specialize (R1 _ E). lia. }
  split; [|exact Hrep]. intros o Ho. unfold valid_header in Ho. destruct (om_floor r (tb_rows sh)) as [[b h]|] eqn:F.
  - apply floor_some in F as (F1 & F2 & F3); [|exact Hs]. unfold row_repeat_at.
    destruct (hget r (tb_rows sh)) as [h'|] eqn:E.
    + pose proof E as E'. apply (hget_in r h' _ Hs) in E'. assert (r <= b) by (apply (F3 _ _ E'); lia). assert (b = r) by lia. subst b.
      apply (hget_in r h _ Hs) in F1. assert (h = h') by congruence. subst h'. specialize (R1 _ E').
      unfold in_span in Ho. destruct (add32 r (h_span h)) as [e| |] eqn:Ea; try discriminate. cbn [bind] in Ho. apply add32_ok in Ea.
      destruct ((r <=? r) && (r <? e)) eqn:Z; [|lia]. injection Ho as <-. reflexivity.
    + unfold in_span in Ho. destruct (add32 b (h_span h)) as [e| |] eqn:Ea; try discriminate. cbn [bind] in Ho. apply add32_ok in Ea.
      assert (b <> r) by (intros ->; apply (hget_in r h _ Hs) in F1; congruence).
      destruct ((b <=? r) && (r <? e)) eqn:Z; injection Ho as <-; [|reflexivity]. apply (R2 b h); [|lia].
      split; [exact F1|]. split; [lia|]. split; [lia|]. exact F3.
  - injection Ho as <-. unfold row_repeat_at. destruct (hget r (tb_rows sh)) as [h|] eqn:E; [|reflexivity]. apply (hget_in r h _ Hs) in E.
    exfalso. pose proof (proj1 (floor_none r _ Hs) F _ _ E). lia.
Qed.
Lemma ranges_readable sh a : table_attrs sh = Ok a -> ranges_ok (tb_ranges sh) -> ranges_read sh (tb_ranges sh).
Proof.
  unfold table_attrs, ranges_read, ranges_ok. destruct (tb_ranges sh) as [l|]; [|auto]. intros H (Hn & Hf).
  destruct (format_cellranges l) as [t| |] eqn:E; try discriminate. exists t. split; [reflexivity|]. now apply cellranges_roundtrip.
Qed.

(** ** Names and nesting *)

Lemma table_attrs_good sh a : table_attrs sh = Ok a -> Forall good_attr a.
Proof.
  unfold table_attrs. intros H. match type of H with bind ?X _ = _ => destruct X as [pr| |] eqn:E; try discriminate end. cbn [bind] in H.
  match type of H with Ok ?x = Ok _ => assert (Ea : a = x) by congruence; clear H; subst a end.
  constructor; [name_lit|]. rewrite !Forall_app. split; [apply opt_attr_good; name_lit|]. split.
  - destruct (tb_ranges sh); [|injection E as <-; constructor]. destruct (format_cellranges l); try discriminate. cbn [bind] in E.
    match type of E with Ok ?x = Ok _ => assert (Ea : pr = x) by congruence; clear E; subst pr end. constructor; [name_lit|constructor].
  - split; [destruct (tb_print sh)|destruct (tb_display sh)]; constructor; try constructor; name_lit || (apply plain_value; plain_lit).
Qed.
Lemma groups_max_bound gs : forall m r, groups_max m gs = Ok r -> m <= r /\ forall g, In g gs -> g_to g < r.
Proof.
  induction gs as [|g gs IH]; intros m r H; cbn [groups_max] in H; [injection H as <-; split; [lia|contradiction]|].
  destruct (add32 (g_to g) 1) as [t| |] eqn:E; try discriminate. cbn [bind] in H. apply add32_ok in E. apply IH in H as (H1 & H2).
  split; [lia|]. intros x [<-|I]; [lia|auto].
Qed.
Lemma max_col_bound w gs hc r : max_col w gs hc = Ok r -> w <= r /\ (forall g, In g gs -> g_to g < r) /\ (forall f t, hc = Some (f, t) -> t < r).
Proof.
  unfold max_col. destruct (groups_max w gs) as [m| |] eqn:E; try discriminate. cbn [bind]. apply groups_max_bound in E as (E1 & E2).
  destruct hc as [[f t]|].
  - destruct (add32 t 1) as [t1| |] eqn:Et; try discriminate. cbn [bind]. apply add32_ok in Et. intros H. injection H as <-.
    split; [lia|]. split; [intros g I; specialize (E2 g I); lia|]. intros f' t' H. injection H as <- <-. lia.
  - intros H. injection H as <-. split; [lia|]. split; [exact E2|discriminate].
Qed.
Lemma table_walk Pc st sh body : table_items sh = Ok body -> tb_extra sh = [] ->
  om_sorted pltb (tb_cells sh) -> Forall (fun kv => Pc (snd kv)) (tb_cells sh) ->
  header_rows_full sh -> om_sorted N.ltb (tb_rows sh) -> col_groups_apart sh -> walk Pc st body st.
Proof.
  unfold table_items. intros H He Hs Hc Hh Hr (Hd & Hg).
  destruct (used_grid_size (tb_cells sh)) as [mx| |] eqn:Em; try discriminate. cbn [bind] in H.
  destruct (write_table_columns sh (snd mx)) as [cols| |] eqn:Ec; try discriminate. cbn [bind] in H.
  destruct (write_cells sh mx None [] (WST 0 false) (tb_cells sh)) as [rows| |] eqn:Er; try discriminate. cbn [bind] in H.
  rewrite He in H. cbn [nodes_in filter map app] in H. injection H as <-.
  unfold write_table_columns in Ec. destruct (max_col (snd mx) (tb_gcols sh) (tb_hcols sh)) as [mc| |] eqn:Ex; try discriminate. cbn [bind] in Ec.
  apply max_col_bound in Ex as (X1 & X2 & X3).
  eapply walk_app; [instantiate (1 := st)|].
  - replace st with (cgroups (open_at 0 (tb_gcols sh)) st) at 1.
    + apply (walk_cols Pc st sh Hd) with (mx := mc) (n := N.to_nat mc); try lia; auto.
      * intros g I. now destruct (Hg g I).
      * intros g I. destruct (Hg g I) as (G1 & G2 & G3). split; [exact G2|exact G3].
      * intros (b & h & _ & L). lia.
    + unfold open_at. induction (tb_gcols sh) as [|g gs IH]; [reflexivity|]. cbn [filter]. destruct (g_from g <? 0) eqn:E; [lia|]. cbn [andb]. apply IH; intros; [apply X2|apply Hg]; now right.
  - destruct (tb_cells sh) as [|kv l] eqn:El; [injection Er as <-; apply walk_nil|]. rewrite <- El in *.
    change st with (wstack st None (WST 0 false)) at 1.
    apply (walk_cells Pc st sh (tb_cells sh)) with (mx := mx) (spans := []) (l := tb_cells sh); auto.
    + intros f t Ef. destruct (Hh f t Ef) as (H1 & H2). split; [exact H1|]. intros k Hk. destruct (H2 k Hk) as [(r & n & R1 & R2 & R3)|R].
      * left. exists r. split; [exact R1|]. apply repeats_fun in R2; [|exact Hr]. now subst n.
      * right. exact R.
    + rewrite El. discriminate.
    + split; [auto|]. split; [reflexivity|auto].
Qed.
Lemma table_nested ds sh cs : write_sheet ds sh = Ok cs -> tb_extra sh = [] ->
  om_sorted pltb (tb_cells sh) -> header_rows_full sh -> om_sorted N.ltb (tb_rows sh) -> col_groups_apart sh -> calls_nested [] cs.
Proof.
  unfold write_sheet. intros H He Hs Hh Hr Hg. destruct (table_attrs sh) as [a| |] eqn:Ea; try discriminate. cbn [bind] in H.
  destruct (table_items sh) as [body| |] eqn:Eb; try discriminate. cbn [bind] in H. rewrite He in H. cbn [nodes_in filter map flat_map] in H.
  match type of H with Ok ?x = Ok _ => assert (E : cs = x) by (injection H; auto); clear H; subst cs end.
  cbn [calls_nested]. apply nested_attr_calls; [apply good_is_attr; eapply table_attrs_good; exact Ea|].
  destruct (table_walk (fun _ => True) [t_table] sh body Eb He Hs) as (T & F); auto.
  { apply Forall_forall. auto. }
  eapply tags_nested; [exact F|exact T|]. cbn. auto.
Qed.

Lemma table_sensible ds sh cs : write_sheet ds sh = Ok cs -> tb_extra sh = [] ->
  cells_ok (tb_cells sh) -> header_rows_full sh -> om_sorted N.ltb (tb_rows sh) -> col_groups_apart sh -> sensible false cs.
Proof.
  unfold write_sheet. intros H He (Hs & Hc) Hh Hr Hg. destruct (table_attrs sh) as [a| |] eqn:Ea; try discriminate. cbn [bind] in H.
  destruct (table_items sh) as [body| |] eqn:Eb; try discriminate. cbn [bind] in H. rewrite He in H. cbn [nodes_in filter map flat_map] in H.
  match type of H with Ok ?x = Ok _ => assert (E : cs = x) by (injection H; auto); clear H; subst cs end.
  apply sn_elem; [name_lit|]. apply sensible_attr_calls; [eapply table_attrs_good; exact Ea|].
  destruct (table_walk cell_calls_ok [t_table] sh body Eb He Hs) as (T & F); auto.
  { eapply Forall_impl; [|exact Hc]. intros kv (A & B). now apply writable_names. }
  apply sensible_items; [exact F|]. intros q. apply sn_end; [name_lit|constructor].
Qed.

(** ** What is read of one piece *)

Lemma piece_content lb ign ds cm c s : writable (c_value c) -> extra_ok c -> s_col s <= s_to s -> s_to s - s_col s + 1 <= u32_max ->
  exists K, read_as lb ds c (s_to s - s_col s + 1) K
    /\ (not_stored ign (dflt_at cm (s_col s)) K -> piece_read lb ign ds cm c s = None)
    /\ (~ not_stored ign (dflt_at cm (s_col s)) K -> exists x, piece_read lb ign ds cm c s = Some x /\ cell_content x = K)
    /\ (not_stored ign (dflt_at cm (s_col s)) K \/ ~ not_stored ign (dflt_at cm (s_col s)) K).
Proof.
  intros Hw He L1 L2. set (k := s_to s - s_col s + 1) in *. destruct (body_any lb _ Hw) as (t & Hb & Hv).
  destruct (read_written_kept lb ign (dflt_at cm (s_col s)) ds c (s_hidden s) k t He ltac:(lia) (proj1 Hw) Hb) as (d & o & Hd & Ho & Co); [now apply flushes_any|].
  set (K := result ds d (found (c_value c) t) k) in *. exists K.
  assert (P : piece_read lb ign ds cm c s = o).
  { unfold piece_read, cell_read, cell_out, events_of. specialize (Ho []). rewrite app_nil_r in Ho. fold k. rewrite Ho. reflexivity. }
  split; [exists (found (c_value c) t), d; split; [exact Hv|]; split; [exact Hd|]; unfold K, result; now rewrite (kept_style lb ds c d Hd)|].
  unfold not_stored. rewrite <- void_nothing, P. cbv zeta in Co. destruct (void_b ign (dflt_at cm (s_col s)) K).
  - split; [destruct o; [discriminate|reflexivity]|]. split; [congruence|auto].
  - split; [discriminate|]. split; [|right; discriminate]. intros _. destruct o as [x|]; [|discriminate]. exists x. split; [reflexivity|]. cbn in Co. now injection Co.
Qed.
Lemma dflt_report (cm : hmap colattr) b : disjoint cm -> col_cellstyle b cm = Ok (dflt_at cm b).
Proof.
  intros Hd. unfold col_cellstyle, col_report, dflt_at. destruct (disjoint_total cm Hd b) as (o & Ho). rewrite Ho. cbn [bind]. destruct o; reflexivity.
Qed.
Lemma content_repeat c : k_repeat (cell_content c) = c_repeat c.
Proof. destruct c as [? ? ? ? [|]]; reflexivity. Qed.

(** The written characters, read again. *)
Definition table_through (lb ign : bool) (ds : vtype -> option str) (sh : sheet) : res sheet :=
  let* cs := write_sheet ds sh in
  let* evs := read_events (render lb cs) in
  let* (sh', _) := read_table ign evs in Ok sh'.

Lemma table_back lb ign ds sh cs (P : N -> Prop) (Q : N -> option colattr -> Prop) :
  write_sheet ds sh = Ok cs -> sheet_ok sh -> header_rows_full sh -> col_groups_apart sh ->
  P 0 -> (forall c, P c -> 1 <= chunk_span sh c -> P (c + chunk_span sh c)) ->
  (forall c k, P c -> c <= k < c + chunk_span sh c -> Q k (chunk_seen sh c)) ->
  exists sh' hs, table_through lb ign ds sh = Ok sh' /\ hide_cells [] (tb_cells sh) = Ok hs
    /\ tb_cells sh' = flat_map (out_of lb ign ds (tb_cols sh')) (flat (tb_cells sh) hs) /\ spaced (tb_cells sh)
    /\ disjoint (tb_rows sh') /\ (forall k, in_row (tb_cells sh) k -> row_fine sh k /\ cov (tb_rows sh') k = row_expected sh k (has_row (tb_cells sh') k))
    /\ disjoint (tb_cols sh')
    /\ (exists C mx, max_col (match used_grid_size (tb_cells sh) with Ok g => snd g | _ => 0 end) (tb_gcols sh) (tb_hcols sh) = Ok mx
          /\ mx <= C /\ (forall k, k < C -> Q k (cov (tb_cols sh') k)) /\ (forall k, C <= k -> cov (tb_cols sh') k = None))
    /\ head_same sh sh' /\ tb_ranges sh' = tb_ranges sh
    /\ (forall p c, In (p, c) (tb_cells sh) -> fst p < u32_max /\ snd p < u32_max).
Proof.
  intros H ((Hs & Hc) & Hr & Hra & He) Hh Hg P0 Pn Qc. pose proof H as H0. unfold write_sheet in H0.
  destruct (table_attrs sh) as [a| |] eqn:Ea; try discriminate. cbn [bind] in H0.
  destruct (table_items sh) as [body| |] eqn:Eb; try discriminate. clear H0. unfold table_items in Eb.
  destruct (used_grid_size (tb_cells sh)) as [mx| |] eqn:Eg; try discriminate. cbn [bind] in Eb.
  destruct (write_table_columns sh (snd mx)) as [cols| |] eqn:Ec; try discriminate. cbn [bind] in Eb.
  destruct (write_cells sh mx None [] (WST 0 false) (tb_cells sh)) as [rows| |] eqn:Er; try discriminate. clear Eb.
  destruct (grid_bound _ _ Eg) as (G1 & G2 & G3). apply write_cells_spaced in Er; [|exact Hs].
  assert (Hrf : forall p c, In (p, c) (tb_cells sh) -> row_fine sh (fst p)).
  { apply rows_fine; [exact Hr|]. intros p c I. specialize (G3 p c I). lia. }
  destruct (table_read lb ign ds sh cs (tb_ranges sh) P Q H He (ranges_readable _ _ Ea Hra) Hs) as (sh' & hs & T1 & T2 & T3 & T4 & T5 & T6 & T7 & T8 & T9 & T10 & T11); auto.
  { rewrite Forall_forall in *. intros [p c] I. cbn [fst snd]. split; [apply writable_fine; apply (Hc _ I)|eapply Hrf; exact I]. }
  exists sh', hs. rewrite Eg in T7. split.
  - unfold table_through. rewrite H. cbn [bind]. rewrite read_events_render.
    + cbn [bind]. rewrite T1. reflexivity.
    + apply (table_sensible ds sh); auto; [now split|]. apply Hr.
    + apply (table_nested ds sh); auto. apply Hr.
  - split; [exact T2|]. rewrite T3 at 1. split; [rewrite (placed_eq _ _ _ _ _ [] hs); auto|].
    split; [exact Er|]. split; [exact T4|]. split; [|repeat (split; [assumption|])].
    + intros k Hk. split; [|now apply T5]. destruct Hk as (b & x & I). apply (Hrf _ _ I).
    + intros p c I. specialize (G3 p c I). lia.
Qed.
Lemma table_low lb ign ds sh cs sh' : write_sheet ds sh = Ok cs -> sheet_ok sh -> header_rows_full sh -> col_groups_apart sh ->
  table_through lb ign ds sh = Ok sh' -> rows_low (tb_rows sh').
Proof.
  intros H ((Hs & Hc) & Hr & Hra & He) Hh Hg T. pose proof H as H0. unfold write_sheet in H0.
  destruct (table_attrs sh) as [a| |] eqn:Ea; try discriminate. cbn [bind] in H0.
  destruct (table_items sh) as [body| |] eqn:Eb; try discriminate. clear H0. unfold table_items in Eb.
  destruct (used_grid_size (tb_cells sh)) as [mx| |] eqn:Eg; try discriminate. clear Eb.
  destruct (grid_bound _ _ Eg) as (G1 & G2 & G3).
  assert (Hrf : forall p c, In (p, c) (tb_cells sh) -> row_fine sh (fst p)).
  { apply rows_fine; [exact Hr|]. intros p c I. specialize (G3 p c I). lia. }
  destruct (table_read lb ign ds sh cs (tb_ranges sh) (fun _ => True) (fun _ _ => True) H He (ranges_readable _ _ Ea Hra) Hs) as (sh2 & hs & T1 & _ & _ & _ & _ & _ & _ & _ & _ & T10 & _); auto.
  { rewrite Forall_forall in *. intros [p c] I. cbn [fst snd]. split; [apply writable_fine; apply (Hc _ I)|eapply Hrf; exact I]. }
  unfold table_through in T. rewrite H in T. cbn [bind] in T. rewrite read_events_render in T.
  - cbn [bind] in T. rewrite T1 in T. cbn [bind] in T. injection T as <-. exact T10.
  - apply (table_sensible ds sh); auto; [now split|]. apply Hr.
  - apply (table_nested ds sh); auto. apply Hr.
Qed.

(** The columns read from the columns of a written table. *)
From Verif Require Import Base Lib OMap OMapProofs XmlModel XmlSpec XmlProofs RefsModel CellModel HeaderModel HeaderSpec HeaderProofs
  SplitModel NumModel EnumModel CellIoModel CellIoSpec CellIoProofs TableModel TableRun TableCells.

(** What is read of the attributes of a column header. *)
Definition col_seen (a : colattr) : option colattr :=
  match ca_style a, ca_cellstyle a, ca_visible a with
  | None, None, Visible => None
  | st, cs, v => Some (mkColAttr st cs v None)
  end.
Lemma read_col_attrs h : 1 <= h_span h <= u32_max ->
  fold_attrs col_attr (1, None) (attrs_of (col_attrs h)) = Ok (h_span h, col_seen (h_attr h)).
Proof.
  intros H. destruct h as [[st cs v w] sp]. unfold col_attrs. cbn [h_attr h_span ca_style ca_cellstyle ca_visible] in *.
  rewrite attrs_of_app, fold_attrs_app.
  assert (E : fold_attrs col_attr (1, None) (attrs_of (num_attr a_crep sp)) = Ok (sp, None)).
  { unfold num_attr. destruct (1 <? sp) eqn:E.
    - cbn [attrs_of attr_of fold_attrs]. unfold col_attr. cbn [fst snd]. change (str_eqb a_crep a_crep) with true. cbv iota. now rewrite raw_u32 by lia.
    - cbn. do 2 f_equal. lia. }
  rewrite E. cbn [bind]. unfold col_seen. cbn [ca_style ca_cellstyle ca_visible]. destruct st, cs, v; reflexivity.
Qed.
Lemma col_attrs_attr h : Forall is_attr (col_attrs h).
Proof. unfold col_attrs. rewrite !Forall_app. repeat split; [apply num_attr_attr|apply opt_attr_attr|apply opt_attr_attr|apply vis_attr_attr]. Qed.

(** Putting a header behind all others. *)
Lemma put_last_disjoint {A} C n (a : A) (m : hmap A) : disjoint m -> (forall b h, In (b, h) m -> b + h_span h <= C) -> 1 <= n -> C + n <= u32_max ->
  Forall (fun kv => fst kv < C) m ->
  disjoint (hput C (mkHdr a n) m) /\ (forall b h, In (b, h) (hput C (mkHdr a n) m) -> b + h_span h <= C + n)
  /\ Forall (fun kv => fst kv < C + n) (hput C (mkHdr a n) m)
  /\ (forall k, cov (hput C (mkHdr a n) m) k = if k <? C then cov m k else if k <? C + n then Some a else None).
Proof.
  intros (S & U & D) B Hn L F. split; [|split; [|split]].
  - split; [apply hput_sorted; exact S|]. split.
    + intros b h I. apply in_put in I; [|exact S]. destruct I as [[-> ->]|[_ I]]; [cbn; lia|eauto].
    + intros b h b' h' I I' Lb. apply in_put in I; [|exact S]. apply in_put in I'; [|exact S].
      destruct I as [[-> ->]|[N1 I]], I' as [[-> ->]|[N2 I']]; cbn [h_span]; try lia.
      * rewrite Forall_forall in F. specialize (F _ I'). cbn in F. lia.
      * eauto.
      * eauto.
  - intros b h I. apply in_put in I; [|exact S]. destruct I as [[-> ->]|[_ I]]; [cbn; lia|]. specialize (B _ _ I). lia.
  - apply Forall_forall. intros [b h] I. apply in_put in I; [|exact S]. destruct I as [[-> ->]|[_ I]]; [cbn; lia|].
    rewrite Forall_forall in F. specialize (F _ I). cbn in *. lia.
  - intros k. unfold cov. rewrite floor_put by exact S. destruct (k <? C) eqn:E; [reflexivity|].
    assert (X : (if k <? C + h_span (mkHdr a n) then Some (h_attr (mkHdr a n)) else None) = if k <? C + n then Some a else None) by reflexivity.
    destruct (om_floor k m) as [[b h]|] eqn:Fl; [|exact X]. apply floor_some in Fl; [|exact S]. destruct Fl as (I & _ & _).
    rewrite Forall_forall in F. specialize (F _ I). cbn in F. destruct (b <=? C) eqn:E2; [exact X|lia].
Qed.

Section Cols.
  Variables (lb ign : bool) (ds : vtype -> option str) (sh : sheet) (Q : N -> option colattr -> Prop) (P : N -> Prop).
  Definition chunk (c : N) : option (hdr colattr) := hget c (tb_cols sh).
  Definition chunk_span (c : N) : N := match chunk c with Some h => h_span h | None => 1 end.
  Definition chunk_seen (c : N) : option colattr := match chunk c with Some h => col_seen (h_attr h) | None => None end.
  Hypothesis P_next : forall c, P c -> 1 <= chunk_span c -> P (c + chunk_span c).
  Hypothesis Q_chunk : forall c k, P c -> c <= k < c + chunk_span c -> Q k (chunk_seen c).

  (** Only the columns and what is about columns changed. *)
  Definition same_rest (s0 s : tstate) : Prop :=
    ts_row s = ts_row s0 /\ ts_data s = ts_data s0 /\ tb_cells (ts_sheet s) = tb_cells (ts_sheet s0) /\ tb_rows (ts_sheet s) = tb_rows (ts_sheet s0)
    /\ ts_rgroup s = ts_rgroup s0 /\ tb_grows (ts_sheet s) = tb_grows (ts_sheet s0) /\ tb_hrows (ts_sheet s) = tb_hrows (ts_sheet s0)
    /\ tb_name (ts_sheet s) = tb_name (ts_sheet s0) /\ tb_style (ts_sheet s) = tb_style (ts_sheet s0) /\ tb_ranges (ts_sheet s) = tb_ranges (ts_sheet s0)
    /\ tb_print (ts_sheet s) = tb_print (ts_sheet s0) /\ tb_display (ts_sheet s) = tb_display (ts_sheet s0) /\ tb_extra (ts_sheet s) = tb_extra (ts_sheet s0).
  Lemma same_rest_trans a b c : same_rest a b -> same_rest b c -> same_rest a c.
  Proof.
    unfold same_rest. intros (A1 & A2 & A3 & A4 & A5 & A6 & A7 & A8 & A9 & A10 & A11 & A12 & A13) (B1 & B2 & B3 & B4 & B5 & B6 & B7 & B8 & B9 & B10 & B11 & B12 & B13).
    repeat split; congruence.
  Qed.
  Definition cols_to (C : N) (s : tstate) : Prop :=
    ts_col s = C /\ disjoint (tb_cols (ts_sheet s)) /\ (forall b h, In (b, h) (tb_cols (ts_sheet s)) -> b + h_span h <= C)
    /\ Forall (fun kv => fst kv < C) (tb_cols (ts_sheet s)) /\ (forall k, k < C -> Q k (cov (tb_cols (ts_sheet s)) k)).
  Definition csteps (s : tstate) (l : list titem) (s' : tstate) : Prop := steps lb ign ds s l s' /\ same_rest s s'.
  Lemma csteps_nil s : csteps s [] s.
  Proof. split; [apply steps_nil|]. repeat split. Qed.
  Lemma csteps_app s l s' l' s'' : csteps s l s' -> csteps s' l' s'' -> csteps s (l ++ l') s''.
  Proof. intros [A B] [C D]. split; [eapply steps_app; eassumption|eapply same_rest_trans; eassumption]. Qed.

  Lemma step_col c s it : col_item (tb_cols sh) c = (it, chunk_span c) -> P c -> 1 <= chunk_span c -> c + chunk_span c <= u32_max -> cols_to c s ->
    exists s', csteps s [it] s' /\ cols_to (c + chunk_span c) s'.
  Proof.
    intros Hi Pc L1 L2 (H1 & H2 & H3 & H4 & H5).
    assert (Ha : exists a, it = TEmpty t_column a /\ Forall is_attr a /\ fold_attrs col_attr (1, None) (attrs_of a) = Ok (chunk_span c, chunk_seen c)).
    { unfold col_item in Hi. unfold chunk_span, chunk_seen, chunk in *. destruct (hget c (tb_cols sh)) as [h|].
      - exists (col_attrs h). split; [congruence|]. split; [apply col_attrs_attr|]. apply read_col_attrs. lia.
      - exists []. split; [congruence|]. split; [constructor|reflexivity]. }
    destruct Ha as (a & -> & Ha & Hf).
    eexists. split; [split|].
    - apply steps_one; [split; [exact Ha|reflexivity]|]. cbn [item_step table_event].
      change (existsb (str_eqb t_column) (prelude ++ epilogue)) with false. change (str_eqb t_column t_column) with true. cbv iota.
      unfold read_col. rewrite Hf. cbn [bind]. rewrite H1. unfold add32. destruct (c + chunk_span c <=? u32_max) eqn:X; [|lia]. reflexivity.
    - repeat split.
    - unfold cols_to. cbn [ts_col ts_sheet put_cols tb_cols]. split; [reflexivity|].
      pose proof (fun k => Q_chunk c k Pc) as Qc. destruct (chunk_seen c) as [x|].
      + destruct (put_last_disjoint c (chunk_span c) x _ H2 H3 L1 L2 H4) as (D1 & D2 & D3 & D4).
        split; [exact D1|]. split; [exact D2|]. split; [exact D3|]. intros k Hk. rewrite D4. destruct (k <? c) eqn:E; [apply H5; lia|].
        destruct (k <? c + chunk_span c) eqn:E2; [apply Qc; lia|lia].
      + split; [exact H2|]. split; [intros b h I; specialize (H3 _ _ I); lia|]. split.
        * apply Forall_forall. intros kv I. rewrite Forall_forall in H4. specialize (H4 _ I). lia.
        * intros k Hk. destruct (N.lt_ge_cases k c) as [Lk|Lk]; [apply H5; exact Lk|].
          replace (cov (tb_cols (ts_sheet s)) k) with (@None colattr); [apply Qc; lia|]. symmetry. unfold cov.
          destruct (om_floor k (tb_cols (ts_sheet s))) as [[b h]|] eqn:F; [|reflexivity]. apply floor_some in F; [|apply H2]. destruct F as (I & _).
          specialize (H3 _ _ I). destruct (k <? b + h_span h) eqn:E; [lia|reflexivity].
  Qed.
  Lemma step_open_cgroup d C s : cols_to C s -> exists s', csteps s [TOpen t_cgroup (display_attr d)] s' /\ cols_to C s'.
  Proof.
    intros H. destruct (read_group_display d (ts_col s)) as [g E]. eexists. split; [split|].
    - apply steps_one; [apply display_attr_attr|]. cbn [item_step]. unfold table_event.
      change (existsb (str_eqb t_cgroup) (prelude ++ epilogue)) with false. change (str_eqb t_cgroup t_cgroup) with true. cbv iota. rewrite E. reflexivity.
    - repeat split.
    - exact H.
  Qed.
  Lemma step_close_cgroup C s : 1 <= C -> cols_to C s -> exists s', csteps s [TClose t_cgroup] s' /\ cols_to C s'.
  Proof.
    intros L H. assert (Ec : ts_col s = C) by apply H. destruct (ts_cgroup s) as [|g gr] eqn:E.
    - exists s. split; [|exact H]. split; [|repeat split]. apply steps_one; [exact I|]. cbn [item_step table_event].
      change (str_eqb t_cgroup t_table) with false. change (str_eqb t_cgroup t_cgroup) with true. cbv iota. rewrite E. reflexivity.
    - eexists. split; [split|].
      + apply steps_one; [exact I|]. cbn [item_step table_event].
        change (str_eqb t_cgroup t_table) with false. change (str_eqb t_cgroup t_cgroup) with true. cbv iota. rewrite E.
        unfold sub32. destruct (1 <=? ts_col s) eqn:X; [|lia]. reflexivity.
      + repeat split.
      + exact H.
  Qed.
  Lemma step_open_hcols C s : cols_to C s -> exists s', csteps s [TOpen t_hcols []] s' /\ cols_to C s'.
  Proof. intros H. eexists. split; [split|]. - apply steps_one; [constructor|reflexivity]. - repeat split. - exact H. Qed.
  Lemma step_close_hcols C s : 1 <= C -> cols_to C s -> exists s', csteps s [TClose t_hcols] s' /\ cols_to C s'.
  Proof.
    intros L H. assert (Ec : ts_col s = C) by apply H. eexists. split; [split|].
    - apply steps_one; [exact I|]. cbn [item_step table_event].
      change (str_eqb t_hcols t_table) with false. change (str_eqb t_hcols t_cgroup) with false. change (str_eqb t_hcols t_hcols) with true. cbv iota.
      unfold extend_header, sub32. destruct (1 <=? ts_col s) eqn:X; [|lia]. reflexivity.
    - repeat split.
    - exact H.
  Qed.
  Lemma step_copens C gs : forall s, cols_to C s -> exists s', csteps s (map (fun g => TOpen t_cgroup (display_attr (g_display g))) gs) s' /\ cols_to C s'.
  Proof.
    induction gs as [|g gs IH]; intros s H; cbn [map]; [exists s; split; [apply csteps_nil|exact H]|].
    destruct (step_open_cgroup (g_display g) C s H) as (s1 & S1 & B1). destruct (IH s1 B1) as (s2 & S2 & B2).
    exists s2. split; [exact (csteps_app _ [_] _ _ _ S1 S2)|exact B2].
  Qed.
  Lemma step_ccloses C (gs : list grouped) : 1 <= C -> forall s, cols_to C s -> exists s', csteps s (map (fun _ => TClose t_cgroup) gs) s' /\ cols_to C s'.
  Proof.
    intros L. induction gs as [|g gs IH]; intros s H; cbn [map]; [exists s; split; [apply csteps_nil|exact H]|].
    destruct (step_close_cgroup C s L H) as (s1 & S1 & B1). destruct (IH s1 B1) as (s2 & S2 & B2).
    exists s2. split; [exact (csteps_app _ [_] _ _ _ S1 S2)|exact B2].
  Qed.
  Lemma step_write_cols mx n : forall c o s, write_cols sh mx n c = Ok o -> P c -> cols_to c s ->
    exists C s', csteps s o s' /\ cols_to C s' /\ c <= C /\ (mx <= c + N.of_nat n -> mx <= C).
  Proof.
    induction n as [|n IH]; intros c o s H Pc B; cbn [write_cols] in H.
    - injection H as <-. exists c, s. split; [apply csteps_nil|]. split; [exact B|]. lia.
    - destruct (mx <=? c) eqn:X; [injection H as <-; exists c, s; split; [apply csteps_nil|]; split; [exact B|lia]|].
      destruct (col_item (tb_cols sh) c) as [it sp] eqn:Ei.
      assert (Es : sp = chunk_span c) by (unfold col_item in Ei; unfold chunk_span, chunk; destruct (hget c (tb_cols sh)); congruence). subst sp.
      destruct (chunk_span c =? 0) eqn:X0; [discriminate|].
      destruct (add32 c (chunk_span c)) as [c'| |] eqn:Ea; try discriminate. cbn [bind] in H. apply add32_ok in Ea. destruct Ea as [-> La].
      destruct (write_cols sh mx n (c + chunk_span c)) as [rest| |] eqn:Er; try discriminate. cbn [bind] in H. injection H as <-.
      unfold opens, closes.
      destruct (step_copens c (filter (fun g => g_from g =? c) (tb_gcols sh)) s B) as (s1 & S1 & B1).
      assert (H2 : exists s2, csteps s1 (around (in_header (tb_hcols sh) c) t_hcols [it]) s2 /\ cols_to (c + chunk_span c) s2).
      { destruct (in_header (tb_hcols sh) c); cbn [around].
        - destruct (step_open_hcols c s1 B1) as (u1 & U1 & V1). destruct (step_col c u1 it Ei Pc ltac:(lia) La V1) as (u2 & U2 & V2).
          destruct (step_close_hcols (c + chunk_span c) u2 ltac:(lia) V2) as (u3 & U3 & V3). exists u3. split; [|exact V3].
          exact (csteps_app _ [_] _ _ _ U1 (csteps_app _ [_] _ _ _ U2 U3)).
        - apply step_col; auto; lia. }
      destruct H2 as (s2 & S2 & B2).
      destruct (step_ccloses (c + chunk_span c) (filter (fun g => g_to g =? c) (tb_gcols sh)) ltac:(lia) s2 B2) as (s3 & S3 & B3).
      destruct (IH _ _ s3 Er (P_next c Pc ltac:(lia)) B3) as (C & s4 & S4 & B4 & L4 & L5).
      exists C, s4. split; [|split; [exact B4|lia]].
      eapply csteps_app; [exact S1|]. eapply csteps_app; [exact S2|]. eapply csteps_app; [exact S3|exact S4].
  Qed.
End Cols.

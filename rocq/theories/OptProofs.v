(** The options of reading: leaving out empty cells. *)
From Verif Require Import Base Lib OMap OMapProofs XmlModel RefsModel CellModel HeaderModel HeaderSpec HeaderProofs SplitModel NumModel EnumModel CellIoModel TableModel CloneModel CloneSpec CloneProofs.

Definition live (o : option (hdr rowattr)) : option rowattr :=
  match o with Some h => if h_span h =? 0 then None else Some (h_attr h) | None => None end.
Definition short (m : hmap rowattr) : Prop := om_sorted N.ltb m /\ forall r h, In (r, h) m -> h_span h <= 1.
Definition edge (row : N) (m : hmap rowattr) : Prop := forall r, row < r -> live (hget r m) = None.
Definition base_attr (o : option rowattr) : rowattr := match o with Some a => a | None => rowattr0 end.

Lemma short_put k h m : h_span h <= 1 -> short m -> short (hput k h m).
Proof.
  intros L (S & F). split; [now apply hput_sorted|]. intros r g I. apply (in_put r g k h m S) in I as [(_ & ->)|(_ & I)]; [exact L|eauto].
Qed.
Lemma hget_hput k j h (m : hmap rowattr) : hget k (hput j h m) = if k =? j then Some h else hget k m.
Proof. destruct (N.eqb_spec k j) as [->|D]; [apply hget_put_same|now apply hget_put_other]. Qed.
Lemma edge_put k h row m : k <= row \/ h_span h = 0 -> edge row m -> edge row (hput k h m).
Proof.
  intros L E r Lr. rewrite hget_hput. destruct (N.eqb_spec r k) as [->|D]; [|now apply E].
  destruct L as [L|L]; [lia|]. cbn [live]. rewrite L. reflexivity.
Qed.

(** Setting the repeat of a row: what it is set to depends on the header in use only. *)
Lemma set_row_short row n m : short m -> edge row m -> 0 < n -> row + n <= u32_max ->
  exists m', set_row row (SetRowRepeat n) m = Ok m' /\ short m' /\ edge row m'
    /\ hget row m' = Some (mkHdr (row_edit (SetRowRepeat n) (base_attr (live (hget row m)))) 1)
    /\ forall r, r < row -> hget r m' = hget r m.
Proof.
  intros Hs He Ln L. unfold set_row. cbn [row_op_asserts]. destruct (0 <? n) eqn:E; [clear E|apply N.ltb_ge in E; lia].
  assert (New : forall a : rowattr, base_attr (live (hget row m)) = a -> forall m1, short m1 -> edge row m1 -> hget row m1 = Some (mkHdr a 1) ->
      (forall r, r < row -> hget r m1 = hget r m) ->
      exists m', set_attr row (row_edit (SetRowRepeat n)) m1 = Ok m' /\ short m' /\ edge row m'
    /\ hget row m' = Some (mkHdr (row_edit (SetRowRepeat n) (base_attr (live (hget row m)))) 1)
    /\ forall r, r < row -> hget r m' = hget r m).
  { intros a Ea m1 S1 E1 G1 O1. eexists. split; [apply (set_attr_ok row _ _ _ G1)|]. cbn [h_attr h_span]. split; [apply short_put; [cbn; lia|exact S1]|].
    split; [apply edge_put; [left; lia|exact E1]|]. split; [rewrite hget_put_same, Ea; reflexivity|]. intros r Lr. rewrite hget_put_other by lia. auto. }
  assert (Dflt : live (hget row m) = None -> exists m', set_attr row (row_edit (SetRowRepeat n)) (hput row (mkHdr rowattr0 1) m) = Ok m' /\ short m' /\ edge row m'
    /\ hget row m' = Some (mkHdr (row_edit (SetRowRepeat n) (base_attr (live (hget row m)))) 1)
    /\ forall r, r < row -> hget r m' = hget r m).
  { intros Q. apply (New rowattr0); [now rewrite Q|apply short_put; [cbn; lia|exact Hs]|apply edge_put; [left; lia|exact He]|apply hget_put_same|].
    intros r Lr. apply hget_put_other; lia. }
  unfold split_row. destruct Hs as (S & F). destruct (om_floor row m) as [[b h]|] eqn:Q.
  - apply (floor_some row m b h S) in Q as (Q1 & Q2 & Q3). pose proof (F _ _ Q1) as Q4.
    unfold in_span. assert (A : add32 b (h_span h) = Ok (b + h_span h)) by (apply add32_fits; lia). rewrite A. cbn [bind].
    destruct ((b <=? row) && (row <? b + h_span h)) eqn:I.
    + apply andb_true_iff in I as (I1 & I2). apply N.ltb_lt in I2. assert (b = row) by lia. subst b. assert (S1 : h_span h = 1) by lia.
      rewrite (add32_fits row 1) by lia. cbn [bind]. rewrite N.ltb_irrefl. rewrite S1. replace (row + 1 - (row + 1)) with 0 by lia.
      apply (hget_in row h m S) in Q1. apply (New (h_attr h)).
      * rewrite Q1. cbn [live]. rewrite S1. reflexivity.
      * apply short_put; [cbn; lia|]. apply short_put; [cbn; lia|]. now split.
      * apply edge_put; [now right|]. apply edge_put; [left; lia|]. exact He.
      * rewrite hget_put_other by lia. apply hget_put_same.
      * intros r Lr. rewrite !hget_put_other by lia. reflexivity.
    + apply Dflt. destruct (hget row m) as [g|] eqn:G; [|reflexivity]. apply (hget_in row g m S) in G. specialize (Q3 _ _ G (N.le_refl _)).
      assert (b = row) by lia. subst b. apply (hget_in row _ m S) in G. apply (hget_in row _ m S) in Q1. assert (g = h) by congruence. subst g.
      cbn [live]. apply andb_false_iff in I as [I|I]; [apply N.leb_gt in I; lia|]. apply N.ltb_ge in I. destruct (N.eqb_spec (h_span h) 0); [reflexivity|lia].
  - apply Dflt. pose proof (proj1 (floor_none row m S) Q) as Q'. destruct (hget row m) as [g|] eqn:G; [|reflexivity]. apply (hget_in row g m S) in G. specialize (Q' _ _ G). lia.
Qed.

(** The state of reading without empty cells beside that of reading all cells. *)
Definition cells_rel (m1 m2 : cells) : Prop :=
  om_sorted pltb m1 /\ om_sorted pltb m2
  /\ (forall p c, om_get pltb p m2 = Some c -> cell_is_empty c = false -> om_get pltb p m1 = Some c)
  /\ (forall p c, om_get pltb p m1 = Some c -> cell_is_empty c = false
        /\ exists c', om_get pltb p m2 = Some c' /\ (c' = c \/ cell_is_empty c' = true)).
Record inv (row : N) (d1 d2 : bool) (r1 r2 : hmap rowattr) (m1 m2 : cells) : Prop := Inv {
  i_data : d1 = true -> d2 = true;
  i_cells : cells_rel m1 m2;
  i_short1 : short r1; i_short2 : short r2;
  i_edge1 : edge row r1; i_edge2 : edge row r2;
  i_here : live (hget row r1) = live (hget row r2);
  i_done : forall p c, om_get pltb p m1 = Some c ->
    fst p = row /\ d1 = true \/ fst p < row /\ exists h, hget (fst p) r1 = Some h /\ hget (fst p) r2 = Some h /\ h_span h = 1 }.
Inductive rel : tstate -> tstate -> Prop :=
| Rel : forall n st pr p d e cs gc gr hc hr r1 r2 m1 m2 row col d1 d2 cf cg rep rf rg,
    inv row d1 d2 r1 r2 m1 m2 ->
    rel (TS (Sheet n st pr p d e cs r1 gc gr hc hr m1) row col d1 cf cg rep rf rg)
        (TS (Sheet n st pr p d e cs r2 gc gr hc hr m2) row col d2 cf cg rep rf rg).

Lemma inv_next row rep d1 d2 r1 r2 m1 m2 r2' : inv row d1 d2 r1 r2 m1 m2 ->
  (if d2 then set_row row (SetRowRepeat rep) r2 else Ok r2) = Ok r2' -> row + rep <= u32_max ->
  exists r1', (if d1 then set_row row (SetRowRepeat rep) r1 else Ok r1) = Ok r1' /\ inv (row + rep) false false r1' r2' m1 m2.
Proof.
  intros [Hd Hc S1 S2 E1 E2 Hh Hn] H L.
  assert (Up : forall m k, edge row m -> edge (row + k) m) by (intros m k E r Lr; apply E; lia).
  destruct d2.
  - assert (Lr : 0 < rep). { unfold set_row in H. cbn [row_op_asserts] in H. destruct (0 <? rep) eqn:X; [apply N.ltb_lt, X|discriminate]. }
    destruct (set_row_short row rep r2 S2 E2 Lr L) as (x2 & X2 & A2 & B2 & C2 & D2). rewrite X2 in H. injection H as <-.
    destruct d1.
    + destruct (set_row_short row rep r1 S1 E1 Lr L) as (x1 & X1 & A1 & B1 & C1 & D1). exists x1. split; [exact X1|]. constructor; auto.
      * rewrite (B1 (row + rep)), (B2 (row + rep)) by lia. reflexivity.
      * intros p c G. right. destruct (Hn p c G) as [(-> & _)|(Lp & h & H1 & H2 & H3)].
        -- split; [lia|]. eexists. rewrite C1, C2, Hh. split; [reflexivity|]. split; reflexivity.
        -- split; [lia|]. exists h. rewrite D1, D2 by exact Lp. auto.
    + exists r1. split; [reflexivity|]. constructor; auto.
      * rewrite (E1 (row + rep)), (B2 (row + rep)) by lia. reflexivity.
      * intros p c G. right. destruct (Hn p c G) as [(_ & X)|(Lp & h & H1 & H2 & H3)]; [discriminate|].
        split; [lia|]. exists h. rewrite D2 by exact Lp. auto.
  - destruct d1; [specialize (Hd eq_refl); discriminate|]. injection H as <-. exists r1. split; [reflexivity|]. constructor; auto.
    + destruct (N.eq_dec rep 0) as [->|Z]; [rewrite N.add_0_r; exact Hh|]. rewrite (E1 (row + rep)), (E2 (row + rep)) by lia. reflexivity.
    + intros p c G. right. destruct (Hn p c G) as [(_ & X)|(Lp & h & H1 & H2 & H3)]; [discriminate|]. split; [lia|]. eauto.
Qed.
Lemma inv_put row d1 d2 r1 r2 m1 m2 h : h_span h = 1 -> inv row d1 d2 r1 r2 m1 m2 -> inv row d1 d2 (hput row h r1) (hput row h r2) m1 m2.
Proof.
  intros Sp [Hd Hc S1 S2 E1 E2 Hh Hn]. constructor; auto; try (apply short_put; [lia|assumption]); try (apply edge_put; [left; lia|assumption]).
  - rewrite !hget_put_same. reflexivity.
  - intros p c G. destruct (Hn p c G) as [X|(Lp & g & H1 & H2 & H3)]; [now left|]. right. split; [exact Lp|]. exists g. rewrite !hget_put_other by lia. auto.
Qed.
Lemma get_ins p q c (m : cells) : om_get pltb q (om_insert pltb p c m) = if pltb p q || pltb q p then om_get pltb q m else Some c.
Proof.
  destruct (keq_dec pltb pltb_order q p) as [->|D].
  - rewrite (so_irrefl _ pltb_order). apply (get_insert_same pltb pltb_order).
  - rewrite (get_insert_other pltb pltb_order) by exact D. destruct (pltb p q || pltb q p) eqn:E; [reflexivity|].
    apply orb_false_iff in E as (E1 & E2). exfalso. apply D. now apply (so_total _ pltb_order).
Qed.
Lemma ins_key p q : pltb p q || pltb q p = false -> q = p.
Proof. intros E. apply orb_false_iff in E as (E1 & E2). now apply (so_total _ pltb_order). Qed.
Lemma inv_both row d1 d2 r1 r2 m1 m2 p c : cell_is_empty c = false -> fst p = row -> inv row d1 d2 r1 r2 m1 m2 ->
  inv row true true r1 r2 (om_insert pltb p c m1) (om_insert pltb p c m2).
Proof.
  intros Ne Ep [Hd (C1 & C2 & C3 & C4) S1 S2 E1 E2 Hh Hn]. constructor; auto.
  - split; [now apply (sorted_insert pltb pltb_order)|]. split; [now apply (sorted_insert pltb pltb_order)|]. split.
    + intros q k. rewrite !get_ins. destruct (pltb p q || pltb q p); auto.
    + intros q k. rewrite !get_ins. destruct (pltb p q || pltb q p); [apply C4|]. intros H. injection H as <-. split; [exact Ne|]. exists c. auto.
  - intros q k. rewrite get_ins. destruct (pltb p q || pltb q p) eqn:E.
    + intros G. destruct (Hn q k G) as [(A & _)|A]; auto.
    + intros _. apply ins_key in E. subst q. auto.
Qed.
Lemma inv_second row d1 d2 r1 r2 m1 m2 p c : cell_is_empty c = true -> inv row d1 d2 r1 r2 m1 m2 ->
  inv row d1 true r1 r2 m1 (om_insert pltb p c m2).
Proof.
  intros Ne [Hd (C1 & C2 & C3 & C4) S1 S2 E1 E2 Hh Hn]. constructor; auto.
  split; [exact C1|]. split; [now apply (sorted_insert pltb pltb_order)|]. split.
  - intros q k. rewrite !get_ins. destruct (pltb p q || pltb q p); auto. intros H X. injection H as <-. congruence.
  - intros q k G. destruct (C4 q k G) as (A & c' & B & D). split; [exact A|]. rewrite get_ins. destruct (pltb p q || pltb q p); eauto.
Qed.

(** What the end of a cell gives. *)
Lemma finish_rel d x k o2 : cell_finish false d x = Ok (k, o2) ->
  exists o1, cell_finish true d x = Ok (k, o1) /\ (o1 = o2 /\ (forall c, o2 = Some c -> cell_is_empty c = false) \/ o1 = None /\ exists c, o2 = Some c /\ cell_is_empty c = true).
Proof.
  unfold cell_finish. destruct (a_cell x) as [c|]; [|intros H; injection H as <- <-; eexists; split; [reflexivity|]; left; split; [reflexivity|discriminate]].
  destruct (read_value x (c_value c)) as [v| |]; cbn [bind]; try discriminate. intros H. injection H as <- <-. eexists. split; [reflexivity|].
  unfold ignore_cell. cbn [c_formula c_style c_repeat c_extra].
  change (cell_is_empty (Cell v (c_formula c) (c_style c) (c_repeat c) (c_extra c))) with (cell_is_empty (Cell v (c_formula c) (c_style c) (a_repeat x) (c_extra c))).
  destruct (cell_is_void d _); cbn [orb andb]; [left; split; [reflexivity|discriminate]|].
  destruct (cell_is_empty (Cell v (c_formula c) (c_style c) (a_repeat x) (c_extra c))) eqn:Q.
  - right. split; [reflexivity|]. eexists. split; [reflexivity|exact Q].
  - left. split; [reflexivity|]. intros z Z. injection Z as <-. exact Q.
Qed.
Lemma store_rel s1 s2 k o1 o2 s2' : rel s1 s2 ->
  (o1 = o2 /\ (forall c, o2 = Some c -> cell_is_empty c = false) \/ o1 = None /\ exists c, o2 = Some c /\ cell_is_empty c = true) ->
  store_cell s2 (k, o2) = Ok s2' -> exists s1', store_cell s1 (k, o1) = Ok s1' /\ rel s1' s2'.
Proof.
  intros R Ho H. destruct R as [n st pr p d e cs gc gr hc hr r1 r2 m1 m2 row col d1 d2 cf cg rep rf rg I].
  unfold store_cell in *. cbn [ts_col ts_row ts_sheet ts_data ts_cfrom ts_cgroup ts_rep ts_rfrom ts_rgroup] in *.
  destruct (add32 col k) as [c1| |]; cbn [bind] in *; try discriminate. injection H as <-. eexists. split; [reflexivity|].
  destruct Ho as [(-> & Ne)|(-> & c & -> & Ne)].
  - destruct o2 as [c|]; cbn [put_cells CellModel.is_some tb_name tb_style tb_ranges tb_print tb_display tb_extra tb_cols tb_rows tb_gcols tb_grows tb_hcols tb_hrows tb_cells].
    + rewrite !orb_true_r. constructor. eapply inv_both; [auto|reflexivity|exact I].
    + rewrite !orb_false_r. now constructor.
  - cbn [put_cells CellModel.is_some tb_name tb_style tb_ranges tb_print tb_display tb_extra tb_cols tb_rows tb_gcols tb_grows tb_hcols tb_hrows tb_cells].
    rewrite orb_true_r, orb_false_r. constructor. eapply inv_second; eauto.
Qed.
Lemma cell_end_rel s1 s2 d x s2' : rel s1 s2 -> (let* y := cell_finish false d x in store_cell s2 y) = Ok s2' ->
  exists s1', (let* y := cell_finish true d x in store_cell s1 y) = Ok s1' /\ rel s1' s2'.
Proof.
  intros R H. destruct (cell_finish false d x) as [[k o2]| |] eqn:F; cbn [bind] in H; try discriminate.
  destruct (finish_rel d x k o2 F) as (o1 & F1 & Ho). rewrite F1. cbn [bind]. eapply store_rel; eauto.
Qed.
Lemma row_rel s1 s2 s2' : rel s1 s2 -> end_of_row s2 = Ok s2' -> exists s1', end_of_row s1 = Ok s1' /\ rel s1' s2'.
Proof.
  intros R H. destruct R as [n st pr p d e cs gc gr hc hr r1 r2 m1 m2 row col d1 d2 cf cg rep rf rg I].
  unfold end_of_row in *. cbn [ts_col ts_row ts_sheet ts_data ts_cfrom ts_cgroup ts_rep ts_rfrom ts_rgroup tb_rows] in *.
  destruct (if d2 then _ else _) as [r2'| |] eqn:E2; cbn [bind] in H; try discriminate.
  destruct (add32 row rep) as [row'| |] eqn:A; cbn [bind] in H; try discriminate. injection H as <-.
  unfold add32 in A. destruct (row + rep <=? u32_max) eqn:L; [|discriminate]. injection A as <-. apply N.leb_le in L.
  destruct (inv_next _ rep _ _ _ _ _ _ r2' I E2 L) as (r1' & E1 & I'). rewrite E1. cbn [bind]. eexists. split; [reflexivity|].
  cbn [put_rows tb_name tb_style tb_ranges tb_print tb_display tb_extra tb_cols tb_rows tb_gcols tb_grows tb_hcols tb_hrows tb_cells]. now constructor.
Qed.
Lemma default_rel s1 s2 : rel s1 s2 -> col_default s1 = col_default s2.
Proof. intros R. destruct R. reflexivity. Qed.

Definition res_rel (x1 x2 : tstate * tmode + tstate) : Prop :=
  match x1, x2 with
  | inl (s1, m1), inl (s2, m2) => rel s1 s2 /\ m1 = m2
  | inr s1, inr s2 => rel s1 s2
  | _, _ => False
  end.
Ltac red_ts := cbn [ts_col ts_row ts_sheet ts_data ts_cfrom ts_cgroup ts_rep ts_rfrom ts_rgroup tb_name tb_style tb_ranges tb_print tb_display tb_extra tb_cols tb_rows tb_gcols tb_grows tb_hcols tb_hrows tb_cells
  on_sheet add_extra put_cols put_rows add_gcol add_grow put_hcols put_hrows] in *.
Lemma event_rel s1 s2 e x2 : rel s1 s2 -> table_event false s2 e = Ok x2 -> exists x1, table_event true s1 e = Ok x1 /\ res_rel x1 x2.
Proof.
  intros R H.
  assert (Same : forall m, res_rel (inl (s1, m)) (inl (s2, m))) by (intros; now split).
  destruct e as [n a|n a|n|y|y|y]; cbn [table_event] in *; try (injection H as <-; eexists; split; [reflexivity|apply Same]).
  - destruct (existsb _ _); [injection H as <-; eexists; split; [reflexivity|apply Same]|].
    pose proof (default_rel _ _ R) as Dr.
    destruct (str_eqb n t_cgroup).
    { destruct R. red_ts. destruct (read_group _ _) as [g| |]; cbn [bind] in *; try discriminate. injection H as <-. eexists. split; [reflexivity|]. split; [now constructor|reflexivity]. }
    destruct (str_eqb n t_hcols).
    { destruct R. red_ts. injection H as <-. eexists. split; [reflexivity|]. split; [now constructor|reflexivity]. }
    destruct (str_eqb n t_rgroup).
    { destruct R. red_ts. destruct (read_group _ _) as [g| |]; cbn [bind] in *; try discriminate. injection H as <-. eexists. split; [reflexivity|]. split; [now constructor|reflexivity]. }
    destruct (str_eqb n t_hrows).
    { destruct R. red_ts. injection H as <-. eexists. split; [reflexivity|]. split; [now constructor|reflexivity]. }
    destruct (str_eqb n t_row).
    { destruct R as [n' st pr p d e cs gc gr hc hr r1 r2 m1 m2 row col d1 d2 cf cg rep rf rg I]. red_ts. unfold read_row in *.
      destruct (fold_attrs row_attr _ _) as [[k o]| |]; cbn [bind] in *; try discriminate. injection H as <-. eexists. split; [reflexivity|]. split; [|reflexivity].
      red_ts. constructor. destruct o as [h|]; [|exact I]. now apply inv_put. }
    destruct (_ || _); [|injection H as <-; eexists; split; [reflexivity|apply Same]].
    rewrite Dr. destruct (col_default s2); cbn [bind] in *; try discriminate. destruct (cell_read_attrs cellacc0 a); cbn [bind] in *; try discriminate.
    injection H as <-. eexists. split; [reflexivity|apply Same].
  - destruct (existsb _ _).
    { destruct R. red_ts. injection H as <-. eexists. split; [reflexivity|]. split; [now constructor|reflexivity]. }
    pose proof (default_rel _ _ R) as Dr.
    destruct (str_eqb n t_column).
    { destruct R. red_ts. destruct (read_col _ _ _) as [[k m]| |]; cbn [bind] in *; try discriminate. destruct (add32 _ _); cbn [bind] in *; try discriminate.
      injection H as <-. eexists. split; [reflexivity|]. split; [now constructor|reflexivity]. }
    destruct (_ || _); [|injection H as <-; eexists; split; [reflexivity|apply Same]].
    rewrite Dr. destruct (col_default s2) as [d| |]; cbn [bind] in *; try discriminate. destruct (cell_read_attrs cellacc0 a) as [x| |]; cbn [bind] in *; try discriminate.
    destruct (cell_finish false d x) as [y| |] eqn:F; cbn [bind] in H; try discriminate. destruct (store_cell s2 y) as [s2'| |] eqn:St; cbn [bind] in H; try discriminate. injection H as <-.
    destruct (cell_end_rel s1 s2 d x s2' R) as (s1' & E & R'); [rewrite F; exact St|].
    destruct (cell_finish true d x) as [y1| |]; cbn [bind] in *; try discriminate. rewrite E. cbn [bind]. eexists. split; [reflexivity|]. now split.
  - destruct (str_eqb n t_table); [injection H as <-; eexists; split; [reflexivity|exact R]|].
    destruct (str_eqb n t_cgroup).
    { destruct R. red_ts. destruct cg as [|g cg]; [injection H as <-; eexists; split; [reflexivity|]; split; [now constructor|reflexivity]|].
      destruct (sub32 _ _); cbn [bind] in *; try discriminate. injection H as <-. eexists. split; [reflexivity|]. split; [now constructor|reflexivity]. }
    destruct (str_eqb n t_hcols).
    { destruct R. red_ts. destruct (extend_header _ _ _); cbn [bind] in *; try discriminate. injection H as <-. eexists. split; [reflexivity|]. split; [now constructor|reflexivity]. }
    destruct (str_eqb n t_rgroup).
    { destruct R. red_ts. destruct rg as [|g rg]; [injection H as <-; eexists; split; [reflexivity|]; split; [now constructor|reflexivity]|].
      destruct (sub32 _ _); cbn [bind] in *; try discriminate. injection H as <-. eexists. split; [reflexivity|]. split; [now constructor|reflexivity]. }
    destruct (str_eqb n t_hrows).
    { destruct R. red_ts. destruct (extend_header _ _ _); cbn [bind] in *; try discriminate. injection H as <-. eexists. split; [reflexivity|]. split; [now constructor|reflexivity]. }
    destruct (str_eqb n t_row); [|injection H as <-; eexists; split; [reflexivity|apply Same]].
    destruct (end_of_row s2) as [s2'| |] eqn:E; cbn [bind] in H; try discriminate. injection H as <-.
    destruct (row_rel s1 s2 s2' R E) as (s1' & E1 & R'). rewrite E1. cbn [bind]. eexists. split; [reflexivity|]. now split.
Qed.
Lemma step_rel s1 s2 m e x2 : rel s1 s2 -> table_step false s2 m e = Ok x2 -> exists x1, table_step true s1 m e = Ok x1 /\ res_rel x1 x2.
Proof.
  intros R H. destruct m as [|tag x cm|tag st]; cbn [table_step] in *.
  - now apply (event_rel s1 s2).
  - destruct (cell_step tag x cm e) as [[[x' cm']|x']| |]; cbn [bind] in *; try discriminate.
    + injection H as <-. eexists. split; [reflexivity|]. now split.
    + rewrite (default_rel _ _ R). destruct (col_default s2) as [d| |]; cbn [bind] in *; try discriminate.
      destruct (cell_finish false d x') as [y| |] eqn:F; cbn [bind] in H; try discriminate. destruct (store_cell s2 y) as [s2'| |] eqn:St; cbn [bind] in H; try discriminate. injection H as <-.
      destruct (cell_end_rel s1 s2 d x' s2' R) as (s1' & E & R'); [rewrite F; exact St|].
      destruct (cell_finish true d x') as [y1| |]; cbn [bind] in *; try discriminate. rewrite E. cbn [bind]. eexists. split; [reflexivity|]. now split.
  - destruct (tree_step tag st e) as [[st'|x]| |]; cbn [bind] in *; try discriminate.
    + injection H as <-. eexists. split; [reflexivity|]. now split.
    + injection H as <-. eexists. split; [reflexivity|]. split; [|reflexivity]. destruct R. red_ts. now constructor.
Qed.
Lemma loop_rel evs : forall s1 s2 m s2' r, rel s1 s2 -> table_loop false s2 m evs = Ok (s2', r) -> exists s1', table_loop true s1 m evs = Ok (s1', r) /\ rel s1' s2'.
Proof.
  induction evs as [|e evs IH]; intros s1 s2 m s2' r R H; cbn [table_loop] in *; [discriminate|].
  destruct (table_step false s2 m e) as [x2| |] eqn:E; cbn [bind] in H; try discriminate.
  destruct (step_rel s1 s2 m e x2 R E) as (x1 & E1 & Q). rewrite E1. cbn [bind].
  destruct x1 as [[s1a ma]|s1a], x2 as [[s2a mb]|s2a]; cbn [res_rel] in Q; try contradiction.
  - destruct Q as (Q & <-). eauto.
  - injection H as <- <-. eauto.
Qed.

(** What reading without the empty cells gives. *)
Definition same_table (a b : sheet) : Prop :=
  tb_name a = tb_name b /\ tb_style a = tb_style b /\ tb_ranges a = tb_ranges b /\ tb_print a = tb_print b /\ tb_display a = tb_display b
  /\ tb_extra a = tb_extra b /\ tb_cols a = tb_cols b /\ tb_gcols a = tb_gcols b /\ tb_grows a = tb_grows b /\ tb_hcols a = tb_hcols b /\ tb_hrows a = tb_hrows b.
Lemma read_rel evs s2 r : read_table false evs = Ok (s2, r) -> exists s1, read_table true evs = Ok (s1, r) /\ same_table s1 s2
  /\ cells_rel (tb_cells s1) (tb_cells s2) /\ short (tb_rows s1) /\ short (tb_rows s2)
  /\ forall p c h, om_get pltb p (tb_cells s1) = Some c -> hget (fst p) (tb_rows s1) = Some h -> h_span h = 1 -> hget (fst p) (tb_rows s2) = Some h.
Proof.
  intros H. unfold read_table in *. destruct evs as [|[n a|n a|n|y|y|y] evs]; try discriminate.
  destruct (fold_attrs table_attr sheet0 a) as [sh| |] eqn:F; cbn [bind] in *; try discriminate.
  destruct (table_loop false _ _ _) as [[s2' r']| |] eqn:L; cbn [bind] in H; try discriminate. injection H as <- <-.
  assert (Z : tb_rows sh = [] /\ tb_cells sh = []).
  { clear L. revert F. assert (G : tb_rows sheet0 = [] /\ tb_cells sheet0 = []) by now split. revert G. generalize sheet0.
    induction a as [|kv a IH]; intros s0 (G1 & G2) F; cbn [fold_attrs] in F; [injection F as <-; now split|].
    destruct (table_attr s0 kv) as [s'| |] eqn:T; cbn [bind] in F; try discriminate. apply (IH s'); [|exact F].
    clear - T G1 G2. destruct s0 as [x1 x2 x3 x4 x5 x6 x7 x8 x9 x10 x11 x12 x13]. cbn [tb_rows tb_cells] in *. unfold table_attr in T.
    repeat match type of T with
    | (if ?b then _ else _) = _ => destruct b
    | bind ?x _ = _ => destruct x; cbn [bind] in T; try discriminate
    end; injection T as <-; now split. }
  destruct sh as [x1 x2 x3 x4 x5 x6 x7 x8 x9 x10 x11 x12 x13]. cbn [tb_rows tb_cells] in Z. destruct Z as (-> & ->).
  match type of L with table_loop false ?s _ _ = _ => assert (R : rel s s) end.
  { constructor. assert (S0 : short []) by (split; [exact I|intros ? ? []]). assert (E0 : edge 0 []) by (intros ? _; reflexivity).
    constructor; auto; [|intros p c; discriminate].
    split; [exact I|]. split; [exact I|]. split; intros p c; discriminate. }
  destruct (loop_rel _ _ _ _ _ _ R L) as (s1' & E & R'). rewrite E. cbn [bind]. eexists. split; [reflexivity|].
  destruct R' as [n' st pr p d e cs gc gr hc hr r1 r2 m1 m2 row col d1 d2 cf cg rep rf rg [Hd Hc S1 S2 E1 E2 Hh Hn]]. red_ts.
  split; [repeat split|]. split; [exact Hc|]. split; [exact S1|]. split; [exact S2|]. intros q c h G G1 Sp.
  destruct (Hn q c G) as [(Eq & _)|(_ & g & H1 & H2 & _)]; [|congruence].
  rewrite Eq in *. rewrite G1 in Hh. cbn [live] in Hh. rewrite Sp in Hh. cbn in Hh. destruct (hget row r2) as [g|] eqn:G2; [|discriminate].
  cbn [live] in Hh. destruct (N.eqb_spec (h_span g) 0); [discriminate|]. injection Hh as Hh.
  pose proof (proj2 S2 row g ltac:(apply (hget_in row g r2 (proj1 S2)); exact G2)). destruct h as [ha hs], g as [ga gs]. cbn [h_span h_attr] in *. f_equal. f_equal; [auto|lia].
Qed.

(** C41: repeated rows and cells after reading. *)
From Coq Require Import Sorted.
From Verif Require Import Base Lib OMap OMapProofs XmlModel XmlSpec RefsModel RefsSpec CellModel HeaderModel HeaderSpec HeaderProofs HeaderCuts
  SplitModel SplitSpec NumModel CellIoModel CellIoSpec CellIoProofs TableModel TableSpec TableCells TableRead TablePlaced TableWhole TableProps CloneModel CloneSpec CloneProofs.

(** The cells: exactly what the sheet stood for. *)
Theorem C41_cells : forall sh, om_sorted N.ltb (tb_rows sh) -> om_sorted pltb (tb_cells sh) -> apart (tb_rows sh) (tb_cells sh) ->
  exists sh', calc_cloned sh = Ok sh'
    /\ (forall p k, In (p, k) (tb_cells sh') <-> expanded (tb_rows sh) (tb_cells sh) p k)
    /\ tb_name sh' = tb_name sh /\ tb_style sh' = tb_style sh /\ tb_ranges sh' = tb_ranges sh /\ tb_print sh' = tb_print sh
    /\ tb_display sh' = tb_display sh /\ tb_extra sh' = tb_extra sh /\ tb_cols sh' = tb_cols sh /\ tb_gcols sh' = tb_gcols sh
    /\ tb_grows sh' = tb_grows sh /\ tb_hcols sh' = tb_hcols sh /\ tb_hrows sh' = tb_hrows sh.
Proof.
  intros sh Hr Hm Ha. destruct (cloned_cells sh Hr Hm Ha) as (m & E & _ & I). eexists. split; [exact E|]. split; [exact I|]. repeat split.
Qed.

(** The row headers: each is valid for as many rows as its row was repeated. *)
Theorem C41_headers : forall sh sh', om_sorted N.ltb (tb_rows sh) -> calc_cloned sh = Ok sh' ->
  om_sorted N.ltb (tb_rows sh') /\
  forall r h', In (r, h') (tb_rows sh') <-> exists a n, (exists b, In (r, mkHdr a b) (tb_rows sh)
    /\ h' = mkHdr (mkRowAttr (ra_style a) (ra_cellstyle a) (ra_visible a) b (ra_height a)) n) /\ counted (tb_rows sh) r n.
Proof.
  intros sh sh' Hr H. unfold calc_cloned in H. match type of H with bind ?X _ = _ => destruct X as [l| |]; try discriminate end. cbn [bind] in H.
  match type of H with bind ?X _ = _ => destruct X as [[[x d] k]| |]; try discriminate end. cbn [bind] in H. injection H as <-.
  cbn [put_cells put_rows tb_rows]. split.
  { eapply (sorted_keys (tb_rows sh)); [|exact Hr]. rewrite map_map. cbn [swap_repeat fst]. symmetry. apply clear_keys. }
  intros r h'. rewrite swapped_in. split.
  - intros ([a b] & n & I & C & g & Ig & S1 & S2 & ->). exists a, n. split; [|exact C]. exists b. split; [exact I|]. cbn [swap_repeat fst snd]. rewrite S1, S2. cbn [h_span h_attr row_edit ra_style ra_cellstyle ra_visible ra_height ra_repeat]. reflexivity.
  - intros (a & n & (b & I & ->) & C). exists (mkHdr a b), n. split; [exact I|]. split; [exact C|]. destruct (counted_cleared _ _ _ C) as (g & Ig & <-).
    exists g. split; [exact Ig|]. pose proof Ig as Ig'. apply cleared_counted in Ig as (_ & h & Ih & S1 & S2).
    assert (h = mkHdr a b) by (apply (hget_in r _ _ Hr) in I, Ih; congruence). subst h. split; [exact S1|]. split; [exact S2|].
    cbn [swap_repeat fst snd]. rewrite S1, S2. reflexivity.
Qed.

(** Every repeat of a row has the attributes of the row, unless another header that is not alike
    begins within the repeats. *)
Definition alike (a b : rowattr) : Prop :=
  ra_style a = ra_style b /\ ra_cellstyle a = ra_cellstyle b /\ ra_visible a = ra_visible b /\ ra_height a = ra_height b.
Theorem C41_rows : forall sh sh' r0 h n r, om_sorted N.ltb (tb_rows sh) -> calc_cloned sh = Ok sh' ->
  In (r0, h) (tb_rows sh) -> counted (tb_rows sh) r0 n -> r0 <= r < r0 + n -> r0 + n <= u32_max ->
  (forall b g, In (b, g) (tb_rows sh) -> r0 < b <= r -> alike (h_attr h) (h_attr g) /\ exists k, counted (tb_rows sh) b k /\ r < b + k <= u32_max) ->
  rowstyle r (tb_rows sh') = Ok (ra_style (h_attr h)) /\ row_cellstyle r (tb_rows sh') = Ok (ra_cellstyle (h_attr h))
  /\ row_visible r (tb_rows sh') = Ok (ra_visible (h_attr h)) /\ row_height r (tb_rows sh') = Ok (ra_height (h_attr h)).
Proof.
  intros sh sh' r0 h n r Hr H I C L U O. destruct (C41_headers sh sh' Hr H) as (S & X).
  assert (V : exists a k, valid_header r (tb_rows sh') = Ok (Some (mkHdr a k)) /\ alike (h_attr h) a).
  { unfold valid_header. destruct (om_floor r (tb_rows sh')) as [[b g]|] eqn:F.
    - apply floor_some in F as (F1 & F2 & F3); [|exact S]. apply X in F1 as (a & k & (sp & J & ->) & Ck).
      assert (r0 <= b). { destruct h as [a0 sp0]. eapply F3; [|apply L]. apply X. exists a0, n. split; [|exact C]. exists sp0. split; [exact I|reflexivity]. }
      assert (Q : alike (h_attr h) a /\ r < b + k <= u32_max).
      { destruct (N.eq_dec b r0) as [->|D].
        - apply (hget_in r0 _ _ Hr) in I, J. assert (E : h = mkHdr a sp) by congruence. subst h. split; [repeat split|].
          assert (k = n); [|lia]. destruct C as (x & g1 & y & E1 & C1), Ck as (x' & g2 & y' & E2 & C2).
          assert (x = x' /\ g1 = g2 /\ y = y').
          { clear - Hr E1 E2. rewrite E1 in E2, Hr. clear E1. revert x' E2. induction x as [|[q g] x IH]; intros [|[q' g'] x'] E2; cbn [app] in E2.
            - injection E2 as <- <-. auto.
            - exfalso. injection E2 as <- <- ->. destruct Hr as (Hf & _). rewrite Forall_forall in Hf. specialize (Hf (r0, g2)). cbn [fst] in Hf.
              assert (r0 <? r0 = true) by (apply Hf; apply in_elt). lia.
            - exfalso. injection E2 as -> -> E2. destruct Hr as (Hf & _). rewrite Forall_forall in Hf. specialize (Hf (r0, g1)). cbn [fst] in Hf.
              assert (r0 <? r0 = true) by (apply Hf; apply in_elt). lia.
            - injection E2 as <- <- E2. destruct Hr as (_ & Hr). destruct (IH Hr x' E2) as (-> & -> & ->). auto. }
          destruct H1 as (-> & -> & ->). lia.
        - destruct (O b (mkHdr a sp) J) as (Q1 & k' & Ck' & Q2); [lia|]. split; [exact Q1|].
          destruct Ck as (x & g1 & y & E1 & C1), Ck' as (x' & g2 & y' & E2 & C2).
          assert (k = k'); [|lia]. clear - Hr E1 E2 C1 C2.
          assert (x = x' /\ g1 = g2 /\ y = y').
          { clear C1 C2. rewrite E1 in E2, Hr. clear E1. revert x' E2. induction x as [|[q g] x IH]; intros [|[q' g'] x'] E2; cbn [app] in E2.
            - injection E2 as <- <-. auto.
            - exfalso. injection E2 as <- <- ->. destruct Hr as (Hf & _). rewrite Forall_forall in Hf. specialize (Hf (b, g2)). cbn [fst] in Hf.
              assert (b <? b = true) by (apply Hf; apply in_elt). lia.
            - exfalso. injection E2 as -> -> E2. destruct Hr as (Hf & _). rewrite Forall_forall in Hf. specialize (Hf (b, g1)). cbn [fst] in Hf.
              assert (b <? b = true) by (apply Hf; apply in_elt). lia.
            - injection E2 as <- <- E2. destruct Hr as (_ & Hr). destruct (IH Hr x' E2) as (-> & -> & ->). auto. }
          destruct H as (-> & -> & ->). lia. }
      destruct Q as (Q1 & Q2). unfold in_span. cbn [h_span]. rewrite add32_fits by lia. cbn [bind].
      assert (Z : (b <=? r) && (r <? b + k) = true) by lia. rewrite Z. eexists. eexists. split; [reflexivity|].
      destruct Q1 as (Q1 & Q3 & Q4 & Q5). repeat split; assumption.
    - exfalso. destruct h as [a0 sp0].
      assert (J : In (r0, mkHdr (mkRowAttr (ra_style a0) (ra_cellstyle a0) (ra_visible a0) sp0 (ra_height a0)) n) (tb_rows sh')).
      { apply X. exists a0, n. split; [|exact C]. exists sp0. split; [exact I|reflexivity]. }
      pose proof (proj1 (floor_none r _ S) F _ _ J). lia. }
  destruct V as (a & k & V & (A1 & A2 & A3 & A4)). unfold rowstyle, row_cellstyle, row_visible, row_height, row_report. rewrite V. cbn [bind h_attr].
  rewrite A1, A2, A3, A4. repeat split.
Qed.

(** With repeat counts kept: only the cells left out are gone. *)
Theorem C41_repeats : forall sh, om_sorted pltb (tb_cells sh) ->
  forall p c, In (p, c) (tb_cells (calc_repeat sh)) <-> In (p, c) (tb_cells sh) /\ ~ left_out (tb_cells sh) (fst p) (snd p) c.
Proof.
  intros sh Hm p c. unfold calc_repeat. cbn [put_cells tb_cells]. set (m := tb_cells sh) in *.
  assert (D : forall r pre, om_sorted pltb (pre ++ r) -> forall q, In q (cells_dropped r) <-> exists d, In (q, d) r /\ dropped (pre ++ r) q d).
  { clear. induction r as [|[p c] r IH]; intros pre Hs q; cbn [cells_dropped].
    - split; [intros []|intros (? & [] & _)].
    - specialize (IH (pre ++ [(p, c)])). rewrite <- app_assoc in IH. cbn [app] in IH. specialize (IH Hs q). pose proof (last_ok pre p c r Hs) as Hl.
      assert (Hd : dropped (pre ++ (p, c) :: r) p c <-> (1 <? c_repeat c) && (last_in_row p r && cell_is_empty c) = true).
      { unfold dropped. change (cell_is_empty (set_once c)) with (cell_is_empty c). rewrite !andb_true_iff, Hl, N.ltb_lt. tauto. }
      destruct ((1 <? c_repeat c) && (last_in_row p r && cell_is_empty c)); cbn [In]; rewrite IH; split.
      + intros [<-|(d & I & X)]; [exists c; split; [auto|now apply Hd]|exists d; auto].
      + intros (d & [I|I] & X); [left; congruence|right; eauto].
      + intros (d & I & X); exists d; auto.
      + intros (d & [I|I] & X); [exfalso; assert (q = p) by congruence; assert (d = c) by congruence; subst; apply Hd in X; discriminate|eauto]. }
  destruct (remove_all_ok (cells_dropped m) m Hm) as (_ & E). rewrite E. specialize (D m [] Hm p). cbn [app] in D. rewrite D. destruct p as [r b]. cbn [fst snd]. split.
  - intros (I & N). split; [exact I|]. intros X. apply N. exists c. split; [exact I|]. now apply dropped_spec.
  - intros (I & N). split; [exact I|]. intros (d & J & X). apply N. assert (d = c) by (apply (get_in pltb pltb_order _ _ _ Hm) in I, J; congruence). subst d. now apply dropped_spec.
Qed.

(** ** A file written and read *)

(** The cell at a logical position, taking repeats of rows and cells into account. *)
Definition logical (sh : sheet) (p : pos) (c : cell) : Prop :=
  exists r n, at_cell (tb_cells sh) (r, snd p) c /\ repeats (tb_rows sh) r n /\ r <= fst p < r + n.

Lemma dedup_total m : disjoint m -> exists r, dedup_colheader m = Ok r.
Proof.
  intros (S & U & D). destruct m as [|[c h] m]; [eexists; reflexivity|]. cbn [dedup_colheader].
  assert (Hc : c + h_span h <= u32_max) by (apply U; now left).
  assert (Hn : forall b g, In (b, g) m -> c + h_span h <= b).
  { intros b g I. destruct S as (S & _). rewrite Forall_forall in S. specialize (S _ I). cbn [fst] in S. apply (D c h b g); [now left|now right|lia]. }
  assert (U' : forall b g, In (b, g) m -> b + h_span g <= u32_max) by (intros; apply U; now right).
  assert (D' : forall b g b' g', In (b, g) m -> In (b', g') m -> b < b' -> b + h_span g <= b') by (intros b g b' g' I J; apply (D b g b' g'); now right).
  destruct S as (_ & S). clear U D. revert c h Hc Hn. induction m as [|[b g] m IH]; intros c h Hc Hn; cbn [dedup_from]; [eauto|].
  pose proof (Hn b g (or_introl eq_refl)) as N0. pose proof (U' b g (or_introl eq_refl)) as U0. destruct S as (Sf & S). rewrite Forall_forall in Sf.
  assert (N1 : forall b' g', In (b', g') m -> b + h_span g <= b').
  { intros b' g' I. specialize (Sf _ I). cbn [fst] in Sf. apply (D' b g b' g'); [now left|now right|lia]. }
  destruct (limited_eq (h_attr h) (h_attr g)).
  - rewrite add32_fits by lia. cbn [bind]. apply IH; auto.
    + intros; apply U'; now right.
    + intros b1 g1 b2 g2 I J. apply (D' b1 g1 b2 g2); now right.
    + cbn [h_span]. lia.
    + intros b' g' I. cbn [h_span]. specialize (N1 _ _ I). lia.
  - assert (X : exists r, dedup_from b g m = Ok r).
    { apply IH; auto; [intros; apply U'; now right|]. intros b1 g1 b2 g2 I J. apply (D' b1 g1 b2 g2); now right. }
    destruct X as (r & E). rewrite E. cbn [bind]. eauto.
Qed.

Lemma through_apart lb ign ds sh cs : write_sheet ds sh = Ok cs -> sheet_ok sh -> header_rows_full sh -> col_groups_apart sh ->
  (forall r n, row_used (tb_cells sh) r -> repeats (tb_rows sh) r n -> n <= 1000) ->
  exists sh', table_through lb ign ds sh = Ok sh' /\ om_sorted N.ltb (tb_rows sh') /\ om_sorted pltb (tb_cells sh') /\ apart (tb_rows sh') (tb_cells sh')
    /\ disjoint (tb_cols sh')
    /\ (forall r n, row_used (tb_cells sh') r -> repeats (tb_rows sh) r n -> forall k, row_stands (tb_rows sh') r k <-> r <= k < r + n)
    /\ (forall p c, In (p, c) (tb_cells sh') -> 1 <= c_repeat c).
Proof.
  intros H Hok Hh Hg Hl. destruct (C48_rows lb ign ds sh cs H Hok Hh Hg) as (sh' & T & R48).
  pose proof (table_low lb ign ds sh cs sh' H Hok Hh Hg T) as Low.
  destruct (C23_cells lb ign ds sh cs H Hok Hh Hg) as (sh1 & T1 & _ & C23). assert (sh1 = sh') by congruence. subst sh1. clear T1.
  destruct (table_back lb ign ds sh cs (fun _ => True) (fun _ _ => True) H Hok Hh Hg) as (sh1 & hs & T1 & Eh & Ec & Sp & Dr & Hr & Dc & _ & _ & _ & Bd); auto.
  assert (sh1 = sh') by congruence. subst sh1. clear T1. exists sh'. split; [exact T|].
  destruct Hok as ((Hs & Hc) & (Hd & Hro) & _). destruct (hide_flat _ _ _ Eh Hs Sp) as (F1 & F2 & F3).
  assert (Sr : om_sorted N.ltb (tb_rows sh')) by apply Dr. split; [exact Sr|].
  (* rows *)
  assert (Hw : exists mx rows, write_cells sh mx None [] (WST 0 false) (tb_cells sh) = Ok rows).
  { unfold write_sheet in H. destruct (table_attrs sh); try discriminate. cbn [bind] in H. destruct (table_items sh) eqn:Eb; try discriminate. unfold table_items in Eb.
    destruct (used_grid_size (tb_cells sh)) as [mx| |]; try discriminate. cbn [bind] in Eb. destruct (write_table_columns sh (snd mx)); try discriminate. cbn [bind] in Eb.
    destruct (write_cells sh mx None [] (WST 0 false) (tb_cells sh)) as [rows| |] eqn:Er; try discriminate. eauto. }
  destruct Hw as (mx & rows & Hw). destruct (write_cells_rows sh mx _ _ _ _ _ Hw Hs) as (_ & Hgap); [discriminate|].
  (* pieces *)
  assert (Pc : forall p c, In (p, c) (tb_cells sh') -> 1 <= c_repeat c /\ exists q x s, In (q, x, s) (flat (tb_cells sh) hs) /\ p = (fst q, s_col s) /\ c_repeat c = s_to s - s_col s + 1).
  { intros p c I. rewrite Ec in I. apply in_flat_map in I as ([[q x] s] & I & J). cbn [out_of] in J.
    destruct (piece_read lb ign ds (tb_cols sh') x s) as [y|] eqn:E; [|contradiction]. destruct J as [J|[]]. assert (p = (fst q, s_col s)) by congruence. assert (y = c) by congruence. subst y.
    pose proof (F1 _ _ _ I) as (I0 & L1 & L2 & L3). assert (Er : c_repeat c = s_to s - s_col s + 1).
    { destruct (Bd _ _ I0) as (B1 & B2). assert (Bs : s_to s + 1 <= u32_max).
      { assert (X : exists sp rs, In s sp /\ split_hidden rs (fst q) (snd q) (c_repeat x) = Ok sp).
        { clear - Eh I. revert Eh. generalize (@nil cellrange) as spans. revert hs I. induction (tb_cells sh) as [|[p c] l IH]; intros hs I spans Eh; [destruct hs; contradiction|].
          cbn [hide_cells] in Eh. match type of Eh with bind ?X _ = _ => destruct X as [[spans' sp]| |] eqn:E1; try discriminate end. cbn [bind] in Eh.
          match type of Eh with bind ?X _ = _ => destruct X as [hs'| |] eqn:E2; try discriminate end. cbn [bind fst] in Eh.
          assert (E : hs = (p, sp) :: hs') by congruence. subst hs. cbn [flat] in I. apply in_app_iff in I as [I|I]; [|eapply IH; eassumption].
          apply in_map_iff in I as (t & E & I). injection E as <- <- <-. apply hide_cell_split in E1 as (rs & E1). exists sp, rs. auto. }
        destruct X as (sp & rs & I1 & E1). apply split_bound in E1 as B3; [|exact B2]. apply split_tiling in E1. pose proof (tiling_in _ _ _ _ E1 I1). lia. }
      rewrite Forall_forall in Hc. specialize (Hc _ I0). cbn [snd] in Hc.
      destruct (piece_content lb ign ds (tb_cols sh') x s) as (K & K1 & K2 & K3 & [K4|K4]); try apply Hc; try lia.
      - rewrite (K2 K4) in E. discriminate.
      - destruct (K3 K4) as (y & Y1 & Y2). assert (y = c) by congruence. subst y. rewrite <- content_repeat, Y2. destruct K1 as (v & d & _ & _ & ->). reflexivity. }
    split; [lia|]. exists q, x, s. auto. }
  assert (Sc : om_sorted pltb (tb_cells sh')).
  { rewrite Ec. clear - F1 F3. revert F1 F3. generalize (flat (tb_cells sh) hs) as l. induction l as [|[[q x] s] l IH]; intros F1 F3; [exact I|].
    apply StronglySorted_inv in F3 as (F3 & F4). cbn [flat_map]. specialize (IH (fun p c s I => F1 p c s (or_intror I)) F3).
    cbn [out_of]. destruct (piece_read lb ign ds (tb_cols sh') x s) as [y|]; [|exact IH]. cbn [app om_sorted]. split; [|exact IH].
    rewrite Forall_forall. intros [p z] I. apply in_flat_map in I as ([[q' x'] s'] & I & J). cbn [out_of] in J.
    destruct (piece_read lb ign ds (tb_cols sh') x' s') as [y'|]; [|contradiction]. destruct J as [J|[]]. assert (p = (fst q', s_col s')) by congruence. subst p.
    rewrite Forall_forall in F4. specialize (F4 _ I). cbn [piece_lt] in F4. pose proof (F1 _ _ _ (or_introl eq_refl)). unfold pltb. cbn [fst snd]. lia. }
  split; [exact Sc|].
  assert (Used : forall r, row_used (tb_cells sh') r -> row_used (tb_cells sh) r).
  { intros r (b & c & I). destruct (Pc _ _ I) as (_ & q & x & s & J & E & _). apply F1 in J as (J & _). exists (snd q), x. injection E as -> _. now destruct q. }
  assert (Cnt : forall r n, row_used (tb_cells sh') r -> counted (tb_rows sh') r n -> n = row_repeat_at (tb_rows sh) r).
  { intros r n U C. pose proof (repeats_at (tb_rows sh) r (proj1 Hd)) as Rp. pose proof (Hl r _ (Used r U) Rp) as Lr.
    destruct (R48 r (Used r U)) as (_ & _ & _ & R). destruct (R _ Rp) as (R1 & _). specialize (R1 U).
    destruct C as (a & h & b & E & C). assert (ra_repeat (h_attr h) = row_repeat_at (tb_rows sh) r); [|lia].
    unfold row_repeat, row_report, valid_header in R1. assert (I : In (r, h) (tb_rows sh')) by (rewrite E; apply in_elt).
    assert (Fl : om_floor r (tb_rows sh') = Some (r, h)) by (apply floor_some; [exact Sr|]; split; [exact I|]; split; [lia|intros; lia]).
    rewrite Fl in R1. unfold in_span in R1. destruct (add32 r (h_span h)) as [e| |]; try discriminate. cbn [bind] in R1.
    destruct ((r <=? r) && (r <? e)); [congruence|]. assert (Z : row_repeat_at (tb_rows sh) r = 0) by congruence. rewrite Z in *.
    destruct (Hro r (Used r U)) as (O1 & _). clear - Z O1 Hd. unfold row_repeat_at in Z. destruct (hget r (tb_rows sh)) as [g|] eqn:Eg; [|discriminate].
    apply (hget_in r _ _ (proj1 Hd)) in Eg. specialize (O1 _ Eg). lia. }
  assert (One : forall r, row_used (tb_cells sh) r -> 1 <= row_repeat_at (tb_rows sh) r /\ r + row_repeat_at (tb_rows sh) r <= u32_max).
  { intros r U. destruct (Hr r U) as ((_ & A & B) & _). auto. }
  split; [|split; [exact Dc|split]].
  - split; [|split].
    + intros r n c d C I. assert (U : row_used (tb_cells sh') r) by (exists c, d; exact I). rewrite (Cnt r n U C). pose proof (One r (Used r U)). split; [lia|].
      intros r' c' d' I' L. assert (U' : row_used (tb_cells sh') r') by (exists c', d'; exact I'). apply Used in U as (b1 & x1 & J1), U' as (b2 & x2 & J2).
      apply (Hgap _ _ _ _ J1 J2). exact L.
    + intros r c d I. destruct (Pc _ _ I) as (_ & q & x & s & J & E & Er). injection E as E1 E2. split.
      * pose proof (F1 _ _ _ J) as (J0 & L1 & L2 & L3). rewrite Er, E2. destruct (Bd _ _ J0) as (_ & B2).
        assert (X : exists sp rs, In s sp /\ split_hidden rs (fst q) (snd q) (c_repeat x) = Ok sp).
        { clear - Eh J. revert Eh. generalize (@nil cellrange) as spans. revert hs J. induction (tb_cells sh) as [|[p c] l IH]; intros hs I spans Eh; [destruct hs; contradiction|].
          cbn [hide_cells] in Eh. match type of Eh with bind ?X _ = _ => destruct X as [[spans' sp]| |] eqn:E1; try discriminate end. cbn [bind] in Eh.
          match type of Eh with bind ?X _ = _ => destruct X as [hs'| |] eqn:E2; try discriminate end. cbn [bind fst] in Eh.
          assert (E : hs = (p, sp) :: hs') by congruence. subst hs. cbn [flat] in I. apply in_app_iff in I as [I|I]; [|eapply IH; eassumption].
          apply in_map_iff in I as (t & E & I). injection E as <- <- <-. apply hide_cell_split in E1 as (rs & E1). exists sp, rs. auto. }
        destruct X as (sp & rs & _ & X). apply split_bound in X; [|exact B2]. lia.
      * intros c' d' I' L. destruct (Pc _ _ I') as (_ & q' & x' & s' & J' & E' & Er'). injection E' as E1' E2'.
        destruct (strongly_eq _ _ _ _ F3 J J') as [Z|[Z|Z]].
        -- injection Z as <- <- <-. lia.
        -- cbn [piece_lt] in Z. lia.
        -- cbn [piece_lt] in Z. pose proof (F1 _ _ _ J'). lia.
    + intros r n (a & h & b & E & C) L. apply (Low r h); [rewrite E; apply in_elt|]. lia.
  - intros r n U Rp k. assert (En : n = row_repeat_at (tb_rows sh) r) by (apply repeats_fun; [apply Hd|exact Rp]). pose proof (One r (Used r U)) as O. split.
    + intros [->|(n' & C & L)]; [lia|]. rewrite (Cnt r n' U C) in L. lia.
    + intros L. right.
      destruct (R48 r (Used r U)) as (_ & _ & _ & R). destruct (R _ Rp) as (R1 & _). specialize (R1 U).
      unfold row_repeat, row_report, valid_header in R1. destruct (om_floor r (tb_rows sh')) as [[b h]|] eqn:Ef.
      * apply floor_some in Ef as (I & Lb & Mx); [|exact Sr]. unfold in_span in R1. destruct (add32 b (h_span h)) as [e| |] eqn:Ea; try discriminate. cbn [bind] in R1.
        apply add32_ok in Ea. destruct ((b <=? r) && (r <? e)) eqn:Z; [|assert (n = 0) by congruence; lia].
        assert (b = r).
        { destruct (N.eq_dec b r) as [X|X]; [exact X|]. exfalso.
          destruct (Low b h I) as (Q & _). lia. }
        subst b. assert (Eh' : ra_repeat (h_attr h) = n) by congruence. pose proof (Hl r n (Used r U) Rp).
        exists n. split; [|exact L]. apply in_split in I as (x & y & E). exists x, h, y. split; [exact E|]. right. split; [right; lia|congruence].
      * cbn [bind] in R1. injection R1 as R1. lia.
  - intros p c I. apply (Pc p c I).
Qed.

Lemma content_of_copy d k : copy_of d k -> cell_content k = (let K := cell_content d in
  Content (k_value K) (k_style K) (k_formula K) (c_repeat k) (k_validation K) (k_span K) (k_matrix K) (k_annotation K) (k_frames K)).
Proof. intros (E1 & E2 & E3 & E4 & E5). unfold cell_content. rewrite E1, E2, E3, E4. destruct (c_extra d); reflexivity. Qed.
Lemma read_as_repeat lb ds c k K k' : read_as lb ds c k K ->
  read_as lb ds c k' (Content (k_value K) (k_style K) (k_formula K) k' (k_validation K) (k_span K) (k_matrix K) (k_annotation K) (k_frames K)).
Proof. intros (v & d & V & D & ->). exists v, d. split; [exact V|]. split; [exact D|reflexivity]. Qed.
Lemma not_stored_repeat ign d K k' :
  not_stored ign d (Content (k_value K) (k_style K) (k_formula K) k' (k_validation K) (k_span K) (k_matrix K) (k_annotation K) (k_frames K)) <-> not_stored ign d K.
Proof. reflexivity. Qed.

(** Every logical position of the sheet that was written holds its own copy of the cell
    after reading, and no other position holds a cell. Cells that say nothing are lost. *)
Theorem C41_through : forall lb ign ds sh cs, write_sheet ds sh = Ok cs -> sheet_ok sh -> header_rows_full sh -> col_groups_apart sh ->
  (forall r n, row_used (tb_cells sh) r -> repeats (tb_rows sh) r n -> n <= 1000) ->
  exists sh', (let* t := table_through lb ign ds sh in calculations false t) = Ok sh'
    /\ (forall p k, In (p, k) (tb_cells sh') -> c_repeat k = 1 /\ exists c, logical sh p c /\ read_as lb ds c 1 (cell_content k))
    /\ (forall p c, logical sh p c -> (forall d K, read_as lb ds c (c_repeat c) K -> ~ not_stored ign d K) ->
          exists k, In (p, k) (tb_cells sh') /\ read_as lb ds c 1 (cell_content k)).
Proof.
  intros lb ign ds sh cs H Hok Hh Hg Hl.
  destruct (through_apart lb ign ds sh cs H Hok Hh Hg Hl) as (t & T & Sr & Sc & Ap & Dc & St & One).
  destruct (C23_cells lb ign ds sh cs H Hok Hh Hg) as (t' & T' & A & B). assert (t' = t) by congruence. subst t'. clear T'.
  destruct (dedup_total _ Dc) as (cols & Ed). destruct (C41_cells (put_cols cols t) Sr Sc Ap) as (sh' & E & I & _).
  exists sh'. rewrite T. cbn [bind]. unfold calculations. rewrite Ed. cbn [bind]. split; [exact E|].
  cbn [put_cols tb_rows tb_cells] in I. destruct Hok as (_ & (Hd & _) & _).
  assert (Used : forall r b d, In ((r, b), d) (tb_cells t) -> row_used (tb_cells t) r) by (intros r b d J; exists b, d; exact J).
  split.
  - intros p k J. apply I in J as (r & c0 & d & J & V & L & C & _). pose proof (One _ _ J) as O.
    destruct (B (r, snd p) d) as (c & Hc & R); [exists c0; cbn [fst snd]; split; [exact J|lia]|]. split; [destruct C as (_ & _ & _ & _ & C); lia|].
    exists c. split.
    + pose proof (repeats_at (tb_rows sh) r (proj1 Hd)) as Rp. exists r, (row_repeat_at (tb_rows sh) r). split; [exact Hc|]. split; [exact Rp|].
      apply (St r _ (Used _ _ _ J) Rp). exact V.
    + rewrite (content_of_copy d k C). replace (c_repeat k) with 1 by (destruct C as (_ & _ & _ & _ & C); lia). eapply read_as_repeat. exact R.
  - intros p c (r & n & Hc & Rp & L) Hn. destruct (A _ _ Hc) as (b & k & d & K & Lb & R & _ & _ & Q). cbn [fst snd] in *.
    assert (Ns : forall d', ~ not_stored ign d' K).
    { intros d' X. apply (Hn d' _ (read_as_repeat lb ds c k K (c_repeat c) R)). now apply not_stored_repeat. }
    destruct (Q (Ns d)) as (c' & J & EK). assert (Er : c_repeat c' = k).
    { rewrite <- content_repeat, EK. destruct R as (v & d9 & _ & _ & ->). reflexivity. }
    exists (once c'). split.
    + apply I. exists r, b, c'. split; [exact J|]. split; [apply (St r n (Used _ _ _ J) Rp); exact L|]. split; [rewrite Er; lia|]. split; [apply copy_once|].
      intros (_ & X & _). apply (Ns (c_style c')). left. rewrite EK in X. exact X.
    + pose proof (copy_once c') as C. rewrite (content_of_copy _ _ C), EK. pose proof (One _ _ J).
      replace (c_repeat (once c')) with 1 by (destruct C as (_ & _ & _ & _ & C); lia). eapply read_as_repeat. exact R.
Qed.

(** ** Examples *)

Definition rcell (s : string) n : cell := Cell (VText (lit s)) None None n None.
Definition styled n : cell := Cell VEmpty None (Some (lit "ce1")) n None.
Definition ex_rows : hmap rowattr := [(0, mkHdr (ra "r1" Visible 2) 1); (4, mkHdr (ra "r2" Collapsed 1) 1)].
Definition ex_cells : cells := [((0, 0), rcell "a" 2); ((0, 3), styled 3); ((4, 1), rcell "b" 1)].
Definition ex_clone := plain_sheet [] ex_rows [] [] None None ex_cells.
Lemma counted_ex r n : counted ex_rows r n -> (r = 0 /\ n = 2) \/ (r = 4 /\ n = 1).
Proof.
  intros (a & h & b & E & C). assert (I : In (r, h) ex_rows) by (rewrite E; apply in_or_app; right; left; reflexivity).
  destruct I as [I|[I|[]]]; injection I; intros <- <-; cbn in C; lia.
Qed.
Example C41_cells_ex : om_sorted N.ltb ex_rows /\ om_sorted pltb ex_cells /\ apart ex_rows ex_cells /\ exists sh', calc_cloned ex_clone = Ok sh'
  /\ map fst (tb_cells sh') = [(0, 0); (0, 1); (1, 0); (1, 1); (4, 1)]
  /\ Forall (fun kv => c_repeat (snd kv) = 1) (tb_cells sh').
Proof.
  split; [vm_compute; repeat constructor|]. split; [vm_compute; repeat constructor|]. split.
  - split; [|split].
    + intros r n c d C I. apply counted_ex in C. ins I; destruct C as [(E & ->)|(E & ->)]; try discriminate E;
        (split; [unfold u32_max; lia|]); intros r' c' d' J; ins J; lia.
    + intros r c d I. ins I; (split; [cbn; unfold u32_max; lia|]); intros c' d' J; ins J; cbn; lia.
    + intros r n C. apply counted_ex in C. unfold u32_max. lia.
  - eexists. split; [vm_compute; reflexivity|]. split; [vm_compute; reflexivity|]. vm_compute. repeat constructor.
Qed.
Example C41_headers_ex : exists sh', calc_cloned ex_clone = Ok sh'
  /\ tb_rows sh' = [(0, mkHdr (ra "r1" Visible 1) 2); (4, mkHdr (ra "r2" Collapsed 1) 1)]
  /\ rowstyle 1 (tb_rows sh') = Ok (Some (lit "r1")) /\ rowstyle 2 (tb_rows sh') = Ok None.
Proof. eexists. split; [vm_compute; reflexivity|]. vm_compute. repeat split. Qed.
Example C41_repeats_ex : map fst (tb_cells (calc_repeat ex_clone)) = [(0, 0); (4, 1)] /\ ra_repeat (h_attr (snd (hd (0, mkHdr rowattr0 1) (tb_rows (calc_repeat ex_clone))))) = 2.
Proof. vm_compute. auto. Qed.

Definition whole_table (sh : sheet) : res sheet := let* t := table_through false true no_styles sh in calculations false t.
Definition ex_file := plain_sheet [] [(0, mkHdr (ra "r1" Visible 2) 1)] [] [] None None [((0, 0), rcell "a" 2); ((0, 3), rcell "x" 1); ((3, 1), rcell "b" 1)].
Example C41_through_ex : exists sh', whole_table ex_file = Ok sh'
  /\ map (fun kv => (fst kv, c_value (snd kv))) (tb_cells sh') =
       [((0, 0), VText (lit "a")); ((0, 1), VText (lit "a")); ((0, 3), VText (lit "x"));
        ((1, 0), VText (lit "a")); ((1, 1), VText (lit "a")); ((1, 3), VText (lit "x")); ((3, 1), VText (lit "b"))].
Proof. eexists. split; vm_compute; reflexivity. Qed.

(** A row of 2000 repeats at the end is read as one row. *)
Theorem C41_large_refuted : exists sh sh', tb_rows sh = [(1, mkHdr (ra "r1" Visible 2000) 1)] /\ tb_cells sh = [((0, 0), rcell "a" 1); ((1, 0), rcell "b" 1)]
  /\ whole_table sh = Ok sh' /\ map fst (tb_cells sh') = [(0, 0); (1, 0)].
Proof.
  exists (plain_sheet [] [(1, mkHdr (ra "r1" Visible 2000) 1)] [] [] None None [((0, 0), rcell "a" 1); ((1, 0), rcell "b" 1)]).
  eexists. split; [reflexivity|]. split; [reflexivity|]. split; vm_compute; reflexivity.
Qed.
(** Styled empty cells at the end of a row: one is kept, two are lost. *)
Theorem C41_trailing_refuted : exists sh sh' sh2 sh2', tb_cells sh = [((0, 0), rcell "a" 1); ((0, 1), styled 1)]
  /\ tb_cells sh2 = [((0, 0), rcell "a" 1); ((0, 1), styled 2)]
  /\ (let* t := table_through false false no_styles sh in calculations false t) = Ok sh' /\ map fst (tb_cells sh') = [(0, 0); (0, 1)]
  /\ (let* t := table_through false false no_styles sh2 in calculations false t) = Ok sh2' /\ map fst (tb_cells sh2') = [(0, 0)].
Proof.
  exists (plain_sheet [] [] [] [] None None [((0, 0), rcell "a" 1); ((0, 1), styled 1)]). eexists.
  exists (plain_sheet [] [] [] [] None None [((0, 0), rcell "a" 1); ((0, 1), styled 2)]). eexists.
  split; [reflexivity|]. split; [reflexivity|]. split; [vm_compute; reflexivity|]. split; [vm_compute; reflexivity|]. split; vm_compute; reflexivity.
Qed.
(** The row behind a row with a style gets the style, too, and a repeat count of 0. *)
Definition gap_sheet := plain_sheet [] [(0, mkHdr (ra "r1" Collapsed 1) 1)] [] [] None None [((0, 0), rcell "a" 1); ((2, 0), rcell "b" 1)].
Theorem C41_next_row_refuted : exists sh', whole_table gap_sheet = Ok sh'
  /\ rowstyle 1 (tb_rows gap_sheet) = Ok None /\ row_visible 1 (tb_rows gap_sheet) = Ok Visible
  /\ rowstyle 1 (tb_rows sh') = Ok (Some (lit "r1")) /\ row_visible 1 (tb_rows sh') = Ok Collapsed /\ row_repeat 1 (tb_rows sh') = Ok 0.
Proof. eexists. split; [vm_compute; reflexivity|]. vm_compute. repeat split. Qed.
(** If a value is put into that row and the sheet is written, the rows behind it move down. *)
Theorem C41_write_again_refuted : exists sh' sh'', whole_table gap_sheet = Ok sh'
  /\ map fst (tb_cells sh') = [(0, 0); (2, 0)]
  /\ whole_table (put_cells (om_insert pltb (1, 0) (rcell "c" 1) (tb_cells sh')) sh') = Ok sh''
  /\ map fst (tb_cells sh'') = [(0, 0); (1, 0); (3, 0)].
Proof. eexists. eexists. split; [vm_compute; reflexivity|]. split; [vm_compute; reflexivity|]. split; [vm_compute; reflexivity|]. vm_compute. reflexivity. Qed.

Print Assumptions C41_cells.
Print Assumptions C41_headers.
Print Assumptions C41_rows.
Print Assumptions C41_repeats.
Print Assumptions C41_through.
Print Assumptions C41_large_refuted.
Print Assumptions C41_trailing_refuted.
Print Assumptions C41_next_row_refuted.
Print Assumptions C41_write_again_refuted.

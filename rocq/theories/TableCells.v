(** The cells and row attributes read from the rows of a written table. *)
From Verif Require Import Base Lib OMap OMapProofs XmlModel XmlSpec XmlProofs RefsModel CellModel HeaderModel HeaderSpec HeaderProofs
  SplitModel SplitSpec SplitProofs NumModel EnumModel CellIoModel CellIoSpec CellIoProofs DrawProofs TableModel TableRun.

(** ** Attributes *)
Lemma raw_vis v : parse_visibility (raw (show_visibility v)) = Ok v.
Proof. destruct v; reflexivity. Qed.
Lemma vis_attr_attr v : Forall is_attr (vis_attr v).
Proof. destruct v; repeat constructor; discriminate. Qed.
Lemma display_attr_attr d : Forall is_attr (display_attr d).
Proof. destruct d; repeat constructor; discriminate. Qed.
Lemma fold_attrs_app {A} (f : A -> str * str -> res A) l l' s : fold_attrs f s (l ++ l') = let* s' := fold_attrs f s l in fold_attrs f s' l'.
Proof. revert s. induction l as [|x l IH]; intros s; [reflexivity|]. cbn. destruct (f s x); cbn; auto. Qed.

(** What is read of the attributes of a row header. *)
Definition row_seen (a : rowattr) : option rowattr :=
  match ra_style a, ra_cellstyle a, ra_visible a with
  | None, None, Visible => None
  | st, cs, v => Some (mkRowAttr st cs v 1 None)
  end.
Lemma read_row_header h n : fold_attrs row_attr (n, None) (attrs_of (row_header_attrs h)) = Ok (n, row_seen (h_attr h)).
Proof.
  destruct h as [[st cs v r ht] sp]. unfold row_header_attrs, row_seen. cbn [h_attr ra_style ra_cellstyle ra_visible].
  destruct st, cs, v; reflexivity.
Qed.
Lemma row_header_attrs_attr h : Forall is_attr (row_header_attrs h).
Proof. unfold row_header_attrs. rewrite !Forall_app. repeat split; try apply opt_attr_attr. apply vis_attr_attr. Qed.
Lemma read_rep n o k : k <= u32_max -> fold_attrs row_attr (n, o) (attrs_of [CAttr a_rrep (show_N k)]) = Ok (k, o).
Proof. intros H. cbn [attrs_of attr_of fold_attrs]. unfold row_attr. cbn [fst snd]. change (str_eqb a_rrep a_rrep) with true. cbv iota. now rewrite raw_u32. Qed.
Lemma read_num_rep o k : 1 <= k <= u32_max -> fold_attrs row_attr (1, o) (attrs_of (num_attr a_rrep k)) = Ok (k, o).
Proof.
  intros H. unfold num_attr. destruct (1 <? k) eqn:E.
  - cbn [attrs_of attr_of fold_attrs]. unfold row_attr. cbn [fst snd]. change (str_eqb a_rrep a_rrep) with true. cbv iota. now rewrite raw_u32.
  - cbn. do 2 f_equal. lia.
Qed.

(** ** Header maps that end at a row *)
Definition rows_below (R : N) (m : hmap rowattr) : Prop := disjoint m /\ forall k, R <= k -> cov m k = None.
Lemma cov_put_after {A} R (a : A) (m : hmap A) k : om_sorted N.ltb m -> R < k -> cov m k = None -> cov (hput R (mkHdr a 1) m) k = None.
Proof.
  intros S L C. unfold cov in *. rewrite floor_put by exact S. destruct (k <? R) eqn:E; [lia|].
  destruct (om_floor k m) as [[b h]|] eqn:F.
  - destruct (b <=? R) eqn:E2; [|exact C]. cbn [h_span]. destruct (k <? R + 1) eqn:E3; [lia|reflexivity].
  - cbn [h_span]. destruct (k <? R + 1) eqn:E3; [lia|reflexivity].
Qed.
Lemma cov_put_before {A} R (a : A) (m : hmap A) k : om_sorted N.ltb m -> k < R -> cov (hput R (mkHdr a 1) m) k = cov m k.
Proof. intros S L. unfold cov. rewrite floor_put by exact S. destruct (k <? R) eqn:E; [reflexivity|lia]. Qed.
Lemma cov_put_at {A} R (a : A) (m : hmap A) : om_sorted N.ltb m -> cov (hput R (mkHdr a 1) m) R = Some a.
Proof.
  intros S. unfold cov. rewrite floor_put by exact S. destruct (R <? R) eqn:E; [lia|].
  destruct (om_floor R m) as [[b h]|] eqn:F.
  - apply floor_some in F; [|exact S]. destruct (b <=? R) eqn:E2; [|lia]. cbn [h_span h_attr]. destruct (R <? R + 1) eqn:E3; [reflexivity|lia].
  - cbn [h_span h_attr]. destruct (R <? R + 1) eqn:E3; [reflexivity|lia].
Qed.

(** Pieces of a run of columns, without gap. *)
Fixpoint tiling (C : N) (l : list split) (E : N) : Prop :=
  match l with [] => C = E | s :: r => s_col s = C /\ s_col s <= s_to s /\ tiling (s_to s + 1) r E end.
Lemma split_loop_tiling hid n : forall c s, s_col s <= s_to s -> s_to s + 1 = c ->
  tiling (s_col s) (split_loop hid n c (Some s)) (c + N.of_nat n).
Proof.
  induction n as [|n IH]; intros c s Hs Hc; cbn [split_loop tiling]; [repeat split; lia|].
  destruct (Bool.eqb _ _).
  - specialize (IH (c + 1) (mkSplit (s_col s) c (hid c))). cbn [s_col s_to] in IH. replace (c + N.of_nat (S n)) with (c + 1 + N.of_nat n) by lia. apply IH; lia.
  - cbn [tiling]. repeat split; [exact Hs|]. rewrite Hc. specialize (IH (c + 1) (mkSplit c c (hid c))). cbn [s_col s_to] in IH.
    replace (c + N.of_nat (S n)) with (c + 1 + N.of_nat n) by lia. apply IH; lia.
Qed.
Lemma split_tiling rs row col n l : split_hidden rs row col n = Ok l -> tiling col l (col + n).
Proof.
  unfold split_hidden. destruct (N.eqb_spec n 1) as [->|Hn].
  - destruct (existsb _ rs); intros H; injection H as <-; cbn; repeat split; lia.
  - destruct (add32 col n); cbn [bind]; try discriminate. intros H. injection H as <-.
    destruct (N.to_nat n) as [|m] eqn:E; cbn [split_loop]; [cbn; lia|].
    match goal with |- tiling _ (split_loop ?h _ _ (Some ?s)) _ => pose proof (split_loop_tiling h m (col + 1) s) as T end.
    cbn [s_col s_to] in T. replace (col + n) with (col + 1 + N.of_nat m) by lia. apply T; lia.
Qed.
Lemma tiling_le C l E : tiling C l E -> C <= E.
Proof. revert C. induction l as [|s l IH]; intros C; cbn; [lia|]. intros (A & B & D). apply IH in D. lia. Qed.
Lemma s_repeat_ok s k : s_repeat s = Ok k -> k = s_to s - s_col s + 1.
Proof.
  unfold s_repeat, sub32. destruct (s_col s <=? s_to s); [|discriminate]. cbn [bind]. unfold add32. destruct (_ <=? _); congruence.
Qed.

Lemma add32_ok a b c : add32 a b = Ok c -> c = a + b /\ c <= u32_max.
Proof. unfold add32. destruct (a + b <=? u32_max) eqn:E; [|discriminate]. intros H. injection H as <-. lia. Qed.
Lemma sub32_ok a b c : sub32 a b = Ok c -> b <= a /\ c = a - b.
Proof. unfold sub32. destruct (b <=? a) eqn:E; [|discriminate]. intros H. injection H as <-. lia. Qed.
Lemma hide_cell_split spans p c spans' sp : hide_cell spans (p, c) = Ok (spans', sp) -> exists rs, split_hidden rs (fst p) (snd p) (c_repeat c) = Ok sp.
Proof.
  unfold hide_cell. destruct p as [r b]. destruct (split_hidden _ r b (c_repeat c)) as [sp1| |] eqn:E; try discriminate. cbn [bind].
  intros H. exists (remove_outlived spans r b). cbn [fst snd]. rewrite E. destruct (c_extra c); [|congruence].
  destruct sp1; [discriminate|]. destruct (negb _ && _); [|congruence]. destruct (origin_span _ _ _); try discriminate. cbn [bind] in H. congruence.
Qed.
Lemma split_bound rs r b n sp : split_hidden rs r b n = Ok sp -> b < u32_max -> b + n <= u32_max.
Proof.
  unfold split_hidden. destruct (N.eqb_spec n 1) as [->|N1]; [lia|]. destruct (add32 b n) eqn:E; try discriminate. apply add32_ok in E. lia.
Qed.

(** Each header is for one row; repeated rows are not the very last ones. *)
Definition rows_low (m : hmap rowattr) : Prop := forall b h, In (b, h) m -> h_span h <= 1 /\ (1 < ra_repeat (h_attr h) -> b < u32_max).
Lemma hput_in {A} k (h : hdr A) m b g : om_sorted N.ltb m -> In (b, g) (hput k h m) -> (b = k /\ g = h) \/ (b <> k /\ In (b, g) m).
Proof.
  intros S I. pose proof (sorted_insert N.ltb nltb_order k h m S) as S'. apply (hget_in b g _ S') in I. unfold hget in I.
  destruct (N.eq_dec b k) as [->|D].
  - rewrite get_insert_same in I by apply nltb_order. left. split; congruence.
  - rewrite get_insert_other in I by (try apply nltb_order; exact D). right. split; [exact D|]. now apply (hget_in b g m S).
Qed.
Lemma low_hput k (h : hdr rowattr) m : om_sorted N.ltb m -> rows_low m -> h_span h <= 1 -> (1 < ra_repeat (h_attr h) -> k < u32_max) -> rows_low (hput k h m).
Proof. intros S1 H1 Hs Hk b g I. apply hput_in in I as [(-> & ->)|(_ & I)]; [auto|now apply H1|exact S1]. Qed.
Lemma low_put R a m : om_sorted N.ltb m -> rows_low m -> R < u32_max -> rows_low (hput R (mkHdr a 1) m).
Proof. intros S H L. apply low_hput; auto. cbn. lia. Qed.
Lemma low_set R f m m' : om_sorted N.ltb m -> rows_low m -> (let* m1 := split_row rowattr0 R m in set_attr R f m1) = Ok m' -> R < u32_max ->
  (forall a, cov m R = Some a -> R + ra_repeat a <= u32_max) -> rows_low m'.
Proof.
  intros S H E L Hc. unfold split_row in E.
  assert (F : forall m1, om_sorted N.ltb m1 -> rows_low m1 -> set_attr R f m1 = Ok m' -> rows_low m').
  { intros m1 S1 H1 E1. unfold set_attr in E1. destruct (hget R m1) as [h|] eqn:Eg; [|discriminate]. assert (m' = hput R (mkHdr (f (h_attr h)) (h_span h)) m1) as -> by congruence.
    apply (hget_in R h m1 S1) in Eg. apply low_hput; auto. cbn [h_span]. apply (H1 _ _ Eg). }
  assert (P : forall k (h : hdr rowattr) m1, om_sorted N.ltb m1 -> om_sorted N.ltb (hput k h m1)) by (intros; apply sorted_insert; auto using nltb_order).
  destruct (om_floor R m) as [[b h]|] eqn:Ef.
  - pose proof Ef as Ef'. apply floor_some in Ef' as (Ib & Lb & _); [|exact S]. destruct (H _ _ Ib) as (Hsp & _).
    assert (Eb : in_span b (h_span h) R = Ok ((b <=? R) && (R <? b + h_span h)) \/ in_span b (h_span h) R = Panic).
    { unfold in_span, add32. destruct (b + h_span h <=? u32_max); [left|right]; reflexivity. }
    destruct Eb as [Eb|Eb]; rewrite Eb in E; cbn [bind] in E; [|discriminate].
    destruct ((b <=? R) && (R <? b + h_span h)) eqn:Ei.
    + unfold add32 in E. destruct (R + 1 <=? u32_max); [|discriminate]. cbn [bind] in E.
      assert (Cr : cov m R = Some (h_attr h)) by (unfold cov; rewrite Ef; destruct (R <? b + h_span h); [reflexivity|rewrite andb_false_r in Ei; discriminate]).
      specialize (Hc _ Cr). eapply F; [| |exact E].
      * apply P. destruct (b <? R); repeat apply P; exact S.
      * apply low_hput; [destruct (b <? R); repeat apply P; exact S| |cbn [h_span]; lia|cbn [h_attr]; lia].
        destruct (b <? R) eqn:Eb2; [lia|]. apply low_hput; auto; cbn [h_span]; lia.
    + eapply F; [| |exact E]; [now apply P|]. apply low_hput; auto. cbn [h_span]. lia.
  - eapply F; [| |exact E]; [now apply P|]. apply low_hput; auto. cbn [h_span]. lia.
Qed.

Section Rows.
  Variables (lb ign : bool) (ds : vtype -> option str) (cm : hmap colattr) (G : N -> option rowattr -> bool -> Prop).
  Hypothesis cm_total : forall k, exists o, valid_header k cm = Ok o.

  Definition dflt_at (b : N) : option str :=
    match valid_header b cm with Ok (Some h) => ca_cellstyle (h_attr h) | _ => None end.

  (** There is a cell in row [k]. *)
  Definition has_row (M : cells) (k : N) : bool := existsb (fun kv => fst (fst kv) =? k) M.
  Lemma has_row_insert R c x M k : has_row (om_insert pltb (R, c) x M) k = (R =? k) || has_row M k.
  Proof.
    induction M as [|[[r b] y] M IH]; cbn [om_insert has_row existsb fst]; [reflexivity|].
    destruct (pltb (R, c) (r, b)) eqn:E1; [|destruct (pltb (r, b) (R, c)) eqn:E2]; cbn [existsb fst]; fold (has_row M k).
    - reflexivity.
    - etransitivity; [exact (f_equal (orb (r =? k)) IH)|].
      destruct (r =? k), (R =? k); reflexivity.
    - unfold pltb in *. cbn [fst snd] in *. assert (r = R) by lia. subst r. destruct (R =? k); reflexivity.
  Qed.
  (** Between two rows: [R] is the next row. *)
  Definition between (M : cells) (R : N) (s : tstate) : Prop :=
    tb_cols (ts_sheet s) = cm /\ tb_cells (ts_sheet s) = M /\ ts_row s = R /\ ts_data s = false
    /\ rows_below R (tb_rows (ts_sheet s)) /\ (forall k, R <= k -> has_row M k = false)
    /\ (forall k, k < R -> G k (cov (tb_rows (ts_sheet s)) k) (has_row M k))
    /\ rows_low (tb_rows (ts_sheet s)).
  (** Inside row [R], at column [C]; [A] was read from the attributes of the row. *)
  Definition inside (M : cells) (R rep C : N) (A : option rowattr) (d : bool) (s : tstate) : Prop :=
    tb_cols (ts_sheet s) = cm /\ tb_cells (ts_sheet s) = M /\ ts_row s = R /\ ts_rep s = rep /\ ts_col s = C /\ ts_data s = d
    /\ rows_below (R + 1) (tb_rows (ts_sheet s)) /\ cov (tb_rows (ts_sheet s)) R = A
    /\ (forall k, R < k -> has_row M k = false) /\ d = has_row M R
    /\ (forall k, k < R -> G k (cov (tb_rows (ts_sheet s)) k) (has_row M k))
    /\ rows_low (tb_rows (ts_sheet s)) /\ (forall a, A = Some a -> ra_repeat a = rep).
  Definition with_repeat (n : N) (o : option rowattr) : option rowattr := option_map (row_edit (SetRowRepeat n)) o.
  Definition row_final (n : N) (A : option rowattr) (d : bool) : option rowattr :=
    if d then Some (row_edit (SetRowRepeat n) (match A with Some a => a | None => rowattr0 end)) else A.

  Definition steps (s : tstate) (l : list titem) (s' : tstate) : Prop :=
    run_items lb ign ds s l = Ok s' /\ Forall (item_fine lb) l.
  Lemma steps_nil s : steps s [] s.
  Proof. split; [reflexivity|constructor]. Qed.
  Lemma steps_app s l s' l' s'' : steps s l s' -> steps s' l' s'' -> steps s (l ++ l') s''.
  Proof. intros [A B] [C D]. split; [rewrite run_app, A; exact C|]. apply Forall_app. auto. Qed.
  Lemma steps_one s i s' : item_fine lb i -> item_step lb ign ds s i = Ok s' -> steps s [i] s'.
  Proof. intros A B. split; [cbn [run_items]; rewrite B; reflexivity|]. constructor; [exact A|constructor]. Qed.

  Lemma read_group_display d k : exists g, read_group (attrs_of (display_attr d)) k = Ok g.
  Proof. destruct d; eexists; reflexivity. Qed.

  Lemma step_open_group d M R s : between M R s -> exists s', steps s [TOpen t_rgroup (display_attr d)] s' /\ between M R s'.
  Proof.
    intros H. destruct (read_group_display d (ts_row s)) as [g E]. eexists. split.
    - apply steps_one; [apply display_attr_attr|]. cbn [item_step]. unfold table_event.
      change (existsb (str_eqb t_rgroup) (prelude ++ epilogue)) with false. change (str_eqb t_rgroup t_cgroup) with false.
      change (str_eqb t_rgroup t_hcols) with false. change (str_eqb t_rgroup t_rgroup) with true. cbv iota. rewrite E. reflexivity.
    - exact H.
  Qed.
  Lemma step_close_group M R s : 1 <= R -> between M R s -> exists s', steps s [TClose t_rgroup] s' /\ between M R s'.
  Proof.
    intros L H. destruct (ts_rgroup s) as [|g gr] eqn:E.
    - exists s. split; [|exact H]. apply steps_one; [exact I|]. cbn [item_step table_event].
      change (str_eqb t_rgroup t_table) with false. change (str_eqb t_rgroup t_cgroup) with false.
      change (str_eqb t_rgroup t_hcols) with false. change (str_eqb t_rgroup t_rgroup) with true. cbv iota. rewrite E. reflexivity.
    - eexists. split; [apply steps_one; [exact I|]|].
      + cbn [item_step table_event].
        change (str_eqb t_rgroup t_table) with false. change (str_eqb t_rgroup t_cgroup) with false.
        change (str_eqb t_rgroup t_hcols) with false. change (str_eqb t_rgroup t_rgroup) with true. cbv iota. rewrite E.
        assert (Er : ts_row s = R) by apply H. unfold sub32. destruct (1 <=? ts_row s) eqn:X; [|lia]. reflexivity.
      + exact H.
  Qed.
  Lemma step_open_header M R s : between M R s -> exists s', steps s [TOpen t_hrows []] s' /\ between M R s'.
  Proof. intros H. eexists. split; [apply steps_one; [constructor|reflexivity]|]. exact H. Qed.
  Lemma step_close_header M R s : 1 <= R -> between M R s -> exists s', steps s [TClose t_hrows] s' /\ between M R s'.
  Proof.
    intros L H. assert (Er : ts_row s = R) by apply H. eexists. split; [apply steps_one; [exact I|]|].
    - cbn [item_step table_event].
      change (str_eqb t_hrows t_table) with false. change (str_eqb t_hrows t_cgroup) with false.
      change (str_eqb t_hrows t_hcols) with false. change (str_eqb t_hrows t_rgroup) with false. change (str_eqb t_hrows t_hrows) with true.
      cbv iota. unfold extend_header. unfold sub32. destruct (1 <=? ts_row s) eqn:X; [|lia]. reflexivity.
    - exact H.
  Qed.

  Lemma step_open_row a rep o M R s : Forall is_attr a -> fold_attrs row_attr (1, None) (attrs_of a) = Ok (rep, o) -> R < u32_max ->
    between M R s -> exists s', steps s [TOpen t_row a] s' /\ inside M R rep 0 (with_repeat rep o) false s'.
  Proof.
    intros Ha Hf L H. destruct H as (H1 & H2 & H3 & H4 & (H5 & H6) & H61 & H7 & Hlow). eexists. split; [apply steps_one; [exact Ha|]|].
    - cbn [item_step]. unfold table_event.
      change (existsb (str_eqb t_row) (prelude ++ epilogue)) with false. change (str_eqb t_row t_cgroup) with false.
      change (str_eqb t_row t_hcols) with false. change (str_eqb t_row t_rgroup) with false. change (str_eqb t_row t_hrows) with false.
      change (str_eqb t_row t_row) with true. cbv iota. unfold read_row. rewrite Hf. reflexivity.
    - cbn [ts_sheet ts_row ts_col ts_rep ts_data]. rewrite H3. pose proof H5 as [S _].
      destruct o as [x|]; unfold inside; cbn [ts_sheet ts_row ts_col ts_rep ts_data put_rows tb_cols tb_cells tb_rows].
      + repeat (split; [assumption || reflexivity|]). split; [split|split; [|split; [|split; [|split; [|split]]]]].
        * apply disjoint_put_new; [exact H5|apply H6; lia|exact L].
        * intros k Hk. apply cov_put_after; [exact S|lia|apply H6; lia].
        * apply cov_put_at; exact S.
        * intros k Hk. apply H61. lia.
        * symmetry. apply H61. lia.
        * intros k Hk. rewrite cov_put_before by assumption. now apply H7.
        * apply low_put; [exact S|exact Hlow|exact L].
        * intros y E. injection E as <-. destruct x; reflexivity.
      + repeat (split; [assumption || reflexivity|]). split; [split|split; [|split; [|split; [|split; [|split]]]]].
        * exact H5.
        * intros k Hk. apply H6. lia.
        * apply H6. lia.
        * intros k Hk. apply H61. lia.
        * symmetry. apply H61. lia.
        * exact H7.
        * exact Hlow.
        * discriminate.
  Qed.

  Lemma step_close_row M R rep C A d s : 1 <= rep -> R + rep <= u32_max ->
    G R (row_final rep A d) d -> (forall k, R < k < R + rep -> G k None false) ->
    inside M R rep C A d s -> exists s', steps s [TClose t_row] s' /\ between M (R + rep) s'.
  Proof.
    intros Hr L GR GK (H1 & H2 & H3 & H4 & H5 & H6 & (H7 & H8) & H9 & H91 & H92 & H10 & Hlow & Hrep).
    assert (Hend : exists s', end_of_row s = Ok s' /\ between M (R + rep) s').
    { unfold end_of_row. rewrite H6, H3, H4. destruct d.
      - destruct (set_row_step rowattr0 R (row_edit (SetRowRepeat rep)) (tb_rows (ts_sheet s)) H7) as (m' & E & D & Cv); [lia|].
        unfold set_row. cbn [row_op_asserts]. destruct (0 <? rep) eqn:X; [|lia].
        change (let* m'0 := split_row rowattr0 R (tb_rows (ts_sheet s)) in set_attr R (row_edit (SetRowRepeat rep)) m'0)
          with (bind (split_row rowattr0 R (tb_rows (ts_sheet s))) (set_attr R (row_edit (SetRowRepeat rep)))). rewrite E. cbn [bind].
        unfold add32. destruct (R + rep <=? u32_max) eqn:Y; [|lia]. cbn [bind]. eexists. split; [reflexivity|].
        unfold between; cbn [ts_sheet ts_row ts_data put_rows tb_cols tb_cells tb_rows]. repeat (split; [assumption || reflexivity|]). split; [|split; [intros k Hk; apply H91; lia|split]].
        + split; [exact D|]. intros k Hk. rewrite Cv. destruct (k =? R) eqn:Z; [lia|]. destruct (_ && _); [reflexivity|]. apply H8. lia.
        + intros k Hk. rewrite Cv. destruct (k =? R) eqn:Z.
          * assert (k = R) by lia. subst k. unfold row_final in GR. unfold cov_or. rewrite H9, <- H92. exact GR.
          * destruct (N.lt_ge_cases k R) as [Lk|Lk].
            -- assert (Q : from_next (tb_rows (ts_sheet s)) R k = false).
               { unfold from_next. destruct (om_floor k (tb_rows (ts_sheet s))) as [[b h]|] eqn:F; [|reflexivity].
                 apply floor_some in F; [|apply H7]. lia. }
               rewrite Q. cbn [andb]. now apply H10.
            -- replace (if from_next _ _ _ && _ then None else cov (tb_rows (ts_sheet s)) k) with (@None rowattr).
               ++ rewrite H91 by lia. apply GK. lia.
               ++ destruct (_ && _); [reflexivity|]. symmetry. apply H8. lia.
        + eapply low_set; [apply H7|exact Hlow|exact E|lia|]. intros a Ea. rewrite H9 in Ea. rewrite (Hrep _ Ea). lia.
      - cbn [bind]. unfold add32. destruct (R + rep <=? u32_max) eqn:Y; [|lia]. cbn [bind]. eexists. split; [reflexivity|].
        unfold between; cbn [ts_sheet ts_row ts_data put_rows tb_cols tb_cells tb_rows]. repeat (split; [assumption || reflexivity|]). split; [|split; [intros k Hk; apply H91; lia|split; [|exact Hlow]]].
        + split; [exact H7|]. intros k Hk. apply H8. lia.
        + intros k Hk. destruct (N.lt_ge_cases k R) as [Lk|Lk]; [now apply H10|]. destruct (N.eq_dec k R) as [->|Nk].
          * rewrite H9, <- H92. exact GR.
          * rewrite H8, H91 by lia. apply GK. lia. }
    destruct Hend as (s' & E & B). exists s'. split; [|exact B]. apply steps_one; [exact I|]. cbn [item_step table_event].
    change (str_eqb t_row t_table) with false. change (str_eqb t_row t_cgroup) with false.
    change (str_eqb t_row t_hcols) with false. change (str_eqb t_row t_rgroup) with false. change (str_eqb t_row t_hrows) with false.
    change (str_eqb t_row t_row) with true. cbv iota. rewrite E. reflexivity.
  Qed.

  Lemma col_default_inside s : tb_cols (ts_sheet s) = cm -> col_default s = Ok (dflt_at (ts_col s)).
  Proof.
    intros H. unfold col_default, dflt_at. rewrite H. destruct (cm_total (ts_col s)) as [o E]. rewrite E. destruct o; reflexivity.
  Qed.

  (** Cells without content. *)
  Lemma step_blank h a k M R rep C A d s : Forall is_attr a -> cell_read_attrs cellacc0 (attrs_of a) =
      Ok (CA None k TyEmpty (a_dt cellacc0) (a_dur cellacc0) (a_float cellacc0) (a_bool cellacc0) (a_string cellacc0) (a_cur cellacc0) (a_content cellacc0)) ->
    C + k <= u32_max -> inside M R rep C A d s ->
    exists s', steps s [TEmpty (cell_tag h) a] s' /\ inside M R rep (C + k) A d s'.
  Proof.
    intros Ha Hr L H. pose proof H as (H1 & H2 & H3 & H4 & H5 & H6 & H7 & H8 & H9).
    destruct (t_cell_tag h) as (T1 & T2 & T3 & T4 & T5 & T6 & T7 & T8).
    eexists. split; [apply steps_one; [split; [exact Ha|exact T1]|]|].
    - cbn [item_step table_event]. rewrite T1, T7, T8, col_default_inside by assumption. cbn [bind]. rewrite Hr. cbn [bind cell_finish a_cell a_repeat].
      unfold store_cell. rewrite H5. unfold add32. destruct (C + k <=? u32_max) eqn:X; [|lia]. reflexivity.
    - unfold inside. cbn [ts_sheet ts_row ts_col ts_rep ts_data]. rewrite H6, orb_false_r. repeat (split; [assumption || reflexivity|]). exact H9.
  Qed.
  Lemma read_crep k : 1 <= k <= u32_max -> cell_read_attrs cellacc0 (attrs_of (num_attr a_crep k)) =
      Ok (CA None k TyEmpty (a_dt cellacc0) (a_dur cellacc0) (a_float cellacc0) (a_bool cellacc0) (a_string cellacc0) (a_cur cellacc0) (a_content cellacc0)).
  Proof.
    intros H. unfold a_crep. rewrite step_repeat by exact H. cbn [cellacc0 a_cell a_repeat a_type]. do 2 f_equal. destruct (1 <? k) eqn:E; [reflexivity|]. cbn. lia.
  Qed.
  Lemma read_crep' k : k <= u32_max -> cell_read_attrs cellacc0 (attrs_of [CAttr a_crep (show_N k)]) =
      Ok (CA None k TyEmpty (a_dt cellacc0) (a_dur cellacc0) (a_float cellacc0) (a_bool cellacc0) (a_string cellacc0) (a_cur cellacc0) (a_content cellacc0)).
  Proof.
    intros H. cbn [attrs_of attr_of cell_read_attrs]. unfold cell_attr. cbn [fst snd].
    change (find_key ckeys a_crep) with (Some KRepeat). cbv iota. rewrite raw_u32 by exact H. reflexivity.
  Qed.
  Lemma step_empty_cells h k M R rep C A d s : 1 <= k -> C + k <= u32_max -> inside M R rep C A d s ->
    exists s', steps s [empty_cells h k] s' /\ inside M R rep (C + k) A d s'.
  Proof.
    intros Hk L. unfold empty_cells. apply step_blank.
    - destruct (1 <? k); repeat constructor; discriminate.
    - destruct (1 <? k) eqn:E; [apply read_crep'; lia|]. replace k with 1 by lia. reflexivity.
    - exact L.
  Qed.

  (** Cells with content. *)
  Definition cell_read (b : N) (c : cell) (h : bool) (k : N) : option cell :=
    match cell_out lb ign (dflt_at b) ds c h k with Ok (_, o) => o | _ => None end.
  Definition piece_read (c : cell) (sp : split) : option cell := cell_read (s_col sp) c (s_hidden sp) (s_to sp - s_col sp + 1).
  Definition put_piece (R : N) (c : cell) (M : cells) (sp : split) : cells :=
    match piece_read c sp with Some x => om_insert pltb (R, s_col sp) x M | None => M end.
  Lemma cell_out_ok c h k dflt : cell_fine lb c -> 1 <= k <= u32_max -> exists o, cell_out lb ign dflt ds c h k = Ok (k, o).
  Proof.
    intros (Hx & Hp & t & Hb & Hfl) Hk. destruct (read_written_kept lb ign dflt ds c h k t Hx Hk Hp Hb Hfl) as (_ & o & _ & Hr & _).
    exists o. unfold cell_out, events_of. specialize (Hr []). rewrite app_nil_r in Hr. rewrite Hr. reflexivity.
  Qed.
  Lemma step_piece c sp k M R rep A d s : cell_fine lb c -> s_repeat sp = Ok k -> s_col sp <= s_to sp -> s_to sp + 1 <= u32_max ->
    inside M R rep (s_col sp) A d s ->
    exists s', steps s [TCell c (s_hidden sp) k] s' /\ inside (put_piece R c M sp) R rep (s_to sp + 1) A (d || CellModel.is_some (piece_read c sp)) s'.
  Proof.
    intros Hc Hk L1 L2 H. apply s_repeat_ok in Hk. pose proof H as (H1 & H2 & H3 & H4 & H5 & H6 & H7 & H8 & H9).
    destruct (cell_out_ok c (s_hidden sp) k (dflt_at (s_col sp)) Hc) as [o Ho]; [lia|].
    assert (Hp : piece_read c sp = o) by (unfold piece_read, cell_read; rewrite <- Hk, Ho; reflexivity).
    eexists. split; [apply steps_one|].
    - split; [exact Hc|lia].
    - cbn [item_step]. rewrite col_default_inside by assumption. cbn [bind]. rewrite H5, Ho. cbn [bind]. unfold store_cell. rewrite H5.
      unfold add32. destruct (s_col sp + k <=? u32_max) eqn:X; [|lia]. reflexivity.
    - unfold put_piece. rewrite Hp. unfold inside. cbn [ts_sheet ts_row ts_col ts_rep ts_data]. rewrite H6, H3.
      destruct o as [x|]; cbn [put_cells tb_cols tb_cells tb_rows CellModel.is_some].
      + rewrite H2. repeat (split; [assumption || reflexivity || lia|]). destruct H9 as (H9 & H10 & H11 & H12). split; [|split; [|split; [|exact H12]]].
        * intros q Hq. rewrite has_row_insert, (H9 q Hq), orb_false_r. apply N.eqb_neq. lia.
        * rewrite has_row_insert, N.eqb_refl. apply orb_true_r.
        * intros q Hq. rewrite has_row_insert. replace (R =? q) with false by (symmetry; apply N.eqb_neq; lia). now apply H11.
      + rewrite orb_false_r. repeat (split; [assumption || reflexivity || lia|]). exact H9.
  Qed.
  Lemma step_pieces c R rep A : forall sp items C E M d s, cell_fine lb c -> pieces (TCell c) sp = Ok items -> tiling C sp E -> E <= u32_max ->
    inside M R rep C A d s ->
    exists s', steps s items s' /\ inside (fold_left (put_piece R c) sp M) R rep E A (d || existsb (fun p => CellModel.is_some (piece_read c p)) sp) s'.
  Proof.
    induction sp as [|p sp IH]; intros items C E M d s Hc Hp Ht L H; cbn [pieces tiling fold_left existsb] in *.
    - injection Hp as <-. subst E. exists s. rewrite orb_false_r. split; [apply steps_nil|exact H].
    - destruct (s_repeat p) as [k| |] eqn:Ek; try discriminate. cbn [bind] in Hp.
      destruct (pieces (TCell c) sp) as [o| |] eqn:Eo; try discriminate. cbn [bind] in Hp. injection Hp as <-.
      destruct Ht as (T1 & T2 & T3). subst C. pose proof (tiling_le _ _ _ T3) as T4.
      destruct (step_piece c p k M R rep A d s Hc Ek T2 ltac:(lia) H) as (s1 & S1 & I1).
      destruct (IH o _ _ _ _ _ Hc eq_refl T3 L I1) as (s2 & S2 & I2).
      exists s2. split; [exact (steps_app _ [_] _ _ _ S1 S2)|]. rewrite orb_assoc. exact I2.
  Qed.
  Lemma step_gaps R rep A d M : forall sp items C E s, pieces empty_cells sp = Ok items -> tiling C sp E -> E <= u32_max ->
    inside M R rep C A d s -> exists s', steps s items s' /\ inside M R rep E A d s'.
  Proof.
    induction sp as [|p sp IH]; intros items C E s Hp Ht L H; cbn [pieces tiling] in *.
    - injection Hp as <-. subst E. exists s. split; [apply steps_nil|exact H].
    - destruct (s_repeat p) as [k| |] eqn:Ek; try discriminate. cbn [bind] in Hp.
      destruct (pieces empty_cells sp) as [o| |] eqn:Eo; try discriminate. cbn [bind] in Hp. injection Hp as <-.
      destruct Ht as (T1 & T2 & T3). subst C. pose proof (tiling_le _ _ _ T3) as T4. apply s_repeat_ok in Ek.
      destruct (step_empty_cells (s_hidden p) k M R rep (s_col p) A d s ltac:(lia) ltac:(lia) H) as (s1 & S1 & I1).
      replace (s_col p + k) with (s_to p + 1) in I1 by lia.
      destruct (IH o _ _ _ eq_refl T3 L I1) as (s2 & S2 & I2).
      exists s2. split; [exact (steps_app _ [_] _ _ _ S1 S2)|exact I2].
  Qed.
  Lemma step_gap_cells spans r c w items R rep A d M s : gap_cells spans r c w = Ok items -> c + w <= u32_max ->
    inside M R rep c A d s -> exists s', steps s items s' /\ inside M R rep (c + w) A d s'.
  Proof.
    unfold gap_cells. intros Hg L H. destruct (0 <? w) eqn:E.
    - destruct (split_hidden spans r c w) as [sp| |] eqn:Es; try discriminate. cbn [bind] in Hg. apply split_tiling in Es.
      eapply step_gaps; eassumption.
    - injection Hg as <-. exists s. replace (c + w) with c by lia. split; [apply steps_nil|exact H].
  Qed.

  (** Sequences of marks between rows. *)
  Definition mark (i : titem) : Prop :=
    (exists d, i = TOpen t_rgroup (display_attr d)) \/ i = TOpen t_hrows [] \/ i = TClose t_rgroup \/ i = TClose t_hrows.
  Lemma step_marks M R l : forall s, Forall mark l -> (1 <= R \/ Forall (fun i => exists n a, i = TOpen n a) l) -> between M R s ->
    exists s', steps s l s' /\ between M R s'.
  Proof.
    induction l as [|i l IH]; intros s Hm Hr H; [exists s; split; [apply steps_nil|exact H]|].
    inversion Hm as [|? ? Hi Hl]; subst.
    assert (H1 : exists s1, steps s [i] s1 /\ between M R s1).
    { destruct Hi as [(d & E0)|[E0|[E0|E0]]]; subst i.
      - now apply step_open_group.
      - now apply step_open_header.
      - apply step_close_group; [|exact H]. destruct Hr as [Hr|Hr]; [exact Hr|]. inversion Hr as [|? ? (n & a & E) _]; discriminate.
      - apply step_close_header; [|exact H]. destruct Hr as [Hr|Hr]; [exact Hr|]. inversion Hr as [|? ? (n & a & E) _]; discriminate. }
    destruct H1 as (s1 & S1 & B1). destruct (IH s1 Hl) as (s2 & S2 & B2); [|exact B1|].
    - destruct Hr as [Hr|Hr]; [left; exact Hr|]. inversion Hr; subst. right; assumption.
    - exists s2. split; [exact (steps_app _ [_] _ _ _ S1 S2)|exact B2].
  Qed.
  Definition is_open (i : titem) : Prop := exists n a, i = TOpen n a.
  Lemma opens_marks k gs : Forall mark (opens t_rgroup k gs) /\ Forall is_open (opens t_rgroup k gs).
  Proof. unfold opens. split; apply Forall_forall; intros i Hi; apply in_map_iff in Hi; destruct Hi as (g & <- & _); [left|]; repeat eexists. Qed.
  Lemma open_groups_marks r rep gs : forall w o w', open_groups r rep gs w = Ok (o, w') -> Forall mark o /\ Forall is_open o /\ w_head w' = w_head w.
  Proof.
    induction gs as [|g gs IH]; intros w o w' H; cbn [open_groups] in H.
    - injection H as <- <-. repeat split; constructor.
    - destruct (within r rep (g_from g)) as [b| |]; try discriminate. cbn [bind] in H. destruct b.
      + destruct (open_groups r rep gs _) as [[o1 w1]| |] eqn:E; try discriminate. cbn [bind] in H. injection H as <- <-.
        apply IH in E. cbn [w_head] in E. destruct E as (A & B & C). repeat split; [constructor; [left; eexists; reflexivity|exact A]| |exact C].
        constructor; [repeat eexists|exact B].
      + now apply IH in H.
  Qed.
  Lemma close_groups_marks r rep gs : forall w o w', close_groups r rep gs w = Ok (o, w') -> Forall mark o.
  Proof.
    induction gs as [|g gs IH]; intros w o w' H; cbn [close_groups] in H.
    - injection H as <- <-. constructor.
    - destruct (within r rep (g_to g)) as [b| |]; try discriminate. cbn [bind] in H. destruct b.
      + destruct (sub32 (w_count w) 1) as [n| |]; try discriminate. cbn [bind] in H.
        destruct (close_groups r rep gs _) as [[o1 w1]| |] eqn:E; try discriminate. cbn [bind] in H. injection H as <- <-.
        apply IH in E. constructor; [|exact E]. right; right; left; reflexivity.
      + now apply IH in H.
  Qed.
  Lemma close_at_marks r gs : forall n o n', close_at r gs n = Ok (o, n') -> Forall mark o /\ (n = 0 -> o = []).
  Proof.
    induction gs as [|g gs IH]; intros w o w' H; cbn [close_at] in H.
    - injection H as <- <-. split; [constructor|reflexivity].
    - destruct (g_to g =? r).
      + destruct (sub32 w 1) as [n| |] eqn:X; try discriminate. cbn [bind] in H.
        destruct (close_at r gs n) as [[o1 w1]| |] eqn:E; try discriminate. cbn [bind] in H. injection H as <- <-.
        apply IH in E. split; [constructor; [right; right; left; reflexivity|apply E]|]. intros ->. discriminate.
      + now apply IH in H.
  Qed.

  (** ** Rows *)
  Variable sh : sheet.
  Variable free : N -> Prop.
  Hypothesis G_free : forall k x, free k -> G k x false.
  Definition seen_at (r : N) : option rowattr :=
    match valid_header r (tb_rows sh) with Ok (Some h) => row_seen (h_attr h) | _ => None end.
  (** The repeat count the cell loop uses is the one that is written. *)
  Definition row_fine (r : N) : Prop :=
    (forall o, valid_header r (tb_rows sh) = Ok o -> match o with Some h => ra_repeat (h_attr h) | None => 1 end = row_repeat_at (tb_rows sh) r)
    /\ 1 <= row_repeat_at (tb_rows sh) r /\ r + row_repeat_at (tb_rows sh) r <= u32_max.
  Definition row_result (r : N) : option rowattr := with_repeat (row_repeat_at (tb_rows sh) r) (seen_at r).
  Hypothesis G_data : forall r d, row_fine r -> G r (row_final (row_repeat_at (tb_rows sh) r) (row_result r) d) d.

  Lemma read_row_attrs r a : row_attrs (tb_rows sh) r = Ok a -> row_fine r ->
    Forall is_attr a /\ fold_attrs row_attr (1, None) (attrs_of a) = Ok (row_repeat_at (tb_rows sh) r, seen_at r).
  Proof.
    unfold row_attrs, seen_at. intros H (F1 & F2 & F3). destruct (valid_header r (tb_rows sh)) as [o| |] eqn:E; try discriminate. cbn [bind] in H.
    injection H as <-. specialize (F1 o eq_refl). destruct o as [h|].
    - split; [apply Forall_app; split; [apply num_attr_attr|apply row_header_attrs_attr]|].
      rewrite attrs_of_app, fold_attrs_app, F1, read_num_rep by lia. cbn [bind]. apply read_row_header.
    - split; [constructor|]. cbn. now rewrite F1.
  Qed.
  Lemma step_start_row M r rep back w o w' s : start_row sh r rep back w = Ok (o, w') -> row_fine r -> back <= u32_max -> r < u32_max ->
    between M r s -> exists s', steps s o s' /\ inside M r (row_repeat_at (tb_rows sh) r) back (row_result r) false s'.
  Proof.
    intros H F Hb L B. unfold start_row in H. destruct (open_groups r rep (tb_grows sh) w) as [[o1 s1]| |] eqn:E1; try discriminate. cbn [bind] in H.
    destruct (match tb_hrows sh with Some (f, _) => within_header r rep f | None => Ok false end) as [hd| |]; try discriminate. cbn [bind] in H.
    destruct (row_attrs (tb_rows sh) r) as [a| |] eqn:Ea; try discriminate. cbn [bind] in H. injection H as <- <-.
    destruct (open_groups_marks _ _ _ _ _ _ E1) as (M1 & M2 & _). destruct (read_row_attrs r a Ea F) as (A1 & A2).
    destruct (step_marks M r o1 s M1) as (t1 & S1 & B1); [now right|exact B|].
    match goal with |- exists s', steps s (o1 ++ ?x ++ _) s' /\ _ => destruct (step_marks M r x t1) as (t2 & S2 & B2) end.
    { cbn [w_head]. destruct (hd || w_head s1); [constructor; [right; left; reflexivity|constructor]|constructor]. }
    { right. cbn [w_head]. destruct (hd || w_head s1); [constructor; [repeat eexists|constructor]|constructor]. }
    { exact B1. }
    destruct (step_open_row a _ _ M r t2 A1 A2 L B2) as (t3 & S3 & B3).
    destruct (0 <? back) eqn:Eb.
    - destruct (step_blank false (num_attr a_crep back) back M r (row_repeat_at (tb_rows sh) r) 0 (row_result r) false t3) as (t4 & S4 & B4).
      { apply num_attr_attr. } { apply read_crep. lia. } { lia. } { exact B3. }
      exists t4. split; [|exact B4]. eapply steps_app; [exact S1|]. eapply steps_app; [exact S2|]. exact (steps_app _ [_] _ _ _ S3 S4).
    - exists t3. replace back with 0 by lia. split; [|exact B3]. eapply steps_app; [exact S1|]. eapply steps_app; [exact S2|]. exact S3.
  Qed.
  Lemma step_end_row M r C d w o w' s : end_row sh r (row_repeat_at (tb_rows sh) r) w = Ok (o, w') -> row_fine r ->
    (forall k, r < k < r + row_repeat_at (tb_rows sh) r -> free k) ->
    inside M r (row_repeat_at (tb_rows sh) r) C (row_result r) d s -> exists s', steps s o s' /\ between M (r + row_repeat_at (tb_rows sh) r) s'.
  Proof.
    intros H F Fr B. unfold end_row in H.
    destruct (match tb_hrows sh with Some (_, t) => within_header r _ t | None => Ok false end) as [hd| |]; try discriminate. cbn [bind] in H.
    destruct (close_groups r _ (tb_grows sh) _) as [[o1 w1]| |] eqn:E1; try discriminate. cbn [bind] in H. injection H as <- <-.
    pose proof F as (_ & F2 & F3).
    destruct (step_close_row M r (row_repeat_at (tb_rows sh) r) C (row_result r) d s F2 F3 (G_data r d F)) as (t1 & S1 & B1); [|exact B|].
    { intros k Hk. apply G_free, Fr, Hk. }
    match goal with |- exists s', steps s (_ :: ?x ++ o1) s' /\ _ => destruct (step_marks M (r + row_repeat_at (tb_rows sh) r) (x ++ o1) t1) as (t2 & S2 & B2) end.
    { apply Forall_app. split; [|eapply close_groups_marks; exact E1]. destruct (w_head w); [constructor; [right; right; right; reflexivity|constructor]|constructor]. }
    { left. lia. } { exact B1. }
    exists t2. split; [|exact B2]. exact (steps_app _ [_] _ _ _ S1 S2).
  Qed.
  Lemma step_end_last M r C d w s : row_fine r -> (forall k, r < k < r + row_repeat_at (tb_rows sh) r -> free k) ->
    inside M r (row_repeat_at (tb_rows sh) r) C (row_result r) d s ->
    exists s', steps s (end_last_row w) s' /\ between M (r + row_repeat_at (tb_rows sh) r) s'.
  Proof.
    intros F Fr B. unfold end_last_row. pose proof F as (_ & F2 & F3).
    destruct (step_close_row M r (row_repeat_at (tb_rows sh) r) C (row_result r) d s F2 F3 (G_data r d F)) as (t1 & S1 & B1); [|exact B|].
    { intros k Hk. apply G_free, Fr, Hk. }
    match goal with |- exists s', steps s (_ :: ?x) s' /\ _ => destruct (step_marks M (r + row_repeat_at (tb_rows sh) r) x t1) as (t2 & S2 & B2) end.
    { apply Forall_app. split.
      - destruct (w_head w); [constructor; [right; right; right; reflexivity|constructor]|constructor].
      - apply Forall_forall. intros i Hi. apply repeat_spec in Hi. subst i. right; right; left; reflexivity. }
    { left. lia. } { exact B1. }
    exists t2. split; [|exact B2]. exact (steps_app _ [_] _ _ _ S1 S2).
  Qed.

  Lemma step_empty_row M r rep w o s : empty_row sh r rep w = Ok o -> 1 <= rep -> r + rep <= u32_max -> w <= u32_max ->
    (forall k, r <= k < r + rep -> free k) -> between M r s -> exists s', steps s o s' /\ between M (r + rep) s'.
  Proof.
    unfold empty_row, empty_row_attrs. intros H Hr L Lw Fr B.
    destruct (valid_header r (tb_rows sh)) as [v| |]; try discriminate. cbn [bind] in H. injection H as <-.
    assert (A : exists x, Forall is_attr (CAttr a_rrep (show_N rep) :: match v with Some h => row_header_attrs h | None => [] end)
      /\ fold_attrs row_attr (1, None) (attrs_of (CAttr a_rrep (show_N rep) :: match v with Some h => row_header_attrs h | None => [] end)) = Ok (rep, x)).
    { exists (match v with Some h => row_seen (h_attr h) | None => None end).
      change (CAttr a_rrep (show_N rep) :: ?l) with ([CAttr a_rrep (show_N rep)] ++ l). split.
      - apply Forall_app. split; [repeat constructor; discriminate|]. destruct v; [apply row_header_attrs_attr|constructor].
      - rewrite attrs_of_app, fold_attrs_app, read_rep by lia. cbn [bind]. destruct v; [apply read_row_header|reflexivity]. }
    destruct A as (x & A1 & A2).
    destruct (step_open_row _ _ _ M r s A1 A2 ltac:(lia) B) as (t1 & S1 & B1).
    destruct (step_blank false [CAttr a_crep (show_N w)] w M r rep 0 (with_repeat rep x) false t1) as (t2 & S2 & B2).
    { repeat constructor; discriminate. } { apply read_crep'. exact Lw. } { lia. } { exact B1. }
    destruct (step_close_row M r rep (0 + w) (with_repeat rep x) false t2 Hr L (G_free r _ (Fr r ltac:(lia)))) as (t3 & S3 & B3); [|exact B2|].
    { intros k Hk. apply G_free, Fr. lia. }
    exists t3. split; [|exact B3]. exact (steps_app _ [_] _ _ _ S1 (steps_app _ [_] _ _ _ S2 S3)).
  Qed.
  Lemma step_empty_row_in M r w st o st' s : empty_row_in sh r w st = Ok (o, st') -> r + 1 <= u32_max -> w <= u32_max -> free r ->
    (1 <= r \/ w_count st = 0 /\ w_head st = false) -> between M r s -> exists s', steps s o s' /\ between M (r + 1) s'.
  Proof.
    unfold empty_row_in. intros H L Lw Fr Hr B.
    destruct (close_at r (tb_grows sh) (w_count st)) as [[c n]| |] eqn:Ec; try discriminate. cbn [bind] in H.
    destruct (empty_row sh r 1 w) as [row| |] eqn:Er; try discriminate. cbn [bind] in H. injection H as <- <-.
    destruct (close_at_marks _ _ _ _ _ Ec) as (C1 & C2). destruct (opens_marks r (tb_grows sh)) as (O1 & O2).
    match goal with |- exists s', steps s (?c0 ++ c ++ ?o0 ++ ?h ++ row) s' /\ _ => destruct (step_marks M r (c0 ++ c ++ o0 ++ h) s) as (t1 & S1 & B1) end.
    { rewrite !Forall_app. repeat split; try assumption.
      - destruct (w_head st); [constructor; [right; right; right; reflexivity|constructor]|constructor].
      - destruct (_ || _); [constructor; [right; left; reflexivity|constructor]|constructor]. }
    { destruct Hr as [Hr|[Hr1 Hr2]]; [now left|]. right. rewrite (C2 Hr1), Hr2. cbn [app]. rewrite Forall_app. split; [exact O2|].
      destruct (_ || _); [constructor; [repeat eexists|constructor]|constructor]. }
    { exact B. }
    destruct (step_empty_row M r 1 w row t1 Er ltac:(lia) L Lw) as (t2 & S2 & B2); [|exact B1|].
    { intros k Hk. replace k with r by lia. exact Fr. }
    exists t2. split; [|exact B2]. pose proof (steps_app _ _ _ _ _ S1 S2) as S3. rewrite <- !app_assoc in S3. exact S3.
  Qed.
  Lemma step_empty_rows_in M w n : forall r st o st' s, empty_rows_in sh n r w st = Ok (o, st') -> r + N.of_nat n <= u32_max -> w <= u32_max ->
    (forall k, r <= k < r + N.of_nat n -> free k) -> (1 <= r \/ w_count st = 0 /\ w_head st = false) -> between M r s ->
    exists s', steps s o s' /\ between M (r + N.of_nat n) s'.
  Proof.
    induction n as [|n IH]; intros r st o st' s H L Lw Fr Hr B; cbn [empty_rows_in] in H.
    - injection H as <- <-. exists s. split; [apply steps_nil|]. replace (r + N.of_nat 0) with r by lia. exact B.
    - destruct (empty_row_in sh r w st) as [[a s1]| |] eqn:E1; try discriminate. cbn [bind] in H.
      destruct (empty_rows_in sh n (r + 1) w s1) as [[b s2]| |] eqn:E2; try discriminate. cbn [bind] in H. injection H as <- <-.
      destruct (step_empty_row_in M r w st a s1 s E1 ltac:(lia) Lw (Fr r ltac:(lia)) Hr B) as (t1 & S1 & B1).
      destruct (IH (r + 1) s1 b s2 t1 E2 ltac:(lia) Lw) as (t2 & S2 & B2).
      + intros k Hk. apply Fr. lia.
      + left. lia.
      + exact B1.
      + exists t2. split; [eapply steps_app; eassumption|]. replace (r + N.of_nat (S n)) with (r + 1 + N.of_nat n) by lia. exact B2.
  Qed.
  Lemma step_empty_rows M r rep w st o st' s : empty_rows sh r rep w st = Ok (o, st') -> 1 <= rep -> r + rep <= u32_max -> w <= u32_max ->
    (forall k, r <= k < r + rep -> free k) -> (1 <= r \/ w_count st = 0 /\ w_head st = false) -> between M r s ->
    exists s', steps s o s' /\ between M (r + rep) s'.
  Proof.
    unfold empty_rows. intros H Hr L Lw Fr Hw B. destruct (_ || _).
    - destruct (add32 r rep); try discriminate. cbn [bind] in H.
      destruct (step_empty_rows_in M w (N.to_nat rep) r st o st' s H) as (t & S & B2); try assumption; try lia.
      + intros k Hk. apply Fr. lia.
      + exists t. split; [exact S|]. replace (r + rep) with (r + N.of_nat (N.to_nat rep)) by lia. exact B2.
    - destruct (empty_row sh r rep w) as [o1| |] eqn:E; try discriminate. cbn [bind] in H. injection H as <- <-. eapply step_empty_row; eassumption.
  Qed.

  (** The state before the cell at [p]. *)
  Definition before (M : cells) (pv : option prev) (w : wst) (p : pos) (s : tstate) : Prop :=
    match pv with
    | None => between M 0 s /\ w = WST 0 false /\ (forall k, k < fst p -> free k)
    | Some v => pv_rep v = row_repeat_at (tb_rows sh) (pv_row v) /\ row_fine (pv_row v) /\ pv_row v <= fst p
        /\ (forall k, pv_row v < k < fst p -> free k) /\ (pv_row v = fst p -> pv_col v < snd p)
        /\ exists C d, inside M (pv_row v) (pv_rep v) C (row_result (pv_row v)) d s /\ (pv_row v = fst p -> C = snd p)
    end.

  Lemma step_cell_at mx pv spans w p c next o spans' w' M s :
    write_cell_at sh mx pv spans w p c next = Ok (o, spans', w') ->
    cell_fine lb c -> row_fine (fst p) -> fst p < u32_max -> snd p < snd mx -> snd mx <= u32_max -> fst p < fst mx ->
    (forall q, next = Some q -> pltb p q = true /\ snd q < snd mx) -> (next = None -> forall k, fst p < k -> free k) ->
    (forall q, next = Some q -> forall k, fst p < k < fst q -> free k) ->
    before M pv w p s ->
    exists sp, hide_cell spans (p, c) = Ok (spans', sp) /\
      exists s', steps s o s' /\
        match next with
        | Some q => before (fold_left (put_piece (fst p) c) sp M) (Some (PREV (fst p) (row_repeat_at (tb_rows sh) (fst p)) (snd p))) w' q s'
        | None => between (fold_left (put_piece (fst p) c) sp M) (fst p + row_repeat_at (tb_rows sh) (fst p)) s'
        end.
  Proof.
    intros H Hc Hrf Lr Lc Lm Lm2 Hn Hnf Hfn B. destruct p as [row col]. cbn [fst snd] in *. unfold write_cell_at in H.
    destruct (match next with Some q => q | None => mx end) as [nrow ncol] eqn:En.
    destruct (sub32 nrow row) as [fr| |] eqn:Efr; try discriminate. cbn [bind] in H. apply sub32_ok in Efr.
    destruct (if 0 <? fr then sub32 (snd mx) col else sub32 ncol col) as [fc| |] eqn:Efc; try discriminate. cbn [bind] in H.
    destruct (match pv with Some v => (pv_row v, pv_rep v, pv_col v) | None => (0, 1, 0) end) as [[prow prep] pcol] eqn:Epv.
    set (first := match pv with None => true | Some _ => false end) in *.
    destruct (sub32 row prow) as [br| |] eqn:Ebr; try discriminate. cbn [bind] in H. apply sub32_ok in Ebr.
    destruct (if 0 <? br then Ok col else sub32 col pcol) as [bc| |] eqn:Ebc; try discriminate. cbn [bind] in H.
    (* the previous row *)
    destruct (if (0 <? br) && negb first then end_row sh prow prep w else Ok ([], w)) as [[o1 w1]| |] eqn:E1; try discriminate. cbn [bind] in H.
    match type of H with bind ?X _ = _ => destruct X as [[o2 w2]| |] eqn:E2; try discriminate end. cbn [bind] in H.
    destruct (if (0 <? br) || first then start_row sh row (row_repeat_at (tb_rows sh) row) bc w2 else Ok ([], w2)) as [[o3 w3]| |] eqn:E3; try discriminate. cbn [bind] in H.
    assert (I3 : exists d s3, steps s (o1 ++ o2 ++ o3) s3 /\ inside M row (row_repeat_at (tb_rows sh) row) col (row_result row) d s3).
    { assert (Hnew : 0 < br -> exists s2, steps s (o1 ++ o2) s2 /\ between M row s2).
      { intros Lb. destruct (0 <? br) eqn:Xb; [|lia]. cbn [andb orb] in *.
        destruct (br <? prep) eqn:Xp; [discriminate|].
        destruct (if first then add32 (br - prep) 1 else Ok (br - prep)) as [synth| |] eqn:Es; try discriminate. cbn [bind] in E2.
        destruct (sub32 row synth) as [r0| |] eqn:E0; try discriminate. cbn [bind] in E2. apply sub32_ok in E0.
        destruct pv as [v|]; cbn [before first] in *.
        - injection Epv as <- <- <-. destruct B as (B1 & B2 & B3 & B4 & B5 & C & d & B6 & B7). cbn [negb] in E1. rewrite B1 in *.
          injection Es as <-. cbn [fst] in *.
          destruct (step_end_row M (pv_row v) C d w o1 w1 s E1 B2) as (t1 & S1 & T1); [|exact B6|].
          { intros k Hk. apply B4. lia. }
          destruct (0 <? br - row_repeat_at (tb_rows sh) (pv_row v)) eqn:Xs.
          + destruct (step_empty_rows M r0 (br - row_repeat_at (tb_rows sh) (pv_row v)) (snd mx) w1 o2 w2 t1 E2) as (t2 & S2 & T2); try lia.
            { intros k Hk. apply B4. destruct B2 as (_ & B2 & _). lia. }
            { left. destruct B2 as (_ & B2 & _). lia. }
            { replace r0 with (pv_row v + row_repeat_at (tb_rows sh) (pv_row v)) by lia. exact T1. }
            exists t2. split; [eapply steps_app; eassumption|]. replace row with (r0 + (br - row_repeat_at (tb_rows sh) (pv_row v))) by lia. exact T2.
          + injection E2 as <- <-. exists t1. rewrite app_nil_r. split; [exact S1|].
            replace row with (pv_row v + row_repeat_at (tb_rows sh) (pv_row v)) by lia. exact T1.
        - injection Epv as <- <- <-. destruct B as (B1 & B2 & B3). cbn [negb] in E1. injection E1 as <- <-. apply add32_ok in Es. cbn [fst] in *.
          destruct (0 <? synth) eqn:Xs; [|lia]. subst w.
          destruct (step_empty_rows M r0 synth (snd mx) (WST 0 false) o2 w2 s E2) as (t2 & S2 & T2); try lia.
          { intros k Hk. apply B3. lia. } { right. split; reflexivity. }
          { replace r0 with 0 by lia. exact B1. }
          exists t2. split; [exact S2|]. replace row with (r0 + synth) by lia. exact T2. }
      destruct (N.eq_dec br 0) as [Z|NZ].
      - destruct (0 <? br) eqn:Xb; [lia|]. cbn [andb orb] in *. injection E1 as <- <-. injection E2 as <- <-. cbn [app].
        destruct pv as [v|]; cbn [before first] in *.
        + injection Epv as <- <- <-. injection E3 as <- <-. destruct B as (B1 & B2 & B3 & B4 & B5 & C & d & B6 & B7). cbn [fst snd] in *.
          assert (pv_row v = row) by lia. rewrite B7, B1, H0 in B6 by assumption. exists d, s. split; [apply steps_nil|exact B6].
        + injection Epv as <- <- <-. destruct B as (B1 & B2 & B3). apply sub32_ok in Ebc.
          destruct (step_start_row M row _ bc w o3 w3 s E3 Hrf ltac:(lia) Lr) as (t & S & T).
          { replace row with 0 by lia. exact B1. }
          exists false, t. split; [exact S|]. replace col with bc by lia. exact T.
      - destruct (Hnew ltac:(lia)) as (s2 & S2 & T2). destruct (0 <? br) eqn:Xb; [|lia]. cbn [orb] in E3. injection Ebc as <-.
        destruct (step_start_row M row _ col w2 o3 w3 s2 E3 Hrf ltac:(lia) Lr T2) as (t & S & T).
        exists false, t. split; [|exact T]. rewrite app_assoc. eapply steps_app; eassumption. }
    destruct I3 as (d & s3 & S3 & I3).
    match type of H with bind ?X _ = _ => destruct X as [[sps sp]| |] eqn:Eh; try discriminate end. cbn [bind] in H.
    destruct (pieces (TCell c) sp) as [o4| |] eqn:E4; try discriminate. cbn [bind] in H.
    match type of H with bind ?X _ = _ => destruct X as [o5| |] eqn:E5; try discriminate end. cbn [bind] in H. cbv beta zeta in H. injection H as <- <- <-.
    destruct (hide_cell_split _ _ _ _ _ Eh) as (rs & Hs). cbn [fst snd] in Hs. pose proof (split_tiling _ _ _ _ _ Hs) as Ht.
    pose proof (split_bound _ _ _ _ _ Hs ltac:(lia)) as Hb.
    destruct (step_pieces c row _ _ sp o4 _ _ M d s3 Hc E4 Ht Hb I3) as (s4 & S4 & I4).
    exists sp. split; [reflexivity|].
    set (d4 := d || existsb (fun p => CellModel.is_some (piece_read c p)) sp) in *.
    set (M4 := fold_left (put_piece row c) sp M) in *.
    assert (I5 : exists C s5, steps s4 o5 s5 /\ inside M4 row (row_repeat_at (tb_rows sh) row) C (row_result row) d4 s5
      /\ (fr = 0 -> C = col + fc)).
    { destruct (0 <? fr) eqn:Xf.
      - apply sub32_ok in Efc. destruct (0 <? fc - c_repeat c) eqn:Xw.
        + destruct (add32 col (c_repeat c)) as [c0| |] eqn:Ec; try discriminate. cbn [bind] in E5. apply add32_ok in Ec. destruct Ec as [-> _].
          destruct (step_gap_cells _ _ _ _ _ row (row_repeat_at (tb_rows sh) row) (row_result row) d4 M4 s4 E5 ltac:(lia) I4) as (s5 & S5 & I5).
          exists (col + c_repeat c + (fc - c_repeat c)), s5. split; [exact S5|]. split; [exact I5|lia].
        + injection E5 as <-. exists (col + c_repeat c), s4. split; [apply steps_nil|]. split; [exact I4|lia].
      - apply sub32_ok in Efc.
        assert (Hnc : exists q, next = Some q /\ q = (nrow, ncol)).
        { destruct next as [q|]; [exists q; auto|]. exfalso. subst mx. cbn [fst] in *. lia. }
        destruct Hnc as (q & Hq & Hq2). pose proof (Hn q Hq) as [Hlt Hlq]. subst q. unfold pltb in Hlt. cbn [fst snd] in Hlt, Hlq.
        destruct (0 <? fc) eqn:X0; [|lia]. destruct (fc <? c_repeat c) eqn:X1; [discriminate|].
        destruct (0 <? fc - c_repeat c) eqn:Xw.
        + destruct (add32 col (c_repeat c)) as [c0| |] eqn:Ec; try discriminate. cbn [bind] in E5. apply add32_ok in Ec. destruct Ec as [-> _].
          destruct (step_gap_cells _ _ _ _ _ row (row_repeat_at (tb_rows sh) row) (row_result row) d4 M4 s4 E5 ltac:(lia) I4) as (s5 & S5 & I5).
          exists (col + c_repeat c + (fc - c_repeat c)), s5. split; [exact S5|]. split; [exact I5|lia].
        + injection E5 as <-. exists (col + c_repeat c), s4. split; [apply steps_nil|]. split; [exact I4|lia]. }
    destruct I5 as (C & s5 & S5 & I5 & HC).
    assert (Sall : steps s (o1 ++ o2 ++ o3 ++ o4 ++ o5) s5).
    { pose proof (steps_app _ _ _ _ _ S3 (steps_app _ _ _ _ _ S4 S5)) as X. rewrite <- !app_assoc in X. exact X. }
    destruct next as [q|].
    - exists s5. rewrite app_nil_r. split; [exact Sall|]. cbn [before pv_row pv_rep pv_col]. subst q. cbn [fst snd] in *.
      pose proof (Hn _ eq_refl) as [Hlt _]. unfold pltb in Hlt. cbn [fst snd] in Hlt.
      split; [reflexivity|]. split; [exact Hrf|]. split; [lia|]. split; [apply (Hfn _ eq_refl)|]. split; [lia|].
      exists C, d4. split; [exact I5|]. intros E. rewrite HC by lia. destruct (0 <? fr) eqn:Xf; [lia|]. apply sub32_ok in Efc. lia.
    - destruct (step_end_last M4 row C d4 w3 s5 Hrf) as (s6 & S6 & B6); [|exact I5|].
      { intros k Hk. apply Hnf; [reflexivity|lia]. }
      exists s6. split; [|exact B6]. pose proof (steps_app _ _ _ _ _ Sall S6) as X. rewrite <- !app_assoc in X. exact X.
  Qed.

  (** The cells read from the pieces of all cells. *)
  Fixpoint placed (l : cells) (hs : list (pos * list split)) (M : cells) : cells :=
    match l, hs with
    | (p, c) :: l', (_, sp) :: hs' => placed l' hs' (fold_left (put_piece (fst p) c) sp M)
    | _, _ => M
    end.
  Definition in_row (l : cells) (k : N) : Prop := exists c x, In ((k, c), x) l.
  Lemma step_cells mx : forall l pv spans w o M s,
    write_cells sh mx pv spans w l = Ok o -> l <> [] -> om_sorted pltb l ->
    Forall (fun kv => cell_fine lb (snd kv) /\ row_fine (fst (fst kv)) /\ fst (fst kv) < fst mx /\ snd (fst kv) < snd mx) l ->
    fst mx <= u32_max -> snd mx <= u32_max ->
    (forall k, match pv with Some v => pv_row v < k | None => True end -> ~ in_row l k -> free k) ->
    (forall kv r, l = kv :: r -> before M pv w (fst kv) s) ->
    exists hs, hide_cells spans l = Ok hs /\ exists R s', steps s o s' /\ between (placed l hs M) R s' /\ Forall (fun kv => fst (fst kv) < R) l.
  Proof.
    induction l as [|[p c] l IH]; intros pv spans w o M s H Hne Hs Hf L1 L2 Fr B; [contradiction|].
    cbn [write_cells] in H.
    destruct (write_cell_at sh mx pv spans w p c match l with kv :: _ => Some (fst kv) | [] => None end) as [[[o1 spans'] w']| |] eqn:E; try discriminate.
    cbn [bind] in H. destruct (write_cells sh mx (Some _) spans' w' l) as [o2| |] eqn:E2; try discriminate. cbn [bind] in H. injection H as <-.
    inversion Hf as [|? ? (Hc & Hr & Hx & Hy) Hf']; subst. cbn [fst snd] in *.
    destruct Hs as [Hs1 Hs2]. fold (om_sorted pltb l) in Hs2.
    assert (Hlow : forall q x, In (q, x) l -> fst p <= fst q /\ pltb p q = true).
    { intros q x Hi. rewrite Forall_forall in Hs1. specialize (Hs1 _ Hi). cbn [fst] in Hs1. split; [|exact Hs1]. unfold pltb in Hs1. lia. }
    assert (Hrow : forall k, fst p < k -> (forall kv r, l = kv :: r -> k < fst (fst kv)) -> free k).
    { intros k Hk Hlk. apply Fr.
      - destruct pv as [v|]; [|exact I]. specialize (B (p, c) l eq_refl). cbn [before fst] in B. destruct B as (_ & _ & B & _). lia.
      - intros (b & x & [Hi|Hi]).
        + injection Hi as Hi1 _. rewrite Hi1 in Hk. cbn [fst] in Hk. lia.
        + destruct l as [|[q y] l]; [destruct Hi|]. specialize (Hlk _ _ eq_refl). cbn [fst] in Hlk. destruct Hi as [Hi|Hi].
          * injection Hi as Hi1 _. rewrite Hi1 in Hlk. cbn [fst] in Hlk. lia.
          * destruct Hs2 as [Hs3 _]. rewrite Forall_forall in Hs3. specialize (Hs3 _ Hi). cbn [fst] in Hs3. unfold pltb in Hs3. cbn [fst] in Hs3. lia. }
    destruct (step_cell_at mx pv spans w p c _ o1 spans' w' M s E Hc Hr) as (sp & Hh & s1 & S1 & B1); try lia.
    { intros q Hq. destruct l as [|kv l]; [discriminate|]. injection Hq as <-. inversion Hs1; subst. split; [assumption|].
      inversion Hf' as [|? ? (_ & _ & _ & Hy2) _]; subst. exact Hy2. }
    { intros Hq k Hk. destruct l as [|kv l]; [|discriminate]. apply Hrow; [exact Hk|]. intros; discriminate. }
    { intros q Hq k Hk. destruct l as [|kv l]; [discriminate|]. injection Hq as <-. apply Hrow; [lia|]. intros kv' r' Hk'. injection Hk' as <- <-. lia. }
    { exact (B _ _ eq_refl). }
    cbn [hide_cells]. cbn [placed]. destruct l as [|[q y] l].
    - injection E2 as <-. rewrite Hh. cbn [bind hide_cells]. eexists. split; [reflexivity|]. rewrite app_nil_r. exists (fst p + row_repeat_at (tb_rows sh) (fst p)), s1.
      split; [exact S1|]. split; [exact B1|]. constructor; [|constructor]. cbn [fst]. destruct Hr as (_ & Hr & _). lia.
    - destruct (IH _ _ _ _ (fold_left (put_piece (fst p) c) sp M) s1 E2) as (hs & Hhs & R & s2 & S2 & B2 & HR); try assumption; try discriminate.
      { cbn [pv_row]. intros k Hk Hn. apply Fr.
        - destruct pv as [v|]; [|exact I]. specialize (B _ _ eq_refl). cbn [before fst] in B. destruct B as (_ & _ & B & _). lia.
        - intros (b & x & [Hi|Hi]); [injection Hi as Hi1 _; rewrite Hi1 in Hk; cbn [fst] in Hk; lia|]. apply Hn. exists b, x. exact Hi. }
      { intros kv r Hk. injection Hk as <- <-. exact B1. }
      rewrite Hh. cbn [bind]. rewrite Hhs. cbn [bind]. eexists. split; [reflexivity|]. exists R, s2. cbn [placed].
      split; [eapply steps_app; eassumption|]. split; [exact B2|]. constructor; [|exact HR].
      inversion HR as [|? ? HR1 _]; subst. cbn [fst] in *. destruct (Hlow q y (or_introl eq_refl)) as [Hq _]. lia.
  Qed.
End Rows.

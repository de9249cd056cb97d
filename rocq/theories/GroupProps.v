(** C25: groups and header ranges of a table written to a file and read again. *)
From Coq Require Import Sorted Permutation.
From Verif Require Import Base Lib OMap OMapProofs RefsModel CellModel HeaderModel HeaderSpec HeaderProofs HeaderCuts TableModel TableSpec TableRun TableCells TableCols TableRead
  TableNested TablePlaced TableWhole TableProps GroupSpec GroupProofs GroupCols.

(** ** Rows *)

(** Each row group that begins in front of the end of the written rows is read as one group; the
    others are gone. It begins with the first repeat of its first row and ends with the last
    repeat of its last row, one row too early if its last row has no cells, and with the last
    written row at the latest. *)
Theorem C25_rows : forall lb ign ds sh sh' E, table_through lb ign ds sh = Ok sh' ->
  sheet_ok sh -> header_rows_full sh -> col_groups_apart sh -> rows_end sh E ->
  laminar (tb_grows sh) -> no_empty_group sh -> no_change_within sh ->
  regrouped (filter (fun g => g_from g <? E) (tb_grows sh)) (tb_grows sh') (row_moved sh E)
  /\ header_rows_after sh E (tb_hrows sh').
Proof.
  intros lb ign ds sh sh' E T Ho Hh Hg HE Hl He Hw.
  destruct (row_groups_back lb ign ds sh sh' false E Ho Hh Hg T HE Hl He Hw) as ((D & H1 & H2 & H3 & H4 & _) & H5); [discriminate|].
  split; [exists D; auto|exact H5].
Qed.
Theorem C25_rows_exact : forall lb ign ds sh sh' E, table_through lb ign ds sh = Ok sh' ->
  sheet_ok sh -> header_rows_full sh -> col_groups_apart sh -> rows_end sh E ->
  laminar (tb_grows sh) -> no_empty_group sh -> no_change_within sh -> outer_first_rows sh ->
  regrouped_exactly (filter (fun g => g_from g <? E) (tb_grows sh)) (tb_grows sh') (row_moved sh E).
Proof.
  intros lb ign ds sh sh' E T Ho Hh Hg HE Hl He Hw Hf.
  destruct (row_groups_back lb ign ds sh sh' true E Ho Hh Hg T HE Hl He Hw (fun _ => Hf)) as ((D & H1 & H2 & _ & _ & H5) & _).
  exists D. auto.
Qed.

(** ** Columns *)

Theorem C25_columns : forall lb ign ds sh sh', table_through lb ign ds sh = Ok sh' ->
  sheet_ok sh -> header_rows_full sh -> col_groups_apart sh -> laminar (tb_gcols sh) ->
  regrouped (tb_gcols sh) (tb_gcols sh') (col_moved sh) /\ header_cols_after sh (tb_hcols sh').
Proof.
  intros lb ign ds sh sh' T Ho Hh Hg Hl.
  destruct (groups_back lb ign ds sh sh' false Ho Hh Hg T Hl) as ((D & H1 & H2 & H3 & H4 & _) & H5); [discriminate|].
  split; [exists D; auto|exact H5].
Qed.
Theorem C25_columns_exact : forall lb ign ds sh sh', table_through lb ign ds sh = Ok sh' ->
  sheet_ok sh -> header_rows_full sh -> col_groups_apart sh -> laminar (tb_gcols sh) -> outer_first_cols sh ->
  regrouped_exactly (tb_gcols sh) (tb_gcols sh') (col_moved sh).
Proof.
  intros lb ign ds sh sh' T Ho Hh Hg Hl Hf.
  destruct (groups_back lb ign ds sh sh' true Ho Hh Hg T Hl (fun _ => Hf)) as ((D & H1 & H2 & _ & _ & H5) & _). exists D. auto.
Qed.

(** ** Groups that stay as they are *)

Lemma unmoved gs gs' Dn : regrouped_exactly gs gs' Dn -> (forall f t g, In g gs -> Dn (f, t, g) -> f = g_from g /\ t = g_to g) -> Permutation gs' gs.
Proof.
  intros (D & H1 & H2 & H3) H. etransitivity; [exact H3|]. etransitivity; [|exact H1].
  replace (map as_group D) with (map snd D); [apply Permutation_refl|]. apply map_ext_in. intros [[f t] g] I. rewrite Forall_forall in H2.
  destruct (H f t g) as (-> & ->); [|exact (H2 _ I)|].
  - apply (Permutation_in _ H1). apply in_map_iff. exists (f, t, g). auto.
  - destruct g. reflexivity.
Qed.
Lemma unmoved_spans gs gs' Dn : regrouped gs gs' Dn -> (forall f t g, In g gs -> Dn (f, t, g) -> f = g_from g /\ t = g_to g) ->
  Permutation (map span_of gs') (map span_of gs) /\ Permutation (map flag_of gs') (map flag_of gs).
Proof.
  intros (D & H1 & H2 & H3 & H4) H.
  assert (X : forall d, In d D -> fst d = span_of (snd d)).
  { intros [[f t] g] I. rewrite Forall_forall in H2. destruct (H f t g) as (-> & ->); [|exact (H2 _ I)|reflexivity].
    apply (Permutation_in _ H1). apply in_map_iff. exists (f, t, g). auto. }
  split.
  - etransitivity; [exact H3|]. etransitivity; [|apply Permutation_map; exact H1]. rewrite map_map.
    replace (map (fun x => span_of (snd x)) D) with (map fst D); [apply Permutation_refl|]. apply map_ext_in. exact X.
  - etransitivity; [exact H4|]. etransitivity; [|apply Permutation_map; exact H1]. rewrite map_map.
    match goal with |- Permutation ?a ?b => replace b with a; [apply Permutation_refl|] end. apply map_ext_in. intros d I. rewrite (X d I). reflexivity.
Qed.

Lemma through_parts lb ign ds sh sh' : table_through lb ign ds sh = Ok sh' -> sheet_ok sh -> header_rows_full sh -> col_groups_apart sh ->
  (forall r r', row_used (tb_cells sh) r -> row_used (tb_cells sh) r' -> r < r' -> r + row_repeat_at (tb_rows sh) r <= r')
  /\ (forall r, row_used (tb_cells sh) r -> 1 <= row_repeat_at (tb_rows sh) r)
  /\ exists w mx, used_grid_size (tb_cells sh) = Ok w /\ max_col (snd w) (tb_gcols sh) (tb_hcols sh) = Ok mx.
Proof.
  intros T Ho Hh Hg. destruct (table_states lb ign ds sh sh' Ho Hh Hg T) as (mx & cols & rows & s0 & s1 & s2 & E1 & E2 & E3 & _ & _ & _ & _ & E8).
  destruct Ho as ((Hs & _) & _). split; [|split].
  - intros r r' (b & c & I) (b' & c' & I') L. destruct (write_cells_rows sh mx _ _ _ _ _ E3 Hs) as (_ & F); [discriminate|]. exact (F _ _ _ _ I I' L).
  - intros r (b & c & I). destruct (E8 _ _ I) as ((_ & F & _) & _). exact F.
  - exists mx. unfold write_table_columns in E2. destruct (max_col (snd mx) (tb_gcols sh) (tb_hcols sh)) as [x| |]; try discriminate. eauto.
Qed.

Section Aligned.
  Variable sh : sheet.
  Variable E : N.
  Hypothesis Hs : om_sorted N.ltb (tb_rows sh).
  Hypothesis Ha : forall r r', row_used (tb_cells sh) r -> row_used (tb_cells sh) r' -> r < r' -> r + row_repeat_at (tb_rows sh) r <= r'.
  Hypothesis Hp : forall r, row_used (tb_cells sh) r -> 1 <= row_repeat_at (tb_rows sh) r.
  Hypothesis HE : rows_end sh E.
  Lemma data_is r n : data_rows sh r n -> row_used (tb_cells sh) r /\ n = row_repeat_at (tb_rows sh) r /\ 1 <= n.
  Proof. intros (U & R). apply repeats_fun in R; [|exact Hs]. subst n. auto. Qed.
  Lemma data_same r n r' n' k : data_rows sh r n -> data_rows sh r' n' -> r <= k < r + n -> r' <= k < r' + n' -> r = r' /\ n = n'.
  Proof.
    intros D D' L L'. apply data_is in D as (U & -> & P). apply data_is in D' as (U' & -> & P'). destruct (N.lt_trichotomy r r') as [X|[X|X]].
    - specialize (Ha _ _ U U' X). lia.
    - now subst.
    - specialize (Ha _ _ U' U X). lia.
  Qed.
  Lemma aligned_start f t f' : row_aligned sh f t -> starts_at sh f f' -> f' = f.
  Proof.
    intros ((n & D) & _) [(r & m & D' & L & ->)|(_ & ->)]; [|reflexivity]. pose proof (data_is _ _ D) as (_ & _ & P).
    destruct (data_same f n r m f D D'); auto; lia.
  Qed.
  Lemma data_end r n : data_rows sh r n -> r + n <= E.
  Proof.
    intros D. pose proof (data_is _ _ D) as (U & -> & P). destruct HE as [(H & _)|(q & m & D' & Hm & ->)]; [destruct (H _ U)|].
    pose proof (data_is _ _ D') as (U' & -> & P'). specialize (Hm _ U). destruct (N.eq_dec r q) as [->|X]; [lia|]. specialize (Ha r q U U'). lia.
  Qed.
  Lemma aligned_end f t t' : row_aligned sh f t -> ends_at sh E t t' -> t' = t.
  Proof.
    intros (_ & r & n & D & -> & P) H. destruct H as [(r' & n' & D' & L & ->)|[(N & _)|(L & ->)]].
    - destruct (data_same r n r' n' (r + n - 1) D D') as (-> & ->); auto; lia.
    - destruct N. exists r, n. split; [exact D|lia].
    - pose proof (data_end _ _ D). lia.
  Qed.
  Lemma aligned_from f t : row_aligned sh f t -> f < E.
  Proof. intros ((n & D) & _). pose proof (data_end _ _ D). pose proof (data_is _ _ D). lia. Qed.
End Aligned.

Definition rows_stay (sh : sheet) : Prop :=
  (forall g, In g (tb_grows sh) -> row_aligned sh (g_from g) (g_to g))
  /\ (forall f t, tb_hrows sh = Some (f, t) -> row_aligned sh f t).

Theorem C25_rows_survive_partial : forall lb ign ds sh sh', table_through lb ign ds sh = Ok sh' ->
  sheet_ok sh -> header_rows_full sh -> col_groups_apart sh -> laminar (tb_grows sh) -> rows_stay sh ->
  Permutation (map span_of (tb_grows sh')) (map span_of (tb_grows sh)) /\ Permutation (map flag_of (tb_grows sh')) (map flag_of (tb_grows sh))
  /\ (outer_first_rows sh -> Permutation (tb_grows sh') (tb_grows sh)) /\ tb_hrows sh' = tb_hrows sh.
Proof.
  intros lb ign ds sh sh' T Ho Hh Hg Hl (Hst & Hsh). destruct (through_parts _ _ _ _ _ T Ho Hh Hg) as (Ha & Hp & w & mx & Ew & _).
  pose proof Ho as ((Hsc & _) & ((Hs & _) & _) & _).
  assert (Ex : exists E, rows_end sh E).
  { clear - Hsc Hs. assert (C : tb_cells sh = [] \/ exists l x, tb_cells sh = l ++ [x]) by (destruct (tb_cells sh) as [|x l] using rev_ind; eauto).
    destruct C as [C|(l & [[r b] c] & C)].
    - exists 0. left. split; [|reflexivity]. intros r (b & c & I). rewrite C in I. contradiction.
    - exists (r + row_repeat_at (tb_rows sh) r). right. exists r, (row_repeat_at (tb_rows sh) r). split; [split|split; [|reflexivity]].
      + exists b, c. rewrite C. apply in_app_iff. right. now left.
      + unfold repeats, row_repeat_at. destruct (hget r (tb_rows sh)) as [h|] eqn:E.
        * left. exists h. split; [|reflexivity]. now apply (hget_in r h) in E.
        * right. split; [|reflexivity]. intros h I. apply (hget_in r h) in I; [congruence|exact Hs].
      + intros r' (b' & c' & I). rewrite C in I. apply in_app_iff in I as [I|[I|[]]]; [|injection I as -> _ _; lia]. rewrite C in Hsc.
        clear - Hsc I. induction l as [|y l IH]; [contradiction|]. destruct y as [yp yc]. cbn [app om_sorted] in Hsc. destruct Hsc as (F & Hsc). destruct I as [I|I]; [injection I as -> ->|now apply IH]. 
        rewrite Forall_forall in F. specialize (F ((r, b), c) ltac:(apply in_app_iff; right; now left)). unfold pltb in F. cbn [fst snd] in F. lia. }
  destruct Ex as (E & HE).
  assert (Hne : no_empty_group sh).
  { intros g I _. left. destruct (Hst g I) as ((n & D) & _). exists (g_from g), n. split; [exact D|]. pose proof (data_is sh Hs Hp _ _ D). lia. }
  assert (Hnc : no_change_within sh).
  { intros a b r n Ia Ib D (L1 & L2 & L3). destruct (Hst b Ib) as ((m & D') & _). pose proof (data_is sh Hs Hp _ _ D').
    destruct (data_same sh Hs Ha Hp r n (g_from b) m (g_from b) D D'); lia. }
  assert (Hf : filter (fun g => g_from g <? E) (tb_grows sh) = tb_grows sh).
  { assert (F : forall g, In g (tb_grows sh) -> g_from g < E) by (intros g I; eapply aligned_from; eauto).
    revert F. clear. induction (tb_grows sh) as [|g l IH]; intros F; [reflexivity|]. cbn [filter]. pose proof (F g (or_introl eq_refl)).
    replace (g_from g <? E) with true by lia. f_equal. apply IH. intros x I. apply F. now right. }
  assert (Hm : forall f t g, In g (tb_grows sh) -> row_moved sh E (f, t, g) -> f = g_from g /\ t = g_to g).
  { intros f t g I (M1 & M2). cbn [fst snd] in *. split; [eapply aligned_start; eauto|eapply aligned_end; eauto]. }
  destruct (C25_rows lb ign ds sh sh' E T Ho Hh Hg HE Hl Hne Hnc) as (R & HR). rewrite Hf in R.
  destruct (unmoved_spans _ _ _ R Hm) as (R1 & R2). split; [exact R1|]. split; [exact R2|]. split.
  - intros Hof. pose proof (C25_rows_exact lb ign ds sh sh' E T Ho Hh Hg HE Hl Hne Hnc Hof) as X. rewrite Hf in X. exact (unmoved _ _ _ X Hm).
  - unfold header_rows_after in HR. destruct (tb_hrows sh) as [[f t]|] eqn:Eh; [|exact HR]. specialize (Hsh f t eq_refl).
    destruct HR as [(L & _)|(L & f' & t' & S1 & S2 & ->)].
    + pose proof (aligned_from sh E Hs Ha Hp HE f t Hsh). lia.
    + now rewrite (aligned_start sh Hs Ha Hp f t f' Hsh S1), (aligned_end sh E Hs Ha Hp HE f t t' Hsh S2).
Qed.

(** Before writing, the column headers are cut at groups and header columns ([calc_col_headers]):
    the last column of a group that has an element of its own is the end of the group. *)
Theorem C25_columns_survive_partial : forall lb ign ds sh sh' m,
  calc_col_headers (tb_gcols sh) (tb_hcols sh) m = Ok (tb_cols sh) -> disjoint m -> wide m -> equal_headers_touch m ->
  table_through lb ign ds sh = Ok sh' -> sheet_ok sh -> header_rows_full sh -> col_groups_apart sh -> laminar (tb_gcols sh) ->
  (forall f t, tb_hcols sh = Some (f, t) -> f <= t) ->
  Permutation (map span_of (tb_gcols sh')) (map span_of (tb_gcols sh)) /\ Permutation (map flag_of (tb_gcols sh')) (map flag_of (tb_gcols sh))
  /\ (outer_first_cols sh -> Permutation (tb_gcols sh') (tb_gcols sh)) /\ tb_hcols sh' = tb_hcols sh.
Proof.
  intros lb ign ds sh sh' m Hcc Dm Wm Tm T Ho Hh Hg Hl Hft. destruct (through_parts _ _ _ _ _ T Ho Hh Hg) as (_ & _ & w & mx & Ew & Emx).
  pose proof (max_col_bound _ _ _ _ Emx) as (M1 & M2 & M3).
  assert (Mu : mx <= u32_max).
  { clear - Emx Ew. apply grid_bound in Ew as (_ & G & _). unfold max_col in Emx. destruct (groups_max (snd w) (tb_gcols sh)) as [x| |] eqn:E; try discriminate. cbn [bind] in Emx.
    assert (x <= u32_max). { revert E. generalize (snd w) G. clear. induction (tb_gcols sh) as [|y l IH]; intros m Hm E; cbn [groups_max] in E; [injection E as <-; exact Hm|].
      destruct (add32 (g_to y) 1) as [t| |] eqn:Et; try discriminate. cbn [bind] in E. apply add32_ok in Et. eapply IH; [|exact E]. lia. }
    destruct (tb_hcols sh) as [[f t]|]; [|injection Emx as <-; exact H]. destruct (add32 t 1) as [t1| |] eqn:Et; try discriminate. cbn [bind] in Emx. apply add32_ok in Et. injection Emx as <-. lia. }
  assert (Fg : Forall (fun g => g_to g < u32_max) (tb_gcols sh)) by (apply Forall_forall; intros x I; specialize (M2 x I); lia).
  assert (Fh : forall f t, tb_hcols sh = Some (f, t) -> t < u32_max) by (intros f t Eh; specialize (M3 f t Eh); lia).
  destruct (calc_col_headers_spec (tb_gcols sh) (tb_hcols sh) m Dm Wm (touch_touching _ Tm) Fg Fh) as (c & r & Ecu & Er & Tr & _ & Ur).
  assert (r = tb_cols sh) by congruence. subst r. clear Er. destruct (tiles_disjoint _ _ Tr) as ((S & U & Dj) & Wr).
  destruct (cuts_ok _ _ Fg Fh) as (c' & Ecu' & Cg & Ch). assert (c' = c) by congruence. subst c'.
  assert (Hm : forall f t g, In g (tb_gcols sh) -> col_moved sh (f, t, g) -> f = g_from g /\ t = g_to g).
  { intros f t g I (X1 & X2). cbn [fst snd] in *. split; [exact X1|]. destruct X2 as [(h & Ih & ->)|(_ & ->)]; [|reflexivity].
    pose proof (Wr _ _ Ih). destruct (Cg g I) as (_ & G2). pose proof (Ur _ _ Ih _ G2). lia. }
  destruct (C25_columns lb ign ds sh sh' T Ho Hh Hg Hl) as (R & HR).
  destruct (unmoved_spans _ _ _ R Hm) as (R1 & R2). split; [exact R1|]. split; [exact R2|]. split.
  - intros Hof. exact (unmoved _ _ _ (C25_columns_exact lb ign ds sh sh' T Ho Hh Hg Hl Hof) Hm).
  - unfold header_cols_after in HR. destruct (tb_hcols sh) as [[f t]|] eqn:Eh; [|exact HR]. specialize (Hft f t eq_refl). destruct (Ch f t eq_refl) as (Cf & Ct).
    assert (Nf : ~ inside_header (tb_cols sh) f) by (intros (b & h & I & L); exact (Ur b h I f Cf L)).
    destruct HR as [(X & _)|(a & z & z' & L1 & L2 & Na & Ia & Nz & Iz & Ce & ->)]; [destruct Nf; apply X; lia|].
    assert (a = f). { destruct (N.eq_dec a f) as [X|X]; [exact X|]. destruct Nf. apply Ia. lia. } subst a.
    assert (B : forall b h, In (b, h) (tb_cols sh) -> b < t + 1 -> b + h_span h <= t + 1) by (intros b h I L; pose proof (Ur b h I _ Ct); lia).
    assert (Q : z < t -> exists h, In (z, h) (tb_cols sh) /\ t < z + h_span h).
    { intros Lz. destruct (Iz t ltac:(lia)) as (b & h & I & L). assert (Nb : ~ inside_header (tb_cols sh) b).
      { intros (b' & h' & I' & L'). specialize (Dj b' h' b h I' I). lia. }
      destruct (N.lt_trichotomy b z) as [X|[X|X]].
      - destruct Nz. exists b, h. split; [exact I|lia].
      - subst b. exists h. split; [exact I|lia].
      - destruct Nb. apply Iz. lia. }
    destruct (N.lt_ge_cases z t) as [Lz|Lz].
    + destruct (Q Lz) as (h & I & L). pose proof (B z h I). destruct Ce as [(h' & I' & ->)|(X & _)]; [|destruct (X h I)].
      apply (hget_in z h _ S) in I. apply (hget_in z h' _ S) in I'. assert (h' = h) by congruence. subst h'. assert (X : z + h_span h - 1 = t) by lia. now rewrite X.
    + assert (z = t) by lia. subst z. destruct Ce as [(h' & I' & ->)|(_ & ->)]; [|reflexivity]. pose proof (B t h' I'). pose proof (Wr _ _ I'). assert (X : t + h_span h' - 1 = t) by lia. now rewrite X.
Qed.

(** ** Examples *)

Lemma ex_data r n : data_rows ex_sheet r n -> (r = 0 /\ n = 1) \/ (r = 1 /\ n = 1) \/ (r = 5 /\ n = 3) \/ (r = 8 /\ n = 1).
Proof.
  intros (U & [(h & I & <-)|(X & ->)]); apply ex_used in U.
  - ins I; cbn; lia.
  - destruct U as [-> |[-> |[-> | ->]]]; try lia.
    exfalso. refine (X _ _). right. left. reflexivity.
Qed.
Lemma ex_data0 : data_rows ex_sheet 0 1.
Proof. split; [exists 0; eexists; left; reflexivity|]. left. eexists. split; [left; reflexivity|reflexivity]. Qed.
Lemma ex_data1 : data_rows ex_sheet 1 1.
Proof. split; [exists 0; eexists; right; right; left; reflexivity|]. right. split; [|reflexivity]. intros h I. ins I; discriminate. Qed.
Lemma ex_data5 : data_rows ex_sheet 5 3.
Proof. split; [exists 1; eexists; right; right; right; right; left; reflexivity|]. left. eexists. split; [right; left; reflexivity|reflexivity]. Qed.
Lemma ex_data8 : data_rows ex_sheet 8 1.
Proof. split; [exists 2; eexists; right; right; right; right; right; left; reflexivity|]. right. split; [|reflexivity]. intros h I. ins I; discriminate. Qed.
Lemma ex_rows_end : rows_end ex_sheet 9.
Proof. right. exists 8, 1. split; [exact ex_data8|]. split; [|reflexivity]. intros r U. apply ex_used in U. lia. Qed.
Lemma ex_laminar gs : Forall (fun g => g_from g <= g_to g) gs -> (forall a b, In a gs -> In b gs -> nested_or_disjoint a b) -> laminar gs.
Proof.
  intros F H. split; [apply Forall_forall; exact F|]. intros i j a b A B. apply H; eapply nth_error_In; eassumption.
Qed.
Lemma ex_grows_laminar : laminar (tb_grows ex_sheet).
Proof.
  apply ex_laminar; [apply Forall_forall; intros g A; ins A; cbn [g_from g_to]; lia|]. intros a b A B. ins A; ins B; unfold nested_or_disjoint; cbn [g_from g_to]; first [left; lia | right; left; lia | right; right; intros x; lia].
Qed.
Lemma ex_gcols_laminar : laminar (tb_gcols ex_sheet).
Proof.
  apply ex_laminar; [apply Forall_forall; intros g A; ins A; cbn [g_from g_to]; lia|]. intros a b A B. ins A; ins B; unfold nested_or_disjoint; cbn [g_from g_to]; first [left; lia | right; left; lia | right; right; intros x; lia].
Qed.
Lemma ex_no_empty : no_empty_group ex_sheet.
Proof. intros g I E. ins I; cbn in E; discriminate. Qed.
Lemma ex_no_change : no_change_within ex_sheet.
Proof. intros a b r n A B D (L1 & L2 & L3). apply ex_data in D. ins A; ins B; cbn [g_from g_to] in *; lia. Qed.
Lemma pairs_in_order {A} (P : A -> A -> Prop) l : ForallOrdPairs P l -> forall x a y b z, l = x ++ a :: y ++ b :: z -> P a b.
Proof.
  induction 1 as [|c l F _ IH]; intros x a y b z E; [destruct x; discriminate|]. destruct x as [|d x]; cbn [app] in E; injection E as -> E.
  - rewrite Forall_forall in F. apply F. rewrite E. apply in_app_iff. right. now left.
  - exact (IH x a y b z E).
Qed.
Lemma ex_outer_rows : outer_first_rows ex_sheet.
Proof.
  refine (pairs_in_order (fun a b => begin_together ex_sheet a b -> g_to b <= g_to a) (tb_grows ex_sheet) _).
  constructor; [|constructor; [constructor|constructor]]. constructor; [|constructor]. intros [T|(r & n & D & T1 & T2)]; cbn [g_from] in *; [discriminate|].
  apply ex_data in D. lia.
Qed.

Definition ex_back := match table_through true false no_styles ex_sheet with Ok s => s | _ => ex_sheet end.
Lemma ex_through : table_through true false no_styles ex_sheet = Ok ex_back.
Proof. vm_compute. reflexivity. Qed.

(** Row 5 is repeated three times, so the group of the rows 1 to 5 is read as 1 to 7. *)
Example C25_rows_ex : table_through true false no_styles ex_sheet = Ok ex_back
  /\ sheet_ok ex_sheet /\ header_rows_full ex_sheet /\ col_groups_apart ex_sheet /\ rows_end ex_sheet 9
  /\ laminar (tb_grows ex_sheet) /\ no_empty_group ex_sheet /\ no_change_within ex_sheet /\ outer_first_rows ex_sheet
  /\ tb_grows ex_sheet = [mkGrp 1 5 true; mkGrp 0 8 true] /\ tb_grows ex_back = [mkGrp 1 7 true; mkGrp 0 8 true] /\ tb_hrows ex_back = Some (0, 1).
Proof.
  split; [exact ex_through|]. split; [exact ex_ok|]. split; [exact ex_header_rows|]. split; [exact ex_col_groups|]. split; [exact ex_rows_end|].
  split; [exact ex_grows_laminar|]. split; [exact ex_no_empty|]. split; [exact ex_no_change|]. split; [exact ex_outer_rows|].
  split; [reflexivity|]. split; vm_compute; reflexivity.
Qed.
Example C25_rows_exact_ex : outer_first_rows ex_sheet /\ regrouped_exactly [mkGrp 1 5 true; mkGrp 0 8 true] (tb_grows ex_back) (row_moved ex_sheet 9).
Proof.
  split; [exact ex_outer_rows|]. apply (C25_rows_exact true false no_styles ex_sheet ex_back 9); auto using ex_through, ex_ok, ex_header_rows, ex_col_groups, ex_rows_end,
    ex_grows_laminar, ex_no_empty, ex_no_change, ex_outer_rows.
Qed.
(** The inner group is listed first, as the two do not begin together. *)
Lemma ex_outer_cols : outer_first_cols ex_sheet.
Proof.
  refine (pairs_in_order (fun a b => g_from a = g_from b -> g_to b <= g_to a) (tb_gcols ex_sheet) _).
  constructor; [|constructor; [constructor|constructor]]. constructor; [|constructor]. cbn [g_from]. discriminate.
Qed.
Example C25_columns_ex : laminar (tb_gcols ex_sheet) /\ outer_first_cols ex_sheet /\ tb_gcols ex_back = tb_gcols ex_sheet
  /\ tb_gcols ex_sheet = [mkGrp 1 1 true; mkGrp 0 1 false] /\ tb_hcols ex_back = Some (0, 0).
Proof.
  split; [exact ex_gcols_laminar|]. split; [exact ex_outer_cols|]. split; [vm_compute; reflexivity|]. split; [reflexivity|]. vm_compute. reflexivity.
Qed.
Example C25_columns_exact_ex : regrouped_exactly (tb_gcols ex_sheet) (tb_gcols ex_back) (col_moved ex_sheet) /\ header_cols_after ex_sheet (tb_hcols ex_back).
Proof.
  split.
  - apply (C25_columns_exact true false no_styles ex_sheet ex_back); auto using ex_through, ex_ok, ex_header_rows, ex_col_groups, ex_gcols_laminar, ex_outer_cols.
  - apply (C25_columns true false no_styles ex_sheet ex_back); auto using ex_through, ex_ok, ex_header_rows, ex_col_groups, ex_gcols_laminar.
Qed.

Definition ex_stay : sheet :=
  Sheet (lit "S<1>") None None true true [] ex_cols ex_rows ex_groups [mkGrp 0 8 true; mkGrp 1 7 false; mkGrp 5 7 true; mkGrp 8 8 true] (Some (0, 0)) (Some (0, 1)) ex_cells.
Definition stay_back := match table_through true false no_styles ex_stay with Ok s => s | _ => ex_stay end.
Lemma stay_through : table_through true false no_styles ex_stay = Ok stay_back.
Proof. vm_compute. reflexivity. Qed.
Example C25_rows_survive_ex : sheet_ok ex_stay /\ header_rows_full ex_stay /\ col_groups_apart ex_stay /\ laminar (tb_grows ex_stay) /\ rows_stay ex_stay
  /\ outer_first_rows ex_stay /\ tb_grows stay_back = [mkGrp 5 7 true; mkGrp 1 7 false; mkGrp 8 8 true; mkGrp 0 8 true] /\ tb_hrows stay_back = Some (0, 1).
Proof.
  assert (D : forall r n, data_rows ex_stay r n -> data_rows ex_sheet r n) by auto.
  assert (D0 : data_rows ex_stay 0 1) by exact ex_data0. assert (D1 : data_rows ex_stay 1 1) by exact ex_data1.
  assert (D5 : data_rows ex_stay 5 3) by exact ex_data5. assert (D8 : data_rows ex_stay 8 1) by exact ex_data8.
  split; [destruct ex_ok as (A & B & _); split; [exact A|split; [exact B|split; [exact I|reflexivity]]]|]. split; [exact ex_header_rows|]. split; [exact ex_col_groups|].
  split; [apply ex_laminar; [apply Forall_forall; intros g A; ins A; cbn [g_from g_to]; lia|]; intros a b A B; ins A; ins B; unfold nested_or_disjoint; cbn [g_from g_to]; first [left; lia | right; left; lia | right; right; intros x; lia]|].
  split.
  - split.
    + intros g I. ins I; cbn [g_from g_to]; (split; [eexists; eassumption|]).
      * exists 8, 1. split; [exact D8|split; [reflexivity|lia]].
      * exists 5, 3. split; [exact D5|split; [reflexivity|lia]].
      * exists 5, 3. split; [exact D5|split; [reflexivity|lia]].
      * exists 8, 1. split; [exact D8|split; [reflexivity|lia]].
    + intros f t E. injection E as <- <-. split; [eexists; exact D0|]. exists 1, 1. split; [exact D1|split; [reflexivity|lia]].
  - split; [|split; vm_compute; reflexivity].
    refine (pairs_in_order (fun a b => begin_together ex_stay a b -> g_to b <= g_to a) (tb_grows ex_stay) _).
    repeat constructor; intros [T|(r & n & T0 & T1 & T2)]; cbn [g_from g_to] in *; try discriminate; apply D, ex_data in T0; lia.
Qed.
Example C25_columns_survive_ex : calc_col_headers (tb_gcols ex_sheet) (tb_hcols ex_sheet) ex_cols = Ok (tb_cols ex_sheet) /\ disjoint ex_cols /\ wide ex_cols
  /\ equal_headers_touch ex_cols /\ laminar (tb_gcols ex_sheet) /\ Permutation (tb_gcols ex_back) (tb_gcols ex_sheet) /\ tb_hcols ex_back = tb_hcols ex_sheet.
Proof.
  destruct C20_survives_ex as (A1 & A2 & A3 & A4 & _). split; [exact A1|]. split; [exact A3|]. split; [exact A2|]. split; [exact A4|]. split; [exact ex_gcols_laminar|].
  destruct (C25_columns_survive_partial true false no_styles ex_sheet ex_back ex_cols A1 A3 A2 A4 ex_through ex_ok ex_header_rows ex_col_groups ex_gcols_laminar) as (_ & _ & B1 & B2).
  - intros f t E. injection E as <- <-. lia.
  - split; [apply B1, ex_outer_cols|exact B2].
Qed.

(** ** What changes *)

Definition one_each (l : list N) : cells := map (fun r => ((r, 0), tcell "x")) l.
Definition groups_after (rows : hmap rowattr) (gs : list grouped) (m : cells) : res (list grouped) :=
  let* sh := table_through true false no_styles (plain_sheet [] rows [] gs None None m) in Ok (tb_grows sh).

(** Two groups that begin together, the inner one listed first: they swap their display flags. *)
Theorem C25_flags_refuted : exists gs gs', laminar gs /\ groups_after [] gs (one_each [0; 1]) = Ok gs'
  /\ In (mkGrp 0 0 true) gs /\ In (mkGrp 0 1 false) gs /\ In (mkGrp 0 0 false) gs' /\ In (mkGrp 0 1 true) gs' /\ ~ Permutation gs' gs.
Proof.
  exists [mkGrp 0 0 true; mkGrp 0 1 false], [mkGrp 0 0 false; mkGrp 0 1 true].
  split; [apply ex_laminar; [apply Forall_forall; intros g A; ins A; cbn [g_from g_to]; lia|]; intros a b A B; ins A; ins B; unfold nested_or_disjoint; cbn [g_from g_to]; first [left; lia | right; left; lia | right; right; intros x; lia]|].
  split; [vm_compute; reflexivity|]. do 4 (split; [cbn; auto|]). intros P. apply (Permutation_in (mkGrp 0 0 false)) in P; [|now left].
  cbn in P. destruct P as [P|[P|[]]]; discriminate.
Qed.
(** A group that ends in a row without cells ends one row earlier. *)
Theorem C25_empty_end_refuted : exists m, groups_after [] [mkGrp 0 1 true] m = Ok [mkGrp 0 0 true] /\ row_used m 0 /\ row_used m 2.
Proof.
  exists (one_each [0; 2]). split; [vm_compute; reflexivity|]. split; exists 0; eexists; [left|right; left]; reflexivity.
Qed.
(** Groups behind the last row with cells are cut or lost. *)
Theorem C25_behind_refuted : groups_after [] [mkGrp 0 5 true; mkGrp 3 4 false] (one_each [0]) = Ok [mkGrp 0 0 true].
Proof. vm_compute. reflexivity. Qed.
(** A group of one row without cells can not be written: its end is counted before its begin. *)
Theorem C25_empty_group_refuted : write_sheet no_styles (plain_sheet [] [] [] [mkGrp 1 1 true] None None (one_each [0; 2])) = Panic.
Proof. vm_compute. reflexivity. Qed.
(** A group ends within a repeated row, the other one begins there: the two become nested. *)
Theorem C25_repeat_refuted : exists rows, repeats rows 2 3
  /\ groups_after rows [mkGrp 0 2 true; mkGrp 4 6 true] (one_each [0; 2; 6]) = Ok [mkGrp 2 4 true; mkGrp 0 6 true].
Proof.
  exists [(2, mkHdr (ra "r" Visible 3) 1)]. split; [left; eexists; split; [left; reflexivity|reflexivity]|]. vm_compute. reflexivity.
Qed.
(** Header rows behind the last row with cells are cut or lost. *)
Theorem C25_header_refuted : exists sh1 sh2 sh1' sh2', table_through true false no_styles sh1 = Ok sh1' /\ table_through true false no_styles sh2 = Ok sh2'
  /\ tb_hrows sh1 = Some (0, 5) /\ tb_hrows sh1' = Some (0, 0) /\ tb_hrows sh2 = Some (2, 5) /\ tb_hrows sh2' = None.
Proof.
  exists (plain_sheet [] [] [] [] None (Some (0, 5)) (one_each [0])), (plain_sheet [] [] [] [] None (Some (2, 5)) (one_each [0])).
  eexists. eexists. split; [vm_compute; reflexivity|]. split; [vm_compute; reflexivity|]. repeat split; reflexivity.
Qed.

Print Assumptions C25_rows.
Print Assumptions C25_rows_exact.
Print Assumptions C25_columns.
Print Assumptions C25_columns_exact.
Print Assumptions C25_rows_survive_partial.
Print Assumptions C25_columns_survive_partial.
Print Assumptions C25_flags_refuted.
Print Assumptions C25_empty_end_refuted.
Print Assumptions C25_behind_refuted.
Print Assumptions C25_empty_group_refuted.
Print Assumptions C25_repeat_refuted.
Print Assumptions C25_header_refuted.

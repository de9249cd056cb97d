(** C20, C23, C24, C48: a table written to a file and read again. *)
From Coq Require Import Sorted.
From Verif Require Import Base Lib OMap OMapProofs XmlModel XmlSpec XmlProofs RefsModel RefsSpec CellModel HeaderModel HeaderSpec HeaderProofs HeaderCuts
  SplitModel SplitSpec SplitProofs NumModel EnumModel CellIoModel CellIoSpec CellIoProofs TableModel TableSpec TableRun TableCells TableCols TableRead TableNested TablePlaced TableWhole.

(** ** C23 *)

Lemma row_covers {l hs p c s p' c' s' k} : StronglySorted piece_lt (flat l hs) -> In (p, c, s) (flat l hs) -> In (p', c', s') (flat l hs) ->
  fst p = fst p' -> s_col s <= k <= s_to s -> s_col s' <= k <= s_to s' -> (p, c, s) = (p', c', s').
Proof.
  intros S I I' R K K'. destruct (strongly_eq _ _ _ _ S I I') as [E|[E|E]]; [exact E| |]; cbn [piece_lt] in E; lia.
Qed.

(** Every logical position keeps its cell, unless the cell says nothing; no other position gets
    one. The stored cells can begin elsewhere and have other repeat counts, because a cell
    partly covered by a span is written in pieces. *)
Theorem C23_cells : forall lb ign ds sh cs, write_sheet ds sh = Ok cs -> sheet_ok sh -> header_rows_full sh -> col_groups_apart sh ->
  exists sh', table_through lb ign ds sh = Ok sh'
    /\ (forall p c, at_cell (tb_cells sh) p c ->
          exists b k d K, b <= snd p < b + k /\ read_as lb ds c k K /\ col_cellstyle b (tb_cols sh') = Ok d
            /\ (not_stored ign d K -> forall c', ~ at_cell (tb_cells sh') p c')
            /\ (~ not_stored ign d K -> exists c', In ((fst p, b), c') (tb_cells sh') /\ cell_content c' = K))
    /\ (forall p c', at_cell (tb_cells sh') p c' ->
          exists c, at_cell (tb_cells sh) p c /\ read_as lb ds c (c_repeat c') (cell_content c')).
Proof.
  intros lb ign ds sh cs H Hok Hh Hg.
  destruct (table_back lb ign ds sh cs (fun _ => True) (fun _ _ => True) H Hok Hh Hg) as (sh' & hs & T & Eh & Ec & Sp & _ & _ & Dc & _ & _ & _ & Bd); auto.
  exists sh'. split; [exact T|]. destruct Hok as ((Hs & Hc) & _). destruct (hide_flat _ _ _ Eh Hs Sp) as (F1 & F2 & F3).
  assert (Bs : forall p c s, In (p, c, s) (flat (tb_cells sh) hs) -> s_to s + 1 <= u32_max).
  { clear - Eh Bd. revert Eh Bd. generalize (@nil cellrange) as spans. revert hs. induction (tb_cells sh) as [|[p c] l IH]; intros hs spans Eh Bd q d s I; [destruct hs; contradiction|].
    cbn [hide_cells] in Eh. match type of Eh with bind ?X _ = _ => destruct X as [[spans' sp]| |] eqn:E1; try discriminate end. cbn [bind] in Eh.
    match type of Eh with bind ?X _ = _ => destruct X as [hs'| |] eqn:E2; try discriminate end. cbn [bind fst] in Eh.
    assert (E : hs = (p, sp) :: hs') by congruence. subst hs. cbn [flat] in I. apply in_app_iff in I as [I|I].
    - apply in_map_iff in I as (t & E & I). injection E as <- <- <-. apply hide_cell_split in E1 as (rs & E1).
      pose proof (Bd p c (or_introl eq_refl)) as B. apply split_bound in E1 as B2; [|lia]. apply split_tiling in E1. pose proof (tiling_in _ _ _ _ E1 I). lia.
    - eapply IH; [exact E2| |exact I]. intros; eapply Bd; right; eassumption. }
  assert (Pc : forall p c s, In (p, c, s) (flat (tb_cells sh) hs) -> exists K, read_as lb ds c (s_to s - s_col s + 1) K
    /\ (not_stored ign (dflt_at (tb_cols sh') (s_col s)) K -> piece_read lb ign ds (tb_cols sh') c s = None)
    /\ (~ not_stored ign (dflt_at (tb_cols sh') (s_col s)) K -> exists x, piece_read lb ign ds (tb_cols sh') c s = Some x /\ cell_content x = K)
    /\ (not_stored ign (dflt_at (tb_cols sh') (s_col s)) K \/ ~ not_stored ign (dflt_at (tb_cols sh') (s_col s)) K)).
  { intros p c s I. pose proof (Bs _ _ _ I). apply F1 in I as (I & L1 & L2 & L3). rewrite Forall_forall in Hc. specialize (Hc _ I). cbn [snd] in Hc.
    apply piece_content; try apply Hc; lia. }
  (* the stored cells *)
  assert (In' : forall q x, In (q, x) (tb_cells sh') -> exists p c s, In (p, c, s) (flat (tb_cells sh) hs) /\ q = (fst p, s_col s)
     /\ piece_read lb ign ds (tb_cols sh') c s = Some x).
  { intros q x I. rewrite Ec in I. apply in_flat_map in I as ([[p c] s] & I & J). cbn [out_of] in J.
    destruct (piece_read lb ign ds (tb_cols sh') c s) as [y|] eqn:E; [|contradiction]. destruct J as [J|[]]. injection J as <- <-. exists p, c, s. auto. }
  assert (Rk : forall c k K, read_as lb ds c k K -> k_repeat K = k) by (intros c k K (v & d & _ & _ & ->); reflexivity).
  split.
  - intros p c (b & I & L). destruct (F2 _ _ (snd p) I) as (s & Is & Ls); [exact L|]. destruct (Pc _ _ _ Is) as (K & K1 & K2 & K3 & _).
    pose proof (F1 _ _ _ Is) as (_ & L1 & L2 & L3).
    exists (s_col s), (s_to s - s_col s + 1), (dflt_at (tb_cols sh') (s_col s)), K. split; [lia|]. split; [exact K1|]. split; [now apply dflt_report|]. split.
    + intros Hn c' (b' & I' & L'). apply In' in I' as (p' & c0 & s' & J & E & P). injection E as E1 E2.
      pose proof (F1 _ _ _ J) as (_ & M1 & M2 & M3). destruct (Pc _ _ _ J) as (K' & J1 & J2 & J3 & J4).
      assert (Hs' : ~ not_stored ign (dflt_at (tb_cols sh') (s_col s')) K') by (intros X; rewrite (J2 X) in P; discriminate).
      destruct (J3 Hs') as (x & X1 & X2). assert (x = c') by congruence. subst x.
      assert (Er : c_repeat c' = s_to s' - s_col s' + 1) by (rewrite <- content_repeat, X2; eapply Rk; exact J1).
      assert (Q : (((fst p, b) : pos), c, s) = (p', c0, s')) by (eapply (row_covers F3 Is J (k := snd p)); cbn [fst]; [exact E1|exact Ls|lia]).
      injection Q as <- <- <-. rewrite (K2 Hn) in P. discriminate.
    + intros Hn. destruct (K3 Hn) as (x & X1 & X2). exists x. split; [|exact X2]. rewrite Ec. apply in_flat_map. exists (((fst p, b) : pos), c, s).
      split; [exact Is|]. cbn [out_of]. rewrite X1. now left.
  - intros p c' (b' & I' & L'). apply In' in I' as (p' & c0 & s' & J & E & P). injection E as E1 E2.
    pose proof (F1 _ _ _ J) as (J0 & M1 & M2 & M3). destruct (Pc _ _ _ J) as (K' & J1 & J2 & J3 & J4).
    assert (Hs' : ~ not_stored ign (dflt_at (tb_cols sh') (s_col s')) K') by (intros X; rewrite (J2 X) in P; discriminate).
    destruct (J3 Hs') as (x & X1 & X2). assert (x = c') by congruence. subst x.
    assert (Er : c_repeat c' = s_to s' - s_col s' + 1) by (rewrite <- content_repeat, X2; eapply Rk; exact J1).
    exists c0. split; [|rewrite X2, Er; exact J1]. exists (snd p'). split; [rewrite E1; destruct p'; exact J0|lia].
Qed.

(** If no cell is split and none is void, the same positions hold the same contents. *)
Lemma one_piece b n h sp : 1 <= n -> alternating sp -> Forall (fun s => s_col s <= s_to s) sp -> tiling b sp (b + n) ->
  pieces_cols sp = map (fun k => (k, h)) (columns (N.to_nat n) b) -> sp = [mkSplit b (b + n - 1) h].
Proof.
  intros Hn Ha Hf Ht Hp.
  assert (Hh : forall s, In s sp -> s_hidden s = h).
  { intros s I. assert (X : In (s_col s, s_hidden s) (pieces_cols sp)).
    { unfold pieces_cols. apply in_flat_map. exists s. split; [exact I|]. unfold piece_cols. apply in_map_iff. exists (s_col s). split; [reflexivity|].
      rewrite Forall_forall in Hf. specialize (Hf _ I). destruct (N.to_nat (s_to s - s_col s + 1)) eqn:E; [lia|]. now left. }
    rewrite Hp in X. apply in_map_iff in X as (k & E & _). congruence. }
  destruct sp as [|s [|t r]]; cbn [tiling] in Ht.
  - lia.
  - destruct Ht as (T1 & T2 & T3). destruct s as [a e hd]. cbn [s_col s_to] in *. rewrite <- (Hh _ (or_introl eq_refl)). cbn [s_hidden]. f_equal. f_equal; lia.
  - exfalso. cbn [alternating] in Ha. destruct Ha as (Ha & _). apply Ha. rewrite (Hh s), (Hh t); [reflexivity|right; now left|now left].
Qed.
Lemma forall2_nth {A B} (R : A -> B -> Prop) l : forall l', length l = length l' ->
  (forall i a b, nth_error l i = Some a -> nth_error l' i = Some b -> R a b) -> Forall2 R l l'.
Proof.
  induction l as [|a l IH]; intros [|b l'] E H; try discriminate; constructor; [apply (H 0%nat); reflexivity|].
  apply IH; [cbn in E; lia|]. intros i. apply (H (S i)).
Qed.
Lemma hide_nth : forall m spans hs i kv x, hide_cells spans m = Ok hs -> nth_error m i = Some kv -> nth_error hs i = Some x ->
  fst x = fst kv /\ tiling (snd (fst kv)) (snd x) (snd (fst kv) + c_repeat (snd kv)).
Proof.
  induction m as [|[p c] m IH]; intros spans hs i kv x Eh N1 N2; [destruct i; discriminate|]. cbn [hide_cells] in Eh.
  match type of Eh with bind ?X _ = _ => destruct X as [[spans' sp']| |] eqn:E1; try discriminate end. cbn [bind] in Eh.
  match type of Eh with bind ?X _ = _ => destruct X as [hs'| |] eqn:E2; try discriminate end. cbn [bind fst] in Eh.
  assert (E : hs = (p, sp') :: hs') by congruence. subst hs. destruct i as [|i].
  - injection N1 as <-. injection N2 as <-. cbn [fst snd]. split; [reflexivity|]. apply hide_cell_split in E1 as (rs & E1). apply split_tiling in E1. exact E1.
  - exact (IH _ _ _ _ _ E2 N1 N2).
Qed.
Lemma whole_pieces m hs : om_sorted pltb m -> hide_cells [] m = Ok hs -> none_split m ->
  Forall2 (fun kv x => exists h, x = (fst kv, [mkSplit (snd (fst kv)) (snd (fst kv) + c_repeat (snd kv) - 1) h])) m hs.
Proof.
  intros Hs Eh Hn. destruct (C22_covered_thm m hs Hs Eh) as (Hl & Hc). apply forall2_nth; [symmetry; exact Hl|].
  intros i [[r b] c] [q sp] N1 N2. destruct (hide_nth _ _ _ _ _ _ Eh N1 N2) as (Eq & T). cbn [fst snd] in *. subst q.
  destruct (nth_error_split _ _ N1) as (pre & post & E & L). destruct (Hc pre r b c post E) as (sp' & M1 & M2 & M3 & M4).
  rewrite L in M1. assert (X : Some ((r, b), sp) = Some ((r, b), sp')) by (etransitivity; [symmetry; exact N2|exact M1]). injection X as <-. destruct (Hn pre r b c post E) as (R1 & h & R2).
  exists h. f_equal. apply one_piece; auto. rewrite M2. apply map_ext_in. intros k Ik. f_equal. apply R2. apply columns_in in Ik. lia.
Qed.

Theorem C23_exact : forall lb ign ds sh cs, write_sheet ds sh = Ok cs -> sheet_ok sh -> header_rows_full sh -> col_groups_apart sh ->
  none_split (tb_cells sh) ->
  (forall p c d K, In (p, c) (tb_cells sh) -> read_as lb ds c (c_repeat c) K -> ~ not_stored ign d K) ->
  exists sh', table_through lb ign ds sh = Ok sh'
    /\ Forall2 (fun kv kv' => fst kv' = fst kv /\ read_as lb ds (snd kv) (c_repeat (snd kv)) (cell_content (snd kv'))) (tb_cells sh) (tb_cells sh').
Proof.
  intros lb ign ds sh cs H Hok Hh Hg Hn Hv.
  destruct (table_back lb ign ds sh cs (fun _ => True) (fun _ _ => True) H Hok Hh Hg) as (sh' & hs & T & Eh & Ec & Sp & _ & _ & Dc & _ & _ & _ & Bd); auto.
  exists sh'. split; [exact T|]. destruct Hok as ((Hs & Hc) & _). pose proof (whole_pieces _ _ Hs Eh Hn) as W. rewrite Ec.
  assert (Bd2 : Forall (fun kv => snd (fst kv) + c_repeat (snd kv) <= u32_max) (tb_cells sh)).
  { clear - Eh Bd. revert Eh Bd. generalize (@nil cellrange) as spans. revert hs. induction (tb_cells sh) as [|[p c] l IH]; intros hs spans Eh Bd; [constructor|].
    cbn [hide_cells] in Eh. match type of Eh with bind ?X _ = _ => destruct X as [[spans' sp]| |] eqn:E1; try discriminate end. cbn [bind] in Eh.
    match type of Eh with bind ?X _ = _ => destruct X as [hs'| |] eqn:E2; try discriminate end. constructor; [|eapply IH; [exact E2|intros; eapply Bd; right; eassumption]].
    apply hide_cell_split in E1 as (rs & E1). pose proof (Bd p c (or_introl eq_refl)). cbn [fst snd]. eapply split_bound; [exact E1|lia]. }
  assert (Hr : forall kv, In kv (tb_cells sh) -> 1 <= c_repeat (snd kv)).
  { intros [[r b] c] I. apply in_split in I as (pre & post & E). apply (Hn _ _ _ _ _ E). }
  clear Sp H Hs Hn Eh Bd Ec. revert hs W. induction (tb_cells sh) as [|[p c] l IH]; intros hs W; inversion W as [|? x ? hs' (h & Ex) W' E1 E2]; subst; [constructor|].
  cbn [flat map app fst snd] in *. inversion Hc as [|? ? (C1 & C2) Hc']; subst. inversion Bd2 as [|? ? B1 B2]; subst. cbn [fst snd] in *.
  pose proof (Hr (p, c) (or_introl eq_refl)) as R1. cbn [snd] in R1.
  destruct (piece_content lb ign ds (tb_cols sh') c (mkSplit (snd p) (snd p + c_repeat c - 1) h) C1 C2) as (K & K1 & K2 & K3 & _); cbn [s_col s_to] in *; [lia|lia|].
  replace (snd p + c_repeat c - 1 - snd p + 1) with (c_repeat c) in K1 by lia.
  destruct (K3 (Hv p c _ K (or_introl eq_refl) K1)) as (x & X1 & X2). cbn [flat_map out_of]. rewrite X1. cbn [app].
  constructor; [cbn [fst snd s_col]; split; [now destruct p|rewrite X2; exact K1]|].
  apply IH; auto.
  - intros q d dd K' I. apply (Hv q d dd K'). now right.
  - intros kv I. apply Hr. now right.
Qed.

(** ** C48 *)

(** A row with cells keeps style, default cell style and visibility; if it still has a cell it
    keeps its repeat count. *)
Theorem C48_rows : forall lb ign ds sh cs, write_sheet ds sh = Ok cs -> sheet_ok sh -> header_rows_full sh -> col_groups_apart sh ->
  exists sh', table_through lb ign ds sh = Ok sh' /\ forall r, row_used (tb_cells sh) r ->
    rowstyle r (tb_rows sh') = rowstyle r (tb_rows sh)
    /\ row_cellstyle r (tb_rows sh') = row_cellstyle r (tb_rows sh)
    /\ row_visible r (tb_rows sh') = row_visible r (tb_rows sh)
    /\ forall n, repeats (tb_rows sh) r n ->
         (row_used (tb_cells sh') r -> row_repeat r (tb_rows sh') = Ok n)
         /\ (forall a, seen (tb_rows sh') r a -> ra_repeat a = n).
Proof.
  intros lb ign ds sh cs H Hok Hh Hg.
  destruct (table_back lb ign ds sh cs (fun _ => True) (fun _ _ => True) H Hok Hh Hg) as (sh' & hs & T & Eh & Ec & Sp & Dr & Hr & Dc & _ & _ & _ & Bd); auto.
  exists sh'. split; [exact T|]. intros r Hu. destruct (Hr r Hu) as (Rf & Cv). destruct Hok as (_ & (Hd & _) & _).
  unfold rowstyle, row_cellstyle, row_visible, row_repeat. rewrite !row_report_cov by assumption. rewrite Cv.
  assert (Sa : seen_at sh r = match cov (tb_rows sh) r with Some a => row_seen a | None => None end).
  { unfold seen_at, cov. destruct Hd as (S & U & _). rewrite valid_header_cov by assumption.
    destruct (om_floor r (tb_rows sh)) as [[b h]|]; [|reflexivity]. destruct (r <? b + h_span h); reflexivity. }
  unfold row_expected, row_result. rewrite Sa. set (n0 := row_repeat_at (tb_rows sh) r).
  assert (E : forall stored, row_final n0 (with_repeat n0 (match cov (tb_rows sh) r with Some a => row_seen a | None => None end)) stored
    = match cov (tb_rows sh) r with
      | Some a => if stored then Some (mkRowAttr (ra_style a) (ra_cellstyle a) (ra_visible a) n0 None)
                  else match row_seen a with Some _ => Some (mkRowAttr (ra_style a) (ra_cellstyle a) (ra_visible a) n0 None) | None => None end
      | None => if stored then Some (mkRowAttr None None Visible n0 None) else None
      end).
  { intros stored. destruct (cov (tb_rows sh) r) as [[st cst v rep hgt]|]; [|destruct stored; reflexivity]. unfold row_seen. cbn [ra_style ra_cellstyle ra_visible].
    destruct st, cst, v, stored; reflexivity. }
  rewrite E. clear E.
  assert (Hs : has_row (tb_cells sh') r = true <-> row_used (tb_cells sh') r).
  { unfold has_row. rewrite existsb_exists. split.
    - intros ([[a b] c] & I & X). cbn [fst] in X. apply N.eqb_eq in X. subst a. exists b, c. exact I.
    - intros (b & c & I). exists ((r, b), c). split; [exact I|]. apply N.eqb_refl. }
  split; [|split; [|split]].
  1-3: destruct (cov (tb_rows sh) r) as [[st cst v rep hgt]|]; unfold row_seen; cbn [ra_style ra_cellstyle ra_visible];
    destruct (has_row (tb_cells sh') r); try reflexivity; destruct st, cst, v; reflexivity.
  intros n Hn. apply repeats_fun in Hn; [|apply Hd]. fold n0 in Hn. subst n. split.
  - intros U. apply Hs in U. rewrite U. destruct (cov (tb_rows sh) r); reflexivity.
  - intros a Sn. apply cov_seen in Sn; [|apply Dr]. rewrite Cv in Sn. revert Sn. unfold row_expected, row_result. rewrite Sa. fold n0.
    destruct (cov (tb_rows sh) r) as [[st cst v rep hgt]|]; unfold row_seen; cbn [ra_style ra_cellstyle ra_visible];
    destruct (has_row (tb_cells sh') r); cbn; try (intros X; injection X as <-; reflexivity); try discriminate;
    destruct st, cst, v; cbn; intros X; try discriminate; injection X as <-; reflexivity.
Qed.

(** ** C20 *)

Lemma touch_touching m : equal_headers_touch m -> touching m.
Proof.
  induction m as [|[b h] m IH]; intros H; [exact I|]. destruct m as [|[b' h'] m]; [exact I|]. cbn [touching]. split.
  - intros E. apply (H [] b h b' h' m); [reflexivity|exact E].
  - apply IH. intros x b1 h1 b2 h2 y E. apply (H ((b, h) :: x) b1 h1 b2 h2 y). cbn [app]. now rewrite E.
Qed.
Lemma cov_at {A} (m : hmap A) b h k : disjoint m -> In (b, h) m -> b <= k < b + h_span h -> cov m k = Some (h_attr h).
Proof.
  intros (S & U & D) I L. apply cov_seen; [exact S|]. exists b, h. split; [|reflexivity]. split; [exact I|]. split; [lia|]. split; [lia|].
  intros b' h' I' L'. destruct (N.lt_ge_cases b b') as [X|X]; [|exact X]. specialize (D _ _ _ _ I I' X). lia.
Qed.
Lemma cov_cases {A} (m : hmap A) k : om_sorted N.ltb m ->
  match cov m k with Some a => exists b h, In (b, h) m /\ b <= k < b + h_span h /\ h_attr h = a | None => True end.
Proof.
  intros S. destruct (cov m k) as [a|] eqn:E; [|exact I]. apply cov_seen in E; [|exact S]. destruct E as (b & h & (I & L1 & L2 & _) & E).
  exists b, h. split; [exact I|]. split; [lia|exact E].
Qed.

Theorem C20_survives_partial : forall lb ign ds sh m cs,
  calc_col_headers (tb_gcols sh) (tb_hcols sh) m = Ok (tb_cols sh) -> disjoint m -> wide m -> equal_headers_touch m ->
  write_sheet ds sh = Ok cs -> sheet_ok sh -> header_rows_full sh -> col_groups_apart sh ->
  exists sh' w, table_through lb ign ds sh = Ok sh' /\ all_columns sh w /\ forall k, k < w ->
    colstyle k (tb_cols sh') = colstyle k m /\ col_cellstyle k (tb_cols sh') = col_cellstyle k m /\ col_visible k (tb_cols sh') = col_visible k m.
Proof.
  intros lb ign ds sh m cs Hcc Dm Wm Tm H Hok Hh Hg.
  assert (Hmx : exists g mx, used_grid_size (tb_cells sh) = Ok g /\ max_col (snd g) (tb_gcols sh) (tb_hcols sh) = Ok mx).
  { unfold write_sheet in H. destruct (table_attrs sh); try discriminate. cbn [bind] in H. destruct (table_items sh) as [it| |] eqn:E; try discriminate.
    unfold table_items in E. destruct (used_grid_size (tb_cells sh)) as [g| |]; try discriminate. cbn [bind] in E.
    destruct (write_table_columns sh (snd g)) eqn:Ew; try discriminate. unfold write_table_columns in Ew.
    destruct (max_col (snd g) (tb_gcols sh) (tb_hcols sh)) as [mx| |] eqn:Em; try discriminate. exists g, mx. auto. }
  destruct Hmx as (g & mx & Eg & Emx). pose proof (max_col_bound _ _ _ _ Emx) as (M1 & M2 & M3).
  assert (Mu : mx <= u32_max).
  { clear - Emx Eg. apply grid_bound in Eg as (_ & G & _). unfold max_col in Emx. destruct (groups_max (snd g) (tb_gcols sh)) as [x| |] eqn:E; try discriminate. cbn [bind] in Emx.
    assert (x <= u32_max). { revert E. generalize (snd g) G. clear. induction (tb_gcols sh) as [|y l IH]; intros m Hm E; cbn [groups_max] in E; [injection E as <-; exact Hm|].
      destruct (add32 (g_to y) 1) as [t| |] eqn:Et; try discriminate. cbn [bind] in E. apply add32_ok in Et. eapply IH; [|exact E]. lia. }
    destruct (tb_hcols sh) as [[f t]|]; [|injection Emx as <-; exact H]. destruct (add32 t 1) as [t1| |] eqn:Et; try discriminate. cbn [bind] in Emx. apply add32_ok in Et. injection Emx as <-. lia. }
  destruct (calc_col_headers_spec (tb_gcols sh) (tb_hcols sh) m Dm Wm (touch_touching _ Tm)) as (c & r & Ecu & Er & Tr & Cr & Ur).
  { apply Forall_forall. intros x I. specialize (M2 x I). lia. }
  { intros f t E. specialize (M3 f t E). lia. }
  assert (r = tb_cols sh) by congruence. subst r. clear Er. destruct (tiles_disjoint _ _ Tr) as (Dr & Wr).
  set (P := fun c => ~ inside_header (tb_cols sh) c).
  set (Q := fun k (x : option colattr) => x = match cov m k with Some a => col_seen a | None => None end).
  destruct (table_back lb ign ds sh cs P Q H Hok Hh Hg) as (sh' & hs & T & _ & _ & _ & _ & _ & Dc & (C & mx' & Emx' & LC & QC & _) & _ & _ & Bd).
  - intros (b & h & _ & L). lia.
  - intros k Pk Hk (b & h & I & L). unfold chunk_span, chunk in *. destruct (hget k (tb_cols sh)) as [h'|] eqn:E.
    + apply (hget_in k h') in E; [|apply Dr]. destruct Dr as (S & U & D). destruct (N.lt_trichotomy b k) as [X|[X|X]].
      * specialize (D _ _ _ _ I E X). lia.
      * subst b. apply (hget_in k h _ S) in I. apply (hget_in k h' _ S) in E. assert (h = h') by congruence. subst h'. lia.
      * specialize (D _ _ _ _ E I X). lia.
    + assert (b <> k) by (intros ->; apply (hget_in k h) in I; [congruence|apply Dr]). apply Pk. exists b, h. split; [exact I|lia].
  - intros k j Pk Lj. unfold Q, chunk_seen, chunk_span, chunk in *. rewrite <- Cr. destruct (hget k (tb_cols sh)) as [h|] eqn:E.
    + apply (hget_in k h) in E; [|apply Dr]. now rewrite (cov_at _ k h j Dr E Lj).
    + assert (j = k) by lia. subst j. pose proof (cov_cases (tb_cols sh) k (proj1 Dr)) as Cc. destruct (cov (tb_cols sh) k) as [a|]; [|reflexivity].
      destruct Cc as (b & h & I & L & _). exfalso. assert (b <> k) by (intros ->; apply (hget_in k h) in I; [congruence|apply Dr]). apply Pk. exists b, h. split; [exact I|lia].
  - rewrite Eg in Emx'. assert (mx' = mx) by congruence. subst mx'. exists sh', mx. split; [exact T|]. split.
    + split; [|split; [exact M2|exact M3]]. intros p x I. apply grid_bound in Eg as (_ & _ & G). specialize (G p x I). lia.
    + intros k Lk. specialize (QC k ltac:(lia)). unfold Q in QC. unfold colstyle, col_cellstyle, col_visible.
      destruct Dm as (Sm & Um & _). destruct Dc as (Sc & Uc & _). rewrite !col_report_cov by assumption. rewrite QC.
      destruct (cov m k) as [[st cst v wd]|]; [|auto]. unfold col_seen. cbn [ca_style ca_cellstyle ca_visible]. destruct st, cst, v; auto.
Qed.

(** ** C24 *)

(** Start and end tags are balanced if all header rows have cells and if groups of columns begin
    and end at columns with an element of their own; row groups are always balanced. *)
Theorem C24_balanced_partial : forall ds sh cs, write_sheet ds sh = Ok cs -> tb_extra sh = [] ->
  om_sorted pltb (tb_cells sh) -> om_sorted N.ltb (tb_rows sh) -> header_rows_full sh -> col_groups_apart sh ->
  calls_nested [] cs.
Proof. intros ds sh cs H He Hs Hr Hh Hg. now apply (table_nested ds sh). Qed.

(** ** Examples *)

Definition tcell (s : string) : cell := Cell (VText (lit s)) None None 1 None.
Definition ca (s : string) := mkColAttr (Some (lit s)) None Visible None.
Definition ra (s : string) v n := mkRowAttr (Some (lit s)) None v n None.
Definition no_styles (_ : vtype) : option str := None.
Definition ex_groups := [mkGrp 1 1 true; mkGrp 0 1 false].
Definition ex_cols : hmap colattr := [(0, mkHdr (ca "c1") 1); (1, mkHdr (ca "c2") 1); (2, mkHdr (ca "c2") 2)].
Definition ex_rows : hmap rowattr := [(0, mkHdr (ra "r1" Visible 1) 2); (5, mkHdr (ra "r2" Collapsed 3) 1)].
Definition ex_cells : cells :=
  [((0, 0), Cell (VBool true) None (Some (lit "s1")) 1 None); ((0, 3), Cell (VNumber (lit "1.5")) None None 2 None);
   ((1, 0), Cell (VText (lit "a&b")) None None 1 (Some (CExt None (CSpan 2 2) (CSpan 1 1) None [])));
   ((1, 1), tcell "hidden"); ((5, 1), tcell "z"); ((8, 2), Cell (VText (lit "last")) (Some (lit "of:=1")) None 3 None)].
Definition ex_sheet : sheet :=
  Sheet (lit "S<1>") (Some (lit "ta1")) (Some [mkCellRange None None false 0 false 0 None false 9 false 3]) true true []
    ex_cols ex_rows ex_groups [mkGrp 1 5 true; mkGrp 0 8 true] (Some (0, 0)) (Some (0, 1)) ex_cells.
Definition ex_wrote := match write_sheet no_styles ex_sheet with Ok cs => cs | _ => [] end.
Lemma ex_write : write_sheet no_styles ex_sheet = Ok ex_wrote.
Proof. vm_compute. reflexivity. Qed.
Ltac ins H := cbn in H; repeat (destruct H as [H|H]); try contradiction; repeat match type of H with (_, _) = (_, _) => injection H; clear H; intros; subst end; subst.
Lemma ex_cols_disjoint : disjoint ex_cols.
Proof.
  split; [repeat constructor|]. split.
  - intros b h I. ins I; vm_compute; discriminate.
  - intros b h b' h' I I'. ins I; ins I'; cbn [h_span]; lia.
Qed.
Lemma ex_used r : row_used ex_cells r -> r = 0 \/ r = 1 \/ r = 5 \/ r = 8.
Proof. intros (b & c & I). ins I; auto. Qed.
Lemma ex_ok : sheet_ok ex_sheet.
Proof.
  split; [|split; [|split; [|reflexivity]]].
  - split; [repeat constructor|]. repeat constructor; try discriminate; cbn; try exact I; vm_compute; repeat split; try discriminate; try (intros H; discriminate).
    exists false, (lit "1"), (lit ".5"). repeat split; try discriminate; [repeat constructor; discriminate|]. right. exists (lit "5"). repeat split; [discriminate|repeat constructor; discriminate].
  - split.
    + split; [repeat constructor|]. split.
      * intros b h I. ins I; vm_compute; discriminate.
      * intros b h b' h' I I'. ins I; ins I'; cbn [h_span]; lia.
    + intros r U. apply ex_used in U. split.
      * intros h I. ins I; vm_compute; repeat split; discriminate.
      * intros b h (I & L & L' & _) Lt. ins I; cbn [h_span h_attr ra_repeat ra] in *; [reflexivity|]. lia.
  - split; [discriminate|]. constructor; [|constructor]. vm_compute. repeat split; discriminate.
  Qed.
Lemma ex_header_rows : header_rows_full ex_sheet.
Proof.
  intros f t E. injection E as <- <-. split; [lia|]. intros k L. left. exists k, 1. assert (C : k = 0 \/ k = 1) by lia. destruct C as [-> | ->]; (split; [|split; [|lia]]).
  - exists 0. eexists. left. reflexivity.
  - left. exists (mkHdr (ra "r1" Visible 1) 2). split; [left; reflexivity|reflexivity].
  - exists 0. eexists. right. right. left. reflexivity.
  - right. split; [|reflexivity]. intros h I. ins I; discriminate.
Qed.
Lemma ex_col_groups : col_groups_apart ex_sheet.
Proof.
  split; [exact ex_cols_disjoint|]. intros g I.
  assert (N : forall k, k <= 1 -> ~ inside_header ex_cols k) by (intros k Lk (b & h & J & L); ins J; cbn [h_span] in L; lia).
  ins I; cbn [g_from g_to]; (split; [lia|split; apply N; lia]).
Qed.

Example C23_cells_ex : write_sheet no_styles ex_sheet = Ok ex_wrote /\ sheet_ok ex_sheet /\ header_rows_full ex_sheet /\ col_groups_apart ex_sheet
  /\ exists sh', table_through true false no_styles ex_sheet = Ok sh' /\ tb_cells sh' = ex_cells /\ at_cell ex_cells (0, 4) (Cell (VNumber (lit "1.5")) None None 2 None).
Proof.
  split; [exact ex_write|]. split; [exact ex_ok|]. split; [exact ex_header_rows|]. split; [exact ex_col_groups|].
  eexists. split; [vm_compute; reflexivity|]. split; [vm_compute; reflexivity|]. exists 3. split; [right; left; reflexivity|]. cbn. lia.
Qed.
(** The cells of the example are neither split nor lost. *)
Fixpoint unsplit (pre l : cells) : Prop :=
  match l with
  | [] => True
  | ((r, b), c) :: t => (1 <= c_repeat c /\ exists h, forall k, b <= k < b + c_repeat c -> covered (owners [] pre) (r, k) = h) /\ unsplit (pre ++ [((r, b), c)]) t
  end.
Lemma unsplit_none : forall l pre0, unsplit pre0 l -> forall pre r b c post, l = pre ++ ((r, b), c) :: post ->
  1 <= c_repeat c /\ exists h, forall k, b <= k < b + c_repeat c -> covered (owners [] (pre0 ++ pre)) (r, k) = h.
Proof.
  induction l as [|[[r0 b0] c0] t IH]; intros pre0 H pre r b c post E; [destruct pre; discriminate|]. cbn [unsplit] in H. destruct H as (H1 & H2).
  destruct pre as [|x pre]; cbn [app] in E; injection E; intros; subst.
  - rewrite app_nil_r. exact H1.
  - change (pre0 ++ ((r0, b0), c0) :: pre) with (pre0 ++ [((r0, b0), c0)] ++ pre). rewrite app_assoc. apply (IH _ H2 pre r b c post eq_refl).
Qed.
Lemma all_blank ls : text_value ls = VEmpty -> Forall (fun x => x = c_nl) (join [c_nl] ls).
Proof.
  unfold text_value. assert (H : drop_blank ls = [] -> Forall (fun x => x = c_nl) (join [c_nl] ls)).
  { induction ls as [|l r IH]; [constructor|]. cbn [drop_blank]. destruct l; [|discriminate]. cbn [blank]. intros E. specialize (IH E).
    destruct r; cbn [join app] in *; [constructor|]. now constructor. }
  destruct (drop_blank ls) as [|l [|l2 r]]; try discriminate. auto.
Qed.
Example C23_exact_ex : none_split ex_cells /\ forall lb p c d K, In (p, c) ex_cells -> read_as lb no_styles c (c_repeat c) K -> ~ not_stored false d K.
Proof.
  assert (S : forall (f : N -> bool) b, exists h, forall k, b <= k < b + 1 -> f k = h).
  { intros f b. exists (f b). intros k L. f_equal. lia. }
  split.
  - assert (U : unsplit [] ex_cells).
    { unfold ex_cells. cbn [unsplit c_repeat tcell app]. repeat (split; [split; [lia|]|]); [apply S| |apply S|apply S|apply S| |exact I];
      exists false; intros k L; vm_compute; reflexivity. }
    intros pre r b c post E. exact (unsplit_none _ [] U pre r b c post E).
  - intros lb p c d K I (v & e & V & _ & ->) [N|[N _]]; [|discriminate]. destruct N as (N & _). cbn [k_value content_with] in N. 
    ins I; cbn [value_after c_value tcell] in V; try discriminate; destruct V as (ls & (_ & _ & L) & E);
    symmetry in E; apply all_blank in E; rewrite L in E; inversion E as [|? ? X]; discriminate.
Qed.

(** *** Where it fails *)

Definition plain_sheet cols rows gc gr hc hr m := Sheet (lit "S") None None true true [] cols rows gc gr hc hr m.
Definition cells_through (rows : hmap rowattr) (m : cells) : res cells :=
  let* sh := table_through false false no_styles (plain_sheet [] rows [] [] None None m) in Ok (tb_cells sh).
(** A cell with repeat count 0 is lost. *)
Theorem C23_repeat0_refuted : exists c m', c_repeat c = 0 /\ cells_through [] [((0, 0), c); ((0, 1), tcell "b")] = Ok m' /\ m' = [((0, 1), tcell "b")].
Proof. exists (Cell (VText (lit "a")) None None 0 None). eexists. split; [reflexivity|]. split; [vm_compute; reflexivity|reflexivity]. Qed.
(** A repeated cell partly covered by a span becomes two cells. *)
Theorem C23_split_refuted : exists m m', cells_through [] m = Ok m' /\ length m = 2%nat /\ length m' = 3%nat.
Proof.
  exists [((0, 0), Cell (VText (lit "a")) None None 1 (Some (CExt None (CSpan 2 2) (CSpan 1 1) None []))); ((1, 0), Cell (VText (lit "b")) None None 5 None)].
  eexists. split; [vm_compute; reflexivity|]. split; reflexivity.
Qed.
(** A repeat count set before the style of the row: the row after it seems to be repeated, too,
    and cells further down move up. *)
Theorem C23_row_moved_refuted : exists rows m', run_rows [(0, SetRowRepeat 3); (0, SetRowStyle (Some (lit "r")))] [] = Ok rows
  /\ cells_through rows [((1, 0), tcell "a"); ((10, 0), tcell "b")] = Ok m' /\ m' = [((1, 0), tcell "a"); ((8, 0), tcell "b")].
Proof. eexists. eexists. split; [vm_compute; reflexivity|]. split; [vm_compute; reflexivity|reflexivity]. Qed.
(** A cell with the default style of its column only, and an empty text, are lost. *)
Theorem C23_void_refuted : cells_through [] [((0, 0), tcell ""); ((0, 1), cell0)] = Ok [].
Proof. vm_compute. reflexivity. Qed.

Example C48_rows_ex : exists sh', table_through false true no_styles ex_sheet = Ok sh'
  /\ map (fun r => rowstyle r (tb_rows sh')) [0; 1; 5; 8] = [Ok (Some (lit "r1")); Ok (Some (lit "r1")); Ok (Some (lit "r2")); Ok None]
  /\ row_visible 5 (tb_rows sh') = Ok Collapsed /\ row_repeat 5 (tb_rows sh') = Ok 3 /\ repeats (tb_rows ex_sheet) 5 3 /\ row_used (tb_cells ex_sheet) 5.
Proof.
  eexists. split; [vm_compute; reflexivity|]. split; [vm_compute; reflexivity|]. split; [vm_compute; reflexivity|]. split; [vm_compute; reflexivity|]. split.
  - left. eexists. split; [right; left; reflexivity|reflexivity].
  - exists 1, (tcell "z"). cbn. tauto.
Qed.
(** Rows without cells lose what was set for them, before and after the last row with cells. *)
Theorem C48_empty_rows_refuted : exists rows sh', run_rows [(2, SetRowStyle (Some (lit "r"))); (2, SetRowVisible Collapsed); (5, SetRowStyle (Some (lit "r")))] [] = Ok rows
  /\ table_through false false no_styles (plain_sheet [] rows [] [] None None [((0, 0), tcell "a"); ((4, 0), tcell "b")]) = Ok sh'
  /\ rowstyle 2 rows = Ok (Some (lit "r")) /\ row_visible 2 rows = Ok Collapsed /\ rowstyle 5 rows = Ok (Some (lit "r"))
  /\ rowstyle 2 (tb_rows sh') = Ok None /\ row_visible 2 (tb_rows sh') = Ok Visible /\ rowstyle 5 (tb_rows sh') = Ok None.
Proof. eexists. eexists. split; [vm_compute; reflexivity|]. split; [vm_compute; reflexivity|]. vm_compute. repeat split. Qed.

Example C20_survives_ex : calc_col_headers ex_groups (Some (0, 0)) ex_cols = Ok (tb_cols ex_sheet) /\ wide ex_cols /\ disjoint ex_cols
  /\ equal_headers_touch ex_cols /\ all_columns ex_sheet 4 /\ exists sh', table_through false true no_styles ex_sheet = Ok sh'
  /\ map (fun k => colstyle k (tb_cols sh')) [0; 1; 2; 3] = [Ok (Some (lit "c1")); Ok (Some (lit "c2")); Ok (Some (lit "c2")); Ok (Some (lit "c2"))].
Proof.
  split; [vm_compute; reflexivity|]. split; [intros b h I; ins I; cbn; lia|]. split; [exact ex_cols_disjoint|]. split.
  - intros x b h b' h' y E. unfold ex_cols in E. destruct x as [|? [|? [|? x]]]; cbn [app] in E; injection E; intros; subst; cbn in *; try reflexivity; try discriminate.
    destruct x; discriminate.
  - split.
    + split; [intros p c I; ins I; cbn; lia|]. split; [intros g I; ins I; cbn; lia|]. intros f t E. injection E as <- <-. lia.
    + eexists. split; [vm_compute; reflexivity|vm_compute; reflexivity].
Qed.
(** Two equal headers with a gap between them become one header that is not where they were. *)
Theorem C20_gap_refuted : exists m r, run_cols [(0, SetColStyle (Some (lit "c"))); (5, SetColStyle (Some (lit "c")))] [] = Ok m
  /\ calc_col_headers [] None m = Ok r /\ colstyle 5 m = Ok (Some (lit "c")) /\ colstyle 5 r = Ok None /\ colstyle 1 m = Ok None /\ colstyle 1 r = Ok (Some (lit "c")).
Proof. eexists. eexists. split; [vm_compute; reflexivity|]. split; [vm_compute; reflexivity|]. vm_compute. repeat split. Qed.
(** Columns right of the last cell and the last group are not written. *)
Theorem C20_right_refuted : exists m r sh', run_cols [(5, SetColStyle (Some (lit "c")))] [] = Ok m /\ calc_col_headers [] None m = Ok r
  /\ table_through false false no_styles (plain_sheet r [] [] [] None None [((0, 0), tcell "a")]) = Ok sh'
  /\ colstyle 5 r = Ok (Some (lit "c")) /\ colstyle 5 (tb_cols sh') = Ok None.
Proof. eexists. eexists. eexists. split; [vm_compute; reflexivity|]. split; [vm_compute; reflexivity|]. split; [vm_compute; reflexivity|]. vm_compute. repeat split. Qed.

Example C24_balanced_ex : write_sheet no_styles ex_sheet = Ok ex_wrote /\ header_rows_full ex_sheet /\ col_groups_apart ex_sheet
  /\ calls_nested [] ex_wrote /\ In (CEnd t_rgroup) ex_wrote /\ In (CEnd t_hrows) ex_wrote /\ In (CEnd t_cgroup) ex_wrote.
Proof.
  split; [exact ex_write|]. split; [exact ex_header_rows|]. split; [exact ex_col_groups|]. split; [vm_compute; repeat split|].
  assert (F : forall n, existsb (fun c => match c with CEnd m => str_eqb m n | _ => false end) ex_wrote = true -> In (CEnd n) ex_wrote).
  { intros n E. apply existsb_exists in E as (c & I & E). destruct c; try discriminate. apply str_eqb_eq in E. now subst. }
  repeat split; apply F; vm_compute; reflexivity.
Qed.
(** A group of two columns with equal headers is opened and never closed. *)
Theorem C24_columns_refuted : exists m r cs, run_cols [(0, SetColStyle (Some (lit "c"))); (1, SetColStyle (Some (lit "c")))] [] = Ok m
  /\ calc_col_headers [mkGrp 0 1 true] None m = Ok r
  /\ write_sheet no_styles (plain_sheet r [] [mkGrp 0 1 true] [] None None [((0, 0), tcell "a")]) = Ok cs /\ ~ calls_nested [] cs
  /\ table_through false false no_styles (plain_sheet r [] [mkGrp 0 1 true] [] None None [((0, 0), tcell "a")]) = Err.
Proof.
  eexists. eexists. eexists. split; [vm_compute; reflexivity|]. split; [vm_compute; reflexivity|]. split; [vm_compute; reflexivity|].
  split; [|vm_compute; reflexivity]. vm_compute. intros H. decompose [and] H. discriminate.
Qed.
(** Header rows 0 and 1, one of them without cells. *)
Theorem C24_rows_refuted : exists cs cs',
  write_sheet no_styles (plain_sheet [] [] [] [] None (Some (0, 1)) [((1, 0), tcell "a")]) = Ok cs /\ ~ calls_nested [] cs
  /\ write_sheet no_styles (plain_sheet [] [] [] [] None (Some (0, 1)) [((0, 0), tcell "a"); ((3, 0), tcell "b")]) = Ok cs' /\ ~ calls_nested [] cs'
  /\ table_through false false no_styles (plain_sheet [] [] [] [] None (Some (0, 1)) [((1, 0), tcell "a")]) = Err.
Proof.
  eexists. eexists. split; [vm_compute; reflexivity|]. split; [vm_compute; intros H; decompose [and] H; discriminate|]. split; [vm_compute; reflexivity|].
  split; [vm_compute; intros H; decompose [and] H; discriminate|vm_compute; reflexivity].
Qed.

(** ** C49 *)

(** Name, style, visibility, print flag and print ranges of a sheet survive. *)
Theorem C49_sheet : forall lb ign ds sh cs, write_sheet ds sh = Ok cs -> sheet_ok sh -> header_rows_full sh -> col_groups_apart sh ->
  exists sh', table_through lb ign ds sh = Ok sh' /\ tb_name sh' = tb_name sh /\ tb_style sh' = tb_style sh
    /\ tb_display sh' = tb_display sh /\ tb_print sh' = tb_print sh /\ tb_ranges sh' = tb_ranges sh /\ tb_extra sh' = [].
Proof.
  intros lb ign ds sh cs H Hok Hh Hg.
  destruct (table_back lb ign ds sh cs (fun _ => True) (fun _ _ => True) H Hok Hh Hg) as (sh' & hs & T & _ & _ & _ & _ & _ & _ & _ & Hs & R & _); auto.
  exists sh'. destruct Hs as (H1 & H2 & H3 & H4 & H5). destruct Hok as (_ & _ & _ & He). rewrite He in H5. repeat split; congruence.
Qed.
Example C49_sheet_ex : exists sh', table_through false true no_styles ex_sheet = Ok sh' /\ tb_name sh' = lit "S<1>" /\ tb_style sh' = Some (lit "ta1")
  /\ tb_ranges sh' = Some [mkCellRange None None false 0 false 0 None false 9 false 3] /\ tb_print sh' = true.
Proof. eexists. split; [vm_compute; reflexivity|]. vm_compute. repeat split. Qed.
(** An empty list of print ranges becomes none. *)
Theorem C49_no_ranges_refuted : exists sh', table_through false true no_styles
    (Sheet (lit "S") None (Some []) true true [] [] [] [] [] None None [((0, 0), tcell "a")]) = Ok sh' /\ tb_ranges sh' = None.
Proof. eexists. split; [vm_compute; reflexivity|reflexivity]. Qed.

Print Assumptions C23_cells.
Print Assumptions C23_exact.
Print Assumptions C48_rows.
Print Assumptions C20_survives_partial.
Print Assumptions C24_balanced_partial.
Print Assumptions C23_repeat0_refuted.
Print Assumptions C23_split_refuted.
Print Assumptions C23_row_moved_refuted.
Print Assumptions C23_void_refuted.
Print Assumptions C48_empty_rows_refuted.
Print Assumptions C20_gap_refuted.
Print Assumptions C20_right_refuted.
Print Assumptions C24_columns_refuted.
Print Assumptions C24_rows_refuted.
Print Assumptions C49_sheet.
Print Assumptions C49_no_ranges_refuted.

(** A sheet filled by a program can be written, and what is read from it. *)
From Coq Require Import Sorted.
From Verif Require Import Base Lib OMap OMapProofs RefsModel RefsSpec XmlModel XmlSpec CellModel CellSpec CellProofs CellProps HeaderModel HeaderSpec HeaderProofs HeaderCuts
  SplitModel SplitSpec NumModel CellIoModel CellIoSpec CellIoProofs TableModel TableSpec TableCells TableRead TablePlaced TableWhole TableProps CloneModel CloneSpec CloneProofs CloneProps FitSpec FitProofs ApiSpec.

(** ** What the calls leave *)

Definition view_good (p : pos) (v : view) : Prop :=
  writable (v_value v) /\ v_repeat v = 1
  /\ (1 <= v_row_span v /\ fst p + v_row_span v <= u32_max) /\ (1 <= v_col_span v /\ snd p + v_col_span v <= u32_max)
  /\ 1 <= v_mrow_span v <= u32_max /\ 1 <= v_mcol_span v <= u32_max
  /\ (forall a, v_annotation v = Some a -> ann_ok a) /\ Forall frame_ok (v_frames v).

Lemma good_step p v o : op_fine (p, o) -> view_good p v -> view_good p (view_expected v [o]).
Proof.
  destruct p as [r c]. intros (B1 & B2 & F) (G1 & G2 & G3 & G4 & G5 & G6 & G7 & G8). unfold view_good, view_expected. rewrite !last_write_cons, !last_write_nil.
  assert (W : writable VEmpty) by (split; [exact I|discriminate]).
  destruct o; cbn [v_value v_repeat v_row_span v_col_span v_mrow_span v_mcol_span v_annotation v_frames w_value w_repeat w_row_span w_col_span w_mrow_span w_mcol_span w_annotation frames_after fst snd] in *;
    try (subst n); repeat match goal with |- _ /\ _ => split end; auto; try lia; try discriminate;
    try (intros a0 E; injection E as <-; exact F); try (apply Forall_app; auto); try (destruct F as (F1 & F2 & F3 & F4 & F5 & F6 & F7 & F8); auto; lia).
Qed.

Lemma good_blank p : fst p < u32_max -> snd p < u32_max -> view_good p view_blank.
Proof.
  intros B1 B2. unfold view_good, view_blank. cbn [v_value v_repeat v_row_span v_col_span v_mrow_span v_mcol_span v_annotation v_frames].
  assert (1 <= u32_max) by lia. repeat match goal with |- _ /\ _ => split end; auto; try lia; try discriminate. split; [exact I|discriminate].
Qed.
Lemma good_run p h : forall v, Forall (fun o => op_fine (p, o)) h -> view_good p v -> view_good p (view_expected v h).
Proof.
  induction h as [|o h IH]; intros v F G.
  - destruct v. exact G.
  - inversion F as [|? ? F1 F2]; subst. rewrite view_expected_cons. apply IH; [exact F2|]. now apply good_step.
Qed.
Lemma at_fine p ops : Forall op_fine ops -> Forall (fun o => op_fine (p, o)) (at_pos p ops).
Proof.
  intros F. induction F as [|[q o] ops F1 _ IH]; [constructor|]. rewrite at_pos_cons. destruct (pos_eqb q p) eqn:E; [|exact IH].
  apply pos_eqb_eq in E. subst q. constructor; assumption.
Qed.
Lemma fine_nonzero ops : Forall op_fine ops -> ~ Exists (fun po => zero_span (snd po)) ops.
Proof.
  intros F X. apply Exists_exists in X as ([[r c] o] & J & Z). rewrite Forall_forall in F. destruct (F _ J) as (_ & _ & K). cbn [snd] in Z.
  destruct o; cbn in Z, K; try contradiction; lia.
Qed.
Lemma fine_view p ops m : Forall op_fine ops -> run_ops ops [] = Ok m -> v_present (view_of p m) = true -> (fst p < u32_max /\ snd p < u32_max) /\ view_good p (view_of p m).
Proof.
  intros F R P. rewrite (C13_new_sheet ops m p R) in *. pose proof (at_fine p ops F) as Fa. destruct (at_pos p ops) as [|o h] eqn:E; [discriminate|].
  assert (B : fst p < u32_max /\ snd p < u32_max). { destruct p as [r c]. inversion Fa as [|? ? F1 _]; subst. destruct F1 as (B1 & B2 & _). split; assumption. }
  split; [exact B|]. apply good_run; [exact Fa|]. destruct B. now apply good_blank.
Qed.

Lemma in_view p c (m : cells) : om_sorted pltb m -> In (p, c) m -> view_of p m = cell_view c.
Proof. intros S J. rewrite view_of_cell. unfold sh_cell. apply (get_in pltb pltb_order) in J; [|exact S]. now rewrite J. Qed.

(** What is known of a cell. *)
Definition cell_good (kv : pos * cell) : Prop :=
  (fst (fst kv) < u32_max /\ snd (fst kv) < u32_max) /\ c_repeat (snd kv) = 1 /\ writable (c_value (snd kv)) /\ extra_ok (snd kv)
  /\ forall x, c_extra (snd kv) = Some x -> (1 <= rspan (x_span x) /\ fst (fst kv) + rspan (x_span x) <= u32_max) /\ (1 <= cspan_ (x_span x) /\ snd (fst kv) + cspan_ (x_span x) <= u32_max).
Lemma fine_cells ops m : Forall op_fine ops -> run_ops ops [] = Ok m -> om_sorted pltb m /\ Forall cell_good m.
Proof.
  intros F R. assert (S : om_sorted pltb m) by (eapply run_sorted; [|exact R]; constructor). split; [exact S|]. apply Forall_forall. intros [p c] J.
  pose proof (in_view p c m S J) as V. destruct (fine_view p ops m F R) as (B & G); [rewrite V; reflexivity|]. rewrite V in G. destruct G as (G1 & G2 & G3 & G4 & G5 & G6 & G7 & G8).
  unfold cell_view, extra_mut in *. cbn [v_value v_repeat v_row_span v_col_span v_mrow_span v_mcol_span v_annotation v_frames] in *.
  unfold cell_good. cbn [fst snd]. split; [exact B|]. split; [exact G2|]. split; [exact G1|]. split.
  - unfold extra_ok, spans_ok, span_ok. destruct (c_extra c) as [x|]; [|split; exact I]. split; [|split; assumption]. split; split; try assumption; lia.
  - intros x E. rewrite E in *. split; assumption.
Qed.

(** ** The sheet *)

Section Sheet.
  Variables (name : str) (m : cells).
  Hypotheses (S : om_sorted pltb m) (G : Forall cell_good m).

  Lemma of_inside : inside_grid (sheet_of name m).
  Proof.
    unfold inside_grid, sheet_of. cbn [tb_cells tb_rows tb_cols tb_gcols tb_hcols tb_ranges].
    split; [exact S|]. split.
    { eapply Forall_impl; [|exact G]. intros [[r c] d] ((B1 & B2) & R & _ & _ & X). cbn [fst snd] in *. unfold cell_inside. rewrite R. split; [lia|]. split; [lia|]. split; [lia|].
      intros x E. destruct (X x E) as ((X1 & X2) & (X3 & X4)). auto. }
    split; [split; [constructor|split; [intros ? ? []|intros ? ? ? ? []]]|]. split.
    { intros r n (b & c & J) [(h & [] & _)|(_ & ->)]. rewrite Forall_forall in G. destruct (G _ J) as ((B & _) & _). cbn [fst snd] in B. lia. }
    split; [split; [constructor|split; [intros ? ? []|intros ? ? ? ? []]]|]. split; [intros ? ? []|]. split; [constructor|]. split; discriminate.
  Qed.
  Lemma of_apart : nothing_overlaps (sheet_of name m).
  Proof.
    unfold nothing_overlaps, sheet_of. cbn [tb_cells tb_rows]. rewrite Forall_forall in G. split.
    - intros r b c b' c' J _ L. destruct (G _ J) as (_ & R & _). cbn [snd] in R. lia.
    - intros r n r' _ [(h & [] & _)|(_ & ->)] _ L. lia.
  Qed.
  Lemma of_groups : row_groups_writable (sheet_of name m).
  Proof. intros g []. Qed.
  Lemma of_ok : sheet_ok (sheet_of name m).
  Proof.
    unfold sheet_ok, sheet_of. cbn [tb_cells tb_rows tb_ranges tb_extra]. split; [split; [exact S|]|split; [|split; [exact I|reflexivity]]].
    - eapply Forall_impl; [|exact G]. intros kv (_ & _ & W & X & _). auto.
    - split; [split; [constructor|split; [intros ? ? []|intros ? ? ? ? []]]|]. intros r _. split; [intros h []|intros b h ([] & _)].
  Qed.
  Lemma of_header : header_rows_full (sheet_of name m).
  Proof. intros f t E. discriminate. Qed.
  Lemma of_cols : col_groups_apart (sheet_of name m).
  Proof. split; [split; [constructor|split; [intros ? ? []|intros ? ? ? ? []]]|intros g []]. Qed.
  Lemma of_whole : none_split m.
  Proof.
    intros pre r b c post ->. apply Forall_app in G as (_ & G'). inversion G' as [|? ? (_ & R & _) _]; subst. cbn [snd] in R. rewrite R. split; [lia|].
    exists (covered (owners [] pre) (r, b)). intros k L. now replace k with b by lia.
  Qed.
  Lemma of_few rep : rep = true \/ forall r n, row_used (tb_cells (sheet_of name m)) r -> repeats (tb_rows (sheet_of name m)) r n -> n <= 1000.
  Proof. right. intros r n _ [(h & [] & _)|(_ & ->)]. lia. Qed.
End Sheet.

(** ** Reading *)

Lemma stored_none ign K : not_stored ign None K <-> says_none ign (view_content K).
Proof.
  unfold not_stored, says_nothing, says_none, view_content. destruct K as [v st f k va [a b] [c d] an fr].
  cbn [k_value k_formula k_style k_validation k_span k_matrix k_annotation k_frames v_value v_formula v_style v_validation v_row_span v_col_span v_mrow_span v_mcol_span v_annotation v_frames rspan cspan_].
  split.
  - intros [(A1 & A2 & A3 & A4 & A5 & A6 & A7 & A8)|(E & A1 & A2 & A3 & A4 & A5 & A6 & A7 & A8)]; injection A5 as -> ->; injection A6 as -> ->; repeat (split; [assumption || reflexivity|]).
    + split; [left; destruct A3; assumption|auto 10].
    + split; [right; assumption|auto 10].
  - intros (A1 & A2 & A3 & A4 & -> & -> & -> & -> & A7 & A8). destruct A3 as [A3|A3].
    + left. auto 10.
    + right. auto 10.
Qed.
Lemma read_found lb ds c K : read_as lb ds c 1 K -> found_again lb ds (cell_view c) (view_content K).
Proof.
  intros (v & d & V & (D1 & D2 & D3 & D4 & D5) & ->). unfold found_again, cell_view, view_content, content_with, extra_mut, written_style.
  cbn [k_value k_formula k_style k_repeat k_validation k_span k_matrix k_annotation k_frames v_present v_value v_formula v_style v_repeat v_validation v_row_span v_col_span v_mrow_span v_mcol_span v_annotation v_frames].
  rewrite D2. split; [reflexivity|]. split; [exact V|]. split; [reflexivity|]. split; [reflexivity|]. split; [reflexivity|].
  destruct (c_extra c) as [x|], (c_extra d) as [y|]; try contradiction.
  - destruct D5 as (E1 & E2 & E3 & E4 & E5). rewrite E1, E2, E3. auto 10.
  - cbn. repeat split. constructor.
Qed.

Definition back (lb ign : bool) (ds : vtype -> option str) (l out : cells) : Prop :=
  (forall p x, In (p, x) out -> (exists c, In (p, c) l) /\ c_repeat x = 1)
  /\ forall p c, In (p, c) l -> exists K, read_as lb ds c 1 K
      /\ ((not_stored ign None K /\ forall x, ~ In (p, x) out) \/ (~ not_stored ign None K /\ exists x, In (p, x) out /\ cell_content x = K)).

Lemma sorted_fresh q d (l : cells) : om_sorted pltb ((q, d) :: l) -> forall c, ~ In (q, c) l.
Proof.
  intros H c J. apply (sorted_nodup pltb pltb_order) in H. cbn [map fst] in H. inversion H as [|? ? N _]; subst. apply N. exact (in_map fst _ _ J).
Qed.

Lemma back_cells lb ign ds cm l : forall hs, (forall k, dflt_at cm k = None) -> om_sorted pltb l -> Forall cell_good l ->
  Forall2 (fun kv x => exists h, x = (fst kv, [mkSplit (snd (fst kv)) (snd (fst kv) + c_repeat (snd kv) - 1) h])) l hs ->
  back lb ign ds l (flat_map (out_of lb ign ds cm) (flat l hs)).
Proof.
  induction l as [|[p c] l IH]; intros hs D S G W; inversion W as [|? x ? hs' (h & Ex) W' E1 E2]; subst; [split; intros ? ? []|].
  inversion G as [|? ? ((B1 & B2) & R & Hw & He & _) G']; subst. cbn [fst snd] in *. assert (S' : om_sorted pltb l) by exact (proj1 (proj2 (sorted_app_inv pltb [(p, c)] l S))).
  destruct (IH hs' D S' G' W') as (I1 & I2). clear IH.
  cbn [flat map app flat_map out_of]. rewrite R. replace (snd p + 1 - 1) with (snd p) by lia.
  destruct (piece_content lb ign ds cm c (mkSplit (snd p) (snd p) h) Hw He) as (K & K1 & K2 & K3 & K4); cbn [s_col s_to] in *; [lia|lia|].
  replace (snd p - snd p + 1) with 1 in K1 by lia. rewrite D in K2, K3, K4.
  assert (Ep : (fst p, snd p) = p) by (now destruct p). rewrite Ep.
  set (out := flat_map (out_of lb ign ds cm) (flat l hs')) in *.
  assert (Fr : forall x, ~ In (p, x) out). { intros x J. destruct (I1 p x J) as ((c' & J') & _). exact (sorted_fresh _ _ _ S c' J'). }
  assert (Ne : forall q d, In (q, d) l -> q <> p). { intros q d J ->. exact (sorted_fresh _ _ _ S d J). }
  destruct K4 as [Z|Z].
  - rewrite (K2 Z). cbn [app]. split.
    + intros q x J. destruct (I1 q x J) as ((d & J') & O). split; [exists d; now right|exact O].
    + intros q d [J|J]; [|exact (I2 q d J)]. injection J as <- <-. exists K. split; [exact K1|]. left. split; [exact Z|exact Fr].
  - destruct (K3 Z) as (x & X1 & X2). rewrite X1. cbn [app]. split.
    + intros q y [J|J].
      * injection J as <- <-. split; [exists c; now left|]. destruct K1 as (v & d & _ & _ & EK). rewrite EK in X2. unfold cell_content, content_with in X2. destruct (c_extra x); now injection X2.
      * destruct (I1 q y J) as ((d & J') & O). split; [exists d; now right|exact O].
    + intros q d [J|J].
      * injection J as <- <-. exists K. split; [exact K1|]. right. split; [exact Z|]. exists x. split; [now left|exact X2].
      * destruct (I2 q d J) as (K' & R' & [(Z' & N)|(Z' & y & Y1 & Y2)]).
        { exists K'. split; [exact R'|]. left. split; [exact Z'|]. intros y [J'|J']; [|exact (N y J')]. injection J' as E _. apply (Ne q d J). congruence. }
        { exists K'. split; [exact R'|]. right. split; [exact Z'|]. exists y. split; [now right|exact Y2]. }
Qed.

Lemma no_default (m : hmap colattr) k : om_sorted N.ltb m -> ends_ok m -> cov m k = None -> dflt_at m k = None.
Proof.
  intros S U E. unfold dflt_at. rewrite valid_header_cov by assumption. unfold cov in E. destruct (om_floor k m) as [[b h]|]; [|reflexivity].
  destruct (k <? b + h_span h); [discriminate|reflexivity].
Qed.

(** The table that is read. *)
Lemma sheet_read lb ign ds name m cs : om_sorted pltb m -> Forall cell_good m -> write_sheet ds (sheet_of name m) = Ok cs ->
  exists t, table_through lb ign ds (sheet_of name m) = Ok t /\ tb_name t = name /\ back lb ign ds m (tb_cells t).
Proof.
  intros S G H. pose proof (of_ok name m S G) as O.
  destruct (table_back lb ign ds (sheet_of name m) cs (fun _ => True) (fun _ x => x = None) H O (of_header name m) (of_cols name m))
    as (t & hs & T & Eh & Ec & Sp & _ & _ & Dc & (C & mx & _ & _ & Q1 & Q2) & Hd & _ & _); auto.
  exists t. split; [exact T|]. split; [symmetry; apply Hd|]. rewrite Ec. apply back_cells; [|exact S|exact G|now apply whole_pieces; [| |apply of_whole]].
  intros k. destruct Dc as (Sc & Uc & _). apply no_default; [exact Sc|exact Uc|]. destruct (N.lt_ge_cases k C); auto.
Qed.

Lemma same_in (a b : cells) : om_sorted pltb a -> om_sorted pltb b -> (forall p c, In (p, c) a <-> In (p, c) b) -> a = b.
Proof.
  intros Sa Sb E. apply (sorted_ext pltb pltb_order); [exact Sa|exact Sb|]. intros p. destruct (om_get pltb p a) as [c|] eqn:Ea.
  - apply (get_in pltb pltb_order) in Ea; [|exact Sa]. apply E in Ea. symmetry. now apply (get_in pltb pltb_order).
  - destruct (om_get pltb p b) as [c|] eqn:Eb; [|reflexivity]. apply (get_in pltb pltb_order) in Eb; [|exact Sb]. apply E in Eb.
    apply (get_in pltb pltb_order) in Eb; [congruence|exact Sa].
Qed.
Lemma copy_once d k : c_repeat d = 1 -> copy_of d k -> k = d.
Proof. intros R (E1 & E2 & E3 & E4 & E5). rewrite R in E5. destruct d, k. cbn in *. subst. reflexivity. Qed.

(** The calculations after reading leave such cells alone. *)
Lemma calc_read lb ign rep ds name m cs t : om_sorted pltb m -> Forall cell_good m -> write_sheet ds (sheet_of name m) = Ok cs ->
  table_through lb ign ds (sheet_of name m) = Ok t -> forall t', calculations rep t = Ok t' ->
  tb_name t' = tb_name t /\ tb_cells t' = tb_cells t.
Proof.
  intros S G H T t' E. pose proof (of_ok name m S G) as O. destruct (of_few name m false) as [X|Few]; [discriminate|].
  destruct (through_apart lb ign ds (sheet_of name m) cs H O (of_header name m) (of_cols name m) Few) as (t1 & T1 & Sr & Sc & Ap & Dc & St & _).
  rewrite T in T1. injection T1 as <-. destruct (sheet_read lb ign ds name m cs S G H) as (t2 & T2 & _ & (B & _)). rewrite T in T2. injection T2 as <-.
  unfold calculations in E. apply bind_ok in E as (cols & Ed & E).
  assert (Once : forall p c, In (p, c) (tb_cells t) -> c_repeat c = 1) by (intros p c J; apply (B p c J)).
  assert (Left : forall r k c, In ((r, k), c) (tb_cells t) -> ~ left_out (tb_cells t) r k c) by (intros r k c J (L & _); rewrite (Once _ _ J) in L; lia).
  destruct rep.
  - injection E as <-. split; [reflexivity|]. pose proof (C41_repeats (put_cols cols t) Sc) as R. cbn [put_cols tb_cells] in R.
    apply same_in; [|exact Sc|].
    + unfold calc_repeat. cbn [put_cells tb_cells put_cols]. unfold remove_all. clear - Sc. revert Sc. generalize (tb_cells t) at 1 3 as y. generalize (cells_dropped (tb_cells t)). induction l as [|p l IH]; intros y Sy; [exact Sy|].
      cbn [fold_left]. apply IH. now apply (sorted_remove pltb).
    + intros [r k] c. split; [intros J; apply R in J; apply J|]. intros J. apply R. split; [exact J|exact (Left r k c J)].
  - destruct (cloned_cells (put_cols cols t) Sr Sc Ap) as (m' & E' & S' & I'). rewrite E' in E. injection E as <-. split; [reflexivity|]. cbn [put_cells put_rows put_cols tb_cells tb_rows] in *.
    apply same_in; [exact S'|exact Sc|]. intros [r k] c. rewrite I'. split.
    + intros (r0 & c0 & d & J & V & L & Cp & _). pose proof (Once _ _ J) as R. rewrite R in L. apply (St r0 1) in V; [|now exists c0, d|right; split; [intros h []|reflexivity]]. cbn [fst snd] in *.
      rewrite (copy_once d c R Cp). replace r with r0 by lia. replace k with c0 by lia. exact J.
    + intros J. pose proof (Once _ _ J) as R. exists r, k, c. cbn [fst snd]. split; [exact J|]. split; [now left|]. split; [lia|]. split; [|exact (Left r k c J)].
      repeat split. rewrite R. reflexivity.
Qed.

(** ** What is reported *)

Lemma back_view lb ign ds m out : om_sorted pltb m -> om_sorted pltb out -> back lb ign ds m out -> forall p, reads_back lb ign ds (view_of p m) (view_of p out).
Proof.
  intros Sm So (B1 & B2) p. rewrite (view_of_cell p m). unfold sh_cell. destruct (om_get pltb p m) as [c|] eqn:E.
  - apply (get_in pltb pltb_order) in E; [|exact Sm]. destruct (B2 p c E) as (K & R & [(Z & N)|(Z & x & J & X)]); unfold reads_back; cbn [v_present cell_view];
      exists (view_content K); (split; [now apply read_found|]); rewrite view_of_cell; unfold sh_cell.
    + left. split; [now apply stored_none|]. destruct (om_get pltb p out) as [y|] eqn:Eo; [|reflexivity]. apply (get_in pltb pltb_order) in Eo; [|exact So]. elim (N y Eo).
    + right. split; [intros Y; apply Z; now apply stored_none|]. apply (get_in pltb pltb_order) in J; [|exact So]. rewrite J, <- X. symmetry. apply content_view.
  - unfold reads_back. cbn [v_present view_blank]. rewrite view_of_cell. unfold sh_cell. destruct (om_get pltb p out) as [y|] eqn:Eo; [|reflexivity].
    apply (get_in pltb pltb_order) in Eo; [|exact So]. destruct (B1 p y Eo) as ((c & J) & _). apply (get_in pltb pltb_order) in J; [congruence|exact Sm].
Qed.

Lemma value_same lb v u : value_plain v -> value_after lb v u -> u = v.
Proof.
  destruct v; cbn [value_plain value_after]; intros P A; try exact A; [|contradiction].
  destruct A as (ls & (N & F & <-) & ->). destruct ls as [|x [|y l]]; [contradiction| |].
  { cbn [join] in *. destruct x as [|a x]; [destruct P as (P & _); contradiction|reflexivity]. }
  exfalso. apply P. cbn [join]. apply in_or_app. right. now left.
Qed.
Lemma found_same lb ds v u : view_plain v -> v_present v = true -> v_repeat v = 1 -> found_again lb ds v u ->
  u = View true (v_value v) (v_formula v) (match v_style v with Some s => Some s | None => ds (value_type (v_value v)) end) 1 (v_validation v)
        (v_row_span v) (v_col_span v) (v_mrow_span v) (v_mcol_span v) (v_annotation v) (v_frames v).
Proof.
  intros (P1 & P2 & P3) Pr R (F1 & F2 & F3 & F4 & F5 & F6 & F7 & F8 & F9 & F10 & F11 & F12). destruct u as [u1 u2 u3 u4 u5 u6 u7 u8 u9 u10 u11 u12].
  cbn [v_present v_value v_formula v_style v_repeat v_validation v_row_span v_col_span v_mrow_span v_mcol_span v_annotation v_frames] in F1, F2, F3, F4, F5, F6, F7, F8, F9, F10, F11, F12.
  subst. f_equal.
  - exact (value_same lb _ _ P1 F2).
  - destruct (v_annotation v) as [a|], u11 as [b|]; try contradiction; [|reflexivity]. f_equal. apply F11. now apply P2.
  - clear - P3 F12. induction F12 as [|f g l l' (_ & X) _ IH]; [reflexivity|]. inversion P3; subst. f_equal; auto.
Qed.

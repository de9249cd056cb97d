(** Properties of row and column headers and of groups. *)
From Verif Require Import Base Lib OMap OMapProofs HeaderModel HeaderSpec HeaderProofs HeaderCuts.

(** * C18: column attributes *)

(** Fresh sheets: after any calls no column reports anything but its own last settings. *)
Theorem C18_history ops :
  Forall (fun co => u32 (fst co)) ops ->
  exists m, run_cols ops [] = Ok m /\
    forall c, c < u32_max ->
      colstyle c m = Ok (last_set cs_style ops c None)
      /\ col_cellstyle c m = Ok (last_set cs_cellstyle ops c None)
      /\ col_visible c m = Ok (last_set cs_visible ops c Visible)
      /\ col_width c m = Ok (last_set cs_width ops c None).
Proof.
  intros U. destruct (run_cols_report ops U) as [m [E R]]. exists m. split; [exact E|].
  intros c L. unfold colstyle, col_cellstyle, col_visible, col_width.
  repeat split; apply R; try assumption; try reflexivity; intros [] a; reflexivity.
Qed.
Example C18_history_ex :
  exists m, run_cols [(3, SetColStyle (Some (lit "A"))); (4, SetColVisible Collapsed); (3, SetColWidth (Some (lit "2cm")));
                      (3, SetColStyle None); (2, SetColStyle (Some (lit "B")))] [] = Ok m
    /\ colstyle 2 m = Ok (Some (lit "B")) /\ colstyle 3 m = Ok None /\ col_width 3 m = Ok (Some (lit "2cm"))
    /\ col_visible 4 m = Ok Collapsed /\ col_visible 5 m = Ok Visible.
Proof. eexists. split; [vm_compute; reflexivity|]. vm_compute. repeat split. Qed.

(** Column [u32::MAX]: the getters overflow as soon as anything was set for it. *)
Theorem C18_top_column_panics ops :
  Forall (fun co => u32 (fst co)) ops -> touched ops u32_max ->
  exists m, run_cols ops [] = Ok m /\ colstyle u32_max m = Panic.
Proof.
  intros U T. destruct (run_cols_top ops U T) as [m [E P]]. exists m. split; [exact E|].
  unfold colstyle, col_report. rewrite P. reflexivity.
Qed.
Theorem C18_top_column_refuted : exists c o m,
  u32 c /\ run_cols [(c, o)] [] = Ok m /\ colstyle c m <> Ok (last_set cs_style [(c, o)] c None).
Proof.
  exists u32_max, (SetColStyle (Some (lit "A"))). eexists. split; [unfold u32; lia|]. split; [vm_compute; reflexivity|].
  vm_compute. discriminate.
Qed.

(** Any non-overlapping header map, e.g. one read from a file with repeated columns:
    if the column is not the last one of a wider header, every other column is untouched. *)
Theorem C18_other_columns c o m :
  disjoint m -> wide m -> c < u32_max ->
  (forall b h, header_for m c b h -> c + h_span h <= u32_max) ->
  ~ (exists b h, header_for m c b h /\ 1 < h_span h /\ c + 1 = b + h_span h) ->
  exists m', set_col c o m = Ok m'
    /\ (forall k, k <> c -> forall B (fld : colattr -> B) d, col_report fld d k m' = col_report fld d k m)
    /\ (forall B (fld : colattr -> B) d a, seen_or colattr0 m c a -> col_report fld d c m' = Ok (fld (col_edit o a))).
Proof.
  intros D W L Hs N. destruct (set_col_step colattr0 c (col_edit o) m D W L) as [m' [E C]].
  pose proof D as [S [U _]]. destruct (set_col_ends _ _ _ _ _ D L Hs E) as [S' U'].
  exists m'. split; [exact E|]. split.
  - intros k Hk B fld d. rewrite !col_report_cov by assumption. rewrite C.
    destruct (k =? c) eqn:X; [lia|]. destruct (reach m c k) eqn:Y; [|reflexivity].
    exfalso. apply N. unfold reach in Y. destruct (om_floor c m) as [[b h]|] eqn:F; [|discriminate].
    exists b, h. rewrite !andb_true_iff in Y. split; [|lia]. apply header_for_floor; [exact S|]. split; [exact F|lia].
  - intros B fld d a Ha. rewrite col_report_cov by assumption. rewrite C, N.eqb_refl.
    rewrite (seen_or_cov _ _ _ _ S Ha). reflexivity.
Qed.
Definition repeated_cols : hmap colattr := [(2, mkHdr (mkColAttr (Some (lit "A")) None Visible None) 4)].
Example C18_other_columns_ex :
  exists m, set_col 3 (SetColVisible Collapsed) repeated_cols = Ok m
    /\ map (fun k => col_visible k m) [1; 2; 3; 4; 5; 6] = map Ok [Visible; Visible; Collapsed; Visible; Visible; Visible]
    /\ map (fun k => colstyle k m) [1; 2; 3; 4; 5; 6]
       = map Ok [None; Some (lit "A"); Some (lit "A"); Some (lit "A"); Some (lit "A"); None].
Proof. eexists. split; [vm_compute; reflexivity|]. vm_compute. repeat split. Qed.

(** The exception is real: the last column of a repeated header keeps the header's span, so
    the setting also appears on the columns behind it. *)
Theorem C18_last_column_refuted : exists c o m m' k,
  disjoint m /\ wide m /\ set_col c o m = Ok m' /\ k <> c /\ col_visible k m' <> col_visible k m.
Proof.
  exists 5, (SetColVisible Collapsed), repeated_cols. eexists. exists 6.
  split; [|split; [|split; [vm_compute; reflexivity|split; [lia|vm_compute; discriminate]]]].
  - split; [cbn; repeat constructor|]. split.
    + intros b h [H|[]]. injection H as <- <-. cbn. unfold u32_max. lia.
    + intros b h b' h' [H|[]] [H'|[]] X. injection H as <- <-. injection H' as <- <-. lia.
  - intros b h [H|[]]. injection H as <- <-. cbn. lia.
Qed.
(** Setting two attributes of the same column of a repeated header: the second call copies
    the first setting to the columns to the right, here over the one of column 4. *)
Theorem C18_second_set_refuted : exists m1 m2 m3,
  set_col 4 (SetColStyle (Some (lit "B"))) repeated_cols = Ok m1
  /\ set_col 3 (SetColStyle (Some (lit "C"))) m1 = Ok m2
  /\ set_col 3 (SetColVisible Collapsed) m2 = Ok m3
  /\ colstyle 4 m2 = Ok (Some (lit "B")) /\ colstyle 4 m3 = Ok (Some (lit "C")).
Proof.
  do 3 eexists. split; [vm_compute; reflexivity|]. split; [vm_compute; reflexivity|].
  split; [vm_compute; reflexivity|]. vm_compute. split; reflexivity.
Qed.

(** Collapsing a group of columns hides exactly the columns of the group. *)
Theorem C47_col_group_display ops gs f t d :
  Forall (fun co => u32 (fst co)) ops -> f <= t -> t < u32_max -> existsb (same_range f t) gs = true ->
  exists m m', run_cols ops [] = Ok m /\ set_col_group_displayed f t d (gs, m) = Ok (flag_group f t d gs, m')
    /\ forall c, c < u32_max ->
         col_visible c m' = (if (f <=? c) && (c <=? t) then Ok (shown d) else col_visible c m)
         /\ colstyle c m' = colstyle c m /\ col_cellstyle c m' = col_cellstyle c m /\ col_width c m' = col_width c m.
Proof.
  intros U L1 L2 X. destruct (C18_history ops U) as [m [E R]].
  set (vs := map (fun c => (c, SetColVisible (shown d))) (through f t)).
  assert (Up : forall n a c, In c (upto n a) <-> a <= c < a + N.of_nat n).
  { induction n as [|n IH]; intros a c; cbn [upto In]; [lia|]. rewrite IH. lia. }
  assert (Th : forall c, In c (through f t) <-> f <= c <= t).
  { intros c. unfold through. destruct (f <=? t) eqn:Y; [|lia]. rewrite Up. lia. }
  assert (Uv : Forall (fun co => u32 (fst co)) (ops ++ vs)).
  { apply Forall_app. split; [exact U|]. apply Forall_forall. intros [c o] I. unfold vs in I. apply in_map_iff in I.
    destruct I as [c' [I1 I2]]. assert (c = c') by congruence. subst. apply Th in I2. unfold u32. cbn. lia. }
  assert (Ra : forall a b q, run_cols (a ++ b) q = bind (run_cols a q) (run_cols b)).
  { induction a as [|[c o] a IH]; intros b q; [reflexivity|]. cbn [app run_cols].
    destruct (set_col c o q); cbn [bind]; [apply IH|reflexivity|reflexivity]. }
  destruct (C18_history _ Uv) as [m' [E' R']]. rewrite Ra, E in E'. cbn [bind] in E'.
  exists m, m'. split; [exact E|]. split.
  { unfold set_col_group_displayed. cbn [fst snd]. rewrite X. fold vs. rewrite E'. reflexivity. }
  assert (La : forall O B (g : O -> option B) a b k x, last_set g (a ++ b) k x = last_set g b k (last_set g a k x)).
  { induction a as [|[c o] a IH]; intros b k x; [reflexivity|]. cbn [app last_set]. apply IH. }
  assert (Lo : forall B (g : col_op -> option B) k x, (forall v, g (SetColVisible v) = None) -> last_set g vs k x = x).
  { intros B g k x H. unfold vs. clear -H. induction (through f t) as [|c r IH]; [reflexivity|]. cbn [map last_set]. rewrite H. exact IH. }
  assert (Lv : forall l k x, last_set cs_visible (map (fun c => (c, SetColVisible (shown d))) l) k x
                = if existsb (N.eqb k) l then shown d else x).
  { induction l as [|c r IH]; intros k x; [reflexivity|]. cbn [map last_set cs_visible existsb]. rewrite IH.
    rewrite (N.eqb_sym c k). destruct (k =? c), (existsb (N.eqb k) r); reflexivity. }
  intros c Hc. destruct (R c Hc) as [R1 [R2 [R3 R4]]]. destruct (R' c Hc) as [Q1 [Q2 [Q3 Q4]]].
  rewrite R1, R2, R3, R4, Q1, Q2, Q3, Q4. rewrite !La.
  rewrite (Lo _ cs_style), (Lo _ cs_cellstyle), (Lo _ cs_width) by reflexivity. unfold vs. rewrite Lv. split; [|repeat split].
  destruct (existsb (N.eqb c) (through f t)) eqn:Y.
  - apply existsb_exists in Y. destruct Y as [c' [I1 I2]]. apply Th in I1. destruct ((f <=? c) && (c <=? t)) eqn:Z; [reflexivity|lia].
  - destruct ((f <=? c) && (c <=? t)) eqn:Z; [|reflexivity].
    exfalso. assert (existsb (N.eqb c) (through f t) = true); [|congruence].
    apply existsb_exists. exists c. split; [apply Th; lia|lia].
Qed.
Example C47_col_group_display_ex :
  exists m s, run_cols [(2, SetColStyle (Some (lit "A")))] [] = Ok m
    /\ set_col_group_displayed 1 3 false ([mkGrp 1 3 true], m) = Ok s
    /\ map (fun k => col_visible k (snd s)) [0; 1; 2; 3; 4] = map Ok [Visible; Collapsed; Collapsed; Collapsed; Visible]
    /\ colstyle 2 (snd s) = Ok (Some (lit "A")).
Proof. do 2 eexists. split; [vm_compute; reflexivity|]. split; [vm_compute; reflexivity|]. vm_compute. split; reflexivity. Qed.
(** For rows this fails: collapsing rows 0-1 removes the style of row 1. *)
Theorem C47_row_group_display_refuted : exists ops gs f t d m s r,
  run_rows ops [] = Ok m /\ existsb (same_range f t) gs = true
  /\ set_row_group_displayed f t d (gs, m) = Ok s /\ rowstyle r (snd s) <> rowstyle r m.
Proof.
  exists [(0, SetRowStyle (Some (lit "A"))); (1, SetRowStyle (Some (lit "B")))], [mkGrp 0 1 true], 0, 1, false.
  do 2 eexists. exists 1. split; [vm_compute; reflexivity|]. split; [reflexivity|]. split; [vm_compute; reflexivity|].
  vm_compute. discriminate.
Qed.

(** * C19: row attributes *)

(** One call, any non-overlapping header map.  Row [r] gets the new value and keeps its other
    attributes.  All other rows are untouched, except that if [r] is the last row of its
    header, the rows of the header starting at [r + 1] lose theirs. *)
Theorem C19_step r o m :
  disjoint m -> r < u32_max -> row_op_asserts o = true ->
  exists m', set_row r o m = Ok m' /\ disjoint m'
    /\ (forall B (fld : rowattr -> B) d a, seen_or rowattr0 m r a -> row_report fld d r m' = Ok (fld (row_edit o a)))
    /\ (forall k, k <> r ->
          ~ (exists b h, header_for m r b h /\ r + 1 = b + h_span h /\ exists h', header_for m k (r + 1) h') ->
          forall B (fld : rowattr -> B) d, row_report fld d k m' = row_report fld d k m)
    /\ (forall k, k <> r ->
          (exists b h, header_for m r b h /\ r + 1 = b + h_span h /\ exists h', header_for m k (r + 1) h') ->
          forall B (fld : rowattr -> B) d, row_report fld d k m' = Ok d).
Proof.
  intros D L A. destruct (set_row_step rowattr0 r (row_edit o) m D L) as [m' [E [D' C]]].
  pose proof D as [S _]. exists m'. split; [unfold set_row; rewrite A; exact E|]. split; [exact D'|].
  split; [|split].
  - intros B fld d a Ha. rewrite row_report_cov by exact D'. rewrite C, N.eqb_refl. rewrite (seen_or_cov _ _ _ _ S Ha). reflexivity.
  - intros k Hk N B fld d. rewrite !row_report_cov by assumption. rewrite C. destruct (k =? r) eqn:X; [lia|].
    destruct (from_next m r k && last_row m r) eqn:Y; [|reflexivity].
    apply andb_prop in Y. destruct Y as [Y1 Y2]. unfold from_next in Y1. unfold last_row in Y2. unfold cov.
    destruct (om_floor k m) as [[b1 h1]|] eqn:F1; [|discriminate]. destruct (om_floor r m) as [[b h]|] eqn:F; [|discriminate].
    destruct (k <? b1 + h_span h1) eqn:Z; [|reflexivity]. exfalso. apply N. exists b, h.
    split; [apply header_for_floor; [exact S|split; [exact F|lia]]|]. split; [lia|]. exists h1.
    apply header_for_floor; [exact S|]. assert (b1 = r + 1) by lia. subst b1. split; [exact F1|lia].
  - intros k Hk [b [h [Hf [He [h' Hn]]]]] B fld d. rewrite row_report_cov by assumption. rewrite C.
    destruct (k =? r) eqn:X; [lia|]. apply header_for_floor in Hf; [|exact S]. apply header_for_floor in Hn; [|exact S].
    unfold from_next, last_row. rewrite (proj1 Hf), (proj1 Hn). rewrite N.eqb_refl. destruct (r + 1 =? b + h_span h) eqn:Y; [reflexivity|lia].
Qed.
Example C19_step_ex :
  exists m, set_row 3 (SetRowHeight (Some (lit "1cm"))) [(2, mkHdr (mkRowAttr (Some (lit "A")) None Visible 1 None) 4)] = Ok m
    /\ map (fun k => rowstyle k m) [1; 2; 3; 4; 5; 6]
       = map Ok [None; Some (lit "A"); Some (lit "A"); Some (lit "A"); Some (lit "A"); None]
    /\ map (fun k => row_height k m) [2; 3; 4] = map Ok [None; Some (lit "1cm"); None].
Proof. eexists. split; [vm_compute; reflexivity|]. vm_compute. split; reflexivity. Qed.

(** Histories on a fresh sheet that never return to an earlier row behave as expected. *)
Theorem C19_forward_history ops :
  forward 0 ops -> Forall (fun co => fst co < u32_max /\ row_op_asserts (snd co) = true) ops ->
  exists m, run_rows ops [] = Ok m /\ disjoint m /\
    forall r, rowstyle r m = Ok (last_set rs_style ops r None)
      /\ row_cellstyle r m = Ok (last_set rs_cellstyle ops r None)
      /\ row_visible r m = Ok (last_set rs_visible ops r Visible)
      /\ row_height r m = Ok (last_set rs_height ops r None)
      /\ (touched ops r -> row_repeat r m = Ok (last_set rs_repeat ops r 1))
      /\ (~ touched ops r -> row_repeat r m = Ok 0).
Proof.
  intros F U. destruct (run_rows_forward ops 0 [] disjoint_nil) as [m [E [D C]]]; [reflexivity|exact F|exact U|].
  exists m. split; [exact E|]. split; [exact D|]. intros r.
  assert (G : forall B (g : row_op -> option B) (fld : rowattr -> B) d,
    (forall o a, fld (row_edit o a) = match g o with Some b => b | None => fld a end) -> d = fld rowattr0 ->
    row_report fld d r m = Ok (last_set g ops r d)).
  { intros B g fld d H ->. rewrite row_report_cov by exact D. rewrite C. destruct (touchedb ops r) eqn:T.
    - f_equal. symmetry. apply (last_set_row g fld H).
    - rewrite last_set_untouched by exact T. reflexivity. }
  unfold rowstyle, row_cellstyle, row_visible, row_height.
  split; [|split; [|split; [|split; [|split]]]]; try (apply G; [intros [] a; reflexivity|reflexivity]).
  - intros T. unfold row_repeat. rewrite row_report_cov by exact D. rewrite C. rewrite (proj2 (touchedb_spec _ _) T).
    f_equal. symmetry. change 1 with (ra_repeat rowattr0). apply (last_set_row rs_repeat ra_repeat). intros [] a; reflexivity.
  - intros T. unfold row_repeat. rewrite row_report_cov by exact D. rewrite C. destruct (touchedb ops r) eqn:X; [|reflexivity].
    apply touchedb_spec in X. contradiction.
Qed.
Example C19_forward_history_ex :
  exists m, run_rows [(1, SetRowStyle (Some (lit "A"))); (1, SetRowHeight (Some (lit "1cm"))); (2, SetRowStyle (Some (lit "B")));
                      (2, SetRowRepeat 3); (7, SetRowVisible Filtered)] [] = Ok m
    /\ map (fun k => rowstyle k m) [0; 1; 2; 3] = map Ok [None; Some (lit "A"); Some (lit "B"); None]
    /\ map (fun k => row_repeat k m) [1; 2; 3] = map Ok [1; 3; 0] /\ row_visible 7 m = Ok Filtered.
Proof. eexists. split; [vm_compute; reflexivity|]. vm_compute. repeat split. Qed.

(** Going back is not safe: a second attribute for row 0 removes the header of row 1. *)
Theorem C19_refuted : exists ops r o k m m',
  run_rows ops [] = Ok m /\ set_row r o m = Ok m' /\ k <> r
  /\ rowstyle k m = Ok (Some (lit "B")) /\ rowstyle k m' = Ok None.
Proof.
  exists [(0, SetRowStyle (Some (lit "A"))); (1, SetRowStyle (Some (lit "B")))], 0, (SetRowHeight (Some (lit "1cm"))), 1.
  do 2 eexists. split; [vm_compute; reflexivity|]. split; [vm_compute; reflexivity|].
  split; [lia|]. vm_compute. split; reflexivity.
Qed.

(** * C21: groups *)
Theorem C21_groups_nested ops gs :
  run_grps ops [] = Ok gs -> laminar gs.
Proof.
  intros H. apply (run_grps_laminar ops [] gs); [|exact H]. apply laminar_in. split; [intros ? []|intros ? ? []].
Qed.
Theorem C21_add_panics_iff from to gs :
  laminar gs ->
  (add_group from to gs = Panic <-> ~ laminar (gs ++ [mkGrp from to true]))
  /\ (add_group from to gs <> Panic -> add_group from to gs = Ok (gs ++ [mkGrp from to true])).
Proof.
  intros L. pose proof (proj1 (laminar_in _) L) as [V N].
  destruct (add_group_iff from to gs V) as [[E [Hl Hn]]|[E Hn]]; rewrite E.
  - split; [|reflexivity]. split; [discriminate|]. intros H. exfalso. apply H. apply (apply_grp_laminar (GAdd from to) gs); assumption.
  - split; [|congruence]. split; [|reflexivity]. intros _ H. apply Hn. apply laminar_in in H. destruct H as [H1 H2].
    split; [apply (H1 (mkGrp from to true)); apply in_app_iff; right; left; reflexivity|].
    intros g I. apply H2; apply in_app_iff; [right; left; reflexivity|left; exact I].
Qed.
Theorem C21_remove_exact from to gs :
  (forall g, In g gs -> same_range from to g = false) /\ remove_group from to gs = gs
  \/ exists a g b, gs = a ++ g :: b /\ g_from g = from /\ g_to g = to
       /\ (forall x, In x a -> ~ (g_from x = from /\ g_to x = to)) /\ remove_group from to gs = a ++ b.
Proof.
  induction gs as [|x r IH]; [left; split; [intros ? []|reflexivity]|]. cbn [remove_group].
  destruct (same_range from to x) eqn:E.
  - right. exists [], x, r. unfold same_range in E. apply andb_prop in E. repeat split; try lia. intros ? [].
  - destruct IH as [[H1 H2]|[a [g [b [H1 [H2 [H3 [H4 H5]]]]]]]].
    + left. split; [intros g [<-|I]; [exact E|auto]|]. congruence.
    + right. exists (x :: a), g, b. split; [cbn; congruence|]. split; [exact H2|]. split; [exact H3|].
      split; [|cbn; congruence]. intros y [<-|I]; [unfold same_range in E; lia|auto].
Qed.
Example C21_ex :
  exists gs, run_grps [GAdd 2 9; GAdd 3 5; GAdd 7 8; GRemove 3 5; GAdd 3 3; GDisplay 7 8 false] [] = Ok gs
    /\ gs = [mkGrp 2 9 true; mkGrp 7 8 false; mkGrp 3 3 true] /\ add_group 8 10 gs = Panic /\ add_group 5 4 gs = Panic.
Proof. eexists. split; [vm_compute; reflexivity|]. vm_compute. repeat split. Qed.

Print Assumptions C18_history.
Print Assumptions C18_top_column_panics.
Print Assumptions C18_top_column_refuted.
Print Assumptions C18_other_columns.
Print Assumptions C18_last_column_refuted.
Print Assumptions C18_second_set_refuted.
Print Assumptions C47_col_group_display.
Print Assumptions C47_row_group_display_refuted.
Print Assumptions C19_step.
Print Assumptions C19_forward_history.
Print Assumptions C19_refuted.
Print Assumptions C21_groups_nested.
Print Assumptions C21_add_panics_iff.
Print Assumptions C21_remove_exact.

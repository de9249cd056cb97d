(** C13-C17, C46: the cell map of a sheet. *)
From Verif Require Import Base Lib OMap OMapProofs XmlModel CellModel CellSpec CellProofs ColsProofs.

(** A sheet used in the examples below. *)
Definition ex_ops : list (pos * cell_op) :=
  [ ((2, 3), SetValue (VText (lit "a"))); ((0, 1), SetFormula (lit "of:=1+1"));
    ((2, 3), SetStyle (lit "ce1")); ((2, 3), SetRowSpan 2);
    ((5, 0), SetStyled (VNumber (lit "1.5")) (lit "ce2")); ((2, 3), ClearStyle);
    ((0, 1), RemoveCell); ((2, 3), AddFrame (DFrame (Some (lit "t")) None [] [])) ].

(** ** C13 *)
Theorem C13_sheet_is_map : forall ops m m' p, om_sorted pltb m -> run_ops ops m = Ok m' ->
  om_sorted pltb m' /\ view_of p m' = view_expected (view_of p m) (at_pos p ops).
Proof. intros ops m m' p Hs H. split; [eapply run_sorted; eauto|now apply run_view]. Qed.

Theorem C13_new_sheet : forall ops m p, run_ops ops [] = Ok m -> view_of p m = view_expected view_blank (at_pos p ops).
Proof. intros ops m p H. exact (run_view ops [] m p I H). Qed.

Example C13_ex : exists m, run_ops ex_ops [] = Ok m /\ length m = 2%nat /\
  view_of (2, 3) m = View true (VText (lit "a")) None None 1 None 2 1 1 1 None [DFrame (Some (lit "t")) None [] []] /\
  view_of (0, 1) m = view_blank.
Proof. eexists. split; [vm_compute; reflexivity|]. vm_compute. repeat split. Qed.

(** An operation leaves the other cells alone, and in its own cell the aspects it does not write. *)
Theorem C13_frame : forall p o m m' q, om_sorted pltb m -> apply_op p o m = Ok m' ->
  (q <> p -> view_of q m' = view_of q m) /\
  (w_value o = None -> sh_value q m' = sh_value q m) /\
  (w_formula o = None -> sh_formula q m' = sh_formula q m) /\
  (w_style o = None -> sh_style q m' = sh_style q m) /\
  (w_repeat o = None -> sh_repeat q m' = sh_repeat q m) /\
  (w_validation o = None -> sh_validation q m' = sh_validation q m) /\
  (w_row_span o = None -> sh_row_span q m' = sh_row_span q m) /\
  (w_col_span o = None -> sh_col_span q m' = sh_col_span q m) /\
  (w_mrow_span o = None -> sh_mrow_span q m' = sh_mrow_span q m) /\
  (w_mcol_span o = None -> sh_mcol_span q m' = sh_mcol_span q m) /\
  (w_annotation o = None -> sh_annotation q m' = sh_annotation q m).
Proof.
  intros p o m m' q Hs H.
  assert (V : view_of q m' = view_expected (view_of q m) (at_pos q [(p, o)])) by (apply run_view; [assumption|cbn; now rewrite H]).
  assert (N0 : q <> p -> view_of q m' = view_of q m) by (intros; apply view_of_ext; eapply apply_other; eauto).
  split; [exact N0|]. rewrite at_pos_cons in V. destruct (pos_eqb p q) eqn:E.
  - change (at_pos q []) with (@nil cell_op) in V.
    unfold view_expected in V. rewrite !last_write_cons, !last_write_nil in V.
    unfold view_of in V. cbn [v_present v_value v_formula v_style v_repeat v_validation v_row_span v_col_span v_mrow_span v_mcol_span v_annotation v_frames] in V.
    inversion V as [[E0 E1 E2 E3 E4 E5 E6 E7 E8 E9 E10 E11]].
    repeat split; intros W; rewrite W in *; congruence.
  - assert (Hne : q <> p) by (intros ->; assert (pos_eqb p p = true) by (now apply pos_eqb_eq); congruence).
    specialize (N0 Hne). unfold view_of in N0. inversion N0. repeat split; intros; congruence.
Qed.

Example C13_frame_ex : w_value (SetStyle (lit "ce1")) = None /\
  exists m', apply_op (2, 3) (SetStyle (lit "ce1")) [((2, 3), Cell (VBool true) None None 1 None)] = Ok m' /\
    sh_value (2, 3) m' = VBool true /\ sh_style (2, 3) m' = Some (lit "ce1").
Proof. vm_compute. split; [reflexivity|]. eexists. repeat split. Qed.

(** The operations panic exactly if a span of zero is asked for; they return no error. *)
Theorem C13_total : forall ops m,
  (Exists (fun po => zero_span (snd po)) ops -> run_ops ops m = Panic) /\
  (~ Exists (fun po => zero_span (snd po)) ops -> exists m', run_ops ops m = Ok m').
Proof. exact run_outcome. Qed.

Example C13_total_ex : run_ops [((0, 0), SetValue (VBool true)); ((1, 1), SetMColSpan 0)] [] = Panic.
Proof. reflexivity. Qed.

(** ** C14 *)
Theorem C14_copy : forall p q m m' k, om_sorted pltb m -> sh_content p m = Some k -> apply_op q (AddCell k) m = Ok m' ->
  view_of q m' = view_of p m /\ sh_content q m' = Some k /\ (forall x, x <> q -> sh_cell x m' = sh_cell x m).
Proof.
  intros p q m m' k Hs Hk H. assert (Ha := H). cbn in H. assert (m' = om_insert pltb q (content_cell k) m) by congruence.
  subst. unfold sh_content in *. destruct (sh_cell p m) as [c|] eqn:E; [|discriminate]. cbn in Hk.
  assert (k = cell_content c) by congruence. subst k.
  assert (G : sh_cell q (om_insert pltb q (content_cell (cell_content c)) m) = Some (content_cell (cell_content c)))
    by (apply (get_insert_same pltb pltb_order)).
  split; [|split].
  - rewrite !view_of_cell, G, E, content_cell_view. apply content_view.
  - rewrite G. cbn. f_equal. apply content_cell_content.
  - intros x Hx. eapply apply_other; eauto.
Qed.

Theorem C14_add_any : forall q m k, om_sorted pltb m ->
  exists m', apply_op q (AddCell k) m = Ok m' /\ view_of q m' = view_content k /\ sh_content q m' = Some k.
Proof.
  intros q m k Hs. eexists. split; [reflexivity|]. rewrite view_of_cell. unfold sh_content, sh_cell.
  rewrite (get_insert_same pltb pltb_order). split; [apply content_cell_view|]. cbn. f_equal. apply content_cell_content.
Qed.

Theorem C14_remove : forall p m k m', om_sorted pltb m -> remove_cell p m = (k, m') ->
  k = sh_content p m /\ apply_op p RemoveCell m = Ok m' /\ view_of p m' = view_blank /\ sh_content p m' = None /\
  (forall x, x <> p -> sh_cell x m' = sh_cell x m).
Proof.
  intros p m k m' Hs H. unfold remove_cell in H. inversion H; subst. split; [reflexivity|]. split; [reflexivity|].
  assert (G : sh_cell p (om_remove pltb p m) = None) by (now apply (get_remove_same pltb pltb_order)).
  rewrite view_of_cell. unfold sh_content. rewrite G. split; [reflexivity|split; [reflexivity|]].
  intros x Hx. now apply (get_remove_other pltb pltb_order).
Qed.

(** All three ways of reading a cell's content agree with the single getters. *)
Theorem C14_read : forall p m,
  match sh_content p m with Some k => view_content k | None => view_blank end = view_of p m /\
  match sh_ref p m with Some r => view_ref r | None => view_blank end = view_of p m /\
  option_map ref_to_owned (sh_ref p m) = sh_content p m.
Proof.
  intros p m. rewrite view_of_cell. unfold sh_content, sh_ref. destruct (sh_cell p m) as [c|]; cbn; [|auto].
  rewrite content_view, ref_view, ref_owned. auto.
Qed.

Example C14_ex : exists m m2, run_ops ex_ops [] = Ok m /\
  exists k, sh_content (2, 3) m = Some k /\ apply_op (9, 9) (AddCell k) m = Ok m2 /\
  view_of (9, 9) m2 = View true (VText (lit "a")) None None 1 None 2 1 1 1 None [DFrame (Some (lit "t")) None [] []] /\
  length m2 = 3%nat /\ fst (remove_cell (9, 9) m2) = Some k /\ snd (remove_cell (9, 9) m2) = m.
Proof. do 2 eexists. split; [vm_compute; reflexivity|]. eexists. split; [vm_compute; reflexivity|]. split; [vm_compute; reflexivity|]. vm_compute. repeat split. Qed.

(** A content made from scratch and added as it is has repeat count 0, which no other
    way of making a cell gives. *)
Theorem C14_new_content_refuted : exists m, run_ops [((0, 0), AddCell content_new)] [] = Ok m /\
  sh_repeat (0, 0) m = 0 /\ sh_repeat (0, 0) [] = 1 /\ sh_repeat (0, 0) (om_insert pltb (0, 0) cell0 []) = 1.
Proof. eexists. split; [vm_compute; reflexivity|]. vm_compute. repeat split. Qed.

(** ** C15 *)
Theorem C15_bounding_box : forall m r c, m <> [] -> used_grid_size m = Ok (r, c) ->
  (forall kv, In kv m -> fst (fst kv) < r /\ snd (fst kv) < c) /\
  (forall r' c', (forall kv, In kv m -> fst (fst kv) < r' /\ snd (fst kv) < c') -> r <= r' /\ c <= c').
Proof.
  intros m r c Hne H. unfold used_grid_size, add32 in H.
  destruct (grid_max_acc m (0, 0)) as (_ & B & C & D). fold (grid_max m) in *. cbn zeta in *.
  destruct (_ <=? _) in H; [|discriminate]. cbn in H. destruct (_ <=? _) in H; [|discriminate]. cbn in H. inversion H; subst.
  split.
  - intros kv Hk. specialize (B kv Hk). lia.
  - intros r' c' Hall. cbn in C, D. destruct m as [|kv0 m]; [congruence|]. pose proof (Hall kv0 (or_introl eq_refl)).
    split.
    + destruct C as [C|(x & X & C)]; [|specialize (Hall x X)]; lia.
    + destruct D as [D|(x & X & D)]; [|specialize (Hall x X)]; lia.
Qed.

Theorem C15_outcome : forall m, cells_u32 m ->
  (used_grid_size m = Panic <-> exists kv, In kv m /\ (fst (fst kv) = u32_max \/ snd (fst kv) = u32_max)) /\
  used_grid_size m <> Err.
Proof.
  intros m Hu. unfold cells_u32, u32 in Hu. rewrite Forall_forall in Hu. cbv beta in Hu. unfold used_grid_size, add32.
  destruct (grid_max_acc m (0, 0)) as (_ & B & C & D). fold (grid_max m) in *. cbn zeta in *. cbn in C, D.
  split; [split|].
  - intros H. destruct (fst (grid_max m) + 1 <=? u32_max) eqn:E1; cbn in H.
    + destruct (snd (grid_max m) + 1 <=? u32_max) eqn:E2; cbn in H; [discriminate|].
      destruct D as [D|(y & Y & D)]; [rewrite D in E2; discriminate|]. exists y. specialize (Hu y Y). split; [assumption|]. destruct y as [[yr yc] yd]; cbn [fst snd] in *; lia.
    + destruct C as [C|(y & Y & C)]; [rewrite C in E1; discriminate|]. exists y. specialize (Hu y Y). split; [assumption|]. destruct y as [[yr yc] yd]; cbn [fst snd] in *; lia.
  - intros (kv & Hk & Hor). specialize (B kv Hk). destruct Hor as [E|E]; rewrite E in B.
    + replace (fst (grid_max m) + 1 <=? u32_max) with false by lia. reflexivity.
    + destruct (fst (grid_max m) + 1 <=? u32_max); [|reflexivity]. cbn.
      replace (snd (grid_max m) + 1 <=? u32_max) with false by lia. reflexivity.
  - destruct (_ <=? _); cbn; [|discriminate]. destruct (_ <=? _); cbn; discriminate.
Qed.

Example C15_ex : exists m, run_ops ex_ops [] = Ok m /\ used_grid_size m = Ok (6, 4).
Proof. eexists. split; [vm_compute; reflexivity|]. vm_compute. repeat split. Qed.

(** The empty sheet is reported as one by one. *)
Theorem C15_empty_refuted : used_grid_size [] = Ok (1, 1).
Proof. reflexivity. Qed.

(** The last addressable row makes it fail. *)
Theorem C15_last_row_refuted : exists m, run_ops [((4294967295, 0), SetValue (VBool true))] [] = Ok m /\ used_grid_size m = Panic.
Proof. eexists. split; [vm_compute; reflexivity|]. vm_compute. repeat split. Qed.

(** ** C16 *)
(** Calling [next] on [Sheet::iter]: every stored cell once, in row-major order, then [None] forever. *)
Theorem C16_iter : forall m, om_sorted pltb m -> exists l,
  enumerates row_major (fun _ => True) m l /\ length l = length m /\
  forall k, ci_run (length l + k) (sh_iter m) = map Some l ++ repeat None k.
Proof.
  intros m Hs. exists (map item_of m). split; [|split].
  - pose proof (enum_filter (fun _ => True) (fun _ => true) m Hs ltac:(intros; split; auto)) as E.
    now rewrite filter_all in E.
  - apply map_length.
  - intros k. rewrite map_length. apply ci_run_all.
Qed.

Theorem C16_range : forall lo hi m l, om_sorted pltb m -> sh_range lo hi m = Ok l ->
  enumerates row_major (in_bounds lo hi) m l.
Proof.
  intros lo hi m l Hs H. unfold sh_range, om_range in H.
  match type of H with context [if ?b then _ else _] => destruct b end; cbn in H; [|discriminate]. inversion H; subst.
  apply (enum_filter (in_bounds lo hi) (fun k => above pltb lo k && below pltb hi k)); auto. intros k. apply bounds_ok.
Qed.

Theorem C16_range_outcome : forall lo hi m,
  (sh_range lo hi m = Panic <-> bounds_inverted lo hi) /\ sh_range lo hi m <> Err.
Proof.
  intros lo hi m. unfold sh_range, om_range. split.
  - assert (E : forall b : bool, (let* l := if b then Ok (filter (fun kv : pos * cell => above pltb lo (fst kv) && below pltb hi (fst kv)) m) else Panic in Ok (map item_of l)) = Panic <-> b = false)
      by (intros []; cbn; split; congruence).
    rewrite E. unfold bounds_inverted.
    assert (R : forall a b, negb (pltb a b) = false <-> row_major a b) by (intros; rewrite <- pltb_row_major, negb_false_iff; tauto).
    destruct lo as [a|a|], hi as [b|b|]; rewrite ?R; try tauto; try (split; [discriminate|tauto]).
    destruct (pltb a b) eqn:P.
    + split; [discriminate|]. apply pltb_row_major in P. intros [->|X]; unfold row_major in *; lia.
    + split; [|reflexivity]. intros _. destruct (pltb b a) eqn:Q; [right; now apply pltb_row_major|left; now apply (so_total _ pltb_order)].
  - match goal with |- context [if ?b then _ else _] => destruct b end; cbn; discriminate.
Qed.

Example C16_ex : exists m, run_ops ex_ops [] = Ok m /\ map (option_map fst) (ci_run 3 (sh_iter m)) = [Some (2, 3); Some (5, 0); None] /\
  sh_range (Excluded (2, 3)) Unbounded m = Ok [((5, 0), CRef (VNumber (lit "1.5")) (Some (lit "ce2")) None 1 None span1 span1 None None)].
Proof. eexists. split; [vm_compute; reflexivity|]. vm_compute. repeat split. Qed.

(** [peek_cell] tells the position of the next cell once [next] was called ... *)
Theorem C16_peek : forall m n,
  let i := Nat.iter (S n) (fun i : cell_iter => snd (ci_next i)) (sh_iter m) in
  ci_peek i = option_map fst (fst (ci_next i)).
Proof.
  intros m n i. unfold i. clear i. change (Nat.iter (S n) ?f ?x) with (f (Nat.iter n f x)).
  generalize (Nat.iter n (fun i : cell_iter => snd (ci_next i)) (sh_iter m)). intros j. destruct j as [l [kv|]].
  - destruct l as [|kv2 [|kv3 l]]; reflexivity.
  - destruct l as [|kv2 [|kv3 [|kv4 l]]]; reflexivity.
Qed.
(** ... but not before: then it says there is none. *)
Theorem C16_peek_refuted : exists m, run_ops [((0, 0), SetValue (VBool true))] [] = Ok m /\
  ci_peek (sh_iter m) = None /\ fst (ci_next (sh_iter m)) <> None.
Proof. eexists. split; [vm_compute; reflexivity|]. vm_compute. repeat split. discriminate. Qed.

(** After a call of [next] the size hint is one too small, against the contract of [Iterator]. *)
Theorem C16_size_hint_refuted : exists m i, run_ops [((0, 0), SetValue (VBool true)); ((0, 1), SetValue (VBool true))] [] = Ok m /\
  i = snd (ci_next (sh_iter m)) /\ ci_size_hint i = (0%nat, Some 0%nat) /\ fst (ci_next i) <> None.
Proof. do 2 eexists. split; [vm_compute; reflexivity|]. split; [vm_compute; reflexivity|]. vm_compute. repeat split. discriminate. Qed.

(** ** C17 *)
Lemma rows_filter_spec lo hi m s e k : cells_u32 m -> corners lo hi m = Ok (s, e) -> In k (map fst m) ->
  ((above pltb lo k && below pltb hi k) && ((fst k <? fst e) && (snd s <=? snd k) && (snd k <? snd e))) = true <-> in_rows lo hi k.
Proof.
  intros Hu H Hin. unfold corners in H.
  apply bind_ok in H as (s1 & H1 & H). apply bind_ok in H as (e1 & H2 & H). inversion H; subst. clear H.
  assert (Hs : above pltb lo k = true /\ snd s <= snd k <->
    match lo with Included s => fst s <= fst k /\ snd s <= snd k | Excluded s => fst s <= fst k /\ snd s + 1 <= snd k | Unbounded => True end).
  { destruct lo as [[a b]|[a b]|]; cbn in H1.
    - inversion H1; subst. unfold above, pltb. cbn. lia.
    - unfold add32 in H1. destruct (_ <=? _) in H1; cbn in H1; [|discriminate]. destruct (_ <=? _) in H1; cbn in H1; [|discriminate].
      inversion H1; subst. unfold above, pltb. cbn. lia.
    - inversion H1; subst. cbn. split; intros; auto. lia. }
  assert (He : below pltb hi k = true /\ fst k < fst e /\ snd k < snd e <->
    match hi with Included e => fst k <= fst e /\ snd k <= snd e | Excluded e => fst k < fst e /\ snd k < snd e | Unbounded => True end).
  { destruct hi as [[a b]|[a b]|]; cbn in H2.
    - unfold add32 in H2. destruct (_ <=? _) in H2; cbn in H2; [|discriminate]. destruct (_ <=? _) in H2; cbn in H2; [|discriminate].
      inversion H2; subst. unfold below, pltb. cbn. lia.
    - inversion H2; subst. unfold below, pltb. cbn. lia.
    - cbn. split; [auto|]. intros _. apply in_map_iff in Hin as (kv & <- & Hin). destruct e as [er ec].
      assert (Hne : m <> []) by (intros ->; contradiction).
      split; [reflexivity|]. now apply (proj1 (C15_bounding_box m er ec Hne H2)). }
  unfold in_rows. rewrite <- Hs, <- He. lia.
Qed.

Lemma filter_ext_in' {A} (f g : A -> bool) l : (forall x, In x l -> f x = g x) -> filter f l = filter g l.
Proof. intros H. induction l as [|x l IH]; cbn; [reflexivity|]. rewrite (H x (or_introl eq_refl)). rewrite IH; auto. intros; apply H; now right. Qed.

(** Row-wise iteration: for all kinds of bounds, if it can be created at all. *)
Theorem C17_rows : forall lo hi m i, om_sorted pltb m -> cells_u32 m -> rows_new lo hi m = Ok i -> exists l,
  enumerates row_major (in_rows lo hi) m l /\
  forall k, rows_run (length l + k) i = map Some l ++ repeat None k.
Proof.
  intros lo hi m i Hs Hu H. unfold rows_new in H. apply bind_ok in H as ([s e] & Hc & H).
  apply bind_ok in H as (l & Hl & H). apply bind_ok in H as (a & Ha & H). apply bind_ok in H as (b & Hb & H).
  inversion H; subst. clear H. unfold om_range in Hl.
  match type of Hl with context [if ?b then _ else _] => destruct b end; [|discriminate]. 
  assert (El : l = filter (fun kv => above pltb lo (fst kv) && below pltb hi (fst kv)) m) by congruence.
  eexists. split; [|intros k; apply rows_run_all]. rewrite El, filter_filter.
  destruct (enum_filter (fun k => ((above pltb lo k && below pltb hi k) && ((fst k <? fst e) && (snd s <=? snd k) && (snd k <? snd e))) = true)
    (fun k => (above pltb lo k && below pltb hi k) && ((fst k <? fst e) && (snd s <=? snd k) && (snd k <? snd e))) m Hs ltac:(tauto)) as [A B].
  split; [|exact B]. intros p r. rewrite A. split; intros [X Y]; (split; [|exact Y]).
  - eapply rows_filter_spec; eauto. unfold sh_ref in Y. destruct (sh_cell p m) as [c|] eqn:E; [|discriminate].
    apply (get_in pltb pltb_order _ _ _ Hs) in E. now apply (in_map fst) in E.
  - eapply rows_filter_spec; eauto. unfold sh_ref in Y. destruct (sh_cell p m) as [c|] eqn:E; [|discriminate].
    apply (get_in pltb pltb_order _ _ _ Hs) in E. now apply (in_map fst) in E.
Qed.

(** Creating it for a start and an end position fails exactly in these cases; the last
    one comes from the size hint, which multiplies the two column numbers. *)
Theorem C17_rows_outcome : forall s e m,
  (rows_new (Included s) (Excluded e) m = Panic <->
     row_major e s \/ fst e < fst s \/ u32_max < snd e * snd s) /\
  rows_new (Included s) (Excluded e) m <> Err.
Proof.
  intros s e m. unfold rows_new, corners, om_range, sub32, mul32. cbn [bind].
  destruct (pltb e s) eqn:P; cbn [negb bind].
  - apply pltb_row_major in P. split; [tauto|discriminate].
  - assert (Q : ~ row_major e s) by (intros X; apply pltb_row_major in X; congruence).
    destruct (fst s <=? fst e) eqn:E1; cbn [bind]; [|split; [split; [lia|reflexivity]|discriminate]].
    destruct (snd e * snd s <=? u32_max) eqn:E2; cbn [bind]; [|split; [split; [lia|reflexivity]|discriminate]].
    split; [|discriminate]. split; [discriminate|]. intros [X|[X|X]]; [contradiction|lia|lia].
Qed.

Example C17_rows_ex : exists m i, run_ops ex_ops [] = Ok m /\ rows_new (Included (1, 2)) (Excluded (6, 6)) m = Ok i /\
  map (option_map fst) (rows_run 2 i) = [Some (2, 3); None].
Proof. do 2 eexists. split; [vm_compute; reflexivity|]. split; [vm_compute; reflexivity|]. vm_compute. repeat split. Qed.

(** With an excluded start the row of the start is still visited, though the column is not. *)
Theorem C17_rows_excluded_refuted : exists m i,
  run_ops [((3, 3), SetValue (VBool true)); ((3, 4), SetValue (VBool true))] [] = Ok m /\
  rows_new (Excluded (3, 3)) Unbounded m = Ok i /\ map (option_map fst) (rows_run 2 i) = [Some (3, 4); None] /\
  cols_new (Excluded (3, 3)) Unbounded m = Ok (IterCols (4, 4) (4, 5) (4, 4)).
Proof. do 2 eexists. split; [vm_compute; reflexivity|]. split; [vm_compute; reflexivity|]. vm_compute. repeat split. Qed.

(** A rectangle far to the right cannot be iterated at all. *)
Theorem C17_rows_overflow_refuted : forall m, rows_new (Included (0, 65536)) (Excluded (2, 65537)) m = Panic.
Proof. intros m. apply C17_rows_outcome. right. right. vm_compute. reflexivity. Qed.

(** Column-wise iteration of a non-empty rectangle whose last corner is a stored cell. *)
Theorem C17_cols : forall m s e i, om_sorted pltb m -> fst s < fst e -> snd s < snd e -> u32 (fst e) -> u32 (snd e) ->
  cols_new (Included s) (Excluded e) m = Ok i -> sh_ref (fst e - 1, snd e - 1) m <> None ->
  exists l fuel, enumerates col_major (in_rect s e) m l /\
    forall k f, (fuel <= f)%nat -> exists j, cols_run f (length l + k) m i = Some (Ok (map Some l ++ repeat None k, j)).
Proof.
  intros m s e i Hs Hr Hc Ur Uc Hi Hcorner. cbn in Hi. inversion Hi; subst. clear Hi.
  destruct (collect m s e Hr Hc Ur Uc (left_ s e s) s ltac:(lia) ltac:(unfold in_rect; lia)) as (L & cur' & HL & Hend & Hrun).
  exists L, (S (left_ s e s)). split.
  - eapply enum_ext; [|exact HL]. intros q _. unfold from. split; [tauto|]. intros Hq. split; [exact Hq|].
    destruct q as [qr qc], s as [sr sc]. unfold in_rect, col_major in *. cbn [fst snd] in *.
    destruct (N.eq_dec qr sr), (N.eq_dec qc sc); try (left; congruence); right; lia.
  - intros k f Hf. exists (IterCols s e e). destruct Hend as [[_ ->]|[Hn _]].
    + rewrite (run_app m _ _ _ _ _ _ (Hrun f ltac:(lia))). now rewrite run_end.
    + exfalso. apply Hn. unfold stored, corner. destruct (sh_ref _ m) as [d|]; [now exists d|congruence].
Qed.

(** If that corner is empty, then after all cells of the rectangle one more call either gives
    the cell at the end position itself, outside the rectangle, or never returns. *)
Theorem C17_cols_overrun : forall m s e i, om_sorted pltb m -> fst s < fst e -> snd s < snd e -> fst e < u32_max -> u32 (snd e) ->
  cols_new (Included s) (Excluded e) m = Ok i -> sh_ref (fst e - 1, snd e - 1) m = None ->
  exists l fuel, enumerates col_major (in_rect s e) m l /\
    match sh_ref e m with
    | Some d => forall k f, (fuel <= f)%nat -> exists j,
        cols_run f (length l + (1 + k)) m i = Some (Ok (map Some l ++ Some (e, d) :: repeat None k, j))
    | None => (forall f, (fuel <= f)%nat -> exists j, cols_run f (length l) m i = Some (Ok (map Some l, j))) /\
        forall f, cols_run f (length l + 1) m i = None
    end.
Proof.
  intros m s e i Hs Hr Hc Ur Uc Hi Hcorner. cbn in Hi. inversion Hi; subst. clear Hi.
  assert (Ur' : u32 (fst e)) by (unfold u32; lia).
  destruct (collect m s e Hr Hc Ur' Uc (left_ s e s) s ltac:(lia) ltac:(unfold in_rect; lia)) as (L & cur' & HL & Hend & Hrun).
  destruct Hend as [[Hst _]|(_ & Hin & Hnone)]; [destruct Hst as [d Hd]; unfold corner in Hd; congruence|].
  destruct (next_from m s e Hr Hc Ur' Uc (left_ s e cur') cur' ltac:(lia) Hin) as [(k & p & d & _ & Hp & Hf & _)|(_ & k & Hk & Hloop)];
    [exfalso; apply (Hnone p Hf); now exists d|].
  exists L, (S (left_ s e s) + (k + 1))%nat. split.
  - eapply enum_ext; [|exact HL]. intros q _. unfold from. split; [tauto|]. intros Hq. split; [exact Hq|].
    destruct q as [qr qc], s as [sr sc]. unfold in_rect, col_major in *. cbn [fst snd] in *.
    destruct (N.eq_dec qr sr), (N.eq_dec qc sc); try (left; congruence); right; lia.
  - destruct (sh_ref e m) as [d|] eqn:Ee.
    + intros k' f Hf. exists (IterCols s e e). rewrite (run_app m _ _ _ _ _ _ (Hrun f ltac:(lia))).
      cbn [plus cols_run]. unfold cols_next. cbn [ic_cell ic_end ic_start]. rewrite (in_rect_ne s e) by assumption.
      replace f with (k + S (f - k - 1))%nat by lia. rewrite Hloop. cbn [cols_loop].
      rewrite advance_end, Ee by assumption. replace (k + S (f - k - 1))%nat with f by lia. now rewrite run_end.
    + split.
      * intros f Hf. exists (IterCols s e cur'). apply Hrun. lia.
      * intros f. destruct (cols_run f (length L + 1) m (IterCols s e s)) as [x|] eqn:Ex; [|reflexivity]. exfalso.
        apply (run_mono m f (S (left_ s e s) + k)) in Ex.
        rewrite (run_app m _ _ _ _ _ _ (Hrun (f + (S (left_ s e s) + k))%nat ltac:(lia))) in Ex.
        cbn [cols_run] in Ex. unfold cols_next in Ex. cbn [ic_cell ic_end ic_start] in Ex. rewrite (in_rect_ne s e) in Ex by assumption.
        replace (f + (S (left_ s e s) + k))%nat with (k + (f + S (left_ s e s)))%nat in Ex by lia. rewrite Hloop in Ex.
        rewrite loop_end_diverges in Ex by assumption. discriminate.
Qed.

(** Rectangles without rows: nothing if start and end are equal, otherwise a panic. *)
Theorem C17_cols_no_rows : forall m s e i f, fst e <= fst s -> u32 (fst s) ->
  cols_new (Included s) (Excluded e) m = Ok i ->
  cols_run (S f) 1 m i = if pos_eqb s e then Some (Ok ([None], i)) else Some Panic.
Proof.
  intros m s e i f H Hu Hi. cbn in Hi. inversion Hi; subst. cbn [cols_run]. unfold cols_next. cbn [ic_cell ic_end ic_start].
  destruct (pos_eqb s e) eqn:E; [reflexivity|]. cbn [cols_loop]. unfold cols_advance, add32.
  destruct (fst s + 1 <=? u32_max); [|reflexivity]. cbn [bind].
  replace (fst s + 1 <? fst e) with false by lia. replace (fst s + 1 =? fst e) with false by lia. now rewrite E.
Qed.

Example C17_cols_ex : exists m i, run_ops [((0, 0), SetValue (VBool true)); ((0, 1), SetValue (VBool true));
    ((1, 0), SetValue (VBool true)); ((1, 1), SetValue (VBool false)); ((2, 0), SetValue (VBool true))] [] = Ok m /\
  cols_new (Included (0, 0)) (Excluded (2, 2)) m = Ok i /\
  option_map (fun r => match r with Ok (l, _) => map (option_map fst) l | _ => [] end) (cols_run 10 5 m i) =
    Some [Some (0, 0); Some (1, 0); Some (0, 1); Some (1, 1); None].
Proof. do 2 eexists. split; [vm_compute; reflexivity|]. split; [vm_compute; reflexivity|]. vm_compute. repeat split. Qed.

(** One cell in a two by two rectangle: the second call of [next] never returns. *)
Theorem C17_cols_terminates_refuted : exists m i, run_ops [((0, 0), SetValue (VBool true))] [] = Ok m /\
  cols_new (Included (0, 0)) (Excluded (2, 2)) m = Ok i /\ forall f, cols_run f 2 m i = None.
Proof.
  do 2 eexists. split; [reflexivity|]. split; [reflexivity|]. intros f.
  match goal with |- cols_run f 2 ?m ?i = None =>
    destruct (C17_cols_overrun m (0, 0) (2, 2) i ltac:(cbn; auto) ltac:(reflexivity) ltac:(reflexivity) ltac:(reflexivity) ltac:(vm_compute; discriminate) eq_refl eq_refl)
      as (l & fuel & [E1 E2] & Hd) end.
  change (sh_ref (2, 2) _) with (@None cref) in Hd. cbv iota in Hd. destruct Hd as [_ Hd].
  specialize (Hd f). 
  assert (Hl : length l = 1%nat).
  { destruct l as [|a [|b l]]; [|reflexivity|].
    - exfalso. apply (proj2 (E1 (0, 0) (cell_ref_of (Cell (VBool true) None None 1 None)))). split; [vm_compute; intuition discriminate|reflexivity].
    - exfalso. destruct a as [p r], b as [q t].
      assert (A : p = (0, 0)).
      { destruct (proj1 (E1 p r) (or_introl eq_refl)) as [_ A]. unfold sh_ref, sh_cell in A. cbn in A.
        unfold pltb in A. destruct p as [pr pc]. cbn in A. destruct pr; [destruct pc; [reflexivity|]|]; cbn in A; discriminate. }
      assert (B : q = (0, 0)).
      { destruct (proj1 (E1 q t) (or_intror (or_introl eq_refl))) as [_ B]. unfold sh_ref, sh_cell in B. cbn in B.
        unfold pltb in B. destruct q as [pr pc]. cbn in B. destruct pr; [destruct pc; [reflexivity|]|]; cbn in B; discriminate. }
      subst. specialize (E2 0%nat 1%nat _ _ ltac:(lia) eq_refl eq_refl). unfold col_major in E2. cbn in E2. lia. }
  rewrite Hl in Hd. exact Hd.
Qed.

(** A stored cell at the end position is returned though it is outside the rectangle. *)
Theorem C17_cols_outside_refuted : exists m i j, run_ops [((2, 2), SetValue (VBool true))] [] = Ok m /\
  cols_new (Included (0, 0)) (Excluded (2, 2)) m = Ok i /\
  cols_run 5 2 m i = Some (Ok ([Some ((2, 2), CRef (VBool true) None None 1 None span1 span1 None None); None], j)) /\
  ~ in_rect (0, 0) (2, 2) (2, 2).
Proof. do 3 eexists. split; [vm_compute; reflexivity|]. split; [vm_compute; reflexivity|]. split; [vm_compute; reflexivity|]. intros [[_ H] _]. discriminate. Qed.

(** ** C46 (storage part; writing and reading is in the table part) *)
Theorem C46_spans_positive : forall ops m p, run_ops ops [] = Ok m ->
  Forall (fun po => match snd po with AddCell k => content_spans_ok k | _ => True end) ops ->
  1 <= sh_row_span p m /\ 1 <= sh_col_span p m /\ 1 <= sh_mrow_span p m /\ 1 <= sh_mcol_span p m.
Proof.
  intros ops m p H Hk.
  assert (V := C13_new_sheet ops m p H). unfold view_of, view_expected in V. inversion V as [[E0 E1 E2 E3 E4 E5 E6 E7 E8 E9 E10 E11]]. clear V.
  rewrite E6, E7, E8, E9. clear E0 E1 E2 E3 E4 E5 E6 E7 E8 E9 E10 E11. cbn [v_row_span v_col_span v_mrow_span v_mcol_span view_blank].
  assert (NP : ~ Exists (fun po => zero_span (snd po)) ops).
  { intros X. apply (proj1 (C13_total ops [])) in X. congruence. }
  assert (G : forall w : cell_op -> option N, (forall o n, w o = Some n -> ~ zero_span o ->
      match o with AddCell k => content_spans_ok k | _ => True end -> 1 <= n) ->
      forall h s, (forall o, In o h -> ~ zero_span o /\ match o with AddCell k => content_spans_ok k | _ => True end) -> 1 <= s -> 1 <= last_write w s h).
  { intros w Hw h. induction h as [|o h IH]; intros s Ho Hs; [exact Hs|]. rewrite last_write_cons. apply IH.
    - intros o' Ho'. apply Ho. now right.
    - destruct (w o) eqn:E; [|exact Hs]. destruct (Ho o (or_introl eq_refl)). eapply Hw; eauto. }
  assert (O : forall o, In o (at_pos p ops) -> ~ zero_span o /\ match o with AddCell k => content_spans_ok k | _ => True end).
  { intros o Ho. unfold at_pos in Ho. apply in_map_iff in Ho as ([q o'] & <- & Ho). apply filter_In in Ho as [Ho _]. split.
    - intros Z. apply NP. apply Exists_exists. exists (q, o'). auto.
    - rewrite Forall_forall in Hk. exact (Hk _ Ho). }
  repeat split; (apply G; [|exact O|lia]); intros o n Hw Hz Ho; destruct o; cbn in Hw, Hz; try discriminate; inversion Hw; subst; try lia;
    unfold content_spans_ok in Ho; lia.
Qed.

Example C46_ex : exists m, run_ops ex_ops [] = Ok m /\ sh_row_span (2, 3) m = 2 /\ sh_col_span (2, 3) m = 1.
Proof. eexists. split; [vm_compute; reflexivity|]. vm_compute. repeat split. Qed.

Theorem C46_zero_panics : forall p m n, (n = 0 -> apply_op p (SetRowSpan n) m = Panic /\ apply_op p (SetColSpan n) m = Panic /\
  apply_op p (SetMRowSpan n) m = Panic /\ apply_op p (SetMColSpan n) m = Panic).
Proof. intros p m n ->. repeat split. Qed.

Example C46_zero_ex : apply_op (1, 1) (SetRowSpan 0) [] = Panic /\ exists m, apply_op (1, 1) (SetRowSpan 3) [] = Ok m.
Proof. split; [reflexivity|]. eexists. reflexivity. Qed.

Print Assumptions C13_sheet_is_map.
Print Assumptions C13_new_sheet.
Print Assumptions C13_frame.
Print Assumptions C13_total.
Print Assumptions C14_copy.
Print Assumptions C14_add_any.
Print Assumptions C14_remove.
Print Assumptions C14_read.
Print Assumptions C14_new_content_refuted.
Print Assumptions C15_bounding_box.
Print Assumptions C15_outcome.
Print Assumptions C15_empty_refuted.
Print Assumptions C15_last_row_refuted.
Print Assumptions C16_iter.
Print Assumptions C16_range.
Print Assumptions C16_range_outcome.
Print Assumptions C16_peek.
Print Assumptions C16_peek_refuted.
Print Assumptions C16_size_hint_refuted.
Print Assumptions C17_rows.
Print Assumptions C17_rows_outcome.
Print Assumptions C17_rows_excluded_refuted.
Print Assumptions C17_rows_overflow_refuted.
Print Assumptions C17_cols.
Print Assumptions C17_cols_overrun.
Print Assumptions C17_cols_no_rows.
Print Assumptions C17_cols_terminates_refuted.
Print Assumptions C17_cols_outside_refuted.
Print Assumptions C46_spans_positive.
Print Assumptions C46_zero_panics.

(** Proofs about the cell map. *)
From Verif Require Import Base Lib OMap OMapProofs XmlModel CellModel CellSpec.

Lemma pos_eqb_eq a b : pos_eqb a b = true <-> a = b.
Proof.
  unfold pos_eqb. destruct a as [a1 a2], b as [b1 b2]. cbn [fst snd]. split.
  - intros. f_equal; lia.
  - intros H. inversion H; subst. lia.
Qed.

Lemma pos_dec (a b : pos) : {a = b} + {a <> b}.
Proof. destruct (pos_eqb a b) eqn:E; [left; now apply pos_eqb_eq|right; intros H; apply pos_eqb_eq in H; congruence]. Qed.

Lemma last_write_cons {A} (w : cell_op -> option A) s o h :
  last_write w s (o :: h) = last_write w (match w o with Some a => a | None => s end) h.
Proof.
  unfold last_write. cbn [rev].
  assert (F : forall l, find (fun o => is_some (w o)) (l ++ [o]) =
    match find (fun o => is_some (w o)) l with Some x => Some x | None => if is_some (w o) then Some o else None end).
  { induction l as [|x l IH]; cbn; [reflexivity|]. destruct (is_some (w x)); [reflexivity|exact IH]. }
  rewrite F. destruct (find _ (rev h)) as [x|] eqn:E.
  - apply find_some in E as [_ E]. destruct (w x); [reflexivity|discriminate].
  - destruct (w o) eqn:Eo; cbn; [rewrite Eo|]; reflexivity.
Qed.

Lemma last_write_nil {A} (w : cell_op -> option A) s : last_write w s [] = s.
Proof. reflexivity. Qed.

Definition cell_view (c : cell) : view :=
  let x := extra_mut c in
  View true (c_value c) (c_formula c) (c_style c) (c_repeat c) (x_validation x)
    (rspan (x_span x)) (cspan_ (x_span x)) (rspan (x_matrix x)) (cspan_ (x_matrix x)) (x_annotation x) (x_frames x).

Lemma view_of_cell p m : view_of p m = match sh_cell p m with Some c => cell_view c | None => view_blank end.
Proof.
  unfold view_of, sh_is_empty, om_mem, sh_value, sh_formula, sh_style, sh_repeat, sh_validation, sh_row_span,
    sh_col_span, sh_mrow_span, sh_mcol_span, sh_annotation, sh_frames, sh_extra.
  fold (sh_cell p m). destruct (sh_cell p m) as [c|]; [|reflexivity].
  unfold cell_view, extra_mut. now destruct (c_extra c).
Qed.

Lemma view_of_ext p m m' : sh_cell p m = sh_cell p m' -> view_of p m = view_of p m'.
Proof. intros H. rewrite !view_of_cell. now rewrite H. Qed.

(** Single operation. *)
Lemma apply_other p q o m m' : om_sorted pltb m -> apply_op p o m = Ok m' -> q <> p -> sh_cell q m' = sh_cell q m.
Proof.
  intros Hs H Hne. unfold sh_cell.
  destruct o; cbn in H; unfold try_upsert, try_extra, span_set_row, span_set_col in H;
    repeat match type of H with context [if ?b then _ else _] => destruct b; cbn in H end; try discriminate;
    assert (Hm := H); injection Hm as <-; unfold upsert, om_upsert;
    auto using (get_insert_other pltb pltb_order), (get_adjust_other pltb pltb_order), (get_remove_other pltb pltb_order).
Qed.

Lemma apply_sorted p o m m' : om_sorted pltb m -> apply_op p o m = Ok m' -> om_sorted pltb m'.
Proof.
  intros Hs H.
  destruct o; cbn in H; unfold try_upsert, try_extra, span_set_row, span_set_col in H;
    repeat match type of H with context [if ?b then _ else _] => destruct b; cbn in H end; try discriminate;
    injection H as <-; unfold upsert;
    auto using (sorted_insert pltb pltb_order), (sorted_adjust pltb pltb_order),
      (sorted_remove pltb), (sorted_upsert pltb pltb_order).
Qed.

Lemma content_cell_view k : cell_view (content_cell k) = view_content k.
Proof.
  destruct k as [v st f r va sp ma an fr]. unfold content_cell, content_ext, cell_view, view_content, extra_mut.
  cbn [k_value k_style k_formula k_repeat k_validation k_span k_matrix k_annotation k_frames c_extra].
  match goal with |- context [if ?b then _ else _] => destruct b eqn:E end; [reflexivity|].
  destruct va; [discriminate|]. destruct an; [cbn in E; lia|]. destruct fr; [|cbn in E; lia].
  destruct sp as [a b], ma as [c d]. unfold span_is_empty in E. cbn in *.
  assert (a = 1) by lia. assert (b = 1) by lia. assert (c = 1) by lia. assert (d = 1) by lia. now subst.
Qed.

Lemma apply_same p o m m' : om_sorted pltb m -> apply_op p o m = Ok m' ->
  view_of p m' = view_expected (view_of p m) [o].
Proof.
  intros Hs H. rewrite !view_of_cell. unfold view_expected. rewrite !last_write_cons, !last_write_nil.
  unfold sh_cell in *.
  destruct o; cbn in H; unfold try_upsert, try_extra, span_set_row, span_set_col, entry, sh_cell in H;
    repeat match type of H with context [if ?b then _ else _] => destruct b; cbn in H end; try discriminate;
    injection H as <-; unfold upsert;
    rewrite ?(get_upsert_same pltb pltb_order), ?(get_adjust_same pltb pltb_order),
      ?(get_insert_same pltb pltb_order), ?(get_remove_same pltb pltb_order) by assumption;
    try (rewrite content_cell_view);
    destruct (om_get pltb p m) as [[]|]; try reflexivity.
Qed.

Lemma at_pos_cons p q o ops : at_pos p ((q, o) :: ops) = if pos_eqb q p then o :: at_pos p ops else at_pos p ops.
Proof. unfold at_pos, pos_eqb. cbn. destruct ((fst q =? fst p) && (snd q =? snd p)); reflexivity. Qed.

Lemma view_expected_cons v o h : view_expected v (o :: h) = view_expected (view_expected v [o]) h.
Proof.
  unfold view_expected. rewrite !last_write_cons, !last_write_nil. cbn [v_present v_value v_formula v_style v_repeat v_validation v_row_span v_col_span v_mrow_span v_mcol_span v_annotation v_frames].
  f_equal. destruct o; reflexivity.
Qed.

Lemma run_sorted ops m m' : om_sorted pltb m -> run_ops ops m = Ok m' -> om_sorted pltb m'.
Proof.
  revert m. induction ops as [|[p o] ops IH]; cbn; intros m Hs H; [congruence|].
  apply bind_ok in H as (m1 & H1 & H2). eapply IH; [|exact H2]. eapply apply_sorted; eauto.
Qed.

Lemma run_view ops m m' p : om_sorted pltb m -> run_ops ops m = Ok m' ->
  view_of p m' = view_expected (view_of p m) (at_pos p ops).
Proof.
  revert m. induction ops as [|[q o] ops IH]; intros m Hs H.
  - cbn in H. assert (m' = m) by congruence. subst. change (at_pos p []) with (@nil cell_op). destruct (view_of p m). reflexivity.
  - cbn in H. apply bind_ok in H as (m1 & H1 & H2).
    rewrite (IH m1) by (auto; eapply apply_sorted; eauto). rewrite at_pos_cons.
    destruct (pos_eqb q p) eqn:E.
    + apply pos_eqb_eq in E. subst q. rewrite (apply_same _ _ _ _ Hs H1). symmetry. apply view_expected_cons.
    + f_equal. apply view_of_ext. eapply apply_other; eauto. intros ->. 
      assert (pos_eqb q q = true) by now apply pos_eqb_eq. congruence.
Qed.

Lemma apply_outcome p o m : (zero_span o -> apply_op p o m = Panic) /\ (~ zero_span o -> exists m', apply_op p o m = Ok m').
Proof.
  destruct o; cbn; unfold try_upsert, try_extra, span_set_row, span_set_col; split; intros H;
    try contradiction; eauto; try (subst n; reflexivity);
    (destruct (0 <? n) eqn:E; [cbn; eauto|exfalso; apply H; lia]).
Qed.

Lemma run_outcome ops m :
  (Exists (fun po => zero_span (snd po)) ops -> run_ops ops m = Panic) /\
  (~ Exists (fun po => zero_span (snd po)) ops -> exists m', run_ops ops m = Ok m').
Proof.
  revert m. induction ops as [|[p o] ops IH]; intros m; split; intros H; cbn.
  - inversion H.
  - eauto.
  - destruct (apply_outcome p o m) as [A B].
    assert (D : zero_span o \/ ~ zero_span o) by (destruct o; cbn; try tauto; destruct (N.eq_dec n 0); tauto).
    destruct D as [D|D]; [now rewrite (A D)|]. destruct (B D) as [m' ->]. cbn. apply IH. inversion H; subst; [contradiction|assumption].
  - destruct (apply_outcome p o m) as [A B]. destruct B as [m' ->]; [intros D; apply H; now constructor|].
    cbn. apply IH. intros D. apply H. now constructor 2.
Qed.

(** Contents. *)
Lemma content_view c : view_content (cell_content c) = cell_view c.
Proof. unfold cell_content, view_content, cell_view, extra_mut. now destruct (c_extra c). Qed.
Lemma ref_view c : view_ref (cell_ref_of c) = cell_view c.
Proof. unfold cell_ref_of, view_ref, cell_view, extra_mut. now destruct (c_extra c). Qed.
Lemma ref_owned c : ref_to_owned (cell_ref_of c) = cell_content c.
Proof. unfold cell_ref_of, ref_to_owned, cell_content. now destruct (c_extra c). Qed.
Lemma view_content_inj a b : view_content a = view_content b -> a = b.
Proof.
  destruct a as [? ? ? ? ? [] [] ? ?], b as [? ? ? ? ? [] [] ? ?]. unfold view_content. cbn. intros H. inversion H. now subst.
Qed.
Lemma content_cell_content k : cell_content (content_cell k) = k.
Proof. apply view_content_inj. rewrite content_view. apply content_cell_view. Qed.

(** Grid size. *)
Lemma grid_max_acc m : forall a,
  let mx := fold_left (fun mx kv => (N.max (fst mx) (fst (fst kv)), N.max (snd mx) (snd (fst kv)))) (m : cells) a in
  (fst a <= fst mx /\ snd a <= snd mx) /\
  (forall kv, In kv m -> fst (fst kv) <= fst mx /\ snd (fst kv) <= snd mx) /\
  (fst mx = fst a \/ exists kv, In kv m /\ fst mx = fst (fst kv)) /\
  (snd mx = snd a \/ exists kv, In kv m /\ snd mx = snd (fst kv)).
Proof.
  induction m as [|kv m IH]; intros a; cbn [fold_left].
  - cbn. repeat split; auto; try lia; contradiction.
  - specialize (IH (N.max (fst a) (fst (fst kv)), N.max (snd a) (snd (fst kv)))). cbn zeta in *. cbn [fst snd] in IH.
    set (mx := fold_left _ _ _) in *. destruct IH as ((A1 & A2) & B & C & D). repeat split; try lia.
    + destruct H as [<-|H]; [lia|]. now apply B.
    + destruct H as [<-|H]; [lia|]. now apply B.
    + destruct C as [C|(x & X & C)]; [|right; exists x; split; [right|]; auto].
      destruct (N.max_spec (fst a) (fst (fst kv))) as [[? E]|[? E]]; rewrite E in C; [right; exists kv; split; [now left|auto]|now left].
    + destruct D as [D|(x & X & D)]; [|right; exists x; split; [right|]; auto].
      destruct (N.max_spec (snd a) (snd (fst kv))) as [[? E]|[? E]]; rewrite E in D; [right; exists kv; split; [now left|auto]|now left].
Qed.

(** Iterators. *)
Lemma firstn_pad {A} (l : list A) x n k : (n <= k)%nat -> firstn n (l ++ repeat x k) = firstn n (l ++ repeat x n).
Proof.
  intros H. rewrite !firstn_app. f_equal.
  assert (E : forall a b, (a <= b)%nat -> firstn a (repeat x b) = repeat x a).
  { induction a as [|a IH]; intros b Hb; [reflexivity|]. destruct b; [lia|]. cbn. f_equal. apply IH. lia. }
  rewrite !E by lia. reflexivity.
Qed.

Lemma ci_run_none n : ci_run n (CellIter [] None) = repeat None n.
Proof. induction n as [|n IH]; [reflexivity|]. cbn. f_equal. exact IH. Qed.

Lemma ci_run_ahead n : forall kv l, ci_run n (CellIter l (Some kv)) =
  firstn n (map Some (map item_of (kv :: l)) ++ repeat None n).
Proof.
  induction n as [|n IH]; intros kv l; [reflexivity|].
  cbn [ci_run ci_next ci_ahead]. destruct l as [|kv' l]; unfold ci_load; cbn [ci_rest map app firstn]; f_equal.
  - rewrite ci_run_none. symmetry. pose proof (firstn_pad (@nil (option item)) None n (S n) ltac:(lia)) as E.
    cbn [app] in E. rewrite E. clear. induction n; [reflexivity|]. cbn. f_equal. assumption.
  - rewrite IH. symmetry. apply (firstn_pad (map Some (map item_of (kv' :: l))) None n (S n)). lia.
Qed.

Lemma ci_run_all m k : ci_run (length m + k) (sh_iter m) = map Some (map item_of m) ++ repeat None k.
Proof.
  unfold sh_iter. destruct m as [|kv m]; [cbn [length plus map app]; apply ci_run_none|].
  assert (E : forall n, ci_run n (CellIter (kv :: m) None) = ci_run n (CellIter m (Some kv))) by (intros [|n]; reflexivity).
  rewrite E, ci_run_ahead. rewrite firstn_app, map_length, map_length.
  rewrite (firstn_all2 (map Some _)) by (rewrite !map_length; lia). f_equal.
  replace (length (kv :: m) + k - length (kv :: m))%nat with k by lia.
  assert (E2 : forall (x : option item) a b, (a <= b)%nat -> firstn a (repeat x b) = repeat x a).
  { intros x. induction a as [|a IH]; intros b Hb; [reflexivity|]. destruct b; [lia|]. cbn. f_equal. apply IH. lia. }
  apply E2. lia.
Qed.

Lemma pltb_row_major a b : pltb a b = true <-> row_major a b.
Proof. unfold pltb, row_major. lia. Qed.

Lemma sorted_nth (m : cells) : om_sorted pltb m -> forall i j a b, (i < j)%nat -> nth_error m i = Some a -> nth_error m j = Some b ->
  row_major (fst a) (fst b).
Proof.
  induction m as [|[k v] m IH]; intros Hs i j a b Hij Ha Hb; [destruct i; discriminate|].
  destruct Hs as [Hf Hs]. destruct j as [|j]; [lia|]. cbn in Hb. destruct i as [|i].
  - cbn in Ha. inversion Ha; subst. apply nth_error_In in Hb. rewrite Forall_forall in Hf. apply pltb_row_major. now apply Hf.
  - cbn in Ha. eapply (IH Hs i j); eauto. lia.
Qed.

Lemma enum_filter (P : pos -> Prop) p (m : cells) : om_sorted pltb m ->
  (forall k, p k = true <-> P k) ->
  enumerates row_major P m (map item_of (filter (fun kv => p (fst kv)) m)).
Proof.
  intros Hs Hp. split.
  - intros q r. rewrite in_map_iff. split.
    + intros ([k c] & E & H). apply filter_In in H as [H1 H2]. cbn in H2, E. inversion E; subst.
      split; [now apply Hp|]. unfold sh_ref, sh_cell. apply (get_in pltb pltb_order _ _ _ Hs) in H1. now rewrite H1.
    + intros [H1 H2]. unfold sh_ref in H2. destruct (sh_cell q m) as [c|] eqn:E; [|discriminate]. cbn in H2. inversion H2; subst.
      exists (q, c). split; [reflexivity|]. apply filter_In. split; [|cbn; now apply Hp].
      now apply (get_in pltb pltb_order _ _ _ Hs).
  - intros i j a b Hij Ha Hb. rewrite nth_error_map in Ha, Hb.
    destruct (nth_error _ i) as [a'|] eqn:Ea in Ha; [|discriminate]. destruct (nth_error _ j) as [b'|] eqn:Eb in Hb; [|discriminate].
    cbn in Ha, Hb. inversion Ha; inversion Hb; subst. cbn.
    eapply sorted_nth; [|exact Hij|exact Ea|exact Eb]. now apply (sorted_filter pltb).
Qed.

Lemma filter_all {A} (l : list A) : filter (fun _ => true) l = l.
Proof. induction l; cbn; congruence. Qed.

Lemma bounds_ok lo hi k : above pltb lo k && below pltb hi k = true <-> in_bounds lo hi k.
Proof.
  unfold above, below, in_bounds, row_major, pltb. destruct k as [kr kc].
  destruct lo as [[a b]|[a b]|]; destruct hi as [[c d]|[c d]|]; cbn [fst snd]; split; intros H;
    repeat match goal with
    | |- _ /\ _ => split
    | |- True => exact I
    | H : _ /\ _ |- _ => destruct H
    | H : (_, _) = (_, _) \/ _ |- _ => destruct H as [H|H]; [inversion H; subst; clear H|]
    end; try lia;
    try match goal with |- ((?a, ?b) = (?c, ?d) \/ _) =>
      destruct (N.eq_dec a c); [destruct (N.eq_dec b d); [left; subst; reflexivity|right; lia]|right; lia] end.
Qed.

Lemma rows_run_filter s e h n : forall l, rows_run n (IterRows l s e h) =
  firstn n (map Some (map item_of (filter (fun kv => (fst (fst kv) <? fst e) && (snd s <=? snd (fst kv)) && (snd (fst kv) <? snd e)) l)) ++ repeat None n).
Proof.
  induction n as [|n IH]; intros l; [reflexivity|].
  cbn [rows_run]. unfold rows_next. cbn [ir_start ir_end ir_rest ir_hint].
  induction l as [|[[r c] d] l IHl].
  - cbn [rows_loop filter map app repeat firstn]. f_equal. rewrite IH. cbn [filter map app]. symmetry.
    reflexivity.
  - cbn [rows_loop filter fst snd]. destruct ((r <? fst e) && (snd s <=? c) && (c <? snd e)) eqn:E.
    + cbn [map app firstn]. f_equal. rewrite IH. symmetry. apply firstn_pad. lia.
    + exact IHl.
Qed.

Lemma firstn_repeat_le {A} (x : A) a b : (a <= b)%nat -> firstn a (repeat x b) = repeat x a.
Proof. revert b. induction a as [|a IH]; intros b Hb; [reflexivity|]. destruct b; [lia|]. cbn. f_equal. apply IH. lia. Qed.

Lemma rows_run_all s e h l k :
  let L := map item_of (filter (fun kv => (fst (fst kv) <? fst e) && (snd s <=? snd (fst kv)) && (snd (fst kv) <? snd e)) l) in
  rows_run (length L + k) (IterRows l s e h) = map Some L ++ repeat None k.
Proof.
  cbn zeta. rewrite rows_run_filter. set (L := map item_of _). rewrite firstn_app, map_length.
  rewrite (firstn_all2 (map Some L)) by (rewrite map_length; lia). f_equal.
  replace (length L + k - length L)%nat with k by lia. apply firstn_repeat_le. lia.
Qed.

Lemma filter_filter {A} (p q : A -> bool) l : filter q (filter p l) = filter (fun x => p x && q x) l.
Proof. induction l as [|x l IH]; cbn; [reflexivity|]. destruct (p x) eqn:E; cbn; [destruct (q x); congruence|exact IH]. Qed.

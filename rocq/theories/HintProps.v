(** C73: what the iterators over cells say about their length. *)
From Verif Require Import Base Lib OMap OMapProofs XmlModel CellModel CellSpec CellProofs ColsProofs CellProps HeaderModel HintModel HintSpec.

(** ** Ranges from both ends *)

(** Calls from the front and from the back, in any order, give each cell of the range once: those from the front, what is left and
    those from the back in reverse are the cells of the range in their order. A call gives nothing only when nothing is left. *)
Theorem C73_ends : forall ends lo hi m l i, sh_range lo hi m = Ok l -> range_new lo hi m = Ok i ->
  let (xs, j) := range_calls ends i in
  length xs = length ends
  /\ from_end false ends xs ++ map item_of (ri_rest j) ++ rev (from_end true ends xs) = l
  /\ (In None xs -> ri_rest j = []).
Proof.
  intros ends lo hi m l i Hl Hi. unfold sh_range in Hl. unfold range_new in Hi.
  apply bind_ok in Hl as (l0 & E0 & Hl). rewrite E0 in Hi. cbn in Hi. injection Hi as <-. injection Hl as <-. clear E0.
  revert l0. induction ends as [|b ends IH]; intros l0.
  - cbn. rewrite app_nil_r. repeat split. contradiction.
  - cbn [range_calls]. destruct b.
    + unfold range_next_back. cbn [ri_rest]. destruct (rev l0) as [|kv r] eqn:E.
      * assert (l0 = []) by (rewrite <- (rev_involutive l0), E; reflexivity). subst l0.
        specialize (IH []). destruct (range_calls ends (RangeIter [])) as [xs j]. destruct IH as (A & B & C).
        cbn [from_end Bool.eqb length app]. split; [lia|]. split; [exact B|]. intros _.
        cbn [map] in B. destruct (ri_rest j); [reflexivity|]. apply (f_equal (@length _)) in B. rewrite !app_length in B. cbn in B. lia.
      * assert (Hl : l0 = rev r ++ [kv]) by (rewrite <- (rev_involutive l0), E; reflexivity). subst l0.
        specialize (IH (rev r)). destruct (range_calls ends (RangeIter (rev r))) as [xs j]. destruct IH as (A & B & C).
        cbn [from_end Bool.eqb length app]. split; [lia|]. split.
        -- cbn [rev]. rewrite map_app. rewrite <- B. cbn [map]. rewrite <- !app_assoc. reflexivity.
        -- intros [D|D]; [discriminate|]. now apply C.
    + unfold range_next. cbn [ri_rest]. destruct l0 as [|kv r].
      * specialize (IH []). destruct (range_calls ends (RangeIter [])) as [xs j]. destruct IH as (A & B & C).
        cbn [from_end Bool.eqb length app]. split; [lia|]. split; [exact B|]. intros _.
        cbn [map] in B. destruct (ri_rest j); [reflexivity|]. apply (f_equal (@length _)) in B. rewrite !app_length in B. cbn in B. lia.
      * specialize (IH r). destruct (range_calls ends (RangeIter r)) as [xs j]. destruct IH as (A & B & C).
        cbn [from_end Bool.eqb length app]. split; [lia|]. split.
        -- cbn [map app]. now rewrite <- B.
        -- intros [D|D]; [discriminate|]. now apply C.
Qed.
Example C73_ends_ex : exists m i, run_ops [((0, 0), SetValue (VBool true)); ((0, 5), SetValue (VBool true)); ((3, 1), SetValue (VBool false)); ((9, 9), SetValue (VBool true))] [] = Ok m
  /\ range_new (Excluded (0, 0)) Unbounded m = Ok i
  /\ map (option_map fst) (fst (range_calls [true; false; true; true; false] i)) = [Some (9, 9); Some (0, 5); Some (3, 1); None; None].
Proof. do 2 eexists. split; [vm_compute; reflexivity|]. split; [vm_compute; reflexivity|]. vm_compute. reflexivity. Qed.

(** The size hint of a range is right, but says nothing; and so [len], which the type offers, always fails, for every range of every
    sheet. *)
Theorem C73_range : forall i n, hint_right (range_size_hint i) n.
Proof. intros i n. split; cbn; [lia|exact I]. Qed.
Theorem C73_len_refuted : forall i, range_len i = Panic.
Proof. intros i. reflexivity. Qed.
Theorem C73_len_sheet_refuted : exists m i, run_ops ex_ops [] = Ok m /\ range_new Unbounded Unbounded m = Ok i /\ length (ri_rest i) = 2%nat /\ range_len i = Panic.
Proof. do 2 eexists. split; [vm_compute; reflexivity|]. split; [vm_compute; reflexivity|]. vm_compute. split; reflexivity. Qed.

(** ** All cells *)

Lemma after_r {I} (next : I -> option item * I) n i : after next (S n) i = after next n (snd (next i)).
Proof. unfold after. induction n as [|n IH]; [reflexivity|]. change (Nat.iter (S (S n)) ?f i) with (f (Nat.iter (S n) f i)). cbn beta. rewrite IH. reflexivity. Qed.
(** Before the first call the number is exact; after it, as long as a cell is left, it is one less than what comes. *)
Theorem C73_iter_partial : forall m n, om_sorted pltb m ->
  exists l, gives ci_next (after ci_next n (sh_iter m)) l /\ l = skipn n (map item_of m)
  /\ ci_size_hint (after ci_next n (sh_iter m)) = match n with O => (length l, Some (length l)) | _ => (Nat.pred (length l), Some (Nat.pred (length l))) end.
Proof.
  intros m n _. exists (skipn n (map item_of m)).
  assert (G : forall l k, (fix run n i := match n with O => [] | S n' => let (x, j) := ci_next i in x :: run n' j end) k l = ci_run k l).
  { intros l k. revert l. induction k as [|k IH]; intros l; [reflexivity|]. cbn [ci_run]. destruct (ci_next l) as [x j]. now rewrite IH. }
  destruct n as [|n].
  - split; [|split; [reflexivity|]].
    + intros k. rewrite G. cbn [after Nat.iter skipn]. rewrite map_length. apply ci_run_all.
    + cbn. now rewrite map_length.
  - assert (K : forall n l, after ci_next n (match l with [] => CellIter [] None | kv :: r => CellIter r (Some kv) end) =
      match skipn n l with [] => CellIter [] None | kv :: r => CellIter r (Some kv) end).
    { clear. induction n as [|n IH]; intros l; [reflexivity|]. rewrite after_r. destruct l as [|kv l].
      - specialize (IH (@nil (pos * cell))). cbn [ci_next ci_ahead ci_load ci_rest snd]. rewrite IH. now rewrite skipn_nil.
      - cbn [skipn]. rewrite <- IH. f_equal; destruct l; reflexivity. }
    rewrite after_r. replace (snd (ci_next (sh_iter m))) with (match skipn 1 m with [] => CellIter [] None | kv :: r => CellIter r (Some kv) end).
    2:{ destruct m as [|kv [|kv2 m]]; reflexivity. }
    rewrite K. assert (Sk : skipn n (skipn 1 m) = skipn (S n) m). { destruct m; [now rewrite !skipn_nil|reflexivity]. }
    rewrite Sk. rewrite skipn_map. destruct (skipn (S n) m) as [|kv r].
    + split; [|split; reflexivity]. intros k. rewrite G. cbn [map length plus app]. apply ci_run_none.
    + split; [|split; [reflexivity|]].
      * intros k. rewrite G, ci_run_ahead. rewrite map_length. rewrite firstn_app, !map_length.
        rewrite (firstn_all2 (map Some _)) by (rewrite !map_length; lia). f_equal.
        replace (length (kv :: r) + k - length (kv :: r))%nat with k by lia. apply firstn_repeat_le. lia.
      * unfold ci_size_hint. cbn [ci_rest map length Nat.pred]. now rewrite map_length.
Qed.
(** So after the first call the hint breaks the contract until the last cell is given. *)
Theorem C73_iter_refuted : forall m n, om_sorted pltb m -> (n < length m)%nat -> (0 < n)%nat ->
  exists l, gives ci_next (after ci_next n (sh_iter m)) l /\
  let h := ci_size_hint (after ci_next n (sh_iter m)) in ~ hint_right (N.of_nat (fst h), option_map N.of_nat (snd h)) (length l).
Proof.
  intros m n Hs Hn H0. destruct (C73_iter_partial m n Hs) as (l & G & El & Eh). exists l. split; [exact G|]. cbn zeta. rewrite Eh.
  assert (L : (0 < length l)%nat). { subst l. rewrite skipn_length, map_length. lia. }
  destruct n as [|n]; [lia|]. intros [_ X]. cbn [fst snd option_map] in X. lia.
Qed.

(** ** Row by row *)
Lemma rect_count s e (l : list pos) : NoDup l -> Forall (in_rect s e) l -> N.of_nat (length l) <= (fst e - fst s) * (snd e - snd s).
Proof.
  intros Nd F.
  pose (rs := map (fun n => fst s + N.of_nat n) (seq 0 (N.to_nat (fst e - fst s)))).
  pose (cs := map (fun n => snd s + N.of_nat n) (seq 0 (N.to_nat (snd e - snd s)))).
  assert (I : incl l (list_prod rs cs)).
  { intros [r c] H. rewrite Forall_forall in F. apply F in H. unfold in_rect in H. cbn [fst snd] in H. apply in_prod.
    - apply in_map_iff. exists (N.to_nat (r - fst s)). split; [lia|]. apply in_seq. lia.
    - apply in_map_iff. exists (N.to_nat (c - snd s)). split; [lia|]. apply in_seq. lia. }
  apply (NoDup_incl_length Nd) in I. change (length l <= @length (N * N) (list_prod rs cs))%nat in I. rewrite prod_length in I. unfold rs, cs in I. rewrite !map_length, !seq_length in I. lia.
Qed.
Lemma enum_nodup lt P m l : (forall a, ~ lt a a) -> enumerates lt P m l -> NoDup (map fst l) /\ Forall P (map fst l).
Proof.
  intros Irr [A B]. split.
  - clear A. induction l as [|x l IH]; [constructor|]. cbn [map]. constructor.
    + intros H. apply in_map_iff in H as (y & E & H). apply In_nth_error in H as (j & H).
      specialize (B 0%nat (S j) x y ltac:(lia) eq_refl H). rewrite E in B. now apply Irr in B.
    + apply IH. intros i j a b Hij Ha Hb. exact (B (S i) (S j) a b ltac:(lia) Ha Hb).
  - rewrite Forall_forall. intros p H. apply in_map_iff in H as ([q r] & <- & H). now apply A in H.
Qed.
Lemma gives_rows i l : gives rows_next i l <-> forall k, rows_run (length l + k) i = map Some l ++ repeat None k.
Proof.
  assert (G : forall k l, (fix run n i := match n with O => [] | S n' => let (x, j) := rows_next i in x :: run n' j end) k l = rows_run k l).
  { induction k as [|k IH]; intros j; [reflexivity|]. cbn [rows_run]. destruct (rows_next j) as [x j2]. now rewrite IH. }
  unfold gives. split; intros H k; specialize (H k); [now rewrite G in H|now rewrite G].
Qed.
Lemma gives_tl {I} (next : I -> option item * I) i l : gives next i l -> gives next (snd (next i)) (tl l).
Proof.
  intros H k. destruct l as [|x l].
  - specialize (H (S k)). cbn [length plus map app repeat tl] in *. destruct (next i) as [y j]. cbn [snd]. injection H as _ H. exact H.
  - specialize (H k). cbn [length plus map app tl] in *. destruct (next i) as [y j]. cbn [snd]. injection H as _ H. exact H.
Qed.
Lemma gives_after {I} (next : I -> option item * I) n : forall i l, gives next i l -> gives next (after next n i) (skipn n l).
Proof.
  induction n as [|n IH]; intros i l H; [exact H|]. unfold after in *. cbn [Nat.iter nat_rect].
  specialize (IH i l H). apply gives_tl in IH. change (Nat.iter (S n) ?f i) with (f (Nat.iter n f i)). cbn beta.
  replace (skipn (S n) l) with (tl (skipn n l)); [exact IH|]. clear. revert l. induction n as [|n IH]; intros l; [destruct l; reflexivity|].
  destruct l as [|x l]; [reflexivity|]. cbn [skipn]. apply IH.
Qed.
Lemma rows_hint_after n i : ir_hint (after rows_next n i) = ir_hint i.
Proof.
  unfold after. induction n as [|n IH]; [reflexivity|]. change (Nat.iter (S n) ?f i) with (f (Nat.iter n f i)). cbn beta. rewrite <- IH.
  set (j := Nat.iter n _ i). unfold rows_next. destruct (rows_loop _ _ _). reflexivity.
Qed.

(** With a start that is included and not in the first column the hint holds at every moment. *)
Theorem C73_rows_partial : forall s hi m i n, om_sorted pltb m -> cells_u32 m -> 1 <= snd s -> rows_new (Included s) hi m = Ok i ->
  exists l, gives rows_next (after rows_next n i) l /\ hint_right (rows_size_hint (after rows_next n i)) (length l).
Proof.
  intros s hi m i n Hs Hu H1 Hi. destruct (C17_rows _ _ _ _ Hs Hu Hi) as (l & He & Hr). apply gives_rows in Hr.
  exists (skipn n l). split; [now apply gives_after|]. unfold rows_size_hint. rewrite rows_hint_after. split; [cbn [fst]; lia|]. cbn [snd].
  assert (B : N.of_nat (length l) <= ir_hint i).
  { destruct (enum_nodup _ _ m l (fun a (X : row_major a a) => ltac:(unfold row_major in X; lia)) He) as [Nd F].
    unfold rows_new in Hi. apply bind_ok in Hi as ([s1 e] & Hc & Hi). apply bind_ok in Hi as (l0 & Hl & Hi).
    apply bind_ok in Hi as (a & Ha & Hi). apply bind_ok in Hi as (b & Hb & Hi). injection Hi as <-. cbn [ir_hint].
    unfold sub32 in Ha. destruct (_ <=? _) eqn:E1 in Ha; [|discriminate]. injection Ha as <-.
    unfold mul32 in Hb. destruct (_ <=? _) eqn:E2 in Hb; [|discriminate]. injection Hb as <-.
    assert (Es : s1 = s). { unfold corners in Hc. cbn [bind] in Hc. apply bind_ok in Hc as (e1 & _ & Hc). congruence. } subst s1.
    assert (R : Forall (in_rect s e) (map fst l)).
    { rewrite Forall_forall in *. intros p Hp. assert (In p (map fst m)) as Hm.
      { apply in_map_iff in Hp as ([q r] & <- & Hp). apply (proj1 He) in Hp as [_ Hp]. unfold sh_ref, sh_cell in Hp.
        destruct (om_get pltb q m) eqn:E; [|discriminate]. apply (get_in pltb pltb_order _ _ _ Hs) in E. now apply (in_map fst) in E. }
      specialize (F p Hp). pose proof F as F0. apply (rows_filter_spec (Included s) hi m s e p Hu Hc Hm) in F. unfold in_rows in F0. unfold in_rect. lia. }
    pose proof (rect_count s e (map fst l) Nd R) as C. rewrite map_length in C.
    etransitivity; [exact C|]. apply N.mul_le_mono_l. nia. }
  rewrite skipn_length. lia.
Qed.
(** With no bounds, or with a start in the first column, it says that nothing comes, whatever does. *)
Theorem C73_rows_refuted : forall lo hi m i n, rows_new lo hi m = Ok i -> match lo with Included s => snd s = 0 | Excluded _ => False | Unbounded => True end ->
  rows_size_hint (after rows_next n i) = (0, Some 0).
Proof.
  intros lo hi m i n Hi Hlo. unfold rows_size_hint. rewrite rows_hint_after. do 2 f_equal.
  unfold rows_new in Hi. apply bind_ok in Hi as ([s1 e] & Hc & Hi). apply bind_ok in Hi as (l0 & Hl & Hi).
  apply bind_ok in Hi as (a & Ha & Hi). apply bind_ok in Hi as (b & Hb & Hi). injection Hi as <-. cbn [ir_hint].
  assert (Es : snd s1 = 0).
  { unfold corners in Hc. destruct lo as [s|[r c]|]; [|contradiction|]; cbn [bind] in Hc; apply bind_ok in Hc as (e1 & _ & Hc); injection Hc as <- _; [exact Hlo|reflexivity]. }
  unfold mul32 in Hb. rewrite Es, N.mul_0_r in Hb. destruct (_ <=? _) in Hb; [|discriminate]. injection Hb as <-. lia.
Qed.
(** So it is wrong for every sheet that has a cell, if all its cells are asked for. *)
Theorem C73_rows_all_refuted : forall m i, om_sorted pltb m -> cells_u32 m -> m <> [] -> rows_new Unbounded Unbounded m = Ok i ->
  exists l, gives rows_next i l /\ length l = length m /\ ~ hint_right (rows_size_hint i) (length l).
Proof.
  intros m i Hs Hu Hm Hi. destruct (C17_rows _ _ _ _ Hs Hu Hi) as (l & He & Hr). apply gives_rows in Hr.
  exists l. split; [exact Hr|]. assert (L : length l = length m).
  { destruct (enum_nodup _ _ m l (fun a (X : row_major a a) => ltac:(unfold row_major in X; lia)) He) as [Nd F].
    assert (LM : length (map fst l) = length (map fst m)); [|now rewrite !map_length in LM]. apply Nat.le_antisymm; apply NoDup_incl_length.
    - exact Nd.
    - intros p Hp. apply in_map_iff in Hp as ([q r] & <- & Hp). apply (proj1 He) in Hp as [_ Hp]. unfold sh_ref, sh_cell in Hp.
      destruct (om_get pltb q m) eqn:E; [|discriminate]. apply (get_in pltb pltb_order _ _ _ Hs) in E. now apply (in_map fst) in E.
    - now apply (sorted_nodup pltb pltb_order).
    - intros p Hp. apply in_map_iff in Hp as ([q c] & <- & Hp). apply (get_in pltb pltb_order _ _ _ Hs) in Hp.
      apply in_map_iff. exists (q, cell_ref_of c). split; [reflexivity|]. apply (proj1 He). split; [split; exact I|]. unfold sh_ref, sh_cell. now rewrite Hp. }
  split; [exact L|]. pose proof (C73_rows_refuted Unbounded Unbounded m i 0 Hi I) as Z. change (after rows_next 0 i) with i in Z. rewrite Z. intros [_ X]. cbn [snd] in X. rewrite L in X. destruct m; [congruence|cbn in X; lia].
Qed.
Example C73_rows_ex : exists m i j, run_ops ex_ops [] = Ok m /\ rows_new (Included (1, 2)) (Excluded (6, 6)) m = Ok i /\ rows_size_hint i = (0, Some 60)
  /\ rows_new Unbounded Unbounded m = Ok j /\ rows_size_hint j = (0, Some 0) /\ map (option_map fst) (rows_run 3 j) = [Some (2, 3); Some (5, 0); None].
Proof. do 3 eexists. split; [vm_compute; reflexivity|]. split; [vm_compute; reflexivity|]. split; [vm_compute; reflexivity|]. split; [vm_compute; reflexivity|]. vm_compute. split; reflexivity. Qed.
(** With an excluded start it can be wrong in any column. *)
Theorem C73_rows_excluded_refuted : exists m i, run_ops [((3, 4), SetValue (VBool true))] [] = Ok m /\ rows_new (Excluded (3, 3)) (Excluded (4, 9)) m = Ok i
  /\ rows_size_hint i = (0, Some 0) /\ fst (rows_next i) <> None.
Proof. do 2 eexists. split; [vm_compute; reflexivity|]. split; [vm_compute; reflexivity|]. vm_compute. split; [reflexivity|discriminate]. Qed.

(** ** Column by column *)

(** For a rectangle whose last corner is a stored cell, the hint holds. *)
Theorem C73_cols_partial : forall m s e i, om_sorted pltb m -> fst s < fst e -> snd s < snd e -> u32 (fst e) -> u32 (snd e) ->
  cols_new (Included s) (Excluded e) m = Ok i -> sh_ref (fst e - 1, snd e - 1) m <> None ->
  exists l fuel h, (forall k f, (fuel <= f)%nat -> exists j, cols_run f (length l + k) m i = Some (Ok (map Some l ++ repeat None k, j)))
  /\ cols_size_hint i = Ok h /\ hint_right h (length l).
Proof.
  intros m s e i Hs Hr Hc Ur Uc Hi Hk. destruct (C17_cols m s e i Hs Hr Hc Ur Uc Hi Hk) as (l & fuel & He & Hrun).
  exists l, fuel, (0, Some ((fst e - fst s) * (snd e - snd s))). split; [exact Hrun|].
  cbn in Hi. injection Hi as <-. split.
  - unfold cols_size_hint, sub32. cbn [ic_start ic_end]. replace (fst s <=? fst e) with true by lia. replace (snd s <=? snd e) with true by lia. reflexivity.
  - split; [cbn; lia|]. cbn [snd]. destruct (enum_nodup _ _ m l (fun a (X : col_major a a) => ltac:(unfold col_major in X; lia)) He) as [Nd F].
    pose proof (rect_count s e (map fst l) Nd F) as C. now rewrite map_length in C.
Qed.
(** Asking for the hint fails exactly if the end is above or left of the start. *)
Theorem C73_cols_outcome : forall i, cols_size_hint i = Panic <-> fst (ic_end i) < fst (ic_start i) \/ snd (ic_end i) < snd (ic_start i).
Proof.
  intros i. unfold cols_size_hint, sub32. destruct (fst (ic_start i) <=? _) eqn:A; cbn [bind]; [|split; [lia|reflexivity]].
  destruct (snd (ic_start i) <=? _) eqn:B; cbn [bind]; split; try lia; try discriminate; reflexivity.
Qed.
Theorem C73_cols_panic_refuted : forall m, exists i, cols_new (Included (0, 2)) (Included (5, 0)) m = Ok i /\ cols_size_hint i = Panic.
Proof. intros m. eexists. split; reflexivity. Qed.
(** For a rectangle whose last corner is empty it holds as well: what comes from outside of the rectangle takes the place of the
    corner (C17_cols_overrun); or the last call does not return. *)
Theorem C73_cols_overrun : forall m s e i, om_sorted pltb m -> fst s < fst e -> snd s < snd e -> fst e < u32_max -> u32 (snd e) ->
  cols_new (Included s) (Excluded e) m = Ok i -> sh_ref (fst e - 1, snd e - 1) m = None ->
  exists l fuel h, cols_size_hint i = Ok h /\ hint_right h (length l) /\
    ((forall k f, (fuel <= f)%nat -> exists j, cols_run f (length l + k) m i = Some (Ok (map Some l ++ repeat None k, j)))
     \/ (forall f, (fuel <= f)%nat -> exists j, cols_run f (length l) m i = Some (Ok (map Some l, j))) /\ (forall f, cols_run f (length l + 1) m i = None)).
Proof.
  intros m s e i Hs Hr Hc Ur Uc Hi Hk. destruct (C17_cols_overrun m s e i Hs Hr Hc Ur Uc Hi Hk) as (l & fuel & He & Hrun).
  assert (Hh : cols_size_hint i = Ok (0, Some ((fst e - fst s) * (snd e - snd s)))).
  { cbn in Hi. injection Hi as <-. unfold cols_size_hint, sub32. cbn [ic_start ic_end]. replace (fst s <=? fst e) with true by lia. replace (snd s <=? snd e) with true by lia. reflexivity. }
  assert (L : N.of_nat (S (length l)) <= (fst e - fst s) * (snd e - snd s)).
  { destruct (enum_nodup _ _ m l (fun a (X : col_major a a) => ltac:(unfold col_major in X; lia)) He) as [Nd F].
    pose proof (rect_count s e ((fst e - 1, snd e - 1) :: map fst l)) as C. cbn [length] in C. rewrite map_length in C. apply C.
    - constructor; [|exact Nd]. intros X. apply in_map_iff in X as ([q r] & E & X). cbn [fst] in E. subst q. apply (proj1 He) in X as [_ X]. congruence.
    - constructor; [|exact F]. unfold in_rect. cbn [fst snd]. lia. }
  destruct (sh_ref e m) as [d|].
  - exists (l ++ [(e, d)]), fuel, (0, Some ((fst e - fst s) * (snd e - snd s))). split; [exact Hh|]. rewrite app_length. cbn [length]. split.
    + split; [cbn [fst]; lia|]. cbn [snd]. lia.
    + left. intros k f Hf. destruct (Hrun k f Hf) as (j & R). exists j. rewrite map_app, <- app_assoc. replace (length l + 1 + k)%nat with (length l + (1 + k))%nat by lia. exact R.
  - exists l, fuel, (0, Some ((fst e - fst s) * (snd e - snd s))). split; [exact Hh|]. split.
    + split; [cbn [fst]; lia|]. cbn [snd]. lia.
    + right. exact Hrun.
Qed.
Example C73_cols_ex : exists m i, run_ops [((0, 0), SetValue (VBool true)); ((1, 0), SetValue (VBool true)); ((0, 1), SetValue (VBool true)); ((2, 2), SetValue (VBool true))] [] = Ok m
  /\ cols_new (Included (0, 0)) (Excluded (2, 2)) m = Ok i /\ cols_size_hint i = Ok (0, Some 4)
  /\ (exists j, cols_run 9 5 m i = Some (Ok (j, IterCols (0, 0) (2, 2) (2, 2))) /\ map (option_map fst) j = [Some (0, 0); Some (1, 0); Some (0, 1); Some (2, 2); None]).
Proof.
  do 2 eexists. split; [vm_compute; reflexivity|]. split; [vm_compute; reflexivity|]. split; [vm_compute; reflexivity|]. eexists. split; vm_compute; reflexivity.
Qed.
(** For a rectangle of no columns the hint is 0, but its first cell comes, and then a panic. *)
Theorem C73_cols_refuted : exists m i, run_ops [((0, 0), SetValue (VBool true)); ((1, 0), SetValue (VBool true))] [] = Ok m
  /\ cols_new (Included (0, 0)) (Excluded (2, 0)) m = Ok i /\ cols_size_hint i = Ok (0, Some 0)
  /\ (exists x j, cols_next 9 m i = Some (Ok (Some x, j)) /\ fst x = (0, 0) /\ cols_next 9 m j = Some Panic).
Proof.
  do 2 eexists. split; [vm_compute; reflexivity|]. split; [vm_compute; reflexivity|]. split; [vm_compute; reflexivity|]. do 2 eexists. split; [vm_compute; reflexivity|]. vm_compute. split; reflexivity.
Qed.

(** ** Counting *)
(** The number of cells is the number of positions that have one. *)
Theorem C73_count : forall m, om_sorted pltb m -> exists l, NoDup l /\ (forall p, In p l <-> sh_ref p m <> None) /\ cell_count m = N.of_nat (length l).
Proof.
  intros m Hs. exists (map fst m). split; [now apply (sorted_nodup pltb pltb_order)|]. split; [|unfold cell_count; now rewrite map_length].
  intros p. unfold sh_ref, sh_cell. split.
  - intros H. apply in_map_iff in H as ([q c] & <- & H). apply (get_in pltb pltb_order _ _ _ Hs) in H. cbn [fst]. rewrite H. discriminate.
  - destruct (om_get pltb p m) as [c|] eqn:E; [|intros X; now destruct X]. intros _. apply (get_in pltb pltb_order _ _ _ Hs) in E. now apply (in_map fst) in E.
Qed.
(** The maximum of the headers is the largest number at which a header begins. *)
Theorem C73_header_max : forall A (m : hmap A), (forall k h, In (k, h) m -> k <= header_max m) /\ (m <> [] -> exists h, In (header_max m, h) m) /\ (m = [] -> header_max m = 0).
Proof.
  intros A m. unfold header_max.
  assert (K : forall (m : hmap A) a, let x := fold_left (fun mx k => N.max mx k) (map fst m) a in a <= x /\ (forall k h, In (k, h) m -> k <= x) /\ (x = a \/ exists h, In (x, h) m)).
  { clear. induction m as [|[k h] m IH]; intros a; cbn [map fold_left fst]; [cbn; repeat split; try lia; try contradiction; now left|].
    specialize (IH (N.max a k)). cbn zeta in *. set (x := fold_left _ _ _) in *. destruct IH as (B & C & D). split; [lia|]. split.
    - intros k' h' [E|E]; [injection E as <- <-; lia|now apply (C k' h')].
    - destruct D as [D|(h' & D)]; [|right; exists h'; now right]. destruct (N.max_spec a k) as [[? E]|[? E]]; rewrite E in D; [right; exists h; left; congruence|now left]. }
  destruct (K m 0) as (_ & B & C). split; [exact B|]. split; [|intros ->; reflexivity].
  intros Hm. destruct C as [C|C]; [|exact C]. destruct m as [|[k h] m]; [congruence|]. exists h. left. f_equal. rewrite C. specialize (B k h (or_introl eq_refl)). lia.
Qed.
(** It is not the last row or column a header covers, though the headers read from a file do cover several. *)
Theorem C73_header_max_refuted : exists (m : hmap N), m = [(2, mkHdr 0 5)] /\ header_max m = 2 /\ 2 + 5 - 1 > header_max m.
Proof. eexists. split; [reflexivity|]. vm_compute. split; reflexivity. Qed.

Print Assumptions C73_ends.
Print Assumptions C73_range.
Print Assumptions C73_len_refuted.
Print Assumptions C73_len_sheet_refuted.
Print Assumptions C73_iter_partial.
Print Assumptions C73_iter_refuted.
Print Assumptions C73_rows_partial.
Print Assumptions C73_rows_refuted.
Print Assumptions C73_rows_all_refuted.
Print Assumptions C73_rows_excluded_refuted.
Print Assumptions C73_cols_partial.
Print Assumptions C73_cols_outcome.
Print Assumptions C73_cols_panic_refuted.
Print Assumptions C73_cols_overrun.
Print Assumptions C73_cols_refuted.
Print Assumptions C73_count.
Print Assumptions C73_header_max.
Print Assumptions C73_header_max_refuted.

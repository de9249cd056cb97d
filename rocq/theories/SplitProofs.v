From Verif Require Import Base Lib OMap OMapProofs RefsModel CellModel SplitModel SplitSpec.

(** What a list of pieces says about each column. *)
Definition piece_cols (s : split) : list (N * bool) :=
  map (fun k => (k, s_hidden s)) (columns (N.to_nat (s_to s - s_col s + 1)) (s_col s)).
Definition pieces_cols (l : list split) : list (N * bool) := flat_map piece_cols l.
Fixpoint alternating (l : list split) : Prop :=
  match l with
  | a :: (b :: _) as r => s_hidden a <> s_hidden b /\ s_to a + 1 = s_col b /\ alternating r
  | _ => True
  end.

Lemma columns_snoc n c : columns (S n) c = columns n c ++ [c + N.of_nat n].
Proof.
  revert c. induction n as [|n IH]; intros c; [cbn; f_equal; lia|].
  change (columns (S (S n)) c) with (c :: columns (S n) (c + 1)). rewrite IH.
  cbn [columns app]. do 3 f_equal. lia.
Qed.
Lemma columns_in n c k : In k (columns n c) <-> c <= k < c + N.of_nat n.
Proof.
  revert c. induction n as [|n IH]; intros c; cbn [columns In]; [lia|]. rewrite IH. lia.
Qed.
Lemma columns_length n c : length (columns n c) = n.
Proof. revert c. induction n; cbn; auto. Qed.

Lemma split_loop_cols hid n : forall c s, s_col s <= s_to s -> s_to s + 1 = c ->
  pieces_cols (split_loop hid n c (Some s)) = piece_cols s ++ map (fun k => (k, hid k)) (columns n c).
Proof.
  induction n as [|n IH]; intros c s Hs Hc; cbn [split_loop columns map].
  - cbn. now rewrite !app_nil_r.
  - destruct (Bool.eqb (s_hidden s) (hid c)) eqn:E.
    + apply Bool.eqb_prop in E. rewrite IH; cbn [s_col s_to]; [|lia|lia].
      assert (P : piece_cols (mkSplit (s_col s) c (hid c)) = piece_cols s ++ [(c, hid c)]).
      { unfold piece_cols. cbn [s_col s_to s_hidden].
        replace (N.to_nat (c - s_col s + 1)) with (S (N.to_nat (s_to s - s_col s + 1))) by lia.
        rewrite columns_snoc, map_app, E. cbn [map]. do 3 f_equal. lia. }
      rewrite P, <- app_assoc. reflexivity.
    + cbn [pieces_cols flat_map]. fold pieces_cols. change (flat_map piece_cols) with pieces_cols.
      rewrite IH; cbn [s_col s_to]; [|lia|lia].
      unfold piece_cols at 2. cbn [s_col s_to s_hidden].
      replace (N.to_nat (c - c + 1)) with 1%nat by lia. reflexivity.
Qed.
Lemma split_loop_head hid n : forall c s, exists s' l,
  split_loop hid n c (Some s) = s' :: l /\ s_col s' = s_col s /\ (s_hidden s' = s_hidden s).
Proof.
  induction n as [|n IH]; intros c s; cbn [split_loop]; [eauto 6|].
  destruct (Bool.eqb (s_hidden s) (hid c)) eqn:E; [|eauto 6].
  apply Bool.eqb_prop in E.
  destruct (IH (c + 1) (mkSplit (s_col s) c (hid c))) as (s' & l & A & B & C). cbn in *. rewrite A.
  exists s', l. repeat split; congruence.
Qed.
Lemma split_loop_alt hid n : forall c s, s_col s <= s_to s -> s_to s + 1 = c ->
  alternating (split_loop hid n c (Some s)) /\ Forall (fun s => s_col s <= s_to s) (split_loop hid n c (Some s)).
Proof.
  induction n as [|n IH]; intros c s Hs Hc; cbn [split_loop]; [cbn; repeat constructor; auto|].
  destruct (Bool.eqb (s_hidden s) (hid c)) eqn:E.
  - apply IH; cbn; lia.
  - apply Bool.eqb_false_iff in E.
    destruct (IH (c + 1) (mkSplit c c (hid c))) as [A B]; cbn; try lia.
    destruct (split_loop_head hid n (c + 1) (mkSplit c c (hid c))) as (s' & l & P & Q & R).
    rewrite P in *. cbn in Q, R. split; [|constructor; auto].
    cbn [alternating]. repeat split; auto; [congruence|rewrite Q; auto].
Qed.

(** [split_hidden] in terms of the ranges. *)
Lemma existsb_filter {A} (p q : A -> bool) l : existsb p (filter q l) = existsb (fun x => q x && p x) l.
Proof. induction l as [|a l IH]; cbn; auto. destruct (q a); cbn; now rewrite IH. Qed.
Lemma existsb_ext_in {A} (p q : A -> bool) l : (forall x, In x l -> p x = q x) -> existsb p l = existsb q l.
Proof. induction l; cbn; intros H; auto. rewrite H, IHl; auto. Qed.

Lemma split_hidden_spec rs row col n l : split_hidden rs row col n = Ok l ->
  pieces_cols l = map (fun k => (k, existsb (fun v => range_contains v row k) rs)) (columns (N.to_nat n) col)
  /\ alternating l /\ Forall (fun s => s_col s <= s_to s) l.
Proof.
  unfold split_hidden. destruct (N.eqb_spec n 1) as [->|Hn].
  - change (N.to_nat 1) with 1%nat. cbn [columns map].
    destruct (existsb _ rs); intros H; assert (l = [mkSplit col col true] \/ l = [mkSplit col col false]) as L
      by (auto; left + right; congruence).
    all: inversion H; subst; unfold pieces_cols, piece_cols; cbn [flat_map s_col s_to s_hidden app];
      replace (N.to_nat (col - col + 1)) with 1%nat by lia; cbn; repeat split; auto;
      constructor; auto; cbn; lia.
  - destruct (add32 col n) eqn:E; cbn [bind]; try discriminate.
    intros H. injection H as <-.
    destruct (N.to_nat n) as [|m] eqn:Em; [cbn; repeat split; auto|].
    cbn [split_loop columns map].
    set (hid := fun c => existsb _ _).
    assert (Hh : forall c, hid c = existsb (fun v => range_contains v row c) rs).
    { intros c. unfold hid. rewrite existsb_filter. apply existsb_ext_in. intros v _. unfold range_contains.
      destruct (rg_row v <=? row), (row <=? rg_to_row v); reflexivity. }
    destruct (split_loop_alt hid m (col + 1) (mkSplit col col (hid col))) as [A B]; cbn; try lia.
    rewrite split_loop_cols; cbn [s_col s_to]; try lia.
    split; [|auto]. rewrite <- Hh. unfold piece_cols. cbn [s_col s_to s_hidden].
    replace (N.to_nat (col - col + 1)) with 1%nat by lia. cbn [columns map app]. f_equal.
    apply map_ext. intros; now rewrite Hh.
Qed.

Lemma sum_repeat l : Forall (fun s => s_col s <= s_to s) l ->
  N.of_nat (length (pieces_cols l)) = fold_right (fun s n => s_to s - s_col s + 1 + n) 0 l.
Proof.
  induction 1 as [|s l Hs Hl IH]; cbn [pieces_cols flat_map fold_right]; auto.
  change (flat_map piece_cols l) with (pieces_cols l). rewrite app_length. unfold piece_cols at 1.
  rewrite map_length, columns_length. lia.
Qed.

(** The positions written later than [(row, col)], in the order of writing. *)
Definition later (row col : N) (p : pos) : Prop := row < fst p \/ (row = fst p /\ col <= snd p).
Lemma outlived_keeps rs row col p : later row col p ->
  existsb (fun v => range_contains v (fst p) (snd p)) (remove_outlived rs row col)
  = existsb (fun v => range_contains v (fst p) (snd p)) rs.
Proof.
  intros L. unfold remove_outlived. rewrite existsb_filter. apply existsb_ext_in. intros v _.
  unfold range_contains, out_looped, later in *. destruct p as [r c]; cbn in *. lia.
Qed.

(** The model's span list represents the owners for all later positions. *)
Definition represents (spans : list cellrange) (own : list (pos * cell)) (row col : N) : Prop :=
  forall p, later row col p -> existsb (fun v => range_contains v (fst p) (snd p)) spans = covered own p.

Lemma later_trans r c r' c' p : later r c (r', c') -> later r' c' p -> later r c p.
Proof. unfold later; cbn. lia. Qed.

Lemma represents_later spans own r c r' c' : later r c (r', c') -> represents spans own r c -> represents spans own r' c'.
Proof. intros L R p Hp. apply R. eapply later_trans; eauto. Qed.

Lemma origin_span_spec r c h w v : origin_span r c (h, w) = Ok v ->
  forall p, range_contains v (fst p) (snd p) = (r <=? fst p) && (fst p <? r + h) && (c <=? snd p) && (snd p <? c + w).
Proof.
  unfold origin_span. cbn [fst snd]. destruct (0 <? h) eqn:H1, (0 <? w) eqn:H2; cbn; try discriminate.
  unfold add32, sub32.
  destruct (r + h <=? u32_max) eqn:E1; cbn; try discriminate.
  destruct (1 <=? r + h) eqn:E2; cbn; try discriminate.
  destruct (c + w <=? u32_max) eqn:E3; cbn; try discriminate.
  destruct (1 <=? c + w) eqn:E4; cbn; try discriminate.
  intros H p. injection H as <-. unfold range_contains. cbn. lia.
Qed.

Definition own_step own kv := if spanning kv && negb (covered own (fst kv)) then own ++ [kv] else own.

Lemma hide_cell_spec spans own row col d spans' sp :
  represents spans own row col -> hide_cell spans ((row, col), d) = Ok (spans', sp) ->
  represents spans' (own_step own ((row, col), d)) row col
  /\ pieces_cols sp = map (fun k => (k, covered own (row, k))) (columns (N.to_nat (c_repeat d)) col)
  /\ alternating sp /\ Forall (fun s => s_col s <= s_to s) sp.
Proof.
  intros R. unfold hide_cell.
  destruct (split_hidden (remove_outlived spans row col) row col (c_repeat d)) as [l| |] eqn:E; cbn [bind]; try discriminate.
  apply split_hidden_spec in E as (E1 & E2 & E3).
  assert (C : forall k, col <= k -> existsb (fun v => range_contains v row k) (remove_outlived spans row col) = covered own (row, k)).
  { intros k Hk. pose proof (outlived_keeps spans row col (row, k)) as K. cbn in K. rewrite K by (unfold later; cbn; lia).
    apply (R (row, k)). unfold later; cbn; lia. }
  assert (C2 : pieces_cols l = map (fun k => (k, covered own (row, k))) (columns (N.to_nat (c_repeat d)) col)).
  { rewrite E1. apply map_ext_in. intros k Hk. apply columns_in in Hk. rewrite C by lia. reflexivity. }
  assert (R1 : represents (remove_outlived spans row col) own row col).
  { intros p Hp. rewrite outlived_keeps by auto. now apply R. }
  unfold own_step, spanning, spans_of. cbn [fst snd].
  destruct (c_extra d) as [x|] eqn:Ex.
  - destruct l as [|s0 l]; [discriminate|].
    (* the first piece tells whether the cell itself is covered *)
    assert (H0 : s_hidden s0 = covered own (row, col)).
    { inversion E3; subst. unfold pieces_cols in C2. cbn [flat_map] in C2. unfold piece_cols at 1 in C2.
      replace (N.to_nat (s_to s0 - s_col s0 + 1)) with (S (N.to_nat (s_to s0 - s_col s0))) in C2 by lia.
      cbn [columns map app] in C2.
      destruct (N.to_nat (c_repeat d)); cbn [columns map] in C2; [discriminate|]. congruence. }
    rewrite H0. destruct (covered own (row, col)) eqn:Hc; cbn [negb andb].
    + intros H. assert (spans' = remove_outlived spans row col /\ sp = s0 :: l) as [-> ->] by (split; congruence).
      rewrite andb_false_r. auto.
    + rewrite andb_true_r. destruct ((1 <? rspan (x_span x)) || (1 <? cspan_ (x_span x))) eqn:Hsp; cbn.
      * destruct (origin_span row col (rspan (x_span x), cspan_ (x_span x))) as [v| |] eqn:Eo; cbn [bind]; try discriminate.
        intros H. assert (spans' = remove_outlived spans row col ++ [v] /\ sp = s0 :: l) as [-> ->] by (split; congruence).
        repeat split; auto. intros p Hp. rewrite existsb_app. unfold covered. rewrite existsb_app.
        rewrite (R1 p Hp). unfold covered. f_equal. cbn [existsb]. rewrite !orb_false_r.
        rewrite (origin_span_spec _ _ _ _ _ Eo). unfold claims, spans_of. rewrite Ex. reflexivity.
      * intros H. assert (spans' = remove_outlived spans row col /\ sp = s0 :: l) as [-> ->] by (split; congruence). auto.
  - intros H. assert (spans' = remove_outlived spans row col /\ sp = l) as [-> ->] by (split; congruence).
    cbn. auto.
Qed.

Lemma later_of_lt r c p : pltb (r, c) p = true -> later r c p.
Proof. unfold pltb, later. destruct p; cbn. lia. Qed.

Lemma hide_cells_spec l : forall spans own out r0 c0,
  (forall kv, In kv l -> later r0 c0 (fst kv)) -> om_sorted pltb l -> represents spans own r0 c0 ->
  hide_cells spans l = Ok out ->
  length out = length l /\
  forall pre row col d post, l = pre ++ ((row, col), d) :: post ->
  exists sp, nth_error out (length pre) = Some ((row, col), sp)
    /\ pieces_cols sp = map (fun k => (k, covered (owners own pre) (row, k))) (columns (N.to_nat (c_repeat d)) col)
    /\ alternating sp /\ Forall (fun s => s_col s <= s_to s) sp.
Proof.
  induction l as [|[[r c] d] l IH]; intros spans own out r0 c0 HL HS R.
  - cbn [hide_cells]. intros H. assert (out = []) as -> by congruence. split; auto. intros pre * H0. now destruct pre.
  - cbn [hide_cells]. intros H. apply bind_ok in H as ([spans' sp] & E & H).
    apply bind_ok in H as (rest & E2 & H).
    inversion H; subst out; clear H. cbn [fst].
    assert (L0 : later r0 c0 (r, c)) by (apply (HL ((r, c), d)); left; auto).
    pose proof (represents_later _ _ _ _ _ _ L0 R) as R'.
    destruct (hide_cell_spec _ _ _ _ _ _ _ R' E) as (R2 & P & A & F).
    destruct HS as [HS1 HS2].
    assert (HL2 : forall kv, In kv l -> later r c (fst kv)).
    { intros kv Hi. rewrite Forall_forall in HS1. apply later_of_lt. now apply HS1. }
    destruct (IH spans' (own_step own ((r, c), d)) rest r c HL2 HS2 R2 E2) as [Len Q].
    split; [cbn; congruence|].
    intros pre row col d' post Heq. destruct pre as [|a pre]; cbn in Heq.
    + injection Heq as -> -> -> ->. cbn. eauto.
    + injection Heq as <- ->. cbn [length nth_error owners]. apply (Q pre row col d' post eq_refl).
Qed.

Lemma represents_nil : represents [] [] 0 0.
Proof. intros p _. reflexivity. Qed.

Lemma C22_covered_thm data out : om_sorted pltb data -> hide_cells [] data = Ok out ->
  length out = length data /\
  forall pre row col d post, data = pre ++ ((row, col), d) :: post ->
  exists sp, nth_error out (length pre) = Some ((row, col), sp)
    /\ pieces_cols sp = map (fun k => (k, covered (owners [] pre) (row, k))) (columns (N.to_nat (c_repeat d)) col)
    /\ alternating sp /\ Forall (fun s => s_col s <= s_to s) sp.
Proof.
  intros S H. apply (hide_cells_spec data [] [] out 0 0); auto using represents_nil.
  intros [[r c] d] _. unfold later; cbn. lia.
Qed.

(** When nothing overflows the cells are written. *)
Lemma split_hidden_total rs row col n : col + n <= u32_max -> 
  exists l, split_hidden rs row col n = Ok l /\ (0 < n -> l <> []).
Proof.
  intros B. unfold split_hidden. destruct (n =? 1) eqn:E.
  - destruct (existsb _ rs); eexists; (split; [reflexivity|]); intros _; discriminate.
  - unfold add32. rewrite (proj2 (N.leb_le _ _) B). cbn [bind]. eexists. split; [reflexivity|].
    intros Hn. destruct (N.to_nat n) as [|m] eqn:Em; [lia|]. cbn [split_loop].
    match goal with |- split_loop ?h ?m ?c (Some ?s) <> [] => destruct (split_loop_head h m c s) as (s' & l & P & _) end.
    rewrite P. discriminate.
Qed.
Definition fits (kv : pos * cell) : Prop :=
  let '((r, c), d) := kv in
  1 <= c_repeat d /\ c + c_repeat d <= u32_max /\
  let (h, w) := spans_of d in 1 <= h /\ 1 <= w /\ r + h <= u32_max /\ c + w <= u32_max.
Lemma hide_cells_total l : forall spans, Forall fits l -> exists out, hide_cells spans l = Ok out.
Proof.
  induction l as [|[[r c] d] l IH]; intros spans F; [cbn; eauto|].
  inversion F as [|? ? F1 F2]; subst. unfold fits, spans_of in F1. cbn [hide_cells].
  destruct F1 as (R1 & R2 & R3).
  assert (exists s' sp, hide_cell spans (@pair pos cell (r, c) d) = Ok (s', sp)) as (s' & sp & ->).
  { unfold hide_cell. destruct (split_hidden_total (remove_outlived spans r c) r c (c_repeat d) R2) as (l0 & -> & N0).
    cbn [bind]. destruct (c_extra d) as [x|]; [|eauto].
    destruct l0 as [|s0 l0]; [exfalso; apply N0; auto; lia|].
    destruct (negb _ && _); [|eauto]. unfold origin_span. cbn [fst snd].
    destruct R3 as (A & B & C & D).
    replace (0 <? rspan (x_span x)) with true by lia. replace (0 <? cspan_ (x_span x)) with true by lia.
    cbn [andb]. unfold add32, sub32.
    replace (r + rspan (x_span x) <=? u32_max) with true by lia. cbn [bind].
    replace (1 <=? r + rspan (x_span x)) with true by lia. cbn [bind].
    replace (c + cspan_ (x_span x) <=? u32_max) with true by lia. cbn [bind].
    replace (1 <=? c + cspan_ (x_span x)) with true by lia. cbn [bind]. eauto. }
  cbn [bind]. destruct (IH s' F2) as [out ->]. cbn. eauto.
Qed.

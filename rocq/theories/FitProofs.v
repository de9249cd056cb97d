(** Proofs for FitProps.v. *)
From Coq Require Import Lia Sorted.
From Verif Require Import Base Lib OMap RefsModel RefsSpec RefsProofs CellModel HeaderModel HeaderSpec HeaderProofs SplitModel SplitSpec SplitProofs NumModel CellIoModel TableModel TableSpec TableCells TableRead TableWhole FitSpec.

Lemma add_in a b : a + b <= u32_max -> add32 a b = Ok (a + b).
Proof. intros H. unfold add32. now rewrite (proj2 (N.leb_le _ _) H). Qed.
Lemma sub_in a b : b <= a -> sub32 a b = Ok (a - b).
Proof. intros H. unfold sub32. now rewrite (proj2 (N.leb_le _ _) H). Qed.

(** ** Groups *)
Definition cnt (f : grouped -> bool) (l : list grouped) : N := N.of_nat (length (filter f l)).
Lemma cnt_cons f g l : cnt f (g :: l) = (if f g then 1 else 0) + cnt f l.
Proof. unfold cnt. cbn [filter]. destruct (f g); cbn [length]; lia. Qed.
Lemma cnt_le f f' l : (forall g, In g l -> f g = true -> f' g = true) -> cnt f l <= cnt f' l.
Proof.
  induction l as [|g l IH]; intros H; [cbn; lia|]. rewrite !cnt_cons. specialize (IH (fun x I => H x (or_intror I))).
  pose proof (H g (or_introl eq_refl)). destruct (f g); [rewrite H0 by reflexivity; lia|destruct (f' g); lia].
Qed.
Lemma cnt_add f f' h l : (forall g, In g l -> h g = f g || f' g) -> (forall g, In g l -> f g = true -> f' g = false) -> cnt h l = cnt f l + cnt f' l.
Proof.
  induction l as [|g l IH]; intros H D; [reflexivity|]. rewrite !cnt_cons, (IH (fun x I => H x (or_intror I)) (fun x I => D x (or_intror I))).
  rewrite (H g (or_introl eq_refl)). specialize (D g (or_introl eq_refl)). destruct (f g); [rewrite D by reflexivity|destruct (f' g)]; cbn [orb]; lia.
Qed.
(** Groups begun and ended before a row; groups begun and ended in some rows. *)
Definition begun (gs : list grouped) (q : N) : N := cnt (fun g => g_from g <? q) gs.
Definition ended (gs : list grouped) (q : N) : N := cnt (fun g => g_to g <? q) gs.
Lemma begun_more gs r n : begun gs (r + n) = begun gs r + cnt (fun g => (r <=? g_from g) && (g_from g <? r + n)) gs.
Proof. apply cnt_add; intros g _; lia. Qed.
Lemma ended_more gs r n : ended gs (r + n) = ended gs r + cnt (fun g => (r <=? g_to g) && (g_to g <? r + n)) gs.
Proof. apply cnt_add; intros g _; lia. Qed.
Lemma ended_begun gs q : (forall g, In g gs -> g_from g <= g_to g) -> ended gs q <= begun gs q.
Proof. intros H. apply cnt_le. intros g I. specialize (H g I). lia. Qed.

Lemma within_ok r rep k : 1 <= rep -> r + rep <= u32_max -> within r rep k = Ok ((r <=? k) && (k <? r + rep)).
Proof.
  intros R B. unfold within. destruct (N.eqb_spec k r); [f_equal; lia|]. destruct (r <? k) eqn:E; [|f_equal; lia].
  rewrite add_in by lia. cbn [bind]. f_equal. lia.
Qed.
Lemma open_ok r rep gs : 1 <= rep -> r + rep <= u32_max -> forall s, exists o,
  open_groups r rep gs s = Ok (o, WST (w_count s + cnt (fun g => (r <=? g_from g) && (g_from g <? r + rep)) gs) (w_head s)).
Proof.
  intros R B. induction gs as [|g gs IH]; intros s; cbn [open_groups].
  - exists []. destruct s as [n h]. cbn. now rewrite N.add_0_r.
  - rewrite within_ok by assumption. cbn [bind]. rewrite cnt_cons. destruct (_ && _) eqn:E.
    + destruct (IH (WST (w_count s + 1) (w_head s))) as (o & ->). cbn [bind w_count w_head]. eexists. do 3 f_equal. lia.
    + destruct (IH s) as (o & ->). eexists. do 3 f_equal.
Qed.
Lemma close_ok r rep gs : 1 <= rep -> r + rep <= u32_max -> forall s, cnt (fun g => (r <=? g_to g) && (g_to g <? r + rep)) gs <= w_count s -> exists o,
  close_groups r rep gs s = Ok (o, WST (w_count s - cnt (fun g => (r <=? g_to g) && (g_to g <? r + rep)) gs) (w_head s)).
Proof.
  intros R B. induction gs as [|g gs IH]; intros s C; cbn [close_groups].
  - exists []. destruct s as [n h]. cbn. now rewrite N.sub_0_r.
  - rewrite within_ok by assumption. cbn [bind]. rewrite cnt_cons in C |- *. destruct (_ && _) eqn:E.
    + rewrite sub_in by lia. cbn [bind]. destruct (IH (WST (w_count s - 1) (w_head s))) as (o & ->); [cbn [w_count]; lia|]. cbn [bind w_count w_head]. eexists. do 3 f_equal. lia.
    + destruct (IH s) as (o & ->); [lia|]. eexists. do 3 f_equal.
Qed.
Lemma close_at_ok r gs : forall n, cnt (fun g => g_to g =? r) gs <= n -> exists o, close_at r gs n = Ok (o, n - cnt (fun g => g_to g =? r) gs).
Proof.
  induction gs as [|g gs IH]; intros n C; cbn [close_at]; [exists []; cbn; now rewrite N.sub_0_r|].
  rewrite cnt_cons in C |- *. destruct (g_to g =? r) eqn:E.
  - rewrite sub_in by lia. cbn [bind]. destruct (IH (n - 1)) as (o & ->); [lia|]. cbn [bind]. eexists. do 2 f_equal. lia.
  - destruct (IH n) as (o & ->); [lia|]. eexists. do 2 f_equal.
Qed.

Section Sheet.
  Variable sh : sheet.
  Let gs := tb_grows sh.
  Hypothesis rows_fine : disjoint (tb_rows sh).
  Hypothesis groups_fine : forall g, In g gs -> g_from g <= g_to g.

  Lemma within_header_ok r rep k : r + rep <= u32_max -> exists b, within_header r rep k = Ok b.
  Proof. intros B. unfold within_header. destruct (_ <=? _); [rewrite add_in by lia; cbn; eauto|eauto]. Qed.
  Lemma start_ok r rep back s : 1 <= rep -> r + rep <= u32_max -> w_count s = begun gs r - ended gs r ->
    exists o s', start_row sh r rep back s = Ok (o, s') /\ w_count s' = begun gs (r + rep) - ended gs r.
  Proof.
    intros R B C. unfold start_row. destruct (open_ok r rep gs R B s) as (o & E). unfold gs in E. rewrite E. cbn [bind]. clear E.
    assert (exists hd, (match tb_hrows sh with Some (f, _) => within_header r rep f | None => Ok false end) = Ok hd) as (hd & ->).
    { destruct (tb_hrows sh) as [[f t]|]; [now apply within_header_ok|eauto]. }
    cbn [bind]. unfold row_attrs. destruct (disjoint_total _ rows_fine r) as (v & ->). cbn [bind].
    eexists. eexists. split; [reflexivity|]. cbn [w_count]. fold gs. rewrite C, begun_more. pose proof (ended_begun gs r groups_fine). lia.
  Qed.
  Lemma end_ok r rep s : 1 <= rep -> r + rep <= u32_max -> w_count s = begun gs (r + rep) - ended gs r ->
    exists o s', end_row sh r rep s = Ok (o, s') /\ w_count s' = begun gs (r + rep) - ended gs (r + rep).
  Proof.
    intros R B C. unfold end_row.
    assert (exists hd, (match tb_hrows sh with Some (_, t) => within_header r rep t | None => Ok false end) = Ok hd) as (hd & ->).
    { destruct (tb_hrows sh) as [[f t]|]; [now apply within_header_ok|eauto]. }
    cbn [bind]. pose proof (ended_begun gs (r + rep) groups_fine) as L. rewrite ended_more in L.
    destruct (close_ok r rep gs R B (WST (w_count s) (w_head s && negb hd))) as (o & E); [cbn [w_count]; lia|]. unfold gs in E. rewrite E. cbn [bind].
    eexists. eexists. split; [reflexivity|]. cbn [w_count]. fold gs. rewrite C, ended_more. lia.
  Qed.
  Lemma empty_row_ok r rep w : exists o, empty_row sh r rep w = Ok o.
  Proof. unfold empty_row, empty_row_attrs. destruct (disjoint_total _ rows_fine r) as (v & ->). cbn. eauto. Qed.
  Lemma empty_in_ok r w s : (forall g, In g gs -> g_from g = g_to g -> g_from g <> r) -> w_count s = begun gs r - ended gs r ->
    exists o s', empty_row_in sh r w s = Ok (o, s') /\ w_count s' = begun gs (r + 1) - ended gs (r + 1).
  Proof.
    intros S C. unfold empty_row_in.
    assert (L : ended gs (r + 1) <= begun gs r).
    { apply cnt_le. intros g I T. specialize (S g I). pose proof (groups_fine g I). destruct (N.eq_dec (g_from g) (g_to g)) as [e|n]; [specialize (S e)|]; lia. }
    assert (E1 : forall f, cnt (fun g => (r <=? f g) && (f g <? r + 1)) gs = cnt (fun g => f g =? r) gs).
    { intros f. apply N.le_antisymm; apply cnt_le; intros g _; lia. }
    rewrite ended_more, (E1 g_to) in L. destruct (close_at_ok r gs (w_count s)) as (o & E); [lia|]. unfold gs in E. rewrite E. cbn [bind].
    destruct (empty_row_ok r 1 w) as (row & ->). cbn [bind]. eexists. eexists. split; [reflexivity|]. cbn [w_count]. fold gs.
    unfold opens. rewrite map_length. change (N.of_nat (length (filter (fun g => g_from g =? r) gs))) with (cnt (fun g => g_from g =? r) gs).
    rewrite begun_more, ended_more, (E1 g_from), (E1 g_to). lia.
  Qed.
  Lemma empties_in_ok w n : forall r s, (forall k, r <= k < r + N.of_nat n -> forall g, In g gs -> g_from g = g_to g -> g_from g <> k) ->
    w_count s = begun gs r - ended gs r ->
    exists o s', empty_rows_in sh n r w s = Ok (o, s') /\ w_count s' = begun gs (r + N.of_nat n) - ended gs (r + N.of_nat n).
  Proof.
    induction n as [|n IH]; intros r s S C; cbn [empty_rows_in].
    - eexists. eexists. split; [reflexivity|]. now rewrite N.add_0_r.
    - destruct (empty_in_ok r w s) as (a & s1 & -> & C1); [apply S; lia|exact C|]. cbn [bind].
      destruct (IH (r + 1) s1) as (b & s2 & -> & C2); [intros k K; apply S; lia|exact C1|]. cbn [bind].
      eexists. eexists. split; [reflexivity|]. rewrite C2. f_equal; f_equal; lia.
  Qed.
  Lemma empties_ok r n w s : r + n <= u32_max -> (forall k, r <= k < r + n -> forall g, In g gs -> g_from g = g_to g -> g_from g <> k) ->
    w_count s = begun gs r - ended gs r ->
    exists o s', empty_rows sh r n w s = Ok (o, s') /\ w_count s' = begun gs (r + n) - ended gs (r + n).
  Proof.
    intros B S C. unfold empty_rows. destruct (negb (is_nil (tb_grows sh)) || CellModel.is_some (tb_hrows sh)) eqn:G.
    - rewrite add_in by lia. cbn [bind]. destruct (empties_in_ok w (N.to_nat n) r s) as (o & s' & E & F).
      + intros k K. apply S. lia.
      + exact C.
      + exists o, s'. split; [exact E|]. rewrite F. f_equal; f_equal; lia.
    - destruct (empty_row_ok r n w) as (o & ->). cbn [bind]. exists o, s. split; [reflexivity|].
      assert (gs = []) as E by (unfold gs; destruct (tb_grows sh); [reflexivity|discriminate]). rewrite C, E. reflexivity.
  Qed.

  (** ** Cells *)
  Lemma pieces_ok f l : (Forall (fun s => s_col s <= s_to s /\ s_to s - s_col s + 1 <= u32_max) l) -> exists o, pieces f l = Ok o.
  Proof.
    induction 1 as [|s l (A & B) _ IH]; [cbn; eauto|]. cbn [pieces]. unfold s_repeat.
    rewrite sub_in by lia. cbn [bind]. rewrite add_in by lia. cbn [bind]. destruct IH as (o & ->). cbn. eauto.
  Qed.

  Lemma split_pieces rs r b n sp : split_hidden rs r b n = Ok sp -> b + n <= u32_max -> Forall (fun s => s_col s <= s_to s /\ s_to s - s_col s + 1 <= u32_max) sp.
  Proof.
    intros H B. apply split_hidden_spec in H as (H & _ & F). rewrite Forall_forall in *. intros s I. split; [auto|]. specialize (F s I).
    assert (J : In (s_to s, s_hidden s) (pieces_cols sp)).
    { unfold pieces_cols. apply in_flat_map. exists s. split; [exact I|]. unfold piece_cols. apply in_map_iff. exists (s_to s). split; [reflexivity|]. apply columns_in. lia. }
    rewrite H in J. apply in_map_iff in J as (k & E & J). injection E as -> _. apply columns_in in J. lia.
  Qed.
  Lemma hide_ok spans p c : cell_inside (p, c) -> exists spans' sp o, hide_cell spans (p, c) = Ok (spans', sp) /\ pieces (TCell c) sp = Ok o.
  Proof.
    destruct p as [r b]. intros (Hr & Hk & Hb & Hx).
    assert (F : Forall fits [((r, b), c)]).
    { constructor; [|constructor]. unfold fits, spans_of. split; [exact Hk|]. split; [exact Hb|]. destruct (c_extra c) as [x|]; [|repeat split; lia]. exact (Hx x eq_refl). }
    destruct (hide_cells_total _ spans F) as (out & E). cbn [hide_cells] in E. apply bind_ok in E as ((spans' & sp) & E & _).
    destruct (hide_cell_split _ _ _ _ _ E) as (rs & E2). destruct (pieces_ok (TCell c) sp) as (o & Eo); [eapply split_pieces; [exact E2|exact Hb]|].
    exists spans', sp, o. split; [exact E|exact Eo].
  Qed.
  Lemma gap_ok spans r b w : b + w <= u32_max -> exists o, gap_cells spans r b w = Ok o.
  Proof.
    intros B. unfold gap_cells. destruct (0 <? w); [|eauto]. destruct (split_hidden_total spans r b w B) as (sp & E & _). rewrite E. cbn [bind].
    apply pieces_ok. eapply split_pieces; [exact E|exact B].
  Qed.

  (** No overlap with the row before and the cell behind. *)
  Definition row_clear (pv : option prev) (p : pos) : bool :=
    match pv with None => true | Some v => (fst p =? pv_row v) || (pv_row v + pv_rep v <=? fst p) end.
  Definition cell_clear (p : pos) (c : cell) (next : option pos) : bool :=
    match next with Some q => negb (fst q =? fst p) || (snd p + c_repeat c <=? snd q) | None => true end.
  Definition rep_at (r : N) : N := row_repeat_at (tb_rows sh) r.
  (** The rows before are done. *)
  Definition rows_done (pv : option prev) (s : wst) (p : pos) : Prop :=
    match pv with
    | None => s = WST 0 false
    | Some v => w_count s = begun gs (pv_row v + pv_rep v) - ended gs (pv_row v) /\ pv_rep v = rep_at (pv_row v) /\ 1 <= pv_rep v /\ pv_row v + pv_rep v <= u32_max
                /\ (pv_row v < fst p \/ pv_row v = fst p /\ pv_col v < snd p)
    end.
  Definition gap_free (pv : option prev) (p : pos) : Prop :=
    forall k, match pv with None => 0 | Some v => pv_row v + pv_rep v end <= k < fst p -> forall g, In g gs -> g_from g = g_to g -> g_from g <> k.

  Lemma cell_out mx pv spans s p c next : rows_done pv s p -> gap_free pv p -> cell_inside (p, c) ->
    fst p < fst mx -> snd p < snd mx -> fst mx <= u32_max -> snd mx <= u32_max -> 1 <= rep_at (fst p) -> fst p + rep_at (fst p) <= u32_max ->
    match next with Some q => (fst p < fst q \/ fst p = fst q /\ snd p < snd q) /\ fst q < fst mx /\ snd q < snd mx | None => True end ->
    if row_clear pv p && cell_clear p c next
    then exists o spans' s', write_cell_at sh mx pv spans s p c next = Ok (o, spans', s') /\ w_count s' = begun gs (fst p + rep_at (fst p)) - ended gs (fst p)
    else write_cell_at sh mx pv spans s p c next = Err.
  Proof.
    destruct p as [row col]. destruct mx as [mr mc]. cbn [fst snd]. intros D G I M1 M2 M3 M4 P1 P2 Hn.
    pose proof I as (I1 & I2 & I3 & _).
    match goal with |- context [write_cell_at ?a ?b ?c ?d ?e ?f ?g ?h] => remember (write_cell_at a b c d e f g h) as W eqn:HW end.
    unfold write_cell_at in HW. fold (rep_at row) in HW.
    match type of HW with _ = (let '(_, _) := ?X in _) => set (nn := X) in HW end.
    assert (Nn : row < fst nn \/ row = fst nn /\ col < snd nn) by (unfold nn; destruct next as [q|]; cbn [fst snd]; [exact (proj1 Hn)|lia]).
    destruct nn as [nrow ncol] eqn:En. cbn [fst snd] in Nn, HW. rewrite (sub_in nrow row) in HW by lia. cbn [bind] in HW.
    assert (Ec : (if 0 <? nrow - row then sub32 mc col else sub32 ncol col) = Ok (if 0 <? nrow - row then mc - col else ncol - col)).
    { destruct (0 <? nrow - row) eqn:Z; apply sub_in; lia. }
    rewrite Ec in HW. cbn [bind] in HW. clear Ec. set (fc := if 0 <? nrow - row then mc - col else ncol - col) in HW.
    set (pp := match pv with Some v => (pv_row v, pv_rep v, pv_col v) | None => (0, 1, 0) end) in HW.
    destruct pp as [[prow prep] pcol] eqn:Ep.
    assert (Pp : prow <= row /\ (row - prow = 0 -> pcol <= col)).
    { unfold pp in Ep. destruct pv as [v|]; injection Ep as <- <- <-; [|lia]. destruct D as (_ & _ & _ & _ & D). cbn [fst snd] in D. lia. }
    destruct Pp as (Pp1 & Pp2). rewrite (sub_in row prow) in HW by lia. cbn [bind] in HW.
    assert (Eb : (if 0 <? row - prow then Ok col else sub32 col pcol) = Ok (if 0 <? row - prow then col else col - pcol)).
    { destruct (0 <? row - prow) eqn:Z; [reflexivity|]. apply sub_in. apply Pp2. lia. }
    rewrite Eb in HW. cbn [bind] in HW. clear Eb.
    set (first := match pv with None => true | Some _ => false end) in HW.
    (* the end of the row before *)
    assert (X1 : exists o1 s1, (if (0 <? row - prow) && negb first then end_row sh prow prep s else Ok ([], s)) = Ok (o1, s1)
      /\ (0 <? row - prow = true -> w_count s1 = begun gs (if first then 0 else prow + prep) - ended gs (if first then 0 else prow + prep))
      /\ (0 <? row - prow = false -> s1 = s)).
    { unfold pp in Ep. destruct pv as [v|]; injection Ep as <- <- <-; unfold first; cbn [negb].
      - destruct D as (D1 & D2 & D3 & D4 & D5). destruct (0 <? row - pv_row v) eqn:Z; cbn [andb].
        + destruct (end_ok (pv_row v) (pv_rep v) s D3 D4 D1) as (o & s' & E & F). exists o, s'. split; [exact E|]. split; [auto|discriminate].
        + exists [], s. split; [reflexivity|]. split; [discriminate|auto].
      - rewrite andb_false_r. cbn in D. subst s. exists [], (WST 0 false). split; [reflexivity|]. split; [|auto]. intros _. cbn [w_count].
        assert (Z : begun gs 0 = 0). { unfold begun. assert (cnt (fun g => g_from g <? 0) gs <= cnt (fun _ => false) gs) by (apply cnt_le; intros g _; lia).
          assert (cnt (fun _ => false) gs = 0) by (clear; induction gs as [|g l IH]; [reflexivity|rewrite cnt_cons; lia]). lia. } lia. }
    destruct X1 as (o1 & s1 & E1 & S1 & S1'). rewrite E1 in HW. cbn [bind] in HW.
    destruct (row_clear pv (row, col)) eqn:Rc; cbn [andb].
    2:{ assert (Z : (0 <? row - prow) = true /\ (row - prow <? prep) = true).
        { unfold pp in Ep. unfold row_clear in Rc. destruct pv as [v|]; [|discriminate]. injection Ep as <- <- <-. cbn [fst] in Rc. lia. }
        destruct Z as (Z1 & Z2). rewrite Z1, Z2 in HW. exact HW. }
    (* rows without cells *)
    assert (X2 : exists o2 s2, (if 0 <? row - prow then
        if row - prow <? prep then Err
        else let* synth := (if first then add32 (row - prow - prep) 1 else Ok (row - prow - prep)) in
             let* r0 := sub32 row synth in
             if 0 <? synth then empty_rows sh r0 synth mc s1 else Ok ([], s1)
        else Ok ([], s1)) = Ok (o2, s2)
      /\ ((0 <? row - prow) || first = true -> w_count s2 = begun gs row - ended gs row) /\ ((0 <? row - prow) || first = false -> s2 = s)).
    { destruct (0 <? row - prow) eqn:Z; cbn [orb].
      - specialize (S1 eq_refl). clear S1'.
        unfold pp in Ep. destruct pv as [v|]; injection Ep as <- <- <-; unfold first in *.
        + destruct (row - pv_row v <? pv_rep v) eqn:Y; [unfold row_clear in Rc; cbn [fst] in Rc; lia|]. cbn [bind]. rewrite sub_in by lia. cbn [bind].
          destruct (0 <? row - pv_row v - pv_rep v) eqn:W2.
          * replace (row - (row - pv_row v - pv_rep v)) with (pv_row v + pv_rep v) by lia.
            destruct (empties_ok (pv_row v + pv_rep v) (row - pv_row v - pv_rep v) mc s1) as (o & s2 & E & F); [lia| |exact S1|].
            -- intros k K. apply G. cbn [fst]. lia.
            -- exists o, s2. split; [exact E|]. split; [|discriminate]. intros _. rewrite F. f_equal; f_equal; lia.
          * exists [], s1. split; [reflexivity|]. split; [|discriminate]. intros _. rewrite S1. f_equal; f_equal; lia.
        + destruct (row - 0 <? 1) eqn:Y; [lia|]. rewrite add_in by lia. cbn [bind]. rewrite sub_in by lia. cbn [bind].
          destruct (0 <? row - 0 - 1 + 1) eqn:W2; [|lia]. replace (row - (row - 0 - 1 + 1)) with 0 by lia.
          destruct (empties_ok 0 (row - 0 - 1 + 1) mc s1) as (o & s2 & E & F); [lia| |exact S1|].
          * intros k K. apply G. cbn [fst]. lia.
          * exists o, s2. split; [exact E|]. split; [|discriminate]. intros _. rewrite F. f_equal; f_equal; lia.
      - exists [], s1. split; [reflexivity|]. rewrite (S1' eq_refl). split; [|auto]. intros Fi. unfold first in Fi. destruct pv; [discriminate|].
        unfold pp in Ep. injection Ep as <- <- <-. cbn in D. subst s. cbn [w_count]. assert (row = 0) by lia. subst row.
        specialize (ended_begun gs 0 groups_fine). intros.
        assert (Z' : begun gs 0 = 0). { unfold begun. assert (cnt (fun g => g_from g <? 0) gs <= cnt (fun _ => false) gs) by (apply cnt_le; intros g _; lia).
          assert (cnt (fun _ => false) gs = 0) by (clear; induction gs as [|g l IH]; [reflexivity|rewrite cnt_cons; lia]). lia. } lia. }
    destruct X2 as (o2 & s2 & E2 & S2 & S2'). rewrite E2 in HW. cbn [bind] in HW. clear S1 S1'.
    (* the start of the row *)
    assert (X3 : exists o3 s3, (if (0 <? row - prow) || first then start_row sh row (rep_at row) (if 0 <? row - prow then col else col - pcol) s2 else Ok ([], s2)) = Ok (o3, s3)
      /\ w_count s3 = begun gs (row + rep_at row) - ended gs row).
    { destruct ((0 <? row - prow) || first) eqn:Z.
      - destruct (start_ok row (rep_at row) (if 0 <? row - prow then col else col - pcol) s2 P1 P2 (S2 eq_refl)) as (o & s3 & E & F). eauto.
      - exists [], s2. split; [reflexivity|]. rewrite (S2' eq_refl). unfold pp in Ep. unfold first in Z. destruct pv as [v|]; [|rewrite orb_true_r in Z; discriminate].
        injection Ep as <- <- <-. destruct D as (D1 & D2 & D3 & D4 & D5). cbn [fst snd] in *. assert (pv_row v = row) by lia. rewrite D1, D2, H. reflexivity. }
    destruct X3 as (o3 & s3 & E3 & S3). rewrite E3 in HW. cbn [bind] in HW.
    destruct (hide_ok spans (row, col) c I) as (spans' & sp & o4 & E0 & E4). rewrite E0 in HW. cbn [bind] in HW. rewrite E4 in HW. cbn [bind] in HW.
    (* the empty cells behind *)
    destruct (0 <? nrow - row) eqn:Zr.
    - assert (Cc : cell_clear (row, col) c next = true).
      { unfold cell_clear, nn in *. destruct next as [q|]; [|reflexivity]. subst q. cbn [fst snd]. lia. }
      rewrite Cc.
      assert (X5 : exists o5, (if 0 <? fc - c_repeat c then let* c0 := add32 col (c_repeat c) in gap_cells spans' row c0 (fc - c_repeat c) else Ok []) = Ok o5).
      { destruct (0 <? fc - c_repeat c) eqn:W2; [|eauto]. rewrite add_in by lia. cbn [bind]. apply gap_ok. unfold fc in *. lia. }
      destruct X5 as (o5 & E5). rewrite E5 in HW. cbn [bind] in HW. rewrite HW. eauto 6.
    - assert (Zf : (0 <? fc) = true) by (unfold fc; lia). rewrite Zf in HW.
      destruct next as [q|]; [|exfalso; unfold nn in En; injection En as <- <-; lia]. unfold nn in En. subst q. unfold cell_clear. cbn [fst snd].
      destruct (fc <? c_repeat c) eqn:Wk.
      + replace (negb (nrow =? row) || (col + c_repeat c <=? ncol)) with false by (unfold fc in Wk; lia). exact HW.
      + replace (negb (nrow =? row) || (col + c_repeat c <=? ncol)) with true by (unfold fc in Wk; lia).
        assert (X5 : exists o5, (if 0 <? fc - c_repeat c then let* c0 := add32 col (c_repeat c) in gap_cells spans' row c0 (fc - c_repeat c) else Ok []) = Ok o5).
        { destruct (0 <? fc - c_repeat c) eqn:W2; [|eauto]. rewrite add_in by lia. cbn [bind]. apply gap_ok. unfold fc in *. cbn [fst snd] in *. lia. }
        destruct X5 as (o5 & E5). rewrite E5 in HW. cbn [bind] in HW. rewrite HW. eauto 6.
  Qed.

  (** ** All cells *)
  Definition next_of (l : cells) : option pos := match l with kv :: _ => Some (fst kv) | [] => None end.
  Fixpoint clear (pv : option prev) (l : cells) : bool :=
    match l with
    | [] => true
    | (p, c) :: r => row_clear pv p && cell_clear p c (next_of r) && clear (Some (PREV (fst p) (rep_at (fst p)) (snd p))) r
    end.
  Hypothesis single_fine : forall g, In g gs -> g_from g = g_to g ->
    (exists p c, In (p, c) (tb_cells sh) /\ fst p <= g_from g < fst p + rep_at (fst p)) \/ (forall p c, In (p, c) (tb_cells sh) -> fst p <= g_from g).
  Definition before (v : prev) (p : pos) : Prop := pv_row v < fst p \/ pv_row v = fst p /\ pv_col v < snd p.
  Definition pos_lt (p q : pos) : Prop := fst p < fst q \/ fst p = fst q /\ snd p < snd q.
  Definition in_grid (mx : pos) (kv : pos * cell) : Prop :=
    cell_inside kv /\ fst (fst kv) < fst mx /\ snd (fst kv) < snd mx /\ 1 <= rep_at (fst (fst kv)) /\ fst (fst kv) + rep_at (fst (fst kv)) <= u32_max.
  Definition all_done (pv : option prev) (l : cells) : Prop :=
    forall p c, In (p, c) (tb_cells sh) -> In (p, c) l \/ exists v, pv = Some v /\ fst p <= pv_row v /\ fst p + rep_at (fst p) <= pv_row v + pv_rep v.
  Definition state_ok (pv : option prev) (s : wst) : Prop :=
    match pv with
    | None => s = WST 0 false
    | Some v => w_count s = begun gs (pv_row v + pv_rep v) - ended gs (pv_row v) /\ pv_rep v = rep_at (pv_row v) /\ 1 <= pv_rep v /\ pv_row v + pv_rep v <= u32_max
    end.

  Lemma cells_out mx : fst mx <= u32_max -> snd mx <= u32_max -> forall l pv spans s,
    StronglySorted (fun a b => pos_lt (fst a) (fst b)) l -> Forall (in_grid mx) l -> incl l (tb_cells sh) ->
    (forall v, pv = Some v -> Forall (fun kv => before v (fst kv)) l) -> all_done pv l -> state_ok pv s ->
    if clear pv l then exists o, write_cells sh mx pv spans s l = Ok o else write_cells sh mx pv spans s l = Err.
  Proof.
    intros M1 M2. induction l as [|[p c] r IH]; intros pv spans s S F Inc Bf Dn St; [cbn; eauto|].
    cbn [clear write_cells]. inversion S as [|? ? S1 S2]; subst. inversion F as [|? ? (F1 & F2 & F3 & F4 & F5) F6]; subst. cbn [fst snd] in *.
    assert (Rd : rows_done pv s p).
    { unfold rows_done. destruct pv as [v|]; [|exact St]. destruct St as (A & B & C & D). specialize (Bf v eq_refl). inversion Bf as [|? ? B1 _]; subst. repeat split; auto. }
    assert (Gf : gap_free pv p).
    { intros k K g Ig Eg E. subst k. destruct (single_fine g Ig Eg) as [(q & d & I & J)|All].
      - destruct (Dn q d I) as [L|(v & -> & L1 & L2)]; [|lia]. destruct L as [L|L]; [injection L as -> _; lia|].
        rewrite Forall_forall in S2. specialize (S2 _ L). unfold pos_lt in S2. cbn [fst snd] in S2. lia.
      - specialize (All p c (Inc _ (or_introl eq_refl))). lia. }
    assert (Hn : match next_of r with Some q => (fst p < fst q \/ fst p = fst q /\ snd p < snd q) /\ fst q < fst mx /\ snd q < snd mx | None => True end).
    { destruct r as [|[q d] r']; [exact Logic.I|]. cbn [next_of fst]. inversion S2; subst. inversion F6 as [|? ? (_ & G1 & G2 & _) _]; subst. cbn [fst snd] in *. repeat split; auto. }
    pose proof (cell_out mx pv spans s p c (next_of r) Rd Gf F1 F2 F3 M1 M2 F4 F5 Hn) as O.
    fold (next_of r). destruct (row_clear pv p) eqn:R1; cbn [andb] in *; [|rewrite O; reflexivity].
    destruct (cell_clear p c (next_of r)) eqn:C1; cbn [andb] in *; [|rewrite O; reflexivity].
    destruct O as (o & spans' & s' & E & W). rewrite E. cbn [bind]. fold (rep_at (fst p)).
    assert (IH' : if clear (Some (PREV (fst p) (rep_at (fst p)) (snd p))) r
      then exists o, write_cells sh mx (Some (PREV (fst p) (rep_at (fst p)) (snd p))) spans' s' r = Ok o
      else write_cells sh mx (Some (PREV (fst p) (rep_at (fst p)) (snd p))) spans' s' r = Err).
    { apply IH; auto.
      - intros x I. apply Inc. now right.
      - intros v Ev. injection Ev as <-. exact S2.
      - intros q d I. destruct (Dn q d I) as [[L|L]|(v & -> & L1 & L2)].
        + injection L as -> ->. right. eexists. split; [reflexivity|]. cbn [pv_row pv_rep]. lia.
        + now left.
        + right. eexists. split; [reflexivity|]. cbn [pv_row pv_rep]. destruct St as (_ & B & _ & _). unfold row_clear in R1.
          specialize (Bf v eq_refl). inversion Bf as [|? ? B1 _]; subst. unfold before in B1. cbn [fst] in B1.
          destruct (N.eqb_spec (fst p) (pv_row v)) as [e|n]; cbn [orb] in R1; [rewrite <- e in B; rewrite B in L2; lia|lia].
      - cbn [state_ok pv_row pv_rep]. repeat split; auto. }
    destruct (clear (Some (PREV (fst p) (rep_at (fst p)) (snd p))) r); [destruct IH' as (o' & E'); rewrite E'; cbn; eauto|rewrite IH'; reflexivity].
  Qed.

  (** What [clear] says. *)
  Lemma clear_ok l : forall pv, StronglySorted (fun a b => pos_lt (fst a) (fst b)) l ->
    (forall v, pv = Some v -> Forall (fun kv => before v (fst kv)) l) -> (forall v, pv = Some v -> pv_rep v = rep_at (pv_row v)) ->
    (clear pv l = true <->
      (forall p c q d, In (p, c) l -> In (q, d) l -> fst p = fst q -> snd p < snd q -> snd p + c_repeat c <= snd q)
      /\ (forall p c q d, In (p, c) l -> In (q, d) l -> fst p < fst q -> fst p + rep_at (fst p) <= fst q)
      /\ (forall v q d, pv = Some v -> In (q, d) l -> pv_row v < fst q -> pv_row v + pv_rep v <= fst q)).
  Proof.
    induction l as [|[p c] r IH]; intros pv S Bf Rp; [cbn; split; [intros _; repeat split; contradiction|reflexivity]|].
    inversion S as [|? ? S1 S2]; subst. cbn [clear].
    assert (Bf' : forall v, Some (PREV (fst p) (rep_at (fst p)) (snd p)) = Some v -> Forall (fun kv => before v (fst kv)) r) by (intros v Ev; injection Ev as <-; exact S2).
    assert (Rp' : forall v, Some (PREV (fst p) (rep_at (fst p)) (snd p)) = Some v -> pv_rep v = rep_at (pv_row v)) by (intros v Ev; injection Ev as <-; reflexivity).
    specialize (IH _ S1 Bf' Rp'). rewrite Forall_forall in S2. split.
    - intros H. apply andb_prop in H as (H & H3). apply andb_prop in H as (H1 & H2). apply (proj1 IH) in H3 as (I1 & I2 & I3). clear IH.
      assert (R0 : forall q d, In (q, d) r -> fst p < fst q -> fst p + rep_at (fst p) <= fst q) by (intros q d I; exact (I3 _ q d eq_refl I)).
      split; [|split].
      + intros p1 c1 q d [A|A] [B|B] E L.
        * injection A as <- <-. injection B as <- <-. lia.
        * injection A as <- <-. destruct r as [|[n dn] r']; [contradiction|]. cbn [next_of fst] in H2. unfold cell_clear in H2.
          inversion S1 as [|? ? T1 T2]; subst. pose proof (S2 _ (or_introl eq_refl)) as Q. unfold pos_lt in Q. cbn [fst snd] in Q.
          destruct B as [B|B]; [injection B as <- <-; lia|]. rewrite Forall_forall in T2. specialize (T2 _ B). unfold pos_lt in T2. cbn [fst snd] in T2. lia.
        * injection B as <- <-. specialize (S2 _ A). unfold pos_lt in S2. cbn [fst snd] in S2. lia.
        * exact (I1 _ _ _ _ A B E L).
      + intros p1 c1 q d [A|A] [B|B] L.
        * injection A as <- <-. injection B as <- <-. lia.
        * injection A as <- <-. exact (R0 _ _ B L).
        * injection B as <- <-. specialize (S2 _ A). unfold pos_lt in S2. cbn [fst snd] in S2. lia.
        * exact (I2 _ _ _ _ A B L).
      + intros v q d -> [B|B] L; unfold row_clear in H1.
        * injection B as <- <-. lia.
        * specialize (S2 _ B). unfold pos_lt in S2. cbn [fst snd] in S2. specialize (Rp v eq_refl). specialize (R0 _ _ B).
          destruct (N.eqb_spec (fst p) (pv_row v)) as [e|n]; cbn [orb] in H1; [rewrite Rp, <- e; apply R0; lia|lia].
    - intros (I1 & I2 & I3). rewrite (proj2 IH).
      + rewrite andb_true_r. apply andb_true_intro. split.
        * unfold row_clear. destruct pv as [v|]; [|reflexivity]. specialize (Bf v eq_refl). inversion Bf as [|? ? B1 _]; subst. unfold before in B1. cbn [fst] in B1.
          destruct (N.eqb_spec (fst p) (pv_row v)); cbn [orb]; [reflexivity|]. apply N.leb_le. apply (I3 v p c eq_refl (or_introl eq_refl)). lia.
        * unfold cell_clear. destruct r as [|[n dn] r']; [reflexivity|]. cbn [next_of fst]. specialize (S2 _ (or_introl eq_refl)). unfold pos_lt in S2. cbn [fst snd] in S2.
          destruct (N.eqb_spec (fst n) (fst p)) as [e|ne]; cbn [negb orb]; [|reflexivity]. apply N.leb_le. apply (I1 p c n dn); [now left|right; now left|auto|lia].
      + split; [|split].
        * intros p1 c1 q d A B. apply (I1 p1 c1 q d); now right.
        * intros p1 c1 q d A B. apply (I2 p1 c1 q d); now right.
        * intros v q d Ev B L. injection Ev as <-. cbn [pv_row pv_rep] in *. apply (I2 p c q d); [now left|now right|exact L].
  Qed.
End Sheet.

(** ** Columns *)
Lemma groups_max_ok gs : forall m, m <= u32_max -> Forall (fun g => g_to g < u32_max) gs -> exists n, groups_max m gs = Ok n /\ n <= u32_max.
Proof.
  induction gs as [|g gs IH]; intros m B F; [cbn; eauto|]. inversion F; subst. cbn [groups_max]. rewrite add_in by lia. cbn [bind]. apply IH; [lia|assumption].
Qed.
Lemma write_cols_ok sh mx : disjoint (tb_cols sh) -> wide (tb_cols sh) -> mx <= u32_max -> forall n c, exists o, write_cols sh mx n c = Ok o.
Proof.
  intros (S & U & D) W B. induction n as [|n IH]; intros c; [cbn; eauto|]. cbn [write_cols]. destruct (mx <=? c) eqn:Z; [eauto|].
  unfold col_item. destruct (hget c (tb_cols sh)) as [h|] eqn:E.
  - apply (hget_in c h _ S) in E. specialize (U _ _ E). specialize (W _ _ E). destruct (N.eqb_spec (h_span h) 0); [lia|]. rewrite add_in by lia. cbn [bind].
    destruct (IH (c + h_span h)) as (o & ->). cbn. eauto.
  - cbn [N.eqb]. rewrite add_in by lia. cbn [bind]. destruct (IH (c + 1)) as (o & ->). cbn. eauto.
Qed.
Lemma columns_ok sh w : disjoint (tb_cols sh) -> wide (tb_cols sh) -> w <= u32_max -> Forall (fun g => g_to g < u32_max) (tb_gcols sh) ->
  (forall f t, tb_hcols sh = Some (f, t) -> t < u32_max) -> exists o, write_table_columns sh w = Ok o.
Proof.
  intros D W B G H. unfold write_table_columns, max_col. destruct (groups_max_ok (tb_gcols sh) w B G) as (n & -> & L). cbn [bind].
  destruct (tb_hcols sh) as [[f t]|] eqn:E.
  - specialize (H f t eq_refl). rewrite add_in by lia. cbn [bind]. apply write_cols_ok; auto. lia.
  - cbn [bind]. apply write_cols_ok; auto.
Qed.

(** ** The sheet *)
Lemma sorted_strong (l : cells) : om_sorted pltb l -> StronglySorted (fun a b => pos_lt (fst a) (fst b)) l.
Proof.
  induction l as [|[p c] l IH]; [constructor|]. intros (F & S). constructor; [auto|]. eapply Forall_impl; [|exact F].
  intros [q d]. cbn [fst]. unfold pltb, pos_lt. destruct p, q. cbn [fst snd]. lia.
Qed.
Lemma grid_ok (m : cells) : Forall cell_inside m -> exists mx, used_grid_size m = Ok mx.
Proof.
  intros F. unfold used_grid_size. cbv zeta.
  assert (G : forall (l : cells) a, Forall cell_inside l -> fst a < u32_max -> snd a < u32_max ->
    let z := fold_left (fun mx kv => (N.max (fst mx) (fst (fst kv)), N.max (snd mx) (snd (fst kv)))) l a in fst z < u32_max /\ snd z < u32_max).
  { induction l as [|[[r b] c] l IH]; intros a Fl A B; cbv zeta; [auto|]. inversion Fl as [|? ? Fk F4]; subst. destruct Fk as (F1 & F2 & F3 & _). apply IH; auto; cbn [fst snd]; lia. }
  destruct (G m (0, 0) F) as (A & B); [vm_compute; reflexivity|vm_compute; reflexivity|]. fold (grid_max m) in A, B.
  rewrite !add_in by lia. cbn [bind]. eauto.
Qed.
Lemma used_cell m r : row_used m r -> exists p c, In (p, c) m /\ fst p = r.
Proof. intros (b & c & I). exists (r, b), c. auto. Qed.
Lemma cell_used m p c : In (p, c) m -> row_used m (fst p).
Proof. intros I. exists (snd p), c. now destruct p. Qed.
Lemma repeats_at rows r : om_sorted N.ltb rows -> repeats rows r (row_repeat_at rows r).
Proof.
  intros S. unfold repeats, row_repeat_at. destruct (hget r rows) as [h|] eqn:E.
  - left. exists h. split; [now apply (hget_in r h rows S)|reflexivity].
  - right. split; [|reflexivity]. intros h I. apply (hget_in r h rows S) in I. congruence.
Qed.

Lemma items_out sh : inside_grid sh -> row_groups_writable sh ->
  (nothing_overlaps sh /\ exists o, table_items sh = Ok o) \/ (~ nothing_overlaps sh /\ table_items sh = Err).
Proof.
  intros (Hs & Hc & Hr & Hn & Hd & Hw & Hg & Hh & _) G. unfold table_items. destruct (grid_ok _ Hc) as (mx & E). rewrite E. cbn [bind].
  destruct (grid_bound _ _ E) as (M1 & M2 & M3). destruct (columns_ok sh (snd mx) Hd Hw M2 Hg Hh) as (cols & ->). cbn [bind].
  pose proof (proj1 Hr) as Sr. pose proof (sorted_strong _ Hs) as S.
  assert (Rf : forall p c, In (p, c) (tb_cells sh) -> 1 <= rep_at sh (fst p) /\ fst p + rep_at sh (fst p) <= u32_max).
  { intros p c I. apply Hn; [now apply cell_used in I|]. now apply repeats_at. }
  assert (O := cells_out sh Hr (fun g I => proj1 (G g I))). cbv zeta in O.
  assert (Sf : forall g, In g (tb_grows sh) -> g_from g = g_to g ->
    (exists p c, In (p, c) (tb_cells sh) /\ fst p <= g_from g < fst p + rep_at sh (fst p)) \/ (forall p c, In (p, c) (tb_cells sh) -> fst p <= g_from g)).
  { intros g I Eg. destruct (proj2 (G g I) Eg) as [(r & n & U & R & L)|A].
    - left. apply used_cell in U as (p & c & Ip & <-). exists p, c. split; [exact Ip|]. apply (repeats_fun _ _ _ Sr) in R. subst n. exact L.
    - right. intros p c Ip. apply A. now apply cell_used in Ip. }
  specialize (O Sf mx M1 M2 (tb_cells sh) None [] (WST 0 false) S). 
  assert (Fg : Forall (in_grid sh mx) (tb_cells sh)).
  { apply Forall_forall. intros [p c] I. rewrite Forall_forall in Hc. split; [now apply Hc|]. cbn [fst]. destruct (M3 p c I). destruct (Rf p c I). auto. }
  specialize (O Fg (incl_refl _)). specialize (O ltac:(discriminate) ltac:(intros p c I; now left) eq_refl).
  pose proof (clear_ok sh (tb_cells sh) None S ltac:(discriminate) ltac:(discriminate)) as C.
  assert (Eq : nothing_overlaps sh <-> clear sh None (tb_cells sh) = true).
  { rewrite C. split.
    - intros (A & B). split; [|split; [|discriminate]].
      + intros [r b] c [r' b'] d I I' Er L. cbn [fst snd] in *. subst r'. exact (A _ _ _ _ _ I I' L).
      + intros p c q d I I' L. apply (B (fst p) (rep_at sh (fst p)) (fst q)); eauto using cell_used. now apply repeats_at.
    - intros (A & B & _). split.
      + intros r b c b' c' I I' L. exact (A _ _ _ _ I I' eq_refl L).
      + intros r n r' U R U' L. apply used_cell in U as (p & c & I & <-). apply used_cell in U' as (q & d & I' & <-).
        apply (repeats_fun _ _ _ Sr) in R. subst n. exact (B _ _ _ _ I I' L). }
  destruct (clear sh None (tb_cells sh)).
  - left. split; [now apply Eq|]. destruct O as (o & ->). cbn. eauto.
  - right. split; [intros Hyes; apply Eq in Hyes; discriminate|]. rewrite O. reflexivity.
Qed.
Lemma attrs_out sh : (forall l, tb_ranges sh = Some l -> Forall cellrange_u32 l) -> exists a, table_attrs sh = Ok a.
Proof.
  intros H. unfold table_attrs. destruct (tb_ranges sh) as [l|]; [|cbn; eauto]. destruct (format_cellranges_total l (H l eq_refl)) as (t & ->). cbn. eauto.
Qed.
Lemma sheet_out ds sh : inside_grid sh -> row_groups_writable sh ->
  (nothing_overlaps sh /\ exists cs, write_sheet ds sh = Ok cs) \/ (~ nothing_overlaps sh /\ write_sheet ds sh = Err).
Proof.
  intros I G. unfold write_sheet. destruct (attrs_out sh) as (a & ->); [apply I|]. cbn [bind].
  destruct (items_out sh I G) as [(N & o & ->)|(N & ->)]; [left|right]; split; auto. cbn [bind]. eauto.
Qed.

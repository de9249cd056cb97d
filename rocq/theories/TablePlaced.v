(** The cells read from a written table. *)
From Coq Require Import Sorted.
From Verif Require Import Base Lib OMap OMapProofs XmlModel XmlSpec XmlProofs RefsModel CellModel HeaderModel HeaderSpec HeaderProofs
  SplitModel SplitSpec SplitProofs NumModel EnumModel CellIoModel CellIoSpec CellIoProofs TableModel TableRun TableCells.

(** ** Cells do not overlap *)

Fixpoint spaced (l : cells) : Prop :=
  match l with
  | (p, c) :: (((q, _) :: _) as r) => (fst p = fst q -> snd p + c_repeat c <= snd q) /\ spaced r
  | _ => True
  end.
Lemma write_cells_spaced sh mx : forall l pv spans s o, write_cells sh mx pv spans s l = Ok o -> om_sorted pltb l -> spaced l.
Proof.
  induction l as [|[p c] l IH]; intros pv spans s o H Hs; [exact I|]. cbn [write_cells] in H.
  match type of H with bind ?X _ = _ => destruct X as [[[o1 spans'] s1]| |] eqn:E1; try discriminate end. cbn [bind] in H.
  match type of H with bind ?X _ = _ => destruct X as [o2| |] eqn:E2; try discriminate end. clear H.
  destruct l as [|[q d] l]; [exact I|]. cbn [spaced]. split; [|eapply IH; [exact E2|apply Hs]].
  intros Er. destruct Hs as [Hs _]. inversion Hs as [|? ? Hpq _]; subst. unfold pltb in Hpq. cbn [fst snd] in *.
  unfold write_cell_at in E1. destruct p as [row col], q as [nrow ncol]. cbn [fst snd] in *. subst nrow.
  destruct (sub32 row row) as [fr| |] eqn:Ef; try discriminate. apply sub32_ok in Ef. cbn [bind] in E1. replace fr with 0 in E1 by lia.
  change (0 <? 0) with false in E1. cbv iota in E1. destruct (sub32 ncol col) as [fc| |] eqn:Ec; try discriminate. apply sub32_ok in Ec. cbn [bind] in E1.
  destruct (match pv with Some v => (pv_row v, pv_rep v, pv_col v) | None => (0, 1, 0) end) as [[prow prep] pcol].
  repeat match type of E1 with bind ?X _ = _ => destruct X as [?x| |] eqn:?E in E1; try discriminate; cbn [bind] in E1; repeat match type of E1 with context [let '(_, _) := ?y in _] => is_var y; destruct y end end.
  match goal with E : (if 0 <? fc then _ else _) = Ok _ |- _ => destruct (0 <? fc) eqn:Z; [destruct (fc <? c_repeat c) eqn:L; [discriminate|]|] end; lia.
Qed.

(** ** The pieces of all cells *)

Fixpoint flat (l : cells) (hs : list (pos * list split)) : list (pos * cell * split) :=
  match l, hs with
  | (p, c) :: l', (_, sp) :: hs' => map (fun s => (p, c, s)) sp ++ flat l' hs'
  | _, _ => []
  end.
(** The pieces are in order and do not overlap. *)
Definition piece_lt (a b : pos * cell * split) : Prop :=
  let '(p, _, s) := a in let '(q, _, t) := b in fst p < fst q \/ (fst p = fst q /\ s_to s < s_col t).
Lemma tiling_in C l E s : tiling C l E -> In s l -> C <= s_col s /\ s_col s <= s_to s /\ s_to s < E.
Proof.
  revert C. induction l as [|t l IH]; intros C H I; [contradiction|]. cbn [tiling] in H. destruct H as (H1 & H2 & H3). destruct I as [I|I].
  - subst t. apply tiling_le in H3. lia.
  - specialize (IH _ H3 I). lia.
Qed.
Lemma tiling_has C l E k : tiling C l E -> C <= k < E -> exists s, In s l /\ s_col s <= k <= s_to s.
Proof.
  revert C. induction l as [|t l IH]; intros C H K; cbn [tiling] in H; [lia|]. destruct H as (H1 & H2 & H3).
  destruct (N.le_gt_cases k (s_to t)) as [L|L]; [exists t; split; [now left|lia]|].
  destruct (IH _ H3) as (s & I & X); [lia|]. exists s. split; [now right|exact X].
Qed.

Lemma hide_flat : forall l spans hs, hide_cells spans l = Ok hs -> om_sorted pltb l -> spaced l ->
  (forall p c s, In (p, c, s) (flat l hs) -> In (p, c) l /\ snd p <= s_col s /\ s_col s <= s_to s /\ s_to s < snd p + c_repeat c)
  /\ (forall p c k, In (p, c) l -> snd p <= k < snd p + c_repeat c -> exists s, In (p, c, s) (flat l hs) /\ s_col s <= k <= s_to s)
  /\ StronglySorted piece_lt (flat l hs).
Proof.
  induction l as [|[p c] l IH]; intros spans hs H Hs Hp.
  - injection H as <-. cbn. repeat split; try contradiction. constructor.
  - cbn [hide_cells] in H. match type of H with bind ?X _ = _ => destruct X as [[spans' sp]| |] eqn:Eh; try discriminate end. cbn [bind] in H.
    match type of H with bind ?X _ = _ => destruct X as [hs'| |] eqn:E2; try discriminate end. cbn [bind fst] in H.
    assert (E : hs = (p, sp) :: hs') by congruence. subst hs. clear H.
    destruct Hs as [Hl Hs]. assert (Hp' : spaced l) by (destruct l as [|[q d] l]; [exact I|apply Hp]).
    destruct (IH _ _ E2 Hs Hp') as (F1 & F2 & F3). apply hide_cell_split in Eh as (rs & Eh). apply split_tiling in Eh.
    cbn [flat]. split; [|split].
    + intros p' c' s I. apply in_app_iff in I as [I|I].
      * apply in_map_iff in I as (s' & E & I). injection E as <- <- <-. pose proof (tiling_in _ _ _ _ Eh I). split; [now left|]. lia.
      * apply F1 in I as (I & X). split; [now right|exact X].
    + intros p' c' k [I|I] K.
      * injection I as <- <-. destruct (tiling_has _ _ _ k Eh K) as (s & I & X). exists s. split; [|exact X]. apply in_app_iff. left. now apply in_map.
      * destruct (F2 _ _ _ I K) as (s & I' & X). exists s. split; [|exact X]. apply in_app_iff. now right.
    + assert (Hlt : forall x, In x (flat l hs') -> forall s, In s sp -> piece_lt (p, c, s) x).
      { intros [[q d] t] I s Is. apply F1 in I as (I & L1 & L2 & L3). pose proof (tiling_in _ _ _ _ Eh Is) as (_ & _ & L4).
        cbn [piece_lt]. assert (X : pltb p q = true) by (rewrite Forall_forall in Hl; exact (Hl _ I)).
        destruct (N.eq_dec (fst p) (fst q)) as [R|R]; [|left; unfold pltb in X; lia]. right. split; [exact R|].
        (* the first cell behind [p] is in the same row *)
        destruct l as [|[q1 d1] l1]; [contradiction|]. destruct Hp as [Hp _].
        assert (Y : fst q1 <= fst q /\ (fst q1 = fst q -> snd q1 <= snd q)).
        { destruct I as [I|I]; [injection I as <- <-; lia|]. destruct Hs as [Hs _]. rewrite Forall_forall in Hs. specialize (Hs _ I). unfold pltb in Hs. cbn [fst] in Hs. lia. }
        assert (Z : fst p <= fst q1) by (inversion Hl as [|? ? Hx _]; subst; unfold pltb in Hx; cbn [fst] in Hx; lia).
        assert (fst p = fst q1) by lia. specialize (Hp H). lia. }
      clear - F3 Hlt Eh. revert Eh Hlt. generalize (snd p + c_repeat c) as E. generalize (snd p) as C. intros C E. revert C. induction sp as [|s sp IH]; intros C Eh Hlt; [exact F3|].
      cbn [map app]. cbn [tiling] in Eh. destruct Eh as (E1 & E2 & E3). constructor; [apply (IH _ E3); intros; apply Hlt; auto; now right|].
      apply Forall_app. split; [|apply Forall_forall; intros x I; apply Hlt; auto; now left].
      apply Forall_forall. intros x I. apply in_map_iff in I as (t & <- & I). cbn [piece_lt]. right. split; [reflexivity|]. pose proof (tiling_in _ _ _ _ E3 I). lia.
Qed.
Lemma strongly_eq {A} (R : A -> A -> Prop) l a b : StronglySorted R l -> In a l -> In b l -> a = b \/ R a b \/ R b a.
Proof.
  induction 1 as [|x l Hs IH Hf]; intros Ha Hb; [contradiction|]. rewrite Forall_forall in Hf.
  destruct Ha as [->|Ha], Hb as [->|Hb]; auto.
Qed.

(** ** What is placed *)

Section Placed.
  Variables (lb ign : bool) (ds : vtype -> option str) (cm : hmap colattr).
  Definition out_of (x : pos * cell * split) : cells :=
    let '(p, c, s) := x in match piece_read lb ign ds cm c s with Some y => [((fst p, s_col s), y)] | None => [] end.
  Lemma insert_last (k : pos) (x : cell) (M : cells) : Forall (fun kv => pltb (fst kv) k = true) M -> om_insert pltb k x M = M ++ [(k, x)].
  Proof.
    induction 1 as [|[j y] M H _ IH]; [reflexivity|]. cbn [om_insert app]. cbn [fst] in H.
    assert (E : pltb k j = false) by (unfold pltb in *; lia). rewrite E, H, IH. reflexivity.
  Qed.
  Lemma placed_eq : forall l spans hs M, hide_cells spans l = Ok hs -> om_sorted pltb l -> spaced l ->
    Forall (fun kv => match l with [] => True | (p, _) :: _ => pltb (fst kv) p = true end) M ->
    placed lb ign ds cm l hs M = M ++ flat_map out_of (flat l hs).
  Proof.
    induction l as [|[p c] l IH]; intros spans hs M H Hs Hp HM.
    - injection H as <-. cbn. now rewrite app_nil_r.
    - cbn [hide_cells] in H. match type of H with bind ?X _ = _ => destruct X as [[spans' sp]| |] eqn:Eh; try discriminate end. cbn [bind] in H.
      match type of H with bind ?X _ = _ => destruct X as [hs'| |] eqn:E2; try discriminate end. cbn [bind fst] in H.
      assert (E : hs = (p, sp) :: hs') by congruence. subst hs. clear H.
      destruct Hs as [Hl Hs]. assert (Hp' : spaced l) by (destruct l as [|[q d] l]; [exact I|apply Hp]).
      apply hide_cell_split in Eh as (rs & Eh). apply split_tiling in Eh. cbn [placed flat]. rewrite flat_map_app.
      assert (Hput : forall C, tiling C sp (snd p + c_repeat c) -> Forall (fun kv => pltb (fst kv) (fst p, C) = true) M ->
        fold_left (put_piece lb ign ds cm (fst p) c) sp M = M ++ flat_map out_of (map (fun s => (p, c, s)) sp)
        /\ Forall (fun kv => pltb (fst kv) (fst p, snd p + c_repeat c) = true) (fold_left (put_piece lb ign ds cm (fst p) c) sp M)).
      { clear. revert M. induction sp as [|s sp IH]; intros M C T HM; cbn [tiling] in T.
        - subst C. cbn. rewrite app_nil_r. auto.
        - destruct T as (T1 & T2 & T3). cbn [fold_left map flat_map]. rewrite app_assoc.
          assert (P : put_piece lb ign ds cm (fst p) c M s = M ++ out_of (p, c, s)).
          { unfold put_piece, out_of. destruct (piece_read lb ign ds cm c s); [|now rewrite app_nil_r]. rewrite T1. now apply insert_last. }
          rewrite P. apply (IH _ _ T3). apply Forall_app. split.
          + eapply Forall_impl; [|exact HM]. intros [q x]. cbn [fst]. unfold pltb. cbn [fst snd]. lia.
          + cbn [out_of]. destruct (piece_read lb ign ds cm c s); constructor; [|constructor]. unfold pltb. cbn [fst snd]. lia. }
      destruct (Hput (snd p) Eh) as (P1 & P2).
      { eapply Forall_impl; [|exact HM]. intros [q x]. cbn [fst]. destruct p. auto. }
      rewrite (IH _ _ _ E2 Hs Hp').
      + rewrite P1. now rewrite <- app_assoc.
      + destruct l as [|[q d] l]; [apply Forall_forall; auto|]. eapply Forall_impl; [|exact P2]. intros [r x]. cbn [fst snd]. destruct Hp as [Hp _].
        inversion Hl as [|? ? Hx _]; subst. unfold pltb in *. cbn [fst snd] in *. lia.
  Qed.
End Placed.

(** The rows that follow are behind the repeats of a row. *)
Lemma write_cells_rows sh mx : forall l pv spans s o, write_cells sh mx pv spans s l = Ok o -> om_sorted pltb l ->
  (forall v, pv = Some v -> pv_rep v = row_repeat_at (tb_rows sh) (pv_row v)) ->
  (forall v, pv = Some v -> Forall (fun kv => pv_row v < fst (fst kv) -> pv_row v + pv_rep v <= fst (fst kv)) l)
  /\ (forall p c q d, In (p, c) l -> In (q, d) l -> fst p < fst q -> fst p + row_repeat_at (tb_rows sh) (fst p) <= fst q).
Proof.
  induction l as [|[p c] l IH]; intros pv spans s o H Hs Hv; [split; [constructor|contradiction]|]. cbn [write_cells] in H.
  match type of H with bind ?X _ = _ => destruct X as [[[o1 spans'] s1]| |] eqn:E1; try discriminate end. cbn [bind] in H.
  match type of H with bind ?X _ = _ => destruct X as [o2| |] eqn:E2; try discriminate end. clear H.
  destruct (IH _ _ _ _ E2 (proj2 Hs)) as (F1 & F2); [intros v E; injection E as <-; reflexivity|]. specialize (F1 _ eq_refl). cbn [pv_row pv_rep] in F1. rewrite Forall_forall in F1. destruct Hs as (Hs & _). rewrite Forall_forall in Hs.
  assert (V : forall v, pv = Some v -> pv_row v <= fst p /\ (pv_row v < fst p -> pv_row v + pv_rep v <= fst p)).
  { intros v ->. unfold write_cell_at in E1. destruct p as [row col]. cbn [fst snd] in *.
    destruct (match match l with kv :: _ => Some (fst kv) | [] => None end with Some q => q | None => mx end) as [nrow ncol].
    destruct (sub32 nrow row) as [fr| |]; try discriminate. cbn [bind] in E1.
    destruct (if 0 <? fr then sub32 (snd mx) col else sub32 ncol col) as [fc| |]; try discriminate. cbn [bind] in E1.
    destruct (sub32 row (pv_row v)) as [br| |] eqn:Eb; try discriminate. cbn [bind] in E1. apply sub32_ok in Eb. destruct Eb as (L & ->). split; [exact L|]. intros L'.
    assert (Z : 0 <? row - pv_row v = true) by lia. rewrite Z in E1. cbn [bind andb orb negb] in E1.
    destruct (end_row sh (pv_row v) (pv_rep v) s) as [[? ?]| |]; try discriminate. cbn [bind] in E1.
    destruct (row - pv_row v <? pv_rep v) eqn:Y; [discriminate|]. lia. }
  split.
  - intros v E. specialize (V v E). rewrite Forall_forall. intros [q d] [I|I]; cbn [fst].
    + assert (q = p) by congruence. subst q. apply V.
    + specialize (Hs _ I). cbn [fst] in Hs. unfold pltb in Hs. intros L. destruct V as (V1 & V2). destruct (N.eq_dec (pv_row v) (fst p)) as [X|X]; [|lia].
      rewrite (Hv v E), X. apply (F1 _ I). cbn [fst]. lia.
  - intros p' c' q d [I|I] [J|J] L.
    + assert (p' = p) by congruence. assert (q = p) by congruence. subst. lia.
    + assert (p' = p) by congruence. subst p'. apply (F1 _ J). exact L.
    + assert (q = p) by congruence. subst q. specialize (Hs _ I). cbn [fst] in Hs. unfold pltb in Hs. lia.
    + exact (F2 _ _ _ _ I J L).
Qed.

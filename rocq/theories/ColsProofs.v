(** Proofs about column-wise iteration. *)
From Verif Require Import Base Lib OMap OMapProofs XmlModel CellModel CellSpec CellProofs.

Section Cols.
  Variables (m : cells) (s e : pos).
  Hypothesis Hs : om_sorted pltb m.
  Hypothesis Hr : fst s < fst e.
  Hypothesis Hc : snd s < snd e.
  Hypothesis Ur : u32 (fst e).
  Hypothesis Uc : u32 (snd e).

  Definition corner : pos := (fst e - 1, snd e - 1).
  (** Positions still to visit, as a number. *)
  Definition left_ (cur : pos) : nat :=
    N.to_nat ((snd e - 1 - snd cur) * (fst e - fst s) + (fst e - fst cur)).

  Lemma advance_in cur : in_rect s e cur ->
    (cur = corner /\ cols_advance s e cur = Ok e) \/
    (cur <> corner /\ exists cur', cols_advance s e cur = Ok cur' /\ in_rect s e cur' /\ col_major cur cur' /\
      (forall p, in_rect s e p -> col_major cur p -> p = cur' \/ col_major cur' p) /\ (left_ cur' < left_ cur)%nat).
  Proof.
    destruct cur as [r c]. unfold in_rect, corner, cols_advance, add32, u32, left_, col_major in *.
    cbn [fst snd] in *. intros H.
    replace (r + 1 <=? u32_max) with true by lia. cbn [bind].
    destruct (r + 1 <? fst e) eqn:E1.
    { right. split; [intros X; inversion X; lia|]. exists (r + 1, c). cbn [fst snd]. repeat split; try lia.
      intros [pr pc]; cbn [fst snd]. intros. destruct (N.eq_dec pr (r + 1)), (N.eq_dec pc c); try (left; congruence); right; lia. }
    replace (r + 1 =? fst e) with true by lia. replace (c + 1 <=? u32_max) with true by lia. cbn [bind].
    destruct (c + 1 <? snd e) eqn:E2.
    { right. split; [intros X; inversion X; lia|]. exists (fst s, c + 1). cbn [fst snd]. repeat split; try lia.
      - intros [pr pc]; cbn [fst snd]. intros. destruct (N.eq_dec pr (fst s)), (N.eq_dec pc (c + 1)); try (left; congruence); right; lia.
      - assert (E : snd e - 1 - c = (snd e - 1 - (c + 1)) + 1) by lia. rewrite E. rewrite N.mul_add_distr_r. lia. }
    replace (c + 1 =? snd e) with true by lia. left. split; f_equal; try lia.
    rewrite (surjective_pairing e). replace (fst e) with (r + 1) by lia. replace (snd e) with (c + 1) by lia. reflexivity.
  Qed.

  Definition stored (p : pos) : Prop := exists d, sh_ref p m = Some d.
  Definition from (cur p : pos) : Prop := in_rect s e p /\ (p = cur \/ col_major cur p).

  Lemma loop_step cur cur' fuel : cols_advance s e cur = Ok cur' -> sh_ref cur m = None ->
    cols_loop (S fuel) m s e cur = cols_loop fuel m s e cur'.
  Proof. intros H1 H2. cbn. now rewrite H1, H2. Qed.

  Lemma corner_in : in_rect s e corner.
  Proof. unfold in_rect, corner; cbn. lia. Qed.

  Lemma corner_last p : in_rect s e p -> p = corner \/ col_major p corner.
  Proof.
    destruct p as [r c]. unfold in_rect, corner, col_major; cbn [fst snd].
    intros H. destruct (N.eq_dec r (fst e - 1)), (N.eq_dec c (snd e - 1)); try (left; congruence); right; lia.
  Qed.

  Lemma col_major_irrefl p : ~ col_major p p.
  Proof. unfold col_major. lia. Qed.
  Lemma col_major_trans a b c : col_major a b -> col_major b c -> col_major a c.
  Proof. unfold col_major. lia. Qed.

  (** One call: either the least remaining stored cell is returned, or the cursor reaches [e]. *)
  Lemma next_from n : forall cur, (left_ cur <= n)%nat -> in_rect s e cur ->
    (exists k p d, (k <= n)%nat /\ sh_ref p m = Some d /\ from cur p /\
       (forall q, from cur q -> stored q -> q = p \/ col_major p q) /\
       forall fuel, cols_loop (k + fuel) m s e cur = cols_loop fuel m s e p) \/
    ((forall q, from cur q -> ~ stored q) /\
     exists k, (k <= n)%nat /\ forall fuel, cols_loop (k + fuel) m s e cur = cols_loop fuel m s e e).
  Proof.
    induction n as [|n IH]; intros cur Hn Hin.
    - exfalso. destruct Hin. unfold left_ in Hn. lia.
    - destruct (sh_ref cur m) as [d|] eqn:Ed.
      + left. exists O, cur, d. repeat split; auto; try lia; try apply Hin.
        intros q [_ [->|Hq]] _; auto.
      + destruct (advance_in cur Hin) as [[-> Ha]|(Hne & cur' & Ha & Hin' & Hlt & Hbetween & Hm)].
        * right. split.
          { intros q [Hq [->|Hq']] [d Hd]; [congruence|]. destruct (corner_last q Hq) as [->|X]; [congruence|].
            apply (col_major_irrefl q). eapply col_major_trans; eauto. }
          exists 1%nat. split; [lia|]. intros fuel. now apply loop_step.
        * destruct (IH cur') as [(k & p & d & Hk & Hp & [Hf1 Hf2] & Hall & Hrun)|(Hnone & k & Hk & Hrun)]; auto; [lia|left|right].
          -- exists (S k), p, d. split; [lia|]. split; [exact Hp|]. split.
             { split; [exact Hf1|]. destruct Hf2 as [->|Hf2]; [right; auto|right; eapply col_major_trans; eauto]. }
             split.
             { intros q [Hq [->|Hq']] Hst; [destruct Hst; congruence|]. apply Hall; [|exact Hst]. split; [exact Hq|].
               now apply Hbetween. }
             intros fuel. change (S k + fuel)%nat with (S (k + fuel)). rewrite (loop_step cur cur'); auto.
          -- split.
             { intros q [Hq [->|Hq']] Hst; [destruct Hst; congruence|]. apply (Hnone q); [|exact Hst]. split; [exact Hq|now apply Hbetween]. }
             exists (S k). split; [lia|]. intros fuel. change (S k + fuel)%nat with (S (k + fuel)). rewrite (loop_step cur cur'); auto.
  Qed.

  Lemma enum_nil (P : pos -> Prop) : (forall q, P q -> ~ stored q) -> enumerates col_major P m [].
  Proof.
    intros H. split.
    - intros p r. split; [contradiction|]. intros [H1 H2]. exfalso. apply (H p H1). now exists r.
    - intros i j a b _ Ha. destruct i; discriminate.
  Qed.

  Lemma enum_cons cur p d L cur' : sh_ref p m = Some d -> from cur p ->
    (forall q, from cur q -> stored q -> q = p \/ col_major p q) ->
    enumerates col_major (fun q => from cur q /\ col_major p q) m L -> cur' = L ->
    enumerates col_major (from cur) m ((p, d) :: L).
  Proof.
    intros Hp Hf Hall [HL1 HL2] _. split.
    - intros q r. cbn [In]. rewrite HL1. split.
      + intros [H|[[H1 H2] H3]]; [inversion H; subst; auto|auto].
      + intros [H1 H2]. destruct (Hall q H1) as [->|Hq]; [now exists r|left; congruence|right; auto].
    - intros i j a b Hij Ha Hb. destruct j as [|j]; [lia|]. cbn in Hb. destruct i as [|i].
      + cbn in Ha. inversion Ha; subst. cbn. apply nth_error_In in Hb. destruct b as [q r]. apply HL1 in Hb. cbn. tauto.
      + cbn in Ha. eapply (HL2 i j); eauto. lia.
  Qed.

  Lemma enum_ext (P Q : pos -> Prop) L : (forall q, stored q -> P q <-> Q q) -> enumerates col_major P m L -> enumerates col_major Q m L.
  Proof.
    intros H [A B]. split; [|exact B]. intros p r. rewrite A. split; intros [H1 H2]; (split; [|exact H2]); apply H; auto; now exists r.
  Qed.

  Lemma collect n : forall cur, (left_ cur <= n)%nat -> in_rect s e cur ->
    exists L cur',
      enumerates col_major (from cur) m L /\
      ((stored corner /\ cur' = e) \/ (~ stored corner /\ in_rect s e cur' /\ forall q, from cur' q -> ~ stored q)) /\
      forall fuel, (n < fuel)%nat ->
        cols_run fuel (length L) m (IterCols s e cur) = Some (Ok (map Some L, IterCols s e cur')).
  Proof.
    induction n as [|n IH]; intros cur Hn Hin; [exfalso; destruct Hin; unfold left_ in Hn; lia|].
    destruct (next_from (S n) cur Hn Hin) as [(k & p & d & Hk & Hp & Hf & Hall & Hrun)|(Hnone & _)].
    - assert (Hnext : forall fuel cur', (S n < fuel)%nat -> cols_advance s e p = Ok cur' ->
        cols_next fuel m (IterCols s e cur) = Some (Ok (Some (p, d), IterCols s e cur'))).
      { intros fuel cur' Hfu Hadv. unfold cols_next. cbn [ic_cell ic_end ic_start].
        assert (E : pos_eqb cur e = false).
        { destruct (pos_eqb cur e) eqn:E; [|reflexivity]. apply pos_eqb_eq in E. subst. destruct Hin. lia. }
        rewrite E. replace fuel with (k + S (fuel - k - 1))%nat by lia. rewrite Hrun. cbn. now rewrite Hadv, Hp. }
      destruct (advance_in p (proj1 Hf)) as [[-> Ha]|(Hne & cur' & Ha & Hin' & Hlt & Hbetween & Hm)].
      + exists [(corner, d)], e. split; [|split].
        * apply enum_cons with (cur' := []); auto. apply enum_nil. intros q [[Hq _] Hq'] _.
          destruct (corner_last q Hq) as [->|X]; [now apply (col_major_irrefl corner)|].
          apply (col_major_irrefl q). eapply col_major_trans; eauto.
        * left. split; [now exists d|reflexivity].
        * intros fuel Hfu. cbn [length cols_run]. now rewrite (Hnext fuel e Hfu Ha).
      + assert (Hle : (left_ cur' <= n)%nat).
        { assert (left_ p <= left_ cur)%nat; [|lia]. destruct Hf as [Hf [->|Hlt2]]; [lia|].
          unfold left_, in_rect, col_major in *. 
          destruct Hlt2 as [Hlt2|[-> Hlt2]].
          - assert (A : (snd e - 1 - snd p) + 1 <= snd e - 1 - snd cur) by lia.
            apply (N.mul_le_mono_r _ _ (fst e - fst s)) in A. rewrite N.mul_add_distr_r in A. lia.
          - lia. }
        destruct (IH cur' Hle Hin') as (L & cur2 & HL & Hend & Hrun2).
        exists ((p, d) :: L), cur2. split; [|split].
        * apply enum_cons with (cur' := L); auto. eapply enum_ext; [|exact HL]. intros q Hst. unfold from. split.
          -- intros [Hq [->|Hq']]; (split; [split; [exact Hq|]|]); auto.
             ++ right. destruct Hf as [_ [<-|Hf]]; auto. eapply col_major_trans; eauto.
             ++ right. destruct Hf as [_ [<-|Hf]]; [|eapply col_major_trans; [exact Hf|]]; eapply col_major_trans; eauto.
             ++ eapply col_major_trans; eauto.
          -- intros [[Hq _] Hq']. split; [exact Hq|now apply Hbetween].
        * exact Hend.
        * intros fuel Hfu. cbn [length cols_run map]. rewrite (Hnext fuel cur' Hfu Ha). rewrite Hrun2 by lia. reflexivity.
    - exists [], cur. split; [|split].
      + now apply enum_nil.
      + right. split; [|split; auto]. apply Hnone. split; [apply corner_in|]. destruct (corner_last cur Hin); auto.
      + reflexivity.
  Qed.

  Lemma run_app fuel a : forall i b l j, cols_run fuel a m i = Some (Ok (l, j)) ->
    cols_run fuel (a + b) m i =
      match cols_run fuel b m j with Some (Ok (l2, j2)) => Some (Ok (l ++ l2, j2)) | x => x end.
  Proof.
    induction a as [|a IH]; intros i b l j H.
    - cbn in H. inversion H; subst. cbn [plus app]. destruct (cols_run fuel b m j) as [[[]| |]|]; reflexivity.
    - cbn in H |- *. destruct (cols_next fuel m i) as [[[x i']| |]|]; try discriminate.
      destruct (cols_run fuel a m i') as [[[l1 j1]| |]|] eqn:E; try discriminate. inversion H; subst.
      rewrite (IH _ b _ _ E). destruct (cols_run fuel b m j) as [[[]| |]|]; reflexivity.
  Qed.

  Lemma run_end fuel k : cols_run fuel k m (IterCols s e e) = Some (Ok (repeat None k, IterCols s e e)).
  Proof.
    induction k as [|k IH]; [reflexivity|]. cbn [cols_run]. unfold cols_next. cbn [ic_cell ic_end].
    replace (pos_eqb e e) with true by (symmetry; now apply pos_eqb_eq). rewrite IH. reflexivity.
  Qed.

  Lemma in_rect_ne cur : in_rect s e cur -> pos_eqb cur e = false.
  Proof. intros Hin. destruct (pos_eqb cur e) eqn:E; [|reflexivity]. apply pos_eqb_eq in E. subst. destruct Hin. lia. Qed.

  Lemma advance_end : fst e < u32_max -> cols_advance s e e = Ok e.
  Proof.
    intros H. unfold cols_advance, add32. replace (fst e + 1 <=? u32_max) with true by lia. cbn [bind].
    replace (fst e + 1 <? fst e) with false by lia. replace (fst e + 1 =? fst e) with false by lia.
    replace (pos_eqb e e) with true by (symmetry; now apply pos_eqb_eq). reflexivity.
  Qed.

  Lemma loop_end_diverges fuel : fst e < u32_max -> sh_ref e m = None -> cols_loop fuel m s e e = None.
  Proof. intros H H2. induction fuel as [|fuel IH]; [reflexivity|]. cbn. now rewrite advance_end, H2. Qed.

  Lemma loop_mono a b cur x : cols_loop a m s e cur = Some x -> cols_loop (a + b) m s e cur = Some x.
  Proof.
    revert cur. induction a as [|a IH]; intros cur; [discriminate|]. cbn.
    destruct (cols_advance s e cur); auto. destruct (sh_ref cur m); auto.
  Qed.
End Cols.

Lemma loop_mono_gen m s e a b cur x : cols_loop a m s e cur = Some x -> cols_loop (a + b) m s e cur = Some x.
Proof.
  revert cur. induction a as [|a IH]; intros cur; [discriminate|]. cbn.
  destruct (cols_advance s e cur); auto. destruct (sh_ref cur m); auto.
Qed.

Lemma run_mono m a b n : forall i x, cols_run a n m i = Some x -> cols_run (a + b) n m i = Some x.
Proof.
  induction n as [|n IH]; intros i x H; [exact H|]. cbn in *.
  assert (E : forall y, cols_next a m i = Some y -> cols_next (a + b) m i = Some y).
  { intros y. unfold cols_next. destruct (pos_eqb _ _); auto.
    destruct (cols_loop a m _ _ _) as [z|] eqn:Ez; [|discriminate]. now rewrite (loop_mono_gen _ _ _ _ b _ _ Ez). }
  destruct (cols_next a m i) as [y|]; [|discriminate]. rewrite (E y eq_refl).
  destruct y as [[z i']| |]; auto. destruct (cols_run a n m i') as [w|] eqn:Ew; [|discriminate].
  now rewrite (IH _ _ Ew).
Qed.

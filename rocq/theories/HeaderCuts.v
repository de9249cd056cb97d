(** Proofs about merging and cutting column headers before writing. *)
From Verif Require Import Base Lib OMap OMapProofs HeaderModel HeaderSpec HeaderProofs.

Section Tiles.
  Context {A : Type}.
  Implicit Types (m : hmap A).
  Notation sorted := (om_sorted N.ltb).

  (** Headers in order, from [lo] on, not empty, not overlapping, below [u32::MAX]. *)
  Fixpoint tiles (lo : N) m : Prop :=
    match m with
    | [] => True
    | (b, h) :: r => lo <= b /\ 1 <= h_span h /\ b + h_span h <= u32_max /\ tiles (b + h_span h) r
    end.

  Lemma tiles_weaken lo lo' m : tiles lo m -> lo' <= lo -> tiles lo' m.
  Proof. destruct m as [|[b h] r]; cbn; [auto|]. intuition lia. Qed.
  Lemma tiles_lo lo m b h : tiles lo m -> In (b, h) m -> lo <= b.
  Proof.
    revert lo. induction m as [|[b0 h0] r IH]; intros lo T I0; [destruct I0|].
    cbn in T. destruct T as [T1 [T2 [T3 T4]]]. destruct I0 as [H|H].
    - assert (b = b0) by congruence. lia.
    - specialize (IH _ T4 H). lia.
  Qed.
  Lemma tiles_disjoint lo m : tiles lo m -> disjoint m /\ wide m.
  Proof.
    revert lo. induction m as [|[b0 h0] r IH]; intros lo T.
    - split; [apply disjoint_nil|]. intros ? ? [].
    - cbn in T. destruct T as [T1 [T2 [T3 T4]]]. destruct (IH _ T4) as [[S [U D]] W].
      split; [split; [|split]|].
      + cbn. split; [|exact S]. apply Forall_forall. intros [b h] I. cbn. apply (tiles_lo _ _ _ _ T4) in I. lia.
      + intros b h [H|H]; [assert (b = b0) by congruence; assert (h = h0) by congruence; subst; exact T3|eauto].
      + intros b h b' h' [H|H] [H'|H'] L.
        * assert (b = b0) by congruence. assert (b' = b0) by congruence. lia.
        * assert (b = b0) by congruence. assert (h = h0) by congruence. subst. apply (tiles_lo _ _ _ _ T4) in H'. exact H'.
        * assert (b' = b0) by congruence. apply (tiles_lo _ _ _ _ T4) in H. lia.
        * eauto.
      + intros b h [H|H]; [assert (h = h0) by congruence; subst; exact T2|eauto].
  Qed.
  Lemma disjoint_tiles m : disjoint m -> wide m -> tiles 0 m.
  Proof.
    assert (G : forall m lo, disjoint m -> wide m -> (forall b h, In (b, h) m -> lo <= b) -> tiles lo m).
    { clear m. induction m as [|[b0 h0] r IH]; intros lo [S [U D]] W L; [exact I|]. cbn.
      split; [eapply L; left; reflexivity|]. split; [eapply W; left; reflexivity|].
      split; [eapply U; left; reflexivity|]. cbn in S. destruct S as [Sl S]. rewrite Forall_forall in Sl.
      apply IH.
      - split; [exact S|]. split; [intros; eapply U; right; eauto|]. intros b h b' h' I1 I2; eapply D; right; eauto.
      - intros ? ? I0. eapply W. right. exact I0.
      - intros b h I0. eapply D; [left; reflexivity|right; exact I0|]. specialize (Sl _ I0). cbn in Sl. lia. }
    intros D W. apply G; auto. intros; lia.
  Qed.

  Lemma floor_cons k b (h : hdr A) (r : hmap A) : om_floor k ((b, h) :: r) =
    if k <? b then None else match om_floor k r with Some e => Some e | None => Some (b, h) end.
  Proof. reflexivity. Qed.
  Lemma floor_before lo m k : tiles lo m -> k < lo -> om_floor k m = None.
  Proof.
    destruct m as [|[b h] r]; [reflexivity|]. cbn. intros [T _] L. destruct (k <? b) eqn:E; [reflexivity|lia].
  Qed.
  Lemma cov_tiles_cons lo k b (h : hdr A) (r : hmap A) : tiles lo ((b, h) :: r) ->
    cov ((b, h) :: r) k = if k <? b then None else if k <? b + h_span h then Some (h_attr h) else cov r k.
  Proof.
    intros T. cbn in T. destruct T as [T1 [T2 [T3 T4]]]. unfold cov. rewrite floor_cons.
    destruct (k <? b) eqn:E; [reflexivity|].
    destruct (k <? b + h_span h) eqn:E2.
    - rewrite (floor_before _ _ _ T4) by lia. rewrite E2. reflexivity.
    - destruct (om_floor k r) as [[b' h']|] eqn:F; [reflexivity|]. rewrite E2. reflexivity.
  Qed.
  Lemma cov_before lo m k : tiles lo m -> k < lo -> cov m k = None.
  Proof. intros T L. unfold cov. rewrite (floor_before _ _ _ T L). reflexivity. Qed.

  (** Appending behind everything. *)
  Lemma put_last k h m : Forall (fun kv => fst kv < k) m -> hput k h m = m ++ [(k, h)].
  Proof.
    induction m as [|[b0 h0] r IH]; intros F; [reflexivity|]. inversion F as [|? ? F0 F']; subst. cbn [fst] in F0.
    unfold hput in *. cbn [om_insert app]. destruct (k <? b0) eqn:E1; [lia|]. destruct (b0 <? k) eqn:E2; [|lia].
    rewrite IH by exact F'. reflexivity.
  Qed.

  Fixpoint pieces (sp : list N) (a : A) (n : nat) (cc col : N) : hmap A :=
    match n with
    | O => [(col, mkHdr a (cc - col))]
    | S n' =>
        if existsb (N.eqb cc) sp then
          (if 0 <? cc - col then [(col, mkHdr a (cc - col))] else []) ++ pieces sp a n' (cc + 1) cc
        else pieces sp a n' (cc + 1) col
    end.
  Lemma cut_header_pieces sp a n : forall cc col m, col <= cc -> Forall (fun kv => fst kv < col) m ->
    cut_header sp a n cc col m = m ++ pieces sp a n cc col.
  Proof.
    induction n as [|n IH]; intros cc col m L F; cbn [cut_header pieces].
    - apply put_last. exact F.
    - destruct (existsb (N.eqb cc) sp).
      + destruct (0 <? cc - col) eqn:E.
        * rewrite put_last by exact F. rewrite IH.
          { rewrite <- app_assoc. reflexivity. }
          { lia. }
          { apply Forall_app. split; [|constructor; [cbn; lia|constructor]].
            apply (Forall_impl _ (P := fun kv => fst kv < col)); [|exact F]. cbv beta. intros; lia. }
        * rewrite IH; [reflexivity|lia|]. apply (Forall_impl _ (P := fun kv => fst kv < col)); [|exact F]. cbv beta. intros; lia.
      + apply IH; [lia|exact F].
  Qed.

  Definition uncut (sp : list N) (b e : N) : Prop := forall p, In p sp -> ~ (b < p < e).
  (** A run of headers with attributes [a] filling [lo..hi) without gaps and cuts. *)
  Fixpoint chain (sp : list N) (a : A) (lo hi : N) m : Prop :=
    match m with
    | [] => lo = hi
    | (b, h) :: r => b = lo /\ 1 <= h_span h /\ h_attr h = a /\ uncut sp b (b + h_span h) /\ chain sp a (b + h_span h) hi r
    end.
  Lemma pieces_chain sp a n : forall cc col, col <= cc -> col < cc + N.of_nat n -> uncut sp col cc ->
    chain sp a col (cc + N.of_nat n) (pieces sp a n cc col).
  Proof.
    induction n as [|n IH]; intros cc col L1 L2 U; cbn [pieces].
    - cbn [chain h_span h_attr]. repeat split; try lia. replace (col + (cc - col)) with cc by lia. exact U.
    - destruct (existsb (N.eqb cc) sp) eqn:E.
      + assert (chain sp a cc (cc + N.of_nat (S n)) (pieces sp a n (cc + 1) cc)) as C.
        { replace (cc + N.of_nat (S n)) with ((cc + 1) + N.of_nat n) by lia. apply IH; [lia|lia|]. intros p _. lia. }
        destruct (0 <? cc - col) eqn:E2.
        * cbn [app chain h_span h_attr]. replace (col + (cc - col)) with cc by lia.
          repeat split; try lia; [exact U|exact C].
        * assert (col = cc) by lia. subst. exact C.
      + replace (cc + N.of_nat (S n)) with ((cc + 1) + N.of_nat n) by lia. apply IH; [lia|lia|].
        intros p I. specialize (U p I). destruct (N.eq_dec p cc) as [->|Np]; [|lia].
        exfalso. assert (existsb (N.eqb cc) sp = true); [|congruence].
        apply existsb_exists. exists cc. split; [exact I|lia].
  Qed.
  Lemma chain_le sp a lo hi m : chain sp a lo hi m -> lo <= hi.
  Proof.
    revert lo. induction m as [|[b h] r IH]; intros lo C; cbn in C; [lia|].
    destruct C as [-> [C1 [C2 [C3 C4]]]]. apply IH in C4. lia.
  Qed.
  Lemma chain_tiles sp a lo hi m r : chain sp a lo hi m -> hi <= u32_max -> tiles hi r -> tiles lo (m ++ r).
  Proof.
    revert lo. induction m as [|[b h] q IH]; intros lo C U T; cbn [app].
    - cbn in C. subst. exact T.
    - cbn in C. destruct C as [-> [C1 [C2 [C3 C4]]]]. cbn [tiles]. pose proof (chain_le _ _ _ _ _ C4).
      repeat split; try lia. apply IH; assumption.
  Qed.
  Lemma chain_cov sp a lo hi m r k : chain sp a lo hi m -> hi <= u32_max -> tiles hi r ->
    cov (m ++ r) k = if k <? lo then None else if k <? hi then Some a else cov r k.
  Proof.
    revert lo. induction m as [|[b h] q IH]; intros lo C U T; cbn [app].
    - cbn in C. subst. destruct (k <? hi) eqn:E; [|reflexivity]. apply (cov_before _ _ _ T). lia.
    - pose proof (chain_tiles _ _ _ _ _ r C U T) as Tt. cbn [app] in Tt. cbn in C. destruct C as [-> [C1 [C2 [C3 C4]]]].
      rewrite (cov_tiles_cons lo) by exact Tt. pose proof (chain_le _ _ _ _ _ C4).
      rewrite (IH _ C4 U T).
      destruct (k <? lo) eqn:E1; [reflexivity|].
      destruct (k <? lo + h_span h) eqn:E2; [|reflexivity].
      destruct (k <? hi) eqn:E3; [congruence|lia].
  Qed.
  Lemma chain_uncut sp a lo hi m b h : chain sp a lo hi m -> In (b, h) m -> uncut sp b (b + h_span h).
  Proof.
    revert lo. induction m as [|[b0 h0] q IH]; intros lo C I0; [destruct I0|].
    cbn in C. destruct C as [-> [C1 [C2 [C3 C4]]]]. destruct I0 as [H|H].
    - assert (b = lo) by congruence. assert (h = h0) by congruence. subst. exact C3.
    - eapply IH; eauto.
  Qed.
  Lemma chain_below sp a lo hi m : chain sp a lo hi m -> Forall (fun kv => fst kv < hi) m.
  Proof.
    revert lo. induction m as [|[b0 h0] q IH]; intros lo C; cbn in C; [constructor|].
    destruct C as [-> [C1 [C2 [C3 C4]]]]. constructor; [|eapply IH; eauto]. cbn. pose proof (chain_le _ _ _ _ _ C4). lia.
  Qed.

  Lemma cut_headers_spec sp ms : forall lo acc, tiles lo ms -> Forall (fun kv => fst kv < lo) acc ->
    exists r, cut_headers sp ms acc = Ok (acc ++ r) /\ tiles lo r /\ (forall k, cov r k = cov ms k)
      /\ (forall b h, In (b, h) r -> uncut sp b (b + h_span h)).
  Proof.
    induction ms as [|[b h] q IH]; intros lo acc T F.
    - exists []. rewrite app_nil_r. repeat split. intros ? ? [].
    - pose proof T as T'. cbn in T. destruct T as [T1 [T2 [T3 T4]]]. cbn [cut_headers].
      unfold add32. destruct (b + h_span h <=? u32_max) eqn:E; [|lia]. cbn [bind].
      rewrite cut_header_pieces.
      2:{ lia. }
      2:{ apply (Forall_impl _ (P := fun kv => fst kv < lo)); [|exact F]. cbv beta. intros; lia. }
      pose proof (pieces_chain sp (h_attr h) (N.to_nat (h_span h)) b b ltac:(lia) ltac:(lia)) as C.
      replace (b + N.of_nat (N.to_nat (h_span h))) with (b + h_span h) in C by lia.
      specialize (C ltac:(intros p _; lia)).
      set (ps := pieces sp (h_attr h) (N.to_nat (h_span h)) b b) in *.
      destruct (IH (b + h_span h) (acc ++ ps) T4) as [r [E1 [Tr [Cr Ur]]]].
      { apply Forall_app. split; [|eapply chain_below; eauto].
        apply (Forall_impl _ (P := fun kv => fst kv < lo)); [|exact F]. cbv beta. intros; lia. }
      exists (ps ++ r). rewrite app_assoc. split; [exact E1|]. split; [|split].
      + apply (tiles_weaken b); [|lia]. eapply chain_tiles; eauto.
      + intros k. rewrite (chain_cov _ _ _ _ _ _ _ C T3 Tr). rewrite (cov_tiles_cons lo) by exact T'.
        rewrite Cr. reflexivity.
      + intros b' h' I'. apply in_app_iff in I'. destruct I' as [I'|I']; [eapply chain_uncut; eauto|eauto].
  Qed.
End Tiles.

(** Merging equal neighbours. *)
Lemma ostr_eq_spec a b : ostr_eq a b = true <-> a = b.
Proof.
  destruct a as [x|], b as [y|]; cbn; try (split; congruence).
  rewrite str_eqb_eq. split; congruence.
Qed.
Lemma vis_eqb_spec a b : vis_eqb a b = true <-> a = b.
Proof. destruct a, b; cbn; split; congruence. Qed.
Lemma limited_eq_spec a b : limited_eq a b = true <-> a = b.
Proof.
  unfold limited_eq. rewrite !andb_true_iff, !ostr_eq_spec, vis_eqb_spec. destruct a, b; cbn.
  split; [intros [[[-> ->] ->] ->]; reflexivity|]. intros H. injection H as -> -> -> ->. tauto.
Qed.

(** Neighbouring headers with equal attributes touch. *)
Fixpoint touching (m : hmap colattr) : Prop :=
  match m with
  | (b, h) :: (((b', h') :: _) as r) => (h_attr h = h_attr h' -> b + h_span h = b') /\ touching r
  | _ => True
  end.

Lemma dedup_from_spec m : forall lo c h, tiles lo ((c, h) :: m) -> touching ((c, h) :: m) ->
  exists r, dedup_from c h m = Ok r /\ tiles lo r /\ (forall k, cov r k = cov ((c, h) :: m) k).
Proof.
  induction m as [|[c' h'] q IH]; intros lo c h T G.
  - exists [(c, h)]. split; [reflexivity|]. split; [exact T|reflexivity].
  - cbn [touching] in G. destruct G as [G1 G2]. cbn [dedup_from].
    pose proof T as T0. cbn in T. destruct T as [T1 [T2 [T3 [T4 [T5 [T6 T7]]]]]].
    destruct (limited_eq (h_attr h) (h_attr h')) eqn:E.
    + apply limited_eq_spec in E. specialize (G1 E). subst c'.
      unfold add32. destruct (h_span h + h_span h' <=? u32_max) eqn:X; [|lia]. cbn [bind].
      assert (T' : tiles lo ((c, mkHdr (h_attr h) (h_span h + h_span h')) :: q)).
      { cbn [tiles h_span]. repeat split; try lia. rewrite N.add_assoc. exact T7. }
      destruct (IH lo c (mkHdr (h_attr h) (h_span h + h_span h'))) as [r [E1 [Tr Cr]]]; [exact T'| |].
      { destruct q as [|[c2 h2] q']; [exact I|]. cbn [touching] in *. destruct G2 as [G2 G3]. split; [|exact G3].
        cbn [h_attr h_span]. intros Hh. rewrite N.add_assoc. apply G2. congruence. }
      exists r. split; [exact E1|]. split; [exact Tr|]. intros k. rewrite Cr.
      rewrite (cov_tiles_cons lo) by exact T'. rewrite (cov_tiles_cons lo) by exact T0.
      rewrite (cov_tiles_cons (c + h_span h)) by (cbn [tiles]; repeat split; try lia; exact T7).
      cbn [h_span h_attr].
      destruct (k <? c) eqn:K1; [reflexivity|].
      destruct (k <? c + h_span h) eqn:K2.
      * destruct (k <? c + (h_span h + h_span h')) eqn:K3; [reflexivity|lia].
      * destruct (k <? c + (h_span h + h_span h')) eqn:K3; destruct (k <? c + h_span h + h_span h') eqn:K4; try lia; congruence.
    + destruct (IH (c + h_span h) c' h') as [r [E1 [Tr Cr]]].
      { cbn [tiles]. repeat split; try lia; exact T7. }
      { exact G2. }
      rewrite E1. cbn [bind]. exists ((c, h) :: r). split; [reflexivity|].
      assert (tiles lo ((c, h) :: r)) as T' by (cbn [tiles]; repeat split; try lia; exact Tr).
      split; [exact T'|]. intros k.
      rewrite (cov_tiles_cons lo) by exact T'. rewrite (cov_tiles_cons lo) by exact T0. rewrite Cr. reflexivity.
Qed.

Lemma dedup_spec m : tiles 0 m -> touching m ->
  exists r, dedup_colheader m = Ok r /\ tiles 0 r /\ (forall k, cov r k = cov m k).
Proof.
  destruct m as [|[c h] q]; intros T G.
  - exists []. repeat split.
  - apply dedup_from_spec; assumption.
Qed.

Lemma group_cuts_ok gs : Forall (fun g => g_to g < u32_max) gs ->
  exists c, group_cuts gs = Ok c /\ forall g, In g gs -> In (g_from g) c /\ In (g_to g + 1) c.
Proof.
  induction gs as [|g r IH]; intros F.
  - exists []. split; [reflexivity|]. intros ? [].
  - inversion F as [|? ? F0 F']; subst. destruct (IH F') as [c [E H]]. cbn [group_cuts].
    unfold add32. destruct (g_to g + 1 <=? u32_max) eqn:X; [|lia]. cbn [bind]. rewrite E. cbn [bind].
    eexists. split; [reflexivity|]. intros g' [<-|I].
    + split; [left; reflexivity|right; left; reflexivity].
    + destruct (H _ I). split; right; right; assumption.
Qed.
Lemma cuts_ok gs hc : Forall (fun g => g_to g < u32_max) gs -> (forall f t, hc = Some (f, t) -> t < u32_max) ->
  exists c, cuts gs hc = Ok c /\ (forall g, In g gs -> In (g_from g) c /\ In (g_to g + 1) c)
    /\ (forall f t, hc = Some (f, t) -> In f c /\ In (t + 1) c).
Proof.
  intros F H. destruct (group_cuts_ok gs F) as [c [E Hc]]. unfold cuts. rewrite E. cbn [bind].
  destruct hc as [[f t]|].
  - specialize (H _ _ eq_refl). unfold add32. destruct (t + 1 <=? u32_max) eqn:X; [|lia]. cbn [bind].
    eexists. split; [reflexivity|]. split.
    + intros g I. destruct (Hc _ I). split; apply in_app_iff; left; assumption.
    + intros f' t' Hh. assert (f = f') by congruence. assert (t = t') by congruence. subst.
      split; apply in_app_iff; right; cbn; tauto.
  - exists c. split; [reflexivity|]. split; [exact Hc|]. discriminate.
Qed.

Lemma calc_col_headers_spec gs hc m : disjoint m -> wide m -> touching m ->
  Forall (fun g => g_to g < u32_max) gs -> (forall f t, hc = Some (f, t) -> t < u32_max) ->
  exists c r, cuts gs hc = Ok c /\ calc_col_headers gs hc m = Ok r /\ tiles 0 r /\ (forall k, cov r k = cov m k)
    /\ (forall b h, In (b, h) r -> uncut c b (b + h_span h)).
Proof.
  intros D W G Fg Fh. pose proof (disjoint_tiles _ D W) as T.
  destruct (dedup_spec m T G) as [d [Ed [Td Cd]]]. destruct (cuts_ok gs hc Fg Fh) as [c [Ec _]].
  destruct (cut_headers_spec c d 0 [] Td (Forall_nil _)) as [r [Er [Tr [Cr Ur]]]].
  exists c, r. split; [exact Ec|]. unfold calc_col_headers. rewrite Ed. cbn [bind]. rewrite Ec. cbn [bind].
  split; [exact Er|]. split; [exact Tr|]. split; [|exact Ur]. intros k. rewrite Cr. apply Cd.
Qed.

(** Setting a column attribute keeps the map sorted and free of overflow. *)
Lemma set_col_ends {A} (d : A) f c m m' : disjoint m -> c < u32_max ->
  (forall b h, header_for m c b h -> c + h_span h <= u32_max) ->
  bind (split_col d c m) (set_attr c f) = Ok m' -> om_sorted N.ltb m' /\ ends_ok m'.
Proof.
  intros D L Hs E. pose proof D as [S [U Dj]]. revert E. unfold split_col.
  assert (P : forall x (mm : hmap A), om_sorted N.ltb mm /\ ends_ok mm -> forall h0, hget x mm = Some h0 ->
    forall q, set_attr x f mm = Ok q -> om_sorted N.ltb q /\ ends_ok q).
  { intros x mm [Sm Um] h0 G q H. rewrite (set_attr_ok _ _ _ _ G) in H.
    assert (q = hput x (mkHdr (f (h_attr h0)) (h_span h0)) mm) by congruence. subst q.
    split; [apply hput_sorted; exact Sm|]. intros b h I. apply in_put in I; [|exact Sm].
    destruct I as [[-> ->]|[_ I]]; [|eauto]. cbn [h_span]. apply Um. apply hget_in; [exact Sm|exact G]. }
  assert (Q : forall x (h0 : hdr A) mm, om_sorted N.ltb mm /\ ends_ok mm -> x + h_span h0 <= u32_max ->
    om_sorted N.ltb (hput x h0 mm) /\ ends_ok (hput x h0 mm)).
  { intros x h0 mm [Sm Um] Hx. split; [apply hput_sorted; exact Sm|]. intros b h I. apply in_put in I; [|exact Sm].
    destruct I as [[-> ->]|[_ I]]; [exact Hx|eauto]. }
  destruct (match hget c m with Some h => h_span h =? 1 | None => false end) eqn:Al.
  - cbn [bind]. destruct (hget c m) as [h0|] eqn:G; [|discriminate]. apply (P c m (conj S U) h0 G).
  - destruct (find_covering c m) as [[[b h]|]| |] eqn:F; cbn [bind]; try discriminate.
    + apply find_covering_sound in F; [|exact S]. destruct F as [I [L1 L2]]. pose proof (U _ _ I) as Ub.
      assert (Hc : c + h_span h <= u32_max).
      { apply (Hs b h). split; [exact I|]. split; [exact L1|]. split; [exact L2|]. intros b' h' I' L'.
        destruct (N.lt_ge_cases b b') as [X|X]; [|exact X]. specialize (Dj _ _ _ _ I I' X). lia. }
      unfold add32. destruct (c + 1 <=? u32_max) eqn:X; [|lia]. cbn [bind].
      assert (Sr : om_sorted N.ltb (om_remove N.ltb b m) /\ ends_ok (om_remove N.ltb b m)).
      { split; [apply sorted_remove; exact S|]. intros b' h' I'.
        assert (In (b', h') m); [|eauto]. clear -I'. induction m as [|[b0 h0] r IH]; [exact I'|].
        cbn [om_remove] in I'. destruct (b <? b0); [exact I'|]. destruct (b0 <? b); [|right; exact I'].
        destruct I' as [I'|I']; [left; exact I'|right; auto]. }
      set (m1 := om_remove N.ltb b m) in *.
      assert (S2 : om_sorted N.ltb (if 0 <? c - b then hput b (mkHdr (h_attr h) (c - b)) m1 else m1)
                /\ ends_ok (if 0 <? c - b then hput b (mkHdr (h_attr h) (c - b)) m1 else m1)).
      { destruct (0 <? c - b) eqn:Y; [|exact Sr]. apply Q; [exact Sr|]. cbn [h_span]. lia. }
      set (m2 := if 0 <? c - b then _ else _) in *.
      pose proof (Q c h m2 S2 Hc) as S3.
      destruct (0 <? b + h_span h - (c + 1)) eqn:Y2.
      * apply (P c _ (Q (c + 1) (mkHdr (h_attr h) (b + h_span h - (c + 1))) _ S3 ltac:(cbn [h_span]; lia)) h).
        rewrite hget_put_other by lia. apply hget_put_same.
      * apply (P c _ S3 h). apply hget_put_same.
    + apply (P c _ (Q c (mkHdr d 1) m (conj S U) ltac:(cbn [h_span]; lia)) (mkHdr d 1)). apply hget_put_same.
Qed.

Lemma col_report_cov {B} (fld : colattr -> B) d k m : om_sorted N.ltb m -> ends_ok m ->
  col_report fld d k m = Ok (match cov m k with Some a => fld a | None => d end).
Proof.
  intros S U. unfold col_report. rewrite valid_header_cov by assumption. cbn [bind]. unfold cov.
  destruct (om_floor k m) as [[b h]|]; [|reflexivity]. destruct (k <? b + h_span h); reflexivity.
Qed.
Lemma seen_or_cov {A} (d : A) m k a : om_sorted N.ltb m -> seen_or d m k a -> cov_or d m k = a.
Proof.
  intros S [H|[H ->]]; unfold cov_or.
  - apply cov_seen in H; [|exact S]. rewrite H. reflexivity.
  - apply cov_none in H; [|exact S]. rewrite H. reflexivity.
Qed.

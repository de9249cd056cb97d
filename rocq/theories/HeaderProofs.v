(** Proofs about row/column headers and groups. *)
From Verif Require Import Base Lib OMap OMapProofs HeaderModel HeaderSpec.

Section Floor.
  Context {A : Type}.
  Implicit Types (m : hmap A) (h : hdr A).
  Notation sorted := (om_sorted N.ltb).

  Lemma hget_in k h m : sorted m -> hget k m = Some h <-> In (k, h) m.
  Proof. apply get_in. apply nltb_order. Qed.
  Lemma hput_sorted k h m : sorted m -> sorted (hput k h m).
  Proof. apply sorted_insert. apply nltb_order. Qed.
  Lemma hget_put_same k h m : hget k (hput k h m) = Some h.
  Proof. apply get_insert_same. apply nltb_order. Qed.
  Lemma hget_put_other k j h m : k <> j -> hget k (hput j h m) = hget k m.
  Proof. apply get_insert_other. apply nltb_order. Qed.

  Lemma in_put b h k v m : sorted m -> In (b, h) (hput k v m) <-> (b = k /\ h = v) \/ (b <> k /\ In (b, h) m).
  Proof.
    intros S. rewrite <- (hget_in b h (hput k v m)) by (apply hput_sorted; exact S).
    destruct (N.eq_dec b k) as [->|E].
    - rewrite hget_put_same. split; [intros H; left; split; congruence|intros [[_ H]|[H _]]; congruence].
    - rewrite hget_put_other by exact E. rewrite hget_in by exact S. tauto.
  Qed.

  Lemma floor_some k m b h : sorted m -> om_floor k m = Some (b, h) <->
    In (b, h) m /\ b <= k /\ (forall b' h', In (b', h') m -> b' <= k -> b' <= b).
  Proof.
    revert b h. induction m as [|[b0 h0] m IH]; intros b h S.
    - cbn. split; [discriminate|tauto].
    - cbn [om_floor]. cbn [om_sorted] in S. destruct S as [Hlt S]. rewrite Forall_forall in Hlt.
      destruct (k <? b0) eqn:E.
      + split; [discriminate|]. intros [[H|H] [Hk _]].
        * assert (b = b0) by congruence. lia.
        * specialize (Hlt _ H). cbn in Hlt. lia.
      + destruct (om_floor k m) as [[b1 h1]|] eqn:F.
        * pose proof (proj1 (IH b1 h1 S) eq_refl) as [I1 [L1 M1]].
          pose proof (Hlt _ I1) as Hb1. cbn in Hb1.
          split.
          { intros H. assert (b1 = b) by congruence. assert (h1 = h) by congruence. subst.
            split; [right; exact I1|]. split; [exact L1|].
            intros b' h' [H'|H'] Hk; [assert (b' = b0) by congruence; lia|eapply M1; eauto]. }
          { intros [[H|H] [Hk Hm]].
            - assert (b = b0) by congruence. subst b. specialize (Hm b1 h1 (or_intror I1) L1). lia.
            - apply IH; [exact S|]. split; [exact H|]. split; [exact Hk|]. intros; eapply Hm; [right|]; eauto. }
        * split.
          { intros H. assert (b0 = b) by congruence. assert (h0 = h) by congruence. subst.
            split; [left; reflexivity|]. split; [lia|]. intros b' h' [H'|H'] Hk; [assert (b' = b) by congruence; lia|].
            exfalso. destruct m as [|[b2 h2] m2]; [destruct H'|].
            cbn [om_floor] in F. destruct (k <? b2) eqn:E2; [|destruct (om_floor k m2); discriminate].
            cbn [om_sorted] in S. destruct S as [Hl2 _]. rewrite Forall_forall in Hl2.
            destruct H' as [H'|H']; [assert (b' = b2) by congruence; lia|]. specialize (Hl2 _ H'). cbn in Hl2. lia. }
          { intros [[H|H] [Hk Hm]]; [congruence|]. exfalso.
            destruct m as [|[b2 h2] m2]; [destruct H|].
            cbn [om_floor] in F. destruct (k <? b2) eqn:E2; [|destruct (om_floor k m2); discriminate].
            cbn [om_sorted] in S. destruct S as [Hl2 _]. rewrite Forall_forall in Hl2.
            destruct H as [H|H]; [assert (b = b2) by congruence; lia|]. specialize (Hl2 _ H). cbn in Hl2. lia. }
  Qed.

  Lemma floor_none k m : sorted m -> om_floor k m = None <-> (forall b h, In (b, h) m -> k < b).
  Proof.
    intros S. destruct (om_floor k m) as [[b h]|] eqn:F.
    - apply floor_some in F; [|exact S]. destruct F as [I [L _]]. split; [discriminate|].
      intros H. specialize (H _ _ I). lia.
    - split; [intros _|reflexivity]. destruct m as [|[b0 h0] m]; [intros ? ? []|].
      cbn [om_floor] in F. destruct (k <? b0) eqn:E; [|destruct (om_floor k m); discriminate].
      cbn [om_sorted] in S. destruct S as [Hl _]. rewrite Forall_forall in Hl.
      intros b h [H|H]; [assert (b = b0) by congruence; lia|]. specialize (Hl _ H). cbn in Hl. lia.
  Qed.

  Lemma floor_put k j v m : sorted m -> om_floor k (hput j v m) =
    if k <? j then om_floor k m
    else match om_floor k m with Some (b, h) => if b <=? j then Some (j, v) else Some (b, h) | None => Some (j, v) end.
  Proof.
    intros S. pose proof (hput_sorted j v m S) as S'.
    destruct (k <? j) eqn:E.
    - destruct (om_floor k m) as [[b h]|] eqn:F.
      + apply floor_some in F; [|exact S]. apply floor_some; [exact S'|]. destruct F as [I [L M]].
        split; [apply in_put; [exact S|right; split; [lia|exact I]]|]. split; [exact L|].
        intros b' h' I' L'. apply in_put in I'; [|exact S]. destruct I' as [[-> _]|[_ I']]; [lia|eauto].
      + apply floor_none; [exact S'|]. rewrite floor_none in F by exact S.
        intros b h I. apply in_put in I; [|exact S]. destruct I as [[-> _]|[_ I]]; [lia|eauto].
    - destruct (om_floor k m) as [[b h]|] eqn:F.
      + apply floor_some in F; [|exact S]. destruct F as [I [L M]].
        destruct (b <=? j) eqn:Eb; (apply floor_some; [exact S'|]).
        * split; [apply in_put; [exact S|left; split; reflexivity]|]. split; [lia|].
          intros b' h' I' L'. apply in_put in I'; [|exact S]. destruct I' as [[-> _]|[_ I']]; [lia|].
          specialize (M _ _ I' L'). lia.
        * split; [apply in_put; [exact S|right; split; [lia|exact I]]|]. split; [exact L|].
          intros b' h' I' L'. apply in_put in I'; [|exact S]. destruct I' as [[-> _]|[_ I']]; [lia|eauto].
      + rewrite floor_none in F by exact S. apply floor_some; [exact S'|].
        split; [apply in_put; [exact S|left; split; reflexivity]|]. split; [lia|].
        intros b' h' I' L'. apply in_put in I'; [|exact S]. destruct I' as [[-> _]|[_ I']]; [lia|].
        specialize (F _ _ I'). lia.
  Qed.

  (** Pure coverage function: what the getters look at. *)
  Definition cov m k : option A :=
    match om_floor k m with Some (b, h) => if k <? b + h_span h then Some (h_attr h) else None | None => None end.

  Lemma header_for_floor m k b h : sorted m -> header_for m k b h <-> om_floor k m = Some (b, h) /\ k < b + h_span h.
  Proof. intros S. rewrite floor_some by exact S. unfold header_for. tauto. Qed.

  Lemma cov_seen m k a : sorted m -> cov m k = Some a <-> seen m k a.
  Proof.
    intros S. unfold cov, seen. split.
    - destruct (om_floor k m) as [[b h]|] eqn:F; [|discriminate]. destruct (k <? b + h_span h) eqn:E; [|discriminate].
      intros H. exists b, h. split; [apply header_for_floor; [exact S|split; [exact F|lia]]|congruence].
    - intros [b [h [H <-]]]. apply header_for_floor in H; [|exact S]. destruct H as [-> H].
      destruct (k <? b + h_span h) eqn:E; [reflexivity|lia].
  Qed.
  Lemma cov_none m k : sorted m -> cov m k = None <-> no_header_for m k.
  Proof.
    intros S. split.
    - intros H b h H'. assert (seen m k (h_attr h)) as Hs by (exists b, h; auto).
      apply cov_seen in Hs; [|exact S]. congruence.
    - intros H. destruct (cov m k) as [a|] eqn:E; [|reflexivity]. apply cov_seen in E; [|exact S].
      destruct E as [b [h [Hf _]]]. destruct (H _ _ Hf).
  Qed.
  Lemma same_at_cov m m' k : sorted m -> sorted m' -> cov m k = cov m' k -> same_at m m' k.
  Proof.
    intros S S' H a. fold (seen m k a). fold (seen m' k a). rewrite <- !cov_seen by assumption. rewrite H. tauto.
  Qed.

  Definition ends_ok m := forall b h, In (b, h) m -> b + h_span h <= u32_max.

  Lemma valid_header_cov m k : sorted m -> ends_ok m ->
    valid_header k m = Ok (match om_floor k m with Some (b, h) => if k <? b + h_span h then Some h else None | None => None end).
  Proof.
    intros S E. unfold valid_header. destruct (om_floor k m) as [[b h]|] eqn:F; [|reflexivity].
    apply floor_some in F; [|exact S]. destruct F as [I [L _]]. specialize (E _ _ I).
    unfold in_span, add32. destruct (b + h_span h <=? u32_max) eqn:X; [|lia]. cbn [bind].
    destruct (b <=? k) eqn:Y; [|lia]. reflexivity.
  Qed.

  Lemma floor_disjoint m c b h k : disjoint m -> om_floor c m = Some (b, h) -> b <= k ->
    exists b2 h2, om_floor k m = Some (b2, h2) /\ b2 <= k /\ ((b2 = b /\ h2 = h) \/ (b < b2 /\ b + h_span h <= b2)).
  Proof.
    intros [S [_ D]] F L. apply floor_some in F; [|exact S]. destruct F as [I [Lc M]].
    destruct (om_floor k m) as [[b2 h2]|] eqn:F2.
    - exists b2, h2. apply floor_some in F2; [|exact S]. destruct F2 as [I2 [L2 M2]].
      split; [reflexivity|]. split; [exact L2|]. specialize (M2 _ _ I L).
      destruct (N.eq_dec b2 b) as [->|Hne].
      + left. split; [reflexivity|]. apply (proj2 (hget_in _ _ _ S)) in I. apply (proj2 (hget_in _ _ _ S)) in I2. congruence.
      + right. split; [lia|]. eapply D; eauto. lia.
    - rewrite floor_none in F2 by exact S. specialize (F2 _ _ I). lia.
  Qed.

  Lemma sorted_hmap_ext m1 m2 : sorted m1 -> sorted m2 -> (forall k, hget k m1 = hget k m2) -> m1 = m2.
  Proof. apply sorted_ext. apply nltb_order. Qed.
  Lemma put_remove b h m : sorted m -> hput b h (om_remove N.ltb b m) = hput b h m.
  Proof.
    intros S. apply sorted_hmap_ext.
    - apply hput_sorted. apply sorted_remove. exact S.
    - apply hput_sorted. exact S.
    - intros k. destruct (N.eq_dec k b) as [->|E].
      + rewrite !hget_put_same. reflexivity.
      + rewrite !hget_put_other by exact E. apply get_remove_other; [apply nltb_order|exact S|exact E].
  Qed.
  Lemma put_put k h h' m : sorted m -> hput k h (hput k h' m) = hput k h m.
  Proof.
    intros S. apply sorted_hmap_ext; try (repeat apply hput_sorted; exact S).
    intros j. destruct (N.eq_dec j k) as [->|E]; [rewrite !hget_put_same; reflexivity|].
    rewrite !hget_put_other by exact E. reflexivity.
  Qed.
  Lemma put_comm j k h h' m : sorted m -> j <> k -> hput j h (hput k h' m) = hput k h' (hput j h m).
  Proof.
    intros S N. apply sorted_hmap_ext; try (repeat apply hput_sorted; exact S).
    intros i. destruct (N.eq_dec i k) as [->|E].
    - rewrite (hget_put_other k j) by congruence. rewrite !hget_put_same. reflexivity.
    - destruct (N.eq_dec i j) as [->|E2].
      + rewrite (hget_put_other j k) by congruence. rewrite !hget_put_same. reflexivity.
      + rewrite !hget_put_other by assumption. reflexivity.
  Qed.

  (** The search loop finds the covering header in a disjoint map. *)
  Lemma find_covering_sound m col b h : sorted m -> find_covering col m = Ok (Some (b, h)) ->
    In (b, h) m /\ b <= col /\ col < b + h_span h.
  Proof.
    induction m as [|[b0 h0] m IH]; intros S H; [discriminate|].
    cbn [find_covering] in H. cbn [om_sorted] in S. destruct S as [_ S].
    destruct (b0 <=? col) eqn:E.
    - unfold add32 in H. destruct (b0 + h_span h0 <=? u32_max) eqn:X; [|discriminate]. cbn [bind] in H.
      destruct (col <? b0 + h_span h0) eqn:Y.
      + assert (b0 = b) by congruence. assert (h0 = h) by congruence. subst. split; [left; reflexivity|lia].
      + destruct (IH S H) as [I J]. split; [right; exact I|exact J].
    - destruct (IH S H) as [I J]. split; [right; exact I|exact J].
  Qed.
  Lemma find_covering_ok m col : sorted m -> (forall b h, In (b, h) m -> b <= col -> b + h_span h <= u32_max) ->
    exists r, find_covering col m = Ok r /\ (r = None -> forall b h, In (b, h) m -> b <= col -> b + h_span h <= col).
  Proof.
    induction m as [|[b0 h0] m IH]; intros S U.
    - exists None. split; [reflexivity|intros _ ? ? []].
    - cbn [om_sorted] in S. destruct S as [_ S].
      destruct (IH S) as [r [Hr Hn]]; [intros; eapply U; [right|]; eauto|].
      cbn [find_covering]. destruct (b0 <=? col) eqn:E.
      + unfold add32. pose proof (U b0 h0 (or_introl eq_refl) ltac:(lia)) as U0.
        destruct (b0 + h_span h0 <=? u32_max) eqn:X; [|lia]. cbn [bind].
        destruct (col <? b0 + h_span h0) eqn:Y.
        * exists (Some (b0, h0)). split; [reflexivity|discriminate].
        * exists r. split; [exact Hr|]. intros Hx b h [H|H] L.
          { assert (b = b0) by congruence. assert (h = h0) by congruence. subst. lia. }
          { eapply Hn; eauto. }
      + exists r. split; [exact Hr|]. intros Hx b h [H|H] L.
        { assert (b = b0) by congruence. lia. }
        { eapply Hn; eauto. }
  Qed.
End Floor.

Section Steps.
  Context {A : Type}.
  Implicit Types (m : hmap A) (h : hdr A) (f : A -> A) (d : A).
  Notation sorted := (om_sorted N.ltb).

  Definition last_row m row : bool :=
    match om_floor row m with Some (b, h) => row + 1 =? b + h_span h | None => false end.
  (** [k] is covered by a header that starts at [row + 1]. *)
  Definition from_next m row k : bool :=
    match om_floor k m with Some (b, h) => b =? row + 1 | None => false end.
  Definition cov_or d m k : A := match cov m k with Some a => a | None => d end.

  Lemma set_attr_ok k f m h : hget k m = Some h -> set_attr k f m = Ok (hput k (mkHdr (f (h_attr h)) (h_span h)) m).
  Proof. intros H. unfold set_attr. rewrite H. reflexivity. Qed.

  Lemma disjoint_put_new d k m : disjoint m -> cov m k = None -> k < u32_max -> disjoint (hput k (mkHdr d 1) m).
  Proof.
    intros [S [U D]] C K. split; [apply hput_sorted; exact S|]. split.
    - intros b h I. apply in_put in I; [|exact S]. destruct I as [[-> ->]|[_ I]]; [cbn; lia|eauto].
    - intros b h b' h' I I' L. apply in_put in I; [|exact S]. apply in_put in I'; [|exact S].
      destruct I as [[-> ->]|[N1 I]], I' as [[-> ->]|[N2 I']]; cbn [h_span]; try lia.
      + unfold cov in C. destruct (om_floor k m) as [[b0 h0]|] eqn:F.
        * destruct (k <? b0 + h_span h0) eqn:E; [discriminate|]. apply floor_some in F; [|exact S].
          destruct F as [I0 [L0 M0]]. specialize (M0 _ _ I ltac:(lia)).
          destruct (N.eq_dec b b0) as [->|E0].
          { apply (proj2 (hget_in _ _ _ S)) in I. apply (proj2 (hget_in _ _ _ S)) in I0.
            assert (h = h0) by congruence. subst. lia. }
          { specialize (D _ _ _ _ I I0 ltac:(lia)). lia. }
        * rewrite floor_none in F by exact S. specialize (F _ _ I). lia.
      + eauto.
  Qed.

  Lemma set_row_step d row f m : disjoint m -> row < u32_max ->
    exists m', bind (split_row d row m) (set_attr row f) = Ok m' /\ disjoint m' /\
      forall k, cov m' k = if k =? row then Some (f (cov_or d m row))
                           else if from_next m row k && last_row m row then None else cov m k.
  Proof.
    intros Dm R. pose proof Dm as [S [U D]]. unfold split_row, last_row, cov_or, from_next.
    assert (Hnew : cov m row = None -> last_row m row = false ->
      exists m', bind (Ok (hput row (mkHdr d 1) m)) (set_attr row f) = Ok m' /\ disjoint m' /\
      forall k, cov m' k = if k =? row then Some (f d) else cov m k).
    { intros C _. cbn [bind]. rewrite (set_attr_ok _ _ _ (mkHdr d 1)) by apply hget_put_same.
      cbn [h_attr h_span]. rewrite put_put by exact S. eexists. split; [reflexivity|].
      split; [apply disjoint_put_new; assumption|]. intros k. unfold cov at 1.
      rewrite floor_put by exact S. unfold cov in *.
      destruct (k =? row) eqn:E1.
      - assert (k = row) by lia. subst k. destruct (row <? row) eqn:E2; [lia|].
        destruct (om_floor row m) as [[b h]|] eqn:F.
        + apply floor_some in F; [|exact S]. destruct (b <=? row) eqn:E3; [|lia].
          cbn [h_span h_attr]. destruct (row <? row + 1) eqn:E4; [reflexivity|lia].
        + cbn [h_span h_attr]. destruct (row <? row + 1) eqn:E4; [reflexivity|lia].
      - destruct (k <? row) eqn:E2; [reflexivity|].
        destruct (om_floor k m) as [[b h]|] eqn:F.
        + destruct (b <=? row) eqn:E3; [|reflexivity]. cbn [h_span h_attr].
          destruct (k <? row + 1) eqn:E4; [lia|].
          destruct (k <? b + h_span h) eqn:E5; [|reflexivity].
          (* covered beyond row by a header at or before row: contradiction with C *)
          apply floor_some in F; [|exact S]. destruct F as [I [L M]].
          assert (om_floor row m = Some (b, h)) as F2.
          { apply floor_some; [exact S|]. split; [exact I|]. split; [lia|]. intros; eapply M; eauto; lia. }
          rewrite F2 in C. destruct (row <? b + h_span h) eqn:E6; [discriminate|lia].
        + cbn [h_span h_attr]. destruct (k <? row + 1) eqn:E4; [lia|reflexivity]. }
    destruct (om_floor row m) as [[b h]|] eqn:F.
    2:{ assert (cov m row = None) as C by (unfold cov; rewrite F; reflexivity).
        destruct Hnew as [m' [H1 [H2 H3]]]; [exact C|unfold last_row; rewrite F; reflexivity|].
        exists m'. split; [exact H1|]. split; [exact H2|]. intros k. rewrite H3, C.
        rewrite andb_false_r. reflexivity. }
    pose proof (proj1 (floor_some _ _ _ _ S) F) as [I [L M]]. pose proof (U _ _ I) as Ub.
    unfold in_span, add32. destruct (b + h_span h <=? u32_max) eqn:X; [|lia]. cbn [bind].
    destruct (b <=? row) eqn:X2; [|lia]. cbn [andb].
    destruct (row <? b + h_span h) eqn:X3.
    2:{ assert (cov m row = None) as C by (unfold cov; rewrite F, X3; reflexivity).
        destruct Hnew as [m' [H1 [H2 H3]]]; [exact C|unfold last_row; rewrite F; lia|].
        exists m'. split; [exact H1|]. split; [exact H2|]. intros k. rewrite H3, C.
        destruct (row + 1 =? b + h_span h) eqn:X4; [lia|]. rewrite andb_false_r. reflexivity. }
    destruct (row + 1 <=? u32_max) eqn:X4; [|lia]. cbn [bind].
    set (a := h_attr h) in *. set (n := h_span h) in *.
    assert (cov m row = Some a) as C by (unfold cov; rewrite F; fold n; rewrite X3; reflexivity).
    rewrite C.
    (* normal form of the resulting map *)
    set (m1 := if b <? row then hput b (mkHdr a (row - b)) m else m).
    set (m2 := hput row (mkHdr (f a) 1) m1).
    set (m3 := hput (row + 1) (mkHdr a (b + n - (row + 1))) m2).
    assert (S1 : sorted m1) by (unfold m1; destruct (b <? row); [apply hput_sorted|]; exact S).
    assert (S2 : sorted m2) by (apply hput_sorted; exact S1).
    assert (S3 : sorted m3) by (apply hput_sorted; exact S2).
    exists m3. split; [|split].
    - destruct (b <? row) eqn:Y.
      + rewrite (set_attr_ok _ _ _ (mkHdr a 1)).
        2:{ rewrite hget_put_other by lia. apply hget_put_same. }
        cbn [h_attr h_span]. rewrite put_comm by (try (repeat apply hput_sorted; exact S); lia).
        rewrite put_put by (apply hput_sorted; exact S). reflexivity.
      + assert (b = row) by lia. subst b.
        rewrite (set_attr_ok _ _ _ (mkHdr a 1)).
        2:{ rewrite hget_put_other by lia. apply hget_put_same. }
        cbn [h_attr h_span]. rewrite put_comm by (try (repeat apply hput_sorted; exact S); lia).
        rewrite put_put by exact S. reflexivity.
    - (* disjoint *)
      assert (J : forall b' h', In (b', h') m3 ->
        (b' = row + 1 /\ h' = mkHdr a (b + n - (row + 1))) \/ (b' = row /\ h' = mkHdr (f a) 1)
        \/ (b < row /\ b' = b /\ h' = mkHdr a (row - b))
        \/ (b' <> row /\ b' <> row + 1 /\ b' <> b /\ In (b', h') m)).
      { intros b' h' I'. apply in_put in I'; [|exact S2]. destruct I' as [?|[N1 I']]; [tauto|].
        apply in_put in I'; [|exact S1]. destruct I' as [?|[N2 I']]; [tauto|].
        unfold m1 in I'. destruct (b <? row) eqn:Y.
        - apply in_put in I'; [|exact S]. destruct I' as [[? ?]|[N3 I']]; [|tauto].
          right. right. left. repeat split; try assumption. lia.
        - right. right. right. repeat split; try assumption. lia. }
      assert (K : forall b' h', b' <> row -> b' <> row + 1 -> b' <> b -> In (b', h') m ->
        (b' < b /\ b' + h_span h' <= b) \/ (row < b' /\ b + n <= b')).
      { intros b' h' N1 N2 N3 I'. destruct (N.lt_trichotomy b' b) as [H|[H|H]]; [left|lia|right].
        - split; [exact H|]. eapply D; eauto.
        - assert (b + n <= b') by (eapply D; eauto). lia. }
      split; [exact S3|]. split.
      + intros b' h' I'. apply J in I'. destruct I' as [[-> ->]|[[-> ->]|[[? [-> ->]]|[? [? [? I']]]]]]; cbn [h_span]; try lia.
        eauto.
      + intros b1 h1 b2 h2 I1 I2 Lt. apply J in I1. apply J in I2.
        destruct I1 as [[-> ->]|[[-> ->]|[[? [-> ->]]|[N1 [N2 [N3 I1]]]]]];
        destruct I2 as [[-> ->]|[[-> ->]|[[? [-> ->]]|[N4 [N5 [N6 I2]]]]]]; cbn [h_span]; try lia;
        try (destruct (K _ _ N4 N5 N6 I2) as [[? ?]|[? ?]]; lia);
        try (destruct (K _ _ N1 N2 N3 I1) as [[? ?]|[? ?]]; lia).
        eapply D; eauto.
    - intros k. unfold cov at 1. unfold m3. rewrite floor_put by exact S2. unfold m2. rewrite floor_put by exact S1.
      destruct (N.lt_ge_cases k b) as [Kb|Kb].
      { destruct (k =? row) eqn:Z1; [lia|].
        destruct (k <? row + 1) eqn:Z3; [|lia]. destruct (k <? row) eqn:Z4; [|lia].
        assert (G : om_floor k m1 = om_floor k m).
        { unfold m1. destruct (b <? row) eqn:Y; [rewrite floor_put by exact S|reflexivity].
          destruct (k <? b) eqn:Z5; [reflexivity|lia]. }
        rewrite G. unfold cov. destruct (om_floor k m) as [[b2 h2]|] eqn:F2; [|reflexivity].
        apply floor_some in F2; [|exact S]. destruct (b2 =? row + 1) eqn:Z5; [lia|]. reflexivity. }
      destruct (floor_disjoint m row b h k Dm F Kb) as [b2 [h2 [F2 [Lk Cs]]]].
      fold n in Cs.
      assert (F1 : om_floor k m1 = Some (b2, if (b <? row) && (b2 =? b) then mkHdr a (row - b) else h2)).
      { unfold m1. destruct (b <? row) eqn:Y; cbn [andb]; [|exact F2].
        rewrite floor_put by exact S. destruct (k <? b) eqn:Z; [lia|]. rewrite F2.
        destruct (b2 <=? b) eqn:Z2; destruct (b2 =? b) eqn:Z3; try reflexivity; try lia.
        assert (b2 = b) by lia. congruence. }
      rewrite F1. unfold cov. rewrite F2.
      destruct (k =? row) eqn:Z1.
      { assert (k = row) by lia. subst k. destruct (row <? row + 1) eqn:Z2; [|lia].
        destruct (row <? row) eqn:Z3; [lia|]. destruct (b2 <=? row) eqn:Z4; [|lia].
        cbn [h_span h_attr]. rewrite Z2. reflexivity. }
      destruct Cs as [[-> ->]|[Cb Ce]].
      + fold a. fold n. destruct (b =? row + 1) eqn:Z0; [lia|]. cbn [andb]. destruct (k <? row + 1) eqn:Z2.
        { destruct (k <? row) eqn:Z3; [|lia].
          destruct (b <? row) eqn:Y; [|lia]. rewrite N.eqb_refl. cbn [andb h_span h_attr].
          destruct (k <? b + (row - b)) eqn:Z5; [|lia]. destruct (k <? b + n) eqn:Z6; [reflexivity|lia]. }
        destruct (k <? row) eqn:Z3; [lia|]. destruct (b <=? row) eqn:Z4; [|lia].
        destruct (row <=? row + 1) eqn:Z5; [|lia]. cbn [h_span h_attr].
        destruct (k <? row + 1 + (b + n - (row + 1))) eqn:Z8; destruct (k <? b + n) eqn:Z9; try reflexivity; lia.
      + assert (k >= b + n) by lia.
        destruct (k <? row + 1) eqn:Z2; [lia|]. destruct (k <? row) eqn:Z3; [lia|].
        destruct (b2 <=? row) eqn:Z4; [lia|].
        destruct (b2 <=? row + 1) eqn:Z5.
        * assert (b2 = row + 1) by lia. subst b2. assert (b + n = row + 1) by lia.
          cbn [h_span h_attr]. destruct (k <? row + 1 + (b + n - (row + 1))) eqn:Z8; [lia|].
          rewrite N.eqb_refl. destruct (row + 1 =? b + n) eqn:Z10; [reflexivity|lia].
        * destruct (b2 =? b) eqn:Z6; [lia|]. rewrite andb_false_r.
          destruct (b2 =? row + 1) eqn:Z7; [lia|]. reflexivity.
  Qed.

  (** Columns: the header put at [col] keeps the span it was cut from. *)
  Definition reach m col k : bool :=
    match om_floor col m with
    | Some (b, h) =>
        (1 <? h_span h) && (col + 1 =? b + h_span h) && (col <? k) && (k <? col + h_span h)
        && match om_floor k m with Some (b2, _) => b2 <=? col | None => false end
    | None => false
    end.
  Lemma set_col_step d col f m : disjoint m -> wide m -> col < u32_max ->
    exists m', bind (split_col d col m) (set_attr col f) = Ok m' /\
      forall k, cov m' k = if k =? col then Some (f (cov_or d m col))
                           else if reach m col k then Some (f (cov_or d m col)) else cov m k.
  Proof.
    intros Dm W R. pose proof Dm as [S [U D]]. unfold split_col.
    destruct (hget col m) as [h0|] eqn:G.
    - (* a header starts here *)
      pose proof (proj1 (hget_in _ _ _ S) G) as I0. pose proof (U _ _ I0) as U0. pose proof (W _ _ I0) as W0.
      assert (F : om_floor col m = Some (col, h0)).
      { apply floor_some; [exact S|]. split; [exact I0|]. split; [lia|]. intros; lia. }
      assert (C : cov m col = Some (h_attr h0)).
      { unfold cov. rewrite F. destruct (col <? col + h_span h0) eqn:E; [reflexivity|lia]. }
      unfold cov_or. rewrite C. unfold reach. rewrite F.
      destruct (h_span h0 =? 1) eqn:E1.
      + cbn [bind]. rewrite (set_attr_ok _ _ _ h0) by exact G. eexists. split; [reflexivity|].
        intros k. unfold cov at 1. rewrite floor_put by exact S.
        destruct (1 <? h_span h0) eqn:E2; [lia|]. cbn [andb].
        destruct (k =? col) eqn:Z.
        * assert (k = col) by lia. subst. destruct (col <? col) eqn:Z1; [lia|]. rewrite F.
          destruct (col <=? col) eqn:Z2; [|lia]. cbn [h_span h_attr]. destruct (col <? col + h_span h0) eqn:Z3; [reflexivity|lia].
        * destruct (k <? col) eqn:Z1; [reflexivity|].
          destruct (floor_disjoint m col col h0 k Dm F ltac:(lia)) as [b2 [h2 [F2 [L2 Cs]]]].
          unfold cov. rewrite F2. destruct (b2 <=? col) eqn:Z2.
          { destruct Cs as [[-> ->]|?]; [|lia]. cbn [h_span]. destruct (k <? col + h_span h0) eqn:Z3; [lia|reflexivity]. }
          { reflexivity. }
      + destruct (find_covering_ok m col S) as [r [Hr Hn]]; [intros; eauto|]. rewrite Hr. cbn [bind].
        destruct r as [[b h]|].
        2:{ specialize (Hn eq_refl _ _ I0 ltac:(lia)). lia. }
        pose proof (find_covering_sound _ _ _ _ S Hr) as [I [L1 L2]].
        assert (b = col).
        { destruct (N.eq_dec b col) as [E|E]; [exact E|]. specialize (D _ _ _ _ I I0 ltac:(lia)). lia. }
        subst b. assert (h = h0) by (apply (proj2 (hget_in _ _ _ S)) in I; congruence). subst h.
        unfold add32. destruct (col + 1 <=? u32_max) eqn:X; [|lia]. cbn [bind].
        destruct (0 <? col - col) eqn:Y; [lia|].
        rewrite put_remove by exact S.
        destruct (0 <? col + h_span h0 - (col + 1)) eqn:Y2; [|lia].
        rewrite (set_attr_ok _ _ _ h0).
        2:{ rewrite hget_put_other by lia. apply hget_put_same. }
        rewrite put_comm by (try (repeat apply hput_sorted; exact S); lia). rewrite put_put by exact S.
        eexists. split; [reflexivity|]. intros k.
        destruct (col + 1 =? col + h_span h0) eqn:Y3; [lia|]. rewrite andb_false_r. cbn [andb].
        unfold cov at 1. rewrite !floor_put by (try apply hput_sorted; exact S).
        destruct (k =? col) eqn:Z.
        * assert (k = col) by lia. subst. destruct (col <? col + 1) eqn:Z0; [|lia].
          destruct (col <? col) eqn:Z1; [lia|]. rewrite F.
          destruct (col <=? col) eqn:Z2; [|lia]. cbn [h_span h_attr]. destruct (col <? col + h_span h0) eqn:Z3; [reflexivity|lia].
        * destruct (k <? col + 1) eqn:Z0.
          { destruct (k <? col) eqn:Z1; [reflexivity|lia]. }
          destruct (k <? col) eqn:Z1; [lia|].
          destruct (floor_disjoint m col col h0 k Dm F ltac:(lia)) as [b2 [h2 [F2 [L4 Cs]]]].
          unfold cov. rewrite F2. destruct (b2 <=? col) eqn:Z2.
          { destruct Cs as [[-> ->]|?]; [|lia]. destruct (col <=? col + 1) eqn:Z3; [|lia]. cbn [h_span h_attr].
            destruct (k <? col + 1 + (col + h_span h0 - (col + 1))) eqn:Z4; destruct (k <? col + h_span h0) eqn:Z5; try reflexivity; lia. }
          { destruct (b2 <=? col + 1) eqn:Z3; [|reflexivity]. lia. }
    - (* no header starts at col *)
      destruct (find_covering_ok m col S) as [r [Hr Hn]]; [intros; eauto|]. rewrite Hr. cbn [bind].
      destruct r as [[b h]|].
      + pose proof (find_covering_sound _ _ _ _ S Hr) as [I [L1 L2]].
        assert (b <> col) by (intros ->; apply (proj2 (hget_in _ _ _ S)) in I; congruence).
        assert (F : om_floor col m = Some (b, h)).
        { apply floor_some; [exact S|]. split; [exact I|]. split; [lia|]. intros b' h' I' L'.
          destruct (N.lt_ge_cases b b') as [E|E]; [|exact E]. specialize (D _ _ _ _ I I' E). lia. }
        assert (C : cov m col = Some (h_attr h)).
        { unfold cov. rewrite F. destruct (col <? b + h_span h) eqn:E; [reflexivity|lia]. }
        unfold cov_or. rewrite C. unfold reach. rewrite F.
        unfold add32. destruct (col + 1 <=? u32_max) eqn:X; [|lia]. cbn [bind].
        destruct (0 <? col - b) eqn:Y; [|lia].
        rewrite put_remove by exact S.
        set (m1 := hput b (mkHdr (h_attr h) (col - b)) m).
        assert (S1 : sorted m1) by (apply hput_sorted; exact S).
        assert (E : exists m', bind (Ok (if 0 <? b + h_span h - (col + 1)
             then hput (col + 1) (mkHdr (h_attr h) (b + h_span h - (col + 1))) (hput col h m1) else hput col h m1)) (set_attr col f) = Ok m'
             /\ m' = if 0 <? b + h_span h - (col + 1)
             then hput (col + 1) (mkHdr (h_attr h) (b + h_span h - (col + 1))) (hput col (mkHdr (f (h_attr h)) (h_span h)) m1)
             else hput col (mkHdr (f (h_attr h)) (h_span h)) m1).
        { eexists. split; [|reflexivity]. cbn [bind]. destruct (0 <? b + h_span h - (col + 1)) eqn:Y2.
          - rewrite (set_attr_ok _ _ _ h).
            2:{ rewrite hget_put_other by lia. apply hget_put_same. }
            rewrite put_comm by (first [apply hput_sorted; exact S1|exact S1|lia]). rewrite put_put by exact S1. reflexivity.
          - rewrite (set_attr_ok _ _ _ h) by apply hget_put_same. rewrite put_put by exact S1. reflexivity. }
        destruct E as [m' [E1 E2]]. exists m'. split; [exact E1|]. subst m'. intros k.
        assert (Fm : forall v, om_floor k (hput col v m1) = if k <? b then om_floor k m
                        else if k <? col then Some (b, mkHdr (h_attr h) (col - b))
                        else match om_floor k m with Some (b2, h2) => if b2 <=? col then Some (col, v) else Some (b2, h2) | None => None end).
        { intros v. rewrite floor_put by exact S1. unfold m1. rewrite floor_put by exact S.
          destruct (k <? b) eqn:Q1.
          - destruct (k <? col) eqn:Q2; [reflexivity|lia].
          - destruct (floor_disjoint m col b h k Dm F ltac:(lia)) as [b2 [h2 [F2 [L4 Cs]]]]. rewrite F2.
            destruct (k <? col) eqn:Q2.
            + destruct (b2 <=? b) eqn:Q3; [reflexivity|lia].
            + destruct (b2 <=? b) eqn:Q3.
              * destruct (b <=? col) eqn:Q4; [|lia]. destruct (b2 <=? col) eqn:Q5; [reflexivity|lia].
              * destruct (b2 <=? col) eqn:Q5; [lia|reflexivity]. }
        assert (Hk : cov (if 0 <? b + h_span h - (col + 1)
             then hput (col + 1) (mkHdr (h_attr h) (b + h_span h - (col + 1))) (hput col (mkHdr (f (h_attr h)) (h_span h)) m1)
             else hput col (mkHdr (f (h_attr h)) (h_span h)) m1) k =
          if k <? b then cov m k else if k <? col then Some (h_attr h) else if k =? col then Some (f (h_attr h))
          else match om_floor k m with
            | Some (b2, h2) => if b2 <=? col then
                  (if 0 <? b + h_span h - (col + 1) then (if k <? b + h_span h then Some (h_attr h) else None)
                   else if k <? col + h_span h then Some (f (h_attr h)) else None)
                else if k <? b2 + h_span h2 then Some (h_attr h2) else None
            | None => None end).
        { unfold cov. destruct (0 <? b + h_span h - (col + 1)) eqn:Y2.
          - rewrite floor_put by (apply hput_sorted; exact S1). rewrite Fm.
            destruct (k <? b) eqn:Q1; [destruct (k <? col + 1) eqn:Q0; [reflexivity|lia]|].
            destruct (floor_disjoint m col b h k Dm F ltac:(lia)) as [b2 [h2 [F2 [L4 Cs]]]]. rewrite F2.
            destruct (k <? col) eqn:Q2.
            + destruct (k <? col + 1) eqn:Q0; [|lia]. cbn [h_span h_attr]. destruct (k <? b + (col - b)) eqn:Q3; [reflexivity|lia].
            + destruct (k =? col) eqn:Q3.
              * destruct (k <? col + 1) eqn:Q0; [|lia]. destruct (b2 <=? col) eqn:Q4; [|lia]. cbn [h_span h_attr].
                destruct (k <? col + h_span h) eqn:Q5; [reflexivity|lia].
              * destruct (k <? col + 1) eqn:Q0; [lia|]. destruct (b2 <=? col) eqn:Q4.
                { destruct (col <=? col + 1) eqn:Q5; [|lia]. cbn [h_span h_attr].
                  destruct (k <? col + 1 + (b + h_span h - (col + 1))) eqn:Q6; destruct (k <? b + h_span h) eqn:Q7; try reflexivity; lia. }
                { destruct (b2 <=? col + 1) eqn:Q5; [|reflexivity]. lia. }
          - rewrite Fm. destruct (k <? b) eqn:Q1; [reflexivity|].
            destruct (floor_disjoint m col b h k Dm F ltac:(lia)) as [b2 [h2 [F2 [L4 Cs]]]]. rewrite F2.
            destruct (k <? col) eqn:Q2; [cbn [h_span h_attr]; destruct (k <? b + (col - b)) eqn:Q3; [reflexivity|lia]|].
            destruct (k =? col) eqn:Q3.
            + destruct (b2 <=? col) eqn:Q4; [|lia]. cbn [h_span h_attr]. destruct (k <? col + h_span h) eqn:Q5; [reflexivity|lia].
            + destruct (b2 <=? col) eqn:Q4; [cbn [h_span h_attr]; reflexivity|reflexivity]. }
        rewrite Hk. clear Hk Fm. unfold cov.
        destruct (k <? b) eqn:Q1.
        { destruct (k =? col) eqn:Q2; [lia|]. destruct (col <? k) eqn:Q3; [lia|]. rewrite andb_false_r. reflexivity. }
        destruct (floor_disjoint m col b h k Dm F ltac:(lia)) as [b2 [h2 [F2 [L4 Cs]]]]. rewrite F2.
        destruct (k <? col) eqn:Q2.
        { destruct (k =? col) eqn:Q3; [lia|]. destruct (col <? k) eqn:Q4; [lia|]. rewrite andb_false_r. cbn [andb].
          destruct Cs as [[-> ->]|?]; [|lia]. destruct (k <? b + h_span h) eqn:Q5; [reflexivity|lia]. }
        destruct (k =? col) eqn:Q3; [reflexivity|].
        destruct (col <? k) eqn:Q4; [|lia].
        destruct (b2 <=? col) eqn:Q5.
        * destruct Cs as [[-> ->]|?]; [|lia].
          destruct (0 <? b + h_span h - (col + 1)) eqn:Q6.
          { destruct (col + 1 =? b + h_span h) eqn:Q7; [lia|]. rewrite andb_false_r. reflexivity. }
          { destruct (col + 1 =? b + h_span h) eqn:Q7; [|lia]. destruct (1 <? h_span h) eqn:Q8; [|lia]. cbn [andb].
            destruct (k <? col + h_span h) eqn:Q9; cbn [andb]; [reflexivity|].
            destruct (k <? b + h_span h) eqn:Q10; [lia|reflexivity]. }
        * rewrite andb_false_r. reflexivity.
      + specialize (Hn eq_refl).
        assert (C : cov m col = None).
        { unfold cov. destruct (om_floor col m) as [[b h]|] eqn:F; [|reflexivity].
          apply floor_some in F; [|exact S]. destruct F as [I [L _]]. specialize (Hn _ _ I L).
          destruct (col <? b + h_span h) eqn:E; [lia|reflexivity]. }
        unfold cov_or. rewrite C. cbn [bind]. rewrite (set_attr_ok _ _ _ (mkHdr d 1)) by apply hget_put_same.
        cbn [h_attr h_span]. rewrite put_put by exact S. eexists. split; [reflexivity|].
        intros k. unfold cov at 1. rewrite floor_put by exact S.
        assert (Rf : reach m col k = false).
        { unfold reach. destruct (om_floor col m) as [[b h]|] eqn:F; [|reflexivity].
          apply floor_some in F; [|exact S]. destruct F as [I [L _]]. specialize (Hn _ _ I L).
          destruct (col + 1 =? b + h_span h) eqn:E; [lia|]. rewrite andb_false_r. reflexivity. }
        rewrite Rf. destruct (k =? col) eqn:Z.
        * assert (k = col) by lia. subst. destruct (col <? col) eqn:Z1; [lia|].
          destruct (om_floor col m) as [[b h]|] eqn:F.
          { apply floor_some in F; [|exact S]. destruct (b <=? col) eqn:Z2; [|lia]. cbn [h_span h_attr].
            destruct (col <? col + 1) eqn:Z3; [reflexivity|lia]. }
          { cbn [h_span h_attr]. destruct (col <? col + 1) eqn:Z3; [reflexivity|lia]. }
        * destruct (k <? col) eqn:Z1; [reflexivity|]. unfold cov.
          destruct (om_floor k m) as [[b h]|] eqn:F.
          { destruct (b <=? col) eqn:Z2; [|reflexivity]. cbn [h_span h_attr].
            destruct (k <? col + 1) eqn:Z3; [lia|].
            apply floor_some in F; [|exact S]. destruct F as [I [L _]]. specialize (Hn _ _ I ltac:(lia)).
            destruct (k <? b + h_span h) eqn:Z4; [lia|reflexivity]. }
          { cbn [h_span h_attr]. destruct (k <? col + 1) eqn:Z3; [lia|reflexivity]. }
  Qed.
End Steps.

(** Histories on fresh sheets, columns. *)
Definition unit_spans {A} (m : hmap A) : Prop := forall b h, In (b, h) m -> h_span h = 1.

Section Unit.
  Context {A : Type}.
  Implicit Types (m : hmap A).
  Notation sorted := (om_sorted N.ltb).

  Lemma cov_unit m k : sorted m -> unit_spans m -> cov m k = option_map h_attr (hget k m).
  Proof.
    intros S Un. unfold cov. destruct (om_floor k m) as [[b h]|] eqn:F.
    - apply floor_some in F; [|exact S]. destruct F as [I [L M]]. pose proof (Un _ _ I) as E. rewrite E.
      destruct (k <? b + 1) eqn:X.
      + assert (b = k) by lia. subst. apply (proj2 (hget_in _ _ _ S)) in I. rewrite I. reflexivity.
      + destruct (hget k m) as [h'|] eqn:G; [|reflexivity].
        apply (proj1 (hget_in _ _ _ S)) in G. specialize (M _ _ G ltac:(lia)). lia.
    - rewrite floor_none in F by exact S. destruct (hget k m) as [h'|] eqn:G; [|reflexivity].
      apply (proj1 (hget_in _ _ _ S)) in G. specialize (F _ _ G). lia.
  Qed.

  Lemma set_col_unit (d : A) col f m : sorted m -> unit_spans m -> u32 col ->
    exists m', bind (split_col d col m) (set_attr col f) = Ok m' /\ sorted m' /\ unit_spans m' /\
      forall k, hget k m' = if k =? col then Some (mkHdr (f (match hget col m with Some h => h_attr h | None => d end)) 1) else hget k m.
  Proof.
    intros S Un R. unfold split_col. destruct (hget col m) as [h|] eqn:G.
    - pose proof (proj1 (hget_in _ _ _ S) G) as I. pose proof (Un _ _ I) as E. rewrite E. cbn [N.eqb Pos.eqb bind].
      rewrite (set_attr_ok _ _ _ h) by exact G. rewrite E. eexists. split; [reflexivity|].
      split; [apply hput_sorted; exact S|]. split.
      + intros b h' I'. apply in_put in I'; [|exact S]. destruct I' as [[-> ->]|[_ I']]; [reflexivity|eauto].
      + intros k. destruct (k =? col) eqn:Z.
        * assert (k = col) by lia. subst. apply hget_put_same.
        * apply hget_put_other. lia.
    - destruct (find_covering_ok m col S) as [r [Hr Hn]].
      { intros b h I L. rewrite (Un _ _ I). assert (b <> col); [intros ->; apply (proj2 (hget_in _ _ _ S)) in I; congruence|].
        unfold u32 in R. lia. }
      rewrite Hr. cbn [bind]. destruct r as [[b h]|].
      { exfalso. apply find_covering_sound in Hr; [|exact S]. destruct Hr as [I [L1 L2]]. rewrite (Un _ _ I) in L2.
        assert (b = col) by lia. subst. apply (proj2 (hget_in _ _ _ S)) in I. congruence. }
      cbn [bind]. rewrite (set_attr_ok _ _ _ (mkHdr d 1)) by apply hget_put_same. cbn [h_attr h_span].
      rewrite put_put by exact S. eexists. split; [reflexivity|].
      split; [apply hput_sorted; exact S|]. split.
      + intros b h' I'. apply in_put in I'; [|exact S]. destruct I' as [[-> ->]|[_ I']]; [reflexivity|eauto].
      + intros k. destruct (k =? col) eqn:Z.
        * assert (k = col) by lia. subst. apply hget_put_same.
        * apply hget_put_other. lia.
  Qed.
End Unit.

Definition col_edits (ops : list (N * col_op)) (k : N) (a : colattr) : colattr :=
  fold_left (fun a co => if fst co =? k then col_edit (snd co) a else a) ops a.
Definition touchedb {O} (ops : list (N * O)) (k : N) : bool := existsb (fun co => fst co =? k) ops.
Lemma touchedb_spec {O} (ops : list (N * O)) k : touchedb ops k = true <-> touched ops k.
Proof.
  unfold touchedb, touched. rewrite existsb_exists. split.
  - intros [[c o] [I E]]. cbn in E. exists o. replace k with c by lia. exact I.
  - intros [o I]. exists (k, o). split; [exact I|]. cbn. lia.
Qed.

Lemma run_cols_unit ops : forall m, om_sorted N.ltb m -> unit_spans m -> Forall (fun co => u32 (fst co)) ops ->
  exists m', run_cols ops m = Ok m' /\ om_sorted N.ltb m' /\ unit_spans m' /\
    forall k, hget k m' = if touchedb ops k
      then Some (mkHdr (col_edits ops k (match hget k m with Some h => h_attr h | None => colattr0 end)) 1) else hget k m.
Proof.
  induction ops as [|[c o] r IH]; intros m S Un U.
  - exists m. repeat split; auto.
  - inversion U as [|? ? U0 U']; subst. cbn [fst] in U0.
    destruct (set_col_unit colattr0 c (col_edit o) m S Un U0) as [m1 [E1 [S1 [Un1 G1]]]].
    cbn [run_cols]. change (set_col c o m) with (bind (split_col colattr0 c m) (set_attr c (col_edit o))). rewrite E1. cbn [bind].
    destruct (IH m1 S1 Un1 U') as [m2 [E2 [S2 [Un2 G2]]]]. exists m2.
    split; [exact E2|]. split; [exact S2|]. split; [exact Un2|].
    intros k. rewrite G2. unfold touchedb, col_edits. cbn [existsb fold_left fst snd]. rewrite (N.eqb_sym c k).
    rewrite G1. destruct (k =? c) eqn:Z.
    + assert (k = c) by lia. subst k. cbn [orb h_attr].
      destruct (existsb (fun co => fst co =? c) r) eqn:X; [reflexivity|].
      f_equal. f_equal. symmetry.
      assert (forall a, fold_left (fun a co => if fst co =? c then col_edit (snd co) a else a) r a = a) as Hid.
      { clear -X. induction r as [|[c' o'] r IH]; intros a; [reflexivity|]. cbn [existsb fold_left fst snd] in *.
        destruct (c' =? c); [discriminate|]. apply IH. exact X. }
      apply Hid.
    + cbn [orb]. reflexivity.
Qed.

Lemma last_set_col {B} (g : col_op -> option B) (fld : colattr -> B) :
  (forall o a, fld (col_edit o a) = match g o with Some b => b | None => fld a end) ->
  forall ops k a, last_set g ops k (fld a) = fld (col_edits ops k a).
Proof.
  intros H. induction ops as [|[c o] r IH]; intros k a; [reflexivity|].
  cbn [last_set]. unfold col_edits. cbn [fold_left fst snd]. fold (col_edits r k (if c =? k then col_edit o a else a)).
  rewrite <- IH. f_equal. destruct (c =? k); [rewrite H|]; destruct (g o); reflexivity.
Qed.
Lemma last_set_untouched {O B} (g : O -> option B) ops k d : touchedb ops k = false -> last_set g ops k d = d.
Proof.
  revert d. induction ops as [|[c o] r IH]; intros d H; [reflexivity|].
  unfold touchedb in H. cbn [existsb fst] in H. cbn [last_set]. destruct (c =? k) eqn:E; [discriminate|].
  destruct (g o); apply IH; exact H.
Qed.

Lemma run_cols_report ops : Forall (fun co => u32 (fst co)) ops ->
  exists m, run_cols ops [] = Ok m /\
    forall k, k < u32_max -> forall B (g : col_op -> option B) (fld : colattr -> B) d,
      (forall o a, fld (col_edit o a) = match g o with Some b => b | None => fld a end) -> d = fld colattr0 ->
      col_report fld d k m = Ok (last_set g ops k d).
Proof.
  intros U. destruct (run_cols_unit ops [] I (fun _ _ H => match H with end) U) as [m [E [S [Un G]]]].
  exists m. split; [exact E|]. intros k K B g fld d Hf ->. unfold col_report, valid_header.
  destruct (om_floor k m) as [[b h]|] eqn:F.
  - pose proof (proj1 (floor_some _ _ _ _ S) F) as [In0 [L M]]. rewrite (Un _ _ In0).
    unfold in_span, add32. destruct (b + 1 <=? u32_max) eqn:X; [|lia]. cbn [bind].
    destruct (b <=? k) eqn:X2; [|lia]. cbn [andb]. f_equal.
    specialize (G k). cbn [hget om_get] in G. destruct (k <? b + 1) eqn:X3.
    + assert (b = k) by lia. subst b. apply (proj2 (hget_in _ _ _ S)) in In0. unfold hget in In0, G. rewrite In0 in G.
      destruct (touchedb ops k) eqn:T; [|discriminate]. assert (h = mkHdr (col_edits ops k colattr0) 1) by congruence. subst h.
      cbn [h_attr]. symmetry. apply last_set_col. exact Hf.
    + destruct (touchedb ops k) eqn:T.
      * apply (proj1 (hget_in _ _ _ S)) in G. specialize (M _ _ G ltac:(lia)). lia.
      * symmetry. apply last_set_untouched. exact T.
  - cbn [bind]. f_equal. rewrite floor_none in F by exact S. specialize (G k). cbn [hget om_get] in G.
    destruct (touchedb ops k) eqn:T.
    + apply (proj1 (hget_in _ _ _ S)) in G. specialize (F _ _ G). lia.
    + symmetry. apply last_set_untouched. exact T.
Qed.

Lemma run_cols_top ops : Forall (fun co => u32 (fst co)) ops -> touched ops u32_max ->
  exists m, run_cols ops [] = Ok m /\ valid_header u32_max m = Panic.
Proof.
  intros U T. destruct (run_cols_unit ops [] I (fun _ _ H => match H with end) U) as [m [E [S [Un G]]]].
  exists m. split; [exact E|]. specialize (G u32_max). rewrite (proj2 (touchedb_spec _ _) T) in G.
  apply (proj1 (hget_in _ _ _ S)) in G.
  set (hh := mkHdr (col_edits ops u32_max _) 1) in G.
  unfold valid_header. replace (om_floor u32_max m) with (Some (u32_max, hh)).
  - pose proof (Un _ _ G) as ->. reflexivity.
  - symmetry. apply floor_some; [exact S|]. split; [exact G|]. split; [lia|]. intros; lia.
Qed.

(** Rows: histories that only move forward. *)
Definition row_edits (ops : list (N * row_op)) (k : N) (a : rowattr) : rowattr :=
  fold_left (fun a co => if fst co =? k then row_edit (snd co) a else a) ops a.

Lemma disjoint_nil {A} : disjoint (@nil (N * hdr A)).
Proof. split; [exact I|]. split; intros; contradiction. Qed.

Lemma row_edits_untouched ops k a : touchedb ops k = false -> row_edits ops k a = a.
Proof.
  revert a. induction ops as [|[c o] r IH]; intros a H; [reflexivity|].
  unfold touchedb in H. cbn [existsb fst] in H. unfold row_edits. cbn [fold_left fst snd].
  destruct (c =? k) eqn:E; [discriminate|]. apply IH. exact H.
Qed.

Lemma run_rows_forward ops : forall lo m, disjoint m -> (forall k, lo < k -> cov m k = None) -> forward lo ops ->
  Forall (fun co => fst co < u32_max /\ row_op_asserts (snd co) = true) ops ->
  exists m', run_rows ops m = Ok m' /\ disjoint m' /\
    forall k, cov m' k = if touchedb ops k then Some (row_edits ops k (cov_or rowattr0 m k)) else cov m k.
Proof.
  induction ops as [|[c o] r IH]; intros lo m D Z Fw U.
  - exists m. repeat split; auto; apply D.
  - inversion U as [|? ? [U0 A0] U']; subst. cbn [fst snd] in U0, A0. cbn [forward] in Fw. destruct Fw as [Lc Fw].
    destruct (set_row_step rowattr0 c (row_edit o) m D U0) as [m1 [E1 [D1 C1]]].
    cbn [run_rows]. unfold set_row at 1. rewrite A0.
    change (let* m' := split_row rowattr0 c m in set_attr c (row_edit o) m') with (bind (split_row rowattr0 c m) (set_attr c (row_edit o))).
    rewrite E1. cbn [bind].
    assert (C1' : forall k, cov m1 k = if k =? c then Some (row_edit o (cov_or rowattr0 m c)) else cov m k).
    { intros k. rewrite C1. destruct (k =? c) eqn:Ek; [reflexivity|].
      destruct (from_next m c k && last_row m c) eqn:X; [|reflexivity].
      symmetry. apply Z. apply andb_prop in X. destruct X as [X _]. unfold from_next in X.
      destruct (om_floor k m) as [[b h]|] eqn:F; [|discriminate]. apply floor_some in F; [lia|apply D]. }
    destruct (IH c m1 D1) as [m2 [E2 [D2 C2]]]; [|exact Fw|exact U'|].
    { intros k L. rewrite C1'. destruct (k =? c) eqn:Ek; [lia|]. apply Z. lia. }
    exists m2. split; [exact E2|]. split; [exact D2|]. intros k. rewrite C2.
    unfold cov_or. rewrite C1'. unfold touchedb, row_edits. cbn [existsb fold_left fst snd]. rewrite (N.eqb_sym c k).
    destruct (k =? c) eqn:Ek.
    + assert (k = c) by lia. subst k. cbn [orb]. fold (touchedb r c). destruct (touchedb r c) eqn:T; [reflexivity|].
      f_equal. symmetry. apply (row_edits_untouched r c). exact T.
    + cbn [orb]. reflexivity.
Qed.

Lemma last_set_row {B} (g : row_op -> option B) (fld : rowattr -> B) :
  (forall o a, fld (row_edit o a) = match g o with Some b => b | None => fld a end) ->
  forall ops k a, last_set g ops k (fld a) = fld (row_edits ops k a).
Proof.
  intros H. induction ops as [|[c o] r IH]; intros k a; [reflexivity|].
  cbn [last_set]. unfold row_edits. cbn [fold_left fst snd]. fold (row_edits r k (if c =? k then row_edit o a else a)).
  rewrite <- IH. f_equal. destruct (c =? k); [rewrite H|]; destruct (g o); reflexivity.
Qed.

Lemma row_report_cov {B} (fld : rowattr -> B) d k m : disjoint m ->
  row_report fld d k m = Ok (match cov m k with Some a => fld a | None => d end).
Proof.
  intros [S [U _]]. unfold row_report. rewrite valid_header_cov by assumption. cbn [bind]. unfold cov.
  destruct (om_floor k m) as [[b h]|]; [|reflexivity]. destruct (k <? b + h_span h); reflexivity.
Qed.

(** Groups. *)
Lemma add_group_iff from to gs : (forall g, In g gs -> g_from g <= g_to g) ->
  add_group from to gs = Ok (gs ++ [mkGrp from to true]) /\ from <= to /\ (forall g, In g gs -> nested_or_disjoint (mkGrp from to true) g)
  \/ add_group from to gs = Panic /\ ~ (from <= to /\ (forall g, In g gs -> nested_or_disjoint (mkGrp from to true) g)).
Proof.
  intros Hv. unfold add_group. destruct (from <=? to) eqn:E.
  2:{ right. split; [reflexivity|]. lia. }
  assert (K : forall g, In g gs -> (grp_contains (mkGrp from to true) g || grp_contains g (mkGrp from to true) || grp_disjunct (mkGrp from to true) g = true
      <-> nested_or_disjoint (mkGrp from to true) g)).
  { intros g I. specialize (Hv _ I). unfold grp_contains, grp_disjunct, nested_or_disjoint. cbn [g_from g_to].
    rewrite !orb_true_iff. split.
    - intros [[H|H]|H]; [left; lia|right; left; lia|right; right]. intros x. lia.
    - intros [H|[H|H]]; [left; left; lia|left; right; lia|].
      pose proof (H from) as H1. pose proof (H (g_from g)) as H2. right. lia. }
  destruct (forallb _ gs) eqn:F.
  - left. split; [reflexivity|]. split; [lia|]. rewrite forallb_forall in F. intros g I. apply K; [exact I|]. apply F. exact I.
  - right. split; [reflexivity|]. intros [_ H]. rewrite (proj2 (forallb_forall _ gs)) in F; [discriminate|].
    intros g I. apply K; [exact I|]. apply H. exact I.
Qed.

Lemma nod_sym a b : nested_or_disjoint a b -> nested_or_disjoint b a.
Proof. unfold nested_or_disjoint. intros [H|[H|H]]; [tauto|tauto|]. right. right. intros x Hx. apply (H x). tauto. Qed.
Lemma nod_refl a : nested_or_disjoint a a.
Proof. left. lia. Qed.

Lemma laminar_in gs : laminar gs <-> (forall g, In g gs -> g_from g <= g_to g) /\ (forall a b, In a gs -> In b gs -> nested_or_disjoint a b).
Proof.
  unfold laminar. split; intros [H1 H2]; (split; [exact H1|]).
  - intros a b Ia Ib. apply In_nth_error in Ia. apply In_nth_error in Ib. destruct Ia as [i Hi], Ib as [j Hj]. eapply H2; eauto.
  - intros i j a b Ia Ib. apply H2; eapply nth_error_In; eauto.
Qed.

Lemma in_remove_group f t gs g : In g (remove_group f t gs) -> In g gs.
Proof.
  induction gs as [|x r IH]; [auto|]. cbn [remove_group]. destruct (same_range f t x).
  - intros H. right. exact H.
  - intros [H|H]; [left; exact H|right; auto].
Qed.
Lemma in_flag_group f t d gs g : In g (flag_group f t d gs) -> exists g', In g' gs /\ g_from g' = g_from g /\ g_to g' = g_to g.
Proof.
  induction gs as [|x r IH]; [intros []|]. cbn [flag_group]. destruct (same_range f t x) eqn:E.
  - unfold same_range in E. apply andb_prop in E. intros [<-|H].
    + exists x. cbn. split; [left; reflexivity|]. lia.
    + exists g. split; [right; exact H|auto].
  - intros [H|H]; [exists g; subst; split; [left; reflexivity|auto]|]. destruct (IH H) as [g' [? ?]]. exists g'. split; [right|]; tauto.
Qed.

Lemma apply_grp_laminar o gs gs' : laminar gs -> apply_grp o gs = Ok gs' -> laminar gs'.
Proof.
  rewrite !laminar_in. intros [V N] H. destruct o as [f t|f t|f t d]; cbn [apply_grp] in H.
  - destruct (add_group_iff f t gs V) as [[E [L K]]|[E _]]; rewrite E in H; [|discriminate].
    assert (gs' = gs ++ [mkGrp f t true]) by congruence. subst gs'. split.
    + intros g I. apply in_app_iff in I. destruct I as [I|[<-|[]]]; [auto|exact L].
    + intros a b Ia Ib. apply in_app_iff in Ia. apply in_app_iff in Ib.
      destruct Ia as [Ia|[<-|[]]], Ib as [Ib|[<-|[]]]; [auto|apply nod_sym; auto|auto|apply nod_refl].
  - assert (gs' = remove_group f t gs) by congruence. subst gs'. split.
    + intros g I. apply V. eapply in_remove_group; eauto.
    + intros a b Ia Ib. apply N; eapply in_remove_group; eauto.
  - assert (gs' = flag_group f t d gs) by congruence. subst gs'. split.
    + intros g I. apply in_flag_group in I. destruct I as [g' [I [<- <-]]]. auto.
    + intros a b Ia Ib. apply in_flag_group in Ia. apply in_flag_group in Ib.
      destruct Ia as [a' [Ia [E1 E2]]], Ib as [b' [Ib [E3 E4]]]. specialize (N _ _ Ia Ib).
      unfold nested_or_disjoint in *. rewrite <- E1, <- E2, <- E3, <- E4. exact N.
Qed.
Lemma run_grps_laminar ops : forall gs gs', laminar gs -> run_grps ops gs = Ok gs' -> laminar gs'.
Proof.
  induction ops as [|o r IH]; intros gs gs' L H; cbn [run_grps] in H; [congruence|].
  destruct (apply_grp o gs) as [g| |] eqn:E; [|discriminate|discriminate]. cbn [bind] in H.
  eapply IH; [|exact H]. eapply apply_grp_laminar; eauto.
Qed.

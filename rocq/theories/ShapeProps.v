(** C84: the columns that are written depend on what each column has, not on how the headers came about. *)
From Verif Require Import Base Lib OMap OMapProofs HeaderModel HeaderSpec HeaderProofs HeaderCuts TableModel TableSpec TableProps AgainProofs.

(** ** The same for each column *)

Definition same_columns (m m' : hmap colattr) : Prop := forall k a, seen m k a <-> seen m' k a.

Lemma same_cov m m' : disjoint m -> disjoint m' -> (same_columns m m' <-> forall k, cov m k = cov m' k).
Proof.
  intros (S & _) (S' & _). split.
  - intros H k. destruct (cov m k) as [a|] eqn:E.
    + symmetry. apply cov_seen; [exact S'|]. apply H. apply cov_seen; [exact S|exact E].
    + destruct (cov m' k) as [a|] eqn:E'; [|reflexivity]. apply cov_seen in E'; [|exact S']. apply H in E'. apply cov_seen in E'; [|exact S]. congruence.
  - intros H k a. rewrite <- !cov_seen by assumption. rewrite H. reflexivity.
Qed.
(** No two neighbours alike, and the same for each column: then the headers are the same. *)
Lemma span_le (b : N) (h h' : hdr colattr) r r' : tiles b ((b, h) :: r) -> tiles b ((b, h') :: r') -> merged ((b, h) :: r) ->
  h_attr h = h_attr h' -> (forall k, cov ((b, h) :: r) k = cov ((b, h') :: r') k) -> h_span h' <= h_span h.
Proof.
  intros T T' M A H. destruct (N.lt_ge_cases (h_span h) (h_span h')) as [L|L]; [|exact L]. exfalso. specialize (H (b + h_span h)).
  rewrite (cov_tiles_cons b _ _ _ _ T), (cov_tiles_cons b _ _ _ _ T') in H.
  replace (b + h_span h <? b) with false in H by (symmetry; apply N.ltb_ge; lia). rewrite N.ltb_irrefl in H.
  replace (b + h_span h <? b + h_span h') with true in H by (symmetry; apply N.ltb_lt; lia).
  cbn in T. destruct T as (_ & _ & _ & T). destruct r as [|[c g] r]; [discriminate H|]. rewrite (cov_tiles_cons _ _ _ _ _ T) in H. destruct M as (M & _).
  destruct (b + h_span h <? c); [discriminate H|]. cbn in T. destruct T as (T1 & T2 & T3 & T4). destruct (b + h_span h <? c + h_span g) eqn:E.
  - injection H as H. congruence.
  - apply N.ltb_ge in E. lia.
Qed.
Lemma canon m : forall lo m' lo', tiles lo m -> tiles lo' m' -> merged m -> merged m' -> (forall k, cov m k = cov m' k) -> m = m'.
Proof.
  induction m as [|[b h] r IH]; intros lo m' lo' T T' M M' H.
  - destruct m' as [|[b' h'] r']; [reflexivity|]. exfalso. specialize (H b'). rewrite (cov_tiles_cons _ _ _ _ _ T') in H. rewrite N.ltb_irrefl in H.
    cbn in T'. destruct T' as (_ & T2 & _). replace (b' <? b' + h_span h') with true in H by (symmetry; apply N.ltb_lt; lia). discriminate H.
  - destruct m' as [|[b' h'] r'].
    + exfalso. specialize (H b). rewrite (cov_tiles_cons _ _ _ _ _ T) in H. rewrite N.ltb_irrefl in H.
      cbn in T. destruct T as (_ & T2 & _). replace (b <? b + h_span h) with true in H by (symmetry; apply N.ltb_lt; lia). discriminate H.
    + pose proof T as U. pose proof T' as U'. cbn in U, U'. destruct U as (U1 & U2 & U3 & U4). destruct U' as (V1 & V2 & V3 & V4).
      assert (Cb : cov ((b, h) :: r) b = Some (h_attr h)).
      { rewrite (cov_tiles_cons _ _ _ _ _ T), N.ltb_irrefl. replace (b <? b + h_span h) with true by (symmetry; apply N.ltb_lt; lia). reflexivity. }
      assert (Cb' : cov ((b', h') :: r') b' = Some (h_attr h')).
      { rewrite (cov_tiles_cons _ _ _ _ _ T'), N.ltb_irrefl. replace (b' <? b' + h_span h') with true by (symmetry; apply N.ltb_lt; lia). reflexivity. }
      assert (b = b') as <-.
      { destruct (N.lt_trichotomy b b') as [L|[L|L]]; [exfalso|exact L|exfalso].
        - rewrite H, (cov_tiles_cons _ _ _ _ _ T') in Cb. apply N.ltb_lt in L. rewrite L in Cb. discriminate Cb.
        - rewrite <- H, (cov_tiles_cons _ _ _ _ _ T) in Cb'. apply N.ltb_lt in L. rewrite L in Cb'. discriminate Cb'. }
      assert (A : h_attr h = h_attr h') by (rewrite H in Cb; congruence).
      assert (Tb : tiles b ((b, h) :: r)) by exact (conj (N.le_refl b) (conj U2 (conj U3 U4))).
      assert (Tb' : tiles b ((b, h') :: r')) by exact (conj (N.le_refl b) (conj V2 (conj V3 V4))).
      assert (Sp : h_span h = h_span h').
      { apply N.le_antisymm; [apply (span_le b h' h r' r Tb' Tb M' (eq_sym A)); intros k; symmetry; apply H|exact (span_le b h h' r r' Tb Tb' M A H)]. }
      assert (h = h') as <- by (destruct h, h'; cbn in A, Sp; congruence). f_equal. apply (IH (b + h_span h) r' (b + h_span h) U4 V4).
      * destruct r as [|[c g] r]; [exact I|exact (proj2 M)].
      * destruct r' as [|[c g] r']; [exact I|exact (proj2 M')].
      * intros k. destruct (N.lt_ge_cases k (b + h_span h)) as [L|L]; [rewrite (cov_before _ _ _ U4 L), (cov_before _ _ _ V4 L); reflexivity|].
        specialize (H k). rewrite (cov_tiles_cons _ _ _ _ _ T), (cov_tiles_cons _ _ _ _ _ T') in H.
        replace (k <? b) with false in H by (symmetry; apply N.ltb_ge; lia). replace (k <? b + h_span h) with false in H by (symmetry; apply N.ltb_ge; lia). exact H.
Qed.
Lemma dedup_facts m : disjoint m -> wide m -> equal_headers_touch m ->
  exists d, dedup_colheader m = Ok d /\ tiles 0 d /\ merged d /\ (forall k, cov d k = cov m k) /\ (length d <= length m)%nat.
Proof.
  intros D W G. pose proof (disjoint_tiles _ D W) as T. destruct (dedup_spec m T (touch_touching m G)) as (d & E & Td & C). exists d. split; [exact E|]. split; [exact Td|].
  destruct m as [|[c h] m]; [cbn in E; injection E as <-; split; [exact I|split; [exact C|reflexivity]]|]. cbn [dedup_colheader] in E.
  split; [exact (proj1 (proj2 (dedup_merged m 0 c h d T E)))|]. split; [exact C|]. clear - E. revert c h d E.
  induction m as [|[c' h'] m IH]; intros c h d E; cbn [dedup_from] in E; [injection E as <-; reflexivity|]. destruct (limited_eq (h_attr h) (h_attr h')).
  - apply bind_ok in E as (s & _ & E). apply IH in E. cbn [length] in *. lia.
  - apply bind_ok in E as (r & E & E'). injection E' as <-. apply IH in E. cbn [length] in *. lia.
Qed.

(** Cutting headers anywhere does not change what they are merged to. *)
Lemma dedup_cut sp m : forall lo c h, c + h_span h <= lo -> tiles lo m -> dedup_from c h (all_pieces sp m) = dedup_from c h m.
Proof.
  induction m as [|[b g] q IH]; intros lo c h L T; [reflexivity|]. cbn in T. destruct T as (T1 & T2 & T3 & T4).
  pose proof (piece_chain sp b g T2) as C. unfold all_pieces. cbn [flat_map fst snd]. fold (all_pieces sp q). cbn [dedup_from].
  destruct (limited_eq (h_attr h) (h_attr g)) eqn:E.
  - apply limited_eq_spec in E. rewrite <- E in *. unfold add32. replace (h_span h + h_span g <=? u32_max) with true by lia. cbn [bind].
    rewrite <- (IH (b + h_span g)); [|cbn [h_span]; lia|exact T4]. replace h with (mkHdr (h_attr h) (h_span h)) at 1 by (destruct h; reflexivity).
    rewrite (dedup_chain sp _ _ _ _ c (h_span h) (all_pieces sp q) C) by lia. f_equal. f_equal. lia.
  - assert (X := dedup_pieces sp _ _ _ _ (all_pieces sp q) C ltac:(lia) T3). replace (b + h_span g - b) with (h_span g) in X by lia.
    replace (mkHdr (h_attr g) (h_span g)) with g in X by (destruct g; reflexivity). rewrite (IH (b + h_span g)) in X; [|lia|exact T4].
    destruct (HeaderCuts.pieces sp (h_attr g) (N.to_nat (h_span g)) b b) as [|[b1 g1] ps] eqn:Ep; [cbn [chain] in C; lia|]. destruct C as (_ & _ & Ea & _). cbn [app dedup_from].
    rewrite Ea, E. cbn [app dedup_colheader] in X. rewrite X. reflexivity.
Qed.
Lemma dedup_cut_all sp m : tiles 0 m -> dedup_colheader (all_pieces sp m) = dedup_colheader m.
Proof.
  destruct m as [|[b g] q]; intros T; [reflexivity|]. cbn in T. destruct T as (T1 & T2 & T3 & T4). unfold all_pieces. cbn [flat_map fst snd]. fold (all_pieces sp q).
  rewrite (dedup_pieces sp _ _ _ _ (all_pieces sp q) (piece_chain sp b g T2) ltac:(lia) T3). replace (b + h_span g - b) with (h_span g) by lia.
  replace (mkHdr (h_attr g) (h_span g)) with g by (destruct g; reflexivity). cbn [dedup_colheader]. apply (dedup_cut sp q (b + h_span g)); [lia|exact T4].
Qed.
(** Headers of one column each are determined by what each column has. *)
Lemma unit_canon (m : hmap colattr) : forall lo (m' : hmap colattr) lo', tiles lo m -> tiles lo' m' -> (forall b h, In (b, h) m -> h_span h = 1) -> (forall b h, In (b, h) m' -> h_span h = 1) ->
  (forall k, cov m k = cov m' k) -> m = m'.
Proof.
  induction m as [|[b h] r IH]; intros lo m' lo' T T' M M' H.
  - destruct m' as [|[b' h'] r']; [reflexivity|]. exfalso. specialize (H b'). rewrite (cov_tiles_cons _ _ _ _ _ T') in H. rewrite N.ltb_irrefl in H.
    cbn in T'. destruct T' as (_ & T2 & _). replace (b' <? b' + h_span h') with true in H by (symmetry; apply N.ltb_lt; lia). discriminate H.
  - destruct m' as [|[b' h'] r'].
    + exfalso. specialize (H b). rewrite (cov_tiles_cons _ _ _ _ _ T) in H. rewrite N.ltb_irrefl in H.
      cbn in T. destruct T as (_ & T2 & _). replace (b <? b + h_span h) with true in H by (symmetry; apply N.ltb_lt; lia). discriminate H.
    + pose proof T as U. pose proof T' as U'. cbn in U, U'. destruct U as (U1 & U2 & U3 & U4). destruct U' as (V1 & V2 & V3 & V4).
      assert (Cb : cov ((b, h) :: r) b = Some (h_attr h)).
      { rewrite (cov_tiles_cons _ _ _ _ _ T), N.ltb_irrefl. replace (b <? b + h_span h) with true by (symmetry; apply N.ltb_lt; lia). reflexivity. }
      assert (Cb' : cov ((b', h') :: r') b' = Some (h_attr h')).
      { rewrite (cov_tiles_cons _ _ _ _ _ T'), N.ltb_irrefl. replace (b' <? b' + h_span h') with true by (symmetry; apply N.ltb_lt; lia). reflexivity. }
      assert (b = b') as <-.
      { destruct (N.lt_trichotomy b b') as [L|[L|L]]; [exfalso|exact L|exfalso].
        - rewrite H, (cov_tiles_cons _ _ _ _ _ T') in Cb. apply N.ltb_lt in L. rewrite L in Cb. discriminate Cb.
        - rewrite <- H, (cov_tiles_cons _ _ _ _ _ T) in Cb'. apply N.ltb_lt in L. rewrite L in Cb'. discriminate Cb'. }
      assert (A : h_attr h = h_attr h') by (rewrite H in Cb; congruence).
      assert (Sp : h_span h = h_span h') by (rewrite (M b h (or_introl eq_refl)), (M' b h' (or_introl eq_refl)); reflexivity).
      assert (h = h') as <- by (destruct h, h'; cbn in A, Sp; congruence). f_equal. apply (IH (b + h_span h) r' (b + h_span h) U4 V4).
      * intros b0 h0 I. apply (M b0 h0). right. exact I.
      * intros b0 h0 I. apply (M' b0 h0). right. exact I.
      * intros k. destruct (N.lt_ge_cases k (b + h_span h)) as [L|L]; [rewrite (cov_before _ _ _ U4 L), (cov_before _ _ _ V4 L); reflexivity|].
        specialize (H k). rewrite (cov_tiles_cons _ _ _ _ _ T), (cov_tiles_cons _ _ _ _ _ T') in H.
        replace (k <? b) with false in H by (symmetry; apply N.ltb_ge; lia). replace (k <? b + h_span h) with false in H by (symmetry; apply N.ltb_ge; lia). exact H.
Qed.
Lemma everywhere : forall n : N, exists sp : list N, forall k, k < n -> In k sp.
Proof.
  apply N.peano_ind; [exists []; intros k L; lia|]. intros n (sp & H). exists (n :: sp). intros k L. destruct (N.eq_dec k n) as [->|D]; [left; reflexivity|right; apply H; lia].
Qed.
Lemma cut_unit sp m : (forall k, k < u32_max -> In k sp) -> tiles 0 m ->
  tiles 0 (all_pieces sp m) /\ (forall k, cov (all_pieces sp m) k = cov m k) /\ forall b h, In (b, h) (all_pieces sp m) -> h_span h = 1.
Proof.
  intros Sp T. destruct (cut_headers_spec sp m 0 [] T (Forall_nil _)) as (r & E & Tr & C & U). rewrite (cut_all sp m 0 [] T (Forall_nil _)) in E. cbn [app] in E.
  assert (all_pieces sp m = r) as -> by congruence. split; [exact Tr|]. split; [exact C|]. intros b h I. destruct (tiles_disjoint 0 r Tr) as ((_ & B & _) & W).
  specialize (B b h I). specialize (W b h I). destruct (N.eq_dec (h_span h) 1) as [X|X]; [exact X|]. exfalso. apply (U b h I (b + 1)); [apply Sp; lia|lia].
Qed.

(** Two sheets whose columns have the same are written with the same headers, or both are not. *)
Theorem C84_same : forall gs hc m m', disjoint m -> wide m -> disjoint m' -> wide m' -> same_columns m m' -> calc_col_headers gs hc m = calc_col_headers gs hc m'.
Proof.
  intros gs hc m m' D W D' W' H. pose proof (proj1 (same_cov m m' D D') H) as C. pose proof (disjoint_tiles _ D W) as T. pose proof (disjoint_tiles _ D' W') as T'.
  destruct (everywhere u32_max) as (sp & Sp). destruct (cut_unit sp m Sp T) as (U1 & U2 & U3). destruct (cut_unit sp m' Sp T') as (V1 & V2 & V3).
  unfold calc_col_headers. rewrite <- (dedup_cut_all sp m T), <- (dedup_cut_all sp m' T').
  rewrite (unit_canon _ 0 _ 0 U1 V1 U3 V3); [reflexivity|]. intros k. rewrite U2, V2. apply C.
Qed.
(** If alike neighbours touch then only those are. *)
Theorem C84_exact : forall gs hc m m' r, disjoint m -> wide m -> equal_headers_touch m -> disjoint m' -> wide m' -> equal_headers_touch m' ->
  calc_col_headers gs hc m = Ok r -> (calc_col_headers gs hc m' = Ok r <-> same_columns m m').
Proof.
  intros gs hc m m' r D W G D' W' G' H. rewrite (same_cov m m' D D').
  destruct (dedup_facts m D W G) as (d & E & T & M & C & _). destruct (dedup_facts m' D' W' G') as (d' & E' & T' & M' & C' & _). split.
  - intros H' k. rewrite <- C, <- C'. pose proof (saved_dedup gs hc m r D W H) as X. pose proof (saved_dedup gs hc m' r D' W' H') as X'. assert (d = d') as <- by congruence. reflexivity.
  - intros S. rewrite <- H. unfold calc_col_headers. rewrite E, E'. rewrite (canon d 0 d' 0 T T' M M'); [reflexivity|]. intros k. rewrite C, C'. apply S.
Qed.
(** Without groups and header columns no smaller number of headers says the same. *)
Theorem C84_fewest : forall m m' r, disjoint m -> wide m -> equal_headers_touch m -> disjoint m' -> wide m' -> equal_headers_touch m' ->
  calc_col_headers [] None m = Ok r -> same_columns r m' -> (length r <= length m')%nat.
Proof.
  intros m m' r D W G D' W' G' H S. destruct (dedup_facts m D W G) as (d & E & T & M & C & _). destruct (dedup_facts m' D' W' G') as (d' & E' & T' & M' & C' & L).
  unfold calc_col_headers in H. rewrite E in H. cbn [bind cuts group_cuts] in H. rewrite (cut_all [] d 0 [] T (Forall_nil _)) in H. cbn [app] in H.
  assert (P : all_pieces [] d = d).
  { clear - T. revert T. generalize 0. induction d as [|[b h] d IH]; intros lo T; [reflexivity|]. cbn in T. destruct T as (T1 & T2 & T3 & T4). cbn [all_pieces flat_map]. fold (all_pieces [] d). rewrite (IH _ T4).
    assert (Q : forall (n : nat) (cc col : N), HeaderCuts.pieces (@nil N) (h_attr h) n cc col = [(col, mkHdr (h_attr h) (cc + N.of_nat n - col))]).
    { induction n as [|n IHn]; intros cc col; cbn [HeaderCuts.pieces existsb]; [replace (cc + N.of_nat 0 - col) with (cc - col) by lia; reflexivity|]. rewrite IHn. replace (cc + 1 + N.of_nat n - col) with (cc + N.of_nat (S n) - col) by lia. reflexivity. }
    cbn [fst snd]. rewrite Q. cbn [app]. f_equal. replace (b + N.of_nat (N.to_nat (h_span h)) - b) with (h_span h) by lia. destruct h; reflexivity. }
  rewrite P in H. assert (d = r) as <- by congruence. destruct (tiles_disjoint 0 d T) as (Dd & _). pose proof (proj1 (same_cov d m' Dd D') S) as S1.
  rewrite (canon d 0 d' 0 T T' M M'); [exact L|]. intros k. rewrite C'. apply S1.
Qed.

(** ** Examples *)

Definition shape_col (s : string) : colattr := mkColAttr (Some (lit s)) None Visible None.
Definition shape_a : hmap colattr := [(0, mkHdr (shape_col "a") 2); (2, mkHdr (shape_col "a") 4); (6, mkHdr (shape_col "b") 3)].
Definition shape_b : hmap colattr := [(0, mkHdr (shape_col "a") 5); (5, mkHdr (shape_col "a") 1); (6, mkHdr (shape_col "b") 1); (7, mkHdr (shape_col "b") 2)].
Lemma touching_touch m : touching m -> equal_headers_touch m.
Proof.
  intros T x. revert m T. induction x as [|[c g] x IH]; intros m T b h b' h' y E A; subst m.
  - exact (proj1 T A).
  - cbn [app] in T. apply (IH (x ++ (b, h) :: (b', h') :: y)) with (h' := h') (y := y); [|reflexivity|exact A]. destruct x as [|[c' g'] x]; exact (proj2 T).
Qed.
Example C84_ex : tiles 0 shape_a /\ tiles 0 shape_b /\ equal_headers_touch shape_a /\ equal_headers_touch shape_b /\
  calc_col_headers [mkGrp 1 4 true] None shape_a = calc_col_headers [mkGrp 1 4 true] None shape_b /\
  calc_col_headers [mkGrp 1 4 true] None shape_a = Ok [(0, mkHdr (shape_col "a") 1); (1, mkHdr (shape_col "a") 4); (5, mkHdr (shape_col "a") 1); (6, mkHdr (shape_col "b") 3)] /\
  same_columns shape_a shape_b.
Proof.
  assert (T : tiles 0 shape_a) by (vm_compute; repeat split; discriminate). assert (T' : tiles 0 shape_b) by (vm_compute; repeat split; discriminate).
  assert (G : equal_headers_touch shape_a) by (apply touching_touch; vm_compute; repeat split; intros; discriminate).
  assert (G' : equal_headers_touch shape_b) by (apply touching_touch; vm_compute; repeat split; intros; discriminate).
  destruct (tiles_disjoint 0 _ T) as (D & W). destruct (tiles_disjoint 0 _ T') as (D' & W').
  split; [exact T|]. split; [exact T'|]. split; [exact G|]. split; [exact G'|]. split; [vm_compute; reflexivity|]. split; [vm_compute; reflexivity|].
  apply (C84_exact [mkGrp 1 4 true] None shape_a shape_b [(0, mkHdr (shape_col "a") 1); (1, mkHdr (shape_col "a") 4); (5, mkHdr (shape_col "a") 1); (6, mkHdr (shape_col "b") 3)] D W G D' W' G'); vm_compute; reflexivity.
Qed.
(** Headers that are alike but apart are written like headers that touch: different sheets, the same headers. *)
Theorem C84_gap_refuted : exists m m' r, tiles 0 m /\ tiles 0 m' /\ equal_headers_touch m' /\ calc_col_headers [] None m = Ok r /\ calc_col_headers [] None m' = Ok r /\ ~ same_columns m m'.
Proof.
  exists [(0, mkHdr (shape_col "c") 1); (5, mkHdr (shape_col "c") 1)], [(0, mkHdr (shape_col "c") 2)], [(0, mkHdr (shape_col "c") 2)].
  assert (T : tiles 0 [(0, mkHdr (shape_col "c") 1); (5, mkHdr (shape_col "c") 1)]) by (vm_compute; repeat split; discriminate).
  assert (T' : tiles 0 [(0, mkHdr (shape_col "c") 2)]) by (vm_compute; repeat split; discriminate).
  split; [exact T|]. split; [exact T'|]. split; [apply touching_touch; exact I|]. split; [vm_compute; reflexivity|]. split; [vm_compute; reflexivity|].
  intros S. pose proof (proj1 (same_cov _ _ (proj1 (tiles_disjoint 0 _ T)) (proj1 (tiles_disjoint 0 _ T'))) S 5) as S5. clear S. rename S5 into S. vm_compute in S. discriminate S.
Qed.
(** The same columns with a gap in two arrangements. *)
Example C84_same_ex :
  calc_col_headers [] (Some (0, 0)) [(0, mkHdr (shape_col "c") 3); (5, mkHdr (shape_col "c") 1)] = calc_col_headers [] (Some (0, 0)) [(0, mkHdr (shape_col "c") 1); (1, mkHdr (shape_col "c") 2); (5, mkHdr (shape_col "c") 1)]
  /\ calc_col_headers [] (Some (0, 0)) [(0, mkHdr (shape_col "c") 3); (5, mkHdr (shape_col "c") 1)] = Ok [(0, mkHdr (shape_col "c") 1); (1, mkHdr (shape_col "c") 3)].
Proof. split; vm_compute; reflexivity. Qed.

Print Assumptions C84_same.
Print Assumptions C84_exact.
Print Assumptions C84_fewest.
Print Assumptions C84_gap_refuted.

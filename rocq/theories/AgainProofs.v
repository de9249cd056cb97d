(** Proofs about the column headers of a sheet that is saved a second time. *)
From Verif Require Import Base Lib OMap OMapProofs HeaderModel HeaderSpec HeaderProofs HeaderCuts.

Notation cols := (hmap colattr).
(** Neighbours with different attributes. *)
Fixpoint merged (m : cols) : Prop :=
  match m with
  | (_, h) :: (((_, h') :: _) as r) => h_attr h <> h_attr h' /\ merged r
  | _ => True
  end.

Lemma dedup_merged m : forall lo c h r, tiles lo ((c, h) :: m) -> dedup_from c h m = Ok r ->
  tiles lo r /\ merged r /\ exists s q, r = (c, mkHdr (h_attr h) s) :: q.
Proof.
  induction m as [|[c' h'] q IH]; intros lo c h r T H; cbn [dedup_from] in H.
  - assert (r = [(c, h)]) as -> by congruence. split; [exact T|]. split; [exact I|]. exists (h_span h), []. destruct h; reflexivity.
  - cbn in T. destruct T as (T1 & T2 & T3 & T4 & T5 & T6 & T7). destruct (limited_eq (h_attr h) (h_attr h')) eqn:E.
    + apply bind_ok in H as (s & Es & H). unfold add32 in Es. destruct (h_span h + h_span h' <=? u32_max) eqn:X; [|discriminate]. assert (s = h_span h + h_span h') by congruence. subst s.
      apply (IH lo) in H; [exact H|]. cbn [tiles h_span]. repeat split; try lia. apply (tiles_weaken (c' + h_span h')); [exact T7|lia].
    + apply bind_ok in H as (q' & Eq & H). assert (r = (c, h) :: q') as -> by congruence. destruct (IH (c + h_span h) c' h' q') as (Q1 & Q2 & s & q2 & ->); [|exact Eq|].
      { cbn [tiles]. repeat split; try lia. exact T7. }
      split; [exact (conj T1 (conj T2 (conj T3 Q1)))|]. split; [|exists (h_span h), ((c', mkHdr (h_attr h') s) :: q2); destruct h; reflexivity].
      cbn [merged h_attr]. split; [|exact Q2]. intros Eh. assert (limited_eq (h_attr h) (h_attr h') = true) by (apply limited_eq_spec; exact Eh). congruence.
Qed.
(** The pieces of a header are put together again. *)
Lemma dedup_chain sp a ps : forall lo hi c s rest, chain sp a lo hi ps -> s + hi - lo <= u32_max ->
  dedup_from c (mkHdr a s) (ps ++ rest) = dedup_from c (mkHdr a (s + (hi - lo))) rest.
Proof.
  induction ps as [|[b h] ps IH]; intros lo hi c s rest C L; cbn [chain] in C.
  - subst. cbn [app]. f_equal. f_equal. lia.
  - destruct C as (-> & C1 & C2 & _ & C4). pose proof (chain_le _ _ _ _ _ C4) as Le. cbn [app dedup_from h_attr h_span]. rewrite C2.
    replace (limited_eq a a) with true by (symmetry; apply limited_eq_spec; reflexivity). unfold add32. replace (s + h_span h <=? u32_max) with true by lia. cbn [bind].
    rewrite (IH _ _ c (s + h_span h) rest C4) by lia. f_equal. f_equal. lia.
Qed.
Lemma dedup_pieces sp a lo hi ps rest : chain sp a lo hi ps -> lo < hi -> hi <= u32_max -> dedup_colheader (ps ++ rest) = dedup_from lo (mkHdr a (hi - lo)) rest.
Proof.
  destruct ps as [|[b h] ps]; cbn [chain]; intros C L U; [lia|]. destruct C as (-> & C1 & C2 & _ & C4). pose proof (chain_le _ _ _ _ _ C4). cbn [app dedup_colheader].
  destruct h as [a0 s0]. cbn [h_attr h_span] in *. subst. rewrite (dedup_chain sp _ ps _ _ _ _ rest C4) by lia. f_equal. f_equal. lia.
Qed.
(** What was cut, seen from the first piece on. *)
Definition all_pieces (sp : list N) (d : cols) : cols := flat_map (fun kv => pieces sp (h_attr (snd kv)) (N.to_nat (h_span (snd kv))) (fst kv) (fst kv)) d.
Lemma piece_chain sp b (h : hdr colattr) : 1 <= h_span h -> chain sp (h_attr h) b (b + h_span h) (pieces sp (h_attr h) (N.to_nat (h_span h)) b b).
Proof.
  intros L. replace (b + h_span h) with (b + N.of_nat (N.to_nat (h_span h))) by lia. apply pieces_chain; [lia|lia|]. intros p _. lia.
Qed.
Lemma cut_all sp d : forall lo acc, tiles lo d -> Forall (fun kv => fst kv < lo) acc -> cut_headers sp d acc = Ok (acc ++ all_pieces sp d).
Proof.
  induction d as [|[b h] q IH]; intros lo acc T F; [cbn; now rewrite app_nil_r|]. cbn in T. destruct T as (T1 & T2 & T3 & T4). cbn [cut_headers].
  unfold add32. replace (b + h_span h <=? u32_max) with true by lia. cbn [bind]. assert (F' : Forall (fun kv : N * hdr colattr => fst kv < b) acc) by (eapply Forall_impl; [|exact F]; cbv beta; intros; lia).
  rewrite cut_header_pieces by (try lia; exact F'). rewrite (IH (b + h_span h)); [|exact T4|].
  - unfold all_pieces. cbn [flat_map fst snd]. now rewrite app_assoc.
  - apply Forall_app. split; [eapply Forall_impl; [|exact F]; cbv beta; intros; lia|]. exact (chain_below _ _ _ _ _ (piece_chain sp b h T2)).
Qed.
Lemma dedup_all sp d : forall lo c h, tiles lo ((c, h) :: d) -> merged ((c, h) :: d) -> dedup_from c h (all_pieces sp d) = Ok ((c, h) :: d).
Proof.
  induction d as [|[b g] q IH]; intros lo c h T M; [reflexivity|]. destruct M as (Ne & M). cbn in T. destruct T as (T1 & T2 & T3 & T4 & T5 & T6 & T7).
  pose proof (piece_chain sp b g T5) as C. unfold all_pieces. cbn [flat_map fst snd]. fold (all_pieces sp q).
  assert (X := dedup_pieces sp _ _ _ _ (all_pieces sp q) C ltac:(lia) T6). replace (b + h_span g - b) with (h_span g) in X by lia.
  replace (mkHdr (h_attr g) (h_span g)) with g in X by (destruct g; reflexivity).
  rewrite (IH (c + h_span h) b g) in X; [|cbn [tiles]; repeat split; try lia; exact T7|exact M].
  destruct (pieces sp (h_attr g) (N.to_nat (h_span g)) b b) as [|[b1 g1] ps] eqn:Ep; [cbn [chain] in C; lia|]. destruct C as (_ & _ & Ea & _). cbn [app dedup_from].
  destruct (limited_eq (h_attr h) (h_attr g1)) eqn:E; [apply limited_eq_spec in E; congruence|]. cbn [app dedup_colheader] in X. rewrite X. reflexivity.
Qed.
(** After a save the headers are put together to the same as before it. *)
Lemma saved_dedup gs hc m r : disjoint m -> wide m -> calc_col_headers gs hc m = Ok r -> dedup_colheader r = dedup_colheader m.
Proof.
  intros D W H. pose proof (disjoint_tiles _ D W) as T. unfold calc_col_headers in H. apply bind_ok in H as (d & Ed & H). apply bind_ok in H as (sp & _ & H). rewrite Ed.
  destruct m as [|[c h] m]; [cbn in Ed; injection Ed as <-; cbn in H; injection H as <-; reflexivity|]. cbn [dedup_colheader] in Ed.
  destruct (dedup_merged m 0 c h d T Ed) as (Td & Md & s & q & Eq). rewrite (cut_all sp d 0 [] Td (Forall_nil _)) in H. cbn [app] in H. assert (r = all_pieces sp d) as -> by congruence.
  rewrite Eq in *. cbn in Td. destruct Td as (T1 & T2 & T3 & T4). unfold all_pieces. cbn [flat_map fst snd h_attr h_span]. fold (all_pieces sp q).
  assert (P := piece_chain sp c (mkHdr (h_attr h) s) T2). cbn [h_attr h_span] in P, T2, T3, T4. rewrite (dedup_pieces sp _ _ _ _ (all_pieces sp q) P) by lia.
  replace (c + s - c) with s by lia. apply (dedup_all sp q 0); [cbn [tiles h_span]; repeat split; try lia; exact T4|exact Md].
Qed.
Lemma saved_tiles gs hc m r : disjoint m -> wide m -> calc_col_headers gs hc m = Ok r -> disjoint r /\ wide r.
Proof.
  intros D W H. pose proof (disjoint_tiles _ D W) as T. unfold calc_col_headers in H. apply bind_ok in H as (d & Ed & H). apply bind_ok in H as (sp & _ & H).
  assert (Td : tiles 0 d). { destruct m as [|[c h] m]; [cbn in Ed; injection Ed as <-; exact I|]. exact (proj1 (dedup_merged m 0 c h d T Ed)). }
  destruct (cut_headers_spec sp d 0 [] Td (Forall_nil _)) as (r' & E & Tr & _). rewrite H in E. injection E as ->. exact (tiles_disjoint 0 _ Tr).
Qed.

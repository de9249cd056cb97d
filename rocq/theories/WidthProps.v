(** C85: the width of each column is read from the file, through styles, merging and cutting. *)
From Verif Require Import Base NumModel EnumModel BookModel StyleModel FmtModel SetModel GetModel SizeModel FmtSpec Lib NumProofs FmtProofs SetProofs BookProps SetProps SizeProps.
From Verif Require Import OMap HeaderModel HeaderSpec HeaderProofs HeaderCuts TableModel TableSpec TableProps AgainProofs AgainProps SettleProps ShapeProps.

(** What the column headers of all sheets ask for, in order. *)
Definition wanted (sz : option str -> length_) (ms : list (hmap colattr)) : list header := flat_map (map (fun kv => head sz (h_attr (snd kv)))) ms.
(** The column [a] comes back as [a1] with the table [b] of styles: everything but a new style is the same, and the style gives the width. *)
Definition comes_back (sz : option str -> length_) (b : book attrs) (a a1 : colattr) : Prop :=
  ca_cellstyle a1 = ca_cellstyle a /\ ca_visible a1 = ca_visible a /\ (forall n, ca_style a = Some n -> ca_style a1 = Some n) /\
  match ca_style a1 with
  | Some n => exists s, attrs_of Cols b n = Some s /\ style_size Cols s = Ok (sz (ca_width a))
  | None => sz (ca_width a) = LDefault
  end.

(** ** Lemmas *)

Section Widths.
Variable sz : option str -> length_.
Notation heads := (heads sz).
(** One header and what it has become. *)
Definition became (kv kv1 : N * hdr colattr) : Prop :=
  fst kv1 = fst kv /\ h_span (snd kv1) = h_span (snd kv) /\ ca_cellstyle (h_attr (snd kv1)) = ca_cellstyle (h_attr (snd kv)) /\
  ca_visible (h_attr (snd kv1)) = ca_visible (h_attr (snd kv)) /\ ca_width (h_attr (snd kv1)) = ca_width (h_attr (snd kv)).
Lemma one_became m : forall b b1 m1, sheet_styles sz m b = Ok (b1, m1) -> Forall2 became m m1.
Proof.
  induction m as [|[c h] m IH]; intros b b1 m1 H; cbn [sheet_styles] in H; [apply ok_inj in H; injection H as <- <-; constructor|].
  apply bind_ok in H as ((b0 & h0) & _ & H). apply bind_ok in H as ((b3 & m3) & E & H). apply ok_inj in H. injection H as <- <-. constructor; [|exact (IH _ _ _ E)].
  unfold became. cbn. auto.
Qed.
Lemma all_became ms : forall b b1 ms1, all_styles sz ms b = Ok (b1, ms1) -> Forall2 (Forall2 became) ms ms1.
Proof.
  induction ms as [|m ms IH]; intros b b1 ms1 H; cbn [all_styles] in H; [apply ok_inj in H; injection H as <- <-; constructor|].
  apply bind_ok in H as ((b0 & m0) & E0 & H). apply bind_ok in H as ((b3 & m3) & E & H). apply ok_inj in H. injection H as <- <-. constructor; [|exact (IH _ _ _ E)].
  exact (one_became _ _ _ _ E0).
Qed.
Definition with_heads (P : header -> header -> Prop) (kv kv1 : N * hdr colattr) : Prop := became kv kv1 /\ P (head sz (h_attr (snd kv))) (head sz (h_attr (snd kv1))).
Lemma split_flat P m m1 : Forall2 became m m1 -> forall l l1, Forall2 P (heads m ++ l) (heads m1 ++ l1) -> Forall2 (with_heads P) m m1 /\ Forall2 P l l1.
Proof.
  intros B. induction B as [|kv kv1 m m1 B1 B IH]; intros l l1 F; [split; [constructor|exact F]|]. cbn [SettleProps.heads map app] in F. inversion F as [|? ? ? ? F1 F2]; subst.
  destruct (IH l l1 F2) as (X & Y). split; [constructor; [split; [exact B1|exact F1]|exact X]|exact Y].
Qed.
Lemma split_all P ms ms1 : Forall2 (Forall2 became) ms ms1 -> Forall2 P (flat_map heads ms) (flat_map heads ms1) ->
  Forall2 (Forall2 (with_heads P)) ms ms1.
Proof.
  intros B. induction B as [|m m1 ms ms1 B1 B IH]; intros F; [constructor|]. cbn [flat_map] in F. destruct (split_flat P m m1 B1 _ _ F) as (X & Y). constructor; [exact X|exact (IH Y)].
Qed.
(** What is known of a header: whether it had a style, and that new styles are not among the old. *)
Definition fate (b : book attrs) (h h1 : header) : Prop :=
  match hd_style h with Some n => hd_style h1 = Some n /\ attrs_of Cols b n <> None | None => match hd_style h1 with Some n => attrs_of Cols b n = None | None => True end end.
Lemma touching_kept (b : book attrs) (P : header -> header -> Prop) m m1 : (forall h h1, P h h1 -> fate b h h1) -> Forall2 (with_heads P) m m1 -> touching m -> touching m1.
Proof.
  intros PF B. induction B as [|[c h] [c1 h1] m m1 ((B1 & B2 & B3 & B4 & B5) & B6) B IH]; intros T; [exact I|]. destruct B as [|[d g] [d1 g1] m m1 ((C1 & C2 & C3 & C4 & C5) & C6) B]; [exact I|].
  cbn [fst snd] in *. cbn [touching] in T. destruct T as (T1 & T2). split; [|exact (IH T2)].
  intros E. rewrite B1, B2, C1. apply T1. apply PF in B6, C6. unfold fate in B6, C6. cbn [head hd_style] in *.
  assert (S : ca_style (h_attr h) = ca_style (h_attr g)).
  { rewrite <- E in *. destruct (ca_style (h_attr h)) as [n|], (ca_style (h_attr g)) as [n'|]; try reflexivity.
    - destruct B6 as (B6 & _), C6 as (C6 & _). congruence.
    - destruct B6 as (B6 & X). rewrite B6 in C6. contradiction.
    - destruct C6 as (C6 & X). rewrite C6 in B6. contradiction. }
  rewrite <- E in *. destruct (h_attr h), (h_attr g); cbn in *. congruence.
Qed.
Lemma cov_became (P : header -> header -> Prop) m m1 : Forall2 (with_heads P) m m1 -> forall lo k, tiles lo m ->
  match cov m k with
  | Some a => exists a1, cov m1 k = Some a1 /\ P (head sz a) (head sz a1) /\ ca_cellstyle a1 = ca_cellstyle a /\ ca_visible a1 = ca_visible a
  | None => cov m1 k = None
  end /\ tiles lo m1.
Proof.
  intros B. induction B as [|[c h] [c1 h1] m m1 ((B1 & B2 & B3 & B4 & B5) & B6) B IH]; intros lo k T; [split; [reflexivity|exact I]|]. cbn [fst snd] in *. subst c1. pose proof T as T0. cbn in T. destruct T as (T1 & T2 & T3 & T4).
  destruct (IH _ k T4) as (X & Y). assert (T' : tiles lo ((c, h1) :: m1)) by (cbn [tiles]; rewrite B2; exact (conj T1 (conj T2 (conj T3 Y)))). split; [|exact T'].
  rewrite (cov_tiles_cons _ _ _ _ _ T0), (cov_tiles_cons _ _ _ _ _ T'), B2. destruct (k <? c); [reflexivity|]. destruct (k <? c + h_span h); [|exact X].
  exists (h_attr h1). split; [reflexivity|]. split; [exact B6|]. split; [exact B3|exact B4].
Qed.
Lemma calc_cov gs hc m r k : tiles 0 m -> touching m -> calc_col_headers gs hc m = Ok r -> cov r k = cov m k /\ tiles 0 r.
Proof.
  intros T G H. unfold calc_col_headers in H. apply bind_ok in H as (d & E & H). apply bind_ok in H as (sp & _ & H). destruct (dedup_spec m T G) as (d' & E' & Td & C). assert (d' = d) as -> by congruence.
  destruct (cut_headers_spec sp d 0 [] Td (Forall_nil _)) as (r' & F & Tr & C' & _). cbn [app] in F. assert (r' = r) as -> by congruence. split; [rewrite C'; apply C|exact Tr].
Qed.
End Widths.

(** Every column of every sheet comes back, and no other column gets a header. *)
Theorem C85_columns : forall sz gs ms b b1 rs out, Forall disjoint ms -> Forall wide ms -> Forall equal_headers_touch ms -> no_doubles Cols b ->
  all_there Cols (wanted sz ms) b -> numbers_fine (wanted sz ms) -> agree Cols (wanted sz ms) b ->
  columns_pass sz gs ms b = Ok (b1, rs) -> SizeModel.through Cols (wanted sz ms) b = Ok (b1, out) ->
  Forall2 (fun m r => forall k, (forall a, seen m k a -> exists a1, seen r k a1 /\ comes_back sz b1 a a1) /\ (no_header_for m k -> no_header_for r k)) ms rs.
Proof.
  intros sz gs ms b b1 rs out Ds Ws Gs D K F Ag H Th. change (wanted sz ms) with (flat_map (heads sz) ms) in *.
  unfold columns_pass in H. apply bind_ok in H as ((b' & ms1) & E & H). apply bind_ok in H as (rs' & C & H). apply ok_inj in H. injection H as -> ->.
  pose proof (proj1 (all_sync sz _ _ _ _ E)) as S. pose proof (all_became sz _ _ _ _ E) as B.
  pose proof (C63_survives Cols _ b b1 out D K F Ag Th) as W. unfold SizeModel.through in Th. rewrite S in Th. cbn [bind] in Th. apply bind_ok in Th as (o & Th & X). apply ok_inj in X. injection X as ->.
  pose proof (derive_spec _ _ _ _ Th) as De. destruct (sync_spec Cols _ b b1 _ D K F S) as (_ & G & Q).
  set (P := fun h h1 : header => fate b h h1 /\ match hd_style h1 with Some n => exists s, attrs_of Cols b1 n = Some s /\ style_size Cols s = Ok (hd_size h) | None => hd_size h = LDefault end).
  assert (FP : Forall2 P (flat_map (heads sz) ms) (flat_map (heads sz) ms1)).
  { assert (Gen : forall l l1 o, (forall h, In h l -> In h (flat_map (heads sz) ms)) -> Forall2 (given Cols b b1) l l1 -> Forall2 (fun h o => hd_style o = hd_style h /\
      match hd_style h with Some n => match attrs_of Cols b1 n with Some a => style_size Cols a = Ok (hd_size o) | None => hd_size o = LDefault end | None => hd_size o = LDefault end) l1 o ->
      map hd_size o = map hd_size l -> Forall2 P l l1); [|exact (Gen _ _ _ (fun h I => I) G De W)].
    clear - K Q. intros l l1 o I G. revert o. induction G as [|h h1 l l1 (G1 & G2) G IH]; intros o De W; [constructor|]. inversion De as [|? o1 ? o2 (De1 & De2) De3]; subst. cbn [map] in W. injection W as W1 W2.
    constructor; [|apply (IH (fun h0 J => I h0 (or_intror J)) o2 De3 W2)]. unfold P, fate. rewrite W1 in De2. destruct (hd_style h) as [n|] eqn:Sh.
    - rewrite G2 in *. pose proof (K h n (I h (or_introl eq_refl)) Sh) as Kn. split; [split; [reflexivity|exact Kn]|]. destruct (attrs_of Cols b n) as [a|] eqn:A; [|contradiction]. destruct (Q n a A) as (a' & A' & _).
      rewrite A' in *. exists a'. split; [reflexivity|exact De2].
    - destruct (is_default (hd_size h)) eqn:Z.
      + rewrite G2 in *. split; [exact Logic.I|exact De2].
      + destruct G2 as (n & a & Gs & Gn & Ga & Gz). rewrite Gs in *. split; [exact Gn|]. exists a. split; [exact Ga|exact Gz]. }
  pose proof (split_all sz P _ _ B FP) as SP. clear - Ds Ws Gs SP C.
  revert gs rs C Ds Ws Gs. induction SP as [|m m1 ms ms1 B SP IH]; intros gs rs C Ds Ws Gs.
  - destruct gs; cbn [all_cuts] in C; apply ok_inj in C; subst rs; constructor.
  - apply Forall_cons_iff in Ds as (D1 & Ds). apply Forall_cons_iff in Ws as (W1 & Ws). apply Forall_cons_iff in Gs as (G1 & Gs).
    assert (Go : exists g hc r q gs', calc_col_headers g hc m1 = Ok r /\ all_cuts gs' ms1 = Ok q /\ rs = r :: q).
    { destruct gs as [|[g hc] gs]; cbn [all_cuts] in C; apply bind_ok in C as (r & E & C); apply bind_ok in C as (q & E1 & C); apply ok_inj in C; subst rs;
        [exists [], None, r, q, []|exists g, hc, r, q, gs]; (split; [exact E|split; [exact E1|reflexivity]]). }
    destruct Go as (g & hc & r & q & gs' & E & E1 & ->). constructor; [|exact (IH gs' q E1 Ds Ws Gs)]. clear IH. intros k.
    pose proof (disjoint_tiles _ D1 W1) as T. destruct (cov_became sz P m m1 B 0 k T) as (X & T1).
    pose proof (touching_kept sz b P m m1 (fun h h1 p => proj1 p) B (touch_touching m G1)) as Tm. destruct (calc_cov g hc m1 r k T1 Tm E) as (Cr & Tr). destruct (tiles_disjoint 0 r Tr) as ((Sr & _) & _).
    destruct D1 as (Sm & _). split.
    + intros a Sa. apply cov_seen in Sa; [|exact Sm]. rewrite Sa in X. destruct X as (a1 & C1 & (Fa & Pa) & X2 & X3). exists a1. split; [apply cov_seen; [exact Sr|congruence]|].
      split; [exact X2|]. split; [exact X3|]. unfold fate in Fa. cbn [head hd_style hd_size] in Fa, Pa. split; [|exact Pa]. intros n Sn. rewrite Sn in Fa. exact (proj1 Fa).
    + intros N. apply cov_none in N; [|exact Sm]. rewrite N in X. apply cov_none; [exact Sr|congruence].
Qed.

(** The same of every save that gets through, where the styles say true or false for the optimal width. *)
Theorem C85_widths : forall sz gs ms b b1 rs, Forall disjoint ms -> Forall wide ms -> Forall equal_headers_touch ms -> no_doubles Cols b ->
  all_there Cols (wanted sz ms) b -> numbers_fine (wanted sz ms) -> agree Cols (wanted sz ms) b ->
  (forall h n a, In h (wanted sz ms) -> hd_style h = Some n -> attrs_of Cols b n = Some a ->
    value_of (optimal_attr Cols) a = None \/ exists v, value_of (optimal_attr Cols) a = Some (show_bool v)) ->
  columns_pass sz gs ms b = Ok (b1, rs) ->
  Forall2 (fun m r => forall k, (forall a, seen m k a -> exists a1, seen r k a1 /\ comes_back sz b1 a a1) /\ (no_header_for m k -> no_header_for r k)) ms rs.
Proof.
  intros sz gs ms b b1 rs Ds Ws Gs D K F Ag V H. pose proof H as H0. unfold columns_pass in H. apply bind_ok in H as ((b' & ms1) & E & H). apply bind_ok in H as (rs' & C & H). apply ok_inj in H. injection H as -> ->.
  destruct (C63_readable Cols _ b b1 _ D K F (proj1 (all_sync sz _ _ _ _ E)) V) as (out & Th). exact (C85_columns sz gs ms b b1 rs out Ds Ws Gs D K F Ag H0 Th).
Qed.

(** A second save finds these columns, leaves them as they are, and they come back with the width they had before the first. *)
Lemma comes_back_same sz b b1 a a1 : same_table Cols b b1 -> comes_back sz b a a1 -> comes_back sz b1 a a1.
Proof.
  intros T (X1 & X2 & X3 & X). split; [exact X1|]. split; [exact X2|]. split; [exact X3|]. destruct (ca_style a1) as [n|]; [|exact X]. destruct X as (s & A & Z). destruct (T n) as (T1 & T2).
  destruct (attrs_of Cols b1 n) as [s1|] eqn:B; [|rewrite (proj2 T1 eq_refl) in A; discriminate A]. exists s1. split; [reflexivity|]. rewrite <- Z. unfold held in T2. rewrite A, B in T2.
  unfold style_size, get_use_optimal_col_width, get_col_width. rewrite !get_value, !T2. reflexivity.
Qed.
Theorem C85_again : forall sz gs ms b b1 rs, Forall disjoint ms -> Forall wide ms -> Forall equal_headers_touch ms -> no_doubles Cols b ->
  all_there Cols (wanted sz ms) b -> numbers_fine (wanted sz ms) -> agree Cols (wanted sz ms) b ->
  (forall h n a, In h (wanted sz ms) -> hd_style h = Some n -> attrs_of Cols b n = Some a ->
    value_of (optimal_attr Cols) a = None \/ exists v, value_of (optimal_attr Cols) a = Some (show_bool v)) ->
  columns_pass sz gs ms b = Ok (b1, rs) -> exists b2, columns_pass sz gs rs b1 = Ok (b2, rs) /\
  Forall2 (fun m r => forall k, (forall a, seen m k a -> exists a1, seen r k a1 /\ comes_back sz b2 a a1) /\ (no_header_for m k -> no_header_for r k)) ms rs.
Proof.
  intros sz gs ms b b1 rs Ds Ws Gs D K F Ag V H. destruct (C83_columns sz gs ms b b1 rs Ds Ws D K F H) as (b2 & E & T). exists b2. split; [exact E|].
  pose proof (C85_widths sz gs ms b b1 rs Ds Ws Gs D K F Ag V H) as X. clear - X T. induction X as [|m r ms rs X Y IH]; [constructor|]. constructor; [|exact IH].
  intros k. destruct (X k) as (X1 & X2). split; [|exact X2]. intros a S. destruct (X1 a S) as (a1 & S1 & C). exists a1. split; [exact S1|]. exact (comes_back_same sz b1 b2 a a1 T C).
Qed.

(** The save gets through if new styles find a name and no group and no header columns end with the last number there is. *)
Lemma one_there sz m : forall b b1 l, sync_headers Cols (heads sz m) b = Ok (b1, l) -> exists m1, sheet_styles sz m b = Ok (b1, m1).
Proof.
  induction m as [|[c h] m IH]; intros b b1 l H; cbn [heads map snd sync_headers] in H; [apply ok_inj in H; injection H as <- <-; exists []; reflexivity|]. fold (heads sz m) in H.
  apply bind_ok in H as ((b0 & h0) & E & H). apply bind_ok in H as ((b3 & l3) & E1 & H). apply ok_inj in H. injection H as -> <-. destruct (IH _ _ _ E1) as (m1 & F). cbn [sheet_styles]. rewrite E. cbn [bind]. rewrite F. eexists. reflexivity.
Qed.
Lemma all_there_styles sz ms : forall b b1 l, sync_headers Cols (flat_map (heads sz) ms) b = Ok (b1, l) -> exists ms1, all_styles sz ms b = Ok (b1, ms1).
Proof.
  induction ms as [|m ms IH]; intros b b1 l H; cbn [flat_map] in H; [cbn [sync_headers] in H; apply ok_inj in H; injection H as <- <-; exists []; reflexivity|].
  destruct (sync_split _ _ _ _ _ _ H) as (b2 & l1 & l2 & F1 & F2 & _ & _). destruct (one_there sz _ _ _ _ F1) as (m1 & X). destruct (IH _ _ _ F2) as (ms1 & Y). exists (m1 :: ms1). cbn [all_styles]. rewrite X. cbn [bind]. rewrite Y. reflexivity.
Qed.
Definition ends_fit (g : list grouped) (hc : option range) : Prop := (forall x, In x g -> g_to x < u32_max) /\ (forall f t, hc = Some (f, t) -> t < u32_max).
Lemma cuts_fit g hc : ends_fit g hc -> exists sp, cuts g hc = Ok sp.
Proof.
  intros (A & B). assert (Add : forall t, t < u32_max -> add32 t 1 = Ok (t + 1)). { intros t L. unfold add32. destruct (N.leb_spec (t + 1) u32_max) as [_|Z]; [reflexivity|lia]. }
  assert (exists c, group_cuts g = Ok c) as (c & E).
  { clear B. induction g as [|x g IH]; [exists []; reflexivity|]. cbn [group_cuts]. rewrite (Add _ (A x (or_introl eq_refl))). cbn [bind]. destruct (IH (fun y Y => A y (or_intror Y))) as (c & ->). eexists. reflexivity. }
  unfold cuts. rewrite E. cbn [bind]. destruct hc as [[f t]|]; [|eexists; reflexivity]. rewrite (Add t (B f t eq_refl)). eexists. reflexivity.
Qed.
Theorem C85_succeeds : forall sz gs ms b b1 hs1, Forall disjoint ms -> Forall wide ms -> Forall equal_headers_touch ms -> no_doubles Cols b ->
  all_there Cols (wanted sz ms) b -> numbers_fine (wanted sz ms) -> sync_headers Cols (wanted sz ms) b = Ok (b1, hs1) ->
  (forall g hc, In (g, hc) gs -> ends_fit g hc) -> exists rs, columns_pass sz gs ms b = Ok (b1, rs).
Proof.
  intros sz gs ms b b1 hs1 Ds Ws Gs D K F S Fit. change (wanted sz ms) with (flat_map (heads sz) ms) in *. destruct (all_there_styles sz _ _ _ _ S) as (ms1 & E). unfold columns_pass. rewrite E. cbn [bind].
  pose proof (proj1 (all_sync sz _ _ _ _ E)) as S1. rewrite S in S1. apply ok_inj in S1. injection S1 as ->. pose proof (all_became sz _ _ _ _ E) as B. destruct (sync_spec Cols _ b b1 _ D K F S) as (_ & G & _).
  assert (FP : Forall2 (fate b) (flat_map (heads sz) ms) (flat_map (heads sz) ms1)).
  { assert (Gen : forall l l1, (forall h, In h l -> In h (flat_map (heads sz) ms)) -> Forall2 (given Cols b b1) l l1 -> Forall2 (fate b) l l1); [|exact (Gen _ _ (fun h I => I) G)].
    clear - K. intros l l1 I G. induction G as [|h h1 l l1 (_ & G2) G IH]; [constructor|]. constructor; [|exact (IH (fun h0 J => I h0 (or_intror J)))]. unfold fate. destruct (hd_style h) as [n|] eqn:Sh.
    - split; [exact G2|exact (K h n (I h (or_introl eq_refl)) Sh)].
    - destruct (is_default (hd_size h)); [rewrite G2; exact Logic.I|]. destruct G2 as (n & a & Sn & Gn & _). rewrite Sn. exact Gn. }
  pose proof (split_all sz (fate b) _ _ B FP) as SP. assert (X : exists rs, all_cuts gs ms1 = Ok rs); [|destruct X as (rs & ->); exists rs; reflexivity].
  clear - Ds Ws Gs SP Fit. revert gs Fit Ds Ws Gs. induction SP as [|m m1 ms ms1 B SP IH]; intros gs Fit Ds Ws Gs; [exists []; destruct gs; reflexivity|].
  apply Forall_cons_iff in Ds as (D1 & Ds). apply Forall_cons_iff in Ws as (W1 & Ws). apply Forall_cons_iff in Gs as (G1 & Gs).
  pose proof (proj2 (cov_became sz (fate b) m m1 B 0 0 (disjoint_tiles _ D1 W1))) as T1. pose proof (touching_kept sz b (fate b) m m1 (fun h h1 p => p) B (touch_touching m G1)) as Tm.
  assert (One : forall g hc, ends_fit g hc -> exists r, calc_col_headers g hc m1 = Ok r).
  { intros g hc Fi. unfold calc_col_headers. destruct (dedup_spec m1 T1 Tm) as (d & -> & Td & _). cbn [bind]. destruct (cuts_fit g hc Fi) as (sp & ->). cbn [bind].
    destruct (cut_headers_spec sp d 0 [] Td (Forall_nil _)) as (r & X & _). exists r. exact X. }
  destruct gs as [|[g hc] gs]; cbn [all_cuts].
  - destruct (One [] None) as (r & ->); [split; [intros x []|discriminate]|]. cbn [bind]. destruct (IH [] Fit Ds Ws Gs) as (q & ->). eexists. reflexivity.
  - destruct (One g hc (Fit g hc (or_introl eq_refl))) as (r & ->). cbn [bind]. destruct (IH gs (fun g0 h0 J => Fit g0 h0 (or_intror J)) Ds Ws Gs) as (q & ->). eexists. reflexivity.
Qed.

(** Columns with one style and different widths do not all come back: the style has room for one. *)
Theorem C85_shared_refuted : exists sz ms b b1 rs m a, Forall disjoint ms /\ Forall wide ms /\ Forall equal_headers_touch ms /\ no_doubles Cols b /\ all_there Cols (wanted sz ms) b /\ numbers_fine (wanted sz ms) /\
  columns_pass sz [] ms b = Ok (b1, rs) /\ In m ms /\ seen m 0 a /\ forall a1, ~ comes_back sz b1 a a1.
Proof.
  set (m := [(0, mkHdr (wide_col (Some (lit "x")) (Some (lit "1"))) 1); (1, mkHdr (wide_col (Some (lit "x")) (Some (lit "2"))) 1)]).
  destruct (columns_pass in_cm [] [m] again_book) as [(b1 & rs)| |] eqn:E; [|vm_compute in E; discriminate E|vm_compute in E; discriminate E].
  assert (T : tiles 0 m) by (vm_compute; repeat split; discriminate). destruct (tiles_disjoint 0 m T) as (D & W).
  exists in_cm, [m], again_book, b1, rs, m, (wide_col (Some (lit "x")) (Some (lit "1"))).
  split; [constructor; [exact D|constructor]|]. split; [constructor; [exact W|constructor]|].
  split; [constructor; [|constructor]|].
  { apply touching_touch. cbn. split; [discriminate|exact I]. }
  split; [exact (proj1 C83_sizes_ex)|].
  split. { intros h n [<-|[<-|[]]] S; injection S as <-; vm_compute; discriminate. }
  split. { intros h v u [<-|[<-|[]]] S; injection S as <- <-; vm_compute; reflexivity. }
  split; [exact E|]. split; [left; reflexivity|]. split. { apply cov_seen; [exact (proj1 D)|reflexivity]. }
  intros a1 (_ & _ & S & X). rewrite (S (lit "x") eq_refl) in X. destruct X as (s & A & Z).
  assert (B : match columns_pass in_cm [] [m] again_book with Ok (b1, _) => match attrs_of Cols b1 (lit "x") with Some s => style_size Cols s | None => Err end | _ => Err end = Ok (Len (lit "2") Cm)) by (vm_compute; reflexivity).
  rewrite E, A, Z in B. discriminate B.
Qed.

(** The sheets of [C83_columns_ex]: each of the first three columns has a style with 5 cm, the fourth has none. *)
Example C85_widths_ex :
  (let* (b1, rs) := columns_pass in_cm [([mkGrp 1 2 true], None)] settle_cols again_book in
   Ok (map (fun r => map (fun k => match cov r k with Some a => match ca_style a with Some n => match attrs_of Cols b1 n with Some s => style_size Cols s | None => Err end | None => Ok LDefault end | None => Err end) [0; 1; 2; 3; 4]) rs))
  = Ok [[Ok (Len (lit "5") Cm); Ok (Len (lit "5") Cm); Ok (Len (lit "5") Cm); Ok LDefault; Err]; [Ok (Len (lit "2") Cm); Err; Err; Err; Err]].
Proof. vm_compute. reflexivity. Qed.

Print Assumptions C85_columns.
Print Assumptions C85_widths.
Print Assumptions C85_again.
Print Assumptions C85_succeeds.
Print Assumptions C85_shared_refuted.

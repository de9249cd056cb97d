(** C83, the columns of all sheets: sizes, merging and cutting one after the other, as a save does them. *)
From Verif Require Import Base NumModel EnumModel BookModel StyleModel FmtModel SetModel GetModel SizeModel FmtSpec Lib NumProofs FmtProofs SetProofs BookProps SetProps SizeProps.
From Verif Require Import OMap HeaderModel HeaderSpec HeaderProofs HeaderCuts AgainProofs AgainProps.

(** ** The model *)

(** The width of a column header is a text in [colattr] and a [length_] in [header]; [sz] gives the one for the other. *)
Definition head (sz : option str -> length_) (a : colattr) : header := Header (ca_style a) (sz (ca_width a)).
(** write.rs:484-511 [calc_col_header_styles]: the inner loop over the headers of one sheet, and the outer one over the sheets. *)
Fixpoint sheet_styles (sz : option str -> length_) (m : hmap colattr) (b : book attrs) : res (book attrs * hmap colattr) :=
  match m with
  | [] => Ok (b, [])
  | (c, h) :: r =>
      let* (b, h1) := sync_header Cols (head sz (h_attr h)) b in
      let* (b, r) := sheet_styles sz r b in
      Ok (b, (c, mkHdr (mkColAttr (hd_style h1) (ca_cellstyle (h_attr h)) (ca_visible (h_attr h)) (ca_width (h_attr h))) (h_span h)) :: r)
  end.
Fixpoint all_styles (sz : option str -> length_) (ms : list (hmap colattr)) (b : book attrs) : res (book attrs * list (hmap colattr)) :=
  match ms with
  | [] => Ok (b, [])
  | m :: r => let* (b, m) := sheet_styles sz m b in let* (b, r) := all_styles sz r b in Ok (b, m :: r)
  end.
(** write.rs:429-481 [calc_col_headers]: the loop over the sheets, with the groups and header columns of each. *)
Fixpoint all_cuts (gs : list (list grouped * option range)) (ms : list (hmap colattr)) : res (list (hmap colattr)) :=
  match ms, gs with
  | m :: r, (g, hc) :: q => let* m := calc_col_headers g hc m in let* r := all_cuts q r in Ok (m :: r)
  | m :: r, [] => let* m := calc_col_headers [] None m in let* r := all_cuts [] r in Ok (m :: r)
  | [], _ => Ok []
  end.
(** write.rs:417-427 [calculations], the part for the columns. *)
Definition columns_pass (sz : option str -> length_) (gs : list (list grouped * option range)) (ms : list (hmap colattr)) (b : book attrs) : res (book attrs * list (hmap colattr)) :=
  let* (b, ms) := all_styles sz ms b in let* ms := all_cuts gs ms in Ok (b, ms).

(** ** Lemmas *)

Section Sizes.
Variable sz : option str -> length_.
Definition heads (m : hmap colattr) : list header := map (fun kv => head sz (h_attr (snd kv))) m.
(** Lists of headers that do the same to every style. *)
Definition alike (l l' : list header) : Prop := forall n k v, steps Cols k (sizes n l) v = steps Cols k (sizes n l') v.
Lemma sizes_app n l l' : sizes n (l ++ l') = sizes n l ++ sizes n l'.
Proof. unfold sizes. apply flat_map_app. Qed.
Lemma alike_app l1 l1' l2 l2' : alike l1 l1' -> alike l2 l2' -> alike (l1 ++ l2) (l1' ++ l2').
Proof. intros A B n k v. rewrite !sizes_app. unfold steps. rewrite !fold_left_app. fold (steps Cols k (sizes n l1) v). fold (steps Cols k (sizes n l1') v). rewrite (A n k v). exact (B n k _). Qed.
Lemma alike_refl l : alike l l.
Proof. intros n k v. reflexivity. Qed.
Lemma alike_trans l1 l2 l3 : alike l1 l2 -> alike l2 l3 -> alike l1 l3.
Proof. intros A B n k v. rewrite (A n k v). exact (B n k v). Qed.
Lemma alike_cons x l l' : alike l l' -> alike (x :: l) (x :: l').
Proof. intros A. exact (alike_app [x] [x] l l' (alike_refl _) A). Qed.
Lemma alike_dup x l : alike (x :: l) (x :: x :: l).
Proof.
  intros n k v. rewrite !sizes_cons. destruct (hd_style x) as [m|]; [|reflexivity]. destruct (str_eqb m n); [|reflexivity]. unfold steps. cbn [fold_left]. f_equal. unfold step. destruct (effect Cols (hd_size x) k); reflexivity.
Qed.
Lemma dedup_alike m : forall c h r, dedup_from c h m = Ok r -> alike (heads r) (head sz (h_attr h) :: heads m) /\ incl (heads r) (head sz (h_attr h) :: heads m).
Proof.
  induction m as [|[c' h'] m IH]; intros c h r E; cbn [dedup_from] in E.
  - apply ok_inj in E. subst r. split; [apply alike_refl|apply incl_refl].
  - destruct (limited_eq (h_attr h) (h_attr h')) eqn:L.
    + apply limited_eq_spec in L. apply bind_ok in E as (s & _ & E). destruct (IH _ _ _ E) as (A & I). cbn [h_attr] in A, I. cbn [heads map snd]. fold (heads m). rewrite <- L. split.
      * eapply alike_trans; [exact A|apply alike_dup].
      * intros x X. specialize (I x X). destruct I as [I|I]; [left; exact I|right; right; exact I].
    + apply bind_ok in E as (q & E & F). apply ok_inj in F. subst r. destruct (IH _ _ _ E) as (A & I). cbn [heads map snd]. fold (heads m). fold (heads q). split; [apply alike_cons, A|].
      intros x [X|X]; [left; exact X|right; exact (I x X)].
Qed.
Lemma chain_alike sp a ps : forall lo hi, chain sp a lo hi ps -> ps <> [] -> alike (heads ps) [head sz a] /\ incl (heads ps) [head sz a].
Proof.
  induction ps as [|[b h] ps IH]; intros lo hi C Ne; [contradiction|]. cbn [chain] in C. destruct C as (_ & _ & <- & _ & C). cbn [heads map snd]. fold (heads ps). destruct ps as [|p ps].
  - split; [apply alike_refl|apply incl_refl].
  - destruct (IH _ _ C ltac:(discriminate)) as (A & I). split.
    + eapply alike_trans; [apply alike_cons, A|]. intros n k v. symmetry. apply alike_dup.
    + intros x [X|X]; [left; exact X|exact (I x X)].
Qed.
Lemma pieces_alike sp d : forall lo, tiles lo d -> alike (heads (all_pieces sp d)) (heads d) /\ incl (heads (all_pieces sp d)) (heads d).
Proof.
  induction d as [|[b h] q IH]; intros lo T; [split; [apply alike_refl|apply incl_refl]|]. cbn in T. destruct T as (T1 & T2 & T3 & T4). destruct (IH _ T4) as (A & I).
  pose proof (piece_chain sp b h T2) as C. unfold all_pieces. cbn [flat_map fst snd]. fold (all_pieces sp q). set (ps := HeaderCuts.pieces sp (h_attr h) (N.to_nat (h_span h)) b b) in *.
  assert (ps <> []) as Ne by (intros X; rewrite X in C; cbn [chain] in C; lia). destruct (chain_alike sp _ ps _ _ C Ne) as (A1 & I1).
  unfold heads. rewrite map_app. fold (heads ps). fold (heads (all_pieces sp q)). change (map (fun kv : N * hdr colattr => head sz (h_attr (snd kv))) ((b, h) :: q)) with ([head sz (h_attr h)] ++ heads q).
  split; [apply alike_app; assumption|]. apply incl_app; [apply incl_appl, I1|apply incl_appr, I].
Qed.
Lemma calc_alike gs hc m r : tiles 0 m -> calc_col_headers gs hc m = Ok r -> alike (heads r) (heads m) /\ incl (heads r) (heads m).
Proof.
  intros T H. unfold calc_col_headers in H. apply bind_ok in H as (d & E & H). apply bind_ok in H as (sp & _ & H).
  assert (X : tiles 0 d /\ alike (heads d) (heads m) /\ incl (heads d) (heads m)).
  { destruct m as [|[c h] m]; [cbn in E; apply ok_inj in E; subst d; split; [exact I|split; [apply alike_refl|apply incl_refl]]|]. cbn [dedup_colheader] in E.
    split; [exact (proj1 (dedup_merged m 0 c h d T E))|exact (dedup_alike m c h d E)]. }
  destruct X as (Td & A & I). rewrite (cut_all sp d 0 [] Td (Forall_nil _)) in H. cbn [app] in H. apply ok_inj in H. subst r. destruct (pieces_alike sp d 0 Td) as (A' & I').
  split; [exact (alike_trans _ _ _ A' A)|exact (incl_tran I' I)].
Qed.

(** The passes of the model and the flat list of C63. *)
Lemma sync_size x h b b' h' : sync_header x h b = Ok (b', h') -> hd_size h' = hd_size h.
Proof.
  unfold sync_header. intros H. apply bind_ok in H as ((b0 & h0) & H0 & H). apply bind_ok in H as (b1 & _ & H). apply ok_inj in H. injection H as _ <-.
  destruct (negb (is_default (hd_size h)) && _); [apply bind_ok in H0 as ((b2 & n) & _ & H0)|]; apply ok_inj in H0; injection H0 as _ <-; reflexivity.
Qed.
Lemma sync_app x l l' : forall b b1 l1 b2 l2, sync_headers x l b = Ok (b1, l1) -> sync_headers x l' b1 = Ok (b2, l2) -> sync_headers x (l ++ l') b = Ok (b2, l1 ++ l2).
Proof.
  induction l as [|h l IH]; intros b b1 l1 b2 l2 H H'; cbn [sync_headers app] in *; [apply ok_inj in H; injection H as <- <-; exact H'|].
  apply bind_ok in H as ((b0 & h0) & E & H). apply bind_ok in H as ((b3 & l3) & E1 & H). apply ok_inj in H. injection H as <- <-. rewrite E. cbn [bind]. rewrite (IH _ _ _ _ _ E1 H'). reflexivity.
Qed.
Lemma sync_split x l l' : forall b b2 r, sync_headers x (l ++ l') b = Ok (b2, r) ->
  exists b1 l1 l2, sync_headers x l b = Ok (b1, l1) /\ sync_headers x l' b1 = Ok (b2, l2) /\ r = l1 ++ l2 /\ length l1 = length l.
Proof.
  induction l as [|h l IH]; intros b b2 r H; cbn [app] in H; [exists b, [], r; split; [reflexivity|split; [exact H|split; reflexivity]]|]. cbn [sync_headers] in H.
  apply bind_ok in H as ((b0 & h0) & E & H). apply bind_ok in H as ((b3 & l3) & E1 & H). apply ok_inj in H. injection H as -> <-.
  destruct (IH _ _ _ E1) as (b1 & l1 & l2 & F1 & F2 & -> & F3). exists b1, (h0 :: l1), l2. cbn [sync_headers]. rewrite E. cbn [bind]. rewrite F1. cbn [bind length]. split; [reflexivity|]. split; [exact F2|]. split; [reflexivity|]. rewrite F3. reflexivity.
Qed.
Definition spans (m : hmap colattr) : list (N * N) := map (fun kv => (fst kv, h_span (snd kv))) m.
Lemma tiles_spans m : forall lo m', spans m = spans m' -> tiles lo m -> tiles lo m'.
Proof.
  induction m as [|[b h] m IH]; intros lo [|[b' h'] m'] E T; cbn [spans map fst snd] in E; try discriminate E; [exact I|]. injection E as <- Es E. cbn in T. rewrite Es in T. destruct T as (T1 & T2 & T3 & T4).
  exact (conj T1 (conj T2 (conj T3 (IH _ _ E T4)))).
Qed.
Lemma one_sync m : forall b b' m', sheet_styles sz m b = Ok (b', m') -> sync_headers Cols (heads m) b = Ok (b', heads m') /\ spans m' = spans m.
Proof.
  induction m as [|[c h] m IH]; intros b b' m' H; cbn [sheet_styles] in H; [apply ok_inj in H; injection H as <- <-; split; reflexivity|].
  apply bind_ok in H as ((b0 & h0) & E & H). apply bind_ok in H as ((b3 & m3) & E1 & H). apply ok_inj in H. injection H as <- <-. destruct (IH _ _ _ E1) as (F & G). pose proof (sync_size _ _ _ _ _ E) as Z. cbn [head hd_size] in Z.
  cbn [heads map snd h_attr sync_headers spans fst h_span]. fold (heads m). fold (heads m3). fold (spans m). fold (spans m3). rewrite E. cbn [bind]. rewrite F, G. cbn [bind]. split; [|reflexivity].
  unfold head at 1. cbn [ca_style ca_width]. rewrite <- Z. destruct h0. reflexivity.
Qed.
Lemma one_back m : forall b b', sync_headers Cols (heads m) b = Ok (b', heads m) -> sheet_styles sz m b = Ok (b', m).
Proof.
  induction m as [|[c h] m IH]; intros b b' H; cbn [heads map snd sync_headers] in H; [apply ok_inj in H; injection H as <-; reflexivity|]. fold (heads m) in H.
  apply bind_ok in H as ((b0 & h0) & E & H). apply bind_ok in H as ((b3 & l3) & E1 & H). apply ok_inj in H. injection H as -> -> ->. cbn [sheet_styles]. rewrite E. cbn [bind]. rewrite (IH _ _ E1). cbn [bind head hd_style].
  destruct h as [[st cs vi wi] sp]. reflexivity.
Qed.
Lemma all_sync ms : forall b b' ms', all_styles sz ms b = Ok (b', ms') -> sync_headers Cols (flat_map heads ms) b = Ok (b', flat_map heads ms') /\ map spans ms' = map spans ms.
Proof.
  induction ms as [|m ms IH]; intros b b' ms' H; cbn [all_styles] in H; [apply ok_inj in H; injection H as <- <-; split; reflexivity|].
  apply bind_ok in H as ((b0 & m0) & E & H). apply bind_ok in H as ((b3 & m3) & E1 & H). apply ok_inj in H. injection H as <- <-. destruct (IH _ _ _ E1) as (F & G). destruct (one_sync _ _ _ _ E) as (F0 & G0).
  cbn [flat_map map]. split; [exact (sync_app _ _ _ _ _ _ _ _ F0 F)|]. rewrite G, G0. reflexivity.
Qed.
Lemma all_back ms : forall b b', sync_headers Cols (flat_map heads ms) b = Ok (b', flat_map heads ms) -> all_styles sz ms b = Ok (b', ms).
Proof.
  induction ms as [|m ms IH]; intros b b' H; cbn [flat_map] in H; [cbn [sync_headers] in H; apply ok_inj in H; injection H as <-; reflexivity|].
  destruct (sync_split _ _ _ _ _ _ H) as (b1 & l1 & l2 & F1 & F2 & E & L). assert (heads m = l1 /\ flat_map heads ms = l2) as (<- & <-).
  { clear - E L. revert l1 E L. generalize (heads m) as l. induction l as [|x l IH]; intros [|y l1] E L; try discriminate L; [split; [reflexivity|exact E]|]. cbn [app] in E. injection E as <- E. injection L as L. destruct (IH l1 E L) as (<- & <-). split; reflexivity. }
  cbn [all_styles]. rewrite (one_back _ _ _ F1). cbn [bind]. rewrite (IH _ _ F2). reflexivity.
Qed.
Lemma cuts_all ms : forall gs rs, Forall (tiles 0) ms -> all_cuts gs ms = Ok rs ->
  alike (flat_map heads rs) (flat_map heads ms) /\ incl (flat_map heads rs) (flat_map heads ms) /\ all_cuts gs rs = Ok rs.
Proof.
  assert (One : forall g hc m r, tiles 0 m -> calc_col_headers g hc m = Ok r -> calc_col_headers g hc r = Ok r).
  { intros g hc m r T H. destruct (tiles_disjoint 0 m T) as (D & W). exact (proj1 (C83_cols g hc m r D W H)). }
  induction ms as [|m ms IH]; intros gs rs T H; [destruct gs; cbn [all_cuts] in H; apply ok_inj in H; subst rs; (split; [apply alike_refl|split; [apply incl_refl|reflexivity]])|].
  apply Forall_cons_iff in T as (Tm & T). destruct gs as [|[g hc] gs]; cbn [all_cuts] in H; apply bind_ok in H as (r & E & H); apply bind_ok in H as (q & E1 & H); apply ok_inj in H; subst rs;
    destruct (IH _ _ T E1) as (A & I & R); destruct (calc_alike _ _ _ _ Tm E) as (A1 & I1); cbn [flat_map all_cuts]; rewrite (One _ _ _ _ Tm E); cbn [bind]; rewrite R;
    (split; [apply alike_app; assumption|split; [apply incl_app; [apply incl_appl, I1|apply incl_appr, I]|reflexivity]]).
Qed.
End Sizes.

(** A second save finds the columns of all sheets and their styles as it leaves them. *)
Theorem C83_columns : forall sz gs ms b b1 rs, Forall disjoint ms -> Forall wide ms -> no_doubles Cols b ->
  all_there Cols (flat_map (map (fun kv => head sz (h_attr (snd kv)))) ms) b -> numbers_fine (flat_map (map (fun kv => head sz (h_attr (snd kv)))) ms) ->
  columns_pass sz gs ms b = Ok (b1, rs) -> exists b2, columns_pass sz gs rs b1 = Ok (b2, rs) /\ same_table Cols b1 b2.
Proof.
  intros sz gs ms b b1 rs Ds Ws D K F H. change (flat_map (map (fun kv => head sz (h_attr (snd kv)))) ms) with (flat_map (heads sz) ms) in *.
  unfold columns_pass in H. apply bind_ok in H as ((b' & ms1) & E & H). apply bind_ok in H as (rs' & C & H). apply ok_inj in H. injection H as -> ->.
  destruct (all_sync sz _ _ _ _ E) as (S & Sp).
  assert (T : Forall (tiles 0) ms1).
  { clear - Ds Ws Sp. revert ms1 Sp. induction ms as [|m ms IH]; intros [|m1 ms1] Sp; try discriminate Sp; [constructor|]. injection Sp as S1 S2. apply Forall_cons_iff in Ds as (D1 & Ds). apply Forall_cons_iff in Ws as (W1 & Ws).
    constructor; [exact (tiles_spans m 0 m1 (eq_sym S1) (disjoint_tiles _ D1 W1))|exact (IH Ds Ws ms1 S2)]. }
  destruct (cuts_all sz ms1 gs rs T C) as (A & I & R).
  destruct (sync_spec Cols _ b b1 _ D K F S) as (D1 & G & Q).
  assert (F1 : numbers_fine (flat_map (heads sz) rs)). { intros h' v u J X. destruct (both_in _ _ _ h' G (I _ J)) as (h & J' & G1 & _). apply (F h v u J'). congruence. }
  assert (Z1 : forall h, In h (flat_map (heads sz) rs) -> hd_style h = None -> is_default (hd_size h) = true).
  { intros h' J X. destruct (both_in _ _ _ h' G (I _ J)) as (h & J' & G1 & G2). rewrite G1. destruct (hd_style h) as [n|]; [congruence|]. destruct (is_default (hd_size h)); [reflexivity|].
    destruct G2 as (n & a & G2 & _). congruence. }
  assert (K1 : all_there Cols (flat_map (heads sz) rs) b1).
  { intros h' n J X. destruct (both_in _ _ _ h' G (I _ J)) as (h & J' & G1 & G2). destruct (hd_style h) as [m|] eqn:Y.
    - assert (m = n) as -> by congruence. destruct (attrs_of Cols b n) as [a|] eqn:B; [|exfalso; exact (K h n J' Y B)]. destruct (Q n a B) as (a' & -> & _). discriminate.
    - destruct (is_default (hd_size h)); [congruence|]. destruct G2 as (m & a & G2 & _ & B & _). assert (m = n) as -> by congruence. congruence. }
  destruct (sync_settled Cols _ b1 D1 F1 Z1) as (b2 & E2 & T2). exists b2. unfold columns_pass. rewrite (all_back sz rs b1 b2 E2). cbn [bind]. rewrite R. split; [reflexivity|].
  intros n. split; [split; intros B; apply T2; exact B|]. intros k.
  rewrite (sync_held Cols _ b1 b2 _ D1 K1 F1 E2 n k), (A n k), (sync_held Cols _ b b1 _ D K F S n k), steps_twice. reflexivity.
Qed.

(** Two sheets: three columns of 5 cm in a group over the last two of them and a column with the default width; a column of 2 cm with a style. *)
Definition in_cm (w : option str) : length_ := match w with Some t => Len t Cm | None => LDefault end.
Definition wide_col (st : option str) (w : option str) : colattr := mkColAttr st None Visible w.
Definition settle_cols : list (hmap colattr) :=
  [[(0, mkHdr (wide_col None (Some (lit "5"))) 3); (3, mkHdr (wide_col None None) 1)]; [(0, mkHdr (wide_col (Some (lit "x")) (Some (lit "2"))) 1)]].
Example C83_columns_ex :
  (let* (b1, r1) := columns_pass in_cm [([mkGrp 1 2 true], None)] settle_cols again_book in let* (b2, r2) := columns_pass in_cm [([mkGrp 1 2 true], None)] r1 b1 in
   Ok (r1, r2, look b1 (lit "co0"), look b2 (lit "co0"), look b2 (lit "co1"), look b2 (lit "x")))
  = (let c := wide_col (Some (lit "co0")) (Some (lit "5")) in
     let r := [[(0, mkHdr c 1); (1, mkHdr c 2); (3, mkHdr (wide_col None None) 1)]; [(0, mkHdr (wide_col (Some (lit "x")) (Some (lit "2"))) 1)]] in
     Ok (r, r, (Some (lit "5cm"), None, None), (Some (lit "5cm"), None, None), (None, None, None), (Some (lit "2cm"), None, Some (lit "page")))).
Proof. vm_compute. reflexivity. Qed.

Print Assumptions C83_columns.

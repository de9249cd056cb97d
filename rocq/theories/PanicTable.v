(** The reader of tables does not panic, nor do the calculations after it. *)
From Verif Require Import Base Lib OMap NumModel NumSpec NumProofs NumProps RefsModel RefsSpec RefsProofs XmlModel XmlSpec XmlProofs EnumModel.
From Verif Require Import CellModel CellIoModel HeaderModel HeaderSpec HeaderProofs TableModel CloneModel CloneProofs BookModel BookProps ScriptModel ValidModel StyleModel MetaModel ConfigModel ConfigShape WorkModel.
From Verif Require Import TermSpec TermProofs PanicSpec PanicProofs PanicParts.
Import NumModel.

(** ** Maps *)

Lemma insert_forall {K V} (lt : K -> K -> bool) (P : K * V -> Prop) k v m : Forall P m -> P (k, v) -> Forall P (om_insert lt k v m).
Proof.
  intros H Pk. induction H as [|[k' v'] m P' F IH]; [now repeat constructor|]. cbn [om_insert]. destruct (lt k k'); [repeat constructor; auto|]. destruct (lt k' k); constructor; auto.
Qed.
Lemma hput_forall {A} (P : N * hdr A -> Prop) k v (m : hmap A) : Forall P m -> P (k, v) -> Forall P (hput k v m).
Proof. apply insert_forall. Qed.
Lemma floor_in {V} k (m : omap N V) b v : om_floor k m = Some (b, v) -> In (b, v) m.
Proof.
  induction m as [|[k' v'] m IH]; [discriminate|]. cbn [om_floor]. destruct (k <? k'); [discriminate|]. destruct (om_floor k m) as [[x y]|]; [|intros H; injection H as -> ->; now left].
  intros H. injection H as -> ->. right. now apply IH.
Qed.
Lemma add32_np (P : N -> Prop) a b : a + b <= u32_max -> P (a + b) -> np (add32 a b) P.
Proof. intros L H. unfold add32. destruct (a + b <=? u32_max) eqn:E; [exact H|]. apply N.leb_gt in E. lia. Qed.
Lemma sub1_np a : 0 < a -> sub32 a 1 <> Panic.
Proof. intros L. unfold sub32. destruct (1 <=? a) eqn:E; [discriminate|]. apply N.leb_gt in E. lia. Qed.

(** ** Attributes *)

Lemma counts_cons k kv a : counts k (kv :: a) = count_in k kv + counts k a. Proof. reflexivity. Qed.
Lemma find_key_eq k x : find_key ckeys k = Some x -> match x with KRepeat => k = a_crep | KTime => k = lit "office:time-value" | _ => True end.
Proof.
  unfold ckeys. cbn [find_key]. repeat match goal with |- (if str_eqb k ?n then _ else _) = _ -> _ => destruct (str_eqb k n) eqn:?; [intros H; injection H as <-; try exact I; now apply str_eqb_eq|] end. discriminate.
Qed.
Lemma count_here k v n : parse_u32 (raw v) = Ok n -> count_in k (k, v) = n.
Proof. intros H. apply raw_u32 in H. unfold count_in. cbn [fst snd]. now rewrite str_eqb_refl, H. Qed.
Lemma read_type_np v : np (read_type v) (fun t => t <> TyTextXml).
Proof.
  unfold read_type. cbn [find_key]. repeat match goal with |- context [str_eqb v ?n] => destruct (str_eqb v n); [discriminate|] end. exact I.
Qed.
Lemma edit_same f x : a_repeat (a_edit f x) = a_repeat x /\ CellIoModel.a_type (a_edit f x) = CellIoModel.a_type x. Proof. now split. Qed.
Definition acc_calm (x : cellacc) : Prop := CellIoModel.a_type x <> TyTextXml.
Lemma cell_attr_np x kv : attr_calm kv -> acc_calm x -> np (cell_attr x kv) (fun x' => acc_calm x' /\ a_repeat x' <= a_repeat x + count_in a_crep kv).
Proof.
  intros (_ & _ & C) A. unfold cell_attr. destruct (find_key ckeys (fst kv)) as [k|] eqn:F; [|cbn; split; [exact A|lia]].
  assert (Sp : forall g, np (span_attr (snd kv) g x) (fun x' => acc_calm x' /\ a_repeat x' <= a_repeat x + count_in a_crep kv)).
  { intros g. unfold span_attr. eapply np_bind'; [apply np_of, u32_np|]. intros n _ _. destruct (1 <? n); cbn; (split; [exact A|lia]). }
  destruct k; try apply Sp; try (cbn; split; [exact A|lia]).
  - eapply np_bind'; [apply np_of, u32_np|]. intros n E _. apply find_key_eq in F. destruct kv as [k v]. cbn [fst snd] in *. subst k. rewrite (count_here _ _ _ E). cbn [np a_repeat]. split; [exact A|lia].
  - eapply np_bind'; [apply read_type_np|]. intros t _ T. cbn. split; [exact T|lia].
  - eapply np_bind'; [apply np_of, datetime_np|]. intros t _ _. cbn. split; [exact A|lia].
  - apply find_key_eq in F. eapply np_bind'; [apply np_of, duration_raw_np, C; now left|]. intros t _ _. cbn. split; [exact A|lia].
  - eapply np_bind'; [apply np_of, f64_np|]. intros t _ _. cbn. split; [exact A|lia].
  - eapply np_bind'; [apply np_of, bool_np|]. intros t _ _. cbn. split; [exact A|lia].
Qed.
Lemma cell_attrs_np a : forall x, Forall attr_calm a -> acc_calm x -> np (cell_read_attrs x a) (fun x' => acc_calm x' /\ a_repeat x' <= a_repeat x + counts a_crep a).
Proof.
  induction a as [|kv a IH]; intros x F A; [cbn; split; [exact A|lia]|]. inversion F; subst. cbn [cell_read_attrs]. eapply np_bind'; [apply cell_attr_np; assumption|]. intros x' _ (A' & L).
  eapply np_imp; [apply IH; assumption|]. intros y _ (B & M). split; [exact B|]. rewrite counts_cons. lia.
Qed.
Lemma visibility_np v : parse_visibility v <> Panic.
Proof. apply arms_np. Qed.
Lemma fold_attrs_np {A} (f : A -> str * str -> res A) (I : A -> Prop) (w : A -> N) (cnt : str * str -> N) (P : str * str -> Prop) a :
  (forall s kv, I s -> P kv -> np (f s kv) (fun s' => I s' /\ w s' <= w s + cnt kv)) -> Forall P a ->
  forall s, I s -> np (TableModel.fold_attrs f s a) (fun s' => I s' /\ w s' <= w s + fold_right (fun kv n => cnt kv + n) 0 a).
Proof.
  intros H F. induction F as [|kv a Pk F IH]; intros s Hs; [cbn; split; [exact Hs|lia]|]. cbn [TableModel.fold_attrs fold_right]. eapply np_bind'; [apply H; assumption|]. intros s' _ (H' & L).
  eapply np_imp; [apply IH, H'|]. intros y _ (B & M). split; [exact B|]. lia.
Qed.
Lemma no_zero_forall k a : no_zero k a -> Forall (fun kv => fst kv = k -> parse_u32 (snd kv) <> Ok 0) a.
Proof. intros H. apply Forall_forall. intros [k' v] I E. cbn [fst snd] in *. subst k'. now apply H. Qed.
Lemma row_attrs_np a : no_zero a_rrep a -> np (TableModel.fold_attrs row_attr (1, None) a) (fun p => 1 <= fst p /\ fst p <= 1 + counts a_rrep a).
Proof.
  intros Z. apply (fold_attrs_np row_attr (fun p => 1 <= fst p) fst (count_in a_rrep) (fun kv => fst kv = a_rrep -> parse_u32 (snd kv) <> Ok 0)); [|now apply no_zero_forall|cbn; lia].
  intros [n o] [k v] L P. cbn [fst snd] in *. unfold row_attr. cbn [fst snd].
  destruct (str_eqb k a_rrep) eqn:Q.
  - apply str_eqb_eq in Q. subst k. eapply np_bind'; [apply np_of, u32_np|]. intros x E _. rewrite (count_here _ _ _ E). apply raw_u32 in E. cbn [np fst]. specialize (P eq_refl). assert (x <> 0) by congruence. lia.
  - destruct (str_eqb k a_style); [cbn; lia|]. destruct (str_eqb k a_dstyle); [cbn; lia|]. destruct (str_eqb k a_vis); [|cbn; lia]. eapply np_bind'; [apply np_of, visibility_np|]. intros x _ _. cbn. lia.
Qed.
Lemma col_attrs_np a : no_zero a_crep a -> np (TableModel.fold_attrs col_attr (1, None) a) (fun p => 1 <= fst p /\ fst p <= 1 + counts a_crep a).
Proof.
  intros Z. apply (fold_attrs_np col_attr (fun p => 1 <= fst p) fst (count_in a_crep) (fun kv => fst kv = a_crep -> parse_u32 (snd kv) <> Ok 0)); [|now apply no_zero_forall|cbn; lia].
  intros [n o] [k v] L P. cbn [fst snd] in *. unfold col_attr. cbn [fst snd].
  destruct (str_eqb k a_crep) eqn:Q.
  - apply str_eqb_eq in Q. subst k. eapply np_bind'; [apply np_of, u32_np|]. intros x E _. rewrite (count_here _ _ _ E). apply raw_u32 in E. cbn [np fst]. specialize (P eq_refl). assert (x <> 0) by congruence. lia.
  - destruct (str_eqb k a_style); [cbn; lia|]. destruct (str_eqb k a_dstyle); [cbn; lia|]. destruct (str_eqb k a_vis); [|cbn; lia]. eapply np_bind'; [apply np_of, visibility_np|]. intros x _ _. cbn. lia.
Qed.
Lemma group_np a k : read_group a k <> Panic.
Proof.
  unfold read_group. apply bind_np; [|discriminate]. generalize true. induction a as [|kv a IH]; intros d; [discriminate|]. cbn [TableModel.fold_attrs]. apply bind_np; [|exact IH].
  unfold group_attr. destruct (str_eqb _ _); [apply bool_np|discriminate].
Qed.

(** ** What a sheet being read is like *)

Definition row_calm (kh : N * hdr rowattr) : Prop :=
  h_span (snd kh) <= 1 /\ fst kh + h_span (snd kh) <= u32_max /\ fst kh + ra_repeat (h_attr (snd kh)) <= u32_max /\ (h_span (snd kh) = 1 -> fst kh + ra_repeat (h_attr (snd kh)) + 1 <= u32_max).
Definition col_calm (kh : N * hdr colattr) : Prop := fst kh + h_span (snd kh) <= u32_max.
Definition cell_calm (pc : pos * cell) : Prop := snd (fst pc) + c_repeat (snd pc) <= u32_max.
Definition spans (m : hmap colattr) : N := fold_right (fun kh n => h_span (snd kh) + n) 0 m.
Definition sheet_calm (sh : sheet) : Prop := Forall row_calm (tb_rows sh) /\ Forall col_calm (tb_cols sh) /\ Forall cell_calm (tb_cells sh).

Lemma spans_put k h m : spans (hput k h m) <= spans m + h_span h.
Proof.
  unfold hput, spans. induction m as [|[k' h'] m IH]; [cbn; lia|]. cbn [om_insert]. destruct (k <? k'); [cbn [fold_right snd]; lia|]. destruct (k' <? k); cbn [fold_right snd] in *; lia.
Qed.
Lemma read_col_np a col m : no_zero a_crep a -> Forall col_calm m -> col + 1 + counts a_crep a <= u32_max ->
  np (read_col a col m) (fun p => 1 <= fst p /\ fst p <= 1 + counts a_crep a /\ Forall col_calm (snd p) /\ spans (snd p) <= spans m + fst p).
Proof.
  intros Z F L. unfold read_col. eapply np_bind'; [apply col_attrs_np, Z|]. intros (n & o) _ (L1 & L2). cbn [np fst snd] in *. split; [exact L1|]. split; [exact L2|]. destruct o as [h|]; [|split; [exact F|lia]].
  split; [apply hput_forall; [exact F|]; unfold col_calm; cbn [fst snd h_span]; lia|]. apply spans_put.
Qed.
Lemma edit_repeat n h : ra_repeat (row_edit (SetRowRepeat n) h) = n. Proof. reflexivity. Qed.
Lemma read_row_np a row m : no_zero a_rrep a -> Forall row_calm m -> row + 2 + counts a_rrep a <= u32_max ->
  np (read_row a row m) (fun p => 1 <= fst p /\ fst p <= 1 + counts a_rrep a /\ Forall row_calm (snd p)).
Proof.
  intros Z F L. unfold read_row. eapply np_bind'; [apply row_attrs_np, Z|]. intros (n & o) _ (L1 & L2). cbn [np fst snd] in *. split; [exact L1|]. split; [exact L2|]. destruct o as [h|]; [|exact F].
  apply hput_forall; [exact F|]. unfold row_calm. cbn [fst snd h_span h_attr]. rewrite edit_repeat. lia.
Qed.
Lemma set_row_np row n m : 1 <= n -> row + n + 1 <= u32_max -> Forall row_calm m -> np (set_row row (SetRowRepeat n) m) (Forall row_calm).
Proof.
  intros L1 L F. unfold set_row. cbn [row_op_asserts]. destruct (0 <? n) eqn:E; [|apply N.ltb_ge in E; lia].
  assert (D : np (split_row rowattr0 row m) (fun m' => Forall row_calm m' /\ exists h, hget row m' = Some h /\ h_span h = 1)).
  { assert (D0 : Forall row_calm (hput row (mkHdr rowattr0 1) m) /\ exists h, hget row (hput row (mkHdr rowattr0 1) m) = Some h /\ h_span h = 1).
    { split; [apply hput_forall; [exact F|]; unfold row_calm; cbn; lia|]. rewrite hget_put_same. now eexists. }
    unfold split_row. destruct (om_floor row m) as [[b h]|] eqn:Q; [|exact D0]. apply floor_in in Q. eapply Forall_forall in Q; [|exact F]. destruct Q as (Q1 & Q2 & Q3 & Q4). cbn [fst snd] in *.
    unfold in_span. eapply np_bind'; [apply np_bind; apply (add32_np (fun e => np (Ok ((b <=? row) && (row <? e))) (fun i => i = true -> b = row /\ h_span h = 1))); [exact Q2|]|].
    { cbn [np]. intros H. apply andb_true_iff in H as (H1 & H2). apply N.leb_le in H1. apply N.ltb_lt in H2. lia. }
    intros i _ Hi. destruct i; [|exact D0]. destruct (Hi eq_refl) as (-> & S1). specialize (Q4 S1).
    apply np_bind, add32_np; [lia|]. rewrite N.ltb_irrefl. cbn [np]. split.
    - apply hput_forall; [apply hput_forall; [exact F|]|]; unfold row_calm; cbn [fst snd h_span h_attr]; rewrite ?S1; lia.
    - rewrite hget_put_other by lia. rewrite hget_put_same. now eexists. }
  eapply np_bind'; [exact D|]. intros m' _ (F' & h & G & S). unfold set_attr. rewrite G. cbn [np]. apply hput_forall; [exact F'|]. unfold row_calm. cbn [fst snd h_span h_attr]. rewrite S, edit_repeat. lia.
Qed.
Lemma col_default_np s : Forall col_calm (tb_cols (ts_sheet s)) -> col_default s <> Panic.
Proof.
  intros F. unfold col_default. apply bind_np; [|discriminate]. unfold valid_header. destruct (om_floor _ _) as [[b h]|] eqn:Q; [|discriminate]. apply floor_in in Q. eapply Forall_forall in Q; [|exact F].
  apply bind_np; [|discriminate]. unfold in_span. apply bind_np; [|discriminate]. eapply np_not, (add32_np (fun _ => True)); [exact Q|exact I].
Qed.
Lemma finish_np ign d x : acc_calm x -> np (cell_finish ign d x) (fun y => fst y = a_repeat x /\ forall c, snd y = Some c -> c_repeat c = a_repeat x).
Proof.
  intros A. unfold cell_finish. destruct (a_cell x) as [c|]; [|cbn; split; [reflexivity|discriminate]].
  assert (R : read_value x (c_value c) <> Panic). { unfold read_value, need. unfold acc_calm in A. destruct (CellIoModel.a_type x); try discriminate; try congruence; repeat match goal with |- context [match ?o with _ => _ end] => destruct o end; discriminate. }
  eapply np_bind'; [apply np_of, R|]. intros v _ _. cbn [np fst snd]. split; [reflexivity|]. destruct (ignore_cell _ _ _); [discriminate|]. intros z H. injection H as <-. reflexivity.
Qed.

(** ** Where the reader is *)

Definition next_c (st : list str) (c : bool) (e : event) : bool :=
  match e with EStart n _ => c && negb (str_eqb n t_row || str_eqb n t_table) | EEmpty n _ => c || (str_eqb n t_column && free st) | _ => c end.
Definition next_r (st : list str) (r : bool) (e : event) : bool :=
  match e with EStart n _ => r && negb (str_eqb n t_table) | EEnd n => r || (str_eqb n t_row && free (tl st)) | _ => r end.
Definition ends_ok (c r : bool) (e : event) : Prop :=
  match e with
  | EEnd n => (str_eqb n t_cgroup || str_eqb n t_hcols = true -> c = true) /\ (str_eqb n t_rgroup || str_eqb n t_hrows = true -> r = true)
  | _ => True
  end.
Lemma behind_step st c r e q : behind st c r (e :: q) -> behind (after_event st e) (next_c st c e) (next_r st r e) q /\ ends_ok c r e.
Proof. destruct e; cbn [behind after_event next_c next_r ends_ok]; intros H; try (split; [exact H|exact I]). destruct H as (A & B & H). split; [exact H|]. split; [exact A|exact B]. Qed.

Definition tops (st : list str) (e : event) : Prop := match e with EEnd n => exists o, st = n :: o | _ => True end.
Definition framed (tag : str) (fr : list frame) (st : list str) (P : list str -> Prop) : Prop := exists tau o, st = tau ++ tag :: o /\ length fr = S (length tau) /\ P o.
Lemma top_add_np x fr : fr <> [] -> np (top_add x fr) (fun fr' => length fr' = length fr).
Proof. destruct fr as [|f fr]; [congruence|]. reflexivity. Qed.
Lemma tree_np tag fr st P e : framed tag fr st P -> tops st e ->
  np (tree_step tag fr e) (fun z => match z with inl fr' => framed tag fr' (after_event st e) P | inr _ => exists o, st = tag :: o /\ exists tau o', st = tau ++ tag :: o' /\ P o' end).
Proof.
  intros (tau & o & -> & L & Po) T. assert (Nf : fr <> []) by (destruct fr; [discriminate|congruence]).
  assert (K : forall x, np (let* s := top_add x fr in Ok (inl s)) (fun z : list frame + xnode => match z with inl fr' => framed tag fr' (tau ++ tag :: o) P | inr _ => exists o', tau ++ tag :: o = tag :: o' /\ exists tau' o'', tau ++ tag :: o = tau' ++ tag :: o'' /\ P o'' end)).
  { intros x. eapply np_bind'; [apply top_add_np, Nf|]. intros fr' _ E. exists tau, o. split; [reflexivity|]. split; [congruence|exact Po]. }
  destruct e as [n a|n a|n|x|x|x]; cbn [tree_step after_event].
  - exists (n :: tau), o. split; [reflexivity|]. cbn [length]. split; [f_equal; exact L|exact Po].
  - apply K.
  - destruct fr as [|f fr]; [congruence|]. destruct T as (o' & T). destruct (str_eqb n tag) eqn:Q; [apply str_eqb_eq in Q as ->; exists o'; split; [exact T|]; exists tau, o; auto|].
    destruct tau as [|t tau]; [injection T as ->; now rewrite str_eqb_refl in Q|]. injection T as -> <-. cbn [app tl]. cbn [length] in L.
    eapply np_bind'; [apply top_add_np; destruct fr; [discriminate L|congruence]|]. intros fr' _ E. exists tau, o. split; [reflexivity|]. split; [congruence|exact Po].
  - apply K.
  - eapply np_bind'; [apply np_of, entity_np|]. intros v _ _. apply K.
  - exists tau, o. auto.
Qed.

Definition is_whole (tag : str) : Prop := existsb (str_eqb tag) whole = true.
Definition sub_framed (m : smode) (st : list str) : Prop :=
  match m with
  | SAnnTree _ n fr | SImageTree _ _ n fr => framed n fr st (fun _ => True)
  | _ => True
  end.
Definition mode_ok (m : tmode) (st : list str) : Prop :=
  match m with
  | MTable => True
  | MTree tag fr => is_whole tag /\ framed tag fr st (fun _ => True)
  | MCell tag x cm => is_whole tag /\ acc_calm x /\
      match cm with
      | KCell => In tag st
      | KPara _ _ _ => exists a b, st = a ++ t_p :: b /\ In tag b
      | KSub q => sub_inside (In tag) q st /\ sub_framed q st
      end
  end.
Lemma in_app_r {A} (x : A) a b : In x b -> In x (a ++ b). Proof. intros; apply in_or_app; auto. Qed.
Lemma mode_in m st : mode_ok m st -> m = MTable \/ exists tag, is_whole tag /\ In tag st.
Proof.
  destruct m as [|tag x cm|tag fr]; cbn [mode_ok]; [now left| |].
  - intros (W & _ & H). right. exists tag. split; [exact W|]. assert (U : forall t (P : list str -> Prop), (forall o, P o -> In tag o) -> forall o, under t P o -> In tag o).
    { intros t P HP o (u & v & -> & I). apply in_app_r. right. now apply HP. }
    destruct cm; [exact H|revert H; apply U; auto|]. destruct H as (H & _). revert H. destruct m; cbn [sub_inside]; repeat apply U; auto.
  - intros (W & u & v & -> & _). right. exists tag. split; [exact W|]. apply in_app_r. now left.
Qed.
Lemma not_free tag st : is_whole tag -> In tag st -> free st = false.
Proof.
  intros W I. destruct (free st) eqn:F; [|reflexivity]. unfold free in F. rewrite forallb_forall in F. specialize (F _ I). unfold is_whole in W. now rewrite W in F.
Qed.
Lemma rtext_np tag t e : rtext_step tag t e <> Panic.
Proof. destruct e; cbn [rtext_step]; try discriminate; [destruct (str_eqb _ _); discriminate|]. apply bind_np; [apply entity_np|discriminate]. Qed.
Lemma ann_done_np a d t : ann_text_done a d t <> Panic.
Proof. unfold ann_text_done. destruct d; [|discriminate]. apply bind_np; [|discriminate]. apply datetime_np. Qed.
Lemma start_framed n a st : framed n [(n, a, [])] (n :: st) (fun _ => True).
Proof. exists [], st. auto. Qed.
Lemma sub_step_np m st e : sub_framed m st -> tops st e -> np (sub_step m e) (fun z => match z with inl m' => sub_framed m' (after_event st e) | inr _ => True end).
Proof.
  intros F T. destruct m; cbn [sub_step].
  - destruct e; cbn [np]; repeat match goal with |- context [if ?b then _ else _] => destruct b end; cbn [np sub_framed]; auto. apply start_framed.
  - eapply np_bind'; [apply np_of, rtext_np|]. intros [?|?] _ _; [exact I|]. eapply np_bind'; [apply np_of, ann_done_np|]. intros; exact I.
  - eapply np_bind'; [apply (tree_np _ _ _ _ _ F T)|]. intros [fr|x] _ Q; [exact Q|exact I].
  - destruct e; cbn [np]; repeat match goal with |- context [if ?b then _ else _] => destruct b end; cbn [np sub_framed]; auto.
  - eapply np_bind'; [apply np_of, rtext_np|]. intros [?|?] _ _; exact I.
  - destruct e; cbn [np]; repeat match goal with |- context [if ?b then _ else _] => destruct b end; cbn [np sub_framed]; auto. apply start_framed.
  - eapply np_bind'; [apply np_of, rtext_np|]. intros [?|?] _ _; exact I.
  - eapply np_bind'; [apply (tree_np _ _ _ _ _ F T)|]. intros [fr|x] _ Q; [exact Q|exact I].
Qed.
Lemma ann_attrs_np a : forall x, ann_read_attrs x a <> Panic.
Proof.
  induction a as [|[k v] a IH]; intros x; cbn [ann_read_attrs]; [discriminate|]. apply bind_np; [|exact IH].
  unfold ann_attr. cbn [fst snd]. repeat match goal with |- context [if ?b then _ else _] => destruct b end; try discriminate. apply bind_np; [apply bool_np|discriminate].
Qed.
Lemma sub_start_np e : np (sub_start e) (fun m => match m with SAnn _ | SFrame _ => True | _ => False end).
Proof.
  destruct e; cbn [sub_start np]; auto. destruct (str_eqb n t_annotation); [eapply np_bind'; [apply np_of, ann_attrs_np|]; intros; exact I|]. destruct (str_eqb n t_frame); exact I.
Qed.
Lemma cell_step_np tag x cm st e : mode_ok (MCell tag x cm) st -> tops st e ->
  np (cell_step tag x cm e) (fun z => match z with inl (x', cm') => a_repeat x' = a_repeat x /\ mode_ok (MCell tag x' cm') (after_event st e) | inr x' => x' = x /\ acc_calm x /\ (exists o, st = tag :: o) end).
Proof.
  intros (W & A & H) T.
  assert (P : np (cell_step tag x cm e) (fun z => match z with inl (_, KSub q) => sub_framed q (after_event st e) | _ => True end)).
  { destruct cm as [|a pc fr|q]; cbn [cell_step].
    - destruct e; cbn [np]; repeat match goal with |- context [if ?b then _ else _] => destruct b end; cbn [np]; auto. eapply np_bind'; [apply sub_start_np|]. intros m _ M. now destruct m.
    - eapply np_bind'; [apply np_of, para_step_np|]. intros [(? & ?)|?] _ _; exact I.
    - destruct H as (_ & F). eapply np_bind'; [apply (sub_step_np _ _ _ F T)|]. intros [?|?] _ Q; [exact Q|exact I]. }
  eapply np_imp; [exact P|]. intros z E Fr. pose proof (cell_goes _ _ _ _ _ E) as G. destruct z as [(x' & cm')|x'].
  - destruct G as (K & _). unfold kind in K. split; [congruence|]. split; [exact W|]. split; [unfold acc_calm in *; congruence|].
    assert (Ins : inside (MCell tag x cm) st) by (destruct cm; [exact H|exact H|exact (proj1 H)]).
    pose proof (cell_inside _ _ _ _ _ _ _ x Ins T E) as Q. destruct cm' as [|a' pc' fr'|q']; [exact Q|exact Q|split; [exact Q|exact Fr]].
  - destruct G as (-> & ->). split; [reflexivity|]. split; [exact A|]. cbn [cell_step] in E.
    destruct e as [n a|n a|n|y|y|y]; try discriminate E; repeat match type of E with (if ?b then _ else _) = _ => destruct b eqn:? | (let* _ := _ in _) = _ => apply bind_ok in E as (? & _ & E) end; try discriminate E.
    match goal with H : str_eqb n tag = true |- _ => apply str_eqb_eq in H; subst n end. exact T.
Qed.

(** ** The table *)

(** [pd]: columns of the cell being read; [R], [C]: rows and columns still to come. *)
Record ST (c r : bool) (s : tstate) (pd R C : N) : Prop := {
  st_c : c = true -> 0 < ts_col s; st_r : r = true -> 0 < ts_row s; st_rep : 1 <= ts_rep s;
  st_rows : ts_row s + ts_rep s + R + 1 <= u32_max;
  st_cols : ts_col s + pd + C <= u32_max;
  st_spans : spans (tb_cols (ts_sheet s)) + C <= u32_max;
  st_sheet : sheet_calm (ts_sheet s) }.
Lemma ST_weak c r s pd R C c' r' pd' R' C' : ST c r s pd R C -> (c' = true -> c = true) -> (r' = true -> r = true) -> pd' + C' <= pd + C -> R' <= R -> C' <= C -> ST c' r' s pd' R' C'.
Proof. intros [A B D E F G H] X Y L1 L2 L3. constructor; auto; lia. Qed.
Definition sheet_done (sh : sheet) : Prop := sheet_calm sh /\ spans (tb_cols sh) <= u32_max.
Lemma ST_done c r s pd R C : ST c r s pd R C -> sheet_done (ts_sheet s).
Proof. intros [_ _ _ _ _ G H]. split; [exact H|lia]. Qed.
Definition pend (m : tmode) : N := match m with MCell _ x _ => a_repeat x | _ => 0 end.
Lemma store_np c r s x o R C : ST c r s x R C -> (forall cl, o = Some cl -> c_repeat cl = x) -> np (store_cell s (x, o)) (fun s' => ST c r s' 0 R C).
Proof.
  intros [A B D E F G (H1 & H2 & H3)] Q. unfold store_cell. apply np_bind, add32_np; [lia|]. cbn [np]. constructor; cbn [ts_col ts_row ts_rep ts_sheet]; auto; try lia.
  - destruct o; cbn [put_cells tb_cols]; exact G.
  - destruct o as [cl|]; [|now split]. split; [exact H1|]. split; [exact H2|]. cbn [put_cells tb_cells]. apply insert_forall; [exact H3|]. unfold cell_calm. cbn [fst snd]. rewrite (Q _ eq_refl). lia.
Qed.
Lemma read_cell_np ign c r s x R C : ST c r s (a_repeat x) R C -> acc_calm x ->
  np (let* d := col_default s in let* y := cell_finish ign d x in let* s' := store_cell s y in Ok (inl (s', MTable) : tstate * tmode + tstate))
     (fun z => match z with inl (s', m') => ST c r s' 0 R C /\ m' = MTable | inr _ => False end).
Proof.
  intros H A. destruct (st_sheet _ _ _ _ _ _ H) as (_ & H2 & _). eapply np_bind'; [apply np_of, col_default_np, H2|]. intros d _ _. eapply np_bind'; [apply finish_np, A|]. intros (k & o) _ (E & Q). cbn [fst snd] in *. subst k.
  eapply np_bind'; [apply store_np; [exact H|exact Q]|]. intros s' _ H'. now split.
Qed.
Lemma end_of_row_np c r s R C r' : ST c r s 0 (1 + R) C -> np (end_of_row s) (fun s' => ST c r' s' 0 R C).
Proof.
  intros [A B D E F G (H1 & H2 & H3)]. unfold end_of_row. eapply np_bind'; [instantiate (1 := Forall row_calm); destruct (ts_data s); [apply set_row_np; [exact D|lia|exact H1]|exact H1]|]. intros rs _ Fr.
  apply np_bind, add32_np; [lia|]. cbn [np]. constructor; cbn [ts_col ts_row ts_rep ts_sheet put_rows tb_cols]; auto; try lia. now split.
Qed.
Lemma header_np o f k : 0 < k -> extend_header o f k <> Panic.
Proof. intros L. unfold extend_header. apply bind_np; [apply sub1_np, L|discriminate]. Qed.
Lemma whole_tag n : existsb (str_eqb n) (prelude ++ epilogue) = true -> is_whole n.
Proof. intros H. unfold is_whole, whole. cbn [existsb]. cbn [prelude epilogue app existsb] in H. rewrite H. now rewrite !orb_true_r. Qed.
Lemma whole_cell n : str_eqb n t_cell || str_eqb n t_covered = true -> is_whole n.
Proof. intros H. unfold is_whole, whole. cbn [existsb]. apply orb_true_iff in H as [H|H]; unfold t_cell, t_covered in H; rewrite H; [reflexivity|]. now rewrite orb_true_r. Qed.
Lemma cell_columns n a : str_eqb n t_cell || str_eqb n t_covered = true -> columns_in (EStart n a) = 1 + counts a_crep a /\ columns_in (EEmpty n a) = 1 + counts a_crep a.
Proof.
  intros H. cbn [columns_in existsb]. replace (_ || _) with true; [now split|]. symmetry. apply orb_true_iff in H as [H|H]; unfold t_cell, t_covered in H; rewrite H; rewrite ?orb_true_r; reflexivity.
Qed.
Lemma table_event_np ign st c r s e R C : event_calm e -> tops st e -> ends_ok c r e -> ST c r s 0 (rows_in e + R) (columns_in e + C) ->
  np (table_event ign s e) (fun z => match z with inl (s', m') => ST (next_c st c e) (next_r st r e) s' (pend m') R C /\ mode_ok m' (after_event st e) | inr s' => sheet_done (ts_sheet s') end).
Proof.
  intros Ec T En H. pose proof H as [A B D E F G (H1 & H2 & H3)].
  destruct e as [n a|n a|n|y|y|y]; cbn [table_event]; try (split; [|exact I]; eapply ST_weak; [exact H|auto|auto|cbn [pend]; lia|lia|lia]).
  - (* start *)
    destruct Ec as (Ea & Ez).
    assert (Weak : forall s', ST c r s' 0 R C -> ST (next_c st c (EStart n a)) (next_r st r (EStart n a)) s' 0 R C).
    { intros s' K. eapply ST_weak; [exact K| | |lia|lia|lia]; cbn [next_c next_r]; intros X; apply andb_true_iff in X; tauto. }
    assert (Same : ST c r s 0 R C) by (eapply ST_weak; [exact H|auto|auto|lia|lia|lia]).
    assert (Grp : forall cf cg rf rg, ST c r (TS (ts_sheet s) (ts_row s) (ts_col s) (ts_data s) cf cg (ts_rep s) rf rg) 0 R C) by (intros; destruct Same; now constructor).
    destruct (existsb (str_eqb n) (prelude ++ epilogue)) eqn:Q0; [split; [apply Weak, Same|]; split; [now apply whole_tag|]; exists [], st; auto|].
    destruct (str_eqb n t_cgroup); [eapply np_bind'; [apply np_of, group_np|]; intros g _ _; split; [apply Weak, Grp|exact I]|].
    destruct (str_eqb n t_hcols); [split; [apply Weak, Grp|exact I]|].
    destruct (str_eqb n t_rgroup); [eapply np_bind'; [apply np_of, group_np|]; intros g _ _; split; [apply Weak, Grp|exact I]|].
    destruct (str_eqb n t_hrows); [split; [apply Weak, Grp|exact I]|].
    destruct (str_eqb n t_row) eqn:Q1.
    + assert (Rn : rows_in (EStart n a) = counts a_rrep a) by (cbn [rows_in]; unfold t_row in Q1; now rewrite Q1).
      rewrite Rn in *. eapply np_bind'; [apply read_row_np; [apply str_eqb_eq in Q1; apply Ez, Q1|exact H1|lia]|]. intros (k & m) _ (L1 & L2 & Fm). cbn [fst snd] in *.
      split; [|exact I]. constructor; cbn [ts_col ts_row ts_rep ts_sheet put_rows tb_cols pend next_c next_r]; auto; try lia.
      * rewrite Q1. cbn [orb negb]. rewrite andb_false_r. discriminate.
      * intros X. apply andb_true_iff in X as (X & _). auto.
      * now split.
    + destruct (str_eqb n t_cell || str_eqb n t_covered) eqn:Q2; [|split; [apply Weak, Same|exact I]].
      destruct (cell_columns n a Q2) as (Cn & _). rewrite Cn in *. eapply np_bind'; [apply np_of, col_default_np, H2|]. intros d _ _.
      eapply np_bind'; [apply (cell_attrs_np a cellacc0); [exact Ea|discriminate]|]. intros x _ (Ax & Lx). cbn [cellacc0 a_repeat] in Lx. split.
      * cbn [pend]. eapply ST_weak; [exact H| | |lia|lia|lia]; cbn [next_c next_r]; intros X; apply andb_true_iff in X; tauto.
      * split; [now apply whole_cell|]. split; [exact Ax|]. now left.
  - (* empty *)
    destruct Ec as (Ea & Ez & _).
    assert (Same : ST c r s 0 R C) by (eapply ST_weak; [exact H|auto|auto|lia|lia|lia]).
    destruct (existsb (str_eqb n) (prelude ++ epilogue)) eqn:Q0.
    { assert (Nc : str_eqb n t_column = false). { destruct (str_eqb n t_column) eqn:X; [|reflexivity]. apply str_eqb_eq in X. subst n. discriminate Q0. }
      split; [|exact I]. cbn [next_c next_r]. rewrite Nc. cbn [andb]. rewrite orb_false_r. destruct Same. constructor; auto. }
    destruct (str_eqb n t_column) eqn:Q1.
    + assert (Cn : columns_in (EEmpty n a) = 1 + counts a_crep a) by (cbn [columns_in existsb]; unfold t_column in Q1; now rewrite Q1).
      rewrite Cn in *. eapply np_bind'; [apply read_col_np; [apply str_eqb_eq in Q1; apply Ez, Q1|exact H2|lia]|]. intros (k & m) _ (L1 & L2 & Fm & Sm). cbn [fst snd] in *.
      apply np_bind, add32_np; [lia|]. split; [|exact I]. constructor; cbn [ts_col ts_row ts_rep ts_sheet put_cols tb_cols pend next_c next_r]; auto; try lia. now split.
    + destruct (str_eqb n t_cell || str_eqb n t_covered) eqn:Q2.
      * destruct (cell_columns n a Q2) as (_ & Cn). rewrite Cn in *. eapply np_bind'; [apply np_of, col_default_np, H2|]. intros d Ed _.
        eapply np_bind'; [apply (cell_attrs_np a cellacc0); [exact Ea|discriminate]|]. intros x _ (Ax & Lx). cbn [cellacc0 a_repeat] in Lx.
        assert (Sx : ST c r s (a_repeat x) R C) by (eapply ST_weak; [exact H|auto|auto|lia|lia|lia]). pose proof (read_cell_np ign c r s x R C Sx Ax) as K. rewrite Ed in K. cbn [bind] in K.
        eapply np_imp; [exact K|]. intros [(s' & m')|s'] _ Z; [|destruct Z]. destruct Z as (Z & ->). split; [|exact I]. cbn [next_c next_r pend]. rewrite Q1. cbn [andb]. now rewrite orb_false_r.
      * split; [|exact I]. cbn [next_c next_r pend]. rewrite Q1. cbn [andb]. now rewrite orb_false_r.
  - (* end *)
    destruct En as (Ec1 & Er1).
    assert (Nr : str_eqb n t_row = false -> forall s', ST c r s' 0 R C -> ST (next_c st c (EEnd n)) (next_r st r (EEnd n)) s' 0 R C).
    { intros Q s' K. cbn [next_c next_r]. rewrite Q. cbn [andb]. now rewrite orb_false_r. }
    assert (Same : ST c r s 0 R C) by (eapply ST_weak; [exact H|auto|auto|lia|lia|lia]).
    destruct (str_eqb n t_table); [eapply ST_done, H|].
    destruct (str_eqb n t_cgroup) eqn:Q1.
    { apply str_eqb_eq in Q1. assert (Qr : str_eqb n t_row = false) by now subst n. destruct (ts_cgroup s) as [|g gs]; [split; [apply Nr; [exact Qr|exact Same]|exact I]|].
      eapply np_bind'; [apply np_of, sub1_np, A, Ec1; reflexivity|]. intros t _ _. split; [|exact I]. apply Nr; [exact Qr|]. destruct Same. constructor; auto. }
    destruct (str_eqb n t_hcols) eqn:Q2.
    { apply str_eqb_eq in Q2. assert (Qr : str_eqb n t_row = false) by now subst n. eapply np_bind'; [apply np_of, header_np, A, Ec1; reflexivity|]. intros t _ _. split; [|exact I]. apply Nr; [exact Qr|]. destruct Same. constructor; auto. }
    destruct (str_eqb n t_rgroup) eqn:Q3.
    { apply str_eqb_eq in Q3. assert (Qr : str_eqb n t_row = false) by now subst n. destruct (ts_rgroup s) as [|g gs]; [split; [apply Nr; [exact Qr|exact Same]|exact I]|].
      eapply np_bind'; [apply np_of, sub1_np, B, Er1; reflexivity|]. intros t _ _. split; [|exact I]. apply Nr; [exact Qr|]. destruct Same. constructor; auto. }
    destruct (str_eqb n t_hrows) eqn:Q4.
    { apply str_eqb_eq in Q4. assert (Qr : str_eqb n t_row = false) by now subst n. eapply np_bind'; [apply np_of, header_np, B, Er1; reflexivity|]. intros t _ _. split; [|exact I]. apply Nr; [exact Qr|]. destruct Same. constructor; auto. }
    destruct (str_eqb n t_row) eqn:Q5; [|split; [apply Nr; [reflexivity|exact Same]|exact I]].
    assert (Rn : rows_in (EEnd n) = 1) by (cbn [rows_in]; unfold t_row in Q5; now rewrite Q5).
    assert (K0 : ST c r s 0 (1 + R) C) by (rewrite Rn in H; eapply ST_weak; [exact H|auto|auto|lia|lia|lia]).
    eapply np_bind'; [apply (end_of_row_np c r s R C (next_r st r (EEnd n)) K0)|]. intros s' _ K. split; [exact K|exact I].
Qed.

Lemma table_step_np ign st c r s m e R C : event_calm e -> tops st e -> ends_ok c r e -> mode_ok m st -> ST c r s (pend m) (rows_in e + R) (columns_in e + C) ->
  np (table_step ign s m e) (fun z => match z with inl (s', m') => ST (next_c st c e) (next_r st r e) s' (pend m') R C /\ mode_ok m' (after_event st e) | inr s' => sheet_done (ts_sheet s') end).
Proof.
  intros Ec T En M H. destruct m as [|tag x cm|tag fr] eqn:Em; [now apply table_event_np| |].
  all: assert (Flags : (next_c st c e = true -> c = true) /\ (next_r st r e = true -> r = true)).
  1, 3: (destruct (mode_in _ _ M) as [X|(w & Ww & Iw)]; [discriminate|]; pose proof (not_free _ _ Ww Iw) as Nf; split; destruct e as [n a|n a|n|y|y|y]; cbn [next_c next_r]; auto;
    [intros X; apply andb_true_iff in X; tauto|rewrite Nf, andb_false_r, orb_false_r; auto|intros X; apply andb_true_iff in X; tauto|];
    destruct (str_eqb n t_row) eqn:Q; [|cbn [andb]; now rewrite orb_false_r]; destruct T as (o & ->); apply str_eqb_eq in Q; subst n; cbn [tl]; destruct Iw as [<-|Iw]; [discriminate Ww|]; now rewrite (not_free _ _ Ww Iw), andb_false_r, orb_false_r).
  - cbn [table_step]. eapply np_bind'; [apply cell_step_np; [exact M|exact T]|]. intros [(x' & cm')|x'] _ Z.
    + destruct Z as (Rx & Mx). split; [|exact Mx]. cbn [pend] in *. rewrite Rx. eapply ST_weak; [exact H|tauto|tauto|lia|lia|lia].
    + destruct Z as (-> & Ax & _). assert (K : ST (next_c st c e) (next_r st r e) s (a_repeat x) R C) by (cbn [pend] in H; eapply ST_weak; [exact H|tauto|tauto|lia|lia|lia]).
      eapply np_imp; [apply (read_cell_np ign _ _ _ _ _ _ K Ax)|]. intros [(s' & m')|s'] _ Z; [|destruct Z]. destruct Z as (Z & ->). split; [exact Z|exact I].
  - cbn [table_step]. destruct M as (W & Fr). eapply np_bind'; [apply (tree_np _ _ _ _ e Fr T)|]. intros [fr'|y] _ Z.
    + split; [eapply ST_weak; [exact H|tauto|tauto|cbn [pend]; lia|lia|lia]|]. split; [exact W|exact Z].
    + split; [|exact I]. assert (K : ST (next_c st c e) (next_r st r e) s 0 R C) by (eapply ST_weak; [exact H|tauto|tauto|cbn [pend]; lia|lia|lia]). destruct K. constructor; auto.
Qed.
Lemma total_cons f e evs : PanicSpec.total f (e :: evs) = f e + PanicSpec.total f evs. Proof. reflexivity. Qed.
Definition placed (evs : list event) : Prop := exists st c r, nested st evs = true /\ behind st c r evs.
Lemma table_loop_np ign evs : forall st c r s m, nested st evs = true -> tags_calm evs -> behind st c r evs -> mode_ok m st -> ST c r s (pend m) (PanicSpec.total rows_in evs) (PanicSpec.total columns_in evs) ->
  np (table_loop ign s m evs) (fun p => sheet_done (ts_sheet (fst p))).
Proof.
  induction evs as [|e evs IH]; intros st c r s m Nt Tg B M H; [exact I|]. cbn [table_loop]. inversion Tg; subst. apply nested_cons in Nt as (Nt & T). apply behind_step in B as (B & En). rewrite !total_cons in H.
  eapply np_bind'; [apply (table_step_np ign st c r s m e); eassumption|]. intros [(s' & m')|s'] _ Z; [|exact Z]. destruct Z as (Z & M'). eapply IH; eassumption.
Qed.
Lemma table_attr_np a : forall sh, Forall attr_calm a -> tb_rows sh = [] /\ tb_cols sh = [] /\ tb_cells sh = [] -> np (TableModel.fold_attrs table_attr sh a) (fun sh => tb_rows sh = [] /\ tb_cols sh = [] /\ tb_cells sh = []).
Proof.
  induction a as [|[k v] a IH]; intros sh F H; [exact H|]. inversion F as [|? ? (_ & C & _) F']; subst. cbn [fst snd] in C. cbn [TableModel.fold_attrs].
  eapply np_bind'; [|intros sh' _ H'; apply IH; [exact F'|exact H']]. unfold table_attr. destruct sh as [n st pr p d e cs rs gc gr hc hr m]. cbn [fst snd tb_rows tb_cols tb_cells] in *.
  destruct (str_eqb k (lit "table:name")); [exact H|]. destruct (str_eqb k a_style); [exact H|]. destruct (str_eqb k (lit "table:print")); [eapply np_bind'; [apply np_of, bool_np|]; intros; exact H|].
  destruct (str_eqb k a_disp); [eapply np_bind'; [apply np_of, bool_np|]; intros; exact H|]. destruct (str_eqb k (lit "table:print-ranges")) eqn:Q; [|exact H]. apply str_eqb_eq in Q.
  eapply np_bind'; [apply np_of, cellranges_np, C; now right; right|]. intros; exact H.
Qed.
Lemma read_table_np ign a r : fine (EStart t_table a :: r) -> placed (EStart t_table a :: r) -> PanicSpec.total rows_in r + 2 <= u32_max -> PanicSpec.total columns_in r <= u32_max ->
  np (read_table ign (EStart t_table a :: r)) (fun p => sheet_done (fst p)).
Proof.
  intros (_ & Tg) (st & c & b & Nt & B) Lr Lc. inversion Tg as [|? ? Ec Tg']; subst. cbn [read_table]. eapply np_bind'; [apply table_attr_np; [exact (proj1 Ec)|now repeat split]|]. intros sh _ (E1 & E2 & E3).
  apply behind_step in B as (B & _). apply nested_cons in Nt as (Nt & _). assert (Z : sheet_calm sh) by (unfold sheet_calm; rewrite E1, E2, E3; repeat constructor).
  eapply np_bind'; [apply (table_loop_np ign r _ _ _ _ MTable Nt Tg' B I)|].
  - constructor; cbn [ts_col ts_row ts_rep ts_sheet pend]; try lia; try exact Z.
    + cbn [next_c]. rewrite str_eqb_refl, orb_true_r. cbn [negb]. rewrite andb_false_r. discriminate.
    + cbn [next_r]. rewrite str_eqb_refl. cbn [negb]. rewrite andb_false_r. discriminate.
    + rewrite E2. cbn. exact Lc.
  - intros (s & r') _ H. exact H.
Qed.
Lemma placed_tail e r : placed (e :: r) -> placed r.
Proof. intros (st & c & b & N & B). apply nested_cons in N as (N & _). apply behind_step in B as (B & _). eexists _, _, _. eauto. Qed.
Lemma placed_sfx r evs : placed evs -> sfx r evs -> placed r.
Proof. intros P (p & ->). induction p as [|e p IH]; [exact P|]. apply IH. eapply placed_tail, P. Qed.

(** ** Calculations *)

Lemma dedup_np m : forall c h, h_span h + spans m <= u32_max -> dedup_from c h m <> Panic.
Proof.
  induction m as [|[c' h'] m IH]; intros c h L; [discriminate|]. cbn [dedup_from]. unfold spans in L. cbn [fold_right snd] in L. fold (spans m) in L. destruct (limited_eq _ _).
  - eapply np_not, (np_bind' _ _ (fun s => s = h_span h + h_span h') (fun _ => True)); [apply add32_np; [lia|reflexivity]|]. intros s _ ->. apply np_of, IH. cbn [h_span]. lia.
  - apply bind_np; [|discriminate]. apply IH. lia.
Qed.
Lemma collect_np {A B} (f : A -> res (list B)) (P : A -> Prop) (Q : B -> Prop) l : (forall x, P x -> np (f x) (Forall Q)) -> Forall P l -> np (collect f l) (Forall Q).
Proof.
  intros H F. induction F as [|x l Px _ IH]; [constructor|]. cbn [collect]. eapply np_bind'; [apply H, Px|]. intros y _ Fy. eapply np_bind'; [exact IH|]. intros z _ Fz. cbn. apply Forall_app. now split.
Qed.
Lemma from1_lt n : Forall (fun i => i < n) (from1 n).
Proof. apply Forall_forall. intros i I. apply from1_in in I. lia. Qed.
Lemma row_down_np m kh : Forall cell_calm m -> row_calm kh -> np (row_down m kh) (Forall cell_calm).
Proof.
  intros F (_ & _ & L & _). destruct kh as [k h]. cbn [fst snd] in L. destruct (row_down_ok m k h) as (z & -> & Z); [intros; lia|intros; lia|]. cbn [np]. apply Forall_forall. intros (q & d) I.
  apply Z in I as (i & _ & _ & I). eapply Forall_forall in I; [|exact F]. exact I.
Qed.
Lemma cells_right_np m : Forall cell_calm m -> cells_right m <> Panic.
Proof.
  induction 1 as [|[p c] m L F IH]; [discriminate|]. unfold cell_calm in L. cbn [fst snd] in L. cbn [cells_right]. destruct (1 <? c_repeat c).
  - destruct (_ && _); [apply bind_np; [exact IH|]; intros ((? & ?) & ?); discriminate|]. apply bind_np.
    + unfold cell_right. eapply np_not, (collect_np _ (fun i => i < c_repeat c) (fun _ => True)); [|apply from1_lt]. intros i Hi. apply np_bind, add32_np; [lia|]. now constructor.
    + intros l. apply bind_np; [exact IH|]. intros ((? & ?) & ?). discriminate.
  - apply bind_np; [exact IH|]. intros ((? & ?) & ?). discriminate.
Qed.
Lemma clear_row kh : row_calm kh -> row_calm (clear_repeat kh).
Proof.
  intros H. unfold clear_repeat. destruct (1000 <? ra_repeat (h_attr (snd kh))) eqn:Q; [|exact H]. apply N.ltb_lt in Q. destruct H as (A & B & C & D). unfold row_calm. cbn [fst snd h_span h_attr]. rewrite edit_repeat. lia.
Qed.
Lemma clear_last_calm m : Forall row_calm m -> Forall row_calm (clear_last m).
Proof.
  induction m as [|x m IH]; intros F; [constructor|]. inversion F; subst. rewrite clear_last_cons. constructor; [|auto]. destruct (_ <? _)%nat; [now apply clear_row|assumption].
Qed.
Lemma insert_all_calm l : forall m, Forall cell_calm l -> Forall cell_calm m -> Forall cell_calm (insert_all l m).
Proof. unfold insert_all. induction l as [|[p c] l IH]; intros m Fl Fm; [exact Fm|]. inversion Fl; subst. cbn [fold_left]. apply IH; [assumption|]. now apply insert_forall. Qed.
Lemma calculations_np rep sh : sheet_done sh -> calculations rep sh <> Panic.
Proof.
  intros ((F1 & F2 & F3) & L). unfold calculations. apply bind_np.
  - unfold dedup_colheader. destruct (tb_cols sh) as [|[c h] m]; [discriminate|]. apply dedup_np. exact L.
  - intros cs. destruct rep; [discriminate|]. unfold calc_cloned. cbn [put_cols tb_rows tb_cells].
    eapply np_not, np_bind'; [apply (collect_np _ row_calm cell_calm); [intros x; apply row_down_np, F3|apply clear_last_calm, F1]|]. intros l _ Fl.
    apply np_of, bind_np; [apply cells_right_np, insert_all_calm; assumption|]. intros ((x & d) & k). discriminate.
Qed.

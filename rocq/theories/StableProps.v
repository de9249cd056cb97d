(** C70: loading and saving again. *)
From Verif Require Import Base Lib OMap NumModel EnumModel RefsModel XmlModel XmlSpec XmlProofs CellModel CellIoModel CellIoSpec CellIoProofs CellIoProps HeaderModel TreeProofs.
From Verif Require Import ValidModel ValidProps MetaModel MetaProofs MetaProps ConfigModel ConfigSpec ConfigProofs ConfigProps BookModel StyleModel.
From Verif Require Import TableModel TableSpec TableWhole TableProps WorkModel WorkSpec WorkFlow WorkProofs WorkProps StableProofs.

(** ** Cells of packages *)

Theorem C70_value v w : settled v -> value_after false v w -> value_same v w /\ settled w.
Proof. apply settled_fixed. Qed.
(** However a value began, after five times it stays. *)
Theorem C70_settles v w : trips 5 v w -> settled w /\ forall n u, trips n w u -> value_same w u.
Proof. intros H. pose proof (value_settles v w H) as S. split; [exact S|]. intros n u Hu. now apply (trips_settled n w u). Qed.
(** A value in a cell through a file; a cell that is not stored is empty. *)
Definition once (lb : bool) (v : value) : res value :=
  let* x := through_file lb false None (fun _ => None) (Cell v None None 1 None) false 1 in Ok (match snd x with Some c => c_value c | None => VEmpty end).
Fixpoint times (n : nat) (lb : bool) (v : value) : res value := match n with O => Ok v | S n' => let* w := once lb v in times n' lb w end.
Theorem C70_once lb v : writable v -> exists w, once lb v = Ok w /\ value_after lb v w.
Proof.
  intros W. unfold once. destruct (through_events lb false None (fun _ => None) (Cell v None None 1 None) false 1 W) as (d & o & w & D & V & O & C); [split; exact I|unfold u32_max; lia|].
  rewrite O. cbn [bind snd]. exists w. split; [|exact V]. f_equal. cbv zeta in C. destruct (void_b false None (result (fun _ => None) d w 1)) eqn:B.
  - destruct o; [discriminate|]. apply void_nothing in B as [(B & _)|(B & _)]; [exact (eq_sym B)|discriminate].
  - destruct o as [c|]; [|discriminate]. injection C as C. apply (f_equal k_value) in C. cbn [result content_with k_value] in C. rewrite <- C. unfold cell_content. destruct (c_extra c); reflexivity.
Qed.
(** All five may be needed: a paragraph with a text of two lines of which one is blank, and an empty one. *)
Definition para (l : list xnode) : xnode := XTag (lit "text:p") [] l.
Definition ex_slow : value := VTextXml [para [XText (lit "a" ++ [10; 10])]; para []].
Theorem C70_slow_refuted : writable ex_slow /\ exists v4 v5, times 4 false ex_slow = Ok v4 /\ times 5 false ex_slow = Ok v5 /\ times 6 false ex_slow = Ok v5
  /\ v4 = VTextXml [para [XText (lit "a")]] /\ v5 = VText (lit "a") /\ ~ settled v4 /\ settled v5.
Proof.
  split. { split; [exact I|]. intros l E. injection E as <-. constructor; [|constructor; [|constructor]]; (split; [reflexivity|]; split; [split; [name_lit|]; repeat split; constructor|]);
    repeat constructor. }
  eexists. eexists. split; [vm_compute; reflexivity|]. split; [vm_compute; reflexivity|]. split; [vm_compute; reflexivity|]. split; [reflexivity|]. split; [reflexivity|].
  split; [|split; [discriminate|]; cbn; intuition discriminate]. intros (_ & _ & S). specialize (S _ eq_refl). discriminate.
Qed.
(** A text that ends with line breaks is different each of the first two times, and a blank paragraph is read but not the second time. *)
Theorem C70_lines_refuted : exists v1 v2, times 1 false (VText (lit "a" ++ [10; 10])) = Ok v1 /\ times 2 false (VText (lit "a" ++ [10; 10])) = Ok v2 /\ v1 = VTextXml [para [XText (lit "a")]] /\ v2 = VText (lit "a").
Proof. eexists. eexists. split; [vm_compute; reflexivity|]. split; [vm_compute; reflexivity|]. split; reflexivity. Qed.
Theorem C70_blank_refuted : exists v v1 v2, v = VTextXml [para [XText (lit "a")]; para []; para [XText (lit "b")]] /\ times 1 false v = Ok v1 /\ times 2 false v = Ok v2
  /\ v1 = VTextXml [para [XText (lit "a")]; para [XText []]; para [XText (lit "b")]] /\ v2 = VTextXml [para [XText (lit "a")]; para [XText (lit "b")]].
Proof. eexists. eexists. eexists. split; [reflexivity|]. split; [vm_compute; reflexivity|]. split; [vm_compute; reflexivity|]. split; reflexivity. Qed.
Example C70_value_ex : let v := VTextXml [para [XText (lit "a "); XTag (lit "text:span") [(lit "text:style-name", lit "T1")] [XText (lit "b")]]; para [XText (lit "c&d")]] in
  settled v /\ exists w, times 3 false v = Ok w /\ value_same v w.
Proof.
  cbn zeta. split; [|eexists; split; [vm_compute; reflexivity|vm_compute; reflexivity]]. split; [discriminate|]. split; [|discriminate].
  constructor; [left; reflexivity|]. constructor; [|constructor]. right. exists [XText (lit "c&d")], (lit "c&d"). repeat split. discriminate.
Qed.

(** Cells of a sheet. *)
Lemma norm_list l m : texts_same false l m -> map norm m = map norm l.
Proof. unfold texts_same. intros ->. apply map_ext. intros x. apply broken_norm. Qed.
Lemma frames_alike l m : Forall2 (frame_after false) l m -> Forall2 frame_alike l m.
Proof.
  induction 1 as [|f g l m (E & _) _ IH]; constructor; [|exact IH]. destruct E as (E1 & E2 & E3 & E4). repeat split; try assumption.
  clear -E4. induction E4 as [|i j c d (I1 & I2 & I3) _ IH]; constructor; [|exact IH]. repeat split; try assumption. now apply norm_list.
Qed.
Lemma read_same ds c K : settled (c_value c) -> (c_style c = None -> ds (CellIoModel.value_type (c_value c)) = None) ->
  read_as false ds c (c_repeat c) K -> content_same (cell_content c) K /\ settled (k_value K).
Proof.
  intros S D (v & d & V & (K1 & K2 & K3 & K4 & K5) & ->). destruct (settled_fixed _ _ S V) as (E & S').
  assert (W : written_style ds c = c_style c) by (unfold written_style; destruct (c_style c); [reflexivity|now apply D]).
  split; [|exact S']. rewrite W. unfold content_with, cell_content, content_same.
  destruct (c_extra c) as [x|], (c_extra d) as [y|]; try contradiction; cbn [k_value k_style k_formula k_repeat k_validation k_span k_matrix k_annotation k_frames].
  - destruct K5 as (Y1 & Y2 & Y3 & Y4 & Y5). repeat split; try assumption; [|now apply frames_alike].
    cbn [x_annotation]. destruct (x_annotation x) as [a|], (x_annotation y) as [b|]; try contradiction; [|exact I]. destruct Y4 as ((A1 & A2 & A3 & A4 & A5 & A6) & _).
    repeat split; try assumption. now apply norm_list.
  - repeat split; try assumption. constructor.
Qed.
Lemma nothing_same d k m : content_same k m -> says_nothing d m -> says_nothing d k.
Proof.
  intros (V & A & B & _ & C & D & E & F & G) (S1 & S2 & S3 & S4 & S5 & S6 & S7 & S8). rewrite S1 in V. rewrite S8 in G. rewrite S7 in F. rewrite A in S3. rewrite B in S2. rewrite C in S4. rewrite D in S5. rewrite E in S6.
  repeat split; try assumption.
  - destruct (k_value k); cbn [value_same] in V; congruence.
  - destruct (k_annotation k); [contradiction|reflexivity].
  - now inversion G.
Qed.
Lemma stored_same ign d k m : content_same k m -> not_stored ign d m -> not_stored ign d k.
Proof.
  intros E [S|(I & S)]; [left; now apply (nothing_same d k m)|right]. split; [exact I|]. assert (X : k_style m = k_style k) by apply E. rewrite X in S. now apply (nothing_same _ k m).
Qed.
(** A sheet whose values are settled, with a style for each cell whose type has a default style: saved and loaded its cells are what they were, and settled again. *)
Definition styled (ds : vtype -> option str) (c : cell) : Prop := c_style c = None -> ds (CellIoModel.value_type (c_value c)) = None.
Theorem C70_cells_partial : forall ign ds sh cs, write_sheet ds sh = Ok cs -> sheet_ok sh -> header_rows_full sh -> col_groups_apart sh -> none_split (tb_cells sh) ->
  (forall p c, In (p, c) (tb_cells sh) -> settled (c_value c) /\ styled ds c /\ forall d, ~ not_stored ign d (cell_content c)) ->
  exists sh', table_through false ign ds sh = Ok sh'
    /\ Forall2 (fun kv kv' => fst kv' = fst kv /\ content_same (cell_content (snd kv)) (cell_content (snd kv')) /\ settled (c_value (snd kv')) /\ styled ds (snd kv')) (tb_cells sh) (tb_cells sh').
Proof.
  intros ign ds sh cs W O H G N C. destruct (C23_exact false ign ds sh cs W O H G N) as (sh' & T & F).
  { intros p c d K I R Q. destruct (C p c I) as (S & D & Z). destruct (read_same ds c K S D R) as (E & _). exact (Z d (stored_same ign d _ _ E Q)). }
  exists sh'. split; [exact T|]. clear -F C. induction F as [|[p c] [q b] l m (E & R) _ IH]; [constructor|]. cbn [fst snd] in *.
  constructor; [|apply IH; intros p' c' I; apply (C p' c'); now right]. cbn [fst snd]. split; [exact E|]. destruct (C p c (or_introl eq_refl)) as (S & D & _).
  destruct (read_same ds c _ S D R) as (X & Y). split; [exact X|].
  assert (V : k_value (cell_content b) = c_value b) by (unfold cell_content; destruct (c_extra b); reflexivity). rewrite V in Y. split; [exact Y|].
  assert (V' : k_value (cell_content c) = c_value c) by (unfold cell_content; destruct (c_extra c); reflexivity).
  assert (Z' : k_style (cell_content b) = c_style b) by (unfold cell_content; destruct (c_extra b); reflexivity).
  assert (Z : k_style (cell_content c) = c_style c) by (unfold cell_content; destruct (c_extra c); reflexivity).
  destruct X as (X1 & X2 & _). rewrite V, V' in X1. rewrite Z, Z' in X2. unfold styled in *. rewrite X2. intros Q. specialize (D Q).
  replace (CellIoModel.value_type (c_value b)) with (CellIoModel.value_type (c_value c)); [exact D|]. destruct (c_value c), (c_value b); cbn [value_same] in X1; try discriminate; try reflexivity; congruence.
Qed.

(** ** Trees *)

Lemma tree_once lb n a c : names_ok (XTag n a c) -> root_name_unique n c ->
  exists evs t, read_events (render lb (write_node (XTag n a c))) = Ok evs /\ (exists rest, read_tag evs = Ok (t, rest)) /\ norm t = norm (broken lb (XTag n a c)).
Proof.
  intros N R. exists (events_of lb (write_node (XTag n a c))).
  assert (E : read_events (render lb (write_node (XTag n a c))) = Ok (events_of lb (write_node (XTag n a c)))).
  { rewrite <- (app_nil_r (write_node _)). apply read_events_render; [apply sensible_node_false; [exact N|constructor|eauto]|apply nested_node; reflexivity]. }
  assert (V : events_of lb (write_node (XTag n a c)) = coalesce (node_events lb (XTag n a c))).
  { rewrite <- (app_nil_r (write_node _)), coalesce_node. cbn [asked]. now rewrite app_nil_r. }
  destruct c as [|y c].
  - exists (XTag n a []). split; [exact E|]. split; [|reflexivity]. rewrite V. cbn [node_events]. unfold coalesce. rewrite coalesce_cons by exact I. cbn [emit_text app read_tag]. eexists. reflexivity.
  - destruct (tree_read lb n a y c R) as (t & T1 & T2). exists t. split; [exact E|]. split; [|exact T1]. rewrite V. cbn [node_events]. unfold coalesce. rewrite coalesce_cons by exact I.
    cbn [emit_text app read_tag]. eexists. exact (T2 []).
Qed.
(** In packages a tree is the same each time, in flat files each element inside it gets a line break each time. *)
Theorem C70_trees lb n a c : names_ok (XTag n a c) -> root_name_unique n c ->
  exists evs t, read_events (render lb (write_node (XTag n a c))) = Ok evs /\ (exists rest, read_tag evs = Ok (t, rest))
    /\ inside t = inside (XTag n a c) /\ breaks t = (breaks (XTag n a c) + (if lb then inside (XTag n a c) else 0))%nat /\ (lb = false -> norm t = norm (XTag n a c)).
Proof.
  intros N R. destruct (tree_once lb n a c N R) as (evs & t & E & T & M). exists evs, t. split; [exact E|]. split; [exact T|].
  assert (C : inside t = inside (broken lb (XTag n a c)) /\ breaks t = breaks (broken lb (XTag n a c))).
  { destruct (norm_counts t) as (A1 & A2). destruct (norm_counts (broken lb (XTag n a c))) as (B1 & B2). rewrite M in A1, A2. split; congruence. }
  destruct C as (C1 & C2). destruct lb.
  - destruct (broken_counts (XTag n a c)) as (B1 & B2). rewrite C1, C2, B1, B2. split; [reflexivity|]. split; [reflexivity|discriminate].
  - rewrite broken_norm in M. destruct (norm_counts t) as (A1 & A2). destruct (norm_counts (XTag n a c)) as (B1 & B2). rewrite M in A1, A2.
    split; [congruence|]. split; [rewrite Nat.add_0_r; congruence|]. intros _. exact M.
Qed.
(** So rich text in a flat file grows with every save. *)
Definition ex_span : value := VTextXml [para [XText (lit "a"); XTag (lit "text:span") [] [XText (lit "b")]; XText (lit "c")]].
Theorem C70_grows_refuted : settled ex_span /\ times 1 true ex_span = Ok (VTextXml [para [XText (lit "a"); XTag (lit "text:span") [] [XText (lit "b")]; XText (10 :: lit "c")]])
  /\ times 3 true ex_span = Ok (VTextXml [para [XText (lit "a"); XTag (lit "text:span") [] [XText (lit "b")]; XText (10 :: 10 :: 10 :: lit "c")]]).
Proof. split; [|split; vm_compute; reflexivity]. split; [discriminate|]. split; [constructor; [left; reflexivity|constructor]|]. intros x E. injection E as <-. reflexivity. Qed.

(** ** Metadata and settings *)

Lemma pieces_clean s : Forall (fun p => no_specials p) (MetaProofs.pieces s).
Proof.
  induction s as [|c s IH]; [repeat constructor|]. cbn [MetaProofs.pieces]. destruct (char_cases c) as [n E _ S|E _ S].
  - rewrite E. constructor; [constructor|exact IH].
  - rewrite E. destruct (MetaProofs.pieces s) as [|p l]; [repeat constructor; exact S|]. inversion IH; subst. constructor; [|assumption]. constructor; [exact S|assumption].
Qed.
Lemma last_in {A} (l : list A) d : l = [] \/ In (last l d) l.
Proof. induction l as [|x l IH]; [now left|right]. destruct l as [|y l]; [now left|]. destruct IH as [IH|IH]; [discriminate|]. right. exact IH. Qed.
Lemma last_piece_twice s : last_piece (last_piece s) = last_piece s.
Proof.
  apply last_plain. unfold last_piece. destruct (last_in (filter has_text (MetaProofs.pieces s)) []) as [E|I]; [rewrite E; constructor|].
  apply filter_In in I as (I & _). pose proof (pieces_clean s) as F. rewrite Forall_forall in F. now apply F.
Qed.
(** Metadata are the same from the second time on. *)
Theorem C70_meta ns m : Forall (fun kv => name_ok (fst kv)) ns -> meta_ok m -> forall lb lb',
  exists evs m1 evs', read_events (render lb (write_ods_meta ns m)) = Ok evs /\ read_meta evs = Ok m1
    /\ read_events (render lb' (write_ods_meta ns m1)) = Ok evs' /\ read_meta evs' = Ok m1.
Proof.
  intros N H lb lb'. destruct (C37_survives_partial ns m N H lb) as (evs & E & R). exists evs, (meta_back m).
  assert (H' : meta_ok (meta_back m)).
  { destruct H as (A & B & C & D & F & G & K & L). repeat split; try assumption; try apply K. unfold meta_back. cbn [m_user]. clear -L.
    induction L as [|[k v] l (L1 & L2) _ IH]; constructor; [|exact IH]. cbn [fst snd] in *. split; [exact L1|]. destruct v; exact L2. }
  destruct (C37_survives_partial ns (meta_back m) N H' lb') as (evs' & E' & R'). exists evs'. split; [exact E|]. split; [exact R|]. split; [exact E'|]. rewrite R'. f_equal.
  unfold meta_back. cbn [m_generator m_title m_description m_subject m_keyword m_initial m_creator m_printed m_created m_date m_print m_language m_cycles m_duration m_user]. f_equal.
  rewrite map_map. apply map_ext. intros [k v]. cbn [fst snd]. f_equal. destruct v; cbn [value_back]; try reflexivity. now rewrite last_piece_twice.
Qed.
Definition meta_again (m : meta) : res meta := let* evs := read_events (render false (write_ods_meta [] m)) in read_meta evs.
Definition with_user (l : list (str * mvalue)) (m : meta) : meta :=
  Meta (m_generator m) (MetaModel.m_title m) (m_description m) (m_subject m) (m_keyword m) (m_initial m) (m_creator m) (m_printed m) (m_created m) (m_date m) (m_print m) (m_language m) (m_cycles m) (m_duration m)
    (m_template m) (m_reload m) (m_links m) (m_stats m) l.
Example C70_meta_ex : let m := with_user [(lit "k", MString (lit "a & b"))] meta0 in
  (let* m1 := meta_again m in let* m2 := meta_again m1 in Ok (m_user m1, m_user m2)) = Ok ([(lit "k", MString (lit " b"))], [(lit "k", MString (lit " b"))]).
Proof. vm_compute. reflexivity. Qed.
(** Induction over the trees of settings. *)
Lemma tree_all (P : tree -> Prop) : (forall v, P (Leaf v)) -> (forall k l, Forall (fun kv => P (snd kv)) l -> P (Node k l)) -> forall t, P t.
Proof.
  intros L N. fix IH 1. intros [v|k l]; [apply L|]. apply N. induction l as [|[n t] l IHl]; [constructor|]. constructor; [apply IH|exact IHl].
Qed.
Definition kids (l : list (str * tree)) : list (str * tree) := flat_map (fun kv => if ConfigSpec.blank (snd kv) then [] else [(fst kv, strip (snd kv))]) l.
Definition all_kids (Q : str * tree -> Prop) : list (str * tree) -> Prop := fix all l := match l with [] => True | kv :: r => Q kv /\ all r end.
Lemma kids_forall Q l : all_kids Q l <-> Forall Q l.
Proof. induction l as [|kv l IH]; cbn [all_kids]; [split; constructor|]. rewrite IH. split; [intros (A & B); now constructor|intros F; inversion F; auto]. Qed.
Lemma strip_kind k t : child_ok k t -> child_ok k (strip t).
Proof. destruct t as [v|m l]; [exact (fun H => H)|]. destruct k, m; exact (fun H => H). Qed.
Lemma blank_strip t : ConfigSpec.blank (strip t) = ConfigSpec.blank t.
Proof. now destruct t. Qed.
Lemma strip_no_blank t : no_blank (strip t).
Proof.
  induction t as [v|k l IH] using tree_all; [exact I|]. cbn [strip no_blank]. change (all_kids (fun kv => ConfigSpec.blank (snd kv) = false /\ no_blank (snd kv)) (kids l)).
  apply kids_forall. induction IH as [|[n t] l H _ IHl]; [constructor|]. cbn [kids flat_map fst snd] in *. destruct (ConfigSpec.blank t) eqn:B; [exact IHl|].
  constructor; [|exact IHl]. cbn [snd]. rewrite blank_strip. auto.
Qed.
Lemma entries_kept k l : (k = KVec \/ k = KMap) -> Forall (fun kv => child_ok k (snd kv)) l -> kids l = map (fun kv => (fst kv, strip (snd kv))) l.
Proof.
  intros K F. induction F as [|[n t] l H _ IH]; [reflexivity|]. cbn [kids flat_map map fst snd] in *. fold (kids l). rewrite IH.
  destruct t as [v|m d]; [destruct K as [->| ->]; contradiction|]. reflexivity.
Qed.
Lemma strip_with V t : tree_with V t -> tree_with V (strip t).
Proof.
  induction t as [v|k l IH] using tree_all; [exact (fun H => H)|]. cbn [tree_with strip].
  change ((k = KVec -> map fst l = map show_N (map N.of_nat (seq 0 (length l)))) /\ all_kids (fun kv => child_ok k (snd kv) /\ tree_with V (snd kv)) l ->
    (k = KVec -> map fst (kids l) = map show_N (map N.of_nat (seq 0 (length (kids l))))) /\ all_kids (fun kv => child_ok k (snd kv) /\ tree_with V (snd kv)) (kids l)).
  rewrite !kids_forall. intros (A & B). split.
  - intros K. rewrite (entries_kept k l (or_introl K)) by (clear -B; induction B as [|? ? (? & _)]; constructor; auto). rewrite map_map, map_length. cbn [fst]. now apply A.
  - clear A. induction B as [|[n t] l (B1 & B2) _ IHl]; [constructor|]. inversion IH as [|? ? Ht Hl]; subst. cbn [kids flat_map fst snd] in *.
    destruct (ConfigSpec.blank t); [now apply IHl|]. constructor; [|now apply IHl]. cbn [snd]. split; [now apply strip_kind|now apply Ht].
Qed.
Lemma strip_ok t : settings_ok t -> settings_ok (strip t).
Proof.
  intros (l & -> & T & F). exists (kids l). split; [reflexivity|]. split; [exact (strip_with _ _ T)|]. clear T. induction F as [|[n t] l (m & E) _ IH]; [constructor|].
  cbn [kids flat_map fst snd] in *. subst t. constructor; [|exact IH]. cbn [snd strip]. eauto.
Qed.
(** And so are the settings. *)
Theorem C70_config ns c : Forall (fun kv => name_ok (fst kv)) ns -> sound c -> settings_ok (plain c) ->
  exists cs, write_ods_settings ns c = Ok cs /\ forall lb, exists evs c1, read_events (render lb cs) = Ok evs /\ read_settings evs = Ok (Some c1)
  /\ exists cs1, write_ods_settings ns c1 = Ok cs1 /\ forall lb', exists evs1 c2, read_events (render lb' cs1) = Ok evs1 /\ read_settings evs1 = Ok (Some c2) /\ plain c2 = plain c1.
Proof.
  intros N S O. destruct (C35_survives ns c N S O) as (cs & W & R). exists cs. split; [exact W|]. intros lb. destruct (R lb) as (evs & c1 & E1 & R1 & S1 & P1 & _).
  exists evs, c1. split; [exact E1|]. split; [exact R1|]. destruct (C35_survives ns c1 N S1) as (cs1 & W1 & Q); [rewrite P1; now apply strip_ok|].
  exists cs1. split; [exact W1|]. intros lb'. destruct (Q lb') as (evs1 & c2 & E2 & R2 & S2 & _ & P2 & _). exists evs1, c2. split; [exact E2|]. split; [exact R2|].
  apply P2. rewrite P1. apply strip_no_blank.
Qed.

Definition config_again (c : citem) : res citem := let* cs := write_ods_settings [] c in let* evs := read_events (render false cs) in let* o := read_settings evs in match o with Some c => Ok c | None => Err end.
Example C70_config_ex : (let* c := at_conf [] (lit "PrinterName") (VString []) in let* c1 := config_again c in let* c2 := config_again c1 in Ok (plain c1, plain c2))
  = Ok (Node KSet [(lit "ooo:configuration-settings", Node KSet [])], Node KSet [(lit "ooo:configuration-settings", Node KSet [])]).
Proof. vm_compute. reflexivity. Qed.

(** ** Whole documents *)

(** A file that another program wrote, with a group of two columns: it is read and saved, and what is saved cannot be read. *)
Definition ex_group : str := lit "<office:document><office:body><office:spreadsheet><table:table table:name='S'><table:table-column-group><table:table-column table:style-name='co1' table:number-columns-repeated='2'/></table:table-column-group>"
  ++ lit "<table:table-row><table:table-cell office:value-type='float' office:value='1'/></table:table-row></table:table></office:spreadsheet></office:body></office:document>".
Definition is_err {A} (r : res A) : bool := match r with Err => true | _ => false end.
Definition group_check : bool :=
  match read_fods false true config0 ex_group with
  | Ok w => match ex_flat w with Ok t => is_err (read_fods false true config0 t) | _ => false end
  | _ => false
  end.
Definition group_check_package : bool :=
  match read_fods false true config0 ex_group with
  | Ok w => match ex_files w with Ok f => is_err (read_ods false true config0 f) | _ => false end
  | _ => false
  end.
Theorem C70_group_refuted : exists w, read_fods false true config0 ex_group = Ok w
  /\ (exists t, ex_flat w = Ok t /\ read_fods false true config0 t = Err) /\ exists f, ex_files w = Ok f /\ read_ods false true config0 f = Err.
Proof.
  assert (A : group_check = true) by (vm_compute; reflexivity). assert (B : group_check_package = true) by (vm_compute; reflexivity).
  unfold group_check in A. unfold group_check_package in B. destruct (read_fods false true config0 ex_group) as [w| |]; try discriminate. exists w. split; [reflexivity|]. split.
  - destruct (ex_flat w) as [t| |]; try discriminate. exists t. split; [reflexivity|]. destruct (read_fods false true config0 t); try discriminate. reflexivity.
  - destruct (ex_files w) as [f| |]; try discriminate. exists f. split; [reflexivity|]. destruct (read_ods false true config0 f); try discriminate. reflexivity.
Qed.
(** [n] times through a package. *)
Definition saved (n : nat) (w : workbook) : res workbook := nat_rect (fun _ => res workbook) (Ok w) (fun _ r => let* w := r in again false true w) n.
(** A workbook as in C51 with column groups is saved and read twice, and not the third time. *)
Lemma without_valids lb w : work_ok lb w -> work_ok lb (put_valids (Book [] (fun _ => [])) w).
Proof.
  destruct w. unfold work_ok, WorkSpec.all_valids. cbn. intros (A & B & C & D & E & F & _ & G & H).
  assert (X : (2 * 0 <= u32_max)%N) by (vm_compute; discriminate).
  exact (conj A (conj B (conj C (conj D (conj E (conj F (conj (conj (Forall_nil _) (conj (Forall_nil _) (conj (NoDup_nil _) X))) (conj G H)))))))).
Qed.
Definition ex_none : workbook := put_valids (Book [] (fun _ => [])) ex_full.
Theorem C70_third_refuted : work_ok false ex_none /\ (let* w := saved 2 ex_none in let* _ := ex_files w in Ok (map tb_cells (wb_sheets w))) = Ok [TableProps.ex_cells] /\ saved 3 ex_none = Err.
Proof. split; [exact (without_valids false ex_full ex_work_ok)|]. split; vm_compute; reflexivity. Qed.
(** Validations become more each time, and one with a message cannot be read the second time. *)
Definition valids (r : res workbook) : res nat := let* w := r in Ok (length (bk_styles (wb_valids w) FValidation)).
Definition no_groups (s : sheet) : sheet := Sheet (tb_name s) (tb_style s) (tb_ranges s) (tb_print s) (tb_display s) (tb_extra s) (tb_cols s) (tb_rows s) [] (tb_grows s) (tb_hcols s) (tb_hrows s) (tb_cells s).
Definition ex_one : workbook := ex_work [no_groups ex_sheet] [plain_valid (lit "b")].
Theorem C70_validations_refuted : map (fun n => valids (saved n ex_one)) [0; 1; 2; 3]%nat = [Ok 1; Ok 2; Ok 4; Ok 6]%nat
  /\ work_ok false ex_full /\ valids (saved 1 ex_full) = Ok 4%nat /\ saved 2 ex_full = Err.
Proof. split; [vm_compute; reflexivity|]. split; [exact ex_work_ok|]. split; vm_compute; reflexivity. Qed.
(** Without both the workbook of the examples is the same as often as it is saved. *)
Definition ex_still : workbook := ex_work [no_groups ex_sheet] [].
Definition shown (r : res workbook) := let* w := r in Ok (map tb_name (wb_sheets w), map tb_cells (wb_sheets w), map tb_rows (wb_sheets w), map tb_cols (wb_sheets w), wb_meta w, plain (wb_config w), map (fun x => norm x) (wb_extra w)).
Example C70_ex : shown (saved 3 ex_still) = shown (saved 1 ex_still) /\ (let* w := saved 3 ex_still in Ok (map tb_cells (wb_sheets w))) = Ok [TableProps.ex_cells].
Proof. split; vm_compute; reflexivity. Qed.
Example C70_cells_ex : forallb (fun kv => match c_value (snd kv) with VText s => negb (existsb (N.eqb 10) s) && negb (str_eqb s []) | VTextXml _ => false | _ => true end) TableProps.ex_cells = true
  /\ (let* sh := table_through false false no_styles ex_sheet in Ok (tb_cells sh)) = Ok TableProps.ex_cells.
Proof. split; vm_compute; reflexivity. Qed.

Print Assumptions C70_value.
Print Assumptions C70_settles.
Print Assumptions C70_once.
Print Assumptions C70_slow_refuted.
Print Assumptions C70_lines_refuted.
Print Assumptions C70_blank_refuted.
Print Assumptions C70_cells_partial.
Print Assumptions C70_trees.
Print Assumptions C70_grows_refuted.
Print Assumptions C70_meta.
Print Assumptions C70_config.
Print Assumptions C70_group_refuted.
Print Assumptions C70_third_refuted.
Print Assumptions C70_validations_refuted.

(** Lemmas about content validations. *)
From Verif Require Import Base Lib NumModel EnumModel RefsModel RefsSpec RefsProofs XmlModel XmlSpec XmlProofs CellModel CellIoModel CellIoProofs BookModel BookProps ScriptModel ScriptProofs ValidModel.

(** ** Texts with elements in them *)

(** The first end tag of that name closes the element the reading began with. *)
Fixpoint to_end (super : str) (d : nat) (evs : list event) : Prop :=
  match evs with
  | [] => True
  | EStart _ _ :: r => to_end super (S d) r
  | EEnd n :: r => if str_eqb n super then d = O else match d with O => False | S d' => to_end super d' r end
  | _ :: r => to_end super d r
  end.
Lemma to_end_coalesce super evs : forall d acc, to_end super d evs -> to_end super d (coalesce_from acc evs).
Proof.
  assert (E : forall d acc e evs, not_text e -> to_end super d (e :: evs) -> to_end super d (emit_text acc ++ e :: evs)) by (intros d [|c acc] e evs' _ H; exact H).
  induction evs as [|e evs IH]; intros d acc H; [destruct acc; exact I|].
  destruct e; cbn [coalesce_from]; try (apply E; [exact I|cbn [to_end] in *]; auto).
  - destruct (str_eqb n super); [exact H|]. destruct d; [exact H|]. now apply IH.
  - now apply IH.
Qed.
Lemma to_end_nodes super l : Forall (lacks super) l -> forall d tail, to_end super d tail -> to_end super d (flat_map (node_events false) l ++ tail).
Proof.
  assert (X : forall x, lacks super x -> forall d tail, to_end super d tail -> to_end super d (node_events false x ++ tail)).
  { induction x as [t|n a c IH] using xnode_ind'; intros L d tail H.
    - cbn [node_events]. induction t as [|ch t IHt]; [exact H|]. cbn. destruct (entity_of ch); exact (IHt I).
    - apply lacks_tag in L as [Ln Lc]. destruct c as [|y c]; [exact H|]. destruct Ln as [Ln|Ln]; [discriminate|]. cbn [node_events app to_end]. rewrite <- app_assoc. cbn [app].
      assert (Hc : to_end super (S d) (EEnd n :: EText (nl false) :: tail)) by (cbn [to_end]; apply str_eqb_neq in Ln; rewrite Ln; exact H).
      clear -IH Lc Hc. revert Hc. generalize (EEnd n :: EText (nl false) :: tail) (S d). intros tl d' Hc. induction Lc as [|z l Hz _ IHl]; [exact Hc|]. inversion IH; subst. cbn [flat_map]. rewrite <- app_assoc. auto. }
  induction 1 as [|x l Hx _ IH]; intros d tail H; [exact H|]. cbn [flat_map]. rewrite <- app_assoc. auto.
Qed.
Lemma para_xml super a evs : forall f st t r, to_end super (length st) evs -> read_xml_loop super (f :: st) evs = Ok (t, r) -> para_loop super a (PXml f) st evs = Ok (TcXml t, r).
Proof.
  induction evs as [|e evs IH]; intros f st t r H R; cbn [read_xml_loop] in R; [injection R as <- <-; reflexivity|].
  destruct e; cbn [to_end] in H; cbn [para_loop para_step bind p_parent p_text] in *.
  - now apply IH.
  - cbn [top_add bind] in R. now apply IH.
  - destruct (str_eqb n super); [destruct st; [injection R as <- <-; reflexivity|discriminate]|]. destruct st as [|p st]; [contradiction|]. cbn [top_add bind length] in *. now apply IH.
  - cbn [top_add bind] in R. now apply IH.
  - destruct (entity t0); cbn [bind] in *; try discriminate. cbn [top_add bind] in R. now apply IH.
  - now apply IH.
Qed.
(** A single element with content or without. *)
Definition is_tag (x : xnode) : Prop := match x with XTag _ _ _ => True | XText _ => False end.
Lemma text_read super a x evs : is_tag x -> lacks super x ->
  exists y, read_text_or_tag super a false (coalesce (node_events false x ++ EEnd super :: EText (nl false) :: evs)) = Ok (TcXml y, coalesce evs) /\ norm y = norm (XTag super a [x]).
Proof.
  intros T L. destruct (read_tree super a [x] evs) as (y & R & E); [constructor; [exact L|constructor]|]. exists y. split; [|exact E].
  cbn [node_events flat_map app] in R. rewrite app_nil_r, <- app_assoc in R. cbn [app] in R. unfold coalesce in R at 1. rewrite coalesce_cons in R by exact I. cbn [emit_text app read_tag] in R. unfold read_xml in R.
  change (coalesce_from [] (EText (nl false) :: ?l)) with (coalesce l) in R.
  assert (TE : to_end super 0 (coalesce (node_events false x ++ EEnd super :: EText (nl false) :: evs))).
  { unfold coalesce. apply to_end_coalesce. replace (node_events false x) with (flat_map (node_events false) [x]) by (cbn [flat_map]; now rewrite app_nil_r).
    apply to_end_nodes; [constructor; [exact L|constructor]|]. cbn [to_end]. now rewrite str_eqb_refl. }
  unfold read_text_or_tag. destruct x as [t|n b [|z c]]; [contradiction| |]; cbn [node_events app] in *.
  - unfold coalesce in R, TE |- *. rewrite coalesce_cons in R, TE |- * by exact I. cbn [emit_text app read_xml_loop top_add bind to_end para_loop para_step p_parent] in *.
    apply para_xml; [exact TE|exact R].
  - unfold coalesce in R, TE |- *. rewrite coalesce_cons in R, TE |- * by exact I. cbn [emit_text app read_xml_loop top_add bind to_end para_loop para_step p_parent] in *.
    apply para_xml; [exact TE|exact R].
Qed.

(** ** Messages *)

Definition err_attrs (m : message msgtype) : list (str * str) :=
  [(lit "table:display", show_bool (m_display m)); (lit "table:message-type", show_msgtype (m_type m))] ++ match m_title m with Some t => [(lit "table:title", t)] | None => [] end.
Definition help_attrs (m : message unit) : list (str * str) :=
  [(lit "table:display", show_bool (m_display m))] ++ match m_title m with Some t => [(lit "table:title", t)] | None => [] end.
(** What is read of a message: its text is put into an element like that of the message itself. *)
Definition heard {T} (tag : str) (a : message T -> list (str * str)) (m m' : message T) : Prop :=
  m_display m' = m_display m /\ m_type m' = m_type m /\ m_title m' = m_title m /\
  match m_text m with
  | None => m_text m' = None
  | Some x => exists y, m_text m' = Some y /\ norm y = norm (XTag tag (a m) [x])
  end.
Lemma err_attrs_read m : message_attrs (Some parse_msgtype) error0 (err_attrs m) = Ok (Msg (m_display m) (m_type m) (m_title m) None).
Proof. destruct m as [[] [] [t|] x]; reflexivity. Qed.
Lemma help_attrs_read m : message_attrs None help0 (help_attrs m) = Ok (Msg (m_display m) (m_type m) (m_title m) None).
Proof. destruct m as [[] [] [t|] x]; reflexivity. Qed.
Definition text_ok {T} (tag : str) (m : message T) : Prop := match m_text m with Some x => is_tag x /\ lacks tag x /\ names_ok x | None => True end.
(** The events of a message. *)
Definition message_events {T} (tag : str) (a : message T -> list (str * str)) (m : message T) : list event :=
  match m_text m with
  | None => [EEmpty tag (a m); EText (nl false)]
  | Some x => EStart tag (a m) :: node_events false x ++ [EEnd tag; EText (nl false)]
  end.
Lemma asked_message {T} tag ty a (m : message T) cs : attrs_of ([CAttr (lit "table:display") (show_bool (m_display m))] ++ ty (m_type m)
    ++ match m_title m with Some t => [CAttrEsc (lit "table:title") t] | None => [] end) = a m -> Forall is_attr (ty (m_type m)) ->
  asked esc_split false None (message_calls tag ty m ++ cs) = message_events tag a m ++ asked esc_split false None cs.
Proof.
  intros E F.
  assert (A : Forall is_attr (CAttr (lit "table:display") (show_bool (m_display m)) :: ty (m_type m) ++ match m_title m with Some t => [CAttrEsc (lit "table:title") t] | None => [] end)).
  { constructor; [discriminate|]. apply Forall_app. split; [exact F|]. destruct (m_title m); repeat constructor; discriminate. }
  cbn [app] in E. set (l := CAttr (lit "table:display") (show_bool (m_display m)) :: ty (m_type m) ++ match m_title m with Some t => [CAttrEsc (lit "table:title") t] | None => [] end) in *.
  replace (message_calls tag ty m ++ cs) with (CElemIf (is_some (m_text m)) tag :: l ++ match m_text m with Some x => write_node x | None => [] end ++ CEndIf (is_some (m_text m)) tag :: cs).
  2: { unfold message_calls, l. cbn [app]. rewrite <- !app_assoc. reflexivity. }
  cbn [asked finish app]. rewrite (asked_attr_calls _ _ _ A). rewrite E. unfold message_events. cbn [app]. destruct (m_text m) as [x|]; cbn [is_some negb].
  - rewrite asked_node. cbn [finish app asked]. rewrite <- app_assoc. reflexivity.
  - reflexivity.
Qed.

(** ** The loop *)

Definition vreads (evs : list event) (v : validation) (bk : book vbody) (r : res (book vbody * list event)) : Prop := forall n, (length evs <= n)%nat -> read_valids n evs v bk = r.
Lemma loop_length super evs : forall st t r, read_xml_loop super st evs = Ok (t, r) -> (length r <= length evs)%nat.
Proof. intros st t r H. apply loop_rest in H. rewrite H. apply after_end_length. Qed.
Lemma para_length super a evs : forall pc st t r, para_loop super a pc st evs = Ok (t, r) -> (length r <= length evs)%nat.
Proof.
  induction evs as [|e evs IH]; intros pc st t r H; cbn [para_loop] in H; [injection H as <- <-; reflexivity|].
  destruct (para_step super a pc st e) as [[[pc' st']|t']| |]; cbn [bind] in H; try discriminate; [apply IH in H; cbn [length]; lia|]. injection H as <- <-. cbn [length]. lia.
Qed.
Lemma vreads_step e evs v v' bk bk' r : not_text e ->
  (forall n, read_valids (S n) (e :: coalesce evs) v bk = read_valids n (coalesce evs) v' bk') -> vreads (coalesce evs) v' bk' r -> vreads (coalesce (e :: evs)) v bk r.
Proof.
  intros E H R n L. unfold coalesce in L |- *. rewrite coalesce_cons in * by exact E. cbn [emit_text app length] in *. destruct n as [|n]; [inversion L|].
  fold (coalesce evs) in *. rewrite H. apply R. lia.
Qed.
Lemma read_message_text {T} (ty : option (str -> res T)) m0 tag a m evs : text_ok tag m -> message_attrs ty m0 (a m) = Ok (Msg (m_display m) (m_type m) (m_title m) None) ->
  exists m', heard tag a m m' /\ match m_text m with
    | None => read_message ty m0 tag (a m) true (coalesce evs) = Ok (m', coalesce evs)
    | Some x => read_message ty m0 tag (a m) false (coalesce (node_events false x ++ EEnd tag :: EText (nl false) :: evs)) = Ok (m', coalesce evs)
    end.
Proof.
  intros T0 A. unfold text_ok, heard in *. destruct (m_text m) as [x|] eqn:E.
  - destruct T0 as (T1 & T2 & _). destruct (text_read tag (a m) x evs T1 T2) as (y & R & N). exists (Msg (m_display m) (m_type m) (m_title m) (Some y)).
    split; [cbn; repeat split; eauto|]. unfold read_message. rewrite A. cbn [bind]. rewrite R. reflexivity.
  - eexists (Msg (m_display m) (m_type m) (m_title m) None). split; [cbn; auto|]. unfold read_message. rewrite A. reflexivity.
Qed.
Lemma err_read m evs : text_ok t_err m -> exists m', heard t_err err_attrs m m' /\ forall v bk r, vreads (coalesce evs) (with_err v m') bk r ->
  vreads (coalesce (message_events t_err err_attrs m ++ evs)) v bk r.
Proof.
  intros H. destruct (read_message_text (Some parse_msgtype) error0 t_err err_attrs m evs H (err_attrs_read m)) as (m' & Hm & R). exists m'. split; [exact Hm|].
  intros v bk r V n L. unfold message_events in *. destruct (m_text m) as [x|]; cbn [app] in *; unfold coalesce in L |- *; rewrite coalesce_cons in * by exact I; cbn [emit_text app length] in *.
  - rewrite <- app_assoc in *. cbn [app] in *. change (coalesce_from [] ?l) with (coalesce l) in *. destruct n as [|n]; [inversion L|].
    cbn [read_valids]. replace (str_eqb t_err t_valid) with false by reflexivity. replace (str_eqb t_err t_err) with true by (symmetry; apply str_eqb_refl). rewrite R. cbn [bind]. apply V.
    unfold read_message in R. rewrite err_attrs_read in R. cbn [bind read_text_or_tag] in R.
    match type of R with bind (para_loop ?a ?b ?c ?d ?e) _ = _ => destruct (para_loop a b c d e) as [[t r']| |] eqn:P; try discriminate end. apply para_length in P. cbn [bind] in R.
    destruct t; try discriminate; injection R as <- <-; lia.
  - change (coalesce_from [] (EText (nl false) :: ?l)) with (coalesce l) in *. destruct n as [|n]; [inversion L|]. cbn [read_valids].
    replace (str_eqb t_err t_err) with true by (symmetry; apply str_eqb_refl). rewrite R. cbn [bind]. apply V. lia.
Qed.
Lemma help_read m evs : text_ok t_help m -> exists m', heard t_help help_attrs m m' /\ forall v bk r, vreads (coalesce evs) (with_help v m') bk r ->
  vreads (coalesce (message_events t_help help_attrs m ++ evs)) v bk r.
Proof.
  intros H. destruct (read_message_text None help0 t_help help_attrs m evs H (help_attrs_read m)) as (m' & Hm & R). exists m'. split; [exact Hm|].
  intros v bk r V n L. unfold message_events in *. destruct (m_text m) as [x|]; cbn [app] in *; unfold coalesce in L |- *; rewrite coalesce_cons in * by exact I; cbn [emit_text app length] in *.
  - rewrite <- app_assoc in *. cbn [app] in *. change (coalesce_from [] ?l) with (coalesce l) in *. destruct n as [|n]; [inversion L|].
    cbn [read_valids]. replace (str_eqb t_help t_valid) with false by reflexivity. replace (str_eqb t_help t_err) with false by reflexivity.
    replace (str_eqb t_help t_help) with true by (symmetry; apply str_eqb_refl). rewrite R. cbn [bind]. apply V.
    unfold read_message in R. rewrite help_attrs_read in R. cbn [bind read_text_or_tag] in R.
    match type of R with bind (para_loop ?a ?b ?c ?d ?e) _ = _ => destruct (para_loop a b c d e) as [[t r']| |] eqn:P; try discriminate end. apply para_length in P. cbn [bind] in R.
    destruct t; try discriminate; injection R as <- <-; lia.
  - change (coalesce_from [] (EText (nl false) :: ?l)) with (coalesce l) in *. destruct n as [|n]; [inversion L|]. cbn [read_valids]. replace (str_eqb t_help t_err) with false by reflexivity.
    replace (str_eqb t_help t_help) with true by (symmetry; apply str_eqb_refl). rewrite R. cbn [bind]. apply V. lia.
Qed.

(** ** Whole validations *)

Definition valid_ok (v : validation) : Prop :=
  let b := nm_body v in
  cellref_u32 (vb_base b) /\ cellref_ok (vb_base b) /\ vb_list b <> NoDisplay
  /\ (forall m, vb_err b = Some m -> text_ok t_err m) /\ (forall m, vb_help b = Some m -> text_ok t_help m).
(** What comes back under the name. *)
Definition no_messages (b : vbody) : vbody := VBody (vb_cond b) (vb_base b) (vb_empty b) (vb_list b) (Some error0) None.
(** What is left of the messages: a validation without anything else. *)
Definition left_over (v : validation) (w : vbody) : Prop :=
  exists e h, w = VBody [] ref0 true Unsorted (Some e) h
  /\ match vb_err (nm_body v) with Some m => heard t_err err_attrs m e | None => e = error0 end
  /\ match vb_help (nm_body v) with Some m => exists m', h = Some m' /\ heard t_help help_attrs m m' | None => h = None end.
Definition valid_attr_list (v : validation) (base : str) : list (str * str) :=
  [(lit "table:name", nm_name v); (lit "table:condition", lit "of:" ++ vb_cond (nm_body v)); (lit "table:allow-empty-cell", show_bool (vb_empty (nm_body v)));
   (lit "table:display-list", show_vdisplay (vb_list (nm_body v))); (lit "table:base-cell-address", base)].
Lemma valid_attrs_read v base : valid_ok v -> fmt_cell_ref (vb_base (nm_body v)) = Ok base -> valid_attrs valid0 (valid_attr_list v base) = Ok (Named (nm_name v) (no_messages (nm_body v))).
Proof.
  intros (U & C & D & _) F. pose proof (proj2 (cellref_roundtrip_iff _ _ U F) C) as P. destruct v as [n [c b e l er h]]. unfold valid_attr_list. cbn [nm_name nm_body vb_cond vb_base vb_empty vb_list no_messages] in *.
  unfold valid0, vbody0. cbn [valid_attrs]. unfold valid_attr at 1. change (str_eqb (lit "table:name") (lit "table:name")) with true. cbn [bind].
  cbn [valid_attrs]. unfold valid_attr at 1. change (str_eqb (lit "table:condition") (lit "table:name")) with false. change (str_eqb (lit "table:condition") (lit "table:condition")) with true.
  replace (split_bytes 3 (lit "of:" ++ c)) with (Ok c) by (destruct c; reflexivity). cbn [bind]. unfold valid_attr at 1.
  replace (parse_bool (raw (show_bool e))) with (Ok e) by (destruct e; reflexivity).
  change (str_eqb (lit "table:allow-empty-cell") (lit "table:name")) with false. change (str_eqb (lit "table:allow-empty-cell") (lit "table:condition")) with false.
  change (str_eqb (lit "table:allow-empty-cell") (lit "table:allow-empty-cell")) with true. cbn [bind]. unfold valid_attr at 1.
  replace (parse_vdisplay (raw (show_vdisplay l))) with (Ok l) by (destruct l; [congruence| |]; reflexivity).
  change (str_eqb (lit "table:display-list") (lit "table:name")) with false. change (str_eqb (lit "table:display-list") (lit "table:condition")) with false.
  change (str_eqb (lit "table:display-list") (lit "table:allow-empty-cell")) with false. change (str_eqb (lit "table:display-list") (lit "table:base-cell-address")) with false.
  change (str_eqb (lit "table:display-list") (lit "table:display-list")) with true. cbn [bind]. unfold valid_attr at 1.
  change (str_eqb (lit "table:base-cell-address") (lit "table:name")) with false. change (str_eqb (lit "table:base-cell-address") (lit "table:condition")) with false.
  change (str_eqb (lit "table:base-cell-address") (lit "table:allow-empty-cell")) with false. change (str_eqb (lit "table:base-cell-address") (lit "table:base-cell-address")) with true.
  rewrite P. reflexivity.
Qed.
Definition valid_events (v : validation) (base : str) : list event :=
  EStart t_valid (valid_attr_list v base)
  :: (match vb_err (nm_body v) with Some m => message_events t_err err_attrs m | None => [] end)
  ++ (match vb_help (nm_body v) with Some m => message_events t_help help_attrs m | None => [] end) ++ [EEnd t_valid; EText (nl false)].
Lemma asked_valid v cv base cs : fmt_cell_ref (vb_base (nm_body v)) = Ok base -> valid_calls v = Ok cv ->
  asked esc_split false None (cv ++ cs) = valid_events v base ++ asked esc_split false None cs.
Proof.
  intros F. unfold valid_calls. rewrite F. cbn [bind]. intros H. injection H as <-. cbn [app asked finish with_attr]. rewrite <- !app_assoc. cbn [app].
  rewrite asked_flush by (destruct (vb_err (nm_body v)), (vb_help (nm_body v)); exact I). cbn [finish app]. unfold valid_events. cbn [app]. f_equal.
  rewrite <- !app_assoc.
  assert (H2 : asked esc_split false None ((match vb_help (nm_body v) with Some m => message_calls t_help help_type m | None => [] end) ++ CEnd t_valid :: cs)
    = (match vb_help (nm_body v) with Some m => message_events t_help help_attrs m | None => [] end) ++ [EEnd t_valid; EText (nl false)] ++ asked esc_split false None cs).
  { destruct (vb_help (nm_body v)) as [m|]; [|reflexivity]. rewrite (asked_message t_help help_type help_attrs); [reflexivity| |constructor]. unfold help_attrs. destruct (m_title m); reflexivity. }
  destruct (vb_err (nm_body v)) as [m|]; cbn [app]; rewrite ?(asked_message t_err err_type err_attrs); rewrite ?H2; [reflexivity| |repeat constructor; discriminate|reflexivity].
  unfold err_attrs. destruct (m_title m); reflexivity.
Qed.
Lemma valid_read v base evs : valid_ok v -> fmt_cell_ref (vb_base (nm_body v)) = Ok base -> exists w, left_over v w /\ forall bk b1 n1 b2 n2 r,
  add_style FValidation (Named (nm_name v) (no_messages (nm_body v))) bk = Ok (b1, n1) -> add_style FValidation (Named [] w) b1 = Ok (b2, n2) ->
  vreads (coalesce evs) valid0 b2 r -> vreads (coalesce (valid_events v base ++ evs)) valid0 bk r.
Proof.
  intros V F. pose proof V as (_ & _ & _ & Te & Th).
  assert (H : exists h, match vb_help (nm_body v) with Some m => exists m', h = Some m' /\ heard t_help help_attrs m m' | None => h = None end
    /\ forall c b e l er bk r, vreads (coalesce (EEnd t_valid :: EText (nl false) :: evs)) (Named [] (VBody c b e l er h)) bk r ->
      vreads (coalesce ((match vb_help (nm_body v) with Some m => message_events t_help help_attrs m | None => [] end) ++ EEnd t_valid :: EText (nl false) :: evs)) (Named [] (VBody c b e l er None)) bk r).
  { destruct (vb_help (nm_body v)) as [m|]; [|exists None; split; [reflexivity|auto]].
    destruct (help_read m (EEnd t_valid :: EText (nl false) :: evs) (Th m eq_refl)) as (m' & Hm & R). exists (Some m'). split; [eauto|]. intros c b e l er bk r X. apply R. exact X. }
  destruct H as (h & Hh & Rh). set (tl1 := (match vb_help (nm_body v) with Some m => message_events t_help help_attrs m | None => [] end) ++ EEnd t_valid :: EText (nl false) :: evs) in *.
  assert (H : exists e, match vb_err (nm_body v) with Some m => heard t_err err_attrs m e | None => e = error0 end
    /\ forall bk r, vreads (coalesce tl1) (Named [] (VBody [] ref0 true Unsorted (Some e) None)) bk r ->
      vreads (coalesce ((match vb_err (nm_body v) with Some m => message_events t_err err_attrs m | None => [] end) ++ tl1)) valid0 bk r).
  { destruct (vb_err (nm_body v)) as [m|]; [|exists error0; split; [reflexivity|auto]].
    destruct (err_read m tl1 (Te m eq_refl)) as (m' & Hm & R). exists m'. split; [exact Hm|]. intros bk r X. apply R. exact X. }
  destruct H as (e & He & Re). exists (VBody [] ref0 true Unsorted (Some e) h). split; [exists e, h; auto|].
  intros bk b1 n1 b2 n2 r A1 A2 X. unfold valid_events. cbn [app]. rewrite <- !app_assoc. cbn [app]. fold tl1.
  apply (vreads_step _ _ _ valid0 _ b1); [exact I| |].
  { intros n. cbn [read_valids]. replace (str_eqb t_valid t_valid) with true by (symmetry; apply str_eqb_refl). rewrite valid_attrs_read by assumption. cbn [bind]. rewrite A1. reflexivity. }
  apply Re, Rh. apply (vreads_step _ _ _ valid0 _ b2); [exact I| |].
  { intros n. cbn [read_valids]. replace (str_eqb t_valid t_valid) with true by (symmetry; apply str_eqb_refl). rewrite A2. reflexivity. }
  exact X.
Qed.
(** Adding two validations for each one that is read. *)
Fixpoint add_all (vs : list validation) (ws : list vbody) (bk : book vbody) : res (book vbody) :=
  match vs, ws with
  | v :: vs', w :: ws' =>
      let* (b1, _) := add_style FValidation (Named (nm_name v) (no_messages (nm_body v))) bk in
      let* (b2, _) := add_style FValidation (Named [] w) b1 in add_all vs' ws' b2
  | _, _ => Ok bk
  end.
Lemma valids_read vs : forall cv, Forall valid_ok vs -> valids_calls vs = Ok cv -> forall cs, exists ws, Forall2 left_over vs ws /\ forall bk bk' r, add_all vs ws bk = Ok bk' ->
  vreads (coalesce (asked esc_split false None cs)) valid0 bk' r -> vreads (coalesce (asked esc_split false None (cv ++ cs))) valid0 bk r.
Proof.
  induction vs as [|v vs IH]; intros cv V H cs; cbn [valids_calls] in H.
  - injection H as <-. exists []. split; [constructor|]. intros bk bk' r A X. cbn [add_all] in A. injection A as <-. exact X.
  - inversion V; subst. destruct (cellref_text_ok (vb_base (nm_body v))) as (base & F & _); [apply H2|].
    destruct (valid_calls v) as [c1| |] eqn:E1; try discriminate. destruct (valids_calls vs) as [c2| |] eqn:E2; try discriminate. cbn [bind] in H. injection H as <-.
    destruct (IH c2 H3 eq_refl cs) as (ws & L & R). destruct (valid_read v base (asked esc_split false None (c2 ++ cs)) H2 F) as (w & Lw & Rw).
    exists (w :: ws). split; [constructor; assumption|]. intros bk bk' r A X. cbn [add_all] in A.
    destruct (add_style FValidation (Named (nm_name v) (no_messages (nm_body v))) bk) as [[b1 n1]| |] eqn:A1; try discriminate. cbn [bind] in A.
    destruct (add_style FValidation (Named [] w) b1) as [[b2 n2]| |] eqn:A2; try discriminate. cbn [bind] in A.
    rewrite <- app_assoc, (asked_valid v c1 base _ F E1). eapply Rw; eauto.
Qed.

(** ** The calls *)

Lemma message_sensible {T} tag ty (m : message T) cs : name_ok tag -> text_ok tag m -> Forall good_attr (ty (m_type m)) -> (forall q, sensible q cs) -> forall q, sensible q (message_calls tag ty m ++ cs).
Proof.
  intros N T0 G C q. unfold message_calls. cbn [app]. apply sn_elem_if; [exact N|]. apply sn_attr; [name_lit|apply plain_value, show_bool_plain|]. rewrite <- !app_assoc.
  apply sensible_attr_calls; [exact G|].
  assert (X : sensible true ((match m_text m with Some x => write_node x | None => [] end) ++ CEndIf (is_some (m_text m)) tag :: cs)).
  { unfold text_ok in T0. destruct (m_text m) as [x|]; cbn [app is_some].
    - replace (write_node x) with (flat_map write_node [x]) by (cbn [flat_map]; now rewrite app_nil_r). apply sensible_nodes; [constructor; [apply T0|constructor]|]. intros q'. apply sn_end_if; [exact N|apply C].
    - apply sn_end_if; [exact N|apply C]. }
  destruct (m_title m); cbn [app]; [apply sn_attr_esc; [name_lit|]|]; exact X.
Qed.
Lemma message_nested {T} tag ty (m : message T) st cs : Forall is_attr (ty (m_type m)) -> calls_nested st cs -> calls_nested st (message_calls tag ty m ++ cs).
Proof.
  intros A C. unfold message_calls. rewrite <- !app_assoc. cbn [app].
  assert (X : forall s cs', calls_nested s cs' -> calls_nested s (CAttr (lit "table:display") (show_bool (m_display m)) :: ty (m_type m) ++ (match m_title m with Some t => [CAttrEsc (lit "table:title") t] | None => [] end) ++ cs')).
  { intros s cs' H. cbn [calls_nested]. apply nested_attr_calls; [exact A|]. apply nested_attr_calls; [destruct (m_title m); repeat constructor; discriminate|exact H]. }
  destruct (m_text m) as [x|]; cbn [is_some calls_nested]; apply X; [|exact C]. apply nested_node. cbn [app calls_nested]. split; [reflexivity|exact C].
Qed.
Lemma valids_good vs : forall cv, Forall valid_ok vs -> valids_calls vs = Ok cv -> (forall cs, (forall q, sensible q cs) -> forall q, sensible q (cv ++ cs)) /\ (forall st cs, calls_nested st cs -> calls_nested st (cv ++ cs)).
Proof.
  induction vs as [|v vs IH]; intros cv V H; cbn [valids_calls] in H; [injection H as <-; split; auto|].
  inversion V; subst. destruct (cellref_text_ok (vb_base (nm_body v))) as (base & F & _); [apply H2|].
  unfold valid_calls in H. rewrite F in H. cbn [bind] in H. destruct (valids_calls vs) as [c2| |] eqn:E2; try discriminate. cbn [bind] in H. injection H as <-.
  destruct (IH c2 H3 eq_refl) as (S2 & N2). destruct H2 as (_ & _ & _ & Te & Th). split.
  - intros cs C q. cbn [app]. rewrite <- !app_assoc. cbn [app]. apply sn_elem; [name_lit|]. apply sn_attr_esc; [name_lit|]. apply sn_attr_esc; [name_lit|].
    apply sn_attr; [name_lit|apply plain_value, show_bool_plain|]. apply sn_attr; [name_lit|apply plain_value; destruct (vb_list (nm_body v)); plain_lit|]. apply sn_attr_esc; [name_lit|].
    assert (X : forall q, sensible q (CEnd t_valid :: c2 ++ cs)) by (intros q'; apply sn_end; [name_lit|apply S2, C]).
    assert (Y : forall q, sensible q ((match vb_help (nm_body v) with Some m => message_calls t_help help_type m | None => [] end) ++ CEnd t_valid :: c2 ++ cs)).
    { destruct (vb_help (nm_body v)) as [m|]; [|exact X]. apply message_sensible; [name_lit|now apply Th|constructor|exact X]. }
    destruct (vb_err (nm_body v)) as [m|]; [|apply Y]. apply message_sensible; [name_lit|now apply Te| |exact Y].
    constructor; [apply good_raw; [name_lit|destruct (m_type m); plain_lit]|constructor].
  - intros st cs C. cbn [app]. rewrite <- !app_assoc. cbn [app calls_nested].
    assert (Y : calls_nested (t_valid :: st) ((match vb_help (nm_body v) with Some m => message_calls t_help help_type m | None => [] end) ++ CEnd t_valid :: c2 ++ cs)).
    { destruct (vb_help (nm_body v)) as [m|]; [apply message_nested; [constructor|]|]; cbn [app calls_nested]; (split; [reflexivity|apply N2, C]). }
    destruct (vb_err (nm_body v)) as [m|]; [|exact Y]. apply message_nested; [repeat constructor; discriminate|exact Y].
Qed.

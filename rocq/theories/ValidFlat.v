(** Content validations in a file with line breaks. *)
From Verif Require Import Base Lib NumModel EnumModel RefsModel RefsSpec RefsProofs XmlModel XmlSpec XmlProofs CellModel CellIoModel CellIoProofs TreeProofs.
From Verif Require Import BookModel BookProps ScriptModel ScriptProofs ValidModel ValidProofs FlowProofs WorkModel WorkFlow.

Lemma to_end_lines lb super x : lacks super x -> forall d tail, to_end super d tail -> to_end super d (node_events lb x ++ tail).
Proof.
  induction x as [t|n a c IH] using xnode_ind'; intros L d tail H.
  - cbn [node_events]. induction t as [|ch t IHt]; [exact H|]. cbn. destruct (entity_of ch); exact (IHt I).
  - apply lacks_tag in L as [Ln Lc]. destruct c as [|y c]; [exact H|]. destruct Ln as [Ln|Ln]; [discriminate|]. cbn [node_events app to_end]. rewrite <- app_assoc. cbn [app].
    assert (Hc : to_end super (S d) (EEnd n :: EText (nl lb) :: tail)) by (cbn [to_end]; apply str_eqb_neq in Ln; rewrite Ln; exact H).
    clear -IH Lc Hc. revert Hc. generalize (EEnd n :: EText (nl lb) :: tail) (S d). intros tl d' Hc. induction Lc as [|z l Hz _ IHl]; [exact Hc|]. inversion IH; subst. cbn [flat_map]. rewrite <- app_assoc. auto.
Qed.
Lemma text_lines lb super a x : is_tag x -> lacks super x -> exists y, norm y = norm (broken lb (XTag super a [x]))
  /\ forall evs, read_text_or_tag super a false (coalesce (node_events lb x ++ EEnd super :: EText (nl lb) :: evs)) = Ok (TcXml y, coalesce (EText (nl lb) :: evs)).
Proof.
  intros T L. destruct (tree_read lb super a x [] ltac:(constructor; [exact L|constructor])) as (y & E & R). exists y. split; [exact E|]. intros evs. specialize (R evs).
  cbn [flat_map] in R. rewrite app_nil_r in R. unfold read_xml in R.
  assert (TE : to_end super 0 (coalesce (node_events lb x ++ EEnd super :: EText (nl lb) :: evs))).
  { unfold coalesce. apply to_end_coalesce. apply to_end_lines; [exact L|]. cbn [to_end]. now rewrite str_eqb_refl. }
  unfold read_text_or_tag. destruct x as [t|n b [|z c]]; [contradiction| |]; cbn [node_events app] in *;
    unfold coalesce in R, TE |- *; rewrite coalesce_cons in R, TE |- * by exact I; cbn [emit_text app read_xml_loop top_add bind to_end para_loop para_step p_parent] in *;
    (apply para_xml; [exact TE|exact R]).
Qed.

(** ** Messages *)

Definition heard_in (lb : bool) {T} (tag : str) (a : message T -> list (str * str)) (m m' : message T) : Prop :=
  m_display m' = m_display m /\ m_type m' = m_type m /\ m_title m' = m_title m /\
  match m_text m with
  | None => m_text m' = None
  | Some x => exists y, m_text m' = Some y /\ norm y = norm (broken lb (XTag tag (a m) [x]))
  end.
Definition message_lines (lb : bool) {T} (tag : str) (a : message T -> list (str * str)) (m : message T) : list event :=
  match m_text m with
  | None => [EEmpty tag (a m); EText (nl lb)]
  | Some x => EStart tag (a m) :: node_events lb x ++ [EEnd tag; EText (nl lb)]
  end.
Lemma asked_lines lb {T} tag ty a (m : message T) cs : attrs_of ([CAttr (lit "table:display") (show_bool (m_display m))] ++ ty (m_type m)
    ++ match m_title m with Some t => [CAttrEsc (lit "table:title") t] | None => [] end) = a m -> Forall is_attr (ty (m_type m)) ->
  asked esc_split lb None (message_calls tag ty m ++ cs) = message_lines lb tag a m ++ asked esc_split lb None cs.
Proof.
  intros E F.
  assert (A : Forall is_attr (CAttr (lit "table:display") (show_bool (m_display m)) :: ty (m_type m) ++ match m_title m with Some t => [CAttrEsc (lit "table:title") t] | None => [] end)).
  { constructor; [discriminate|]. apply Forall_app. split; [exact F|]. destruct (m_title m); repeat constructor; discriminate. }
  cbn [app] in E. set (l := CAttr (lit "table:display") (show_bool (m_display m)) :: ty (m_type m) ++ match m_title m with Some t => [CAttrEsc (lit "table:title") t] | None => [] end) in *.
  replace (message_calls tag ty m ++ cs) with (CElemIf (is_some (m_text m)) tag :: l ++ match m_text m with Some x => write_node x | None => [] end ++ CEndIf (is_some (m_text m)) tag :: cs).
  2: { unfold message_calls, l. cbn [app]. rewrite <- !app_assoc. reflexivity. }
  cbn [asked finish app]. rewrite (asked_attr_calls _ _ _ A). rewrite E. unfold message_lines. cbn [app]. destruct (m_text m) as [x|]; cbn [is_some negb].
  - rewrite asked_node. cbn [finish app asked]. rewrite <- app_assoc. reflexivity.
  - reflexivity.
Qed.
(** Texts between the elements do not count. *)
Lemma vreads_text acc : forall evs v bk r, vreads (coalesce evs) v bk r -> vreads (coalesce_from acc evs) v bk r.
Proof.
  assert (D : forall c evs v bk r, vreads evs v bk r -> vreads (EText c :: evs) v bk r).
  { intros c evs v bk r H n L. destruct n as [|n]; [inversion L|]. cbn [length] in L. cbn [read_valids]. apply H. lia. }
  assert (U : forall c evs v bk r, vreads (EText c :: evs) v bk r -> vreads evs v bk r).
  { intros c evs v bk r H n L. specialize (H (S n)). cbn [length] in H. specialize (H ltac:(lia)). exact H. }
  assert (Z : forall evs acc v bk r, vreads (coalesce evs) v bk r <-> vreads (coalesce_from acc evs) v bk r).
  { clear acc. induction evs as [|e evs IH]; intros acc v bk r.
    - destruct acc; [reflexivity|]. split; [apply D|apply U].
    - destruct e; unfold coalesce; try (rewrite !coalesce_cons by exact I; destruct acc; [reflexivity|]; split; [apply D|apply U]).
      cbn [coalesce_from]. rewrite <- !IH. reflexivity. }
  intros evs v bk r. apply Z.
Qed.
Lemma message_reads lb {T} (ty : option (str -> res T)) m0 tag a m evs : text_ok tag m -> message_attrs ty m0 (a m) = Ok (Msg (m_display m) (m_type m) (m_title m) None) ->
  exists m', heard_in lb tag a m m' /\ match m_text m with
    | None => forall r, read_message ty m0 tag (a m) true r = Ok (m', r)
    | Some x => read_message ty m0 tag (a m) false (coalesce (node_events lb x ++ EEnd tag :: EText (nl lb) :: evs)) = Ok (m', coalesce (EText (nl lb) :: evs))
    end.
Proof.
  intros T0 A. unfold text_ok, heard_in in *. destruct (m_text m) as [x|] eqn:E.
  - destruct T0 as (T1 & T2 & _). destruct (text_lines lb tag (a m) x T1 T2) as (y & N & R). exists (Msg (m_display m) (m_type m) (m_title m) (Some y)).
    split; [cbn; repeat split; eauto|]. unfold read_message. rewrite A. cbn [bind]. rewrite R. reflexivity.
  - eexists (Msg (m_display m) (m_type m) (m_title m) None). split; [cbn; auto|]. intros r. unfold read_message. rewrite A. reflexivity.
Qed.
Lemma message_rest {T} (ty : option (str -> res T)) m0 tag a b evs m r : read_message ty m0 tag a b evs = Ok (m, r) -> (length r <= length evs)%nat.
Proof.
  unfold read_message. intros H. apply bind_ok in H as (x & _ & H). apply bind_ok in H as ((t & r') & E & H).
  assert (r' = r) by (destruct t; try discriminate; now injection H). subst r'. unfold read_text_or_tag in E. destruct b; [now injection E as <- <-|]. eapply para_length, E.
Qed.
Lemma err_lines lb m evs : text_ok t_err m -> exists m', heard_in lb t_err err_attrs m m' /\ forall v bk r, vreads (coalesce evs) (with_err v m') bk r ->
  vreads (coalesce (message_lines lb t_err err_attrs m ++ evs)) v bk r.
Proof.
  intros H. destruct (message_reads lb (Some parse_msgtype) error0 t_err err_attrs m evs H (err_attrs_read m)) as (m' & Hm & R). exists m'. split; [exact Hm|].
  intros v bk r V n L. unfold message_lines in *. destruct (m_text m) as [x|]; cbn [app] in *; unfold coalesce in L |- *; rewrite coalesce_cons in * by exact I; cbn [emit_text app length] in *.
  - rewrite <- app_assoc in *. cbn [app] in *. change (coalesce_from [] ?l) with (coalesce l) in *. destruct n as [|n]; [inversion L|].
    cbn [read_valids]. replace (str_eqb t_err t_valid) with false by reflexivity. replace (str_eqb t_err t_err) with true by (symmetry; apply str_eqb_refl). rewrite R. cbn [bind].
    apply (vreads_text (nl lb)); [exact V|]. apply message_rest in R. unfold coalesce in R at 1. cbn [coalesce_from app] in R. lia.
  - change (coalesce_from [] ?l) with (coalesce l) in *. destruct n as [|n]; [inversion L|]. cbn [read_valids].
    replace (str_eqb t_err t_err) with true by (symmetry; apply str_eqb_refl). rewrite R. cbn [bind]. apply (vreads_text (nl lb)); [exact V|]. unfold coalesce in L. cbn [coalesce_from app] in L. lia.
Qed.
Lemma help_lines lb m evs : text_ok t_help m -> exists m', heard_in lb t_help help_attrs m m' /\ forall v bk r, vreads (coalesce evs) (with_help v m') bk r ->
  vreads (coalesce (message_lines lb t_help help_attrs m ++ evs)) v bk r.
Proof.
  intros H. destruct (message_reads lb None help0 t_help help_attrs m evs H (help_attrs_read m)) as (m' & Hm & R). exists m'. split; [exact Hm|].
  intros v bk r V n L. unfold message_lines in *. destruct (m_text m) as [x|]; cbn [app] in *; unfold coalesce in L |- *; rewrite coalesce_cons in * by exact I; cbn [emit_text app length] in *.
  - rewrite <- app_assoc in *. cbn [app] in *. change (coalesce_from [] ?l) with (coalesce l) in *. destruct n as [|n]; [inversion L|].
    cbn [read_valids]. replace (str_eqb t_help t_valid) with false by reflexivity. replace (str_eqb t_help t_err) with false by reflexivity.
    replace (str_eqb t_help t_help) with true by (symmetry; apply str_eqb_refl). rewrite R. cbn [bind].
    apply (vreads_text (nl lb)); [exact V|]. apply message_rest in R. unfold coalesce in R at 1. cbn [coalesce_from app] in R. lia.
  - change (coalesce_from [] ?l) with (coalesce l) in *. destruct n as [|n]; [inversion L|]. cbn [read_valids]. replace (str_eqb t_help t_err) with false by reflexivity.
    replace (str_eqb t_help t_help) with true by (symmetry; apply str_eqb_refl). rewrite R. cbn [bind]. apply (vreads_text (nl lb)); [exact V|]. unfold coalesce in L. cbn [coalesce_from app] in L. lia.
Qed.

(** ** Whole validations *)

(** What is left of the messages, see [left_over]. *)
Definition left_in (lb : bool) (v : validation) (w : vbody) : Prop :=
  exists e h, w = VBody [] ref0 true Unsorted (Some e) h
  /\ match vb_err (nm_body v) with Some m => heard_in lb t_err err_attrs m e | None => e = error0 end
  /\ match vb_help (nm_body v) with Some m => exists m', h = Some m' /\ heard_in lb t_help help_attrs m m' | None => h = None end.
Definition valid_lines (lb : bool) (v : validation) (base : str) : list event :=
  EStart t_valid (valid_attr_list v base)
  :: (match vb_err (nm_body v) with Some m => message_lines lb t_err err_attrs m | None => [] end)
  ++ (match vb_help (nm_body v) with Some m => message_lines lb t_help help_attrs m | None => [] end) ++ [EEnd t_valid; EText (nl lb)].
Lemma asked_valid_lines lb v cv base cs : fmt_cell_ref (vb_base (nm_body v)) = Ok base -> valid_calls v = Ok cv ->
  asked esc_split lb None (cv ++ cs) = valid_lines lb v base ++ asked esc_split lb None cs.
Proof.
  intros F. unfold valid_calls. rewrite F. cbn [bind]. intros H. injection H as <-. cbn [app asked finish with_attr]. rewrite <- !app_assoc. cbn [app].
  rewrite asked_flush by (destruct (vb_err (nm_body v)), (vb_help (nm_body v)); exact I). cbn [finish app]. unfold valid_lines. cbn [app]. f_equal.
  rewrite <- !app_assoc.
  assert (H2 : asked esc_split lb None ((match vb_help (nm_body v) with Some m => message_calls t_help help_type m | None => [] end) ++ CEnd t_valid :: cs)
    = (match vb_help (nm_body v) with Some m => message_lines lb t_help help_attrs m | None => [] end) ++ [EEnd t_valid; EText (nl lb)] ++ asked esc_split lb None cs).
  { destruct (vb_help (nm_body v)) as [m|]; [|reflexivity]. rewrite (asked_lines lb t_help help_type help_attrs); [reflexivity| |constructor]. unfold help_attrs. destruct (m_title m); reflexivity. }
  destruct (vb_err (nm_body v)) as [m|]; cbn [app]; rewrite ?(asked_lines lb t_err err_type err_attrs); rewrite ?H2; [reflexivity| |repeat constructor; discriminate|reflexivity].
  unfold err_attrs. destruct (m_title m); reflexivity.
Qed.
Lemma valid_lines_read lb v base evs : valid_ok v -> fmt_cell_ref (vb_base (nm_body v)) = Ok base -> exists w, left_in lb v w /\ forall bk b1 n1 b2 n2 r,
  add_style FValidation (Named (nm_name v) (no_messages (nm_body v))) bk = Ok (b1, n1) -> add_style FValidation (Named [] w) b1 = Ok (b2, n2) ->
  vreads (coalesce evs) valid0 b2 r -> vreads (coalesce (valid_lines lb v base ++ evs)) valid0 bk r.
Proof.
  intros V F. pose proof V as (_ & _ & _ & Te & Th).
  assert (H : exists h, match vb_help (nm_body v) with Some m => exists m', h = Some m' /\ heard_in lb t_help help_attrs m m' | None => h = None end
    /\ forall c b e l er bk r, vreads (coalesce (EEnd t_valid :: EText (nl lb) :: evs)) (Named [] (VBody c b e l er h)) bk r ->
      vreads (coalesce ((match vb_help (nm_body v) with Some m => message_lines lb t_help help_attrs m | None => [] end) ++ EEnd t_valid :: EText (nl lb) :: evs)) (Named [] (VBody c b e l er None)) bk r).
  { destruct (vb_help (nm_body v)) as [m|]; [|exists None; split; [reflexivity|auto]].
    destruct (help_lines lb m (EEnd t_valid :: EText (nl lb) :: evs) (Th m eq_refl)) as (m' & Hm & R). exists (Some m'). split; [eauto|]. intros c b e l er bk r X. apply R. exact X. }
  destruct H as (h & Hh & Rh). set (tl1 := (match vb_help (nm_body v) with Some m => message_lines lb t_help help_attrs m | None => [] end) ++ EEnd t_valid :: EText (nl lb) :: evs) in *.
  assert (H : exists e, match vb_err (nm_body v) with Some m => heard_in lb t_err err_attrs m e | None => e = error0 end
    /\ forall bk r, vreads (coalesce tl1) (Named [] (VBody [] ref0 true Unsorted (Some e) None)) bk r ->
      vreads (coalesce ((match vb_err (nm_body v) with Some m => message_lines lb t_err err_attrs m | None => [] end) ++ tl1)) valid0 bk r).
  { destruct (vb_err (nm_body v)) as [m|]; [|exists error0; split; [reflexivity|auto]].
    destruct (err_lines lb m tl1 (Te m eq_refl)) as (m' & Hm & R). exists m'. split; [exact Hm|]. intros bk r X. apply R. exact X. }
  destruct H as (e & He & Re). exists (VBody [] ref0 true Unsorted (Some e) h). split; [exists e, h; auto|].
  intros bk b1 n1 b2 n2 r A1 A2 X. unfold valid_lines. cbn [app]. rewrite <- !app_assoc. cbn [app]. fold tl1.
  apply (vreads_step _ _ _ valid0 _ b1); [exact I| |].
  { intros n. cbn [read_valids]. replace (str_eqb t_valid t_valid) with true by (symmetry; apply str_eqb_refl). rewrite valid_attrs_read by assumption. cbn [bind]. rewrite A1. reflexivity. }
  apply Re, Rh. apply (vreads_step _ _ _ valid0 _ b2); [exact I| |].
  { intros n. cbn [read_valids]. replace (str_eqb t_valid t_valid) with true by (symmetry; apply str_eqb_refl). rewrite A2. reflexivity. }
  apply (vreads_text (nl lb)). exact X.
Qed.
Lemma valids_lines_read lb vs : forall cv, Forall valid_ok vs -> valids_calls vs = Ok cv -> forall cs, exists ws, Forall2 (left_in lb) vs ws /\ forall bk bk' r, add_all vs ws bk = Ok bk' ->
  vreads (coalesce (asked esc_split lb None cs)) valid0 bk' r -> vreads (coalesce (asked esc_split lb None (cv ++ cs))) valid0 bk r.
Proof.
  induction vs as [|v vs IH]; intros cv V H cs; cbn [valids_calls] in H.
  - injection H as <-. exists []. split; [constructor|]. intros bk bk' r A X. cbn [add_all] in A. injection A as <-. exact X.
  - inversion V; subst. destruct (cellref_text_ok (vb_base (nm_body v))) as (base & F & _); [apply H2|].
    destruct (valid_calls v) as [c1| |] eqn:E1; try discriminate. destruct (valids_calls vs) as [c2| |] eqn:E2; try discriminate. cbn [bind] in H. injection H as <-.
    destruct (IH c2 H3 eq_refl cs) as (ws & L & R). destruct (valid_lines_read lb v base (asked esc_split lb None (c2 ++ cs)) H2 F) as (w & Lw & Rw).
    exists (w :: ws). split; [constructor; assumption|]. intros bk bk' r A X. cbn [add_all] in A.
    destruct (add_style FValidation (Named (nm_name v) (no_messages (nm_body v))) bk) as [[b1 n1]| |] eqn:A1; try discriminate. cbn [bind] in A.
    destruct (add_style FValidation (Named [] w) b1) as [[b2 n2]| |] eqn:A2; try discriminate. cbn [bind] in A.
    rewrite <- app_assoc, (asked_valid_lines lb v c1 base _ F E1). eapply Rw; eauto.
Qed.
(** Every validation comes back as two. *)
Lemma valids_there lb vs cs : Forall valid_ok vs -> vs <> [] -> write_validations vs = Ok cs -> exists ws, Forall2 (left_in lb) vs ws
  /\ forall bk bk', add_all vs ws bk = Ok bk' -> valids_back lb vs bk bk'.
Proof.
  intros V NE W. pose proof W as W0. unfold write_validations in W. destruct vs as [|v vs]; [congruence|]. apply bind_ok in W as (cv & E & W). injection W as <-.
  destruct (valids_lines_read lb _ cv V E [CEnd t_valids; CEnd t_body]) as (ws & L & R). destruct (valids_good _ cv V E) as (S & N). exists ws. split; [exact L|]. intros bk bk' A.
  assert (Fl : forall l, flushes (cv ++ CEnd t_valids :: l)).
  { intros l. cbn [valids_calls] in E. unfold valid_calls in E. apply bind_ok in E as (c1 & E1 & E). apply bind_ok in E1 as (x & _ & E1). injection E1 as <-.
    apply bind_ok in E as (c2 & E2 & E). injection E as <-. exact I. }
  set (r := coalesce (asked esc_split lb None (cv ++ [CEnd t_valids; CEnd t_body]))) in *.
  exists (CElem t_valids :: cv ++ [CEnd t_valids]), (EStart t_valids [] :: r). split; [exact W0|]. split.
  - rewrite read_events_render.
    + unfold events_of. cbn [app asked finish]. rewrite <- app_assoc. cbn [app]. rewrite asked_flush by apply Fl. cbn [finish app]. unfold coalesce. rewrite !coalesce_cons by exact I. reflexivity.
    + apply sn_elem; [name_lit|]. cbn [app]. apply sn_elem; [name_lit|]. rewrite <- app_assoc. apply S. intros q. cbn [app]. apply sn_end; [name_lit|]. apply sn_end; [name_lit|]. constructor.
    + cbn [app calls_nested]. rewrite <- app_assoc. apply N. cbn. auto.
  - exists r. split; [reflexivity|]. apply (R bk bk' _ A); [|lia]. intros n Ln. cbn [asked finish app] in *. unfold coalesce in *. rewrite coalesce_cons in * by exact I. cbn [emit_text app length] in *.
    destruct n as [|n]; [inversion Ln|]. cbn [read_valids]. replace (str_eqb t_valids t_valid) with false by reflexivity. rewrite str_eqb_refl. reflexivity.
Qed.

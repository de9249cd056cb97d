(** Reading the grouped calls of the table writer. *)
From Verif Require Import Base Lib OMap OMapProofs XmlModel XmlSpec XmlProofs RefsModel CellModel HeaderModel SplitModel NumModel EnumModel
  CellIoModel CellIoSpec CellIoProofs DrawProofs TableModel.

(** One group of calls. For a cell the events of its calls are read. *)
Definition cell_out (lb ign : bool) (d : option str) (ds : vtype -> option str) (c : cell) (h : bool) (k : N) : res (N * option cell) :=
  let* (x, _) := read_table_cell ign d (events_of lb (write_cell ds c h k)) in Ok x.
Definition in_table (r : res (tstate * tmode + tstate)) : res tstate :=
  match r with Ok (inl (s, MTable)) => Ok s | Ok _ => Err | Err => Err | Panic => Panic end.
Definition item_step (lb ign : bool) (ds : vtype -> option str) (s : tstate) (i : titem) : res tstate :=
  match i with
  | TOpen n a => in_table (table_event ign s (EStart n (attrs_of a)))
  | TClose n => in_table (table_event ign s (EEnd n))
  | TEmpty n a => in_table (table_event ign s (EEmpty n (attrs_of a)))
  | TCell c h k => let* d := col_default s in let* x := cell_out lb ign d ds c h k in store_cell s x
  | TNode _ => Err
  end.
Fixpoint run_items (lb ign : bool) (ds : vtype -> option str) (s : tstate) (l : list titem) : res tstate :=
  match l with [] => Ok s | i :: r => let* s' := item_step lb ign ds s i in run_items lb ign ds s' r end.
Lemma run_app lb ign ds l l' s : run_items lb ign ds s (l ++ l') = let* s' := run_items lb ign ds s l in run_items lb ign ds s' l'.
Proof. revert s. induction l as [|i l IH]; intros s; [reflexivity|]. cbn. destruct (item_step lb ign ds s i); cbn; auto. Qed.

(** Cells that can be written and read. *)
Definition cell_fine (lb : bool) (c : cell) : Prop :=
  extra_ok c /\ payload_ok (c_value c) /\ exists t, body_reads lb (value_body (c_value c)) t
  /\ (c_value c <> VEmpty -> flushes (value_body (c_value c) ++ [CEnd []])).
Definition item_fine (lb : bool) (i : titem) : Prop :=
  match i with
  | TOpen n a => Forall is_attr a
  | TEmpty n a => Forall is_attr a /\ existsb (str_eqb n) (prelude ++ epilogue) = false
  | TClose _ => True
  | TCell c h k => cell_fine lb c /\ 1 <= k <= u32_max
  | TNode _ => False
  end.

(** Text between elements is ignored. *)
Lemma skip_text ign s evs : forall acc, table_loop ign s MTable (coalesce_from acc evs) = table_loop ign s MTable (coalesce evs).
Proof.
  unfold coalesce. induction evs as [|e evs IH]; intros acc; [destruct acc; reflexivity|].
  assert (H : forall e, not_text e -> table_loop ign s MTable (coalesce_from acc (e :: evs)) = table_loop ign s MTable (coalesce_from [] (e :: evs))).
  { intros e' N. rewrite !coalesce_cons by assumption. destruct acc; reflexivity. }
  destruct e; try (apply H; exact I). cbn [coalesce_from]. rewrite IH. symmetry. apply IH.
Qed.
Lemma skip_first ign s t evs : table_loop ign s MTable (coalesce (EText t :: evs)) = table_loop ign s MTable (coalesce evs).
Proof. unfold coalesce. cbn [coalesce_from]. apply skip_text. Qed.

Lemma cell_table ign s tag evs : forall x m x' r, cell_loop tag x m evs = Ok (x', r) ->
  table_loop ign s (MCell tag x m) evs =
  let* d := col_default s in let* y := cell_finish ign d x' in let* s' := store_cell s y in table_loop ign s' MTable r.
Proof.
  induction evs as [|e evs IH]; intros x m x' r H; [discriminate|]. cbn [cell_loop table_loop table_step] in *.
  destruct (cell_step tag x m e) as [[[y m']|y]| |]; cbn [bind] in *; try discriminate.
  - now apply IH.
  - inversion H; subst. destruct (col_default s); cbn [bind]; [|reflexivity|reflexivity].
    destruct (cell_finish ign a x'); cbn [bind]; [|reflexivity|reflexivity]. destruct (store_cell s a0); reflexivity.
Qed.

Lemma t_cell_tag h : existsb (str_eqb (cell_tag h)) (prelude ++ epilogue) = false
  /\ str_eqb (cell_tag h) t_cgroup = false /\ str_eqb (cell_tag h) t_hcols = false /\ str_eqb (cell_tag h) t_rgroup = false
  /\ str_eqb (cell_tag h) t_hrows = false /\ str_eqb (cell_tag h) t_row = false /\ str_eqb (cell_tag h) t_column = false
  /\ str_eqb (cell_tag h) t_cell || str_eqb (cell_tag h) t_covered = true.
Proof. destruct h; vm_compute; repeat split. Qed.

Lemma read_item lb ign ds s i s' cs : item_fine lb i -> flushes cs -> item_step lb ign ds s i = Ok s' ->
  table_loop ign s MTable (coalesce (asked esc_split lb None (item_calls ds i ++ cs)))
  = table_loop ign s' MTable (coalesce (asked esc_split lb None cs)).
Proof.
  intros Hf Hc Hs. destruct i as [n a|n|n a|c h k|x]; cbn [item_fine item_step item_calls] in *.
  - cbn [app asked finish]. rewrite asked_attr_calls by assumption. rewrite asked_flush by assumption. cbn [finish app].
    unfold coalesce at 1. rewrite coalesce_cons by exact I. cbn [emit_text app table_loop table_step].
    destruct (table_event ign s (EStart n (attrs_of a))) as [[[t m]|t]| |]; try discriminate. destruct m; try discriminate.
    inversion Hs; subst. cbn [bind]. reflexivity.
  - cbn [app asked finish]. unfold coalesce at 1. rewrite coalesce_cons by exact I. cbn [emit_text app table_loop table_step].
    destruct (table_event ign s (EEnd n)) as [[[t m]|t]| |]; try discriminate. destruct m; try discriminate.
    inversion Hs; subst. cbn [bind]. apply skip_first.
  - destruct Hf as (Hf & _). cbn [app asked finish]. rewrite asked_attr_calls by assumption. rewrite asked_flush by assumption. cbn [finish app].
    unfold coalesce at 1. rewrite coalesce_cons by exact I. cbn [emit_text app table_loop table_step].
    destruct (table_event ign s (EEmpty n (attrs_of a))) as [[[t m]|t]| |]; try discriminate. destruct m; try discriminate.
    inversion Hs; subst. cbn [bind]. apply skip_first.
  - destruct Hf as ((Hx & Hp & t & Hb & Hfl) & Hk). destruct (col_default s) as [d| |] eqn:Ed; try discriminate. cbn [bind] in Hs.
    destruct (read_written_kept lb ign d ds c h k t Hx Hk Hp Hb Hfl) as (_ & o & _ & Hr & _).
    unfold cell_out, events_of in Hs. assert (R0 := Hr []). rewrite app_nil_r in R0. rewrite R0 in Hs. cbn [bind] in Hs. specialize (Hr cs).
    destruct (t_cell_tag h) as (T1 & T2 & T3 & T4 & T5 & T6 & T7 & T8).
    assert (A := asked_attr_calls esc_split lb (cell_attrs ds c k)).
    (* the events begin with the tag of the cell *)
    assert (Hd : exists a ev, coalesce (asked esc_split lb None (write_cell ds c h k ++ cs)) = EEmpty (cell_tag h) a :: ev
       \/ coalesce (asked esc_split lb None (write_cell ds c h k ++ cs)) = EStart (cell_tag h) a :: ev).
    { remember (coalesce (asked esc_split lb None (write_cell ds c h k ++ cs))) as E. clear - HeqE Hfl Hx.
      unfold write_cell in HeqE. rewrite <- app_comm_cons, <- !app_assoc in HeqE. cbn [asked finish app] in HeqE.
      rewrite asked_attr_calls in HeqE by apply cell_attrs_attr. rewrite asked_flush in HeqE.
      - unfold coalesce in HeqE. destruct (cell_has_subs c); cbn [negb finish app] in HeqE; rewrite coalesce_cons in HeqE by exact I; cbn [emit_text app] in HeqE; eauto.
      - unfold cell_body. destruct (c_extra c) as [x|].
        + rewrite <- app_assoc. assert (X : flushes (extra_body x ++ [CEndIf (cell_has_subs c) (cell_tag h)] ++ cs)) by (apply extra_flushes; exact I).
          destruct (c_value c); try exact X; try (exact I); cbn [value_body] in *; specialize (Hfl ltac:(discriminate));
          match goal with |- flushes (?l ++ _) => destruct l; [exact X|exact Hfl] end.
        + rewrite app_nil_r. destruct (c_value c); try (exact I); cbn [value_body] in *; specialize (Hfl ltac:(discriminate));
          match goal with |- flushes (?l ++ _) => destruct l; [exact I|exact Hfl] end. }
    destruct Hd as (a & ev & [Hd|Hd]); rewrite Hd in *; cbn [read_table_cell] in Hr; cbn [table_loop table_step table_event].
    + rewrite T1, T7, T8, Ed. cbn [bind]. destruct (cell_read_attrs cellacc0 a) as [x| |]; try discriminate. cbn [bind] in *.
      destruct (cell_finish ign d x) as [y| |]; try discriminate. cbn [bind] in *. inversion Hr; subst. rewrite Hs. cbn [bind]. apply skip_first.
    + rewrite T1, T2, T3, T4, T5, T6, T8, Ed. cbn [bind]. destruct (cell_read_attrs cellacc0 a) as [x| |]; try discriminate. cbn [bind] in *.
      destruct (cell_loop (cell_tag h) x KCell ev) as [[x' r']| |] eqn:L; try discriminate. cbn [bind] in *.
      rewrite (cell_table _ _ _ _ _ _ _ _ L), Ed. cbn [bind].
      destruct (cell_finish ign d x') as [y| |]; try discriminate. cbn [bind] in *. inversion Hr; subst. rewrite Hs. cbn [bind]. apply skip_first.
  - contradiction.
Qed.

Lemma item_flushes lb ds i cs : item_fine lb i -> flushes (item_calls ds i ++ cs).
Proof. destruct i; cbn; try (intros; exact I). contradiction. Qed.

Lemma read_items lb ign ds l : forall s s' cs, Forall (item_fine lb) l -> flushes cs -> run_items lb ign ds s l = Ok s' ->
  table_loop ign s MTable (coalesce (asked esc_split lb None (flat_map (item_calls ds) l ++ cs)))
  = table_loop ign s' MTable (coalesce (asked esc_split lb None cs)).
Proof.
  induction l as [|i l IH]; intros s s' cs Hf Hc Hr.
  - inversion Hr; subst. reflexivity.
  - cbn [run_items flat_map] in *. inversion Hf; subst. destruct (item_step lb ign ds s i) as [s1| |] eqn:E; try discriminate. cbn [bind] in Hr.
    rewrite <- app_assoc, (read_item lb ign ds s i s1); auto.
    destruct l as [|j l]; [exact Hc|]. cbn [flat_map]. rewrite <- app_assoc. inversion H2; subst. eapply item_flushes; eassumption.
Qed.

(** The end of the table. *)
Lemma read_end ign lb s cs : table_loop ign s MTable (coalesce (asked esc_split lb None (CEnd t_table :: cs)))
  = Ok (s, coalesce (EText (nl lb) :: asked esc_split lb None cs)).
Proof. cbn [asked finish app]. unfold coalesce at 1. rewrite coalesce_cons by exact I. reflexivity. Qed.

(** What no item changes. *)
Definition head_part (sh : sheet) := (tb_name sh, tb_style sh, tb_ranges sh, tb_print sh, tb_display sh, tb_extra sh).
Lemma item_head lb ign ds s i s' : item_fine lb i -> item_step lb ign ds s i = Ok s' -> head_part (ts_sheet s') = head_part (ts_sheet s).
Proof.
  intros Hf H. destruct i as [n a|n|n a|c h k|x]; cbn [item_fine item_step] in *.
  - unfold table_event in H. destruct (existsb _ _); [discriminate|].
    repeat match type of H with in_table (if ?b then _ else _) = _ => destruct b end;
    repeat match type of H with in_table (bind ?e _) = _ => destruct e as [?p| |]; try discriminate; cbn [bind] in H end;
    try (destruct p; cbn [bind] in H); try discriminate; injection H as <-; reflexivity.
  - unfold table_event in H.
    repeat match type of H with in_table (if ?b then _ else _) = _ => destruct b end; try discriminate;
    repeat match type of H with in_table (match ?l with [] => _ | _ => _ end) = _ => destruct l end;
    repeat match type of H with in_table (bind ?e _) = _ => destruct e as [p| |] eqn:E; try discriminate; cbn [bind] in H end;
    try discriminate; injection H as <-; try reflexivity.
    unfold end_of_row in E. destruct (if ts_data s then _ else _); try discriminate. cbn [bind] in E.
    destruct (add32 _ _); try discriminate. cbn [bind] in E. injection E as <-. reflexivity.
  - destruct Hf as (_ & Hq). unfold table_event in H. rewrite Hq in H.
    repeat match type of H with in_table (if ?b then _ else _) = _ => destruct b end;
    repeat match type of H with in_table (bind ?e _) = _ => destruct e as [?p| |] eqn:?E; try discriminate; cbn [bind] in H end;
    try (destruct p as [k m]; destruct (add32 _ _); cbn [bind] in H); try discriminate; try (injection H as <-; reflexivity).
    injection H as <-. unfold store_cell in *. destruct p1 as [k o]. destruct (add32 _ _); try discriminate. cbn [bind] in E2. injection E2 as <-. destruct o; reflexivity.
  - destruct (col_default s); try discriminate. cbn [bind] in H. destruct (cell_out _ _ _ _ _ _ _) as [[k' o]| |]; try discriminate. cbn [bind] in H.
    unfold store_cell in H. destruct (add32 _ _); try discriminate. cbn [bind] in H. injection H as <-. destruct o; reflexivity.
  - discriminate.
Qed.
Lemma run_head lb ign ds l : forall s s', Forall (item_fine lb) l -> run_items lb ign ds s l = Ok s' -> head_part (ts_sheet s') = head_part (ts_sheet s).
Proof.
  induction l as [|i l IH]; intros s s' Hf H; [now injection H as <-|]. cbn [run_items] in H. inversion Hf; subst.
  destruct (item_step lb ign ds s i) as [s1| |] eqn:E; try discriminate. cbn [bind] in H. rewrite (IH _ _ H3 H). eapply item_head; eassumption.
Qed.

(** Groups and header ranges of the columns, and the whole table. *)
From Coq Require Import Permutation Sorted.
From Verif Require Import Base Lib OMap OMapProofs XmlModel XmlSpec XmlProofs RefsModel CellModel HeaderModel HeaderSpec HeaderProofs
  SplitModel NumModel EnumModel CellIoModel CellIoSpec CellIoProofs TableModel TableSpec TableRun TableCells TableCols TableRead TableNested TableWhole
  GroupSpec GroupProofs.

(** ** What the reader does with groups of columns *)

Record cview := CV { u_col : N; u_st : list grouped; u_from : N; u_out : list grouped; u_hc : option range }.
Definition cview_of (s : tstate) : cview := CV (ts_col s) (ts_cgroup s) (ts_cfrom s) (tb_gcols (ts_sheet s)) (tb_hcols (ts_sheet s)).
Definition crep_of (a : list call) : N := match fold_attrs col_attr (1, None) (attrs_of a) with Ok (k, _) => k | _ => 1 end.
Inductive ckind := KOpenGroup (d : bool) | KCloseGroup | KOpenHead | KCloseHead | KCol (n : N).
Definition cstep (v : cview) (k : ckind) : cview :=
  match k with
  | KOpenGroup d => CV (u_col v) (mkGrp (u_col v) 0 d :: u_st v) (u_from v) (u_out v) (u_hc v)
  | KCloseGroup =>
      match u_st v with
      | g :: r => CV (u_col v) r (u_from v) (u_out v ++ [mkGrp (g_from g) (u_col v - 1) (g_display g)]) (u_hc v)
      | [] => v
      end
  | KOpenHead => CV (u_col v) (u_st v) (u_col v) (u_out v) (u_hc v)
  | KCloseHead => CV (u_col v) (u_st v) (u_from v) (u_out v) (widen (u_hc v) (u_from v) (u_col v - 1))
  | KCol n => CV (u_col v + n) (u_st v) (u_from v) (u_out v) (u_hc v)
  end.
Definition kind_of (i : titem) (k : ckind) : Prop :=
  match k with
  | KOpenGroup d => i = TOpen t_cgroup (display_attr d)
  | KCloseGroup => i = TClose t_cgroup
  | KOpenHead => i = TOpen t_hcols []
  | KCloseHead => i = TClose t_hcols
  | KCol n => exists a, i = TEmpty t_column a /\ crep_of a = n
  end.
Lemma cview_step lb ign ds s i s' k : kind_of i k -> item_step lb ign ds s i = Ok s' -> cview_of s' = cstep (cview_of s) k /\ rview_of s' = rview_of s.
Proof.
  intros Hk H. destruct k as [d| | | |n]; cbn [kind_of cstep] in *.
  - subst i. cbn [item_step table_event] in H. change (existsb (str_eqb t_cgroup) (prelude ++ epilogue)) with false in H. change (str_eqb t_cgroup t_cgroup) with true in H. cbv iota in H.
    unfold read_group in H. pose proof (display_display d) as Dd. unfold display_of in Dd.
    destruct (fold_attrs group_attr true (attrs_of (display_attr d))); try discriminate. injection H as <-. rewrite Dd. split; reflexivity.
  - subst i. cbn [item_step table_event] in H. change (str_eqb t_cgroup t_table) with false in H. change (str_eqb t_cgroup t_cgroup) with true in H. cbv iota in H.
    cbn [cview_of u_st]. destruct (ts_cgroup s) as [|g r] eqn:Eg; [injection H as <-; unfold cview_of; rewrite Eg; split; reflexivity|].
    destruct (sub32 (ts_col s) 1) as [t| |] eqn:Es; try discriminate. apply sub32_ok in Es as (_ & ->). injection H as <-. split; reflexivity.
  - subst i. injection H as <-. split; reflexivity.
  - subst i. cbn [item_step table_event] in H. change (str_eqb t_hcols t_table) with false in H. change (str_eqb t_hcols t_cgroup) with false in H. change (str_eqb t_hcols t_hcols) with true in H. cbv iota in H.
    unfold extend_header in H. destruct (sub32 (ts_col s) 1) as [t| |] eqn:Es; try discriminate. apply sub32_ok in Es as (_ & ->). injection H as <-. split; reflexivity.
  - destruct Hk as (a & -> & Hn). cbn [item_step table_event] in H. change (existsb (str_eqb t_column) (prelude ++ epilogue)) with false in H. change (str_eqb t_column t_column) with true in H. cbv iota in H.
    unfold crep_of in Hn. unfold read_col in H. destruct (fold_attrs col_attr (1, None) (attrs_of a)) as [[k o]| |]; try discriminate. subst k. cbn [bind] in H.
    destruct (add32 (ts_col s) n) as [c| |] eqn:Ea; try discriminate. apply add32_ok in Ea as (-> & _). injection H as <-. split; reflexivity.
Qed.
Lemma cview_run lb ign ds l ks : Forall2 kind_of l ks -> forall s s', run_items lb ign ds s l = Ok s' ->
  cview_of s' = fold_left cstep ks (cview_of s) /\ rview_of s' = rview_of s.
Proof.
  induction 1 as [|i k l ks Hk _ IH]; intros s s' H; [injection H as <-; split; reflexivity|]. cbn [run_items] in H.
  destruct (item_step lb ign ds s i) as [s1| |] eqn:E; try discriminate. cbn [bind] in H.
  destruct (cview_step _ _ _ _ _ _ _ Hk E) as (C1 & C2). destruct (IH _ _ H) as (I1 & I2). cbn [fold_left]. rewrite <- C1. split; congruence.
Qed.

(** Rows leave groups of columns alone. *)
Definition rowish (i : titem) : Prop :=
  match i with
  | TOpen n _ | TClose n => str_eqb n t_cgroup = false /\ str_eqb n t_hcols = false
  | TEmpty _ _ | TCell _ _ _ => True
  | TNode _ => False
  end.
Definition col_part (s : tstate) := (tb_gcols (ts_sheet s), tb_hcols (ts_sheet s)).
Lemma rowish_step lb ign ds s i s' : rowish i -> item_fine lb i -> item_step lb ign ds s i = Ok s' -> col_part s' = col_part s.
Proof.
  intros Hr Hf H. destruct i as [n a|n|n a|c h k|x]; cbn [rowish item_fine item_step] in *.
  - destruct Hr as (R1 & R2). unfold table_event in H. rewrite R1, R2 in H. destruct (existsb _ _); [discriminate|].
    repeat match type of H with in_table (if ?b then _ else _) = _ => destruct b end;
    repeat match type of H with in_table (bind ?e _) = _ => destruct e as [?p| |]; try discriminate; cbn [bind] in H end;
    try (destruct p; cbn [bind] in H); try discriminate; injection H as <-; reflexivity.
  - destruct Hr as (R1 & R2). unfold table_event in H. rewrite R1, R2 in H.
    repeat match type of H with in_table (if ?b then _ else _) = _ => destruct b end; try discriminate;
    repeat match type of H with in_table (match ?l with [] => _ | _ => _ end) = _ => destruct l end;
    repeat match type of H with in_table (bind ?e _) = _ => destruct e as [p| |] eqn:E; try discriminate; cbn [bind] in H end;
    try discriminate; injection H as <-; try reflexivity.
    unfold end_of_row in E. destruct (if ts_data s then _ else _); try discriminate. cbn [bind] in E.
    destruct (add32 _ _); try discriminate. cbn [bind] in E. injection E as <-. reflexivity.
  - destruct Hf as (_ & Hq). unfold table_event in H. rewrite Hq in H.
    repeat match type of H with in_table (if ?b then _ else _) = _ => destruct b end;
    repeat match type of H with in_table (bind ?e _) = _ => destruct e as [?p| |] eqn:?E; try discriminate; cbn [bind] in H end;
    try (destruct p as [k m]; destruct (add32 _ _); cbn [bind] in H); try discriminate; try (injection H as <-; reflexivity).
    injection H as <-. unfold store_cell in *. destruct p1 as [k o]. destruct (add32 _ _); try discriminate. cbn [bind] in E2. injection E2 as <-. destruct o; reflexivity.
  - destruct (col_default s); try discriminate. cbn [bind] in H. destruct (cell_out _ _ _ _ _ _ _) as [[k' o]| |]; try discriminate. cbn [bind] in H.
    unfold store_cell in H. destruct (add32 _ _); try discriminate. cbn [bind] in H. injection H as <-. destruct o; reflexivity.
  - discriminate.
Qed.
Lemma rowish_run lb ign ds l : Forall rowish l -> forall s s', steps lb ign ds s l s' -> col_part s' = col_part s.
Proof.
  induction 1 as [|i l Hi _ IH]; intros s s' (H & Hf); [now injection H as <-|]. cbn [run_items] in H. inversion Hf; subst.
  destruct (item_step lb ign ds s i) as [s1| |] eqn:E; try discriminate. cbn [bind] in H. rewrite (IH s1 s' (conj H H3)). eapply rowish_step; eassumption.
Qed.
Lemma mark_rowish l : Forall mark l -> Forall rowish l.
Proof. apply Forall_impl. intros i [[d Ei]|[Ei|[Ei|Ei]]]; subst i; split; reflexivity. Qed.
Lemma cellish_rowish l : Forall cellish l -> Forall rowish l.
Proof. apply Forall_impl. intros [] H; try contradiction; exact I. Qed.
Lemma empty_row_rowish sh r k w o : empty_row sh r k w = Ok o -> Forall rowish o.
Proof.
  unfold empty_row. destruct (empty_row_attrs _ _ _); try discriminate. cbn [bind]. intros H.
  match type of H with Ok ?x = Ok _ => assert (E : o = x) by (injection H; auto); clear H; subst o end.
  constructor; [split; reflexivity|]. constructor; [exact I|]. constructor; [split; reflexivity|constructor].
Qed.
Lemma if_rowish (b : bool) i : rowish i -> Forall rowish (if b then [i] else []).
Proof. intros H. destruct b; constructor; [exact H|constructor]. Qed.
Lemma empty_in_rowish sh r w s o s' : empty_row_in sh r w s = Ok (o, s') -> Forall rowish o.
Proof.
  unfold empty_row_in. intros H. destruct (close_at _ _ _) as [[c n]| |] eqn:Ec; try discriminate. cbn [bind] in H.
  destruct (empty_row sh r 1 w) as [row| |] eqn:Er; try discriminate. cbn [bind] in H.
  match type of H with Ok (?x, ?y) = Ok _ => assert (E : o = x) by congruence; clear H; subst o end.
  rewrite !Forall_app. split; [apply if_rowish; split; reflexivity|]. split; [eapply mark_rowish, close_at_marks; exact Ec|].
  split; [apply mark_rowish, opens_marks|]. split; [apply if_rowish; split; reflexivity|]. eapply empty_row_rowish. exact Er.
Qed.
Lemma empty_rows_in_rowish sh w n : forall r s o s', empty_rows_in sh n r w s = Ok (o, s') -> Forall rowish o.
Proof.
  induction n as [|n IH]; intros r s o s' H; cbn [empty_rows_in] in H; [injection H as <- <-; constructor|].
  destruct (empty_row_in sh r w s) as [[o1 s1]| |] eqn:E1; try discriminate. cbn [bind] in H.
  destruct (empty_rows_in sh n (r + 1) w s1) as [[o2 s2]| |] eqn:E2; try discriminate. cbn [bind] in H.
  assert (X : o = o1 ++ o2) by congruence. subst o. apply Forall_app. split; [eapply empty_in_rowish; exact E1|eapply IH; exact E2].
Qed.
Lemma empty_rows_rowish sh r k w s o s' : empty_rows sh r k w s = Ok (o, s') -> Forall rowish o.
Proof.
  unfold empty_rows. destruct (_ || _); intros H.
  - destruct (add32 r k); try discriminate. eapply empty_rows_in_rowish. exact H.
  - destruct (empty_row sh r k w) as [o1| |] eqn:E; try discriminate. cbn [bind] in H. assert (X : o = o1) by congruence. subst o. eapply empty_row_rowish. exact E.
Qed.
Lemma start_rowish sh r k b s o s' : start_row sh r k b s = Ok (o, s') -> Forall rowish o.
Proof.
  unfold start_row. intros H. destruct (open_groups r k (tb_grows sh) s) as [[o1 s1]| |] eqn:Eo; try discriminate. cbn [bind] in H.
  match type of H with bind ?X _ = _ => destruct X as [hd| |] eqn:Eh; try discriminate end. cbn [bind] in H.
  destruct (row_attrs (tb_rows sh) r) as [a| |] eqn:Ea; try discriminate. cbn [bind w_head w_count] in H.
  match type of H with Ok (?x, ?y) = Ok _ => assert (X1 : o = x) by congruence; clear H; subst o end.
  rewrite !Forall_app. split; [eapply mark_rowish, open_groups_marks; exact Eo|]. split; [apply if_rowish; split; reflexivity|].
  constructor; [split; reflexivity|]. apply if_rowish. exact I.
Qed.
Lemma end_rowish sh r k s o s' : end_row sh r k s = Ok (o, s') -> Forall rowish o.
Proof.
  unfold end_row. intros H. match type of H with bind ?X _ = _ => destruct X as [hd| |] eqn:Eh; try discriminate end. cbn [bind] in H.
  match type of H with bind ?X _ = _ => destruct X as [[o1 s1]| |] eqn:Eo; try discriminate end. cbn [bind] in H.
  match type of H with Ok (?x, ?y) = Ok _ => assert (X1 : o = x) by congruence; clear H; subst o end.
  constructor; [split; reflexivity|]. apply Forall_app. split; [apply if_rowish; split; reflexivity|]. eapply mark_rowish, close_groups_marks. exact Eo.
Qed.
Lemma last_rowish s : Forall rowish (end_last_row s).
Proof.
  unfold end_last_row. constructor; [split; reflexivity|]. apply Forall_app. split; [apply if_rowish; split; reflexivity|].
  apply Forall_forall. intros i I. apply repeat_spec in I. subst i. split; reflexivity.
Qed.
Lemma cell_at_rowish sh mx pv spans s p c next o spans' s' : write_cell_at sh mx pv spans s p c next = Ok (o, spans', s') -> Forall rowish o.
Proof.
  unfold write_cell_at. destruct p as [row col]. intros H.
  destruct (match next with Some q => q | None => mx end) as [nrow ncol].
  destruct (sub32 nrow row) as [fr| |]; try discriminate. cbn [bind] in H.
  match type of H with bind ?X _ = _ => destruct X as [fc| |]; try discriminate end. cbn [bind] in H.
  destruct (match pv with Some v => (pv_row v, pv_rep v, pv_col v) | None => (0, 1, 0) end) as [[prow prep] pcol].
  destruct (sub32 row prow) as [br| |] eqn:Eb; try discriminate. cbn [bind] in H.
  match type of H with bind ?X _ = _ => destruct X as [bc| |]; try discriminate end. cbn [bind] in H.
  match type of H with bind ?X _ = _ => destruct X as [[o1 s1]| |] eqn:E1; try discriminate end. cbn [bind] in H.
  match type of H with bind ?X _ = _ => destruct X as [[o2 s2]| |] eqn:E2; try discriminate end. cbn [bind] in H.
  match type of H with bind ?X _ = _ => destruct X as [[o3 s3]| |] eqn:E3; try discriminate end. cbn [bind] in H.
  match type of H with bind ?X _ = _ => destruct X as [[sp1 sp]| |] eqn:Eh; try discriminate end. cbn [bind] in H.
  destruct (pieces (TCell c) sp) as [o4| |] eqn:E4; try discriminate. cbn [bind] in H.
  match type of H with bind ?X _ = _ => destruct X as [o5| |] eqn:E5; try discriminate end. cbn [bind] in H.
  match type of H with Ok (?x, ?y, ?z) = Ok _ => assert (Eo : o = x) by congruence; clear H end. subst o.
  assert (Nil : forall (A : Type) (x : A) l y, Ok (@nil titem, x) = Ok (l, y) -> Forall rowish l) by (intros A x l y X; injection X as <- <-; constructor).
  rewrite !Forall_app. split; [|split; [|split; [|split; [|split]]]].
  - destruct (_ && _); [eapply end_rowish; exact E1|eapply Nil; exact E1].
  - destruct (0 <? br); [|eapply Nil; exact E2]. destruct (br <? prep); [discriminate|].
    match type of E2 with bind ?X _ = _ => destruct X as [synth| |] eqn:Ey; try discriminate end. cbn [bind] in E2.
    destruct (sub32 row synth) as [r0| |] eqn:Er0; try discriminate. cbn [bind] in E2.
    destruct (0 <? synth); [eapply empty_rows_rowish; exact E2|eapply Nil; exact E2].
  - destruct (_ || _); [eapply start_rowish; exact E3|eapply Nil; exact E3].
  - eapply cellish_rowish, pieces_cellish; [|exact E4]. intros; exact I.
  - apply cellish_rowish. destruct (0 <? fr).
    + destruct (0 <? fc - c_repeat c); [|injection E5 as <-; constructor]. destruct (add32 col (c_repeat c)); try discriminate. cbn [bind] in E5.
      eapply gap_cellish. exact E5.
    + destruct (0 <? fc); [|injection E5 as <-; constructor]. destruct (fc <? c_repeat c); [discriminate|].
      destruct (0 <? fc - c_repeat c); [|injection E5 as <-; constructor]. destruct (add32 col (c_repeat c)); try discriminate. cbn [bind] in E5.
      eapply gap_cellish. exact E5.
  - destruct next; [constructor|apply last_rowish].
Qed.
Lemma cells_rowish sh mx : forall l pv spans s o, write_cells sh mx pv spans s l = Ok o -> Forall rowish o.
Proof.
  induction l as [|[p c] l IH]; intros pv spans s o H; cbn [write_cells] in H; [injection H as <-; constructor|].
  match type of H with bind ?X _ = _ => destruct X as [[[o1 spans'] s1]| |] eqn:E1; try discriminate end. cbn [bind] in H.
  match type of H with bind ?X _ = _ => destruct X as [o2| |] eqn:E2; try discriminate end. cbn [bind] in H.
  assert (Eo : o = o1 ++ o2) by congruence. subst o. apply Forall_app. split; [eapply cell_at_rowish; exact E1|eapply IH; exact E2].
Qed.

(** ** The columns of the writer *)

Section ColGroups.
  Variables (sh : sheet) (ord : bool).
  Let gs := tb_gcols sh.
  Hypothesis Happ : col_groups_apart sh.
  Hypothesis Hlam : laminar gs.
  Hypothesis Hord : ord = true -> outer_first_cols sh.
  Definition cSt (x : N * grouped) : Prop := fst x = g_from (snd x).
  Notation cDn := (col_moved sh).
  Notation lev := (level ord gs cSt cDn).
  Notation ins := (inside_header (tb_cols sh)).

  Definition hc_at (c : N) (hr : option range) : Prop :=
    match tb_hcols sh with
    | None => hr = None
    | Some (f, t) =>
        ((forall k, f <= k <= t -> k < c -> ins k) /\ hr = None)
        \/ exists a z z', f <= a <= z /\ z <= t /\ z < c /\ ~ ins a /\ (forall k, f <= k < a -> ins k) /\ ~ ins z /\ (forall k, z < k <= t -> k < c -> ins k)
           /\ col_end sh z z' /\ hr = Some (a, z')
    end.
  Definition cbnd (c : N) (v : cview) : Prop :=
    u_col v = c /\ lev (fun g => (g_from g <? c) && (c <=? g_to g)) (fun g => g_to g <? c) (u_st v) (u_out v) /\ hc_at c (u_hc v).

  Lemma cfold_app v l l' : fold_left cstep (l ++ l') v = fold_left cstep l' (fold_left cstep l v).
  Proof. apply fold_left_app. Qed.
  Lemma copens_view l : forall v, fold_left cstep (map (fun g => KOpenGroup (g_display g)) l) v
    = CV (u_col v) (rev (map (fun g => mkGrp (u_col v) 0 (g_display g)) l) ++ u_st v) (u_from v) (u_out v) (u_hc v).
  Proof.
    induction l as [|g l IH]; intros v; [destruct v; reflexivity|]. cbn [map fold_left]. rewrite IH. cbn [cstep u_col u_st u_from u_out u_hc map rev].
    rewrite <- app_assoc. reflexivity.
  Qed.
  Lemma ccloses_view (l : list grouped) : forall v, fold_left cstep (map (fun _ => KCloseGroup) l) v
    = CV (u_col v) (skipn (length l) (u_st v)) (u_from v) (u_out v ++ map (fun g => mkGrp (g_from g) (u_col v - 1) (g_display g)) (firstn (length l) (u_st v))) (u_hc v).
  Proof.
    induction l as [|g l IH]; intros v; [destruct v; cbn; now rewrite app_nil_r|]. cbn [map fold_left length]. rewrite IH. cbn [cstep].
    destruct v as [c [|x st] f o h]; cbn [u_col u_st u_from u_out u_hc].
    - destruct (length l); reflexivity.
    - cbn [skipn firstn map]. rewrite <- app_assoc. reflexivity.
  Qed.

  Lemma cols_kinds mx n : forall c o, write_cols sh mx n c = Ok o -> ~ ins c -> mx <= c + N.of_nat n -> c <= u32_max ->
    exists ks, Forall2 kind_of o ks
      /\ forall v, cbnd c v -> exists C, mx <= C /\ cbnd C (fold_left cstep ks v).
  Proof.
    induction n as [|n IH]; intros c o H Hc Hn Hu; cbn [write_cols] in H.
    - injection H as <-. exists []. split; [constructor|]. intros v B. exists c. split; [lia|exact B].
    - destruct (mx <=? c) eqn:L; [injection H as <-; exists []; split; [constructor|]; intros v B; exists c; split; [lia|exact B]|].
      destruct (col_item (tb_cols sh) c) as [it span] eqn:Ei.
      destruct (N.eqb_spec span 0) as [|Hsp]; [discriminate|]. destruct (add32 c span) as [c'| |] eqn:Ea; try discriminate. cbn [bind] in H. apply add32_ok in Ea.
      match type of H with bind ?X _ = _ => destruct X as [rest| |] eqn:Er; try discriminate end. cbn [bind] in H.
      match type of H with Ok ?x = Ok _ => assert (Eo : o = x) by congruence; clear H; subst o end.
      destruct Happ as (Hd & Hg). pose proof Hd as (Hs & Hd2 & D).
      assert (It : kind_of it (KCol span) /\ (forall k, c < k < c' -> ins k) /\ col_end sh c (c' - 1)).
      { unfold col_item in Ei. destruct (hget c (tb_cols sh)) as [h|] eqn:Eg; injection Ei as <- <-.
        - split; [exists (col_attrs h); split; [reflexivity|]; unfold crep_of; rewrite read_col_attrs; [reflexivity|lia]|].
          apply (hget_in c h _ Hs) in Eg. split; [intros k Hk; exists c, h; split; [exact Eg|lia]|]. left. exists h. split; [exact Eg|]. lia.
        - split; [exists []; split; reflexivity|]. split; [intros k Hk; lia|]. right. split; [|lia]. intros h I. apply (hget_in c h _ Hs) in I. congruence. }
      destruct It as (It & Ins & Cend).
      assert (Nc : ~ ins c').
      { intros (b & h & I & X). unfold col_item in Ei. destruct (hget c (tb_cols sh)) as [h'|] eqn:Eg; injection Ei as <- <-.
        + assert (I' : In (c, h') (tb_cols sh)) by (apply (hget_in c h' _ Hs), Eg).
          destruct (N.lt_trichotomy b c) as [B|[B|B]].
          * specialize (D _ _ _ _ I I' B). lia.
          * subst b. assert (h = h'); [|subst; lia]. apply (hget_in c h _ Hs) in I. congruence.
          * specialize (D _ _ _ _ I' I B). lia.
        + destruct (N.lt_trichotomy b c) as [B|[B|B]]; [|subst b|lia].
          * apply Hc. exists b, h. split; [exact I|lia].
          * apply (hget_in c h _ Hs) in I. congruence. }
      destruct (IH c' rest Er Nc ltac:(lia) ltac:(lia)) as (ks & K1 & K2).
      set (new := filter (fun g => g_from g =? c) gs). set (old := filter (fun g => g_to g =? c) gs).
      set (mid := if in_header (tb_hcols sh) c then [KOpenHead; KCol span; KCloseHead] else [KCol span]).
      exists (map (fun g => KOpenGroup (g_display g)) new ++ mid ++ map (fun _ => KCloseGroup) old ++ ks). split.
      + apply Forall2_app; [|apply Forall2_app; [|apply Forall2_app; [|exact K1]]].
        * unfold opens. fold gs new. clear. induction new as [|g l IH]; constructor; [reflexivity|exact IH].
        * unfold mid, around. destruct (in_header (tb_hcols sh) c); [|constructor; [exact It|constructor]].
          constructor; [reflexivity|]. constructor; [exact It|]. constructor; [reflexivity|constructor].
        * unfold closes. fold gs old. clear. induction old as [|g l IH]; constructor; [reflexivity|exact IH].
      + intros v (B1 & B2 & B3). rewrite cfold_app, copens_view, cfold_app, cfold_app.
        match goal with |- context [fold_left cstep mid ?x] => set (v1 := x) end.
        assert (V2 : exists v2, fold_left cstep mid v1 = v2 /\ u_col v2 = c' /\ u_st v2 = u_st v1 /\ u_out v2 = u_out v1
           /\ u_hc v2 = if in_header (tb_hcols sh) c then widen (u_hc v) c (c' - 1) else u_hc v).
        { eexists. split; [reflexivity|]. unfold mid, v1. destruct (in_header (tb_hcols sh) c); cbn [fold_left cstep u_col u_st u_from u_out u_hc]; rewrite B1; replace (c + span) with c' by lia; repeat split. }
        destruct V2 as (v2 & -> & W1 & W2 & W3 & W4). rewrite ccloses_view, W1, W2, W3, W4. unfold v1. cbn [u_col u_st u_from u_out u_hc].
        apply K2. split; [reflexivity|]. cbn [u_st u_out u_hc]. split.
        * assert (V : forall g, In g gs -> g_from g <= g_to g /\ ~ (c < g_from g < c') /\ ~ (c < g_to g < c')).
          { intros g Ig. destruct (Hg g Ig) as (G1 & G2 & G3). split; [exact G1|]. split; intros X; [apply G2|apply G3]; now apply Ins. }
          assert (P := level_push ord gs cSt cDn _ _ _ _ c (fun g => g_from g =? c) B2).
          match type of P with ?A -> _ => assert (PA : A) end.
          { intros g x Ig Ix Wg Qx. cbn beta in *. pose proof (proj1 (V g Ig)). pose proof (proj1 (V x Ix)).
            apply In_nth_error in Ig as (i & Eig). apply In_nth_error in Ix as (j & Ejx). destruct Hlam as (_ & Hl).
            destruct (Hl i j g x Eig Ejx) as [N1|[N1|N1]]; [lia|lia|]. exfalso. apply (N1 c). lia. }
          specialize (P PA). clear PA.
          match type of P with ?A -> _ => assert (PA : A) end.
          { intros Eo'. apply ordered_filter. intros x g y g' z Es Wg Wg'. apply (Hord Eo' x g y g' z Es). cbn beta in *. lia. } specialize (P PA). clear PA.
          match type of P with ?A -> _ => assert (PA : A) end.
          { intros g Ig Wg Qg. cbn beta in *. lia. } specialize (P PA). clear PA.
          match type of P with ?A -> _ => assert (PA : A) end.
          { intros g Ig Wg. unfold cSt. cbn [fst snd]. lia. } specialize (P PA). clear PA.
          assert (P2 := level_pop ord gs cSt cDn _ _ _ _ (c' - 1) (fun g => g_to g =? c) P). cbv zeta in P2.
          match type of P2 with ?A -> _ => assert (PA : A) end.
          { intros x y Ix Iy Qx Qy Lx Ky. cbn beta in *. pose proof (V x Ix). lia. } specialize (P2 PA). clear PA.
          match type of P2 with ?A -> _ => assert (PA : A) end.
          { intros g Ig Kg. cbn beta in *. pose proof (V g Ig). lia. } specialize (P2 PA). clear PA.
          match type of P2 with ?A -> _ => assert (PA : A) end.
          { intros g Ig Kg Cg. cbn beta in *. lia. } specialize (P2 PA). clear PA.
          match type of P2 with ?A -> _ => assert (PA : A) end.
          { intros f g Ig Sf Kg. split; [exact Sf|]. cbn [fst snd]. rewrite N.eqb_eq in Kg. rewrite Kg. exact Cend. } specialize (P2 PA). clear PA.
          rewrite B1. fold new old in P2. eapply level_ext; [exact P2| |]; intros g Ig; cbn beta; pose proof (V g Ig); lia.
        * unfold hc_at, in_header, in_range in *. destruct (tb_hcols sh) as [[f t]|]; [|exact B3]. cbn [fst snd].
          destruct ((f <=? c) && (c <=? t)) eqn:Ir.
          -- right. destruct B3 as [(B3 & E0)|(a & z & z' & A1 & A2 & A3 & A4 & A5 & A6 & A7 & A8 & E0)]; rewrite E0; cbn [widen].
             ++ exists c, c, (c' - 1). split; [lia|]. split; [lia|]. split; [lia|]. split; [exact Hc|]. split; [intros k Hk; apply B3; lia|]. split; [exact Hc|].
                split; [intros k Hk Hk'; apply Ins; lia|]. split; [exact Cend|reflexivity].
             ++ exists a, c, (c' - 1). split; [lia|]. split; [lia|]. split; [lia|]. split; [exact A4|]. split; [exact A5|]. split; [exact Hc|].
                split; [intros k Hk Hk'; apply Ins; lia|]. split; [exact Cend|reflexivity].
          -- assert (X : forall k, f <= k <= t -> k < c' -> k < c \/ ins k).
             { intros k Hk Hk'. destruct (N.lt_ge_cases k c); [auto|]. right. apply Ins. lia. }
             destruct B3 as [(B3 & E0)|(a & z & z' & A1 & A2 & A3 & A4 & A5 & A6 & A7 & A8 & E0)]; rewrite E0.
             ++ left. split; [|reflexivity]. intros k Hk Hk'. destruct (X k Hk Hk'); auto.
             ++ right. exists a, z, z'. split; [exact A1|]. split; [exact A2|]. split; [lia|]. split; [exact A4|]. split; [exact A5|]. split; [exact A6|].
                split; [intros k Hk Hk'; destruct (X k ltac:(lia) Hk'); [apply A7; lia|assumption]|]. split; [exact A8|reflexivity].
  Qed.
  Lemma columns_view w o lb ign ds s s' : write_table_columns sh w = Ok o -> run_items lb ign ds s o = Ok s' ->
    ts_col s = 0 -> ts_cgroup s = [] -> tb_gcols (ts_sheet s) = [] -> tb_hcols (ts_sheet s) = None ->
    lev (fun _ => false) (fun _ => true) (ts_cgroup s') (tb_gcols (ts_sheet s')) /\ header_cols_after sh (tb_hcols (ts_sheet s')) /\ rview_of s' = rview_of s.
  Proof.
    unfold write_table_columns. destruct (max_col w (tb_gcols sh) (tb_hcols sh)) as [mx| |] eqn:Em; try discriminate. cbn [bind]. intros H R I1 I2 I3 I4.
    apply max_col_bound in Em as (M1 & M2 & M3).
    destruct (cols_kinds mx (N.to_nat mx) 0 o H) as (ks & K1 & K2); [intros (b & h & _ & X); lia|lia|unfold u32_max; lia|].
    destruct (cview_run lb ign ds o ks K1 s s' R) as (V1 & V2).
    assert (B0 : cbnd 0 (cview_of s)).
    { unfold cview_of. rewrite I1, I2, I3, I4. split; [reflexivity|]. cbn [u_st u_out u_hc]. split.
      - exists [], []. split; [apply held_nil|]. cbn [map].
        assert (X : filter (fun g => (g_from g <? 0) && (0 <=? g_to g)) gs = [] /\ filter (fun g => g_to g <? 0) gs = []).
        { clear. induction gs as [|g l IH]; [split; reflexivity|]. cbn [filter]. destruct (g_from g <? 0) eqn:E1; [lia|]. destruct (g_to g <? 0) eqn:E2; [lia|]. exact IH. }
        destruct X as (-> & ->). repeat split; constructor.
      - unfold hc_at. destruct (tb_hcols sh) as [[f t]|]; [|reflexivity]. left. split; [|reflexivity]. intros k _ Hk. lia. }
    destruct (K2 _ B0) as (C & LC & B1 & B2 & B3). rewrite <- V1 in *. cbn [cview_of u_col u_st u_out u_hc] in *. split; [|split; [|exact V2]].
    - eapply level_ext; [exact B2| |]; intros g Ig; pose proof (M2 g Ig); cbn beta; lia.
    - unfold hc_at in B3. unfold header_cols_after. destruct (tb_hcols sh) as [[f t]|]; [|exact B3]. specialize (M3 f t eq_refl).
      destruct B3 as [(B3 & E0)|(a & z & z' & A1 & A2 & A3 & A4 & A5 & A6 & A7 & A8 & E0)].
      + left. split; [|exact E0]. intros k Hk. apply B3; lia.
      + right. exists a, z, z'. split; [exact A1|]. split; [exact A2|]. split; [exact A4|]. split; [exact A5|]. split; [exact A6|]. split; [|auto]. intros k Hk. apply A7; lia.
  Qed.
End ColGroups.

(** ** The whole table *)

Lemma table_states lb ign ds sh sh' : sheet_ok sh -> header_rows_full sh -> col_groups_apart sh -> table_through lb ign ds sh = Ok sh' ->
  exists mx cols rows s0 s1 s2, used_grid_size (tb_cells sh) = Ok mx /\ write_table_columns sh (snd mx) = Ok cols
    /\ write_cells sh mx None [] (WST 0 false) (tb_cells sh) = Ok rows
    /\ s0 = TS (head_of sh (tb_ranges sh)) 0 0 false 0 [] 1 0 []
    /\ steps lb ign ds s0 cols s1 /\ steps lb ign ds s1 rows s2 /\ sh' = ts_sheet s2
    /\ (forall p c, In (p, c) (tb_cells sh) -> row_fine sh (fst p) /\ fst p < u32_max).
Proof.
  intros ((Hs & Hc) & Hr & Hra & He) Hh Hg T.
  assert (H : exists cs, write_sheet ds sh = Ok cs) by (unfold table_through in T; destruct (write_sheet ds sh); try discriminate; eauto). destruct H as (cs & H).
  pose proof H as H0. unfold write_sheet in H0.
  destruct (table_attrs sh) as [a| |] eqn:Ea; try discriminate. cbn [bind] in H0.
  destruct (table_items sh) as [body| |] eqn:Eb; try discriminate. clear H0. pose proof Eb as Eb0. unfold table_items in Eb.
  destruct (used_grid_size (tb_cells sh)) as [mx| |] eqn:Eg; try discriminate. cbn [bind] in Eb.
  destruct (write_table_columns sh (snd mx)) as [cols| |] eqn:Ec; try discriminate. cbn [bind] in Eb.
  destruct (write_cells sh mx None [] (WST 0 false) (tb_cells sh)) as [rows| |] eqn:Er; try discriminate. cbn [bind] in Eb.
  rewrite He in Eb. cbn [nodes_in filter map app] in Eb. injection Eb as <-.
  destruct (grid_bound _ _ Eg) as (G1 & G2 & G3).
  assert (Hrf : forall p c, In (p, c) (tb_cells sh) -> row_fine sh (fst p)).
  { apply rows_fine; [exact Hr|]. intros p c I. specialize (G3 p c I). lia. }
  destruct (table_read lb ign ds sh cs (tb_ranges sh) (fun _ => True) (fun _ _ => True) H He (ranges_readable _ _ Ea Hra) Hs)
    as (sh2 & hs & T1 & _ & _ & _ & _ & _ & _ & _ & _ & _ & body & s2 & B1 & (B2 & B3) & B4); auto.
  { rewrite Forall_forall in *. intros [p c] I. cbn [fst snd]. split; [apply writable_fine; apply (Hc _ I)|eapply Hrf; exact I]. }
  assert (E : sh' = sh2).
  { unfold table_through in T. rewrite H in T. cbn [bind] in T. rewrite read_events_render in T.
    - cbn [bind] in T. rewrite T1 in T. cbn [bind] in T. now injection T.
    - apply (table_sensible ds sh); auto; [now split|]. apply Hr.
    - apply (table_nested ds sh); auto. apply Hr. }
  assert (Eb : body = cols ++ rows) by congruence. subst body sh'.
  rewrite run_app in B2. destruct (run_items lb ign ds _ cols) as [s1| |] eqn:E1; try discriminate. cbn [bind] in B2. apply Forall_app in B3 as (B3 & B5).
  exists mx, cols, rows, (TS (head_of sh (tb_ranges sh)) 0 0 false 0 [] 1 0 []), s1, s2. repeat (split; [assumption || reflexivity || (split; assumption)|]).
  intros p c I. split; [eapply Hrf; exact I|]. specialize (G3 p c I). lia.
Qed.

(** What a level says when all groups ended. *)
Definition regroups (ord : bool) (gs gs' : list grouped) (Dn : moved -> Prop) : Prop :=
  exists D, Permutation (map snd D) gs /\ Forall Dn D
    /\ Permutation (map span_of gs') (map fst D) /\ Permutation (map flag_of gs') (map (fun d => (fst (fst d), g_display (snd d))) D)
    /\ (ord = true -> Permutation gs' (map as_group D)).
Lemma level_done ord gs St Dn C st out : level ord gs St Dn (fun _ => false) C st out -> regroups ord (filter C gs) out Dn.
Proof.
  intros (L & D & [H1 H2 H3 H4 H5] & P1 & P2 & F1 & F2).
  assert (X : filter (fun _ : grouped => false) gs = []) by (clear; induction gs; auto). rewrite X in P1. apply Permutation_sym, Permutation_nil in P1.
  assert (L = []) by (destruct L; [reflexivity|discriminate]). subst L. assert (st = []) by (destruct st; [reflexivity|discriminate]). subst st.
  exists D. rewrite app_nil_r in H4. cbn [map] in H4. rewrite app_nil_r in H4. repeat (split; [assumption|]). intros Eo. now apply H5.
Qed.

Lemma rows_end_facts sh E : om_sorted N.ltb (tb_rows sh) -> rows_end sh E ->
  (forall b, in_row (tb_cells sh) b -> (forall r, in_row (tb_cells sh) r -> r <= b) -> E = b + row_repeat_at (tb_rows sh) b) /\ (tb_cells sh = [] -> E = 0).
Proof.
  intros Hs HE. assert (U : forall r, in_row (tb_cells sh) r <-> row_used (tb_cells sh) r) by (intros r; reflexivity).
  destruct HE as [(H & ->)|(r & n & (D1 & D2) & Hm & ->)].
  - split; [|reflexivity]. intros b Hb. exfalso. apply (H b), U, Hb.
  - apply repeats_fun in D2; [|exact Hs]. subst n. split.
    + intros b Hb Hl. assert (b = r); [|now subst]. apply N.le_antisymm; [apply Hm, U, Hb|apply Hl, U, D1].
    + intros Hn. destruct D1 as (b & c & I). rewrite Hn in I. destruct I.
Qed.

Lemma rows_below_end sh E : om_sorted N.ltb (tb_rows sh) -> rows_end sh E -> (forall p c, In (p, c) (tb_cells sh) -> row_fine sh (fst p)) ->
  forall r, in_row (tb_cells sh) r -> r < E.
Proof.
  intros Hs HE Hf r (b & c & I). destruct HE as [(H & ->)|(q & n & (D1 & D2) & Hm & ->)].
  - exfalso. apply (H r). exists b, c. exact I.
  - apply repeats_fun in D2; [|exact Hs]. subst n. specialize (Hm r (ex_intro _ b (ex_intro _ c I))). destruct D1 as (b' & c' & I').
    destruct (Hf _ _ I') as (_ & F & _). cbn [fst] in F. lia.
Qed.

Lemma groups_back lb ign ds sh sh' ord : sheet_ok sh -> header_rows_full sh -> col_groups_apart sh -> table_through lb ign ds sh = Ok sh' ->
  laminar (tb_gcols sh) -> (ord = true -> outer_first_cols sh) ->
  regroups ord (tb_gcols sh) (tb_gcols sh') (col_moved sh) /\ header_cols_after sh (tb_hcols sh').
Proof.
  intros Ho Hh Hg T Hl Hor. destruct (table_states lb ign ds sh sh' Ho Hh Hg T) as (mx & cols & rows & s0 & s1 & s2 & E1 & E2 & E3 & E4 & E5 & E6 & E7 & E8).
  destruct (columns_view sh ord Hg Hl Hor (snd mx) cols lb ign ds s0 s1 E2 (proj1 E5)) as (C1 & C2 & C3); try (rewrite E4; reflexivity).
  pose proof (rowish_run lb ign ds rows (cells_rowish _ _ _ _ _ _ _ E3) s1 s2 E6) as P. unfold col_part in P. injection P as P1 P2.
  subst sh'. rewrite P1, P2. split; [|exact C2]. apply level_done in C1. replace (tb_gcols sh) with (filter (fun _ => true) (tb_gcols sh)) at 1; [exact C1|].
  clear. induction (tb_gcols sh); [reflexivity|]. cbn [filter]. congruence.
Qed.
Lemma row_groups_back lb ign ds sh sh' ord E : sheet_ok sh -> header_rows_full sh -> col_groups_apart sh -> table_through lb ign ds sh = Ok sh' ->
  rows_end sh E -> laminar (tb_grows sh) -> no_empty_group sh -> no_change_within sh -> (ord = true -> outer_first_rows sh) ->
  regroups ord (filter (fun g => g_from g <? E) (tb_grows sh)) (tb_grows sh') (row_moved sh E) /\ header_rows_after sh E (tb_hrows sh').
Proof.
  intros Ho Hh Hg T HE Hl He Hw Hor. destruct (table_states lb ign ds sh sh' Ho Hh Hg T) as (mx & cols & rows & s0 & s1 & s2 & E1 & E2 & E3 & E4 & E5 & E6 & E7 & E8).
  pose proof Ho as ((Hs & _) & ((Hrs & _) & _) & _).
  assert (R1 : rview_of s1 = rview_of s0).
  { unfold write_table_columns in E2. destruct (max_col _ _ _) as [m| |] eqn:Em; try discriminate. cbn [bind] in E2.
    assert (Hl0 : exists ks, Forall2 kind_of cols ks).
    { clear - E2 Hg. revert E2. generalize (N.to_nat m) as n, 0 as c, cols. induction n as [|n IH]; intros c o H; cbn [write_cols] in H; [injection H as <-; exists []; constructor|].
      destruct (m <=? c); [injection H as <-; exists []; constructor|]. destruct (col_item (tb_cols sh) c) as [it span] eqn:Ei.
      destruct (span =? 0); [discriminate|]. destruct (add32 c span) as [c'| |]; try discriminate. cbn [bind] in H.
      match type of H with bind ?X _ = _ => destruct X as [rest| |] eqn:Er; try discriminate end. cbn [bind] in H.
      match type of H with Ok ?x = Ok _ => assert (Eo : o = x) by congruence; clear H; subst o end. destruct (IH _ _ Er) as (ks & K).
      assert (It : exists n, kind_of it (KCol n)) by (unfold col_item in Ei; destruct (hget c (tb_cols sh)); injection Ei as <- <-; eexists; eexists; split; reflexivity).
      destruct It as (k & It).
      exists (map (fun g => KOpenGroup (g_display g)) (filter (fun g => g_from g =? c) (tb_gcols sh))
        ++ (if in_header (tb_hcols sh) c then [KOpenHead; KCol k; KCloseHead] else [KCol k]) ++ map (fun _ => KCloseGroup) (filter (fun g => g_to g =? c) (tb_gcols sh)) ++ ks).
      apply Forall2_app; [|apply Forall2_app; [|apply Forall2_app; [|exact K]]].
      - unfold opens. clear. induction (filter _ _) as [|g l IH]; constructor; [reflexivity|exact IH].
      - unfold around. destruct (in_header (tb_hcols sh) c); [|constructor; [exact It|constructor]].
        constructor; [reflexivity|]. constructor; [exact It|]. constructor; [reflexivity|constructor].
      - unfold closes. clear. induction (filter _ _) as [|g l IH]; constructor; [reflexivity|exact IH]. }
    destruct Hl0 as (ks & K). exact (proj2 (cview_run lb ign ds cols ks K s0 s1 (proj1 E5))). }
  destruct (rows_end_facts sh E Hrs HE) as (L1 & L2).
  assert (F : fin sh ord E (rfold (RV 0 1 [] 0 [] None) rows)).
  { apply (rows_view sh ord E Hrs Hh Hl He Hw Hor) with (mx := mx); auto.
    - apply (rows_below_end sh E Hrs HE). intros p c I. apply (E8 p c I).
    - intros r (b & c & I). apply (E8 _ _ I).
    - apply Forall_forall. intros [p c] I. destruct (E8 _ _ I). cbn [fst]. lia. }
  pose proof (rview_run lb ign ds rows s1 s2 E6) as V. rewrite R1, E4 in V. change (rview_of _) with (RV 0 1 [] 0 [] None) in V at 2. rewrite <- V in F.
  destruct F as (F1 & F2). cbn [rview_of v_st v_out v_hr] in *. subst sh'. split; [apply level_done in F1; exact F1|].
  unfold hr_at in F2. unfold header_rows_after. destruct (tb_hrows sh) as [[f t]|] eqn:Eh; [|exact F2].
  destruct F2 as [(F2 & F3)|[(F2 & f' & F3 & F4)|(F2 & f' & t' & F3 & F4 & F5)]].
  - left. auto.
  - right. split; [lia|]. exists f', (E - 1). split; [exact F3|]. split; [|exact F4]. right. right. split; [lia|reflexivity].
  - right. destruct (Hh f t Eh) as (Lf & _). split; [lia|]. exists f', t'. auto.
Qed.

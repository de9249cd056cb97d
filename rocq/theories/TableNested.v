(** The tags written for a table: names and nesting. *)
From Verif Require Import Base Lib OMap OMapProofs XmlModel XmlSpec XmlProofs RefsModel CellModel HeaderModel HeaderSpec HeaderProofs
  SplitModel NumModel EnumModel CellIoModel CellIoSpec CellIoProofs TableModel TableRun TableCells TableCols.

(** ** Names *)

(** [Pc]: what is known about the cells. *)
Definition item_names (Pc : cell -> Prop) (i : titem) : Prop :=
  match i with
  | TOpen n a | TEmpty n a => name_ok n /\ Forall good_attr a
  | TClose n => name_ok n
  | TCell c _ _ => Pc c
  | TNode x => names_ok x
  end.
Definition cell_calls_ok (c : cell) : Prop := payload_ok (c_value c) /\ cell_names c.
Lemma sensible_items ds l cs : Forall (item_names cell_calls_ok) l ->
  (forall q, sensible q cs) -> forall q, sensible q (flat_map (item_calls ds) l ++ cs).
Proof.
  intros H Hc. induction H as [|i l Hi _ IH]; intros q; [apply Hc|]. cbn [flat_map]. rewrite <- app_assoc.
  destruct i as [n a|n|n a|c h k|x]; cbn [item_calls item_names] in *.
  - cbn [app]. apply sn_elem; [apply Hi|]. apply sensible_attr_calls; [apply Hi|apply IH].
  - cbn [app]. apply sn_end; [exact Hi|apply IH].
  - cbn [app]. apply sn_empty; [apply Hi|]. apply sensible_attr_calls; [apply Hi|apply IH].
  - apply sensible_cell; [apply Hi|apply Hi|apply IH].
  - apply sensible_node; [exact Hi|exact IH].
Qed.

(** ** Nesting *)

(** The open tags after the items. *)
Fixpoint tags (st : list str) (l : list titem) : option (list str) :=
  match l with
  | [] => Some st
  | TOpen n _ :: r => tags (n :: st) r
  | TClose n :: r => match st with m :: s => if str_eqb n m then tags s r else None | [] => None end
  | _ :: r => tags st r
  end.
Lemma tags_app l l' : forall st, tags st (l ++ l') = match tags st l with Some s => tags s l' | None => None end.
Proof.
  induction l as [|i l IH]; intros st; [reflexivity|]. destruct i; cbn [app tags]; auto.
  destruct st as [|m s]; [reflexivity|]. destruct (str_eqb n m); auto.
Qed.
Lemma good_is_attr l : Forall good_attr l -> Forall is_attr l.
Proof. apply Forall_impl. intros c. destruct c; cbn; try tauto; discriminate. Qed.
Lemma tags_nested Pc ds l : forall st st' cs, Forall (item_names Pc) l -> tags st l = Some st' -> calls_nested st' cs ->
  calls_nested st (flat_map (item_calls ds) l ++ cs).
Proof.
  induction l as [|i l IH]; intros st st' cs H T Hc; [injection T as <-; exact Hc|]. inversion H as [|? ? Hi Hl]; subst. cbn [flat_map].
  rewrite <- app_assoc. destruct i as [n a|n|n a|c h k|x]; cbn [item_calls tags item_names] in *.
  - cbn [app calls_nested]. apply nested_attr_calls; [apply good_is_attr, Hi|]. eauto.
  - destruct st as [|m s]; [discriminate|]. destruct (str_eqb n m) eqn:E; [|discriminate]. apply str_eqb_eq in E. cbn [app calls_nested]. eauto.
  - cbn [app calls_nested]. apply nested_attr_calls; [apply good_is_attr, Hi|]. eauto.
  - apply nested_cell. eauto.
  - apply nested_node. eauto.
Qed.

(** From the open tags [st] to the open tags [st']. *)
Definition walk (Pc : cell -> Prop) (st : list str) (l : list titem) (st' : list str) : Prop :=
  tags st l = Some st' /\ Forall (item_names Pc) l.
Lemma walk_nil Pc st : walk Pc st [] st.
Proof. split; [reflexivity|constructor]. Qed.
Lemma walk_app Pc a l b l' c : walk Pc a l b -> walk Pc b l' c -> walk Pc a (l ++ l') c.
Proof. intros [A B] [C D]. split; [rewrite tags_app, A; exact C|apply Forall_app; auto]. Qed.
Lemma walk_open Pc st n a : name_ok n -> Forall good_attr a -> walk Pc st [TOpen n a] (n :: st).
Proof. intros. split; [reflexivity|]. repeat constructor; auto; apply H. Qed.
Lemma walk_close Pc st n : name_ok n -> walk Pc (n :: st) [TClose n] st.
Proof. intros. split; [cbn; now rewrite str_eqb_refl|]. constructor; [exact H|constructor]. Qed.
Lemma walk_empty Pc st n a : name_ok n -> Forall good_attr a -> walk Pc st [TEmpty n a] st.
Proof. intros. split; [reflexivity|]. constructor; [split; auto|constructor]. Qed.
Lemma walk_cell (Pc : cell -> Prop) st c h k : Pc c -> walk Pc st [TCell c h k] st.
Proof. intros. split; [reflexivity|]. constructor; [exact H|constructor]. Qed.
Lemma walk_cons Pc a i b l c : walk Pc a [i] b -> walk Pc b l c -> walk Pc a (i :: l) c.
Proof. intros H1 H2. exact (walk_app _ _ [i] _ _ _ H1 H2). Qed.

(** ** The parts *)

Lemma show_visibility_good v : Forall good_attr (vis_attr v).
Proof. destruct v; cbn; constructor; try constructor; name_lit. Qed.
Lemma display_good d : Forall good_attr (display_attr d).
Proof. destruct d; cbn; constructor; [|constructor]. apply good_raw; [name_lit|plain_lit]. Qed.
Lemma raw_num n k : name_ok n -> Forall good_attr [CAttr n (show_N k)].
Proof. intros. constructor; [|constructor]. apply good_raw; [assumption|apply show_N_plain]. Qed.
Lemma col_attrs_good h : Forall good_attr (col_attrs h).
Proof.
  unfold col_attrs. rewrite !Forall_app. split; [apply num_attr_good; name_lit|]. split; [apply opt_attr_good; name_lit|].
  split; [apply opt_attr_good; name_lit|apply show_visibility_good].
Qed.
Lemma row_header_attrs_good h : Forall good_attr (row_header_attrs h).
Proof. unfold row_header_attrs. rewrite !Forall_app. split; [|split]; try (apply opt_attr_good; name_lit). apply show_visibility_good. Qed.

Section Parts.
  Variables (Pc : cell -> Prop) (st : list str).
  Notation walk := (walk Pc).
  Lemma walk_filler h k : walk st [empty_cells h k] st.
  Proof.
    unfold empty_cells. apply walk_empty; [destruct h; name_lit|]. destruct (1 <? k); [apply raw_num; name_lit|constructor].
  Qed.
  Lemma walk_pieces f l o : (forall h k, walk st [f h k] st) -> pieces f l = Ok o -> walk st o st.
  Proof.
    intros Hf. revert o. induction l as [|s l IH]; intros o H; cbn [pieces] in H; [injection H as <-; apply walk_nil|].
    destruct (s_repeat s); try discriminate. cbn [bind] in H. destruct (pieces f l) as [o'| |]; try discriminate. cbn [bind] in H.
    injection H as <-. eapply walk_cons; [apply Hf|]. now apply IH.
  Qed.
  Lemma walk_gap spans r c w o : gap_cells spans r c w = Ok o -> walk st o st.
  Proof.
    unfold gap_cells. destruct (0 <? w); [|intros H; injection H as <-; apply walk_nil].
    destruct (split_hidden spans r c w); try discriminate. cbn [bind]. apply walk_pieces. apply walk_filler.
  Qed.
  Lemma walk_empty_row sh r rep w o : empty_row sh r rep w = Ok o -> walk st o st.
  Proof.
    unfold empty_row, empty_row_attrs. destruct (valid_header r (tb_rows sh)) as [v| |]; try discriminate. cbn [bind]. intros H.
    match type of H with Ok ?x = Ok _ => assert (E : o = x) by (injection H; auto); clear H; subst o end.
    eapply walk_cons; [apply walk_open; [name_lit|]|].
    - constructor; [apply good_raw; [name_lit|apply show_N_plain]|]. destruct v; [apply row_header_attrs_good|constructor].
    - eapply walk_cons; [apply walk_empty; [name_lit|apply raw_num; name_lit]|]. apply walk_close. name_lit.
  Qed.
End Parts.

(** ** Rows *)

(** [n] open row groups. *)
Definition groups (n : N) (st : list str) : list str := repeat t_rgroup (N.to_nat n) ++ st.
Lemma groups_succ n st : groups (n + 1) st = t_rgroup :: groups n st.
Proof. unfold groups. replace (N.to_nat (n + 1)) with (S (N.to_nat n)) by lia. reflexivity. Qed.
Definition head_tag (b : bool) (st : list str) : list str := if b then t_hrows :: st else st.

Section RowParts.
  Variables (Pc : cell -> Prop) (st : list str) (sh : sheet).
  Notation walk := (walk Pc).

  Lemma walk_open_groups r rep gs : forall s o s', open_groups r rep gs s = Ok (o, s') ->
    walk (groups (w_count s) st) o (groups (w_count s') st) /\ w_head s' = w_head s.
  Proof.
    induction gs as [|g gs IH]; intros s o s' H; cbn [open_groups] in H; [injection H as <- <-; split; [apply walk_nil|reflexivity]|].
    destruct (within r rep (g_from g)) as [[|]| |]; try discriminate; cbn [bind] in H; [|now apply IH].
    destruct (open_groups r rep gs _) as [[o1 s1]| |] eqn:E; try discriminate. cbn [bind] in H.
    assert (Es : s' = s1) by congruence. subst s1. assert (Eo : o = TOpen t_rgroup (display_attr (g_display g)) :: o1) by congruence. subst o. clear H.
    apply IH in E as (E & F). cbn [w_count w_head] in *. split; [|exact F]. eapply walk_cons; [apply walk_open; [name_lit|apply display_good]|].
    rewrite groups_succ in E. exact E.
  Qed.
  Lemma walk_close_groups r rep gs : forall s o s', close_groups r rep gs s = Ok (o, s') ->
    walk (groups (w_count s) st) o (groups (w_count s') st) /\ w_head s' = w_head s.
  Proof.
    induction gs as [|g gs IH]; intros s o s' H; cbn [close_groups] in H; [injection H as <- <-; split; [apply walk_nil|reflexivity]|].
    destruct (within r rep (g_to g)) as [[|]| |]; try discriminate; cbn [bind] in H; [|now apply IH].
    destruct (sub32 (w_count s) 1) as [n| |] eqn:En; try discriminate. cbn [bind] in H. apply sub32_ok in En.
    destruct (close_groups r rep gs _) as [[o1 s1]| |] eqn:E; try discriminate. cbn [bind] in H.
    assert (Es : s' = s1) by congruence. subst s1. assert (Eo : o = TClose t_rgroup :: o1) by congruence. subst o. clear H.
    apply IH in E as (E & F). cbn [w_count w_head] in *. split; [|exact F]. replace (w_count s) with (n + 1) by lia. rewrite groups_succ.
    eapply walk_cons; [apply walk_close; name_lit|]. exact E.
  Qed.
  Lemma walk_close_at r gs : forall n o n', close_at r gs n = Ok (o, n') -> walk (groups n st) o (groups n' st).
  Proof.
    induction gs as [|g gs IH]; intros n o n' H; cbn [close_at] in H; [injection H as <- <-; apply walk_nil|].
    destruct (g_to g =? r); [|now apply IH].
    destruct (sub32 n 1) as [n1| |] eqn:En; try discriminate. cbn [bind] in H. apply sub32_ok in En.
    destruct (close_at r gs n1) as [[o1 n2]| |] eqn:E; try discriminate. cbn [bind] in H.
    assert (Es : n' = n2) by congruence. subst n2. assert (Eo : o = TClose t_rgroup :: o1) by congruence. subst o. clear H.
    apply IH in E. replace n with (n1 + 1) by lia. rewrite groups_succ. eapply walk_cons; [apply walk_close; name_lit|]. exact E.
  Qed.
  Lemma walk_opens k gs : forall n, walk (groups n st) (opens t_rgroup k gs) (groups (n + N.of_nat (length (opens t_rgroup k gs))) st).
  Proof.
    unfold opens. induction gs as [|g gs IH]; intros n; cbn [filter map length].
    - rewrite N.add_0_r. apply walk_nil.
    - destruct (g_from g =? k); [|apply IH]. cbn [map length]. eapply walk_cons; [apply walk_open; [name_lit|apply display_good]|].
      specialize (IH (n + 1)). rewrite groups_succ in IH. rewrite Nat2N.inj_succ, <- N.add_1_l, N.add_assoc. exact IH.
  Qed.
  Lemma walk_close_all n : forall m, n = N.to_nat m -> walk (groups m st) (repeat (TClose t_rgroup) n) st.
  Proof.
    induction n as [|n IH]; intros m E; cbn [repeat].
    - replace m with 0 by lia. apply walk_nil.
    - replace m with (m - 1 + 1) by lia. rewrite groups_succ. eapply walk_cons; [apply walk_close; name_lit|]. apply IH. lia.
  Qed.

  (** Inside a row. *)
  Definition in_tr (s : wst) : list str := t_row :: head_tag (w_head s) (groups (w_count s) st).
  Lemma walk_start_row r rep back s o s' : start_row sh r rep back s = Ok (o, s') ->
    walk (groups (w_count s) st) o (in_tr s')
    /\ exists hd, w_head s' = hd || w_head s
       /\ (hd = true -> exists f t, tb_hrows sh = Some (f, t) /\ r <= f < r + rep).
  Proof.
    unfold start_row. intros H. destruct (open_groups r rep (tb_grows sh) s) as [[o1 s1]| |] eqn:Eo; try discriminate. cbn [bind] in H.
    match type of H with bind ?X _ = _ => destruct X as [hd| |] eqn:Eh; try discriminate end. cbn [bind] in H.
    destruct (row_attrs (tb_rows sh) r) as [a| |] eqn:Ea; try discriminate. cbn [bind w_head w_count] in H.
    apply walk_open_groups in Eo as (Eo & Ew).
    match type of H with Ok (?x, ?y) = Ok _ => assert (E : o = x) by congruence; assert (E' : s' = y) by congruence; clear H; subst o; subst s' end.
    split.
    - eapply walk_app; [exact Eo|]. unfold in_tr. cbn [w_head w_count].
      eapply walk_app; [instantiate (1 := head_tag (hd || w_head s1) (groups (w_count s1) st)); destruct (hd || w_head s1); [apply walk_open; [name_lit|constructor]|apply walk_nil]|].
      eapply walk_cons; [apply walk_open; [name_lit|]|].
      + unfold row_attrs in Ea. destruct (valid_header r (tb_rows sh)) as [v| |]; try discriminate. cbn [bind] in Ea.
        match type of Ea with Ok ?x = Ok _ => assert (E : a = x) by congruence; clear Ea; subst a end.
        destruct v; [|constructor]. apply Forall_app. split; [apply num_attr_good; name_lit|apply row_header_attrs_good].
      + destruct (0 <? back); [|apply walk_nil]. apply walk_empty; [name_lit|]. apply num_attr_good. name_lit.
    - exists hd. cbn [w_head]. split; [now rewrite Ew|]. intros ->. destruct (tb_hrows sh) as [[f t]|]; [|discriminate]. exists f, t. split; [reflexivity|].
      unfold within_header in Eh. destruct (r <=? f) eqn:L; [|discriminate]. destruct (add32 r rep) as [e| |] eqn:E; try discriminate. cbn [bind] in Eh.
      apply add32_ok in E. injection Eh as Eh. lia.
  Qed.
  Lemma walk_end_row r rep s o s' : end_row sh r rep s = Ok (o, s') ->
    walk (in_tr s) o (groups (w_count s') st)
    /\ (w_head s' = true -> w_head s = true /\ forall f t, tb_hrows sh = Some (f, t) -> ~ (r <= t < r + rep)).
  Proof.
    unfold end_row. intros H. match type of H with bind ?X _ = _ => destruct X as [hd| |] eqn:Eh; try discriminate end. cbn [bind] in H.
    match type of H with bind ?X _ = _ => destruct X as [[o1 s1]| |] eqn:Eo; try discriminate end. cbn [bind] in H.
    apply walk_close_groups in Eo as (Eo & Ew). cbn [w_head w_count] in *.
    match type of H with Ok (?x, ?y) = Ok _ => assert (E : o = x) by congruence; assert (E' : s' = y) by congruence; clear H; subst o; subst s' end.
    split.
    - unfold in_tr. eapply walk_cons; [apply walk_close; name_lit|]. eapply walk_app; [|exact Eo].
      destruct (w_head s); cbn [head_tag]; [apply walk_close; name_lit|apply walk_nil].
    - rewrite Ew. intros W. apply andb_prop in W as [W1 W2]. split; [exact W1|]. intros f t Et. rewrite Et in Eh.
      unfold within_header in Eh. intros I. destruct (r <=? t) eqn:L; [|lia]. destruct (add32 r rep) as [e| |] eqn:E; try discriminate. cbn [bind] in Eh.
      apply add32_ok in E. assert (hd = true); [|subst hd; discriminate]. injection Eh as <-. lia.
  Qed.
  Lemma walk_end_last s : walk (in_tr s) (end_last_row s) st.
  Proof.
    unfold end_last_row, in_tr. eapply walk_cons; [apply walk_close; name_lit|].
    eapply walk_app; [instantiate (1 := groups (w_count s) st); destruct (w_head s); [apply walk_close; name_lit|apply walk_nil]|].
    now apply walk_close_all.
  Qed.
  Lemma walk_empty_row_in r w s o s' : empty_row_in sh r w s = Ok (o, s') -> w_head s = false ->
    (forall f t, tb_hrows sh = Some (f, t) -> r <> f) ->
    walk (groups (w_count s) st) o (groups (w_count s') st) /\ w_head s' = false.
  Proof.
    unfold empty_row_in. intros H Hw Hf. rewrite Hw in H. cbn [andb orb] in H.
    destruct (close_at r (tb_grows sh) (w_count s)) as [[c n]| |] eqn:Ec; try discriminate. cbn [bind] in H.
    destruct (empty_row sh r 1 w) as [row| |] eqn:Er; try discriminate. cbn [bind] in H.
    assert (Eh : match tb_hrows sh with Some (f, _) => f =? r | None => false end = false).
    { destruct (tb_hrows sh) as [[f t]|]; [|reflexivity]. specialize (Hf f t eq_refl). lia. }
    rewrite Eh in H. cbn [app] in H.
    match type of H with Ok (?x, ?y) = Ok _ => assert (E : o = x) by congruence; assert (E' : s' = y) by congruence; clear H; subst o; subst s' end.
    cbn [w_count w_head]. split; [|reflexivity]. eapply walk_app; [eapply walk_close_at; exact Ec|].
    eapply walk_app; [apply walk_opens|]. eapply walk_empty_row. exact Er.
  Qed.
  Lemma walk_empty_rows_in n : forall r w s o s', empty_rows_in sh n r w s = Ok (o, s') -> w_head s = false ->
    (forall f t, tb_hrows sh = Some (f, t) -> ~ (r <= f < r + N.of_nat n)) ->
    walk (groups (w_count s) st) o (groups (w_count s') st) /\ w_head s' = false.
  Proof.
    induction n as [|n IH]; intros r w s o s' H Hw Hf; cbn [empty_rows_in] in H; [injection H as <- <-; split; [apply walk_nil|exact Hw]|].
    destruct (empty_row_in sh r w s) as [[o1 s1]| |] eqn:E1; try discriminate. cbn [bind] in H.
    destruct (empty_rows_in sh n (r + 1) w s1) as [[o2 s2]| |] eqn:E2; try discriminate. cbn [bind] in H.
    assert (E : o = o1 ++ o2) by congruence. assert (E' : s' = s2) by congruence. clear H. subst o s'.
    apply walk_empty_row_in in E1 as (W1 & H1); [|exact Hw|].
    - apply IH in E2 as (W2 & H2); [|exact H1|]; [split; [eapply walk_app; eassumption|exact H2]|].
      intros f t Ef. specialize (Hf f t Ef). lia.
    - intros f t Ef. specialize (Hf f t Ef). lia.
  Qed.
  Lemma walk_empty_rows r rep w s o s' : empty_rows sh r rep w s = Ok (o, s') -> w_head s = false ->
    (forall f t, tb_hrows sh = Some (f, t) -> ~ (r <= f < r + rep)) ->
    walk (groups (w_count s) st) o (groups (w_count s') st) /\ w_head s' = false.
  Proof.
    unfold empty_rows. intros H Hw Hf. destruct (negb _ || _).
    - destruct (add32 r rep); try discriminate. cbn [bind] in H. eapply walk_empty_rows_in; [exact H|exact Hw|].
      intros f t Ef. specialize (Hf f t Ef). lia.
    - destruct (empty_row sh r rep w) as [o1| |] eqn:E; try discriminate. cbn [bind] in H.
      assert (E' : o = o1) by congruence. assert (E2 : s' = s) by congruence. subst o1 s'. split; [|exact Hw]. eapply walk_empty_row. exact E.
  Qed.
End RowParts.

Section CellParts.
  Variables (Pc : cell -> Prop) (st : list str) (sh : sheet) (all : cells).
  Notation walk := (walk Pc).
  Notation rep r := (row_repeat_at (tb_rows sh) r).
  (** No row that is written as empty row is a header row. *)
  Definition no_gap : Prop := forall f t, tb_hrows sh = Some (f, t) -> f <= t /\
    forall k, f <= k <= t -> (exists r, in_row all r /\ r <= k < r + rep r) \/ (forall r, in_row all r -> r <= k).
  Hypothesis Hgap : no_gap.

  Definition winv (pv : option prev) (s : wst) (l : cells) : Prop :=
    (forall kv, In kv l -> In kv all) /\
    match pv with
    | None => s = WST 0 false /\ forall r, in_row all r -> in_row l r
    | Some v => pv_rep v = rep (pv_row v)
        /\ (forall r, in_row all r -> r = pv_row v \/ r + rep r <= pv_row v \/ in_row l r)
        /\ (w_head s = true -> exists f t, tb_hrows sh = Some (f, t) /\ f < pv_row v + pv_rep v /\ pv_row v <= t)
    end.
  Definition wstack (pv : option prev) (s : wst) : list str := match pv with None => st | Some _ => in_tr st s end.

  Lemma in_row_cons p c l r : in_row ((p, c) :: l) r -> r = fst p \/ in_row l r.
  Proof. intros (b & x & [I|I]); [injection I as -> _; auto|]. right. exists b, x. exact I. Qed.
  Lemma in_row_sorted p c l r : om_sorted pltb ((p, c) :: l) -> in_row ((p, c) :: l) r -> fst p <= r.
  Proof.
    intros [Hs _] H. apply in_row_cons in H as [->|(b & x & I)]; [lia|]. rewrite Forall_forall in Hs. specialize (Hs _ I).
    unfold pltb in Hs. cbn [fst snd] in Hs. lia.
  Qed.

  Lemma walk_cell_at mx pv spans s p c l o spans' s' :
    write_cell_at sh mx pv spans s p c (match l with kv :: _ => Some (fst kv) | [] => None end) = Ok (o, spans', s') ->
    winv pv s ((p, c) :: l) -> om_sorted pltb ((p, c) :: l) -> Pc c ->
    walk (wstack pv s) o (match l with [] => st | _ => in_tr st s' end)
    /\ winv (Some (PREV (fst p) (rep (fst p)) (snd p))) s' l.
  Proof.
    unfold write_cell_at. destruct p as [row col]. cbn [fst snd]. intros H (Ha & Hi) Hs Hc.
    assert (Hall : in_row all row) by (exists col, c; apply Ha; now left).
    destruct (match match l with [] => None | kv :: _ => Some (fst kv) end with Some q => q | None => mx end) as [nrow ncol].
    destruct (sub32 nrow row) as [fr| |]; try discriminate. cbn [bind] in H.
    match type of H with bind ?X _ = _ => destruct X as [fc| |]; try discriminate end. cbn [bind] in H.
    set (PP := match pv with Some v => (pv_row v, pv_rep v, pv_col v) | None => (0, 1, 0) end) in H.
    destruct PP as [[prow prep] pcol] eqn:EP.
    destruct (sub32 row prow) as [br| |] eqn:Eb; try discriminate. cbn [bind] in H. apply sub32_ok in Eb.
    match type of H with bind ?X _ = _ => destruct X as [bc| |]; try discriminate end. cbn [bind] in H.
    match type of H with bind ?X _ = _ => destruct X as [[o1 s1]| |] eqn:E1; try discriminate end. cbn [bind] in H.
    match type of H with bind ?X _ = _ => destruct X as [[o2 s2]| |] eqn:E2; try discriminate end. cbn [bind] in H.
    match type of H with bind ?X _ = _ => destruct X as [[o3 s3]| |] eqn:E3; try discriminate end. cbn [bind] in H.
    match type of H with bind ?X _ = _ => destruct X as [[sp1 sp]| |] eqn:Eh; try discriminate end. cbn [bind] in H.
    destruct (pieces (TCell c) sp) as [o4| |] eqn:E4; try discriminate. cbn [bind] in H.
    match type of H with bind ?X _ = _ => destruct X as [o5| |] eqn:E5; try discriminate end. cbn [bind] in H.
    match type of H with Ok (?x, ?y, ?z) = Ok _ => assert (Eo : o = x) by congruence; assert (Es : s' = z) by congruence; clear H end. subst o s'.
    (* the row *)
    assert (R : walk (wstack pv s) (o1 ++ o2 ++ o3) (in_tr st s3) /\ winv (Some (PREV row (rep row) col)) s3 l).
    { assert (Hrows : forall r, in_row all r -> r = row \/ r + rep r <= row \/ in_row l r).
      { intros r Hr. destruct pv as [v|].
        - destruct Hi as (Hr1 & Hr2 & _). injection EP as <- <- <-. destruct (Hr2 r Hr) as [->|[X|X]].
          + destruct (0 <? br) eqn:B; [|left; lia]. right. left. cbn [negb andb] in E2. destruct (br <? pv_rep v) eqn:L; [discriminate|]. lia.
          + right. left. lia.
          + apply in_row_cons in X as [X|X]; [left; exact X|auto].
        - destruct Hi as (_ & Hr2). apply Hr2, in_row_cons in Hr as [X|X]; [left; exact X|auto]. }
      (* no header row in the gap *)
      assert (Gap : forall f t k, tb_hrows sh = Some (f, t) -> f <= k <= t -> k < row ->
                match pv with Some v => pv_row v + pv_rep v <= k | None => True end -> False).
      { intros f t k Ef Hk L Hp. destruct (Hgap f t Ef) as (_ & G). destruct (G k Hk) as [(r & Hr & Hrk)|G2].
        - assert (X : in_row ((row, col, c) :: l) r).
          { destruct pv as [v|].
            - destruct Hi as (Hr1 & Hr2 & _). destruct (Hr2 r Hr) as [->|[X|X]]; [lia|lia|exact X].
            - apply Hi, Hr. }
          pose proof (in_row_sorted _ _ _ _ Hs X) as Y. cbn [fst] in Y. lia.
        - specialize (G2 row Hall). lia. }
      destruct (0 <? br) eqn:B.
      - (* a new row *)
        assert (S1 : walk (wstack pv s) o1 (groups (w_count s1) st)
          /\ (w_head s1 = true -> exists f t, tb_hrows sh = Some (f, t) /\ match pv with Some v => f < pv_row v + pv_rep v <= t | None => False end)).
        { destruct pv as [v|]; cbn [negb andb] in E1.
          - injection EP as <- <- <-. destruct Hi as (Hr1 & Hr2 & Hr3). apply (walk_end_row Pc st) in E1 as (W & W2). split; [exact W|].
            intros Hw. apply W2 in Hw as (Hw & W3). destruct (Hr3 Hw) as (f & t & Ef & L). specialize (W3 f t Ef). exists f, t. split; [exact Ef|lia].
          - destruct Hi as (-> & _). injection E1 as <- <-. cbn [w_head w_count wstack]. split; [apply walk_nil|discriminate]. }
        destruct S1 as (S1 & S1h). destruct (br <? prep) eqn:L; [discriminate|].
        match type of E2 with bind ?X _ = _ => destruct X as [synth| |] eqn:Ey; try discriminate end. cbn [bind] in E2.
        destruct (sub32 row synth) as [r0| |] eqn:Er0; try discriminate. cbn [bind] in E2. apply sub32_ok in Er0.
        assert (Hsy : match pv with Some v => synth = br - pv_rep v /\ prep = pv_rep v /\ prow = pv_row v | None => synth = row end).
        { destruct pv as [v|]; [injection EP as <- <- <-; injection Ey as <-; auto|]. injection EP as <- <- <-. apply add32_ok in Ey. lia. }
        assert (S2 : walk (groups (w_count s1) st) o2 (groups (w_count s2) st)
          /\ (w_head s2 = true -> exists f t, tb_hrows sh = Some (f, t) /\ f < row <= t)).
        { destruct (0 <? synth) eqn:Y.
          - assert (W0 : w_head s1 = false).
            { destruct (w_head s1) eqn:W; [|reflexivity]. exfalso. destruct (S1h eq_refl) as (f & t & Ef & L1).
              destruct pv as [v|]; [|exact L1]. apply (Gap f t (pv_row v + pv_rep v)); [exact Ef|lia|lia|lia]. }
            apply (walk_empty_rows Pc st) in E2 as (W & W'); [split; [exact W|rewrite W'; discriminate]|exact W0|].
            intros f t Ef F. apply (Gap f t f); [exact Ef|destruct (Hgap f t Ef); lia|lia|]. destruct pv as [v|]; [lia|exact I].
          - injection E2 as <- <-. split; [apply walk_nil|]. intros Hw. destruct (S1h Hw) as (f & t & Ef & L1). exists f, t. split; [exact Ef|]. destruct pv as [v|]; [lia|contradiction]. }
        destruct S2 as (S2 & S2h). cbn [orb] in E3.
        apply (walk_start_row Pc st) in E3 as (S3 & hd & W3 & W4). split; [eapply walk_app; [exact S1|]; eapply walk_app; [exact S2|exact S3]|].
        split; [intros kv I; apply Ha; now right|]. cbn [pv_row pv_rep]. split; [reflexivity|]. split; [exact Hrows|].
        intros Hw. rewrite W3 in Hw. apply orb_prop in Hw as [Hw|Hw].
        + apply W4 in Hw as (f & t & Ef & L2). exists f, t. split; [exact Ef|]. destruct (Hgap f t Ef). lia.
        + destruct (S2h Hw) as (f & t & Ef & L2). exists f, t. split; [exact Ef|]. lia.
      - (* the same row, or row 0 *)
        cbn [negb andb orb] in *. injection E1 as <- <-. injection E2 as <- <-. destruct pv as [v|].
        + injection E3 as <- <-. injection EP as <- <- <-. destruct Hi as (Hr1 & Hr2 & Hr3). assert (Er : pv_row v = row) by lia.
          cbn [app wstack]. split; [apply walk_nil|]. split; [intros kv I; apply Ha; now right|]. cbn [pv_row pv_rep]. split; [reflexivity|].
          split; [exact Hrows|]. intros Hw. destruct (Hr3 Hw) as (f & t & Ef & L). exists f, t. split; [exact Ef|]. rewrite Hr1, Er in L. lia.
        + injection EP as <- <- <-. destruct Hi as (-> & _). apply (walk_start_row Pc st) in E3 as (S3 & hd & W3 & W4). cbn [app wstack]. split; [exact S3|].
          split; [intros kv I; apply Ha; now right|]. cbn [pv_row pv_rep]. split; [reflexivity|]. split; [exact Hrows|].
          intros Hw. rewrite W3 in Hw. cbn [w_head] in Hw. rewrite orb_false_r in Hw. apply W4 in Hw as (f & t & Ef & L2). exists f, t.
          split; [exact Ef|]. destruct (Hgap f t Ef). lia. }
    destruct R as (R & Ri). split; [|exact Ri].
    replace (o1 ++ o2 ++ o3 ++ o4 ++ o5 ++ match match l with [] => None | kv :: _ => Some (fst kv) end with Some _ => [] | None => end_last_row s3 end)
      with ((o1 ++ o2 ++ o3) ++ o4 ++ o5 ++ match l with [] => end_last_row s3 | _ => [] end) by (rewrite <- !app_assoc; destruct l; reflexivity).
    eapply walk_app; [exact R|]. eapply walk_app; [eapply walk_pieces; [|exact E4]; intros; now apply walk_cell|].
    eapply walk_app.
    - instantiate (1 := in_tr st s3). destruct (0 <? fr).
      + destruct (0 <? fc - c_repeat c); [|injection E5 as <-; apply walk_nil]. destruct (add32 col (c_repeat c)); try discriminate. cbn [bind] in E5.
        eapply walk_gap. exact E5.
      + destruct (0 <? fc); [|injection E5 as <-; apply walk_nil]. destruct (fc <? c_repeat c); [discriminate|].
        destruct (0 <? fc - c_repeat c); [|injection E5 as <-; apply walk_nil]. destruct (add32 col (c_repeat c)); try discriminate. cbn [bind] in E5.
        eapply walk_gap. exact E5.
    - destruct l; [apply walk_end_last|apply walk_nil].
  Qed.
  Lemma walk_cells mx : forall l pv spans s o, write_cells sh mx pv spans s l = Ok o -> l <> [] -> winv pv s l -> om_sorted pltb l ->
    Forall (fun kv => Pc (snd kv)) l -> walk (wstack pv s) o st.
  Proof.
    induction l as [|[p c] l IH]; intros pv spans s o H Hne Hi Hs Hf; [contradiction|]. cbn [write_cells] in H.
    match type of H with bind ?X _ = _ => destruct X as [[[o1 spans'] s1]| |] eqn:E1; try discriminate end. cbn [bind] in H.
    match type of H with bind ?X _ = _ => destruct X as [o2| |] eqn:E2; try discriminate end. cbn [bind] in H.
    assert (Eo : o = o1 ++ o2) by congruence. subst o. clear H. inversion Hf as [|? ? Hc Hf']; subst. cbn [snd] in Hc.
    destruct (walk_cell_at _ _ _ _ _ _ _ _ _ _ E1 Hi Hs Hc) as (W1 & I1). destruct l as [|kv l].
    - cbn [write_cells] in E2. injection E2 as <-. rewrite app_nil_r. exact W1.
    - eapply walk_app; [exact W1|]. apply (IH _ _ _ _ E2); [discriminate|exact I1|apply Hs|exact Hf'].
  Qed.
End CellParts.

(** ** Columns *)

(** [n] open column groups. *)
Definition cgroups (n : nat) (st : list str) : list str := repeat t_cgroup n ++ st.
Lemma walk_copens Pc st k gs : forall n, walk Pc (cgroups n st) (opens t_cgroup k gs) (cgroups (n + length (filter (fun g => g_from g =? k) gs)) st).
Proof.
  unfold opens. induction gs as [|g gs IH]; intros n; cbn [filter map length].
  - rewrite Nat.add_0_r. apply walk_nil.
  - destruct (g_from g =? k); [|apply IH]. cbn [map length]. eapply walk_cons; [apply walk_open; [name_lit|apply display_good]|].
    rewrite <- Nat.add_succ_comm. exact (IH (S n)).
Qed.
Lemma walk_ccloses Pc st k gs : forall n, walk Pc (cgroups (n + length (filter (fun g => g_to g =? k) gs)) st) (closes t_cgroup k gs) (cgroups n st).
Proof.
  unfold closes. induction gs as [|g gs IH]; intros n; cbn [filter map length].
  - rewrite Nat.add_0_r. apply walk_nil.
  - destruct (g_to g =? k); [|apply IH]. cbn [map length]. rewrite Nat.add_succ_r. eapply walk_cons; [|apply IH].
    change (cgroups (S (n + length (filter (fun g0 => g_to g0 =? k) gs))) st) with (t_cgroup :: cgroups (n + length (filter (fun g0 => g_to g0 =? k) gs)) st).
    apply walk_close. name_lit.
Qed.

(** The groups that are open before column [c]. *)
Definition open_at (c : N) (gs : list grouped) : nat := length (filter (fun g => (g_from g <? c) && (c <=? g_to g)) gs).
(** If all groups open and close at columns that are written, the open groups after column [c]
    are the ones open before the next column [c'] that is written. *)
Lemma open_next c c' gs : c < c' -> (forall g, In g gs -> g_from g <= g_to g) ->
  (forall g, In g gs -> ~ (c < g_from g < c') /\ ~ (c < g_to g < c')) ->
  (open_at c gs + length (filter (fun g => (g_from g =? c)%N) gs) = open_at c' gs + length (filter (fun g => (g_to g =? c)%N) gs))%nat.
Proof.
  intros L V. unfold open_at. induction gs as [|g gs IH]; intros H; [reflexivity|]. cbn [filter].
  specialize (IH (fun x I => V x (or_intror I)) (fun x I => H x (or_intror I))).
  specialize (V g (or_introl eq_refl)). destruct (H g (or_introl eq_refl)) as (H1 & H2).
  assert (X : ((if ((g_from g <? c) && (c <=? g_to g))%N then 1 else 0) + (if (g_from g =? c)%N then 1 else 0)
    = (if ((g_from g <? c') && (c' <=? g_to g))%N then 1 else 0) + (if (g_to g =? c)%N then 1 else 0))%nat).
  { destruct (N.ltb_spec (g_from g) c), (N.leb_spec c (g_to g)), (N.eqb_spec (g_from g) c), (N.ltb_spec (g_from g) c'), (N.leb_spec c' (g_to g)), (N.eqb_spec (g_to g) c);
      cbn [andb]; lia. }
  destruct ((g_from g <? c) && (c <=? g_to g)), (g_from g =? c), ((g_from g <? c') && (c' <=? g_to g)), (g_to g =? c); cbn [length] in *; lia.
Qed.

Section Cols.
  Variables (Pc : cell -> Prop) (st : list str) (sh : sheet).
  (** No group begins or ends inside a header that spans columns. *)
  Definition straddled (k : N) : Prop := exists b h, In (b, h) (tb_cols sh) /\ b < k < b + h_span h.
  Hypothesis Hd : disjoint (tb_cols sh).
  Hypothesis Hv : forall g, In g (tb_gcols sh) -> g_from g <= g_to g.
  Hypothesis Hg : forall g, In g (tb_gcols sh) -> ~ straddled (g_from g) /\ ~ straddled (g_to g).

  Lemma walk_cols mx : forall n c o, write_cols sh mx n c = Ok o -> ~ straddled c ->
    (mx <= c + N.of_nat n) -> (forall g, In g (tb_gcols sh) -> g_to g < mx) ->
    walk Pc (cgroups (open_at c (tb_gcols sh)) st) o st.
  Proof.
    assert (End : forall c mx, mx <= c -> (forall g, In g (tb_gcols sh) -> g_to g < mx) -> open_at c (tb_gcols sh) = 0%nat).
    { intros c m L H. unfold open_at. induction (tb_gcols sh) as [|g gs IH]; [reflexivity|]. cbn [filter].
      specialize (H g (or_introl eq_refl)) as Hx. destruct (c <=? g_to g) eqn:E; [lia|]. rewrite andb_false_r. apply IH; intros; first [apply Hv|apply Hg|apply H]; now right. }
    induction n as [|n IH]; intros c o H Hc Hn Hm; cbn [write_cols] in H.
    - injection H as <-. rewrite (End c mx) by (auto; lia). apply walk_nil.
    - destruct (mx <=? c) eqn:L; [injection H as <-; rewrite (End c mx) by (auto; lia); apply walk_nil|].
      destruct (col_item (tb_cols sh) c) as [it span] eqn:Ei.
      destruct (N.eqb_spec span 0) as [|Hsp]; [discriminate|]. destruct (add32 c span) as [c'| |] eqn:Ea; try discriminate. cbn [bind] in H. apply add32_ok in Ea.
      match type of H with bind ?X _ = _ => destruct X as [rest| |] eqn:Er; try discriminate end. cbn [bind] in H.
      match type of H with Ok ?x = Ok _ => assert (Eo : o = x) by congruence; clear H; subst o end.
      assert (It : forall s, walk Pc s [it] s /\ forall k, c < k < c' -> straddled k).
      { intros s. unfold col_item in Ei. destruct (hget c (tb_cols sh)) as [h|] eqn:Eg; injection Ei as <- <-.
        - split; [apply walk_empty; [name_lit|apply col_attrs_good]|]. intros k Hk. exists c, h. split; [|lia].
          apply (hget_in c h); [apply Hd|exact Eg].
        - split; [apply walk_empty; [name_lit|constructor]|]. intros k Hk. lia. }
      eapply walk_app; [apply walk_copens|].
      eapply walk_app.
      { instantiate (1 := cgroups (open_at c (tb_gcols sh) + length (filter (fun g => g_from g =? c) (tb_gcols sh))) st).
        unfold around. destruct (in_header (tb_hcols sh) c); [|apply It]. eapply walk_cons; [apply walk_open; [name_lit|constructor]|].
        eapply walk_app; [apply It|apply walk_close; name_lit]. }
      assert (N1 : forall g, In g (tb_gcols sh) -> ~ (c < g_from g < c') /\ ~ (c < g_to g < c')).
      { intros g I. destruct (Hg g I) as (G1 & G2). split; intros X; [apply G1|apply G2]; eapply It; try exact X; exact []. }
      rewrite (open_next c c' (tb_gcols sh)) by (auto; lia).
      eapply walk_app; [apply walk_ccloses|]. apply IH; [exact Er| |lia|exact Hm].
      (* the next column is not straddled *)
      intros (b & h & I & X). destruct Hd as (_ & _ & D). unfold col_item in Ei. destruct (hget c (tb_cols sh)) as [h'|] eqn:Eg; injection Ei as <- <-.
      + assert (I' : In (c, h') (tb_cols sh)) by (apply (hget_in c h'); [apply Hd|exact Eg]).
        destruct (N.lt_trichotomy b c) as [B|[B|B]].
        * specialize (D _ _ _ _ I I' B). lia.
        * subst b. assert (h = h'); [|subst; lia]. destruct Hd as (Hs & _). apply (hget_in c h _ Hs) in I. congruence.
        * specialize (D _ _ _ _ I' I B). lia.
      + destruct (N.lt_trichotomy b c) as [B|[B|B]]; [|subst b|lia].
        * apply Hc. exists b, h. split; [exact I|lia].
        * destruct Hd as (Hs & _). apply (hget_in c h _ Hs) in I. congruence.
  Qed.
End Cols.

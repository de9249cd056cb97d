(** Groups and header ranges of a table that is written and read. *)
From Coq Require Import Permutation Sorted.
From Verif Require Import Base Lib OMap OMapProofs XmlModel XmlSpec XmlProofs RefsModel CellModel HeaderModel HeaderSpec HeaderProofs
  SplitModel NumModel EnumModel CellIoModel CellIoSpec CellIoProofs TableModel TableSpec TableRun TableCells TableCols TableRead TableNested TableWhole GroupSpec.

(** ** Brackets *)

Definition inner (x y : N * grouped) : Prop := g_to (snd x) <= g_to (snd y).
Lemma sorted_filter_split {A} (R : A -> A -> Prop) (Q : A -> bool) l : StronglySorted R l ->
  (forall x y, In x l -> In y l -> R x y -> Q y = true -> Q x = true) ->
  exists k r, l = k ++ r /\ Forall (fun x => Q x = true) k /\ Forall (fun x => Q x = false) r.
Proof.
  induction 1 as [|x l S IH F]; intros H; [exists [], []; repeat constructor|].
  destruct (Q x) eqn:E.
  - destruct IH as (k & r & -> & K & T); [intros; eapply H; eauto; now right|]. exists (x :: k), r. repeat split; auto.
  - exists [], (x :: l). repeat split; auto. constructor; [exact E|]. apply Forall_forall. intros y I. destruct (Q y) eqn:Ey; [|reflexivity].
    rewrite <- E. symmetry. apply (H x y); [now left|now right| |exact Ey]. rewrite Forall_forall in F. auto.
Qed.
Lemma sorting {A} (R : A -> A -> Prop) (tot : forall x y, R x y \/ R y x) (tr : forall x y z, R x y -> R y z -> R x z) (l : list A) :
  exists l', Permutation l l' /\ StronglySorted R l'.
Proof.
  induction l as [|x l (l' & P & S)]; [exists []; repeat constructor|].
  assert (I : exists l2, Permutation (x :: l') l2 /\ StronglySorted R l2).
  { clear P. induction S as [|y l1 S IH F]; [exists [x]; repeat constructor|]. destruct (tot x y) as [T|T].
    - exists (x :: y :: l1). split; [apply Permutation_refl|]. constructor; [constructor; assumption|]. constructor; [exact T|].
      eapply Forall_impl; [|exact F]. intros z. apply tr. exact T.
    - destruct IH as (l2 & P2 & S2). exists (y :: l2). split; [etransitivity; [apply perm_swap|now constructor]|]. constructor; [exact S2|].
      apply Forall_forall. intros z Iz. apply (Permutation_in z (Permutation_sym P2)) in Iz. destruct Iz as [<-|Iz]; [exact T|].
      rewrite Forall_forall in F. auto. }
  destruct I as (l2 & P2 & S2). exists l2. split; [|exact S2]. etransitivity; [|exact P2]. now constructor.
Qed.
Lemma sorted_app {A} (R : A -> A -> Prop) l l' : StronglySorted R l -> StronglySorted R l' -> (forall x y, In x l -> In y l' -> R x y) -> StronglySorted R (l ++ l').
Proof.
  induction 1 as [|x l S IH F]; intros S' H; [exact S'|]. cbn [app]. constructor; [apply IH; [exact S'|]; intros; apply H; auto; now right|].
  apply Forall_app. split; [exact F|]. apply Forall_forall. intros y I. apply H; [now left|exact I].
Qed.
Lemma sorted_app_r {A} (R : A -> A -> Prop) l l' : StronglySorted R (l ++ l') -> StronglySorted R l'.
Proof. induction l as [|x l IH]; [auto|]. intros H. inversion H; auto. Qed.
Lemma filter_perm {A} (Q : A -> bool) l l' : Permutation l l' -> Permutation (filter Q l) (filter Q l').
Proof.
  induction 1; cbn [filter]; auto.
  - destruct (Q x); auto.
  - destruct (Q x), (Q y); auto. apply perm_swap.
  - etransitivity; eassumption.
Qed.
Lemma filter_or {A} (P Q R : A -> bool) l : (forall x, In x l -> P x = Q x || R x) -> (forall x, In x l -> Q x && R x = false) ->
  Permutation (filter P l) (filter Q l ++ filter R l).
Proof.
  induction l as [|x l IH]; intros H1 H2; [apply Permutation_refl|]. cbn [filter].
  specialize (IH (fun y I => H1 y (or_intror I)) (fun y I => H2 y (or_intror I))).
  specialize (H1 x (or_introl eq_refl)). specialize (H2 x (or_introl eq_refl)). rewrite H1. destruct (Q x), (R x); cbn [orb andb] in *; try discriminate.
  - cbn [app]. now constructor.
  - etransitivity; [apply perm_skip; exact IH|]. apply Permutation_middle.
  - exact IH.
Qed.

(** [st] is the stack of the reader and [out] what it has put into the sheet; [L] are the groups
    that are open, innermost first, with the row they began at; [D] the ones that ended.
    With [ord] the stack has the flags in the right order. *)
Record held (ord : bool) (L : list (N * grouped)) (D : list moved) (st out : list grouped) : Prop := {
  hd_from : map g_from st = map fst L;
  hd_sort : StronglySorted inner L;
  hd_span : Permutation (map span_of out) (map fst D);
  hd_flag : Permutation (map flag_of (out ++ st)) (map (fun d => (fst (fst d), g_display (snd d))) D ++ map (fun x => (fst x, g_display (snd x))) L);
  hd_exact : ord = true -> map g_display st = map (fun x => g_display (snd x)) L /\ Permutation out (map as_group D) }.

Lemma held_nil ord : held ord [] [] [] [].
Proof. constructor; cbn; auto; constructor. Qed.

Lemma held_push ord L D st out p new : held ord L D st out ->
  (forall g x, In g new -> In x L -> g_to g <= g_to (snd x)) ->
  (ord = true -> ForallOrdPairs (fun a b => g_to b <= g_to a) new) ->
  exists L1, Permutation L1 (map (pair p) new)
    /\ held ord (L1 ++ L) D (rev (map (fun g => mkGrp p 0 (g_display g)) new) ++ st) out.
Proof.
  intros [H1 H2 H3 H4 H5] Hn Ho.
  assert (E : exists L1, Permutation L1 (map (pair p) new) /\ StronglySorted inner L1 /\ (ord = true -> L1 = rev (map (pair p) new))).
  { destruct ord.
    - exists (rev (map (pair p) new)). split; [symmetry; apply Permutation_rev|]. split; [|reflexivity]. specialize (Ho eq_refl).
      clear - Ho. induction Ho as [|a l F O IH]; [constructor|]. cbn [map rev]. apply sorted_app; [exact IH|constructor; constructor|].
      intros x y Ix [<-|[]]. apply in_rev in Ix. apply in_map_iff in Ix as (g & <- & Ig). unfold inner. cbn [snd]. rewrite Forall_forall in F. auto.
    - destruct (sorting inner) with (l := map (pair p) new) as (L1 & P & S).
      + intros x y. unfold inner. lia.
      + intros x y z. unfold inner. lia.
      + exists L1. split; [now symmetry|]. split; [exact S|discriminate]. }
  destruct E as (L1 & P1 & S1 & O1). exists L1. split; [exact P1|].
  assert (Fst : map fst L1 = repeat p (length new)).
  { assert (F : Forall (fun x => x = p) (map fst L1)).
    { apply Forall_forall. intros x I. apply in_map_iff in I as (y & <- & I). apply (Permutation_in _ P1) in I. apply in_map_iff in I as (g & <- & _). reflexivity. }
    assert (Hl : length (map fst L1) = length new) by (rewrite map_length, (Permutation_length P1), map_length; reflexivity).
    rewrite <- Hl. clear - F. induction F as [|x l -> F IH]; [reflexivity|]. cbn. now f_equal. }
  constructor.
  - rewrite !map_app, H1. f_equal. rewrite Fst, map_rev, map_map. cbn [g_from]. clear. induction new as [|g new IH]; [reflexivity|]. cbn [map rev length].
    rewrite IH. clear. induction (length new) as [|n IH]; [reflexivity|]. cbn [repeat app]. now f_equal.
  - apply sorted_app; [exact S1|exact H2|]. intros x y Ix Iy. apply (Permutation_in _ P1) in Ix. apply in_map_iff in Ix as (g & <- & Ig).
    unfold inner. cbn [snd]. auto.
  - exact H3.
  - rewrite !map_app in *.
    assert (P2 : Permutation (map flag_of (rev (map (fun g => mkGrp p 0 (g_display g)) new))) (map (fun x => (fst x, g_display (snd x))) L1)).
    { etransitivity; [apply Permutation_map; symmetry; apply Permutation_rev|]. symmetry. etransitivity; [apply Permutation_map; exact P1|].
      rewrite !map_map. apply Permutation_refl. }
    etransitivity; [apply Permutation_app_head, Permutation_app_tail; exact P2|].
    etransitivity; [apply Permutation_app_swap_app|]. etransitivity; [apply Permutation_app_head; exact H4|]. apply Permutation_app_swap_app.
  - intros Eo. destruct (H5 Eo) as (H6 & H7). split; [|exact H7]. rewrite (O1 Eo), !map_app, H6. f_equal. rewrite !map_rev, !map_map. reflexivity.
Qed.

Lemma held_pop ord K L D st out t : held ord (K ++ L) D st out ->
  held ord L (D ++ map (fun x => (fst x, t, snd x)) K) (skipn (length K) st)
    (out ++ map (fun g => mkGrp (g_from g) t (g_display g)) (firstn (length K) st)).
Proof.
  intros [H1 H2 H3 H4 H5]. rewrite map_app in H1.
  assert (E1 : map g_from (firstn (length K) st) = map fst K).
  { rewrite <- firstn_map, H1, <- (map_length fst K), firstn_app, firstn_all, Nat.sub_diag, firstn_O. apply app_nil_r. }
  assert (E2 : map g_from (skipn (length K) st) = map fst L).
  { rewrite <- skipn_map, H1, <- (map_length fst K), skipn_app, skipn_all, Nat.sub_diag. reflexivity. }
  constructor.
  - exact E2.
  - eapply sorted_app_r. exact H2.
  - rewrite !map_app, !map_map. apply Permutation_app; [exact H3|]. cbn [span_of g_from g_to fst].
    replace (map (fun x => span_of (mkGrp (g_from x) t (g_display x))) (firstn (length K) st)) with (map (fun k => (k, t)) (map g_from (firstn (length K) st))) by now rewrite map_map.
    rewrite E1, map_map. apply Permutation_refl.
  - rewrite !map_app, !map_map in *. cbn [fst snd].
    etransitivity; [|etransitivity; [exact H4|]].
    + rewrite <- app_assoc. apply Permutation_app_head. rewrite <- (firstn_skipn (length K) st) at 3. rewrite map_app. apply Permutation_refl.
    + rewrite <- app_assoc. apply Permutation_refl.
  - intros Eo. destruct (H5 Eo) as (H6 & H7). rewrite map_app in H6.
    assert (E3 : map g_display (firstn (length K) st) = map (fun x => g_display (snd x)) K).
    { rewrite <- firstn_map, H6, <- (map_length (fun x => g_display (snd x)) K), firstn_app, firstn_all, Nat.sub_diag, firstn_O. apply app_nil_r. }
    split.
    + rewrite <- skipn_map, H6, <- (map_length (fun x => g_display (snd x)) K), skipn_app, skipn_all, Nat.sub_diag. reflexivity.
    + rewrite map_app, map_map. apply Permutation_app; [exact H7|]. cbn [as_group].
      assert (X : map (fun g => mkGrp (g_from g) t (g_display g)) (firstn (length K) st) = map (fun x => mkGrp (fst x) t (g_display (snd x))) K); [|rewrite X; apply Permutation_refl].
      clear - E1 E3. revert E1 E3. generalize (firstn (length K) st) as l. induction K as [|x K IH]; intros [|g l] E1 E3; try discriminate; [reflexivity|].
      cbn [map] in *. injection E1 as -> E1. injection E3 as -> E3. f_equal. now apply IH.
Qed.
Lemma held_length ord L D st out : held ord L D st out -> length st = length L.
Proof. intros H. rewrite <- (map_length g_from), (hd_from _ _ _ _ _ H). apply map_length. Qed.

(** The open groups are those in [Q], the ended ones those in [C]. *)
Definition level (ord : bool) (gs : list grouped) (St : N * grouped -> Prop) (Dn : moved -> Prop) (Q C : grouped -> bool) (st out : list grouped) : Prop :=
  exists L D, held ord L D st out /\ Permutation (map snd L) (filter Q gs) /\ Permutation (map snd D) (filter C gs) /\ Forall St L /\ Forall Dn D.
Lemma level_length ord gs St Dn Q C st out : level ord gs St Dn Q C st out -> length st = length (filter Q gs).
Proof. intros (L & D & H & P & _). rewrite (held_length _ _ _ _ _ H), <- (Permutation_length P). symmetry. apply map_length. Qed.
Lemma filter_ext_in' {A} (P Q : A -> bool) l : (forall x, In x l -> P x = Q x) -> filter P l = filter Q l.
Proof. induction l as [|x l IH]; intros H; [reflexivity|]. cbn [filter]. rewrite (H x (or_introl eq_refl)), IH; [reflexivity|]. intros y I. apply H. now right. Qed.
Lemma level_ext ord gs St Dn Q C Q' C' st out : level ord gs St Dn Q C st out ->
  (forall g, In g gs -> Q g = Q' g) -> (forall g, In g gs -> C g = C' g) -> level ord gs St Dn Q' C' st out.
Proof.
  intros (L & D & H & P1 & P2 & F) E1 E2. exists L, D. rewrite <- (filter_ext_in' _ _ _ E1), <- (filter_ext_in' _ _ _ E2). auto.
Qed.
Lemma level_push ord gs (St : N * grouped -> Prop) Dn Q C st out p W : level ord gs St Dn Q C st out ->
  (forall g x, In g gs -> In x gs -> W g = true -> Q x = true -> g_to g <= g_to x) ->
  (ord = true -> ForallOrdPairs (fun a b => g_to b <= g_to a) (filter W gs)) ->
  (forall g, In g gs -> W g = true -> Q g = true -> False) ->
  (forall g, In g gs -> W g = true -> St (p, g)) ->
  level ord gs St Dn (fun g => W g || Q g) C (rev (map (fun g => mkGrp p 0 (g_display g)) (filter W gs)) ++ st) out.
Proof.
  intros (L & D & H & P1 & P2 & F1 & F2) Hn Ho Hd Hs.
  destruct (held_push _ _ _ _ _ p (filter W gs) H) as (L1 & PL & H').
  - intros g x Ig Ix. apply filter_In in Ig as (Ig & Wg). assert (Iq : In (snd x) (filter Q gs)) by (apply (Permutation_in _ P1), in_map, Ix).
    apply filter_In in Iq as (Iq & Qx). now apply Hn.
  - exact Ho.
  - exists (L1 ++ L), D. split; [exact H'|]. split; [|split; [exact P2|split; [|exact F2]]].
    + rewrite map_app. etransitivity; [apply Permutation_app; [apply Permutation_map; exact PL|exact P1]|]. rewrite map_map, map_id.
      symmetry. apply filter_or; [reflexivity|]. intros g I. destruct (W g) eqn:Eg; [|reflexivity]. destruct (Q g) eqn:Eq; [|reflexivity].
      exfalso. eapply Hd; eassumption.
    + apply Forall_app. split; [|exact F1]. apply Forall_forall. intros x I. apply (Permutation_in _ PL) in I. apply in_map_iff in I as (g & <- & I).
      apply filter_In in I as (I & Wg). auto.
Qed.
Lemma level_pop ord gs St (Dn : moved -> Prop) Q C st out t K : level ord gs St Dn Q C st out ->
  (forall x y, In x gs -> In y gs -> Q x = true -> Q y = true -> g_to x <= g_to y -> K y = true -> K x = true) ->
  (forall g, In g gs -> K g = true -> Q g = true) ->
  (forall g, In g gs -> K g = true -> C g = true -> False) ->
  (forall f g, In g gs -> St (f, g) -> K g = true -> Dn (f, t, g)) ->
  let k := length (filter K gs) in
  level ord gs St Dn (fun g => Q g && negb (K g)) (fun g => C g || K g) (skipn k st)
    (out ++ map (fun g => mkGrp (g_from g) t (g_display g)) (firstn k st)).
Proof.
  intros (L & D & H & P1 & P2 & F1 & F2) Hk Hq Hc Hs k.
  assert (Hin : forall x, In x L -> In (snd x) gs /\ Q (snd x) = true).
  { intros x I. apply filter_In. apply (Permutation_in _ P1), in_map, I. }
  destruct (sorted_filter_split inner (fun x => K (snd x)) L) as (A & B & -> & FA & FB).
  - apply H.
  - intros x y Ix Iy R Ky. destruct (Hin x Ix), (Hin y Iy). eapply Hk; eauto.
  - assert (EA : filter (fun x => K (snd x)) (A ++ B) = A).
    { rewrite filter_app. rewrite (filter_ext_in' _ (fun _ => true) A), (filter_ext_in' _ (fun _ => false) B).
      - clear. assert (X : filter (fun _ => true) A = A) by (induction A; [reflexivity|cbn; congruence]). rewrite X.
        assert (Y : filter (fun _ => false) B = []) by (induction B; [reflexivity|cbn; congruence]). rewrite Y. apply app_nil_r.
      - intros x I. rewrite Forall_forall in FB. auto.
      - intros x I. rewrite Forall_forall in FA. auto. }
    assert (EB : filter (fun x => negb (K (snd x))) (A ++ B) = B).
    { rewrite filter_app. rewrite (filter_ext_in' _ (fun _ => false) A), (filter_ext_in' _ (fun _ => true) B).
      - clear. assert (X : filter (fun _ => true) B = B) by (induction B; [reflexivity|cbn; congruence]). rewrite X.
        assert (Y : filter (fun _ => false) A = []) by (induction A; [reflexivity|cbn; congruence]). rewrite Y. reflexivity.
      - intros x I. rewrite Forall_forall in FB. now rewrite FB.
      - intros x I. rewrite Forall_forall in FA. now rewrite FA. }
    assert (FM : forall (R : grouped -> bool) l, map snd (filter (fun x : N * grouped => R (snd x)) l) = filter R (map snd l)).
    { intros R l. induction l as [|x l IH]; [reflexivity|]. cbn [map filter]. destruct (R (snd x)); cbn [map]; congruence. }
    assert (FF : forall (R S : grouped -> bool) l, filter R (filter S l) = filter (fun x => S x && R x) l).
    { intros R S l. induction l as [|x l IH]; [reflexivity|]. cbn [filter]. destruct (S x); cbn [filter andb]; [destruct (R x); congruence|exact IH]. }
    assert (PA : Permutation (map snd A) (filter K gs)).
    { rewrite <- EA, FM. etransitivity; [apply filter_perm; exact P1|]. rewrite FF. erewrite filter_ext_in'; [apply Permutation_refl|].
      intros g I. cbn beta. destruct (K g) eqn:Ek; [|apply andb_false_r]. now rewrite (Hq g I Ek). }
    assert (PB : Permutation (map snd B) (filter (fun g => Q g && negb (K g)) gs)).
    { rewrite <- EB, (FM (fun g => negb (K g))). etransitivity; [apply filter_perm; exact P1|]. rewrite FF. apply Permutation_refl. }
    assert (Ek : k = length A) by (unfold k; rewrite <- (Permutation_length PA); apply map_length). rewrite Ek.
    exists B, (D ++ map (fun x => (fst x, t, snd x)) A). split; [apply held_pop; exact H|]. split; [exact PB|]. split; [|split].
    + rewrite map_app, map_map. cbn [snd]. etransitivity; [apply Permutation_app; [exact P2|exact PA]|]. symmetry. apply filter_or; [reflexivity|].
      intros g I. destruct (C g) eqn:Ec; [|reflexivity]. destruct (K g) eqn:E; [|reflexivity]. exfalso. eapply Hc; eassumption.
    + apply Forall_app in F1. apply F1.
    + apply Forall_app. split; [exact F2|]. apply Forall_forall. intros d I. apply in_map_iff in I as (x & <- & I).
      destruct (Hin x) as (Ix & _); [apply in_or_app; now left|]. apply Hs; [exact Ix| |rewrite Forall_forall in FA; now apply FA].
      apply Forall_app in F1 as (F1 & _). rewrite Forall_forall in F1. specialize (F1 x I). destruct x; exact F1.
Qed.

(** ** What the reader does with groups of rows *)

Record rview := RV { v_row : N; v_rep : N; v_st : list grouped; v_from : N; v_out : list grouped; v_hr : option range }.
Definition rview_of (s : tstate) : rview :=
  RV (ts_row s) (ts_rep s) (ts_rgroup s) (ts_rfrom s) (tb_grows (ts_sheet s)) (tb_hrows (ts_sheet s)).
Definition display_of (a : list call) : bool := match fold_attrs group_attr true (attrs_of a) with Ok d => d | _ => true end.
Definition rep_of (a : list call) : N := match fold_attrs row_attr (1, None) (attrs_of a) with Ok (k, _) => k | _ => 1 end.
Definition widen (o : option range) (f t : N) : option range := Some (match o with Some (f', _) => (f', t) | None => (f, t) end).
Definition rstep (v : rview) (i : titem) : rview :=
  match i with
  | TOpen n a =>
      if str_eqb n t_rgroup then RV (v_row v) (v_rep v) (mkGrp (v_row v) 0 (display_of a) :: v_st v) (v_from v) (v_out v) (v_hr v)
      else if str_eqb n t_hrows then RV (v_row v) (v_rep v) (v_st v) (v_row v) (v_out v) (v_hr v)
      else if str_eqb n t_row then RV (v_row v) (rep_of a) (v_st v) (v_from v) (v_out v) (v_hr v)
      else v
  | TClose n =>
      if str_eqb n t_rgroup then
        match v_st v with
        | g :: r => RV (v_row v) (v_rep v) r (v_from v) (v_out v ++ [mkGrp (g_from g) (v_row v - 1) (g_display g)]) (v_hr v)
        | [] => v
        end
      else if str_eqb n t_hrows then RV (v_row v) (v_rep v) (v_st v) (v_from v) (v_out v) (widen (v_hr v) (v_from v) (v_row v - 1))
      else if str_eqb n t_row then RV (v_row v + v_rep v) 1 (v_st v) (v_from v) (v_out v) (v_hr v)
      else v
  | _ => v
  end.
Definition rfold (v : rview) (l : list titem) : rview := fold_left rstep l v.
Lemma rfold_app v l l' : rfold v (l ++ l') = rfold (rfold v l) l'.
Proof. apply fold_left_app. Qed.

Lemma rview_step lb ign ds s i s' : item_fine lb i -> item_step lb ign ds s i = Ok s' -> rview_of s' = rstep (rview_of s) i.
Proof.
  intros Hf H. destruct i as [n a|n|n a|c h k|x]; cbn [item_fine item_step rstep] in *.
  - unfold table_event in H. destruct (existsb _ _); [discriminate|].
    destruct (str_eqb n t_cgroup) eqn:E1.
    { apply str_eqb_eq in E1. subst n. change (str_eqb t_cgroup t_rgroup) with false. change (str_eqb t_cgroup t_hrows) with false. change (str_eqb t_cgroup t_row) with false. cbv iota.
      destruct (read_group _ _); try discriminate. injection H as <-. reflexivity. }
    destruct (str_eqb n t_hcols) eqn:E2.
    { apply str_eqb_eq in E2. subst n. change (str_eqb t_hcols t_rgroup) with false. change (str_eqb t_hcols t_hrows) with false. change (str_eqb t_hcols t_row) with false. cbv iota.
      injection H as <-. reflexivity. }
    destruct (str_eqb n t_rgroup).
    { unfold read_group in H. unfold display_of. destruct (fold_attrs group_attr true (attrs_of a)); try discriminate. injection H as <-. reflexivity. }
    destruct (str_eqb n t_hrows); [injection H as <-; reflexivity|].
    destruct (str_eqb n t_row).
    { unfold read_row in H. unfold rep_of. destruct (fold_attrs row_attr (1, None) (attrs_of a)) as [[k o]| |]; try discriminate. injection H as <-. reflexivity. }
    destruct (_ || _); [|injection H as <-; reflexivity]. destruct (col_default s); try discriminate. cbn [bind] in H. destruct (cell_read_attrs _ _); discriminate.
  - unfold table_event in H. destruct (str_eqb n t_table); [discriminate|].
    destruct (str_eqb n t_cgroup) eqn:E1.
    { apply str_eqb_eq in E1. subst n. change (str_eqb t_cgroup t_rgroup) with false. change (str_eqb t_cgroup t_hrows) with false. change (str_eqb t_cgroup t_row) with false. cbv iota.
      destruct (ts_cgroup s); [injection H as <-; reflexivity|]. destruct (sub32 _ _); try discriminate. injection H as <-. reflexivity. }
    destruct (str_eqb n t_hcols) eqn:E2.
    { apply str_eqb_eq in E2. subst n. change (str_eqb t_hcols t_rgroup) with false. change (str_eqb t_hcols t_hrows) with false. change (str_eqb t_hcols t_row) with false. cbv iota.
      destruct (extend_header _ _ _); try discriminate. injection H as <-. reflexivity. }
    destruct (str_eqb n t_rgroup).
    { cbn [rview_of v_st v_row v_rep v_from v_out v_hr]. destruct (ts_rgroup s); [injection H as <-; reflexivity|].
      destruct (sub32 (ts_row s) 1) as [t| |] eqn:Es; try discriminate. apply sub32_ok in Es as (_ & ->). injection H as <-. reflexivity. }
    destruct (str_eqb n t_hrows).
    { unfold extend_header in H. destruct (sub32 (ts_row s) 1) as [t| |] eqn:Es; try discriminate. apply sub32_ok in Es as (_ & ->). injection H as <-. reflexivity. }
    destruct (str_eqb n t_row); [|injection H as <-; reflexivity].
    destruct (end_of_row s) as [s1| |] eqn:Es; try discriminate. injection H as <-. unfold end_of_row in Es.
    destruct (if ts_data s then _ else _); try discriminate. cbn [bind] in Es.
    destruct (add32 _ _) as [r| |] eqn:Ea; try discriminate. apply add32_ok in Ea as (-> & _). injection Es as <-. reflexivity.
  - destruct Hf as (_ & Hq). unfold table_event in H. rewrite Hq in H.
    destruct (str_eqb n t_column).
    { destruct (read_col _ _ _) as [[k m]| |]; try discriminate. cbn [bind] in H. destruct (add32 _ _); try discriminate. injection H as <-. reflexivity. }
    destruct (_ || _); [|injection H as <-; reflexivity].
    destruct (col_default s); try discriminate. cbn [bind] in H. destruct (cell_read_attrs _ _); try discriminate. cbn [bind] in H.
    destruct (cell_finish _ _ _) as [[k o]| |]; try discriminate. cbn [bind] in H.
    unfold store_cell in H. destruct (add32 _ _); try discriminate. cbn [bind] in H. injection H as <-. destruct o; reflexivity.
  - destruct (col_default s); try discriminate. cbn [bind] in H. destruct (cell_out _ _ _ _ _ _ _) as [[k' o]| |]; try discriminate. cbn [bind] in H.
    unfold store_cell in H. destruct (add32 _ _); try discriminate. cbn [bind] in H. injection H as <-. destruct o; reflexivity.
  - discriminate.
Qed.
Lemma rview_run lb ign ds l : forall s s', steps lb ign ds s l s' -> rview_of s' = rfold (rview_of s) l.
Proof.
  induction l as [|i l IH]; intros s s' (H & Hf); [now injection H as <-|]. cbn [run_items] in H. inversion Hf; subst.
  destruct (item_step lb ign ds s i) as [s1| |] eqn:E; try discriminate. cbn [bind] in H.
  rewrite (IH s1 s' (conj H H3)). rewrite (rview_step _ _ _ _ _ _ H2 E). reflexivity.
Qed.

(** ** The pieces of the writer, as seen by the reader *)

Definition push (gs : list grouped) (v : rview) : rview :=
  RV (v_row v) (v_rep v) (rev (map (fun g => mkGrp (v_row v) 0 (g_display g)) gs) ++ v_st v) (v_from v) (v_out v) (v_hr v).
Definition pop (k : nat) (v : rview) : rview :=
  RV (v_row v) (v_rep v) (skipn k (v_st v)) (v_from v)
    (v_out v ++ map (fun g => mkGrp (g_from g) (v_row v - 1) (g_display g)) (firstn k (v_st v))) (v_hr v).
Definition inb (r n k : N) : bool := (r <=? k) && (k <? r + n).
Lemma within_inb r n k b : within r n k = Ok b -> 1 <= n -> b = inb r n k.
Proof.
  unfold within, inb. intros H L. destruct (k =? r) eqn:E1; [injection H as <-; lia|]. destruct (r <? k) eqn:E2; [|injection H as <-; lia].
  destruct (add32 r n) as [e| |] eqn:E; try discriminate. cbn [bind] in H. apply add32_ok in E. injection H as <-. lia.
Qed.
Lemma within_header_inb r n k b : within_header r n k = Ok b -> b = inb r n k.
Proof.
  unfold within_header, inb. intros H. destruct (r <=? k) eqn:E2; [|now injection H as <-].
  destruct (add32 r n) as [e| |] eqn:E; try discriminate. cbn [bind] in H. apply add32_ok in E. injection H as <-. lia.
Qed.
Lemma display_display d : display_of (display_attr d) = d.
Proof. destruct d; reflexivity. Qed.
Lemma rstep_open_group v d : rstep v (TOpen t_rgroup (display_attr d)) = RV (v_row v) (v_rep v) (mkGrp (v_row v) 0 d :: v_st v) (v_from v) (v_out v) (v_hr v).
Proof. cbn [rstep]. change (str_eqb t_rgroup t_rgroup) with true. cbv iota. now rewrite display_display. Qed.
Lemma push_cons g gs v : push gs (rstep v (TOpen t_rgroup (display_attr (g_display g)))) = push (g :: gs) v.
Proof. rewrite rstep_open_group. unfold push. cbn [v_row v_rep v_st v_from v_out v_hr map rev]. rewrite <- app_assoc. reflexivity. Qed.
Lemma pop_0 v : pop 0 v = v.
Proof. destruct v. unfold pop. cbn. now rewrite app_nil_r. Qed.
Lemma pop_cons k v : pop k (rstep v (TClose t_rgroup)) = pop (S k) v.
Proof.
  cbn [rstep]. change (str_eqb t_rgroup t_rgroup) with true. cbv iota. destruct v as [r n [|g st] f o h]; cbn [v_row v_rep v_st v_from v_out v_hr].
  - unfold pop. cbn. destruct k; reflexivity.
  - unfold pop. cbn [v_row v_rep v_st v_from v_out v_hr skipn firstn map]. rewrite <- app_assoc. reflexivity.
Qed.

Lemma open_groups_view r n gs : 1 <= n -> forall s o s' v, open_groups r n gs s = Ok (o, s') ->
  rfold v o = push (filter (fun g => inb r n (g_from g)) gs) v
  /\ w_count s' = w_count s + N.of_nat (length (filter (fun g => inb r n (g_from g)) gs)) /\ w_head s' = w_head s.
Proof.
  intros L. induction gs as [|g gs IH]; intros s o s' v H; cbn [open_groups] in H.
  - injection H as <- <-. split; [destruct v; reflexivity|]. cbn. lia.
  - destruct (within r n (g_from g)) as [b| |] eqn:Ew; try discriminate. cbn [bind] in H. apply within_inb in Ew; [|exact L]. subst b. cbn [filter].
    destruct (inb r n (g_from g)); [|now apply IH].
    destruct (open_groups r n gs _) as [[o1 s1]| |] eqn:E; try discriminate. cbn [bind] in H.
    assert (Es : s' = s1) by congruence. subst s1. assert (Eo : o = TOpen t_rgroup (display_attr (g_display g)) :: o1) by congruence. subst o. clear H.
    change (rfold v (TOpen t_rgroup (display_attr (g_display g)) :: o1)) with (rfold (rstep v (TOpen t_rgroup (display_attr (g_display g)))) o1).
    destruct (IH _ _ _ (rstep v (TOpen t_rgroup (display_attr (g_display g)))) E) as (I1 & I2 & I3). rewrite I1, push_cons. split; [reflexivity|].
    cbn [w_count w_head length] in *. split; [lia|exact I3].
Qed.
Lemma close_groups_view r n gs : 1 <= n -> forall s o s' v, close_groups r n gs s = Ok (o, s') ->
  rfold v o = pop (length (filter (fun g => inb r n (g_to g)) gs)) v
  /\ w_count s = w_count s' + N.of_nat (length (filter (fun g => inb r n (g_to g)) gs)) /\ w_head s' = w_head s.
Proof.
  intros L. induction gs as [|g gs IH]; intros s o s' v H; cbn [close_groups] in H.
  - injection H as <- <-. cbn [filter length]. rewrite pop_0. split; [reflexivity|]. split; [lia|reflexivity].
  - destruct (within r n (g_to g)) as [b| |] eqn:Ew; try discriminate. cbn [bind] in H. apply within_inb in Ew; [|exact L]. subst b. cbn [filter].
    destruct (inb r n (g_to g)); [|now apply IH]. destruct (sub32 (w_count s) 1) as [m| |] eqn:Em; try discriminate. cbn [bind] in H. apply sub32_ok in Em.
    destruct (close_groups r n gs _) as [[o1 s1]| |] eqn:E; try discriminate. cbn [bind] in H.
    assert (Es : s' = s1) by congruence. subst s1. assert (Eo : o = TClose t_rgroup :: o1) by congruence. subst o. clear H.
    change (rfold v (TClose t_rgroup :: o1)) with (rfold (rstep v (TClose t_rgroup)) o1).
    destruct (IH _ _ _ (rstep v (TClose t_rgroup)) E) as (I1 & I2 & I3). rewrite I1, pop_cons. split; [reflexivity|].
    cbn [w_count w_head length] in *. split; [lia|exact I3].
Qed.
Lemma close_at_view r gs : forall n o n' v, close_at r gs n = Ok (o, n') ->
  rfold v o = pop (length (filter (fun g => g_to g =? r) gs)) v
  /\ n = n' + N.of_nat (length (filter (fun g => g_to g =? r) gs)).
Proof.
  induction gs as [|g gs IH]; intros n o n' v H; cbn [close_at] in H.
  - injection H as <- <-. cbn [filter length]. rewrite pop_0. split; [reflexivity|lia].
  - cbn [filter]. destruct (g_to g =? r); [|now apply IH]. destruct (sub32 n 1) as [m| |] eqn:Em; try discriminate. cbn [bind] in H. apply sub32_ok in Em.
    destruct (close_at r gs m) as [[o1 n1]| |] eqn:E; try discriminate. cbn [bind] in H.
    assert (Es : n' = n1) by congruence. subst n1. assert (Eo : o = TClose t_rgroup :: o1) by congruence. subst o. clear H.
    change (rfold v (TClose t_rgroup :: o1)) with (rfold (rstep v (TClose t_rgroup)) o1).
    destruct (IH _ _ _ (rstep v (TClose t_rgroup)) E) as (I1 & I2). rewrite I1, pop_cons. split; [reflexivity|]. cbn [length]. lia.
Qed.
Lemma opens_view k gs : forall v, rfold v (opens t_rgroup k gs) = push (filter (fun g => g_from g =? k) gs) v.
Proof.
  unfold opens. induction (filter (fun g => g_from g =? k) gs) as [|g l IH]; intros v; [destruct v; reflexivity|]. cbn [map].
  change (rfold v (TOpen t_rgroup (display_attr (g_display g)) :: map (fun g0 => TOpen t_rgroup (display_attr (g_display g0))) l))
    with (rfold (rstep v (TOpen t_rgroup (display_attr (g_display g)))) (map (fun g0 => TOpen t_rgroup (display_attr (g_display g0))) l)).
  now rewrite IH, push_cons.
Qed.
Lemma close_all_view n : forall v, rfold v (repeat (TClose t_rgroup) n) = pop n v.
Proof.
  induction n as [|n IH]; intros v; [symmetry; apply pop_0|]. cbn [repeat].
  change (rfold v (TClose t_rgroup :: repeat (TClose t_rgroup) n)) with (rfold (rstep v (TClose t_rgroup)) (repeat (TClose t_rgroup) n)).
  now rewrite IH, pop_cons.
Qed.
(** Cells leave groups alone. *)
Definition cellish (i : titem) : Prop := match i with TEmpty _ _ | TCell _ _ _ => True | _ => False end.
Lemma cellish_view l : Forall cellish l -> forall v, rfold v l = v.
Proof. induction 1 as [|i l Hi _ IH]; intros v; [reflexivity|]. destruct i; try contradiction; apply IH. Qed.
Lemma pieces_cellish f l : (forall h k, cellish (f h k)) -> forall o, pieces f l = Ok o -> Forall cellish o.
Proof.
  intros Hf. induction l as [|s l IH]; intros o H; cbn [pieces] in H; [injection H as <-; constructor|].
  destruct (s_repeat s); try discriminate. cbn [bind] in H. destruct (pieces f l) as [o'| |]; try discriminate. cbn [bind] in H.
  injection H as <-. constructor; [apply Hf|]. now apply IH.
Qed.
Lemma gap_cellish spans r c w o : gap_cells spans r c w = Ok o -> Forall cellish o.
Proof.
  unfold gap_cells. destruct (0 <? w); [|intros H; injection H as <-; constructor].
  destruct (split_hidden spans r c w); try discriminate. cbn [bind]. apply pieces_cellish. intros; exact I.
Qed.

Lemma ordered_filter {A} (R : A -> A -> Prop) (Q : A -> bool) l :
  (forall x a y b z, l = x ++ a :: y ++ b :: z -> Q a = true -> Q b = true -> R a b) -> ForallOrdPairs R (filter Q l).
Proof.
  induction l as [|a l IH]; intros H; [constructor|]. cbn [filter].
  assert (F : ForallOrdPairs R (filter Q l)).
  { apply IH. intros x b y c z E. apply (H (a :: x) b y c z). cbn. now rewrite E. }
  destruct (Q a) eqn:E; [|exact F]. constructor; [|exact F]. apply Forall_forall. intros b I. apply filter_In in I as (I & Eb).
  apply in_split in I as (y & z & ->). apply (H [] a y b z); auto.
Qed.

Lemma rep_of_row sh r a : row_attrs (tb_rows sh) r = Ok a -> row_fine sh r -> rep_of a = row_repeat_at (tb_rows sh) r.
Proof.
  intros H F. destruct (read_row_attrs true [] (fun _ _ _ => True) ltac:(intros k; exists None; reflexivity) sh (fun _ => False)
    ltac:(contradiction) (fun _ _ _ => I) r a H F) as (_ & A). unfold rep_of. now rewrite A.
Qed.

Section RowGroups.
  Variables (sh : sheet) (ord : bool) (E : N).
  Let gs := tb_grows sh.
  Let all := tb_cells sh.
  Notation rep r := (row_repeat_at (tb_rows sh) r).
  Hypothesis Hsort : om_sorted N.ltb (tb_rows sh).
  Hypothesis Hfull : header_rows_full sh.
  Hypothesis Hlam : laminar gs.
  Hypothesis Hempty : no_empty_group sh.
  Hypothesis Hwithin : no_change_within sh.
  Hypothesis Hord : ord = true -> outer_first_rows sh.
  Hypothesis HE : forall r, in_row all r -> r < E.
  Hypothesis Hrep : forall r, in_row all r -> row_fine sh r.

  Lemma data_at r : in_row all r -> data_rows sh r (rep r).
  Proof. intros (b & c & I). split; [exists b, c; exact I|now apply repeats_at]. Qed.
  Lemma at_data r n : data_rows sh r n -> in_row all r /\ n = rep r.
  Proof. intros ((b & c & I) & H). split; [exists b, c; exact I|now apply repeats_fun]. Qed.
  Lemma from_to g : In g gs -> g_from g <= g_to g.
  Proof. apply Hlam. Qed.
  Lemma lam a b : In a gs -> In b gs -> nested_or_disjoint a b.
  Proof.
    intros Ia Ib. apply In_nth_error in Ia as (i & Ei). apply In_nth_error in Ib as (j & Ej). destruct Hlam as (_ & H). exact (H i j a b Ei Ej).
  Qed.

  Definition St (x : N * grouped) : Prop := starts_at sh (g_from (snd x)) (fst x).
  Notation Dn := (row_moved sh E).
  Notation lev := (level ord gs St Dn).

  (** Header rows: open before row [p], open within the rows [b .. b+n-1], read before row [p]. *)
  Definition head_at (p : N) : bool := match tb_hrows sh with Some (f, t) => (f <? p) && (p <=? t) | None => false end.
  Definition head_in (b n : N) : bool := match tb_hrows sh with Some (f, t) => (f <? b + n) && (b <=? t) | None => false end.
  Definition hr_at (p : N) (hr : option range) : Prop :=
    match tb_hrows sh with
    | None => hr = None
    | Some (f, t) => (p <= f /\ hr = None) \/ (f < p <= t /\ exists f', starts_at sh f f' /\ hr = Some (f', p - 1))
        \/ (t < p /\ exists f' t', starts_at sh f f' /\ ends_at sh E t t' /\ hr = Some (f', t'))
    end.

  (** Before row [p]. *)
  Definition bnd (p : N) (s : wst) (v : rview) : Prop :=
    v_row v = p /\ w_count s = N.of_nat (length (v_st v))
    /\ lev (fun g => (g_from g <? p) && (p <=? g_to g)) (fun g => g_to g <? p) (v_st v) (v_out v)
    /\ w_head s = head_at p /\ hr_at p (v_hr v).
  (** In the element for the rows [b .. b+n-1]. *)
  Definition inr (b n : N) (s : wst) (v : rview) : Prop :=
    v_row v = b /\ v_rep v = n /\ w_count s = N.of_nat (length (v_st v))
    /\ lev (fun g => (g_from g <? b + n) && (b <=? g_to g)) (fun g => g_to g <? b) (v_st v) (v_out v)
    /\ w_head s = head_in b n /\ hr_at b (v_hr v) /\ (head_in b n = true -> v_from v = b).

  Lemma bnd_start : bnd 0 (WST 0 false) (RV 0 1 [] 0 [] None).
  Proof.
    split; [reflexivity|]. split; [reflexivity|]. split; [|split].
    - exists [], []. split; [apply held_nil|]. cbn [map].
      assert (X : filter (fun g => (g_from g <? 0) && (0 <=? g_to g)) gs = [] /\ filter (fun g => g_to g <? 0) gs = []).
      { clear. induction gs as [|g l IH]; [split; reflexivity|]. cbn [filter]. destruct (g_from g <? 0) eqn:E1; [lia|]. destruct (g_to g <? 0) eqn:E2; [lia|]. exact IH. }
      destruct X as (-> & ->). repeat split; constructor.
    - unfold head_at. cbn. destruct (tb_hrows sh) as [[f t]|]; [|reflexivity]. destruct (f <? 0) eqn:X; [lia|reflexivity].
    - unfold hr_at. destruct (tb_hrows sh) as [[f t]|]; [|reflexivity]. left. split; [lia|reflexivity].
  Qed.

  (** The start of a row with cells. *)
  Lemma start_view b back s o s' v : start_row sh b (rep b) back s = Ok (o, s') -> in_row all b -> bnd b s v -> inr b (rep b) s' (rfold v o).
  Proof.
    intros H Hb (B1 & B2 & B3 & B4 & B5). destruct (Hrep b Hb) as (F1 & F2 & F3). pose proof (data_at b Hb) as Db. unfold start_row in H.
    destruct (open_groups b (rep b) (tb_grows sh) s) as [[o1 s1]| |] eqn:Eo; try discriminate. cbn [bind] in H.
    match type of H with bind ?X _ = _ => destruct X as [hd| |] eqn:Eh; try discriminate end. cbn [bind] in H.
    destruct (row_attrs (tb_rows sh) b) as [a| |] eqn:Ea; try discriminate. cbn [bind w_head w_count] in H.
    match type of H with Ok (?x, ?y) = Ok _ => assert (X1 : o = x) by congruence; assert (X2 : s' = y) by congruence; clear H; subst o; subst s' end.
    destruct (open_groups_view _ _ _ F2 _ _ _ v Eo) as (V1 & V2 & V3). rewrite V3 in *. fold gs in V1, V2. set (new := filter (fun g => inb b (rep b) (g_from g)) gs) in *.
    pose proof (rep_of_row sh b a Ea (Hrep b Hb)) as A2.
    assert (Hhd : hd = match tb_hrows sh with Some (f, _) => inb b (rep b) f | None => false end).
    { destruct (tb_hrows sh) as [[f t]|]; [now apply within_header_inb|congruence]. }
    assert (Hh : hd || w_head s = head_in b (rep b)).
    { rewrite Hhd, B4. unfold head_at, head_in, inb. pose proof Hfull as HF. unfold header_rows_full in HF.
      destruct (tb_hrows sh) as [[f t]|]; [|reflexivity]. destruct (HF f t eq_refl) as (L & _). lia. }
    rewrite Hh. set (v1 := push new v) in *.
    assert (V4 : exists v', rfold v (o1 ++ (if head_in b (rep b) then [TOpen t_hrows []] else []) ++ TOpen t_row a :: (if 0 <? back then [TEmpty t_cell (num_attr a_crep back)] else [])) = v'
      /\ v_row v' = v_row v1 /\ v_rep v' = rep b /\ v_st v' = v_st v1 /\ v_out v' = v_out v1 /\ v_hr v' = v_hr v1 /\ (head_in b (rep b) = true -> v_from v' = v_row v1)).
    { eexists. split; [reflexivity|]. rewrite rfold_app, V1, rfold_app.
      assert (R : forall u, rfold u (TOpen t_row a :: (if 0 <? back then [TEmpty t_cell (num_attr a_crep back)] else [])) = RV (v_row u) (rep b) (v_st u) (v_from u) (v_out u) (v_hr u)).
      { intros u. transitivity (rstep u (TOpen t_row a)); [destruct (0 <? back); reflexivity|]. cbn [rstep].
        change (str_eqb t_row t_rgroup) with false. change (str_eqb t_row t_hrows) with false. change (str_eqb t_row t_row) with true. cbv iota. now rewrite A2. }
      rewrite R. destruct (head_in b (rep b)); cbn [v_row v_rep v_st v_from v_out v_hr]; repeat split; discriminate. }
    destruct V4 as (v' & -> & W1 & W2 & W3 & W4 & W5 & W6).
    split; [rewrite W1; exact B1|]. split; [exact W2|]. cbn [w_count w_head]. split; [|split; [|split; [reflexivity|split]]].
    - rewrite W3. unfold v1, push. cbn [v_st]. rewrite app_length, rev_length, map_length. lia.
    - rewrite W3, W4. unfold v1, push. cbn [v_st v_out]. eapply level_ext; [apply level_push with (W := fun g => inb b (rep b) (g_from g)); [exact B3|..]| |].
      + intros g x Ig Ix Wg Qx. cbn beta in *. unfold inb in Wg. pose proof (from_to g Ig). pose proof (from_to x Ix). pose proof (Hwithin x g b (rep b) Ix Ig Db) as Hw.
        destruct (lam g x Ig Ix) as [N1|[N1|N1]]; [lia|lia|].
        exfalso. destruct (N.lt_ge_cases (g_to x) (g_from g)) as [L|L]; [lia|]. apply (N1 (g_from g)). lia.
      + intros Eo'. apply ordered_filter. intros x g y g' z Es Wg Wg'. apply (Hord Eo' x g y g' z Es). right. exists b, (rep b).
        cbn beta in *. unfold inb in Wg, Wg'. split; [exact Db|lia].
      + intros g Ig Wg Qg. cbn beta in *. unfold inb in Wg. lia.
      + intros g Ig Wg. cbn beta in *. unfold inb in Wg. left. exists b, (rep b). cbn [fst snd]. rewrite B1. split; [exact Db|]. split; [lia|reflexivity].
      + intros g Ig. unfold inb. pose proof (from_to g Ig). cbn beta. lia.
      + reflexivity.
    - rewrite W5. exact B5.
    - intros Hx. rewrite (W6 Hx). exact B1.
  Qed.

  (** The header range at the end of a row. *)
  Lemma hr_next b n hr : data_rows sh b n -> 1 <= n -> hr_at b hr ->
    hr_at (b + n) (if head_in b n then widen hr b (b + n - 1) else hr).
  Proof.
    unfold hr_at, head_in. intros Db L H. pose proof Hfull as HF. unfold header_rows_full in HF.
    destruct (tb_hrows sh) as [[f t]|]; [|exact H]. destruct (HF f t eq_refl) as (Lt & _). clear HF.
    destruct H as [(H1 & ->)|[(H1 & f' & S1 & ->)|(H1 & f' & t' & S1 & S2 & ->)]].
    - destruct (f <? b + n) eqn:X1; [|left; split; [lia|reflexivity]]. destruct (b <=? t) eqn:X2; [|lia]. cbn [andb widen]. right.
      assert (Sf : starts_at sh f b) by (left; exists b, n; split; [exact Db|split; [lia|reflexivity]]).
      destruct (N.le_gt_cases (b + n) t) as [C|C].
      + left. split; [lia|]. exists b. split; [exact Sf|]. reflexivity.
      + right. split; [lia|]. exists b, (b + n - 1). split; [exact Sf|]. split; [|reflexivity]. left. exists b, n. split; [exact Db|]. split; [lia|reflexivity].
    - destruct (f <? b + n) eqn:X1; [|lia]. destruct (b <=? t) eqn:X2; [|lia]. cbn [andb widen]. right.
      destruct (N.le_gt_cases (b + n) t) as [C|C].
      + left. split; [lia|]. exists f'. split; [exact S1|]. reflexivity.
      + right. split; [lia|]. exists f', (b + n - 1). split; [exact S1|]. split; [|reflexivity]. left. exists b, n. split; [exact Db|]. split; [lia|reflexivity].
    - destruct (b <=? t) eqn:X2; [lia|]. rewrite andb_false_r. right. right. split; [lia|]. exists f', t'. auto.
  Qed.
  (** [table:table-row] and [table:table-header-rows] end. *)
  Definition row_done (b n : N) (v : rview) : rview :=
    RV (b + n) 1 (v_st v) (v_from v) (v_out v) (if head_in b n then widen (v_hr v) b (b + n - 1) else v_hr v).
  Lemma end_tags b n s v : inr b n s v -> rfold v (TClose t_row :: (if w_head s then [TClose t_hrows] else [])) = row_done b n v.
  Proof.
    intros (B1 & B2 & B3 & B4 & B5 & B6 & B7). rewrite B5.
    change (rfold v (TClose t_row :: (if head_in b n then [TClose t_hrows] else []))) with (rfold (rstep v (TClose t_row)) (if head_in b n then [TClose t_hrows] else [])).
    assert (R : rstep v (TClose t_row) = RV (b + n) 1 (v_st v) (v_from v) (v_out v) (v_hr v)).
    { cbn [rstep]. change (str_eqb t_row t_rgroup) with false. change (str_eqb t_row t_hrows) with false. change (str_eqb t_row t_row) with true. cbv iota. now rewrite B1, B2. }
    rewrite R. unfold row_done. destruct (head_in b n); [|reflexivity]. rewrite (B7 eq_refl). reflexivity.
  Qed.
  Lemma end_view b s o s' v : end_row sh b (rep b) s = Ok (o, s') -> in_row all b -> inr b (rep b) s v -> bnd (b + rep b) s' (rfold v o).
  Proof.
    intros H Hb Hv. pose proof Hv as (B1 & B2 & B3 & B4 & B5 & B6 & B7). destruct (Hrep b Hb) as (F1 & F2 & F3). pose proof (data_at b Hb) as Db.
    set (n := rep b) in *. unfold end_row in H. match type of H with bind ?X _ = _ => destruct X as [hd| |] eqn:Eh; try discriminate end. cbn [bind] in H.
    match type of H with bind ?X _ = _ => destruct X as [[o1 s1]| |] eqn:Eo; try discriminate end. cbn [bind] in H.
    match type of H with Ok (?x, ?y) = Ok _ => assert (X1 : o = x) by congruence; assert (X2 : s' = y) by congruence; clear H; subst o; subst s' end.
    rewrite app_comm_cons, rfold_app, (end_tags b n s v Hv).
    destruct (close_groups_view _ _ _ F2 _ _ _ (row_done b n v) Eo) as (V1 & V2 & V3). cbn [w_count w_head] in *. fold gs in V1, V2. rewrite V1.
    pose proof (level_length _ _ _ _ _ _ _ _ B4) as Ll.
    assert (P : lev (fun g => ((g_from g <? b + n) && (b <=? g_to g)) && negb (inb b n (g_to g))) (fun g => (g_to g <? b) || inb b n (g_to g))
       (v_st (pop (length (filter (fun g => inb b n (g_to g)) gs)) (row_done b n v))) (v_out (pop (length (filter (fun g => inb b n (g_to g)) gs)) (row_done b n v)))).
    { unfold pop, row_done. cbn [v_row v_st v_out]. apply level_pop; [exact B4|..].
      - intros x y Ix Iy Qx Qy L Ky. cbn beta in *. unfold inb in *. lia.
      - intros g Ig Kg. cbn beta in *. unfold inb in Kg. pose proof (from_to g Ig). lia.
      - intros g Ig Kg Cg. cbn beta in *. unfold inb in Kg. lia.
      - intros f g Ig Sf Kg. split; [exact Sf|]. cbn [fst snd]. cbn beta in *. unfold inb in Kg. left. exists b, n. split; [exact Db|]. split; [lia|reflexivity]. }
    split; [reflexivity|]. split; [|split; [|split]].
    - unfold pop, row_done. cbn [v_st]. rewrite skipn_length. lia.
    - eapply level_ext; [exact P| |]; intros g Ig; pose proof (from_to g Ig); unfold inb; cbn beta; lia.
    - rewrite V3, B5. assert (Hhd : hd = match tb_hrows sh with Some (_, t) => inb b n t | None => false end).
      { destruct (tb_hrows sh) as [[f t]|]; [now apply within_header_inb|congruence]. }
      rewrite Hhd. unfold head_at, head_in, inb. pose proof Hfull as HF. unfold header_rows_full in HF.
      destruct (tb_hrows sh) as [[f t]|]; [|reflexivity]. destruct (HF f t eq_refl) as (L & _). lia.
    - unfold pop, row_done. cbn [v_hr]. now apply hr_next.
  Qed.
  (** The end of the last row. *)
  Definition fin (v : rview) : Prop :=
    lev (fun _ => false) (fun g => g_from g <? E) (v_st v) (v_out v) /\ hr_at E (v_hr v).
  Lemma last_view b s v : in_row all b -> E = b + rep b -> inr b (rep b) s v -> fin (rfold v (end_last_row s)).
  Proof.
    intros Hb HEb Hv. pose proof Hv as (B1 & B2 & B3 & B4 & B5 & B6 & B7). destruct (Hrep b Hb) as (F1 & F2 & F3). pose proof (data_at b Hb) as Db.
    set (n := rep b) in *. unfold end_last_row. rewrite app_comm_cons, rfold_app, (end_tags b n s v Hv), close_all_view.
    pose proof (level_length _ _ _ _ _ _ _ _ B4) as Ll. rewrite B3, Nat2N.id, Ll.
    split.
    - eapply level_ext.
      + unfold pop, row_done. cbn [v_row v_st v_out].
        apply (level_pop ord gs St Dn _ _ _ _ (b + n - 1) (fun g => (g_from g <? b + n) && (b <=? g_to g)) B4); auto.
        * intros g Ig Kg Cg. cbn beta in *. lia.
        * intros f g Ig Sf Kg. split; [exact Sf|]. cbn [fst snd]. cbn beta in *. destruct (N.lt_ge_cases (g_to g) (b + n)) as [L|L].
          -- left. exists b, n. split; [exact Db|]. split; [lia|reflexivity].
          -- right. right. split; [lia|]. lia.
      + intros g Ig. cbn beta. destruct ((g_from g <? b + n) && (b <=? g_to g)); reflexivity.
      + intros g Ig. pose proof (from_to g Ig). cbn beta. lia.
    - rewrite HEb. unfold pop, row_done. cbn [v_hr]. apply hr_next; auto.
  Qed.

  (** An empty row. *)
  Lemma rep_of_empty r k a : empty_row_attrs (tb_rows sh) r k = Ok a -> k <= u32_max -> rep_of a = k.
  Proof.
    unfold empty_row_attrs. destruct (valid_header r (tb_rows sh)) as [h| |]; try discriminate. cbn [bind]. intros H L.
    match type of H with Ok ?x = Ok _ => assert (Ea : a = x) by (injection H; auto); clear H; subst a end.
    unfold rep_of.
    destruct h as [h|].
    - change (CAttr a_rrep (show_N k) :: row_header_attrs h) with ([CAttr a_rrep (show_N k)] ++ row_header_attrs h).
      rewrite attrs_of_app, fold_attrs_app, read_rep by exact L. cbn [bind]. now rewrite read_row_header.
    - now rewrite read_rep.
  Qed.
  Lemma empty_row_view r k w o v : empty_row sh r k w = Ok o -> k <= u32_max ->
    rfold v o = RV (v_row v + k) 1 (v_st v) (v_from v) (v_out v) (v_hr v).
  Proof.
    unfold empty_row. destruct (empty_row_attrs (tb_rows sh) r k) as [a| |] eqn:Ea; try discriminate. cbn [bind]. intros H L.
    match type of H with Ok ?x = Ok _ => assert (Eo : o = x) by (injection H; auto); clear H; subst o end.
    apply rep_of_empty in Ea; [|exact L]. unfold rfold. cbn [fold_left rstep].
    change (str_eqb t_row t_rgroup) with false. change (str_eqb t_row t_hrows) with false. change (str_eqb t_row t_row) with true. cbv iota. now rewrite Ea.
  Qed.
  Lemma head_gap p : ~ (exists f t, tb_hrows sh = Some (f, t) /\ f <= p <= t) -> head_at p = false /\ head_at (p + 1) = false
    /\ (forall hr, hr_at p hr -> hr_at (p + 1) hr).
  Proof.
    intros H. unfold head_at, hr_at. pose proof Hfull as HF. unfold header_rows_full in HF. destruct (tb_hrows sh) as [[f t]|]; [|repeat split; auto].
    destruct (HF f t eq_refl) as (Lt & _).
    assert (X : p < f \/ t < p). { destruct (N.lt_ge_cases p f); [auto|]. right. destruct (N.lt_ge_cases t p); [auto|]. exfalso. apply H. exists f, t. split; [reflexivity|lia]. }
    split; [lia|]. split; [lia|]. intros hr [(H1 & ->)|[(H1 & f' & S1 & ->)|(H1 & f' & t' & S1 & S2 & ->)]].
    - left. split; [lia|reflexivity].
    - lia.
    - right. right. split; [lia|]. exists f', t'. auto.
  Qed.
  Lemma empty_in_view r w s o s' v : empty_row_in sh r w s = Ok (o, s') -> ~ in_data sh r -> r < E -> (exists r', in_row all r' /\ r < r') ->
    ~ (exists f t, tb_hrows sh = Some (f, t) /\ f <= r <= t) ->
    bnd r s v -> bnd (r + 1) s' (rfold v o).
  Proof.
    intros H Hd HrE Hr' Hh (B1 & B2 & B3 & B4 & B5). destruct (head_gap r Hh) as (G1 & G2 & G3). unfold empty_row_in in H. rewrite B4, G1 in H. cbn [andb orb app] in H.
    destruct (close_at r (tb_grows sh) (w_count s)) as [[c n]| |] eqn:Ec; try discriminate. cbn [bind] in H.
    destruct (empty_row sh r 1 w) as [row| |] eqn:Er; try discriminate. cbn [bind] in H.
    assert (Eh : match tb_hrows sh with Some (f, _) => f =? r | None => false end = false).
    { pose proof Hfull as HF. unfold header_rows_full in HF. destruct (tb_hrows sh) as [[f t]|]; [|reflexivity]. destruct (HF f t eq_refl) as (Lt & _).
      destruct (N.eqb_spec f r) as [->|]; [|reflexivity]. exfalso. apply Hh. exists r, t. split; [reflexivity|lia]. }
    rewrite Eh in H. cbn [app] in H.
    match type of H with Ok (?x, ?y) = Ok _ => assert (X1 : o = x) by congruence; assert (X2 : s' = y) by congruence; clear H; subst o; subst s' end.
    destruct (close_at_view _ _ _ _ _ v Ec) as (V1 & V2). fold gs in V1, V2. rewrite rfold_app, V1, rfold_app, opens_view, (empty_row_view _ _ _ _ _ Er) by (unfold u32_max; lia).
    unfold push, pop. cbn [v_row v_rep v_st v_from v_out v_hr]. fold gs.
    pose proof (level_length _ _ _ _ _ _ _ _ B3) as Ll.
    assert (P := level_pop ord gs St Dn _ _ _ _ (r - 1) (fun g => g_to g =? r) B3). cbv zeta in P.
    match type of P with ?A -> _ => assert (PA : A) end.
    { intros x y Ix Iy Qx Qy L Ky. cbn beta in *. lia. } specialize (P PA). clear PA.
    assert (Single : forall g, In g gs -> g_from g = r -> g_to g = r -> False).
    { intros g Ig E1 E2. destruct (Hempty g Ig ltac:(lia)) as [X|X]; [rewrite E1 in X; contradiction|].
      destruct Hr' as (r' & (b' & c' & I') & L'). assert (Y : r' <= g_from g) by (apply X; exists b', c'; exact I'). lia. }
    match type of P with ?A -> _ => assert (PA : A) end.
    { intros g Ig Kg. cbn beta in *. pose proof (from_to g Ig). pose proof (Single g Ig). lia. } specialize (P PA). clear PA.
    match type of P with ?A -> _ => assert (PA : A) end.
    { intros g Ig Kg Cg. cbn beta in *. lia. } specialize (P PA). clear PA.
    match type of P with ?A -> _ => assert (PA : A) end.
    { intros f g Ig Sf Kg. split; [exact Sf|]. cbn [fst snd]. right. left. rewrite N.eqb_eq in Kg. rewrite Kg. auto. } specialize (P PA). clear PA.
    assert (P2 := level_push ord gs St Dn _ _ _ _ r (fun g => g_from g =? r) P).
    match type of P2 with ?A -> _ => assert (PA : A) end.
    { intros g x Ig Ix Wg Qx. cbn beta in *. pose proof (from_to g Ig). pose proof (from_to x Ix).
      destruct (lam g x Ig Ix) as [N1|[N1|N1]]; [lia|lia|]. exfalso. apply (N1 r). lia. } specialize (P2 PA). clear PA.
    match type of P2 with ?A -> _ => assert (PA : A) end.
    { intros Eo'. apply ordered_filter. intros x g y g' z Es Wg Wg'. apply (Hord Eo' x g y g' z Es). left. cbn beta in *. lia. } specialize (P2 PA). clear PA.
    match type of P2 with ?A -> _ => assert (PA : A) end.
    { intros g Ig Wg Qg. cbn beta in *. lia. } specialize (P2 PA). clear PA.
    match type of P2 with ?A -> _ => assert (PA : A) end.
    { intros g Ig Wg. right. cbn [fst snd]. rewrite N.eqb_eq in Wg. rewrite Wg. auto. } specialize (P2 PA). clear PA.
    rewrite B1. split; [reflexivity|]. split; [|split; [|split; [symmetry; exact G2|apply G3, B5]]].
    - cbn [w_count v_st]. unfold opens. rewrite app_length, rev_length, !map_length, skipn_length. fold gs. lia.
    - cbn [v_st v_out]. eapply level_ext; [exact P2| |].
      + intros g Ig. cbn beta. pose proof (from_to g Ig). pose proof (Single g Ig). lia.
      + intros g Ig. cbn beta. lia.
  Qed.

  Lemma empty_rows_in_view w n : forall r s o s' v, empty_rows_in sh n r w s = Ok (o, s') ->
    (forall k, r <= k < r + N.of_nat n -> ~ in_data sh k /\ k < E /\ (exists r', in_row all r' /\ k < r') /\ ~ (exists f t, tb_hrows sh = Some (f, t) /\ f <= k <= t)) ->
    bnd r s v -> bnd (r + N.of_nat n) s' (rfold v o).
  Proof.
    induction n as [|n IH]; intros r s o s' v H Hk B; cbn [empty_rows_in] in H; [injection H as <- <-; now rewrite N.add_0_r|].
    destruct (empty_row_in sh r w s) as [[o1 s1]| |] eqn:E1; try discriminate. cbn [bind] in H.
    destruct (empty_rows_in sh n (r + 1) w s1) as [[o2 s2]| |] eqn:E2; try discriminate. cbn [bind] in H.
    assert (X : o = o1 ++ o2) by congruence. assert (X' : s' = s2) by congruence. clear H. subst o s'. rewrite rfold_app.
    destruct (Hk r ltac:(lia)) as (K1 & K2 & K3 & K4).
    replace (r + N.of_nat (S n)) with (r + 1 + N.of_nat n) by lia. eapply IH; [exact E2| |].
    - intros k L. apply Hk. lia.
    - eapply empty_in_view; eassumption.
  Qed.
  Lemma empty_rows_view r k w s o s' v : empty_rows sh r k w s = Ok (o, s') -> k <= u32_max ->
    (forall j, r <= j < r + k -> ~ in_data sh j /\ j < E /\ (exists r', in_row all r' /\ j < r') /\ ~ (exists f t, tb_hrows sh = Some (f, t) /\ f <= j <= t)) ->
    bnd r s v -> bnd (r + k) s' (rfold v o).
  Proof.
    unfold empty_rows. intros H Lk Hk B. destruct (negb (is_nil (tb_grows sh)) || CellModel.is_some (tb_hrows sh)) eqn:X.
    - destruct (add32 r k); try discriminate. cbn [bind] in H. replace (r + k) with (r + N.of_nat (N.to_nat k)) by lia.
      eapply empty_rows_in_view; [exact H| |exact B]. intros j L. apply Hk. lia.
    - apply orb_false_elim in X as (X1 & X2). destruct (empty_row sh r k w) as [o1| |] eqn:E1; try discriminate. cbn [bind] in H.
      assert (Y : o = o1) by congruence. assert (Y' : s' = s) by congruence. subst o1 s'. rewrite (empty_row_view _ _ _ _ _ E1 Lk).
      destruct B as (B1 & B2 & B3 & B4 & B5). assert (G : gs = []) by (unfold gs; destruct (tb_grows sh); [reflexivity|discriminate]).
      unfold head_at, hr_at in *. unfold bnd, head_at, hr_at. destruct (tb_hrows sh); [discriminate|]. cbn [v_row v_st v_out v_hr].
      split; [now rewrite B1|]. split; [exact B2|]. split; [|auto]. eapply level_ext; [exact B3| |]; rewrite G; contradiction.
  Qed.

  Definition ginv (pv : option prev) (s : wst) (l : cells) (v : rview) : Prop :=
    (forall kv, In kv l -> In kv all) /\
    match pv with
    | None => bnd 0 s v /\ forall r, in_row all r -> in_row l r
    | Some q => pv_rep q = rep (pv_row q) /\ in_row all (pv_row q)
        /\ (forall r, in_row all r -> r = pv_row q \/ r + rep r <= pv_row q \/ in_row l r)
        /\ inr (pv_row q) (pv_rep q) s v
    end.
  Hypothesis Hlast : forall b, in_row all b -> (forall r, in_row all r -> r <= b) -> E = b + rep b.

  Lemma cell_at_view mx pv spans s p c l o spans' s' v :
    write_cell_at sh mx pv spans s p c (match l with kv :: _ => Some (fst kv) | [] => None end) = Ok (o, spans', s') ->
    ginv pv s ((p, c) :: l) v -> om_sorted pltb ((p, c) :: l) -> fst p <= u32_max ->
    match l with [] => fin (rfold v o) | _ => ginv (Some (PREV (fst p) (rep (fst p)) (snd p))) s' l (rfold v o) end.
  Proof.
    unfold write_cell_at. destruct p as [row col]. cbn [fst snd]. intros H (Ha & Hi) Hs Hm.
    assert (Hall : in_row all row) by (exists col, c; apply Ha; now left).
    destruct (match match l with [] => None | kv :: _ => Some (fst kv) end with Some q => q | None => mx end) as [nrow ncol].
    destruct (sub32 nrow row) as [fr| |]; try discriminate. cbn [bind] in H.
    match type of H with bind ?X _ = _ => destruct X as [fc| |]; try discriminate end. cbn [bind] in H.
    set (PP := match pv with Some v => (pv_row v, pv_rep v, pv_col v) | None => (0, 1, 0) end) in H.
    destruct PP as [[prow prep] pcol] eqn:EP.
    destruct (sub32 row prow) as [br| |] eqn:Eb; try discriminate. cbn [bind] in H. apply sub32_ok in Eb.
    match type of H with bind ?X _ = _ => destruct X as [bc| |]; try discriminate end. cbn [bind] in H.
    match type of H with bind ?X _ = _ => destruct X as [[o1 s1]| |] eqn:E1; try discriminate end. cbn [bind] in H.
    match type of H with bind ?X _ = _ => destruct X as [[o2 s2]| |] eqn:E2; try discriminate end. cbn [bind] in H.
    match type of H with bind ?X _ = _ => destruct X as [[o3 s3]| |] eqn:E3; try discriminate end. cbn [bind] in H.
    match type of H with bind ?X _ = _ => destruct X as [[sp1 sp]| |] eqn:Eh; try discriminate end. cbn [bind] in H.
    destruct (pieces (TCell c) sp) as [o4| |] eqn:E4; try discriminate. cbn [bind] in H.
    match type of H with bind ?X _ = _ => destruct X as [o5| |] eqn:E5; try discriminate end. cbn [bind] in H.
    match type of H with Ok (?x, ?y, ?z) = Ok _ => assert (Eo : o = x) by congruence; assert (Es : s' = z) by congruence; clear H end. subst o s'.
    assert (Hrows : forall r, in_row all r -> r = row \/ r + rep r <= row \/ in_row l r).
    { intros r Hr. destruct pv as [q|].
      - destruct Hi as (Hr1 & Hr0 & Hr2 & _). injection EP as <- <- <-. destruct (Hr2 r Hr) as [->|[X|X]].
        + destruct (0 <? br) eqn:B; [|left; lia]. right. left. cbn [negb andb] in E2. destruct (br <? pv_rep q) eqn:L; [discriminate|]. lia.
        + right. left. lia.
        + apply in_row_cons in X as [X|X]; [left; exact X|auto].
      - destruct Hi as (_ & Hr2). apply Hr2, in_row_cons in Hr as [X|X]; [left; exact X|auto]. }
    (* the rows in front *)
    assert (Gap : forall k, match pv with Some q => pv_row q + pv_rep q <= k | None => True end -> k < row ->
      ~ in_data sh k /\ k < E /\ (exists r', in_row all r' /\ k < r') /\ ~ (exists f t, tb_hrows sh = Some (f, t) /\ f <= k <= t)).
    { intros k Hp L.
      assert (Nd : ~ in_data sh k).
      { intros (r & n & D & Hk). apply at_data in D as (Hr & ->).
        assert (X : in_row ((row, col, c) :: l) r).
        { destruct pv as [q|].
          - destruct Hi as (Hr1 & Hr0 & Hr2 & _). destruct (Hr2 r Hr) as [->|[X|X]]; [lia|lia|exact X].
          - apply Hi, Hr. }
        pose proof (in_row_sorted (fun _ => True) _ _ _ _ Hs X) as Y. cbn [fst] in Y. lia. }
      split; [exact Nd|]. pose proof (HE row Hall). destruct (Hrep row Hall) as (_ & F2 & _). split; [lia|]. split; [exists row; split; [exact Hall|lia]|].
      intros (f & t & Ef & Hk). destruct (Hfull f t Ef) as (_ & G). destruct (G k Hk) as [(r & n & R1 & R2 & R3)|G2].
      - apply Nd. exists r, n. split; [split; assumption|exact R3].
      - destruct Hall as (b & x & I). assert (X : row <= k) by (apply G2; exists b, x; exact I). lia. }
    (* the row *)
    assert (R : inr row (rep row) s3 (rfold v (o1 ++ o2 ++ o3))).
    { destruct (0 <? br) eqn:B.
      - assert (S1 : bnd (match pv with Some q => pv_row q + pv_rep q | None => 0 end) s1 (rfold v o1)).
        { destruct pv as [q|]; cbn [negb andb] in E1.
          - injection EP as <- <- <-. destruct Hi as (Hr1 & Hr0 & Hr2 & Hr3). rewrite Hr1 in *. eapply end_view; eassumption.
          - injection E1 as <- <-. apply Hi. }
        destruct (br <? prep) eqn:L; [discriminate|].
        match type of E2 with bind ?X _ = _ => destruct X as [synth| |] eqn:Ey; try discriminate end. cbn [bind] in E2.
        destruct (sub32 row synth) as [r0| |] eqn:Er0; try discriminate. cbn [bind] in E2. apply sub32_ok in Er0.
        assert (Hsy : match pv with Some q => synth = br - pv_rep q /\ prep = pv_rep q /\ prow = pv_row q | None => synth = row end).
        { destruct pv as [q|]; [injection EP as <- <- <-; injection Ey as <-; auto|]. injection EP as <- <- <-. apply add32_ok in Ey. lia. }
        assert (Er1 : r0 = match pv with Some q => pv_row q + pv_rep q | None => 0 end) by (destruct pv; lia).
        rewrite <- Er1 in S1.
        assert (S2 : bnd row s2 (rfold (rfold v o1) o2)).
        { destruct (0 <? synth) eqn:Y.
          - replace row with (r0 + synth) by lia. eapply empty_rows_view; [exact E2| | |exact S1]; [lia|].
            intros j Hj. apply Gap; [|lia]. destruct pv; lia.
          - injection E2 as <- <-. replace row with r0 by lia. exact S1. }
        cbn [orb] in E3. rewrite !rfold_app. eapply start_view; eassumption.
      - cbn [negb andb orb] in *. injection E1 as <- <-. injection E2 as <- <-. destruct pv as [q|].
        + injection E3 as <- <-. injection EP as <- <- <-. destruct Hi as (Hr1 & Hr0 & Hr2 & Hr3). assert (Er : pv_row q = row) by lia.
          rewrite Hr1, Er in Hr3. exact Hr3.
        + injection EP as <- <- <-. destruct Hi as (Hi & _). assert (row = 0) by lia. subst row. eapply start_view; eassumption. }
    assert (C4 : Forall cellish o4) by (eapply pieces_cellish; [|exact E4]; intros; exact I).
    assert (C5 : Forall cellish o5).
    { destruct (0 <? fr).
      + destruct (0 <? fc - c_repeat c); [|injection E5 as <-; constructor]. destruct (add32 col (c_repeat c)); try discriminate. cbn [bind] in E5.
        eapply gap_cellish. exact E5.
      + destruct (0 <? fc); [|injection E5 as <-; constructor]. destruct (fc <? c_repeat c); [discriminate|].
        destruct (0 <? fc - c_repeat c); [|injection E5 as <-; constructor]. destruct (add32 col (c_repeat c)); try discriminate. cbn [bind] in E5.
        eapply gap_cellish. exact E5. }
    replace (o1 ++ o2 ++ o3 ++ o4 ++ o5 ++ match match l with [] => None | kv :: _ => Some (fst kv) end with Some _ => [] | None => end_last_row s3 end)
      with ((o1 ++ o2 ++ o3) ++ (o4 ++ o5) ++ match l with [] => end_last_row s3 | _ => [] end) by (rewrite <- !app_assoc; destruct l; reflexivity).
    rewrite rfold_app, rfold_app, (cellish_view (o4 ++ o5)) by (apply Forall_app; auto). destruct l as [|kv l].
    - apply (last_view row); [exact Hall| |exact R]. apply Hlast; [exact Hall|]. intros r Hr. destruct (Hrep r Hr) as (_ & F2 & _).
      destruct (Hrows r Hr) as [->|[X|(b & x & [])]]; lia.
    - cbn [rfold fold_left]. split; [intros y I; apply Ha; now right|]. cbn [pv_row pv_rep]. auto.
  Qed.
  Lemma cells_view mx : forall l pv spans s o v, write_cells sh mx pv spans s l = Ok o -> l <> [] -> ginv pv s l v -> om_sorted pltb l ->
    Forall (fun kv => fst (fst kv) <= u32_max) l -> fin (rfold v o).
  Proof.
    induction l as [|[p c] l IH]; intros pv spans s o v H Hne Hi Hs Hf; [contradiction|]. cbn [write_cells] in H.
    match type of H with bind ?X _ = _ => destruct X as [[[o1 spans'] s1]| |] eqn:E1; try discriminate end. cbn [bind] in H.
    match type of H with bind ?X _ = _ => destruct X as [o2| |] eqn:E2; try discriminate end. cbn [bind] in H.
    assert (Eo : o = o1 ++ o2) by congruence. subst o. clear H. inversion Hf as [|? ? Hc Hf']; subst. cbn [fst] in Hc.
    pose proof (cell_at_view _ _ _ _ _ _ _ _ _ _ _ E1 Hi Hs Hc) as W. rewrite rfold_app. destruct l as [|kv l].
    - cbn [write_cells] in E2. injection E2 as <-. exact W.
    - eapply IH; [exact E2|discriminate|exact W|apply Hs|exact Hf'].
  Qed.
  (** All rows. *)
  Lemma rows_view mx o : write_cells sh mx None [] (WST 0 false) all = Ok o -> om_sorted pltb all -> Forall (fun kv => fst (fst kv) <= u32_max) all ->
    (all = [] -> E = 0) -> fin (rfold (RV 0 1 [] 0 [] None) o).
  Proof.
    intros H Hs Hf H0. assert (C : all = [] \/ all <> []) by (destruct all; [left; reflexivity|right; discriminate]). destruct C as [El|El].
    - rewrite El in H. injection H as <-. pose proof (H0 El) as E0. destruct bnd_start as (_ & _ & B3 & _ & B5). split; [|rewrite E0; exact B5].
      eapply level_ext; [exact B3| |].
      + intros g Ig. cbn beta. lia.
      + intros g Ig. pose proof (from_to g Ig). cbn beta. lia.
    - eapply cells_view; [exact H|exact El| |exact Hs|exact Hf]. split; [auto|]. split; [apply bnd_start|auto].
  Qed.
End RowGroups.

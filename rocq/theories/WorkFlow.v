(** Parts of a file that are read by functions of their own: what such a function does with the part alone, it does with the part in a file. *)
From Verif Require Import Base Lib OMap NumModel EnumModel RefsModel XmlModel XmlSpec XmlProofs TreeProofs CellModel CellIoModel CellIoProofs HeaderModel TableModel.
From Verif Require Import BookModel ScriptModel ScriptProofs ValidModel ValidProofs StyleModel FlowProofs MetaModel ConfigModel.
From Verif Require Import BookProps NumSpec NumProofs NumProps CellIoSpec CondProps MetaProofs ConfigSpec ConfigProofs ConfigIo.
From Verif Require Import OMapProofs HeaderSpec HeaderProofs TableSpec TableRun TableCells TableCols TableRead TablePlaced TableNested TableWhole WorkModel.

(** ** Calls that are complete *)

Lemma asked_app lb q a b : sensible q a -> forall p, (q = false -> p = None) -> asked esc_split lb p (a ++ b) = asked esc_split lb p a ++ asked esc_split lb None b.
Proof.
  induction 1; intros pd Q; cbn [app asked]; rewrite ?Q by reflexivity; try reflexivity;
    repeat match goal with
    | IH : forall p, (true = false -> p = None) -> _ |- _ => rewrite IH by discriminate; clear IH
    | IH : forall p, (false = false -> p = None) -> _ |- _ => rewrite IH by reflexivity; clear IH
    end; rewrite <- ?app_assoc; try reflexivity.
  - cbn [app]. now rewrite <- app_assoc.
  - destruct b0; now rewrite <- ?app_assoc.
Qed.
Lemma nested_app a : forall st b, calls_nested st a -> forall st', calls_nested st' b -> calls_nested (st ++ st') (a ++ b).
Proof.
  induction a as [|c a IH]; intros st b H st' B; cbn [app] in *; [cbn in H; subst; exact B|].
  destruct c; cbn [calls_nested] in *; try (now apply IH); try (now apply (IH (_ :: st))).
  - destruct has_content; [now apply (IH (n :: st))|now apply IH].
  - destruct has_content; [|now apply IH]. destruct st as [|m st]; [contradiction|]. destruct H as (-> & H). cbn [app]. split; [reflexivity|now apply IH].
  - destruct st as [|m st]; [contradiction|]. destruct H as (-> & H). cbn [app]. split; [reflexivity|now apply IH].
Qed.
Lemma flows_any lb cs : flushes cs -> sensible false cs -> calls_nested [] cs -> flows lb cs (asked esc_split lb None cs).
Proof.
  intros F S N. split; [intros rest _; destruct cs as [|[] cs]; try contradiction; exact I|].
  split. { intros rest R q. apply sensible_app; [|apply R]. destruct S; try contradiction; try (constructor; assumption). }
  split; [intros st rest R; now apply (nested_app cs [] rest N st)|].
  intros p rest R. rewrite (asked_flush _ _ p) by (destruct cs as [|[] cs]; try contradiction; exact I). now rewrite (asked_app lb false cs rest S None).
Qed.
Lemma asked_last_end lb n cs : forall p, exists evs, asked esc_split lb p (cs ++ [CEnd n]) = evs ++ [EEnd n; EText (nl lb)].
Proof.
  induction cs as [|c cs IH]; intros p; [exists (finish lb p); reflexivity|].
  assert (H : forall a p', exists evs, a ++ asked esc_split lb p' (cs ++ [CEnd n]) = evs ++ [EEnd n; EText (nl lb)]).
  { intros a p'. destruct (IH p') as (evs & ->). exists (a ++ evs). now rewrite app_assoc. }
  assert (H1 : forall x a p', exists evs, x :: a ++ asked esc_split lb p' (cs ++ [CEnd n]) = evs ++ [EEnd n; EText (nl lb)]).
  { intros x a p'. destruct (H a p') as (evs & ->). now exists (x :: evs). }
  destruct c; cbn [app asked].
  - apply (H [_; _]).
  - destruct (H (finish lb p ++ [EStart n0 []; EText t; EEnd n0; EText (nl lb)]) None) as (evs & E). rewrite <- app_assoc in E. exists evs. exact E.
  - destruct (H (finish lb p ++ EStart n0 [] :: esc_split t ++ [EEnd n0; EText (nl lb)]) None) as (evs & E). rewrite <- app_assoc in E. cbn [app] in E. rewrite <- app_assoc in E. exists evs. exact E.
  - apply H.
  - apply H.
  - apply H.
  - apply IH.
  - apply IH.
  - destruct (H (finish lb p ++ [EText t]) None) as (evs & E). rewrite <- app_assoc in E. exists evs. exact E.
  - destruct (H (finish lb p ++ esc_split t) None) as (evs & E). rewrite <- app_assoc in E. exists evs. exact E.
  - destruct has_content; [|apply H]. destruct (H (finish lb p ++ [EEnd n0; EText (nl lb)]) None) as (evs & E). rewrite <- app_assoc in E. exists evs. exact E.
  - destruct (H (finish lb p ++ [EEnd n0; EText (nl lb)]) None) as (evs & E). rewrite <- app_assoc in E. exists evs. exact E.
Qed.

(** ** Elements of a name that do not end inside *)

Definition closes (n : str) (c : call) : Prop := match c with CEnd m | CEndIf true m | CElemText m _ | CElemTextEsc m _ => m = n | _ => False end.
Definition not_end (n : str) (e : event) : Prop := match e with EEnd m => m <> n | _ => True end.
Lemma not_end_asked n lb cs : Forall (fun c => ~ closes n c) cs -> forall p, Forall (not_end n) (asked esc_split lb p cs).
Proof.
  assert (F : forall p, Forall (not_end n) (finish lb p)) by (intros [[[m a] []]|]; repeat constructor).
  assert (T : forall t, Forall (not_end n) (esc_split t)) by (induction t as [|c t IH]; [constructor|]; cbn; destruct (entity_of c); constructor; auto; exact I).
  induction 1 as [|c cs H _ IH]; intros p; [constructor|].
  destruct c; cbn [asked closes] in *; repeat first [apply Forall_app; split; [apply F || apply T|]|apply IH|apply Forall_cons; [exact I || exact H|]].
  destruct has_content; repeat first [apply Forall_app; split; [apply F|]|apply IH|apply Forall_cons; [exact I || exact H|]].
Qed.
Lemma not_end_coalesce n evs : forall acc, Forall (not_end n) evs -> Forall (not_end n) (coalesce_from acc evs).
Proof.
  assert (E : forall acc, Forall (not_end n) (emit_text acc)) by (intros []; repeat constructor).
  induction evs as [|e evs IH]; intros acc H; [apply E|]. inversion H; subst.
  destruct e; cbn [coalesce_from]; try (apply Forall_app; split; [apply E|]; apply Forall_cons; auto). now apply IH.
Qed.

(** ** A table *)

Lemma table_length ign evs : forall s m s' r, table_loop ign s m evs = Ok (s', r) -> (length r < length evs)%nat.
Proof.
  induction evs as [|e evs IH]; intros s m s' r H; cbn [table_loop] in H; [discriminate|]. apply bind_ok in H as ([[s1 m1]|s1] & _ & H).
  - apply IH in H. cbn [length]. lia.
  - injection H as <- <-. cbn [length]. lia.
Qed.
Lemma table_prefix ign x : forall s m s' y, table_loop ign s m (x ++ y) = Ok (s', y) -> forall z, table_loop ign s m (x ++ z) = Ok (s', z).
Proof.
  induction x as [|e x IH]; intros s m s' y H z; cbn [app] in *.
  - apply table_length in H. lia.
  - cbn [table_loop] in *. apply bind_ok in H as ([[s1 m1]|s1] & -> & H); cbn [bind]; [now apply IH with (y := y)|].
    injection H as <- E. assert (x = []) by (destruct x; [reflexivity|apply (f_equal (@length event)) in E; cbn [app length] in E; rewrite app_length in E; lia]). now subst.
Qed.
(** What is written for a sheet, read in a file. *)
Lemma sheet_flow_asked lb ign ds sh cs : write_sheet ds sh = Ok cs -> sheet_ok sh -> header_rows_full sh -> col_groups_apart sh ->
  exists sh' a inner, table_through lb ign ds sh = Ok sh' /\ flows lb cs (EStart t_table a :: inner ++ [EEnd t_table; EText (nl lb)])
  /\ asked esc_split lb None cs = EStart t_table a :: inner ++ [EEnd t_table; EText (nl lb)]
  /\ forall rest, read_table ign (EStart t_table a :: coalesce (inner ++ EEnd t_table :: EText (nl lb) :: rest)) = Ok (sh', coalesce (EText (nl lb) :: rest)).
Proof.
  intros H ((Hs & Hc) & Hr & Hra & He) Hh Hg.
  assert (Sn : sensible false cs) by (apply (table_sensible ds sh); auto; [now split|apply Hr]).
  assert (Ns : calls_nested [] cs) by (apply (table_nested ds sh); auto; apply Hr).
  assert (R : exists sh', read_table ign (events_of lb cs) = Ok (sh', coalesce [EText (nl lb)])).
  { pose proof H as H0. unfold write_sheet in H0. destruct (table_attrs sh) as [a| |] eqn:Ea; try discriminate. cbn [bind] in H0.
    destruct (table_items sh) as [body| |] eqn:Eb; try discriminate. clear H0. unfold table_items in Eb.
    destruct (used_grid_size (tb_cells sh)) as [mx| |] eqn:Eg; try discriminate. clear Eb. destruct (grid_bound _ _ Eg) as (G1 & G2 & G3).
    assert (Hrf : forall p c, In (p, c) (tb_cells sh) -> row_fine sh (fst p)) by (apply rows_fine; [exact Hr|]; intros p c I; specialize (G3 p c I); lia).
    destruct (table_read lb ign ds sh cs (tb_ranges sh) (fun _ => True) (fun _ _ => True) H He (ranges_readable _ _ Ea Hra) Hs) as (sh2 & hs & T1 & _); auto; [|eauto].
    rewrite Forall_forall in *. intros [p c] I. cbn [fst snd]. split; [apply writable_fine; apply (Hc _ I)|eapply Hrf; exact I]. }
  destruct R as (sh' & R).
  assert (Sh : exists a inner, asked esc_split lb None cs = EStart t_table a :: inner ++ [EEnd t_table; EText (nl lb)] /\ flushes cs).
  { unfold write_sheet in H. destruct (table_attrs sh) as [a| |] eqn:Ea; try discriminate. cbn [bind] in H. destruct (table_items sh) as [body| |] eqn:Eb; try discriminate. cbn [bind] in H.
    rewrite He in H. cbn [nodes_in filter map flat_map] in H. match type of H with Ok ?x = Ok _ => assert (E : cs = x) by (injection H; auto); clear H; subst cs end.
    exists (attrs_of a). cbn [asked finish app].
    rewrite asked_attr_calls by (apply FlowProofs.good_is_attr; eapply table_attrs_good; exact Ea).
    destruct (asked_last_end lb t_table (flat_map (TableModel.item_calls ds) body) None) as (inner & Ei). exists inner. split; [|exact I].
    assert (Hfl : flushes (flat_map (TableModel.item_calls ds) body ++ [CEnd t_table])).
    { destruct body as [|i body]; [exact I|]. cbn [flat_map]. rewrite <- app_assoc. destruct i as [| | | |[]]; exact I. }
    rewrite asked_flush by exact Hfl. cbn [finish app]. now rewrite Ei. }
  destruct Sh as (a & inner & E & Fl). exists sh', a, inner. split; [|split].
  - unfold table_through. rewrite H. cbn [bind]. rewrite read_events_render by assumption. cbn [bind]. rewrite R. reflexivity.
  - rewrite <- E. now apply flows_any.
  - split; [exact E|]. intros rest. unfold events_of in R. rewrite E in R. unfold coalesce in R. rewrite coalesce_cons in R by exact I. cbn [emit_text app] in R.
    fold (coalesce (inner ++ [EEnd t_table; EText (nl lb)])) in R. rewrite coalesce_split in R by exact I. rewrite coalesce_split by exact I.
    unfold read_table in *. apply bind_ok in R as (s0 & -> & R). cbn [bind] in *. apply bind_ok in R as ((s1 & r1) & R & R2). injection R2 as <- ->.
    change (coalesce inner ++ EEnd t_table :: ?l) with (coalesce inner ++ [EEnd t_table] ++ l) in *. rewrite app_assoc in *.
    rewrite (table_prefix _ _ _ _ _ _ R). reflexivity.
Qed.
Lemma sheet_flow lb ign ds sh cs : write_sheet ds sh = Ok cs -> sheet_ok sh -> header_rows_full sh -> col_groups_apart sh ->
  exists sh' a inner, table_through lb ign ds sh = Ok sh' /\ flows lb cs (EStart t_table a :: inner ++ [EEnd t_table; EText (nl lb)])
  /\ forall rest, read_table ign (EStart t_table a :: coalesce (inner ++ EEnd t_table :: EText (nl lb) :: rest)) = Ok (sh', coalesce (EText (nl lb) :: rest)).
Proof.
  intros H Hk Hh Hg. destruct (sheet_flow_asked lb ign ds sh cs H Hk Hh Hg) as (sh' & a & inner & T & F & _ & R). exists sh', a, inner. auto.
Qed.

(** ** Validations *)

Lemma para_local super a evs : forall pc st t r, para_loop super a pc st evs = Ok (t, r) -> r <> [] ->
  exists p, evs = p ++ r /\ forall z, para_loop super a pc st (p ++ z) = Ok (t, z).
Proof.
  induction evs as [|e evs IH]; intros pc st t r H N; cbn [para_loop] in H; [injection H as <- <-; congruence|].
  apply bind_ok in H as ([[pc' st']|t'] & E & H).
  - destruct (IH _ _ _ _ H N) as (p & -> & P). exists (e :: p). split; [reflexivity|]. intros z. cbn [app para_loop]. rewrite E. apply P.
  - injection H as <- <-. exists [e]. split; [reflexivity|]. intros z. cbn [app para_loop]. rewrite E. reflexivity.
Qed.
Lemma message_local {T} (ty : option (str -> res T)) m0 tag a b evs m r : read_message ty m0 tag a b evs = Ok (m, r) -> r <> [] ->
  exists p, evs = p ++ r /\ forall z, read_message ty m0 tag a b (p ++ z) = Ok (m, z).
Proof.
  unfold read_message. intros H N. apply bind_ok in H as (x & E & H). apply bind_ok in H as ((t & r') & E2 & H). rewrite E. cbn [bind].
  assert (r' = r) by (destruct t; try discriminate; now injection H). subst r'. unfold read_text_or_tag in *. destruct b.
  - injection E2 as <- <-. exists []. split; [reflexivity|]. intros z. cbn [app bind]. now injection H as <-.
  - destruct (para_local _ _ _ _ _ _ _ E2 N) as (p & -> & P). exists p. split; [reflexivity|]. intros z. rewrite P. cbn [bind]. destruct t; try discriminate; now injection H as <-.
Qed.
Lemma valids_local n : forall evs v bk bk' r, read_valids n evs v bk = Ok (bk', r) -> r <> [] ->
  exists p, evs = p ++ r /\ forall z k, (length (p ++ z) <= k)%nat -> read_valids k (p ++ z) v bk = Ok (bk', z).
Proof.
  induction n as [|n IH]; intros evs v bk bk' r H N; [destruct evs; [injection H as <- <-; congruence|discriminate]|].
  destruct evs as [|e evs]; [injection H as <- <-; congruence|].
  assert (G : forall q v1 bk1 evs', evs = q ++ evs' -> read_valids n evs' v1 bk1 = Ok (bk', r) ->
    (forall k z, read_valids (S k) (e :: q ++ z) v bk = read_valids k z v1 bk1) ->
    exists p, e :: evs = p ++ r /\ forall z k, (length (p ++ z) <= k)%nat -> read_valids k (p ++ z) v bk = Ok (bk', z)).
  { intros q v1 bk1 evs' -> R Q. destruct (IH _ _ _ _ _ R N) as (p & -> & P). exists (e :: q ++ p). split; [cbn [app]; now rewrite <- app_assoc|].
    intros z k L. cbn [app length] in L. destruct k as [|k]; [inversion L|]. cbn [app]. rewrite <- app_assoc, Q. apply P. rewrite <- app_assoc, app_length in L. lia. }
  assert (Sk : read_valids n evs v bk = Ok (bk', r) -> (forall k z, read_valids (S k) (e :: z) v bk = read_valids k z v bk) ->
    exists p, e :: evs = p ++ r /\ forall z k, (length (p ++ z) <= k)%nat -> read_valids k (p ++ z) v bk = Ok (bk', z)) by (intros R Q; apply (G [] v bk evs eq_refl R Q)).
  assert (Rn : forall x y, read_valids n x v bk = y -> r <> [] -> forall b m, read_valids n x b m = Ok (bk', r) -> x <> []).
  { intros x y _ _ b m R ->. destruct n; injection R as _ R; congruence. }
  assert (Nn : forall x b m, read_valids n x b m = Ok (bk', r) -> x <> []) by (intros x b m R ->; destruct n; injection R as _ R; congruence).
  cbn [read_valids] in H. destruct e as [t a|t a|t|t|t|t]; try (apply Sk; [exact H|reflexivity]).
  - destruct (str_eqb t t_valid) eqn:E1; [|destruct (str_eqb t t_err) eqn:E2; [|destruct (str_eqb t t_help) eqn:E3]].
    + apply bind_ok in H as (w & Ew & H). apply bind_ok in H as ((b1 & n1) & Eb & H). apply (G [] valid0 b1 evs eq_refl H).
      intros k z. cbn [app read_valids]. rewrite E1, Ew. cbn [bind]. rewrite Eb. reflexivity.
    + apply bind_ok in H as ((m & r') & Em & H). destruct (message_local _ _ _ _ _ _ _ _ Em (Nn _ _ _ H)) as (p & Ep & P). apply (G p (with_err v m) bk r' Ep H).
      intros k z. cbn [app read_valids]. rewrite E1, E2, P. reflexivity.
    + apply bind_ok in H as ((m & r') & Em & H). destruct (message_local _ _ _ _ _ _ _ _ Em (Nn _ _ _ H)) as (p & Ep & P). apply (G p (with_help v m) bk r' Ep H).
      intros k z. cbn [app read_valids]. rewrite E1, E2, E3, P. reflexivity.
    + apply Sk; [exact H|]. intros k z. cbn [read_valids]. now rewrite E1, E2, E3.
  - destruct (str_eqb t t_err) eqn:E2; [|destruct (str_eqb t t_help) eqn:E3].
    + apply bind_ok in H as ((m & r') & Em & H). destruct (message_local _ _ _ _ _ _ _ _ Em (Nn _ _ _ H)) as (p & Ep & P). apply (G p (with_err v m) bk r' Ep H).
      intros k z. cbn [app read_valids]. rewrite E2, P. reflexivity.
    + apply bind_ok in H as ((m & r') & Em & H). destruct (message_local _ _ _ _ _ _ _ _ Em (Nn _ _ _ H)) as (p & Ep & P). apply (G p (with_help v m) bk r' Ep H).
      intros k z. cbn [app read_valids]. rewrite E2, E3, P. reflexivity.
    + apply Sk; [exact H|]. intros k z. cbn [read_valids]. now rewrite E2, E3.
  - destruct (str_eqb t t_valid) eqn:E1; [|destruct (str_eqb t t_valids) eqn:E2].
    + apply bind_ok in H as ((b1 & n1) & Eb & H). apply (G [] valid0 b1 evs eq_refl H). intros k z. cbn [app read_valids]. rewrite E1, Eb. reflexivity.
    + injection H as <- <-. exists [EEnd t]. split; [reflexivity|]. intros z k L. destruct k as [|k]; [inversion L|]. cbn [app read_valids]. now rewrite E1, E2.
    + apply Sk; [exact H|]. intros k z. cbn [read_valids]. now rewrite E1, E2.
Qed.
(** The validations written into a body of their own, and what is read of it. *)
Definition valids_back (lb : bool) (vs : list validation) (bk bk' : book vbody) : Prop :=
  exists cs evs, write_validations vs = Ok cs /\ read_events (render lb (CElem t_body :: cs ++ [CEnd t_body])) = Ok (EStart t_body [] :: evs)
  /\ match vs with
     | [] => bk' = bk
     | _ => exists r, evs = EStart t_valids [] :: r /\ read_valids (length r) r valid0 bk = Ok (bk', coalesce [EText (nl lb); EEnd t_body; EText (nl lb)])
     end.
Lemma valids_flow lb vs cs bk bk' : Forall valid_ok vs -> vs <> [] -> write_validations vs = Ok cs -> valids_back lb vs bk bk' ->
  exists inner, flows lb cs (EStart t_valids [] :: inner ++ [EEnd t_valids; EText (nl lb)])
  /\ forall rest n, (length (coalesce (inner ++ EEnd t_valids :: EText (nl lb) :: rest)) <= n)%nat ->
       read_valids n (coalesce (inner ++ EEnd t_valids :: EText (nl lb) :: rest)) valid0 bk = Ok (bk', coalesce (EText (nl lb) :: rest)).
Proof.
  intros V NE W (cs' & evs & W' & R & B). assert (cs' = cs) by congruence. subst cs'. clear W'.
  unfold write_validations in W. destruct vs as [|v vs]; [congruence|]. apply bind_ok in W as (cv & E & W). injection W as <-. destruct (valids_good _ cv V E) as (S & N).
  assert (Fl : flushes (cv ++ [CEnd t_valids])).
  { cbn [valids_calls] in E. unfold valid_calls in E. apply bind_ok in E as (c1 & E1 & E). apply bind_ok in E1 as (x & _ & E1). injection E1 as <-.
    apply bind_ok in E as (c2 & E2 & E). injection E as <-. exact I. }
  destruct (asked_last_end lb t_valids cv None) as (inner & Ei). exists inner.
  assert (Fw : flows lb (CElem t_valids :: cv ++ [CEnd t_valids]) (EStart t_valids [] :: inner ++ [EEnd t_valids; EText (nl lb)])).
  { replace (EStart t_valids [] :: inner ++ [EEnd t_valids; EText (nl lb)]) with (asked esc_split lb None (CElem t_valids :: cv ++ [CEnd t_valids])).
    2: { cbn [asked finish app]. rewrite asked_flush by exact Fl. cbn [finish app]. now rewrite Ei. }
    apply flows_any; [exact I| |].
    - apply sn_elem; [name_lit|]. apply S. intros q. apply sn_end; [name_lit|constructor].
    - cbn [calls_nested]. apply N. cbn. auto. }
  split; [exact Fw|]. destruct B as (r & -> & B).
  assert (Er : EStart t_body [] :: EStart t_valids [] :: r = coalesce (EStart t_body [] :: EStart t_valids [] :: inner ++ [EEnd t_valids; EText (nl lb); EEnd t_body; EText (nl lb)])).
  { rewrite read_events_render in R.
    - assert (Q : events_of lb (CElem t_body :: (CElem t_valids :: cv ++ [CEnd t_valids]) ++ [CEnd t_body]) = EStart t_body [] :: EStart t_valids [] :: r) by congruence.
      rewrite <- Q. unfold events_of. f_equal. cbn [asked finish]. destruct Fw as (F1 & _ & _ & F4). change (CElem t_valids :: ?l) with ([CElem t_valids] ++ l) in F4.
      rewrite asked_flush by exact I. cbn [finish app]. pose proof (F4 None [CEnd t_body] I) as F. cbn [finish app asked] in F. cbn [app asked finish]. rewrite F. rewrite <- !app_assoc. reflexivity.
    - apply sn_elem; [name_lit|]. destruct Fw as (_ & F2 & _ & _). apply F2. intros q. apply sn_end; [name_lit|constructor].
    - cbn [calls_nested]. destruct Fw as (_ & _ & F3 & _). apply F3. cbn. auto. }
  unfold coalesce in Er. rewrite !coalesce_cons in Er by exact I. cbn [emit_text app] in Er. injection Er as Er. fold (coalesce (inner ++ [EEnd t_valids; EText (nl lb); EEnd t_body; EText (nl lb)])) in Er.
  rewrite coalesce_split in Er by exact I.
  assert (NN : coalesce [EText (nl lb); EEnd t_body; EText (nl lb)] <> []) by (destruct lb; discriminate).
  destruct (valids_local _ _ _ _ _ _ B NN) as (p & Ep & P). intros rest n L. rewrite coalesce_split in * by exact I.
  assert (p = coalesce inner ++ [EEnd t_valids]).
  { apply (app_inv_tail (coalesce [EText (nl lb); EEnd t_body; EText (nl lb)])). rewrite <- Ep, Er, <- app_assoc. reflexivity. }
  subst p. specialize (P (coalesce (EText (nl lb) :: rest)) n). rewrite <- app_assoc in P. apply P. exact L.
Qed.
(** ** Metadata *)

(** The events of some calls, an element at the end being complete. *)
Definition whole (lb : bool) (cs : list call) : list event := asked esc_split lb None (cs ++ [CEndIf false []]).
Lemma asked_whole lb cs rest : flushes rest -> forall p, asked esc_split lb p (cs ++ rest) = asked esc_split lb p (cs ++ [CEndIf false []]) ++ asked esc_split lb None rest.
Proof.
  intros R. induction cs as [|c cs IH]; intros p; [cbn [app asked]; rewrite asked_flush by exact R; now rewrite app_nil_r|].
  destruct c; cbn [app asked]; rewrite ?IH; cbn [app]; rewrite <- ?app_assoc; cbn [app]; rewrite <- ?app_assoc; try reflexivity.
  destruct has_content; rewrite <- app_assoc; reflexivity.
Qed.
Lemma fine_flows lb cs : MetaProofs.fine cs -> flows lb cs (whole lb cs).
Proof.
  intros (F1 & F2 & F3). split; [intros rest R; now apply F3|]. split; [intros rest R q; now apply F1|]. split; [intros st rest R; now apply F2|].
  intros p rest R. rewrite (asked_flush _ _ p) by (now apply F3). f_equal. now apply asked_whole.
Qed.
Lemma not_end_whole n lb cs : Forall (fun c => ~ closes n c) cs -> Forall (not_end n) (whole lb cs).
Proof. intros H. apply not_end_asked. apply Forall_app. split; [exact H|]. constructor; [intros []|constructor]. Qed.
Definition inside (s : mstate) : Prop := match s with MOutside _ => False | _ => True end.
Lemma step_inside e s s' : inside s -> not_end t_meta e -> mstep e s = Ok s' -> inside s'.
Proof.
  intros I N H. destruct s as [m|m|m n f t|m n u ty]; [contradiction| | |].
  - destruct e; cbn [mstep] in H; try (injection H as <-; exact I).
    + destruct (find _ all_fields); [injection H as <-; exact Logic.I|].
      destruct (str_eqb n t_template); [apply bind_ok in H as (? & _ & H); injection H as <-; exact Logic.I|].
      destruct (str_eqb n (lit "meta:auto-reload")); [apply bind_ok in H as (? & _ & H); injection H as <-; exact Logic.I|].
      destruct (str_eqb n t_links); [apply bind_ok in H as (? & _ & H); injection H as <-; exact Logic.I|].
      destruct (str_eqb n t_stats); [apply bind_ok in H as (? & _ & H); injection H as <-; exact Logic.I|].
      destruct (str_eqb n t_user); [apply bind_ok in H as (? & _ & H); injection H as <-; exact Logic.I|]. injection H as <-. exact Logic.I.
    + destruct (str_eqb n t_meta) eqn:E; [apply str_eqb_eq in E; contradiction|]. injection H as <-. exact Logic.I.
  - destruct e; cbn [mstep] in H; try (injection H as <-; exact Logic.I).
    + destruct (str_eqb n0 n); [apply bind_ok in H as (? & _ & H); injection H as <-; exact Logic.I|]. injection H as <-. exact Logic.I.
    + apply bind_ok in H as (? & _ & H). injection H as <-. exact Logic.I.
  - destruct e; cbn [mstep] in H; try (injection H as <-; exact Logic.I).
    + destruct (str_eqb n0 n); injection H as <-; exact Logic.I.
    + apply bind_ok in H as (? & _ & H). injection H as <-. exact Logic.I.
Qed.
Lemma mrun_app a b s : mrun (a ++ b) s = let* s' := mrun a s in mrun b s'.
Proof. revert s. induction a as [|e a IH]; intros s; [reflexivity|]. cbn [app mrun]. destruct (mstep e s); cbn [bind]; auto. Qed.
Lemma meta_run a : forall s s' r, inside s -> Forall (not_end t_meta) a -> mrun a s = Ok s' -> inside s' /\ meta_loop s (a ++ r) = meta_loop s' r.
Proof.
  induction a as [|e a IH]; intros s s' r I N H; cbn [mrun] in H; [injection H as <-; auto|]. inversion N; subst. apply bind_ok in H as (s1 & E & H).
  pose proof (step_inside _ _ _ I H2 E) as I1. destruct (IH s1 s' r I1 H3 H) as (I' & L). split; [exact I'|]. cbn [app meta_loop]. rewrite E. cbn [bind].
  destruct s1; [contradiction| | |]; exact L.
Qed.
Lemma text_inside t s s' : mrun (coalesce [EText t]) s = Ok s' -> inside s -> inside s'.
Proof.
  unfold coalesce. cbn [coalesce_from app]. destruct t as [|c t]; cbn [emit_text mrun]; intros H I; [injection H as <-; exact I|]. apply bind_ok in H as (s1 & E & H). injection H as <-.
  eapply step_inside; [exact I| |exact E]. exact Logic.I.
Qed.
Lemma meta_flow lb m : meta_ok m -> exists evs, flows lb (write_office_meta m) (EStart t_meta [] :: evs ++ [EEnd t_meta; EText (nl lb)])
  /\ forall rest, meta_loop (MInside meta0) (coalesce (evs ++ EEnd t_meta :: EText (nl lb) :: rest)) = Ok (meta_back m, coalesce (EText (nl lb) :: rest)).
Proof.
  intros H. destruct (inner_read m H) as (E & F). exists (whole lb (MetaProofs.inner m)). pose proof (fine_flows lb _ F) as Fl.
  assert (W : write_office_meta m = CElem t_meta :: [] ++ MetaProofs.inner m ++ [CEnd t_meta]) by (unfold write_office_meta, MetaProofs.inner; cbn [app]; now rewrite <- !app_assoc).
  split; [rewrite W; apply (flows_elem lb t_meta []); [name_lit|constructor|exact Fl]|]. intros rest.
  assert (NE : Forall (not_end t_meta) (coalesce (whole lb (MetaProofs.inner m)))).
  { apply not_end_coalesce, not_end_whole. unfold MetaProofs.inner.
    assert (A : forall n l, Forall is_attr l -> Forall (fun c => ~ closes t_meta c) (empty_calls n l)).
    { intros n l A. unfold empty_calls. destruct l as [|x l]; [constructor|]. apply Forall_cons; [intros []|]. eapply Forall_impl; [|exact A]. intros y Hy X. destruct y; cbn in *; try contradiction; congruence. }
    assert (AI : forall T n (sh : T -> str) o, Forall is_attr (attr_if n sh o)) by (intros T n sh [x|]; [constructor; [discriminate|constructor]|constructor]).
    assert (AE : forall n o, Forall is_attr (attr_esc_if n o)) by (intros n [x|]; [constructor; [discriminate|constructor]|constructor]).
    assert (TC : forall f t, Forall (fun c => ~ closes t_meta c) (text_calls (field_tag f) t)).
    { intros f t. unfold text_calls. destruct t; [constructor|]. constructor; [|constructor]. cbn. destruct f; discriminate. }
    assert (DC : forall f t, Forall (fun c => ~ closes t_meta c) (date_calls (field_tag f) t)).
    { intros f [t|]; [|constructor]. constructor; [|constructor]. cbn. destruct f; discriminate. }
    assert (FF : Forall (fun c => ~ closes t_meta c) (flat_map (field_calls m) all_fields)).
    { apply Forall_flat_map. apply Forall_forall. intros f _. destruct f; cbn [field_calls]; try apply TC; try apply DC.
      + constructor; [cbn; discriminate|constructor].
      + destruct (0 <? m_cycles m); [constructor; [cbn; discriminate|constructor]|constructor].
      + destruct (0 <? _)%Z; [constructor; [cbn; discriminate|constructor]|constructor]. }
    apply Forall_app. split; [exact FF|]. apply Forall_app. split; [|apply Forall_app; split; [|apply Forall_app; split; [|apply Forall_app; split]]].
    - apply A. repeat (apply Forall_app; split); apply AI || apply AE.
    - apply A. repeat (apply Forall_app; split); apply AI || apply AE.
    - apply A. repeat (apply Forall_app; split); apply AI || apply AE.
    - unfold stats_calls. repeat (apply Forall_cons; [intros []|]). constructor.
    - apply Forall_flat_map. apply Forall_forall. intros u _. unfold user_calls. repeat (apply Forall_app; split).
      + repeat (apply Forall_cons; [intros []|]). constructor.
      + destruct (snd u); cbn [user_type]; repeat (apply Forall_cons; [intros []|]); constructor.
      + apply Forall_cons; [destruct (snd u); intros []|]. constructor; [cbn; discriminate|constructor]. }
  pose proof (E lb [CEnd t_meta] Logic.I) as R. destruct Fl as (_ & _ & _ & Fl). specialize (Fl None [CEnd t_meta] Logic.I). cbn [asked finish app] in Fl. rewrite Fl in R.
  rewrite coalesce_split in R by exact Logic.I. rewrite mrun_app in R. cbn [bind asked finish app] in R.
  assert (R2 : mrun (coalesce [EEnd t_meta; EText (nl lb)]) (MInside (meta_back m)) = Ok (MOutside (meta_back m))) by (destruct lb; reflexivity).
  rewrite R2 in R. apply bind_ok in R as (s1 & R1 & R3). rewrite coalesce_split by exact Logic.I.
  destruct (meta_run _ (MInside meta0) s1 (EEnd t_meta :: coalesce (EText (nl lb) :: rest)) Logic.I NE R1) as (I1 & ->).
  cbn [mrun] in R3. apply bind_ok in R3 as (s2 & R3 & R4). cbn [meta_loop]. rewrite R3. cbn [bind].
  destruct s2 as [m2| | |]; try (exfalso; exact (text_inside _ _ _ R4 Logic.I)).
  assert (m2 = meta_back m) by (destruct lb; cbn in R4; congruence). now subst.
Qed.

(** ** Settings *)

Fixpoint bottomed (st : list cframe) : Prop := match st with [] => False | [f] => fr_kind f = None | _ :: r => bottomed r end.
Definition cinside (s : cstate) : Prop := match s with COutside _ => False | CInside _ _ st => bottomed st end.
Lemma put_kind nm x f f' : frame_put nm x f = Ok f' -> fr_kind f' = fr_kind f.
Proof. unfold frame_put. destruct (fr_kind f) as [[]|] eqn:K, nm; try discriminate; intros H; apply bind_ok in H as (m & _ & H); injection H as <-; cbn; auto. Qed.
Lemma bottomed_put f f' st : fr_kind f' = fr_kind f -> bottomed (f :: st) -> bottomed (f' :: st).
Proof. destruct st; cbn [bottomed]; intros E H; congruence. Qed.
Lemma cstep_inside e s s' : cinside s -> not_end t_settings e -> cstep e s = Ok s' -> cinside s'.
Proof.
  intros I N H. destruct s as [c|c [p|] st]; [contradiction| |].
  - destruct e; cbn [cstep] in H; try (injection H as <-; exact I).
    + destruct (str_eqb n t_item); [|injection H as <-; exact I]. apply bind_ok in H as (v & _ & H). destruct st as [|f st]; [discriminate|]. apply bind_ok in H as (f' & E & H). injection H as <-.
      cbn [cinside] in *. eapply bottomed_put; [eapply put_kind; exact E|exact I].
    + apply bind_ok in H as (? & _ & H). injection H as <-. exact I.
  - destruct e; cbn [cstep] in H; try (injection H as <-; exact I).
    + unfold cstart in H. destruct st as [|f st]; [discriminate|]. destruct (child_kind (fr_kind f) n) as [[k|]|].
      * assert (G : exists g, s' = CInside c None (g :: f :: st)) by (destruct k, (get_attr a_name _); try discriminate; injection H as <-; eauto). destruct G as (g & ->). exact I.
      * apply bind_ok in H as (? & _ & H). injection H as <-. exact I.
      * injection H as <-. exact I.
    + unfold cend in H. destruct st as [|f st]; [discriminate|]. destruct (str_eqb n (end_tag (fr_kind f))) eqn:E; [|injection H as <-; exact I].
      destruct st as [|g st]; [|apply bind_ok in H as (g' & Eg & H); injection H as <-; cbn [cinside] in *; eapply bottomed_put; [eapply put_kind; exact Eg|exact I]].
      cbn in I. rewrite I in E. apply str_eqb_eq in E. contradiction.
Qed.
Lemma config_run a : forall s s' r, cinside s -> Forall (not_end t_settings) a -> crun a s = Ok s' -> cinside s' /\ config_loop s (a ++ r) = config_loop s' r.
Proof.
  induction a as [|e a IH]; intros s s' r I N H; cbn [crun] in H; [injection H as <-; auto|]. inversion N; subst. apply bind_ok in H as (s1 & E & H).
  pose proof (cstep_inside _ _ _ I H2 E) as I1. destruct (IH s1 s' r I1 H3 H) as (I' & L). split; [exact I'|]. cbn [app config_loop]. rewrite E. cbn [bind].
  destruct s1; [contradiction|]; exact L.
Qed.
Lemma concat_forall (P : call -> Prop) l body : concat_res l = Ok body -> Forall (fun c => forall cs, c = Ok cs -> Forall P cs) l -> Forall P body.
Proof.
  revert body. induction l as [|c l IH]; intros body H F; cbn [concat_res] in H; [injection H as <-; constructor|]. inversion F; subst.
  apply bind_ok in H as (a & -> & H). apply bind_ok in H as (b & E & H). injection H as <-. apply Forall_app. split; [now apply H2|now apply IH].
Qed.
Lemma vec_forall (P : call -> Prop) ix l : Forall (fun c => forall cs, c = Ok cs -> Forall P cs) l -> forall n i body, vec_loop n i ix l = Ok body -> Forall P body.
Proof.
  intros F. induction n as [|n IH]; intros i body H; cbn [vec_loop] in H; [discriminate|].
  destruct (am_get _ ix) as [k|]; [|injection H as <-; constructor]. destruct (nth_error l k) as [p|] eqn:E; [|injection H as <-; constructor].
  apply bind_ok in H as (a & Ea & H). apply bind_ok in H as (b & Eb & H). injection H as <-. apply Forall_app. split; [|now apply IH in Eb].
  rewrite Forall_forall in F. apply (F p); [now apply nth_error_In in E|exact Ea].
Qed.
Lemma item_not_end x : forall nm cs, write_item nm x = Ok cs -> Forall (fun c => ~ closes t_settings c) cs.
Proof.
  induction x as [v|k ix vals IH] using citem_rect'; intros nm cs H.
  - cbn [write_item] in H. injection H as <-. unfold write_value. destruct (negb (value_empty v)) eqn:E.
    + repeat (apply Forall_cons; [intros []|]). apply Forall_cons; [destruct v; intros []|]. constructor; [cbn; discriminate|constructor].
    + repeat (apply Forall_cons; [intros []|]). apply Forall_cons; [destruct v; intros []|]. constructor; [intros []|constructor].
  - rewrite write_branch in H. cbv zeta in H. apply bind_ok in H as (body & W & H). injection H as <-.
    assert (Fb : Forall (fun c => ~ closes t_settings c) body).
    { assert (FA : Forall (fun c => forall cs, c = Ok cs -> Forall (fun c => ~ closes t_settings c) cs)
        (map (fun kv : str * citem => if may_hold k (snd kv) then write_item (match k, snd kv with KVec, CVal _ => nm | KVec, _ => None | _, _ => Some (fst kv) end) (snd kv) else Panic) vals)).
      { apply Forall_map. eapply Forall_impl; [|exact IH]. intros kv Hk cs Hc. cbn in Hk. destruct (may_hold k (snd kv)); [|discriminate]. eapply Hk. exact Hc. }
      destruct k; first [eapply vec_forall; [exact FA|exact W]|eapply concat_forall; [exact W|exact FA]]. }
    apply Forall_cons; [intros []|]. apply Forall_app. split; [destruct nm; repeat (apply Forall_cons; [intros []|]); constructor|].
    apply Forall_app. split; [exact Fb|]. constructor; [|constructor]. destruct k; cbn; discriminate.
Qed.
Lemma config_flow c : sound c -> settings_ok (plain c) -> exists cs, write_settings c = Ok cs /\ forall lb,
  exists evs, flows lb cs (EStart t_settings [] :: evs ++ [EEnd t_settings; EText (nl lb)])
  /\ exists c', sound c' /\ plain c' = strip (plain c)
  /\ forall rest, config_loop (CInside None None [CFrame None None cm_new 0]) (coalesce (evs ++ EEnd t_settings :: EText (nl lb) :: rest)) = Ok (Some c', coalesce (EText (nl lb) :: rest)).
Proof.
  intros S (l & E & T & Sets). destruct c as [v|k m]; [discriminate|]. rewrite plain_branch in E. injection E as -> E. fold (plains (cm_vals m)) in E. subst l.
  rewrite plain_branch in T. fold (plains (cm_vals m)) in T. apply tree_with_node in T as (_ & Ch). apply sound_map in S as (M & S).
  assert (C : Forall (fun kv => named (nm_in None (fst kv)) (snd kv) /\ takes_item None (snd kv) /\ sound (snd kv) /\ tree_ok (plain (snd kv))) (cm_vals m)
    /\ Forall (fun kv => exists m0, snd kv = CBranch KSet m0) (cm_vals m)).
  { unfold plains in *. rewrite Forall_map in Ch, Sets. rewrite !Forall_forall in *. cbn [snd] in *. split.
    - intros kv I. destruct (Ch kv I) as (_ & Tr). destruct (Sets kv I) as (m0 & Em). destruct (snd kv) as [v|k' m'] eqn:Ek; [discriminate|].
      rewrite plain_branch in Em. injection Em as -> _. cbn [named nm_in takes_item]. split; [discriminate|]. split; [reflexivity|]. split; [|exact Tr]. specialize (S kv I). now rewrite Ek in S.
    - intros kv I. destruct (Sets kv I) as (m0 & Em). destruct (snd kv) as [v|k' m'] eqn:Ek; [discriminate|]. rewrite plain_branch in Em. injection Em as -> _. eauto. }
  destruct C as (C & Sb). destruct (body_reads None (cm_vals m)) as (body & W & Fb & Rb); [apply Forall_forall; intros; apply all_read_back|exact C|].
  assert (Ws : write_settings (CBranch KSet m) = Ok ([CElem t_settings] ++ body ++ [CEnd t_settings])).
  { cbn [write_settings]. assert (X : map (fun kv : str * citem => match snd kv with CBranch KSet _ => write_item (Some (fst kv)) (snd kv) | _ => Panic end) (cm_vals m)
      = map (fun kv => write_item (nm_in None (fst kv)) (snd kv)) (cm_vals m)).
    { apply map_ext_in. intros kv I. rewrite Forall_forall in Sb. destruct (Sb kv I) as (m0 & ->). reflexivity. }
    rewrite X, W. reflexivity. }
  exists ([CElem t_settings] ++ body ++ [CEnd t_settings]). split; [exact Ws|]. intros lb. exists (whole lb body).
  pose proof (fine_flows lb _ Fb) as Fl. split; [apply (flows_elem lb t_settings []); [name_lit|constructor|exact Fl]|].
  destruct (Rb lb (None : option citem) [] [CEnd t_settings] (CFrame None None cm_new 0)) as (f1 & K1 & N1 & F1 & V1 & R1); auto; try discriminate.
  { exact I. }
  { split; [apply new_ok|constructor]. }
  { cbn. apply M. }
  exists (CBranch KSet (fr_map f1)). cbn [cm_new cm_vals fr_map plains map app] in V1.
  split; [apply sound_map; exact F1|]. split; [rewrite !plain_branch; fold (plains (cm_vals (fr_map f1))) (plains (cm_vals m)); rewrite V1; reflexivity|]. intros rest.
  assert (NE : Forall (not_end t_settings) (coalesce (whole lb body))).
  { apply not_end_coalesce, not_end_whole. eapply concat_forall; [exact W|]. apply Forall_map, Forall_forall. intros kv _ cs Hc. eapply item_not_end. exact Hc. }
  destruct Fl as (_ & _ & _ & Fl). specialize (Fl None [CEnd t_settings] Logic.I). cbn [asked finish app] in Fl. rewrite Fl in R1. cbn [asked finish app] in R1.
  rewrite crun_app in R1. rewrite coalesce_split by exact Logic.I.
  assert (R2 : crun [EEnd t_settings; EText (nl lb)] (CInside None None [f1]) = Ok (COutside (Some (CBranch KSet (fr_map f1))))).
  { cbn [crun cstep cend]. rewrite K1. cbn [end_tag]. rewrite str_eqb_refl. unfold frame_item. rewrite K1. reflexivity. }
  rewrite R2 in R1. apply bind_ok in R1 as (s1 & R1 & R3).
  assert (R1' : crun (coalesce (whole lb body)) (CInside None None [CFrame None None cm_new 0]) = Ok s1) by (unfold coalesce; rewrite crun_coalesce; exact R1).
  destruct (config_run _ (CInside None None [CFrame None None cm_new 0]) s1 (EEnd t_settings :: coalesce (EText (nl lb) :: rest)) eq_refl NE R1') as (I1 & ->).
  cbn [crun] in R3. apply bind_ok in R3 as (s2 & R3 & R4). cbn [config_loop]. rewrite R3. cbn [bind]. apply bind_ok in R4 as (s3 & R4 & R5). injection R5 as ->.
  destruct s2 as [c2|c2 p2 st2]; [|exfalso; destruct p2; discriminate R4]. cbn in R4. assert (c2 = Some (CBranch KSet (fr_map f1))) by congruence. now subst.
Qed.

(** Proofs about writing and reading one cell. *)
From Verif Require Import Base Lib XmlModel XmlSpec XmlProofs CellModel RefsModel RefsSpec RefsProofs NumModel NumSpec NumProofs
  NumProps CellIoModel CellIoSpec.

(** ** Attributes in the stream of calls *)
Definition attr_of (c : call) : option (str * str) :=
  match c with CAttr n v | CAttrEsc n v => Some (n, v) | _ => None end.
Definition is_attr (c : call) : Prop := attr_of c <> None.
Fixpoint attrs_of (l : list call) : list (str * str) :=
  match l with
  | [] => []
  | c :: r => match attr_of c with Some kv => kv :: attrs_of r | None => attrs_of r end
  end.

Lemma attrs_of_app a b : attrs_of (a ++ b) = attrs_of a ++ attrs_of b.
Proof. induction a as [|c a IH]; cbn; [reflexivity|]. destruct (attr_of c); cbn; now rewrite IH. Qed.

Lemma asked_attr_calls esc lb l : Forall is_attr l -> forall n a e cs,
  asked esc lb (Some (n, a, e)) (l ++ cs) = asked esc lb (Some (n, a ++ attrs_of l, e)) cs.
Proof.
  induction 1 as [|c l H _ IH]; intros n a e cs; cbn [attrs_of app]; [now rewrite app_nil_r|].
  destruct c; try (exfalso; apply H; reflexivity); cbn [asked attr_of with_attr]; rewrite IH, <- app_assoc; reflexivity.
Qed.

Definition flushes (cs : list call) : Prop :=
  match cs with [] | CDtd _ :: _ | CAttr _ _ :: _ | CAttrEsc _ _ :: _ => False | _ => True end.
Lemma asked_flush esc lb p cs : flushes cs -> asked esc lb p cs = finish lb p ++ asked esc lb None cs.
Proof. intros H. destruct cs as [|[] cs]; try contradiction; try reflexivity. destruct has_content; reflexivity. Qed.

Lemma opt_attr_attr n o : Forall is_attr (opt_attr n o).
Proof. destruct o; repeat constructor; discriminate. Qed.
Lemma num_attr_attr n k : Forall is_attr (num_attr n k).
Proof. unfold num_attr. destruct (_ <? _); repeat constructor; discriminate. Qed.
Lemma value_attrs_attr v : Forall is_attr (value_attrs v).
Proof. destruct v; repeat constructor; discriminate. Qed.
Lemma extra_attrs_attr x : Forall is_attr (extra_attrs x).
Proof. unfold extra_attrs. rewrite !Forall_app. repeat split; (apply opt_attr_attr || apply num_attr_attr). Qed.
Lemma cell_attrs_attr ds c k : Forall is_attr (cell_attrs ds c k).
Proof.
  unfold cell_attrs. rewrite !Forall_app. repeat split; try apply opt_attr_attr; try apply num_attr_attr; try apply value_attrs_attr.
  destruct (c_extra c); [apply extra_attrs_attr|constructor].
Qed.

(** ** Raw values *)
Lemma escape_plain s : no_specials s -> escape s = s.
Proof.
  induction 1 as [|c s H _ IH]; [reflexivity|]. unfold escape in *. cbn [flat_map]. rewrite IH.
  unfold escape_char. unfold special in H. cbn in H.
  repeat match goal with |- context [c =? ?x] => destruct (N.eqb_spec c x) as [->|]; [exfalso; apply H; auto 10|] end.
  reflexivity.
Qed.
Lemma digit_plain s : all_digit s -> no_specials s.
Proof.
  intros H. unfold no_specials. eapply Forall_impl; [|apply digit_Forall, H]. intros c Hc Hs.
  repeat (destruct Hs as [<-|Hs]; [discriminate|]). assumption.
Qed.
Lemma show_N_plain n : no_specials (show_N n).
Proof. apply digit_plain, show_N_numeral. Qed.
Lemma raw_show_N n : raw (show_N n) = show_N n.
Proof. apply escape_plain, show_N_plain. Qed.
Lemma raw_u32 n : n <= u32_max -> parse_u32 (raw (show_N n)) = Ok n.
Proof. intros H. rewrite raw_show_N. apply parse_u32_ok. split; [apply show_N_numeral|exact H]. Qed.
Lemma plain_app a b : no_specials a -> no_specials b -> no_specials (a ++ b).
Proof. intros. apply Forall_app. auto. Qed.
Lemma show_Z_plain z : no_specials (show_Z z).
Proof. apply plain_app; [|apply show_N_plain]. destruct (_ <? _)%Z; repeat constructor. cbn. intros H. repeat (destruct H as [H|H]; [discriminate|]). assumption. Qed.
Ltac plain_apps := unfold no_specials; rewrite !Forall_app; repeat match goal with |- _ /\ _ => split end.
Ltac plain_lit := repeat constructor; let H := fresh in intros H; repeat (destruct H as [H|H]; [discriminate|]); assumption.
Lemma duration_plain ns : no_specials (format_duration2 ns).
Proof. unfold format_duration2. plain_apps; try apply show_Z_plain; plain_lit. Qed.
Lemma pad_plain w n : no_specials (pad w (show_N n)).
Proof. apply digit_plain, pad_ok. Qed.
Lemma plain_cons c s : ~ special c -> no_specials s -> no_specials (c :: s).
Proof. now constructor. Qed.
Lemma datetime_plain d : no_specials (format_datetime d).
Proof.
  unfold format_datetime. plain_apps; try apply pad_plain; try plain_lit.
  - unfold show_year. destruct (_ && _); [apply pad_plain|]. destruct (_ <? _)%Z; (apply plain_cons; [|apply pad_plain]);
    intros H; repeat (destruct H as [H|H]; [discriminate|]); assumption.
  - unfold show_frac. destruct (_ =? 0); [constructor|]. destruct (_ =? 0); [|destruct (_ =? 0)];
    (apply plain_cons; [|apply pad_plain]); intros H; repeat (destruct H as [H|H]; [discriminate|]); assumption.
Qed.
Lemma number_plain f : number_text f -> no_specials f.
Proof.
  intros (neg & a & b & _ & Ha & Hb & ->). plain_apps; [destruct neg; plain_lit|now apply digit_plain|].
  destruct Hb as [->|(d & _ & Hd & ->)]; [constructor|]. apply plain_cons; [|now apply digit_plain].
  intros H. repeat (destruct H as [H|H]; [discriminate|]). assumption.
Qed.
Lemma number_float f : number_text f -> float_text f = true.
Proof.
  intros (neg & a & b & Na & Ha & Hb & ->). unfold float_text.
  assert (Q : snd (split_sign ((if neg then [45] else []) ++ a ++ b)) = a ++ b).
  { destruct neg; [reflexivity|]. cbn [app]. destruct a as [|c a]; [congruence|]. cbn. inversion Ha; subst.
    destruct (N.eqb_spec c 45) as [->|]; [|reflexivity]. exfalso. apply digit_Forall in Ha. inversion Ha. discriminate. }
  rewrite Q. rewrite (span_app is_digit a b).
  - destruct a; [congruence|]. destruct Hb as [->|(d & Nd & Hd & ->)]; [reflexivity|].
    cbn. apply digit_forallb in Hd. rewrite Hd. destruct d; [congruence|reflexivity].
  - apply digit_Forall, Ha.
  - destruct Hb as [->|(d & _ & _ & ->)]; [exact I|reflexivity].
Qed.

(** ** The view of the reader's state *)
Definition cur (s : cellacc) : content := cell_content (match a_cell s with Some c => c | None => cell0 end).
Definition content0 : content := cell_content cell0.
Definition rest_of (s : cellacc) := (a_repeat s, a_type s, a_dt s, a_dur s, a_float s, a_bool s, a_string s, a_cur s, a_content s).
(** [s'] is [s] with content [K]. *)
Definition becomes (s : cellacc) (K : content) (r : res cellacc) : Prop :=
  exists s', r = Ok s' /\ cur s' = K /\ rest_of s' = rest_of s /\ (a_cell s' = None -> a_cell s = None).

Lemma read_attrs_app a b : forall s, cell_read_attrs s (a ++ b) = let* s' := cell_read_attrs s a in cell_read_attrs s' b.
Proof. induction a as [|kv a IH]; intros s; cbn; [reflexivity|]. destruct (cell_attr s kv); cbn; auto. Qed.

Lemma becomes_refl s : becomes s (cur s) (Ok s).
Proof. exists s. auto. Qed.

Lemma step_formula s o : becomes s
  (match o with Some f => let K := cur s in Content (k_value K) (k_style K) (Some f) (k_repeat K) (k_validation K) (k_span K)
     (k_matrix K) (k_annotation K) (k_frames K) | None => cur s end)
  (cell_read_attrs s (attrs_of (opt_attr (lit "table:formula") o))).
Proof.
  destruct o as [f|]; [|apply becomes_refl]. eexists. split; [reflexivity|]. split; [|split; [reflexivity|discriminate]].
  destruct s as [[[? ? ? ? [|]]|] ? ? ? ? ? ? ? ? ?]; reflexivity.
Qed.
Lemma step_style s o : becomes s
  (match o with Some f => let K := cur s in Content (k_value K) (Some f) (k_formula K) (k_repeat K) (k_validation K) (k_span K)
     (k_matrix K) (k_annotation K) (k_frames K) | None => cur s end)
  (cell_read_attrs s (attrs_of (opt_attr (lit "table:style-name") o))).
Proof.
  destruct o as [f|]; [|apply becomes_refl]. eexists. split; [reflexivity|]. split; [|split; [reflexivity|discriminate]].
  destruct s as [[[? ? ? ? [|]]|] ? ? ? ? ? ? ? ? ?]; reflexivity.
Qed.
Lemma step_validation s o : becomes s
  (match o with Some f => let K := cur s in Content (k_value K) (k_style K) (k_formula K) (k_repeat K) (Some f) (k_span K)
     (k_matrix K) (k_annotation K) (k_frames K) | None => cur s end)
  (cell_read_attrs s (attrs_of (opt_attr (lit "table:content-validation-name") o))).
Proof.
  destruct o as [f|]; [|apply becomes_refl]. eexists. split; [reflexivity|]. split; [|split; [reflexivity|discriminate]].
  destruct s as [[[? ? ? ? [|]]|] ? ? ? ? ? ? ? ? ?]; reflexivity.
Qed.
Lemma step_repeat s k : 1 <= k <= u32_max ->
  cell_read_attrs s (attrs_of (num_attr (lit "table:number-columns-repeated") k))
  = Ok (CA (a_cell s) (if 1 <? k then k else a_repeat s) (a_type s) (a_dt s) (a_dur s) (a_float s) (a_bool s) (a_string s) (a_cur s) (a_content s)).
Proof.
  intros H. unfold num_attr. destruct (1 <? k) eqn:E; [|destruct s; reflexivity].
  cbn [attrs_of attr_of cell_read_attrs]. unfold cell_attr. cbn [fst snd].
  change (find_key ckeys (lit "table:number-columns-repeated")) with (Some KRepeat). cbv iota.
  rewrite raw_u32 by lia. reflexivity.
Qed.

Definition set_kspan (f : cspan -> cspan) (g : cspan -> cspan) (K : content) : content :=
  Content (k_value K) (k_style K) (k_formula K) (k_repeat K) (k_validation K) (f (k_span K)) (g (k_matrix K)) (k_annotation K) (k_frames K).
Lemma step_span n s k f g key h :
  find_key ckeys n = Some key ->
  (forall v, cell_attr s (n, v) = span_attr v h s) ->
  (forall x, h k x = CExt (x_validation x) (f (x_span x)) (g (x_matrix x)) (x_annotation x) (x_frames x)) ->
  1 <= k <= u32_max ->
  becomes s (if 1 <? k then set_kspan f g (cur s) else cur s) (cell_read_attrs s (attrs_of (num_attr n k))).
Proof.
  intros Hf Ha Hh H. unfold num_attr. destruct (1 <? k) eqn:E; [|apply becomes_refl].
  cbn [attrs_of attr_of cell_read_attrs]. rewrite Ha. unfold span_attr. rewrite raw_u32 by lia. cbn [bind]. rewrite E.
  eexists. split; [reflexivity|]. split; [|split; [reflexivity|discriminate]].
  unfold a_edit, cur, edit_extra. cbn [a_cell]. rewrite Hh.
  destruct s as [[[? ? ? ? [|]]|] ? ? ? ? ? ? ? ? ?]; reflexivity.
Qed.

Lemma becomes_trans s K r K' f : becomes s K r ->
  (forall s', cur s' = K -> becomes s' K' (f s')) -> becomes s K' (let* s' := r in f s').
Proof.
  intros (s1 & -> & Hc & Hr & Hn) H. destruct (H s1 Hc) as (s2 & E & Hc2 & Hr2 & Hn2).
  exists s2. cbn [bind]. split; [assumption|]. split; [assumption|]. split; [congruence|auto].
Qed.

Lemma step_extra s x : cur s = content0 \/ (k_validation (cur s) = None /\ k_span (cur s) = CSpan 1 1 /\ k_matrix (cur s) = CSpan 1 1 /\
    k_annotation (cur s) = None /\ k_frames (cur s) = []) ->
  span_ok (x_span x) -> span_ok (x_matrix x) ->
  becomes s (let K := cur s in Content (k_value K) (k_style K) (k_formula K) (k_repeat K) (x_validation x) (x_span x) (x_matrix x) None [])
    (cell_read_attrs s (attrs_of (extra_attrs x))).
Proof.
  intros H0 (S1 & S2) (M1 & M2).
  assert (H : k_validation (cur s) = None /\ k_span (cur s) = CSpan 1 1 /\ k_matrix (cur s) = CSpan 1 1 /\
    k_annotation (cur s) = None /\ k_frames (cur s) = []) by (destruct H0 as [->|H]; [repeat split|assumption]). clear H0.
  unfold extra_attrs. rewrite !attrs_of_app, !read_attrs_app.
  eapply becomes_trans; [apply step_validation|]. intros s1 E1.
  rewrite !read_attrs_app. eapply becomes_trans; [eapply (step_span _ _ _ (fun s => CSpan (rspan (x_span x)) (cspan_ s)) (fun s => s)); [reflexivity|reflexivity|reflexivity|assumption]|]. intros s2 E2.
  rewrite !read_attrs_app. eapply becomes_trans; [eapply (step_span _ _ _ (fun s => CSpan (rspan s) (cspan_ (x_span x))) (fun s => s)); [reflexivity|reflexivity|reflexivity|assumption]|]. intros s3 E3.
  rewrite !read_attrs_app. eapply becomes_trans; [eapply (step_span _ _ _ (fun s => s) (fun s => CSpan (rspan (x_matrix x)) (cspan_ s))); [reflexivity|reflexivity|reflexivity|assumption]|]. intros s4 E4.
  match goal with |- becomes _ ?K (cell_read_attrs _ (attrs_of (num_attr ?n ?k))) =>
    assert (L : becomes s4 (if 1 <? k then set_kspan (fun s => s) (fun s => CSpan (rspan s) k) (cur s4) else cur s4) (cell_read_attrs s4 (attrs_of (num_attr n k))))
      by (eapply step_span; [reflexivity|reflexivity|reflexivity|assumption]) end.
  match type of L with becomes _ ?K1 _ => match goal with |- becomes _ ?K2 _ => replace K2 with K1; [exact L|] end end.
  rewrite E4, E3, E2, E1. clear L E1 E2 E3 E4.
  destruct x as [xv [r1 c1] [r2 c2] xa xf]. cbn [x_span x_matrix x_annotation x_frames x_validation rspan cspan_] in *.
  destruct (cur s) as [kv kst kf kr kva ksp km ka kfr]. cbn [k_value k_style k_formula k_repeat k_validation k_span k_matrix k_annotation k_frames] in *.
  destruct H as (-> & -> & -> & -> & ->).
  assert (Q : forall n, 1 <= n -> (1 <? n) = false -> n = 1) by (intros n A B; apply N.ltb_ge in B; lia).
  destruct (1 <? r1) eqn:A1; [|apply Q in A1; [subst r1|lia]];
  (destruct (1 <? c1) eqn:A2; [|apply Q in A2; [subst c1|lia]]);
  (destruct (1 <? r2) eqn:A3; [|apply Q in A3; [subst r2|lia]]);
  (destruct (1 <? c2) eqn:A4; [|apply Q in A4; [subst c2|lia]]); destruct xv; reflexivity.
Qed.

(** The value found when the paragraphs of the cell are [t]. *)
Definition found (v : value) (t : tcontent) : value :=
  match v with
  | VText _ | VTextXml _ => match t with TcEmpty => VEmpty | TcText s => VText s | TcXml x => VTextXml [x] | TcVec l => VTextXml l end
  | _ => v
  end.
Lemma cell_attr_key n k s v : find_key ckeys n = Some k -> cell_attr s (n, v) =
  match k with
  | KType => let* t := read_type (raw v) in let s := a_touch s in
      Ok (CA (a_cell s) (a_repeat s) t (a_dt s) (a_dur s) (a_float s) (a_bool s) (a_string s) (a_cur s) (a_content s))
  | KDate => let* d := parse_datetime (raw v) in let s := a_touch s in
      Ok (CA (a_cell s) (a_repeat s) (a_type s) (Some d) (a_dur s) (a_float s) (a_bool s) (a_string s) (a_cur s) (a_content s))
  | KTime => let* d := parse_duration (raw v) in let s := a_touch s in
      Ok (CA (a_cell s) (a_repeat s) (a_type s) (a_dt s) (Some d) (a_float s) (a_bool s) (a_string s) (a_cur s) (a_content s))
  | KValue => let* d := parse_f64 (raw v) in let s := a_touch s in
      Ok (CA (a_cell s) (a_repeat s) (a_type s) (a_dt s) (a_dur s) (Some d) (a_bool s) (a_string s) (a_cur s) (a_content s))
  | KCurrency => let s := a_touch s in
      Ok (CA (a_cell s) (a_repeat s) (a_type s) (a_dt s) (a_dur s) (a_float s) (a_bool s) (a_string s) (Some (raw v)) (a_content s))
  | _ => cell_attr s (n, v)
  end.
Proof. intros H. unfold cell_attr. cbn [fst snd]. rewrite H. now destruct k. Qed.

Lemma parse_f64_raw f : number_text f -> parse_f64 (raw f) = Ok f.
Proof. intros H. unfold raw. rewrite escape_plain by now apply number_plain. unfold parse_f64. now rewrite number_float. Qed.
Lemma parse_date_raw d : date_exact d -> parse_datetime (raw (format_datetime d)) = Ok d.
Proof. intros (V & H). unfold raw. rewrite escape_plain by apply datetime_plain. now apply C27_survives. Qed.
Lemma parse_time_raw d : duration_exact d -> parse_duration (raw (format_duration2 d)) = Ok d.
Proof. intros (V & R & H). unfold raw. rewrite escape_plain by apply duration_plain. now apply C26_survives. Qed.

Lemma step_value s v : payload_ok v -> a_type s = TyEmpty -> a_string s = None -> k_value (cur s) = VEmpty ->
  exists s', cell_read_attrs s (attrs_of (value_attrs v)) = Ok s' /\ cur s' = cur s /\ a_repeat s' = a_repeat s
    /\ a_content s' = a_content s /\ (a_cell s' = None -> v = VEmpty /\ a_type s' = TyEmpty)
    /\ forall t, read_value (set_content t s') VEmpty = Ok (found v t).
Proof.
  intros P T S V. destruct v; cbn [value_attrs attrs_of attr_of cell_read_attrs payload_ok] in *.
  - exists s. repeat split; auto. intros t. unfold read_value. cbn [set_content a_type]. now rewrite T.
  - eexists. split; [destruct b; reflexivity|]. destruct b, s as [[|] ? ? ? ? ? ? ? ? ?]; cbn in *; subst; repeat split; discriminate.
  - rewrite (cell_attr_key _ KType) by reflexivity. change (read_type (raw (lit "float"))) with (Ok TyNumber). cbn [bind].
    rewrite (cell_attr_key _ KValue) by reflexivity. rewrite parse_f64_raw by assumption. cbn [bind].
    eexists. split; [reflexivity|]. destruct s as [[|] ? ? ? ? ? ? ? ? ?]; cbn in *; subst; repeat split; discriminate.
  - rewrite (cell_attr_key _ KType) by reflexivity. change (read_type (raw (lit "percentage"))) with (Ok TyPercent). cbn [bind].
    rewrite (cell_attr_key _ KValue) by reflexivity. rewrite parse_f64_raw by assumption. cbn [bind].
    eexists. split; [reflexivity|]. destruct s as [[|] ? ? ? ? ? ? ? ? ?]; cbn in *; subst; repeat split; discriminate.
  - destruct P as (P1 & P2).
    rewrite (cell_attr_key _ KType) by reflexivity. change (read_type (raw (lit "currency"))) with (Ok TyCurrency). cbn [bind].
    rewrite (cell_attr_key _ KCurrency) by reflexivity.
    cbv zeta. cbn [bind].
    rewrite (cell_attr_key _ KValue) by reflexivity. rewrite parse_f64_raw by assumption. cbn [bind].
    eexists. split; [reflexivity|]. unfold raw. rewrite escape_plain by assumption.
    destruct s as [[|] ? ? ? ? ? ? ? ? ?]; cbn in *; subst; repeat split; discriminate.
  - eexists. split; [reflexivity|]. destruct s as [[|] ? ? ? ? ? ? ? ? ?]; cbn in *; subst; repeat split; try discriminate; intros []; reflexivity.
  - eexists. split; [reflexivity|]. destruct s as [[|] ? ? ? ? ? ? ? ? ?]; cbn in *; subst; repeat split; try discriminate; intros []; reflexivity.
  - rewrite (cell_attr_key _ KType) by reflexivity. change (read_type (raw (lit "date"))) with (Ok TyDateTime). cbn [bind].
    rewrite (cell_attr_key _ KDate) by reflexivity. rewrite parse_date_raw by assumption. cbn [bind].
    eexists. split; [reflexivity|]. destruct s as [[|] ? ? ? ? ? ? ? ? ?]; cbn in *; subst; repeat split; discriminate.
  - rewrite (cell_attr_key _ KType) by reflexivity. change (read_type (raw (lit "time"))) with (Ok TyDuration). cbn [bind].
    rewrite (cell_attr_key _ KTime) by reflexivity. rewrite parse_time_raw by assumption. cbn [bind].
    eexists. split; [reflexivity|]. destruct s as [[|] ? ? ? ? ? ? ? ? ?]; cbn in *; subst; repeat split; discriminate.
Qed.

Lemma becomes_app s K a b K' : becomes s K (cell_read_attrs s a) ->
  (forall s', cur s' = K -> becomes s' K' (cell_read_attrs s' b)) -> becomes s K' (cell_read_attrs s (a ++ b)).
Proof. intros H1 H2. rewrite read_attrs_app. eapply becomes_trans; eauto. Qed.

(** The cell with this annotation and these frames, if it has any extra data. *)
Definition with_subs (c : cell) (an : option annotation) (fr : list dframe) : cell :=
  match c_extra c with
  | Some x => Cell (c_value c) (c_formula c) (c_style c) (c_repeat c) (Some (CExt (x_validation x) (x_span x) (x_matrix x) an fr))
  | None => c
  end.
Lemma with_subs_style ds c an fr : written_style ds (with_subs c an fr) = written_style ds c.
Proof. unfold with_subs, written_style. now destruct (c_extra c). Qed.
Lemma attrs_read ds c k : spans_ok c -> 1 <= k <= u32_max -> payload_ok (c_value c) ->
  exists s, cell_read_attrs cellacc0 (attrs_of (cell_attrs ds c k)) = Ok s
    /\ cur s = content_with (with_subs c None []) VEmpty (written_style ds c) 1 /\ a_repeat s = k /\ a_content s = TcEmpty
    /\ (a_cell s = None -> a_type s = TyEmpty)
    /\ forall t, read_value (set_content t s) VEmpty = Ok (found (c_value c) t).
Proof.
  intros Hx Hk Hp. unfold cell_attrs. rewrite !attrs_of_app.
  rewrite read_attrs_app. destruct (step_formula cellacc0 (c_formula c)) as (s1 & -> & C1 & R1 & N1). cbn [bind].
  rewrite read_attrs_app, step_repeat by assumption. cbn [bind].
  set (s2 := CA _ _ _ _ _ _ _ _ _ _).
  rewrite read_attrs_app. fold (written_style ds c). destruct (step_style s2 (written_style ds c)) as (s3 & -> & C3 & R3 & N3). cbn [bind].
  rewrite read_attrs_app.
  assert (C2 : cur s2 = cur s1) by reflexivity. rewrite C2, C1 in C3. clear C2 C1.
  assert (R : rest_of s3 = (k, TyEmpty, None, None, None, None, None, None, TcEmpty)).
  { rewrite R3. subst s2. unfold rest_of in *. cbn. cbn in R1. injection R1 as -> -> -> -> -> -> -> -> ->.
    destruct (1 <? k) eqn:E; [reflexivity|]. apply N.ltb_ge in E. do 8 f_equal. lia. }
  assert (Q : becomes s3 (content_with (with_subs c None []) VEmpty (written_style ds c) 1)
    (cell_read_attrs s3 (attrs_of match c_extra c with Some x => extra_attrs x | None => [] end))).
  { unfold spans_ok in Hx. unfold content_with, with_subs. destruct (c_extra c) as [x|] eqn:Ex; cbn [c_extra c_formula]; [|rewrite Ex].
    - destruct Hx as (Hs & Hm). destruct (step_extra s3 x) as (s4 & E4 & C4 & R4 & N4); auto.
      + right. rewrite C3. destruct (c_formula c), (written_style ds c); repeat split.
      + exists s4. split; [assumption|]. split; [|auto]. rewrite C4, C3. destruct (c_formula c), (written_style ds c); reflexivity.
    - exists s3. split; [reflexivity|]. split; [|auto]. rewrite C3. destruct (c_formula c), (written_style ds c); reflexivity. }
  destruct Q as (s4 & -> & C4 & R4 & N4). cbn [bind]. rewrite R in R4. unfold rest_of in R4. injection R4 as Ra Rb Rc Rd Re Rf Rg Rh Ri.
  destruct (step_value s4 (c_value c)) as (s5 & -> & C5 & A5 & B5 & N5 & V5); auto.
  { now rewrite C4. }
  exists s5. rewrite C5, A5, B5, C4, Ra, Ri. repeat split; auto. intros H. now apply N5.
Qed.

(** ** The content of the cell *)
Lemma kcell_text tag s t evs : cell_loop tag s KCell (emit_text t ++ evs) = cell_loop tag s KCell evs.
Proof. destruct t; reflexivity. Qed.
Lemma kcell_acc tag s evs : forall acc, cell_loop tag s KCell (coalesce_from acc evs) = cell_loop tag s KCell (coalesce_from [] evs).
Proof.
  induction evs as [|e evs IH]; intros acc.
  - cbn [coalesce_from]. rewrite <- (app_nil_r (emit_text acc)), kcell_text. reflexivity.
  - destruct e; cbn [coalesce_from]; rewrite ?kcell_text; try reflexivity. rewrite IH. symmetry. apply IH.
Qed.
Lemma kcell_skip tag s t evs : cell_loop tag s KCell (coalesce (EText t :: evs)) = cell_loop tag s KCell (coalesce evs).
Proof. unfold coalesce. cbn [coalesce_from]. apply kcell_acc. Qed.

(** Events of plain text. *)
Definition texty (e : event) (v : str) : Prop :=
  e = EText v \/ exists n c, e = ERef n /\ entity_of c = Some n /\ v = [c].
Definition pt (t : str) : pcontent := match t with [] => PEmpty | _ => PText t end.
Definition tt_ (t : str) : tcontent := match t with [] => TcEmpty | _ => TcText t end.
Lemma pt_text t v : v <> [] -> p_text v (pt t) = pt (t ++ v).
Proof. intros H. destruct t; cbn; [destruct v; [congruence|reflexivity]|reflexivity]. Qed.
Lemma para_emit tag s a t acc evs :
  cell_loop tag s (KPara a (pt t) []) (emit_text acc ++ evs) = cell_loop tag s (KPara a (pt (t ++ acc)) []) evs.
Proof.
  destruct acc as [|c acc]; [now rewrite app_nil_r|]. cbn [emit_text app cell_loop cell_step para_step bind].
  now rewrite pt_text by discriminate.
Qed.
Lemma para_feed tag s a evs vs r : Forall2 texty evs vs -> forall t acc,
  cell_loop tag s (KPara a (pt t) []) (coalesce_from acc (evs ++ EEnd t_p :: r))
  = cell_loop tag (set_content (append_text (tt_ (t ++ acc ++ concat vs)) (a_content s)) s) KCell (coalesce r).
Proof.
  induction 1 as [|e v evs vs H _ IH]; intros t acc.
  - cbn [app concat coalesce_from]. rewrite para_emit, app_nil_r. cbn [cell_loop cell_step para_step bind].
    change (str_eqb t_p t_p) with true. cbn [bind]. unfold coalesce. destruct (t ++ acc); reflexivity.
  - destruct H as [->|(n & c & -> & Hc & ->)]; cbn [app coalesce_from concat].
    + rewrite IH. now rewrite <- !app_assoc.
    + rewrite para_emit. cbn [cell_loop cell_step para_step bind]. rewrite (entity_named c n Hc). cbn [bind].
      rewrite pt_text by discriminate. rewrite IH. cbn [app]. now rewrite <- !app_assoc.
Qed.
Lemma esc_texty t : Forall2 texty (esc_split t) (map (fun c => [c]) t).
Proof.
  unfold esc_split. induction t as [|c t IH]; cbn; constructor; auto.
  destruct (entity_of c) eqn:E; [right; exists s, c; auto|left; reflexivity].
Qed.
Lemma concat_single (t : str) : concat (map (fun c => [c]) t) = t.
Proof. induction t; cbn; congruence. Qed.

(** A paragraph of plain text. *)
Lemma para_read lb tag s t cs evs : Forall2 texty evs (map (fun c => [c]) t) \/ evs = [EText t] ->
  cell_loop tag s KCell (coalesce (EStart t_p [] :: evs ++ EEnd t_p :: EText (nl lb) :: cs))
  = cell_loop tag (set_content (append_text (tt_ t) (a_content s)) s) KCell (coalesce cs).
Proof.
  intros H. unfold coalesce. cbn [coalesce_from emit_text app cell_loop cell_step bind].
  change (str_eqb t_p t_p) with true. cbn [bind]. change PEmpty with (pt []).
  assert (Q : exists vs, Forall2 texty evs vs /\ concat vs = t).
  { destruct H as [H| ->]; [eexists; split; [exact H|apply concat_single]|]. exists [t]. split; [repeat constructor|apply app_nil_r]. }
  destruct Q as (vs & F & <-). rewrite (para_feed tag s [] evs vs _ F [] []). cbn [app]. apply kcell_skip.
Qed.

(** The calls [body] inside the cell are read as the content [t]. *)
Definition body_reads (lb : bool) (body : list call) (t : tcontent) : Prop :=
  forall tag s cs, a_content s = TcEmpty ->
    cell_loop tag s KCell (coalesce (asked esc_split lb None (body ++ cs))) = cell_loop tag (set_content t s) KCell (coalesce (asked esc_split lb None cs)).
(** The calls are read as this annotation or frame. *)
Definition sub_reads (lb : bool) (body : list call) (d : annotation + dframe) : Prop :=
  forall tag s cs, cell_loop tag s KCell (coalesce (asked esc_split lb None (body ++ cs))) = cell_loop tag (put_sub d s) KCell (coalesce (asked esc_split lb None cs)).

Lemma body_end lb tag s cs : cell_loop tag s KCell (coalesce (asked esc_split lb None (CEndIf true tag :: cs)))
  = Ok (s, coalesce (EText (nl lb) :: asked esc_split lb None cs)).
Proof.
  cbn [asked finish app]. unfold coalesce. cbn [coalesce_from emit_text app cell_loop cell_step].
  rewrite str_eqb_refl. reflexivity.
Qed.
Lemma set_content_id s : set_content (a_content s) s = s.
Proof. now destruct s. Qed.
Lemma body_nil lb : body_reads lb [] TcEmpty.
Proof. intros tag s cs H. cbn [app]. rewrite <- H, set_content_id. reflexivity. Qed.
Lemma asked_para lb t cs : asked esc_split lb None (para t ++ cs) = EStart t_p [] :: EText t :: EEnd t_p :: EText (nl lb) :: asked esc_split lb None cs.
Proof. reflexivity. Qed.
Lemma body_para lb t : body_reads lb (para t) (tt_ t).
Proof.
  intros tag s cs H. rewrite asked_para.
  etransitivity; [apply (para_read lb tag s t _ [EText t]); now right|]. rewrite H. reflexivity.
Qed.
Lemma body_currency lb f c : body_reads lb [CElem t_p; CTextEsc c; CText (lit " "); CText f; CEnd t_p] (tt_ (c ++ 32 :: f)).
Proof.
  intros tag s cs H. cbn [app asked finish].
  unfold coalesce at 1. cbn [coalesce_from emit_text app cell_loop cell_step bind].
  change (str_eqb t_p t_p) with true. cbn [bind]. change PEmpty with (pt []).
  match goal with |- context [coalesce_from [] (esc_split c ++ EText (lit " ") :: EText f :: EEnd t_p :: ?r)] =>
    change (esc_split c ++ EText (lit " ") :: EText f :: EEnd t_p :: r) with
      (esc_split c ++ [EText (lit " "); EText f] ++ EEnd t_p :: r) end.
  rewrite app_assoc. rewrite (para_feed tag s [] _ (map (fun c => [c]) c ++ [lit " "; f])).
  2:{ apply Forall2_app; [apply esc_texty|]. repeat constructor. }
  rewrite concat_app, concat_single. cbn [app concat lit]. rewrite app_nil_r, H. cbn [append_text].
  apply kcell_skip.
Qed.

Fixpoint read_lines (old : tcontent) (ls : list str) : tcontent :=
  match ls with [] => old | l :: r => read_lines (append_text (tt_ l) old) r end.
Lemma body_lines lb tag cs ls : forall s,
  cell_loop tag s KCell (coalesce (asked esc_split lb None (map (CElemTextEsc t_p) ls ++ cs)))
  = cell_loop tag (set_content (read_lines (a_content s) ls) s) KCell (coalesce (asked esc_split lb None cs)).
Proof.
  induction ls as [|l ls IH]; intros s.
  - cbn [map app read_lines]. now rewrite set_content_id.
  - cbn [map app asked finish]. rewrite (para_read lb tag s l _ (esc_split l)) by (left; apply esc_texty).
    rewrite IH. reflexivity.
Qed.
Lemma body_text lb s : body_reads lb (map (CElemTextEsc t_p) (split_lines s)) (read_lines TcEmpty (split_lines s)).
Proof. intros tag a cs H. rewrite body_lines. now rewrite H. Qed.

(** ** The whole cell *)
Definition void_b (ign : bool) (dflt : option str) (K : content) : bool :=
  value_is_empty (k_value K) && negb (CellModel.is_some (k_formula K)) && negb (CellModel.is_some (k_style K) && negb (ostr_eqb (k_style K) dflt) && negb ign)
  && span_is_empty (k_span K) && negb (CellModel.is_some (k_validation K)) && negb (CellModel.is_some (k_annotation K)) && is_nil (k_frames K) && span_is_empty (k_matrix K).
Lemma ignore_content ign dflt c : ignore_cell ign dflt c = void_b ign dflt (cell_content c).
Proof.
  unfold ignore_cell, cell_is_void, cell_is_empty, is_void_extra, void_b, cell_content.
  destruct c as [v f st k [[va sp m an fr]|]]; cbn [c_value c_formula c_style c_repeat c_extra x_validation x_span x_matrix x_annotation x_frames
    k_value k_style k_formula k_repeat k_validation k_span k_matrix k_annotation k_frames];
  (destruct (value_is_empty v); [|now destruct ign]);
  (destruct f as [f|]; cbn [CellModel.is_some negb andb]; [now destruct ign|]).
  - destruct (span_is_empty sp), (CellModel.is_some va), (CellModel.is_some an), (is_nil fr), (span_is_empty m), (CellModel.is_some st), (ostr_eqb st dflt), ign; reflexivity.
  - destruct (CellModel.is_some st), (ostr_eqb st dflt), ign; reflexivity.
Qed.
Definition with_value (K : content) (v : value) (k : N) : content :=
  Content v (k_style K) (k_formula K) k (k_validation K) (k_span K) (k_matrix K) (k_annotation K) (k_frames K).
Lemma void_repeat ign dflt K v k k' : void_b ign dflt (with_value K v k) = void_b ign dflt (with_value K v k').
Proof. reflexivity. Qed.

Lemma finish_read ign dflt s v : (a_cell s = None -> a_type s = TyEmpty) -> k_value (cur s) = VEmpty ->
  (a_cell s = None -> cur s = content0) ->
  read_value s VEmpty = Ok v ->
  exists o, cell_finish ign dflt s = Ok (a_repeat s, o)
    /\ option_map cell_content o = (let K := with_value (cur s) v (a_repeat s) in if void_b ign dflt K then None else Some K).
Proof.
  intros Ht Hv Hn Hr. unfold cell_finish. unfold cur in *. destruct (a_cell s) as [c|] eqn:Ec.
  - destruct c as [cv f st k x].
    assert (Q : cv = VEmpty) by (cbn in Hv; destruct x; exact Hv). subst cv. cbn [c_value c_formula c_style c_repeat c_extra].
    rewrite Hr. cbn [bind]. rewrite ignore_content.
    assert (E : forall r, cell_content (Cell v f st r x) = with_value (cell_content (Cell VEmpty f st k x)) v r) by (intros; destruct x; reflexivity).
    eexists. split; [reflexivity|]. cbv zeta. rewrite E, (void_repeat _ _ _ _ k (a_repeat s)).
    destruct (void_b ign dflt _); [reflexivity|]. cbn [option_map]. now rewrite E.
  - unfold read_value in Hr. rewrite Ht in Hr by reflexivity. inversion Hr; subst. exists None. split; [reflexivity|].
    cbn. destruct dflt, ign; reflexivity.
Qed.

Lemma found_nothing v t s : (forall t, read_value (set_content t s) VEmpty = Ok (found v t)) -> a_type s = TyEmpty -> found v t = VEmpty.
Proof.
  intros H Ht. specialize (H t). unfold read_value in H. cbn [set_content a_type] in H. rewrite Ht in H. congruence.
Qed.

Lemma cur_none s : a_cell s = None -> cur s = content0.
Proof. intros H. unfold cur. now rewrite H. Qed.

Definition result (ds : vtype -> option str) (c : cell) (v : value) (k : N) : content := content_with c v (written_style ds c) k.

Lemma cell_tag_cases h : cell_tag h = t_cell \/ cell_tag h = t_covered.
Proof. destruct h; auto. Qed.

(** The annotation and the frames are read as these. *)
Definition subs_read (lb : bool) (c : cell) (an : option annotation) (fr : list dframe) : Prop :=
  match c_extra c with
  | None => True
  | Some x => match x_annotation x, an with Some a, Some b => sub_reads lb (write_annotation a) (inl b) | None, None => True | _, _ => False end
      /\ Forall2 (fun f g => sub_reads lb (write_frame f) (inr g)) (x_frames x) fr
  end.
Lemma put_sub_rest d s : rest_of (put_sub d s) = rest_of s.
Proof. destruct d; reflexivity. Qed.
Lemma put_sub_cur d s : cur (put_sub d s) = let K := cur s in
  match d with
  | inl x => Content (k_value K) (k_style K) (k_formula K) (k_repeat K) (k_validation K) (k_span K) (k_matrix K) (Some x) (k_frames K)
  | inr x => Content (k_value K) (k_style K) (k_formula K) (k_repeat K) (k_validation K) (k_span K) (k_matrix K) (k_annotation K) (k_frames K ++ [x])
  end.
Proof. destruct d, s as [[[? ? ? ? [[]|]]|] ? ? ? ? ? ? ? ? ?]; reflexivity. Qed.
Lemma put_sub_some d s : a_cell (put_sub d s) <> None.
Proof. destruct d; discriminate. Qed.
(** What the annotation and the frames do. *)
Definition put_subs (an : option annotation) (fr : list dframe) (s : cellacc) : cellacc :=
  fold_left (fun s g => put_sub (inr g) s) fr (match an with Some b => put_sub (inl b) s | None => s end).
Lemma frames_read lb fs gs : Forall2 (fun f g => sub_reads lb (write_frame f) (inr g)) fs gs -> forall tag s cs,
  cell_loop tag s KCell (coalesce (asked esc_split lb None (flat_map write_frame fs ++ cs)))
  = cell_loop tag (fold_left (fun s g => put_sub (inr g) s) gs s) KCell (coalesce (asked esc_split lb None cs)).
Proof.
  induction 1 as [|f g fs gs H _ IH]; intros tag s cs; [reflexivity|]. cbn [flat_map fold_left]. rewrite <- app_assoc, H. apply IH.
Qed.
Lemma frames_put gs : forall s, let s' := fold_left (fun s g => put_sub (inr g) s) gs s in
  rest_of s' = rest_of s /\ (a_cell s' = None -> a_cell s = None)
  /\ cur s' = let K := cur s in Content (k_value K) (k_style K) (k_formula K) (k_repeat K) (k_validation K) (k_span K) (k_matrix K) (k_annotation K) (k_frames K ++ gs).
Proof.
  induction gs as [|g gs IH]; intros s; cbn zeta; cbn [fold_left].
  - rewrite app_nil_r. repeat split; auto. now destruct (cur s).
  - destruct (IH (put_sub (inr g) s)) as (R & N & C). split; [now rewrite R, put_sub_rest|]. split; [intros Q; now destruct (put_sub_some (inr g) s (N Q))|].
    rewrite C, put_sub_cur. cbn. now rewrite <- app_assoc.
Qed.
Lemma subs_put an fr s : let s' := put_subs an fr s in
  rest_of s' = rest_of s /\ (a_cell s' = None -> a_cell s = None)
  /\ cur s' = let K := cur s in Content (k_value K) (k_style K) (k_formula K) (k_repeat K) (k_validation K) (k_span K) (k_matrix K)
      (match an with Some b => Some b | None => k_annotation K end) (k_frames K ++ fr).
Proof.
  cbn zeta. unfold put_subs. destruct (frames_put fr (match an with Some b => put_sub (inl b) s | None => s end)) as (R & N & C). destruct an as [b|]; cbv iota in *.
  - split; [now rewrite R, put_sub_rest|]. split; [intros Q; now destruct (put_sub_some (inl b) s (N Q))|]. now rewrite C, put_sub_cur.
  - auto.
Qed.
Definition cell_extra_body (c : cell) : list call := match c_extra c with Some x => extra_body x | None => [] end.
Definition read_subs (c : cell) (an : option annotation) (fr : list dframe) (s : cellacc) : cellacc :=
  match c_extra c with Some _ => put_subs an fr s | None => s end.
Lemma extra_read lb c an fr : subs_read lb c an fr -> forall tag s cs,
  cell_loop tag s KCell (coalesce (asked esc_split lb None (cell_extra_body c ++ cs))) = cell_loop tag (read_subs c an fr s) KCell (coalesce (asked esc_split lb None cs)).
Proof.
  unfold subs_read, cell_extra_body, read_subs. destruct (c_extra c) as [x|]; [|reflexivity]. intros (Ha & Hf) tag s cs. unfold extra_body, put_subs. rewrite <- app_assoc.
  destruct (x_annotation x) as [a|], an as [b|]; try contradiction; [rewrite Ha|]; now apply frames_read.
Qed.
Lemma extra_flushes x cs : flushes cs -> flushes (extra_body x ++ cs).
Proof. intros H. unfold extra_body. destruct (x_annotation x); [exact I|]. destruct (x_frames x); [exact H|exact I]. Qed.

Lemma read_written lb ign dflt ds c h k t an fr :
  spans_ok c -> 1 <= k <= u32_max -> payload_ok (c_value c) -> body_reads lb (value_body (c_value c)) t ->
  (c_value c <> VEmpty -> flushes (value_body (c_value c) ++ [CEnd []])) -> subs_read lb c an fr ->
  exists o, (forall cs, read_table_cell ign dflt (coalesce (asked esc_split lb None (write_cell ds c h k ++ cs)))
    = Ok (k, o, coalesce (EText (nl lb) :: asked esc_split lb None cs)))
  /\ option_map cell_content o =
     (let K := result ds (with_subs c an fr) (found (c_value c) t) k in if void_b ign dflt K then None else Some K).
Proof.
  intros Hx Hk Hp Hb Hfl Hsub. destruct (attrs_read ds c k Hx Hk Hp) as (s & Hs & Hc & Hr & Ht & Hn & Hv).
  assert (Hw : forall cs, write_cell ds c h k ++ cs = CElemIf (cell_has_subs c) (cell_tag h) :: cell_attrs ds c k
     ++ value_body (c_value c) ++ cell_extra_body c ++ CEndIf (cell_has_subs c) (cell_tag h) :: cs).
  { intros cs. unfold write_cell, cell_body. fold (cell_extra_body c). now rewrite <- app_comm_cons, <- !app_assoc. }
  set (s' := read_subs c an fr (set_content t s)).
  assert (P : rest_of s' = rest_of (set_content t s) /\ (a_cell s' = None -> a_cell s = None) /\ cur s' = content_with (with_subs c an fr) VEmpty (written_style ds c) 1).
  { unfold s', read_subs, with_subs in *. destruct (c_extra c) as [x|] eqn:Ex; [|auto]. destruct (subs_put an fr (set_content t s)) as (R & N & C). split; [exact R|]. split; [exact N|].
    rewrite C. change (cur (set_content t s)) with (cur s). rewrite Hc. unfold content_with. cbn. now destruct an. }
  destruct P as (P1 & P2 & P3).
  assert (Rv : exists o, cell_finish ign dflt s' = Ok (k, o) /\ option_map cell_content o =
     (let K := result ds (with_subs c an fr) (found (c_value c) t) k in if void_b ign dflt K then None else Some K)).
  { unfold rest_of in P1. cbn [set_content a_repeat a_type a_dt a_dur a_float a_bool a_string a_cur a_content] in P1. injection P1 as E1 E2 E3 E4 E5 E6 E7 E8 E9.
    destruct (finish_read ign dflt s' (found (c_value c) t)) as (o & Ho & Co).
    - intros Q. rewrite E2. auto.
    - rewrite P3. unfold with_subs. now destruct (c_extra c).
    - apply cur_none.
    - rewrite <- (Hv t). unfold read_value. rewrite E2, E3, E4, E5, E6, E7, E8, E9. reflexivity.
    - exists o. rewrite E1, Hr in *. split; [assumption|]. rewrite Co, P3. unfold result. rewrite with_subs_style. reflexivity. }
  destruct Rv as (o & Ho & Co). exists o. split; [intros cs|exact Co]. rewrite Hw. cbn [asked finish app]. rewrite asked_attr_calls by apply cell_attrs_attr. cbn [app].
  destruct (cell_has_subs c) eqn:Es.
  - rewrite asked_flush.
    2:{ assert (F : forall r, flushes (cell_extra_body c ++ CEndIf true (cell_tag h) :: r)).
        { intros r. unfold cell_extra_body. destruct (c_extra c); [|exact I]. now apply extra_flushes. }
        destruct (c_value c) eqn:Ev; cbn [value_body app] in *; try apply F; try exact I; specialize (Hfl ltac:(discriminate));
        match goal with |- flushes (?l ++ _) => destruct l; [apply F|exact Hfl] end. }
    cbn [negb finish app]. unfold coalesce at 1. rewrite coalesce_cons by exact I. cbn [emit_text app read_table_cell].
    rewrite Hs. cbn [bind]. fold (coalesce (asked esc_split lb None (value_body (c_value c) ++ cell_extra_body c ++ CEndIf true (cell_tag h) :: cs))).
    rewrite (Hb _ _ _ Ht), (extra_read lb c an fr Hsub), body_end. fold s'. cbn [bind]. rewrite Ho. reflexivity.
  - unfold cell_has_subs in Es. apply orb_false_iff in Es as (Ev & Ee). apply negb_false_iff in Ev.
    assert (E : c_value c = VEmpty) by (destruct (c_value c); (reflexivity || discriminate)).
    assert (Eb : cell_extra_body c = [] /\ s' = set_content t s).
    { unfold s', cell_extra_body, read_subs, subs_read in *. destruct (c_extra c) as [x|]; [|auto]. apply orb_false_iff in Ee as (Ea & Ef). unfold extra_body.
      destruct Hsub as (Ha & Hf). destruct (x_annotation x); [discriminate|]. destruct an; [contradiction|]. destruct (x_frames x); [|discriminate]. inversion Hf; subst. auto. }
    destruct Eb as (-> & Es'). rewrite E. cbn [value_body app asked finish negb].
    unfold coalesce. rewrite coalesce_cons by exact I. cbn [emit_text app read_table_cell].
    rewrite Hs. cbn [bind]. rewrite Es' in Ho.
    assert (T : cell_finish ign dflt s = cell_finish ign dflt (set_content t s)).
    { unfold cell_finish. cbn [set_content a_cell a_repeat]. destruct (a_cell s) as [cc|] eqn:Ec; [|reflexivity].
      assert (V : c_value cc = VEmpty). { apply (f_equal k_value) in Hc. unfold cur in Hc. rewrite Ec in Hc. unfold with_subs, content_with in Hc. destruct (c_extra c), cc as [? ? ? ? [|]]; exact Hc. }
      rewrite V. rewrite (Hv t), E. pose proof (Hv TcEmpty) as V0. rewrite <- Ht, set_content_id in V0. rewrite V0, E. reflexivity. }
    rewrite T, Ho. reflexivity.
Qed.

(** Content of the paragraphs written for a value that is not rich text; for rich text see RichProofs. *)
Definition body_content (v : value) : tcontent :=
  match v with
  | VEmpty => TcEmpty
  | VText s => read_lines TcEmpty (split_lines s)
  | VDateTime d => tt_ (format_datetime d)
  | VDuration d => tt_ (format_duration2 d)
  | VBool b => tt_ (show_bool b)
  | VCurrency f c => tt_ (c ++ 32 :: f)
  | VNumber f | VPercent f => tt_ f
  | VTextXml _ => TcEmpty
  end.
Lemma body_value lb v : (forall l, v <> VTextXml l) -> body_reads lb (value_body v) (body_content v).
Proof.
  intros H. destruct v; cbn [value_body body_content]; try apply body_para; [apply body_nil|apply body_currency|apply body_text|].
  exfalso. eapply H. reflexivity.
Qed.
Lemma split_lines_cons s : exists l r, split_lines s = l :: r.
Proof. induction s as [|c s (l & r & IH)]; cbn; [eauto|]. destruct (c =? c_nl); [eauto|]. rewrite IH. eauto. Qed.
Lemma flushes_value v : (forall l, v <> VTextXml l) -> v <> VEmpty -> flushes (value_body v ++ [CEnd []]).
Proof.
  intros H N. destruct v; cbn; auto; [|exfalso; eapply H; reflexivity]. destruct (split_lines_cons s) as (l & r & ->). exact I.
Qed.

(** Lines. *)
Lemma split_lines_ok s : lines_of s (split_lines s).
Proof.
  induction s as [|c s (N & F & J)]; cbn [split_lines].
  - split; [discriminate|]. split; [repeat constructor; auto|reflexivity].
  - destruct (N.eqb_spec c c_nl) as [->|Nc].
    + split; [discriminate|]. split; [constructor; [auto|assumption]|]. destruct (split_lines s); [congruence|]. cbn in *. now rewrite J.
    + destruct (split_lines s) as [|l r]; [congruence|]. inversion F; subst. split; [discriminate|]. split.
      * constructor; [|assumption]. intros [E|E]; [congruence|auto].
      * destruct r; reflexivity.
Qed.

Lemma lines_of_inj s ls ls' : lines_of s ls -> lines_of s ls' -> ls = ls'.
Proof.
  assert (U : forall a b x y, ~ In c_nl a -> ~ In c_nl b -> a ++ x = b ++ y ->
     (x = [] \/ hd 0 x = c_nl) -> (y = [] \/ hd 0 y = c_nl) -> a = b /\ x = y).
  { induction a as [|u a IH]; intros b x y Ha Hb E Hx Hy; destruct b as [|w b].
    - auto.
    - cbn in E. destruct x as [|q x]; [discriminate|]. cbn in E. inversion E; subst. destruct Hx as [Hx|Hx]; [discriminate|]. cbn in Hx. subst. exfalso. apply Hb. now left.
    - cbn in E. destruct y as [|q y]; [discriminate|]. cbn in E. inversion E; subst. destruct Hy as [Hy|Hy]; [discriminate|]. cbn in Hy. subst. exfalso. apply Ha. now left.
    - cbn in E. inversion E; subst. destruct (IH b x y) as [-> ->]; auto; cbn in *; tauto. }
  revert s ls'. induction ls as [|l ls IH]; intros s ls' (N & F & J) (N' & F' & J'); [congruence|].
  destruct ls' as [|l' ls']; [congruence|]. inversion F; inversion F'; subst.
  set (tl := fun r => match r with [] => [] | _ => c_nl :: join [c_nl] r end).
  assert (T : forall l r, join [c_nl] (l :: r) = l ++ tl r) by (intros q [|? ?]; cbn; [now rewrite app_nil_r|reflexivity]).
  assert (J2 : l ++ tl ls = l' ++ tl ls') by (rewrite <- !T; auto). clear J'.
  assert (B : forall r, tl r = [] \/ hd 0 (tl r) = c_nl) by (intros []; cbn; auto).
  destruct (U l l' (tl ls) (tl ls')) as [-> E]; auto. f_equal.
  destruct ls as [|x ls], ls' as [|y ls']; try discriminate; [reflexivity|]. cbn in E. inversion E as [E2].
  apply (IH (join [c_nl] (x :: ls))); [split; [discriminate|split; [assumption|reflexivity]]|].
  split; [discriminate|split; [assumption|]]. now symmetry.
Qed.

Lemma read_lines_vec ls : forall l, read_lines (TcVec l) ls = TcVec (l ++ map text_p (without_blank ls)).
Proof.
  induction ls as [|x ls IH]; intros l; cbn; [now rewrite app_nil_r|].
  destruct x as [|c x]; cbn; [rewrite app_nil_r; apply IH|]. rewrite IH. now rewrite <- app_assoc.
Qed.
Lemma read_lines_text ls t : t <> [] -> ls <> [] -> read_lines (TcText t) ls = TcVec (map text_p (t :: without_blank ls)).
Proof.
  intros Nt Nl. destruct ls as [|x ls]; [congruence|]. cbn [read_lines append_text]. destruct x as [|c x]; cbn [tt_ wrap_text]; rewrite read_lines_vec; reflexivity.
Qed.
Lemma read_lines_found ls s : found (VText s) (read_lines TcEmpty ls) = text_value ls.
Proof.
  unfold text_value. induction ls as [|l ls IH]; [reflexivity|]. cbn [read_lines append_text drop_blank blank]. destruct l as [|c l]; cbn [tt_ blank]; [exact IH|].
  destruct ls as [|x ls]; [reflexivity|]. rewrite read_lines_text by discriminate. reflexivity.
Qed.

(** ** The calls of a cell are sensible and nested *)
Definition names_opt (o : option annotation) : Prop :=
  match o with Some a => attrs_ok (an_attrs a) /\ Forall names_ok (an_text a) | None => True end.
Definition image_names (i : dimage) : Prop := attrs_ok (im_attrs i) /\ (forall v, im_data i = Some v -> raw_text_ok v) /\ Forall names_ok (im_text i).
Definition frame_names (f : dframe) : Prop := attrs_ok (df_attrs f) /\ Forall image_names (df_content f).
Definition cell_names (c : cell) : Prop :=
  match c_value c with VTextXml l => Forall names_ok l | _ => True end
  /\ match c_extra c with
     | Some x => names_opt (x_annotation x) /\ Forall frame_names (x_frames x)
     | None => True
     end.
Lemma plain_value s : no_specials s -> raw_value_ok s.
Proof. apply Forall_impl. intros c H N. apply H. cbn in *. tauto. Qed.
Lemma plain_text s : no_specials s -> raw_text_ok s.
Proof. apply Forall_impl. intros c H N. apply H. cbn in *. tauto. Qed.
Lemma name_ok_b n : negb (is_nil n) && forallb (fun c => negb (existsb (N.eqb c)
    [c_quot; c_apos; c_amp; c_lt; c_gt; c_slash; c_eq; c_bslash; 32; 9; 10; 13; 33; 63])) n = true -> name_ok n.
Proof.
  intros H. apply andb_prop in H as [A B]. split; [intros ->; discriminate|]. rewrite forallb_forall in B. apply Forall_forall.
  intros c Hc N. apply B in Hc. apply negb_true_iff in Hc. rewrite <- not_true_iff_false in Hc. apply Hc.
  apply existsb_exists. exists c. split; [assumption|apply N.eqb_refl].
Qed.
Ltac name_lit := apply name_ok_b; vm_compute; reflexivity.

Definition good_attr (c : call) : Prop :=
  match c with CAttr n v => name_ok n /\ raw_value_ok v | CAttrEsc n v => name_ok n | _ => False end.
Lemma sensible_attr_calls l cs : Forall good_attr l -> sensible true cs -> sensible true (l ++ cs).
Proof.
  induction 1 as [|c l H _ IH]; intros; [assumption|]. destruct c; try contradiction; cbn [app].
  - apply sn_attr; [apply H|apply H|auto].
  - apply sn_attr_esc; auto.
Qed.
Lemma opt_attr_good n o : name_ok n -> Forall good_attr (opt_attr n o).
Proof. intros. destruct o; cbn; constructor; [assumption|constructor]. Qed.
Lemma num_attr_good n k : name_ok n -> Forall good_attr (num_attr n k).
Proof. intros. unfold num_attr. destruct (1 <? k); constructor; [assumption|constructor]. Qed.
Lemma show_bool_plain b : no_specials (show_bool b).
Proof. destruct b; cbn [show_bool]; plain_lit. Qed.
Lemma good_raw n v : name_ok n -> no_specials v -> good_attr (CAttr n v).
Proof. intros. split; [assumption|now apply plain_value]. Qed.
Lemma value_attrs_good v : payload_ok v -> Forall good_attr (value_attrs v).
Proof.
  intros H. destruct v; cbn [value_attrs payload_ok] in *;
  repeat (constructor; [first [apply good_raw; [name_lit|] | name_lit]|]); try (apply Forall_nil).
  all: first [apply datetime_plain|apply duration_plain|apply show_bool_plain|apply number_plain; tauto|plain_lit].
Qed.
Lemma cell_attrs_good ds c k : payload_ok (c_value c) -> Forall good_attr (cell_attrs ds c k).
Proof.
  intros H. unfold cell_attrs, extra_attrs. repeat rewrite !Forall_app.
  repeat split; try (apply opt_attr_good; name_lit); try (apply num_attr_good; name_lit); [|now apply value_attrs_good].
  destruct (c_extra c); [|constructor]. rewrite !Forall_app.
  repeat split; try (apply opt_attr_good; name_lit); try (apply num_attr_good; name_lit).
Qed.

Lemma sensible_para t q cs : no_specials t -> sensible false cs -> sensible q (para t ++ cs).
Proof. intros. cbn. apply sn_elem; [name_lit|]. apply sn_text; [now apply plain_text|]. apply sn_end; [name_lit|assumption]. Qed.
Lemma sensible_nodes l : forall q cs, Forall names_ok l -> (forall q, sensible q cs) -> sensible q (flat_map write_node l ++ cs).
Proof. induction l as [|x l IH]; intros q cs H Hc; [apply Hc|]. inversion H; subst. cbn [flat_map]. rewrite <- app_assoc. apply sensible_node; auto. Qed.
Lemma sensible_map_attrs l cs : attrs_ok l -> sensible true cs -> sensible true (map_attrs l ++ cs).
Proof. intros H Hc. now apply sensible_attrs. Qed.
Lemma sensible_opt_elem n o q cs : name_ok n -> (forall q, sensible q cs) -> sensible q (opt_elem n o ++ cs).
Proof. intros N H. destruct o; [|apply H]. cbn. apply sn_elem; [exact N|]. apply sn_text_esc. apply sn_end; [exact N|apply H]. Qed.
Lemma sensible_annotation a q cs : names_opt (Some a) -> (forall q, sensible q cs) -> sensible q (write_annotation a ++ cs).
Proof.
  intros (A & T) H. unfold write_annotation. cbn [app]. rewrite <- !app_assoc. apply sn_elem; [name_lit|]. apply sn_attr; [name_lit|apply plain_value, show_bool_plain|].
  apply sn_attr_esc; [name_lit|]. apply sensible_map_attrs; [exact A|]. apply sensible_opt_elem; [name_lit|]. intros q1. apply sensible_opt_elem; [name_lit|]. intros q2.
  apply sensible_nodes; [exact T|]. intros q3. cbn [app]. apply sn_end; [name_lit|apply H].
Qed.
Lemma sensible_image i q cs : image_names i -> (forall q, sensible q cs) -> sensible q (write_image i ++ cs).
Proof.
  intros (A & D & T) H. unfold write_image. cbn [app]. rewrite <- !app_assoc. apply sn_elem; [name_lit|]. apply sensible_map_attrs; [exact A|].
  assert (E : forall q, sensible q (flat_map write_node (im_text i) ++ [CEnd t_image] ++ cs)).
  { intros q1. apply sensible_nodes; [exact T|]. intros q2. cbn [app]. apply sn_end; [name_lit|apply H]. }
  destruct (im_data i) as [v|]; [|apply E]. cbn [app]. apply sn_elem; [name_lit|]. apply sn_text; [now apply D|]. apply sn_end; [name_lit|apply E].
Qed.
Lemma sensible_frame f q cs : frame_names f -> (forall q, sensible q cs) -> sensible q (write_frame f ++ cs).
Proof.
  intros (A & T) H. unfold write_frame. cbn [app]. rewrite <- !app_assoc. apply sn_elem; [name_lit|]. apply sensible_map_attrs; [exact A|].
  assert (E : forall q, sensible q (opt_elem t_desc (df_desc f) ++ opt_elem t_title (df_title f) ++ [CEnd t_frame] ++ cs)).
  { intros q1. apply sensible_opt_elem; [name_lit|]. intros q2. apply sensible_opt_elem; [name_lit|]. intros q3. cbn [app]. apply sn_end; [name_lit|apply H]. }
  generalize true as q0. induction T as [|i l Hi _ IH]; intros q0; [apply E|]. cbn [flat_map]. rewrite <- app_assoc. apply sensible_image; [exact Hi|]. intros q1. apply IH.
Qed.
Lemma sensible_extra x q cs : names_opt (x_annotation x) -> Forall frame_names (x_frames x) -> (forall q, sensible q cs) -> sensible q (extra_body x ++ cs).
Proof.
  intros A F H. unfold extra_body. rewrite <- app_assoc.
  assert (E : forall q, sensible q (flat_map write_frame (x_frames x) ++ cs)).
  { induction F as [|f l Hf _ IH]; intros q0; [apply H|]. cbn [flat_map]. rewrite <- app_assoc. apply sensible_frame; auto. }
  destruct (x_annotation x); [apply sensible_annotation; auto|apply E].
Qed.
Lemma sensible_body c q cs : payload_ok (c_value c) -> cell_names c -> (forall q, sensible q cs) -> sensible q (cell_body c ++ cs).
Proof.
  intros Hp (Hv & Hx) Hc. unfold cell_body. rewrite <- app_assoc.
  assert (E : forall q, sensible q (match c_extra c with Some x => extra_body x | None => [] end ++ cs)).
  { intros q'. destruct (c_extra c) as [x|]; [|apply Hc]. destruct Hx as (Ha & Hf). now apply sensible_extra. }
  destruct (c_value c); cbn [value_body payload_ok] in *.
  - apply E.
  - apply sensible_para; [apply show_bool_plain|apply E].
  - apply sensible_para; [now apply number_plain|apply E].
  - apply sensible_para; [now apply number_plain|apply E].
  - cbn. apply sn_elem; [name_lit|]. apply sn_text_esc. apply sn_text; [apply plain_text; plain_lit|].
    apply sn_text; [apply plain_text, number_plain; tauto|]. apply sn_end; [name_lit|apply E].
  - generalize (split_lines s). intros ls. revert q. induction ls as [|x ls IH]; intros q; [apply E|].
    cbn. apply sn_elem_text_esc; [name_lit|apply IH].
  - apply sensible_nodes; [assumption|apply E].
  - apply sensible_para; [apply datetime_plain|apply E].
  - apply sensible_para; [apply duration_plain|apply E].
Qed.
Lemma sensible_cell ds c h k q cs : payload_ok (c_value c) -> cell_names c -> sensible false cs ->
  sensible q (write_cell ds c h k ++ cs).
Proof.
  intros Hp Hn Hc. unfold write_cell. rewrite <- app_comm_cons, <- !app_assoc.
  assert (Ht : name_ok (cell_tag h)) by (destruct h; cbn [cell_tag]; name_lit).
  apply sn_elem_if; [assumption|]. apply sensible_attr_calls; [now apply cell_attrs_good|].
  apply sensible_body; auto. intros. cbn [app]. apply sn_end_if; auto.
Qed.

Lemma nested_attr_calls l st cs : Forall is_attr l -> calls_nested st cs -> calls_nested st (l ++ cs).
Proof. induction 1 as [|c l H _ IH]; intros; [assumption|]. destruct c; try contradiction; cbn [app calls_nested]; auto. Qed.
Lemma nested_nodes l : forall st cs, calls_nested st cs -> calls_nested st (flat_map write_node l ++ cs).
Proof. induction l; intros; [assumption|]. cbn [flat_map]. rewrite <- app_assoc. apply nested_node. auto. Qed.
Lemma nested_map_attrs l st cs : calls_nested st cs -> calls_nested st (map_attrs l ++ cs).
Proof. induction l; intros; [assumption|]. cbn. auto. Qed.
Lemma nested_opt_elem n o st cs : calls_nested st cs -> calls_nested st (opt_elem n o ++ cs).
Proof. intros. destruct o; cbn; auto. Qed.
Lemma nested_annotation a st cs : calls_nested st cs -> calls_nested st (write_annotation a ++ cs).
Proof.
  intros. unfold write_annotation. cbn [app calls_nested]. rewrite <- !app_assoc. apply nested_map_attrs, nested_opt_elem, nested_opt_elem, nested_nodes. cbn. auto.
Qed.
Lemma nested_image i st cs : calls_nested st cs -> calls_nested st (write_image i ++ cs).
Proof.
  intros. unfold write_image. cbn [app calls_nested]. rewrite <- !app_assoc. apply nested_map_attrs.
  destruct (im_data i); cbn [app calls_nested]; [split; [reflexivity|]|]; apply nested_nodes; cbn; auto.
Qed.
Lemma nested_frame f st cs : calls_nested st cs -> calls_nested st (write_frame f ++ cs).
Proof.
  intros. unfold write_frame. cbn [app calls_nested]. rewrite <- !app_assoc. apply nested_map_attrs.
  induction (df_content f) as [|i l IH]; cbn [flat_map app]; [apply nested_opt_elem, nested_opt_elem; cbn; auto|]. rewrite <- app_assoc. now apply nested_image.
Qed.
Lemma nested_extra x st cs : calls_nested st cs -> calls_nested st (extra_body x ++ cs).
Proof.
  intros H. unfold extra_body. rewrite <- app_assoc.
  assert (E : calls_nested st (flat_map write_frame (x_frames x) ++ cs)).
  { induction (x_frames x) as [|f l IH]; [exact H|]. cbn [flat_map]. rewrite <- app_assoc. now apply nested_frame. }
  destruct (x_annotation x); [now apply nested_annotation|exact E].
Qed.
Lemma nested_body c st cs : calls_nested st cs -> calls_nested st (cell_body c ++ cs).
Proof.
  intros H. unfold cell_body. rewrite <- app_assoc.
  assert (E : calls_nested st (match c_extra c with Some x => extra_body x | None => [] end ++ cs)).
  { destruct (c_extra c) as [x|]; [now apply nested_extra|exact H]. }
  destruct (c_value c); cbn [value_body]; try (cbn; split; [reflexivity|exact E]); [exact E| |now apply nested_nodes].
  induction (split_lines s) as [|x ls IH]; [exact E|exact IH].
Qed.
Lemma nested_cell ds c h k st cs : calls_nested st cs -> calls_nested st (write_cell ds c h k ++ cs).
Proof.
  intros H. unfold write_cell. rewrite <- app_comm_cons, <- !app_assoc.
  destruct (cell_has_subs c); cbn [calls_nested]; (apply nested_attr_calls; [apply cell_attrs_attr|]); apply nested_body; cbn; auto.
Qed.

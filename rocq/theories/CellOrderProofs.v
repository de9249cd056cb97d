(** The order of the attributes of a cell does not matter. *)
From Coq Require Import Permutation.
From Verif Require Import Base Lib XmlModel XmlProofs CellModel NumModel CellIoModel CellIoSpec CellIoProofs.

(** What matters of the state of the reader: whether there is a cell, its content, the values seen. *)
Record vw := VW { w_some : bool; w_cont : content; w_repeat_ : N; w_type : vtype; w_dt : option datetime; w_dur : option Z;
  w_float : option str; w_bool : option bool; w_string : option str; w_cur : option str; w_text : tcontent }.
Definition vw_of (s : cellacc) : vw :=
  VW (CellModel.is_some (a_cell s)) (cur s) (a_repeat s) (a_type s) (a_dt s) (a_dur s) (a_float s) (a_bool s) (a_string s) (a_cur s) (a_content s).
Definition on_cont (f : content -> content) (w : vw) : vw :=
  VW true (f (w_cont w)) (w_repeat_ w) (w_type w) (w_dt w) (w_dur w) (w_float w) (w_bool w) (w_string w) (w_cur w) (w_text w).
Definition on_span (v : str) (f : N -> content -> content) : res (vw -> vw) :=
  let* n := parse_u32 (raw v) in Ok (if 1 <? n then on_cont (f n) else fun w => w).
Definition upd (k : ckey) (v : str) : res (vw -> vw) :=
  match k with
  | KRepeat => let* n := parse_u32 (raw v) in Ok (fun w => VW (w_some w) (w_cont w) n (w_type w) (w_dt w) (w_dur w) (w_float w) (w_bool w) (w_string w) (w_cur w) (w_text w))
  | KRows => on_span v (fun n => set_kspan (fun s => CSpan n (cspan_ s)) (fun s => s))
  | KCols => on_span v (fun n => set_kspan (fun s => CSpan (rspan s) n) (fun s => s))
  | KMRows => on_span v (fun n => set_kspan (fun s => s) (fun s => CSpan n (cspan_ s)))
  | KMCols => on_span v (fun n => set_kspan (fun s => s) (fun s => CSpan (rspan s) n))
  | KValidation => Ok (on_cont (fun K => Content (k_value K) (k_style K) (k_formula K) (k_repeat K) (Some v) (k_span K) (k_matrix K) (k_annotation K) (k_frames K)))
  | KType => let* t := read_type (raw v) in Ok (fun w => VW true (w_cont w) (w_repeat_ w) t (w_dt w) (w_dur w) (w_float w) (w_bool w) (w_string w) (w_cur w) (w_text w))
  | KDate => let* d := parse_datetime (raw v) in Ok (fun w => VW true (w_cont w) (w_repeat_ w) (w_type w) (Some d) (w_dur w) (w_float w) (w_bool w) (w_string w) (w_cur w) (w_text w))
  | KTime => let* d := parse_duration (raw v) in Ok (fun w => VW true (w_cont w) (w_repeat_ w) (w_type w) (w_dt w) (Some d) (w_float w) (w_bool w) (w_string w) (w_cur w) (w_text w))
  | KValue => let* d := parse_f64 (raw v) in Ok (fun w => VW true (w_cont w) (w_repeat_ w) (w_type w) (w_dt w) (w_dur w) (Some d) (w_bool w) (w_string w) (w_cur w) (w_text w))
  | KBool => let* d := parse_bool (raw v) in Ok (fun w => VW true (w_cont w) (w_repeat_ w) (w_type w) (w_dt w) (w_dur w) (w_float w) (Some d) (w_string w) (w_cur w) (w_text w))
  | KString => Ok (fun w => VW true (w_cont w) (w_repeat_ w) (w_type w) (w_dt w) (w_dur w) (w_float w) (w_bool w) (Some v) (w_cur w) (w_text w))
  | KCurrency => Ok (fun w => VW true (w_cont w) (w_repeat_ w) (w_type w) (w_dt w) (w_dur w) (w_float w) (w_bool w) (w_string w) (Some (raw v)) (w_text w))
  | KFormula => Ok (on_cont (fun K => Content (k_value K) (k_style K) (Some v) (k_repeat K) (k_validation K) (k_span K) (k_matrix K) (k_annotation K) (k_frames K)))
  | KStyle => Ok (on_cont (fun K => Content (k_value K) (Some v) (k_formula K) (k_repeat K) (k_validation K) (k_span K) (k_matrix K) (k_annotation K) (k_frames K)))
  end.
Definition upd_of (kv : str * str) : res (vw -> vw) :=
  match find_key ckeys (fst kv) with None => Ok (fun w => w) | Some k => upd k (snd kv) end.
Definition follows {A} (x : res cellacc) (r : res (A -> vw)) (a : A) : Prop :=
  match r with Ok f => exists s', x = Ok s' /\ vw_of s' = f a | Err => x = Err | Panic => x = Panic end.

Lemma edit_follows s f g : (forall c, cell_content (f c) = g (cell_content c)) -> vw_of (a_edit f s) = on_cont g (vw_of s).
Proof.
  intros H. unfold vw_of, a_edit, cur, on_cont. cbn [a_cell a_repeat a_type a_dt a_dur a_float a_bool a_string a_cur a_content CellModel.is_some
    w_some w_cont w_repeat_ w_type w_dt w_dur w_float w_bool w_string w_cur w_text].
  f_equal. destruct (a_cell s); rewrite H; reflexivity.
Qed.
Lemma touch_cur s : cur (a_touch s) = cur s.
Proof. unfold cur, a_touch, a_edit. cbn [a_cell]. destruct (a_cell s); reflexivity. Qed.

Ltac fields := cbn [vw_of w_some w_cont w_repeat_ w_type w_dt w_dur w_float w_bool w_string w_cur w_text a_cell a_repeat a_type a_dt a_dur a_float a_bool a_string a_cur a_content].
Lemma span_follows s v h g : (forall n c, cell_content (edit_extra (h n) c) = g n (cell_content c)) ->
  follows (span_attr v h s) (on_span v g) (vw_of s).
Proof.
  intros H. unfold span_attr, on_span. destruct (parse_u32 (raw v)) as [n| |]; cbn [bind follows]; auto.
  eexists. split; [reflexivity|]. destruct (1 <? n); [|reflexivity]. now apply edit_follows.
Qed.
Lemma attr_follows s kv : follows (cell_attr s kv) (upd_of kv) (vw_of s).
Proof.
  unfold cell_attr, upd_of. destruct (find_key ckeys (fst kv)) as [k|]; [|cbn; eauto].
  generalize (snd kv). intros v. destruct k; cbn [upd].
  2-5: apply span_follows; intros n [? ? ? ? [[? ? ? ? ?]|]]; reflexivity.
  all: try (cbn [follows]; eexists; split; [reflexivity|]; apply edit_follows; intros [? ? ? ? [[? ? ? ? ?]|]]; reflexivity).
  - destruct (parse_u32 (raw v)); cbn; eauto.
  - destruct (read_type (raw v)); cbn [bind follows]; auto. eexists. split; [reflexivity|]. unfold vw_of at 1. fields. f_equal; try exact (touch_cur s).
  - destruct (parse_datetime (raw v)); cbn [bind follows]; auto. eexists. split; [reflexivity|]. unfold vw_of at 1. fields. f_equal; try exact (touch_cur s).
  - destruct (parse_duration (raw v)); cbn [bind follows]; auto. eexists. split; [reflexivity|]. unfold vw_of at 1. fields. f_equal; try exact (touch_cur s).
  - destruct (parse_f64 (raw v)); cbn [bind follows]; auto. eexists. split; [reflexivity|]. unfold vw_of at 1. fields. f_equal; try exact (touch_cur s).
  - destruct (parse_bool (raw v)); cbn [bind follows]; auto. eexists. split; [reflexivity|]. unfold vw_of at 1. fields. f_equal; try exact (touch_cur s).
  - cbn [follows]. eexists. split; [reflexivity|]. unfold vw_of at 1. fields. f_equal; try exact (touch_cur s).
  - cbn [follows]. eexists. split; [reflexivity|]. unfold vw_of at 1. fields. f_equal; try exact (touch_cur s).
Qed.

(** Two different attributes commute. *)
Lemma find_in {A} (l : list (str * A)) k a : find_key l k = Some a -> In (k, a) l.
Proof. induction l as [|[n b] l IH]; [discriminate|]. cbn. destruct (str_eqb k n) eqn:E; [|auto]. apply str_eqb_eq in E. intros H. inversion H; subst. auto. Qed.
Lemma key_inj n n' k : find_key ckeys n = Some k -> find_key ckeys n' = Some k -> n = n'.
Proof.
  intros A B. apply find_in in A, B. unfold ckeys in *.
  repeat (destruct A as [A|A]; [inversion A; subst; repeat (destruct B as [B|B]; [inversion B; subst; try reflexivity|]); contradiction|]). contradiction.
Qed.
Lemma upd_commute k k' v v' f g : k <> k' -> upd k v = Ok f -> upd k' v' = Ok g -> forall w, f (g w) = g (f w).
Proof.
  assert (B : forall A (r : res A) (h : A -> vw -> vw) f, (let* n := r in Ok (h n)) = Ok f -> exists n, f = h n).
  { intros A r h f0. destruct r; cbn; intros E; inversion E; eauto. }
  assert (S : forall u h f, on_span u h = Ok f -> exists n b, f = if (b : bool) then on_cont (h n) else fun w => w).
  { intros u h f0. unfold on_span. destruct (parse_u32 (raw u)); cbn; intros E; inversion E; eauto. }
  intros N Hf Hg w.
  destruct k; cbn [upd] in Hf;
    (first [apply S in Hf as (x & b & ->)|apply B in Hf as (x & ->)|injection Hf as <-]);
  destruct k'; try congruence; cbn [upd] in Hg;
    (first [apply S in Hg as (y & b' & ->)|apply B in Hg as (y & ->)|injection Hg as <-]);
  try destruct b; try destruct b'; reflexivity.
Qed.

Fixpoint upds (l : list (str * str)) : res (vw -> vw) :=
  match l with [] => Ok (fun w => w) | kv :: r => let* f := upd_of kv in let* g := upds r in Ok (fun w => g (f w)) end.
Lemma attrs_follow l : forall s s', cell_read_attrs s l = Ok s' -> exists f, upds l = Ok f /\ vw_of s' = f (vw_of s).
Proof.
  induction l as [|kv l IH]; cbn [cell_read_attrs upds]; intros s s' H.
  - inversion H; subst. eauto.
  - destruct (cell_attr s kv) as [s1| |] eqn:E; cbn in H; try discriminate. pose proof (attr_follows s kv) as F. rewrite E in F.
    destruct (upd_of kv) as [f| |]; cbn in F; try discriminate. destruct F as (s2 & Q & F). inversion Q; subst s2.
    destruct (IH _ _ H) as (g & Hg & W). rewrite Hg. cbn. eexists. split; [reflexivity|]. now rewrite W, F.
Qed.
Lemma follow_attrs l : forall s f, upds l = Ok f -> exists s', cell_read_attrs s l = Ok s' /\ vw_of s' = f (vw_of s).
Proof.
  induction l as [|kv l IH]; cbn [cell_read_attrs upds]; intros s f H.
  - inversion H; subst. eauto.
  - pose proof (attr_follows s kv) as F. destruct (upd_of kv) as [g| |]; cbn in *; try discriminate.
    destruct (upds l) as [h| |]; cbn in *; try discriminate. inversion H; subst. destruct F as (s1 & -> & F). cbn.
    destruct (IH s1 h eq_refl) as (s2 & -> & W). eexists. split; [reflexivity|]. now rewrite W, F.
Qed.
Lemma upds_perm l l' : Permutation l l' -> NoDup (map fst l) -> forall f, upds l = Ok f -> exists f', upds l' = Ok f' /\ forall w, f' w = f w.
Proof.
  induction 1 as [|kv l l' P IH|x y l|l l' l'' P IH P' IH']; intros N f Hf.
  - eauto.
  - cbn in *. inversion N; subst. destruct (upd_of kv) as [g| |]; try discriminate. destruct (upds l) as [h| |]; try discriminate.
    inversion Hf; subst. destruct (IH H2 h eq_refl) as (h' & -> & E). cbn. eexists. split; [reflexivity|]. intros. apply E.
  - cbn in *. unfold upd_of in *. destruct (find_key ckeys (fst y)) as [k|] eqn:Ek; destruct (find_key ckeys (fst x)) as [k'|] eqn:Ek'; cbn in *.
    + destruct (upd k (snd y)) as [g| |] eqn:Eg; try discriminate. destruct (upd k' (snd x)) as [g'| |] eqn:Eg'; try discriminate.
      destruct (upds l) as [h| |]; try discriminate. cbn in *. inversion Hf; subst. eexists. split; [reflexivity|]. intros w.
      assert (Q : k <> k'). { intros ->. inversion N as [|? ? N1 _]; subst. apply N1. left. exact (key_inj _ _ _ Ek' Ek). }
      cbv beta. f_equal. exact (upd_commute k k' _ _ g g' Q Eg Eg' w).
    + destruct (upd k (snd y)) as [g| |] eqn:Eg; try discriminate. destruct (upds l) as [h| |]; try discriminate. inversion Hf; subst. cbn. eauto.
    + destruct (upd k' (snd x)) as [g| |] eqn:Eg; try discriminate. destruct (upds l) as [h| |]; try discriminate. inversion Hf; subst. cbn. eauto.
    + destruct (upds l) as [h| |]; try discriminate. inversion Hf; subst. cbn. eauto.
  - destruct (IH N f Hf) as (f1 & H1 & E1). assert (N' : NoDup (map fst l')) by (eapply Permutation_NoDup; [apply Permutation_map; eassumption|assumption]).
    destruct (IH' N' f1 H1) as (f2 & H2 & E2). exists f2. split; [assumption|]. intros. now rewrite E2.
Qed.

(** The loop and the end depend on the view only. *)
Lemma vw_content s s' t : vw_of s = vw_of s' -> vw_of (set_content t s) = vw_of (set_content t s').
Proof. unfold vw_of, set_content, cur. fields. intros H. inversion H. reflexivity. Qed.
Lemma vw_get_content s s' : vw_of s = vw_of s' -> a_content s = a_content s'.
Proof. intros H. inversion H. reflexivity. Qed.
Lemma step_view tag s s' m e : vw_of s = vw_of s' ->
  match cell_step tag s m e with
  | Ok (inl (t, m')) => exists t', cell_step tag s' m e = Ok (inl (t', m')) /\ vw_of t = vw_of t'
  | Ok (inr t) => exists t', cell_step tag s' m e = Ok (inr t') /\ vw_of t = vw_of t'
  | Err => cell_step tag s' m e = Err
  | Panic => cell_step tag s' m e = Panic
  end.
Proof.
  intros H. pose proof (vw_get_content _ _ H) as C. destruct m; cbn [cell_step].
  - destruct e; try (destruct (str_eqb n tag)); try (destruct (str_eqb n t_p)); try (destruct (str_eqb n t_annotation || str_eqb n t_frame));
    try (destruct (sub_start _); cbn [bind]; auto); try (eexists; (split; [reflexivity|]); try assumption; rewrite C; now apply vw_content).
  - destruct (para_step t_p a pc st e) as [[[? ?]|t]| |]; cbn [bind]; eauto. eexists. split; [reflexivity|]. rewrite C. now apply vw_content.
  - destruct (sub_step m e) as [[?|[t|t]]| |]; cbn [bind]; eauto; (eexists; split; [reflexivity|]); cbn [put_sub].
    + rewrite !(edit_follows _ _ (fun K => Content (k_value K) (k_style K) (k_formula K) (k_repeat K) (k_validation K) (k_span K) (k_matrix K) (Some t) (k_frames K)))
        by (intros [? ? ? ? [[? ? ? ? ?]|]]; reflexivity). now rewrite H.
    + rewrite !(edit_follows _ _ (fun K => Content (k_value K) (k_style K) (k_formula K) (k_repeat K) (k_validation K) (k_span K) (k_matrix K) (k_annotation K) (k_frames K ++ [t])))
        by (intros [? ? ? ? [[? ? ? ? ?]|]]; reflexivity). now rewrite H.
Qed.
Lemma loop_view tag evs : forall s s' m t r, vw_of s = vw_of s' -> cell_loop tag s m evs = Ok (t, r) ->
  exists t', cell_loop tag s' m evs = Ok (t', r) /\ vw_of t = vw_of t'.
Proof.
  induction evs as [|e evs IH]; intros s s' m t r H L; [discriminate|]. cbn [cell_loop] in *.
  pose proof (step_view tag s s' m e H) as S. destruct (cell_step tag s m e) as [[[u m']|u]| |]; cbn in L; try discriminate.
  - destruct S as (u' & -> & E). cbn. eapply IH; eassumption.
  - inversion L; subst. destruct S as (u' & -> & E). cbn. eauto.
Qed.
Lemma read_value_view s s' v : vw_of s = vw_of s' -> read_value s v = read_value s' v.
Proof. intros H. unfold vw_of in H. injection H as _ _ _ H1 H2 H3 H4 H5 H6 H7 H8. unfold read_value. rewrite H1, H2, H3, H4, H5, H6, H7, H8. reflexivity. Qed.
Lemma finish_view ign dflt s s' k o : vw_of s = vw_of s' -> cell_finish ign dflt s = Ok (k, o) ->
  exists o', cell_finish ign dflt s' = Ok (k, o') /\ option_map cell_content o' = option_map cell_content o.
Proof.
  intros H F. pose proof (fun v => read_value_view s s' v H) as R. unfold vw_of in H. injection H as H1 H2 H3 _ _ _ _ _ _ _ _.
  unfold cell_finish, cur in *. destruct (a_cell s) as [c|], (a_cell s') as [c'|]; try discriminate.
  - assert (V : c_value c' = c_value c /\ c_repeat c' = c_repeat c /\ forall v r, cell_content (Cell v (c_formula c') (c_style c') r (c_extra c'))
       = cell_content (Cell v (c_formula c) (c_style c) r (c_extra c))).
    { destruct c as [? ? ? ? [[? ? ? ? ?]|]], c' as [? ? ? ? [[? ? ? ? ?]|]]; cbn in *; inversion H2; subst; repeat split; reflexivity. }
    destruct V as (V1 & V3 & V2). rewrite V1, V3, <- R. destruct (read_value s (c_value c)); cbn in *; try discriminate. inversion F; subst.
    rewrite <- H3. eexists. split; [reflexivity|]. rewrite !ignore_content, V2.
    destruct (void_b ign dflt _); cbn; [reflexivity|]. now rewrite V2.
  - inversion F; subst. rewrite <- H3. eauto.
Qed.

Lemma read_any_order ign dflt (start : bool) n a a' r k o rest : Permutation a a' -> NoDup (map fst a) ->
  let ev x := if start then EStart n x else EEmpty n x in
  read_table_cell ign dflt (ev a :: r) = Ok (k, o, rest) ->
  exists o', read_table_cell ign dflt (ev a' :: r) = Ok (k, o', rest) /\ option_map cell_content o' = option_map cell_content o.
Proof.
  intros P N ev H. unfold ev in *. clear ev.
  assert (A : forall s, cell_read_attrs cellacc0 a = Ok s -> exists s', cell_read_attrs cellacc0 a' = Ok s' /\ vw_of s = vw_of s').
  { intros s Hs. destruct (attrs_follow _ _ _ Hs) as (f & Hf & W). destruct (upds_perm _ _ P N f Hf) as (f' & Hf' & E).
    destruct (follow_attrs _ cellacc0 _ Hf') as (s' & Hs' & W'). exists s'. split; [assumption|]. now rewrite W, W', E. }
  destruct start; cbn [read_table_cell] in *; destruct (cell_read_attrs cellacc0 a) as [s| |]; cbn in H; try discriminate;
  destruct (A s eq_refl) as (s' & -> & V); cbn [bind].
  - destruct (cell_loop n s KCell r) as [[t rr]| |] eqn:L; cbn in H; try discriminate.
    destruct (loop_view _ _ _ _ _ _ _ V L) as (t' & -> & V'). cbn [bind].
    destruct (cell_finish ign dflt t) as [[k0 o0]| |] eqn:F; cbn in H; try discriminate. inversion H; subst.
    destruct (finish_view _ _ _ _ _ _ V' F) as (o' & -> & C). cbn. eauto.
  - destruct (cell_finish ign dflt s) as [[k0 o0]| |] eqn:F; cbn in H; try discriminate. inversion H; subst.
    destruct (finish_view _ _ _ _ _ _ V F) as (o' & -> & C). cbn. eauto.
Qed.

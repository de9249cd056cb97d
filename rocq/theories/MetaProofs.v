(** Writing and reading the metadata. *)
From Verif Require Import Base Lib CellModel NumModel NumSpec NumProofs NumProps EnumModel XmlModel XmlSpec XmlProofs CellIoModel CellIoSpec CellIoProofs MetaModel.

(** ** Specification *)

(** Text split at the special characters. *)
Fixpoint pieces (s : str) : list str :=
  match s with
  | [] => [[]]
  | c :: r => match entity_of c with
              | Some _ => [] :: pieces r
              | None => match pieces r with p :: l => (c :: p) :: l | [] => [[c]] end
              end
  end.
Definition has_text (p : str) : bool := match p with [] => false | _ => true end.
(** The last piece that is not empty. *)
Definition last_piece (s : str) : str := last (filter has_text (pieces s)) [].
Definition value_back (v : mvalue) : mvalue := match v with MString s => MString (last_piece s) | _ => v end.
Definition mvalue_ok (v : mvalue) : Prop :=
  match v with MBool _ | MString _ => True | MDate d => date_exact d | MFloat t => number_text t | MTime ns => duration_exact ns end.
Definition opt_date_ok (o : option datetime) : Prop := match o with Some d => date_exact d | None => True end.
Definition meta_ok (m : meta) : Prop :=
  raw_text_ok (m_generator m) /\ opt_date_ok (m_created m) /\ opt_date_ok (m_date m) /\ opt_date_ok (m_print m)
  /\ m_cycles m <= u32_max /\ (m_duration m = 0 \/ 1000000000 <= m_duration m)%Z /\ duration_exact (m_duration m)
  /\ Forall (fun u => raw_value_ok (fst u) /\ mvalue_ok (snd u)) (m_user m).
(** What is left after reading. *)
Definition meta_back (m : meta) : meta :=
  Meta (m_generator m) (m_title m) (m_description m) (m_subject m) (m_keyword m) (m_initial m) (m_creator m) (m_printed m)
    (m_created m) (m_date m) (m_print m) (m_language m) (m_cycles m) (m_duration m) template0 reload0 links0 stats0
    (map (fun u => (fst u, value_back (snd u))) (m_user m)).

(** ** Pieces of the document *)

Lemma inside_acc m evs : forall acc, mrun (coalesce_from acc evs) (MInside m) = mrun (coalesce evs) (MInside m).
Proof.
  unfold coalesce. assert (E : forall acc r, mrun (emit_text acc ++ r) (MInside m) = mrun r (MInside m)) by (intros [|x acc] r; reflexivity).
  induction evs as [|e evs IH]; intros acc; [cbn [coalesce_from]; now destruct acc|]. destruct e as [? ?|? ?|?|t|?|?]; try (rewrite !coalesce_cons by exact I; rewrite !E; reflexivity).
  cbn [coalesce_from app]. now rewrite IH, (IH t).
Qed.
Lemma outside_acc m evs : forall acc, mrun (coalesce_from acc evs) (MOutside m) = mrun (coalesce evs) (MOutside m).
Proof.
  unfold coalesce. assert (E : forall acc r, mrun (emit_text acc ++ r) (MOutside m) = mrun r (MOutside m)) by (intros [|x acc] r; reflexivity).
  induction evs as [|e evs IH]; intros acc; [cbn [coalesce_from]; now destruct acc|]. destruct e as [? ?|? ?|?|t|?|?]; try (rewrite !coalesce_cons by exact I; rewrite !E; reflexivity).
  cbn [coalesce_from app]. now rewrite IH, (IH t).
Qed.
Lemma inside_skip m t evs : mrun (coalesce (EText t :: evs)) (MInside m) = mrun (coalesce evs) (MInside m).
Proof. exact (inside_acc m evs t). Qed.

Lemma emit_value acc m n f x r : mrun (emit_text acc ++ r) (MText m n f x) = mrun r (MText m n f (x ++ acc)).
Proof. destruct acc; cbn [emit_text app mrun mstep bind]; now rewrite ?app_nil_r. Qed.
Lemma value_end acc m n f x r : mrun (coalesce_from acc (EEnd n :: r)) (MText m n f x) = let* m' := set_field f (x ++ acc) m in mrun (coalesce r) (MInside m').
Proof. rewrite coalesce_cons by exact I. rewrite emit_value. cbn [mrun mstep]. rewrite str_eqb_refl. now destruct (set_field f (x ++ acc) m). Qed.
Lemma value_esc t : forall acc m n f x r,
  mrun (coalesce_from acc (esc_split t ++ EEnd n :: r)) (MText m n f x) = let* m' := set_field f (x ++ acc ++ t) m in mrun (coalesce r) (MInside m').
Proof.
  induction t as [|c t IH]; intros; cbn [esc_split map app]; [now rewrite value_end, app_nil_r|]. fold (esc_split t).
  destruct (entity_of c) as [e|] eqn:E.
  - rewrite coalesce_cons by exact I. rewrite emit_value. cbn [mrun mstep]. rewrite (entity_named c e E). cbn [bind]. rewrite IH. cbn [app]. now rewrite <- !app_assoc.
  - cbn [coalesce_from]. rewrite IH. now rewrite <- !app_assoc.
Qed.

(** A piece of the document read inside the metadata. *)
Definition eats (cs : list call) (m : meta) (r : res meta) : Prop := forall lb rest, flushes rest ->
  mrun (coalesce (asked esc_split lb None (cs ++ rest))) (MInside m) = let* m' := r in mrun (coalesce (asked esc_split lb None rest)) (MInside m').
Definition fine (cs : list call) : Prop :=
  (forall q r, (forall q, sensible q r) -> sensible q (cs ++ r)) /\ (forall st r, calls_nested st r -> calls_nested st (cs ++ r))
  /\ (forall r, flushes r -> flushes (cs ++ r)).
Lemma eats_nil m : eats [] m (Ok m).
Proof. intros lb rest _. reflexivity. Qed.
Lemma fine_nil : fine [].
Proof. repeat split; auto. Qed.
Lemma fine_app a b : fine a -> fine b -> fine (a ++ b).
Proof.
  intros (A1 & A2 & A3) (B1 & B2 & B3). split; [|split]; intros; rewrite <- app_assoc.
  - apply A1. intros q'. now apply B1.
  - auto.
  - auto.
Qed.
Lemma eats_app a b m m1 r : fine b -> eats a m (Ok m1) -> eats b m1 r -> eats (a ++ b) m r.
Proof. intros (_ & _ & F) A B lb rest R. rewrite <- app_assoc, A by auto. cbn [bind]. now apply B. Qed.
Lemma fine_all {A} (f : A -> list call) l : Forall (fun x => fine (f x)) l -> fine (flat_map f l).
Proof. induction 1; cbn; [apply fine_nil|now apply fine_app]. Qed.

Lemma find_field f : find (fun g => str_eqb (field_tag g) (field_tag f)) all_fields = Some f.
Proof. destruct f; vm_compute; reflexivity. Qed.
Lemma eats_esc f t m : eats [CElemTextEsc (field_tag f) t] m (set_field f t m).
Proof.
  intros lb rest R. cbn [app asked finish]. unfold coalesce at 1. rewrite coalesce_cons by exact I. cbn [emit_text app mrun mstep]. rewrite find_field. cbn [bind].
  rewrite value_esc. cbn [app]. destruct (set_field f t m); cbn [bind]; try reflexivity. apply inside_skip.
Qed.
Lemma eats_text f t m : eats [CElemText (field_tag f) t] m (set_field f t m).
Proof.
  intros lb rest R. cbn [app asked finish]. unfold coalesce at 1. rewrite coalesce_cons by exact I. cbn [emit_text app mrun mstep]. rewrite find_field. cbn [bind].
  match goal with |- context [coalesce_from [] (EText t :: ?r)] => change (coalesce_from [] (EText t :: r)) with (coalesce_from t r) end. rewrite value_end. cbn [app]. destruct (set_field f t m); cbn [bind]; try reflexivity. apply inside_skip.
Qed.
Lemma field_name f : name_ok (field_tag f).
Proof. destruct f; name_lit. Qed.
Lemma fine_esc f t : fine [CElemTextEsc (field_tag f) t].
Proof. repeat split; intros; [apply sn_elem_text_esc; [apply field_name|apply H]|exact H]. Qed.
Lemma fine_text f t : raw_text_ok t -> fine [CElemText (field_tag f) t].
Proof. intros T. repeat split; intros; [apply sn_elem_text; [apply field_name|exact T|apply H]|exact H]. Qed.

(** Fields one after the other. *)
Definition copy (f : field) (m m0 : meta) : meta :=
  let '(Meta ge ti de su ke ini cr pr cd da pd la cy du te re li st us) := m0 in
  match f with
  | FGenerator => Meta (m_generator m) ti de su ke ini cr pr cd da pd la cy du te re li st us
  | FTitle => Meta ge (m_title m) de su ke ini cr pr cd da pd la cy du te re li st us
  | FDescription => Meta ge ti (m_description m) su ke ini cr pr cd da pd la cy du te re li st us
  | FSubject => Meta ge ti de (m_subject m) ke ini cr pr cd da pd la cy du te re li st us
  | FKeyword => Meta ge ti de su (m_keyword m) ini cr pr cd da pd la cy du te re li st us
  | FInitial => Meta ge ti de su ke (m_initial m) cr pr cd da pd la cy du te re li st us
  | FCreator => Meta ge ti de su ke ini (m_creator m) pr cd da pd la cy du te re li st us
  | FPrinted => Meta ge ti de su ke ini cr (m_printed m) cd da pd la cy du te re li st us
  | FCreated => Meta ge ti de su ke ini cr pr (m_created m) da pd la cy du te re li st us
  | FDate => Meta ge ti de su ke ini cr pr cd (m_date m) pd la cy du te re li st us
  | FPrint => Meta ge ti de su ke ini cr pr cd da (m_print m) la cy du te re li st us
  | FLanguage => Meta ge ti de su ke ini cr pr cd da pd (m_language m) cy du te re li st us
  | FCycles => Meta ge ti de su ke ini cr pr cd da pd la (m_cycles m) du te re li st us
  | FDuration => Meta ge ti de su ke ini cr pr cd da pd la cy (m_duration m) te re li st us
  end.
Definition unset (f : field) (m : meta) : Prop := copy f meta0 m = m.
Lemma format_datetime_ne d : format_datetime d <> [].
Proof. unfold format_datetime. intros H. repeat (apply app_eq_nil in H as (? & H)); discriminate. Qed.
Lemma format_duration_ne d : format_duration2 d <> [].
Proof. unfold format_duration2. discriminate. Qed.
Lemma eats_copy m m0 f : meta_ok m -> unset f m0 -> eats (field_calls m f) m0 (Ok (copy f m m0)) /\ fine (field_calls m f).
Proof.
  intros (G & D1 & D2 & D3 & C & U1 & U2 & _) U.
  assert (T : forall g t, (t = [] -> copy g m m0 = m0) -> set_field g t m0 = Ok (copy g m m0) -> eats (text_calls (field_tag g) t) m0 (Ok (copy g m m0)) /\ fine (text_calls (field_tag g) t)).
  { intros g [|x t] H1 H2; cbn [text_calls]; [rewrite H1 by reflexivity; split; [apply eats_nil|apply fine_nil]|]. rewrite <- H2. split; [apply eats_esc|apply fine_esc]. }
  assert (D : forall g o, opt_date_ok o -> (o = None -> copy g m m0 = m0) -> (forall d, o = Some d -> set_field g (format_datetime d) m0 = Ok (copy g m m0)) ->
    eats (date_calls (field_tag g) o) m0 (Ok (copy g m m0)) /\ fine (date_calls (field_tag g) o)).
  { intros g [d|] O H1 H2; cbn [date_calls]; [|rewrite H1 by reflexivity; split; [apply eats_nil|apply fine_nil]]. rewrite <- (H2 d) by reflexivity.
    split; [apply eats_text|]. apply fine_text, plain_text, datetime_plain. }
  assert (P : forall d, date_exact d -> (match format_datetime d with [] => Ok None | _ => let* d' := parse_datetime (format_datetime d) in Ok (Some d') end) = Ok (Some d)).
  { intros d (V & Y). rewrite C27_survives by assumption. cbn [bind]. destruct (format_datetime d) eqn:E; [now apply format_datetime_ne in E|reflexivity]. }
  unfold unset in U. destruct m0 as [ge ti de su ke ini cr pr cd da pd la cy du te re li st us].
  destruct f; cbn [field_calls]; cbn [copy meta0 m_generator m_title m_description m_subject m_keyword m_initial m_creator m_printed m_created m_date m_print m_language m_cycles m_duration] in U;
    try (apply T; [intros E; cbn [copy]; rewrite E; exact U|reflexivity]);
    try (apply D; [assumption|intros E; cbn [copy]; rewrite E; exact U|intros d E; cbn [set_field copy]; rewrite E in *; rewrite P by assumption; reflexivity]).
  - split; [|now apply fine_text]. exact (eats_text FGenerator (m_generator m) _).
  - destruct (N.ltb_spec 0 (m_cycles m)) as [L|L].
    + split; [|apply fine_text, plain_text, show_N_plain].
      assert (E : set_field FCycles (show_N (m_cycles m)) (Meta ge ti de su ke ini cr pr cd da pd la cy du te re li st us) = Ok (copy FCycles m (Meta ge ti de su ke ini cr pr cd da pd la cy du te re li st us))).
      { cbn [set_field copy]. destruct (show_N (m_cycles m)) eqn:Es; [|rewrite <- Es, (proj1 C28_roundtrip) by exact C; reflexivity].
        pose proof (proj1 C28_roundtrip (m_cycles m) C) as X. rewrite Es in X. discriminate. }
      rewrite <- E. apply eats_text.
    + split; [|apply fine_nil]. replace (copy _ m _) with (Meta ge ti de su ke ini cr pr cd da pd la cy du te re li st us); [apply eats_nil|]. rewrite <- U. cbn [copy]. f_equal. lia.
  - assert (Q : (Z.quot (m_duration m) 1000000000 = m_duration m / 1000000000)%Z) by (apply Z.quot_div_nonneg; [apply U2|lia]).
    destruct (Z.ltb_spec 0 (Z.quot (m_duration m) 1000000000)) as [L|L].
    + split; [|apply fine_text, plain_text, duration_plain].
      assert (E : set_field FDuration (format_duration2 (m_duration m)) (Meta ge ti de su ke ini cr pr cd da pd la cy du te re li st us) = Ok (copy FDuration m (Meta ge ti de su ke ini cr pr cd da pd la cy du te re li st us))).
      { cbn [set_field copy]. destruct U2 as (U2 & U3 & U4). pose proof (proj2 (C26_survives (m_duration m) U2 U3) U4) as X.
        destruct (format_duration2 (m_duration m)) eqn:Es; [now apply format_duration_ne in Es|]. rewrite X. reflexivity. }
      rewrite <- E. apply eats_text.
    + split; [|apply fine_nil]. replace (copy _ m _) with (Meta ge ti de su ke ini cr pr cd da pd la cy du te re li st us); [apply eats_nil|]. rewrite <- U. cbn [copy]. f_equal.
      destruct U1 as [U1|U1]; [now rewrite U1|]. exfalso. assert (1000000000 / 1000000000 <= m_duration m / 1000000000)%Z by (apply Z.div_le_mono; lia). rewrite Z.div_same in H by lia. lia.
Qed.

Lemma fields_read m : meta_ok m -> eats (flat_map (field_calls m) all_fields) meta0
    (Ok (Meta (m_generator m) (m_title m) (m_description m) (m_subject m) (m_keyword m) (m_initial m) (m_creator m) (m_printed m)
      (m_created m) (m_date m) (m_print m) (m_language m) (m_cycles m) (m_duration m) template0 reload0 links0 stats0 []))
  /\ fine (flat_map (field_calls m) all_fields).
Proof.
  intros H. assert (F : forall f, fine (field_calls m f)).
  { intros f. apply (eats_copy m meta0 f H). destruct f; reflexivity. }
  assert (L : forall l, fine (flat_map (field_calls m) l)) by (intros l; apply fine_all, Forall_forall; intros f _; apply F).
  split; [|apply L]. cbn [flat_map all_fields].
  repeat (eapply eats_app; [repeat (apply fine_app; [apply F|]); apply fine_nil|apply eats_copy; [exact H|reflexivity]|]). apply eats_nil.
Qed.

(** ** Elements without content *)

Lemma eats_empty n l m : Forall is_attr l -> eats (empty_calls n l) m (Ok m).
Proof.
  intros A lb rest R. destruct l as [|c l]; [reflexivity|]. cbn [empty_calls bind]. set (l' := c :: l) in *. cbn [app asked finish].
  rewrite asked_attr_calls by exact A. cbn [app]. rewrite asked_flush by exact R. cbn [finish app]. unfold coalesce at 1. rewrite coalesce_cons by exact I.
  cbn [emit_text app mrun mstep bind]. apply inside_skip.
Qed.
Lemma fine_empty n l : name_ok n -> Forall good_attr l -> Forall is_attr l -> fine (empty_calls n l).
Proof.
  intros N G A. destruct l as [|c l]; [apply fine_nil|]. cbn [empty_calls]. set (l' := c :: l) in *. split; [|split]; intros; cbn [app].
  - apply sn_empty; [exact N|]. now apply sensible_attr_calls.
  - cbn [calls_nested]. now apply nested_attr_calls.
  - exact I.
Qed.
Lemma attr_if_attr {A} n (f : A -> str) o : Forall is_attr (attr_if n f o).
Proof. destruct o; repeat constructor; discriminate. Qed.
Lemma attr_esc_attr n o : Forall is_attr (attr_esc_if n o).
Proof. destruct o; repeat constructor; discriminate. Qed.
Lemma attr_if_good {A} n (f : A -> str) o : name_ok n -> (forall x, no_specials (f x)) -> Forall good_attr (attr_if n f o).
Proof. intros N P. destruct o as [x|]; [constructor; [split; [exact N|apply plain_value, P]|constructor]|constructor]. Qed.
Lemma attr_esc_good n o : name_ok n -> Forall good_attr (attr_esc_if n o).
Proof. intros N. destruct o; [constructor; [exact N|constructor]|constructor]. Qed.
Lemma actuate_plain x : no_specials (show_xactuate x).
Proof. destruct x; plain_lit. Qed.
Lemma show_plain x : no_specials (show_xshow x).
Proof. destruct x; plain_lit. Qed.
Lemma type_plain x : no_specials (show_xtype x).
Proof. destruct x; plain_lit. Qed.
Ltac attrs := rewrite ?Forall_app; repeat apply conj; first [apply attr_if_attr|apply attr_esc_attr].
Ltac goods := rewrite ?Forall_app; repeat apply conj; first [apply attr_esc_good; name_lit|apply attr_if_good; [name_lit|
  first [exact datetime_plain|exact duration_plain|exact actuate_plain|exact show_plain|exact type_plain]]].
Lemma template_read t m : eats (template_calls t) m (Ok m) /\ fine (template_calls t).
Proof. split; [apply eats_empty; attrs|apply fine_empty; [name_lit|goods|attrs]]. Qed.
Lemma reload_read t m : eats (reload_calls t) m (Ok m) /\ fine (reload_calls t).
Proof. split; [apply eats_empty; attrs|apply fine_empty; [name_lit|goods|attrs]]. Qed.
Lemma links_read t m : eats (links_calls t) m (Ok m) /\ fine (links_calls t).
Proof. split; [apply eats_empty; attrs|apply fine_empty; [name_lit|goods|attrs]]. Qed.
Lemma stats_read t m : eats (stats_calls t) m (Ok m) /\ fine (stats_calls t).
Proof.
  assert (A : Forall is_attr (tl (stats_calls t))) by (repeat constructor; discriminate).
  assert (G : Forall good_attr (tl (stats_calls t))) by (cbn [tl stats_calls]; repeat (apply Forall_cons; [split; [name_lit|apply plain_value, show_N_plain]|]); apply Forall_nil).
  split; [exact (eats_empty t_stats (tl (stats_calls t)) m A)|]. apply (fine_empty t_stats (tl (stats_calls t))); [name_lit|exact G|exact A].
Qed.

(** ** User defined values *)

Definition seen (v : mvalue) (acc : str) : mvalue := match acc with [] => v | _ => MString acc end.
Lemma emit_user acc m n u r : mrun (emit_text acc ++ r) (MUser m n u None) = mrun r (MUser m n (fst u, seen (snd u) acc) None).
Proof. destruct acc; cbn [emit_text app mrun mstep bind]; [now destruct u|]. reflexivity. Qed.
Fixpoint piece_run (v : mvalue) (acc : str) (s : str) : mvalue :=
  match s with
  | [] => seen v acc
  | c :: r => match entity_of c with Some _ => piece_run (seen v acc) [] r | None => piece_run v (acc ++ [c]) r end
  end.
Lemma last_cons a l v : has_text a = true ->
  match last (a :: filter has_text l) [] with [] => v | q => MString q end = match last (filter has_text l) [] with [] => MString a | q => MString q end.
Proof.
  intros A. destruct (filter has_text l) as [|q l'] eqn:F; [now destruct a|]. change (last (a :: q :: l') []) with (last (q :: l') []).
  destruct (last (q :: l') []) eqn:La; [|reflexivity]. exfalso.
  assert (X : In (last (q :: l') []) (q :: l')). { clear. revert q. induction l' as [|r l' IH]; intros q; [now left|]. right. apply IH. }
  rewrite La, <- F in X. apply filter_In in X as (_ & X). discriminate.
Qed.
Lemma piece_run_pieces s : forall v acc, piece_run v acc s
  = match pieces s with
    | p :: l => match last (filter has_text ((acc ++ p) :: l)) [] with [] => v | q => MString q end
    | [] => v
    end.
Proof.
  induction s as [|c s IH]; intros v acc; cbn [piece_run pieces].
  - cbn [filter]. rewrite app_nil_r. destruct acc; reflexivity.
  - assert (N : exists p l, pieces s = p :: l).
    { clear. destruct s as [|c s]; cbn; [eauto|]. destruct (entity_of c); [eauto|]. destruct (pieces s); eauto. }
    destruct N as (p & l & E). rewrite E in *. destruct (entity_of c).
    + rewrite IH. rewrite app_nil_r. destruct acc as [|x acc]; [reflexivity|]. exact (eq_sym (last_cons (x :: acc) (p :: l) v eq_refl)).
    + rewrite IH. now rewrite <- app_assoc.
Qed.
Lemma user_esc t : forall acc m n u r,
  mrun (coalesce_from acc (esc_split t ++ EEnd n :: r)) (MUser m n u None) = mrun (coalesce r) (MInside (add_user (fst u, piece_run (snd u) acc t) m)).
Proof.
  induction t as [|c t IH]; intros; cbn [esc_split map app piece_run].
  - rewrite coalesce_cons by exact I. rewrite emit_user. cbn [mrun mstep]. now rewrite str_eqb_refl.
  - fold (esc_split t). destruct (entity_of c) as [e|].
    + rewrite coalesce_cons by exact I. rewrite emit_user. cbn [mrun mstep bind]. apply IH.
    + cbn [coalesce_from]. apply IH.
Qed.
Lemma user_typed t ty v m n u r : t <> [] -> user_value ty t = Ok v ->
  mrun (coalesce_from [] (EText t :: EEnd n :: r)) (MUser m n u ty) = mrun (coalesce r) (MInside (add_user (fst u, v) m)).
Proof.
  intros T V. change (coalesce_from [] (EText t :: EEnd n :: r)) with (coalesce_from t (EEnd n :: r)). rewrite coalesce_cons by exact I.
  destruct t as [|x t]; [contradiction|]. cbn [emit_text app mrun mstep]. rewrite V. cbn [bind mrun mstep]. now rewrite str_eqb_refl.
Qed.
Lemma user_read u m : mvalue_ok (snd u) -> eats (user_calls u) m (Ok (add_user (fst u, value_back (snd u)) m)).
Proof.
  destruct u as [n v]. cbn [fst snd]. intros O lb rest R. unfold user_calls. cbn [fst snd].
  assert (S : forall evs ty, fold_attrs user_attr ((lit "meta:name", n) :: ty) ([], None) = Ok (n, option_map snd (hd_error ty)) ->
    mrun (coalesce_from [] (EStart t_user ((lit "meta:name", n) :: ty) :: evs)) (MInside m)
    = mrun (coalesce_from [] evs) (MUser m t_user (n, snd user0) (option_map snd (hd_error ty)))).
  { intros evs ty F. rewrite coalesce_cons by exact I. cbn [emit_text app mrun mstep]. replace (find _ all_fields) with (@None field) by (vm_compute; reflexivity).
    replace (str_eqb t_user t_template) with false by reflexivity. replace (str_eqb t_user (lit "meta:auto-reload")) with false by reflexivity.
    replace (str_eqb t_user t_links) with false by reflexivity. replace (str_eqb t_user t_stats) with false by reflexivity. rewrite str_eqb_refl, F. reflexivity. }
  unfold coalesce at 1. destruct v as [b|d|t|ns|s]; cbn [user_type user_text app asked finish with_attr value_back];
    rewrite S by reflexivity; cbn [hd_error option_map snd].
  1-4: erewrite user_typed; [cbn [bind fst]; apply inside_skip| |].
  - destruct b; discriminate.
  - destruct b; reflexivity.
  - apply format_datetime_ne.
  - change (user_value (Some (lit "date")) (format_datetime d)) with (let* d := parse_datetime (format_datetime d) in Ok (MDate d)).
    destruct O as (O1 & O2). rewrite C27_survives by assumption. reflexivity.
  - intros ->. apply number_float in O. discriminate.
  - change (user_value (Some (lit "float")) t) with (let* f := parse_f64 t in Ok (MFloat f)). unfold parse_f64. rewrite number_float by exact O. reflexivity.
  - apply format_duration_ne.
  - change (user_value (Some (lit "time")) (format_duration2 ns)) with (let* d := parse_duration (format_duration2 ns) in Ok (MTime d)).
    destruct O as (O1 & O2 & O3). rewrite (proj2 (C26_survives ns O1 O2) O3). reflexivity.
  - rewrite user_esc. cbn [fst snd user0 bind]. rewrite piece_run_pieces. unfold last_piece.
    assert (N : exists p l, pieces s = p :: l).
    { clear. destruct s as [|c s]; cbn; [eauto|]. destruct (entity_of c); [eauto|]. destruct (pieces s); eauto. }
    destruct N as (p & l & E). rewrite E. cbn [app]. rewrite inside_skip. f_equal. f_equal. f_equal. f_equal.
    assert (X : forall q : str, match q with [] => MString [] | c :: r => MString (c :: r) end = MString q) by (intros []; reflexivity). exact (X _).
Qed.
Lemma user_fine u : raw_value_ok (fst u) -> mvalue_ok (snd u) -> fine (user_calls u).
Proof.
  destruct u as [n v]. cbn [fst snd]. intros Rn O. unfold user_calls. cbn [fst snd]. split; [|split]; intros.
  - cbn [app]. apply sn_elem; [name_lit|]. apply sn_attr; [name_lit|exact Rn|].
    assert (E : forall q, sensible q (CEnd t_user :: r)) by (intros q'; apply sn_end; [name_lit|apply H]).
    assert (T : forall q x, no_specials x -> sensible q (CText x :: CEnd t_user :: r)) by (intros q' x P; apply sn_text; [now apply plain_text|apply E]).
    destruct v as [b|d|t|ns|t]; cbn [user_type user_text app]; try (apply sn_attr; [name_lit|apply plain_value; plain_lit|]).
    + apply T. destruct b; plain_lit.
    + apply T, datetime_plain.
    + apply T. now apply number_plain.
    + apply T, duration_plain.
    + apply sn_text_esc, E.
  - destruct v; cbn [user_type user_text app calls_nested]; now split.
  - exact I.
Qed.
Lemma add_users us : forall m, Forall (fun u => raw_value_ok (fst u) /\ mvalue_ok (snd u)) us ->
  eats (flat_map user_calls us) m (Ok (fold_left (fun m u => add_user (fst u, value_back (snd u)) m) us m)) /\ fine (flat_map user_calls us).
Proof.
  induction us as [|u us IH]; intros m H; cbn [flat_map fold_left]; [split; [apply eats_nil|apply fine_nil]|]. inversion H; subst. destruct H2 as (H2 & H4).
  destruct (IH (add_user (fst u, value_back (snd u)) m) H3) as (E & F). split; [|apply fine_app; [now apply user_fine|exact F]].
  eapply eats_app; [exact F|apply user_read; exact H4|exact E].
Qed.
Lemma users_folded us : forall m, fold_left (fun m u => add_user (fst u, value_back (snd u)) m) us m
  = let '(Meta ge ti de su ke ini cr pr cd da pd la cy du te re li st l) := m in
    Meta ge ti de su ke ini cr pr cd da pd la cy du te re li st (l ++ map (fun u => (fst u, value_back (snd u))) us).
Proof.
  induction us as [|u us IH]; intros [ge ti de su ke ini cr pr cd da pd la cy du te re li st l]; cbn [fold_left map]; [now rewrite app_nil_r|].
  rewrite IH. cbn [add_user]. now rewrite <- app_assoc.
Qed.

(** The whole of the metadata. *)
Definition inner (m : meta) : list call :=
  flat_map (field_calls m) all_fields ++ template_calls (m_template m) ++ reload_calls (m_reload m) ++ links_calls (m_links m) ++ stats_calls (m_stats m)
  ++ flat_map user_calls (m_user m).
Lemma inner_read m : meta_ok m -> eats (inner m) meta0 (Ok (meta_back m)) /\ fine (inner m).
Proof.
  intros H. destruct (fields_read m H) as (E1 & F1). unfold inner.
  match type of E1 with eats _ _ (Ok ?x) => set (m1 := x) in * end.
  destruct (template_read (m_template m) m1) as (E2 & F2). destruct (reload_read (m_reload m) m1) as (E3 & F3).
  destruct (links_read (m_links m) m1) as (E4 & F4). destruct (stats_read (m_stats m) m1) as (E5 & F5).
  destruct (add_users (m_user m) m1) as (E6 & F6); [apply H|]. rewrite users_folded in E6.
  assert (G5 : fine (stats_calls (m_stats m) ++ flat_map user_calls (m_user m))) by now apply fine_app.
  assert (G4 : fine (links_calls (m_links m) ++ stats_calls (m_stats m) ++ flat_map user_calls (m_user m))) by now apply fine_app.
  assert (G3 : fine (reload_calls (m_reload m) ++ links_calls (m_links m) ++ stats_calls (m_stats m) ++ flat_map user_calls (m_user m))) by now apply fine_app.
  split; [|apply fine_app; [exact F1|apply fine_app; [exact F2|exact G3]]].
  eapply eats_app; [now apply fine_app|exact E1|]. eapply eats_app; [exact G3|exact E2|]. eapply eats_app; [exact G4|exact E3|].
  eapply eats_app; [exact G5|exact E4|]. eapply eats_app; [exact F6|exact E5|]. exact E6.
Qed.
Lemma ns_attr (ns : list (str * str)) : Forall is_attr (map (fun kv => CAttrEsc (fst kv) (snd kv)) ns).
Proof. apply Forall_map. apply Forall_forall. intros kv _. discriminate. Qed.
Lemma meta_read ns m : Forall (fun kv => name_ok (fst kv)) ns -> meta_ok m -> forall lb,
  read_events (render lb (write_ods_meta ns m)) = Ok (events_of lb (write_ods_meta ns m)) /\ read_meta (events_of lb (write_ods_meta ns m)) = Ok (meta_back m).
Proof.
  intros N H lb. destruct (inner_read m H) as (E & F1 & F2 & F3).
  assert (W : write_office_meta m = CElem t_meta :: inner m ++ [CEnd t_meta]) by (unfold write_office_meta, inner; now rewrite <- !app_assoc).
  unfold write_ods_meta. rewrite W. split.
  - apply read_events_render.
    + cbn [app]. apply sn_dtd; [chk|]. apply sn_elem; [name_lit|]. apply sensible_attrs; [exact N|]. apply sn_elem; [name_lit|]. rewrite <- app_assoc. apply F1.
      intros q. cbn [app]. apply sn_end; [name_lit|]. apply sn_end; [name_lit|]. constructor.
    + cbn [app calls_nested]. apply nested_attr_calls; [apply ns_attr|]. cbn [calls_nested]. rewrite <- app_assoc. apply F2. cbn. auto.
  - unfold read_meta, events_of. cbn [app asked finish]. rewrite asked_attr_calls by apply ns_attr. cbn [asked finish app]. rewrite <- app_assoc.
    rewrite asked_flush by (apply F3; exact I). cbn [finish app]. unfold coalesce.
    assert (O : forall m t evs, mrun (coalesce_from [] (EText t :: evs)) (MOutside m) = mrun (coalesce_from [] evs) (MOutside m)) by (intros m0 t evs; exact (outside_acc m0 evs t)).
    assert (O2 : forall evs, mrun (coalesce_from [] (EStart (lit "office:document-meta") (attrs_of (map (fun kv => CAttrEsc (fst kv) (snd kv)) ns)) :: evs)) (MOutside meta0) = mrun (coalesce_from [] evs) (MOutside meta0)).
    { intros. rewrite coalesce_cons by exact I. reflexivity. }
    rewrite coalesce_cons by exact I. cbn [emit_text app mrun mstep bind]. rewrite O, O2, ?O. rewrite coalesce_cons by exact I. cbn [emit_text app mrun mstep]. rewrite str_eqb_refl. cbn [bind].
    rewrite inside_acc, E by exact I.
    cbn [bind app asked finish]. unfold coalesce. rewrite coalesce_cons by exact I. cbn [emit_text app mrun mstep]. rewrite str_eqb_refl. cbn [bind]. rewrite O.
    rewrite coalesce_cons by exact I. cbn [emit_text app mrun mstep bind]. rewrite O. reflexivity.
Qed.

(** The readers of validations, scripts, metadata and settings do not panic. *)
From Verif Require Import Base Lib OMap NumModel NumSpec NumProofs NumProps RefsModel RefsSpec RefsProofs XmlModel XmlSpec XmlProofs EnumModel.
From Verif Require Import CellModel CellIoModel HeaderModel TableModel CloneModel BookModel BookProps ScriptModel ValidModel StyleModel MetaModel ConfigModel ConfigShape WorkModel.
From Verif Require Import TermSpec TermProofs PanicSpec PanicProofs.
Import NumModel.

Ltac by_key := repeat match goal with |- context [str_eqb ?k ?n] => destruct (str_eqb k n) end; try discriminate; (apply bind_np; [apply arms_np || apply u32_np|discriminate]).

(** ** Validations *)

Lemma message_np {T} (ty : option (str -> res T)) m0 tag a b evs : (forall p v, ty = Some p -> p v <> Panic) -> read_message ty m0 tag a b evs <> Panic.
Proof.
  intros H. unfold read_message. apply bind_np.
  - revert m0. induction a as [|[k v] a IH]; intros m; [discriminate|]. cbn [message_attrs]. apply bind_np; [|exact IH]. unfold message_attr. destruct m as [d t ti tx].
    destruct (str_eqb k _); [apply bind_np; [apply bool_np|discriminate]|]. destruct (str_eqb k _); [discriminate|]. destruct ty as [p|]; [|discriminate]. destruct (str_eqb k _); [|discriminate].
    apply bind_np; [now apply H|discriminate].
  - intros m. apply bind_np; [apply text_np|]. intros ([] & r); discriminate.
Qed.
Lemma valid_attrs_np a : forall v, Forall attr_calm a -> valid_attrs v a <> Panic.
Proof.
  induction a as [|[k x] a IH]; intros v H; [discriminate|]. inversion H as [|? ? (A & B & _) H']; subst. cbn [fst snd] in A, B. cbn [valid_attrs]. apply bind_np; [|intros v'; now apply IH].
  unfold valid_attr. destruct v as [nm [c b e l er h]].
  destruct (str_eqb k (lit "table:name")); [discriminate|]. destruct (str_eqb k (lit "table:condition")) eqn:Q; [apply str_eqb_eq in Q; apply bind_np; [apply split_np, A, Q|discriminate]|].
  destruct (str_eqb k (lit "table:allow-empty-cell")); [apply bind_np; [apply bool_np|discriminate]|].
  destruct (str_eqb k (lit "table:base-cell-address")) eqn:Q2; [apply str_eqb_eq in Q2; apply bind_np; [apply cellref_np, B; now left|discriminate]|].
  destruct (str_eqb k (lit "table:display-list")); [apply bind_np; [apply arms_np|discriminate]|]. discriminate.
Qed.
Lemma valids_np n k : forall evs v bk, fine evs -> room bk (k + cost evs) -> np (read_valids n evs v bk) (fun p => room (fst p) (k + cost (snd p))).
Proof.
  induction n as [|n IH]; intros evs v bk F R; (destruct evs as [|e r]; [exact R|]); [exact I|]. cbn [read_valids].
  assert (F' := fine_tail _ _ F). assert (R' : room bk (k + cost r)) by (rewrite cost_cons in R; eapply room_le; [exact R|lia]).
  assert (G : forall r' v', sfx r' r -> np (read_valids n r' v' bk) (fun p => room (fst p) (k + cost (snd p)))).
  { intros r' v' S. apply IH; [eapply fine_sfx; eauto|]. eapply room_le; [exact R'|]. apply cost_sfx in S. lia. }
  assert (G0 : forall v', np (read_valids n r v' bk) (fun p => room (fst p) (k + cost (snd p)))) by (intros v'; apply G, sfx_refl).
  assert (Er : forall t a b, np (let* (m, r') := read_message (Some parse_msgtype) error0 t a b r in read_valids n r' (with_err v m) bk) (fun p => room (fst p) (k + cost (snd p)))).
  { intros t a b. eapply np_bind'; [apply np_of, message_np; intros p w Q; injection Q as <-; apply arms_np|]. intros (m & r') E _. apply message_sfx in E. now apply G. }
  assert (He : forall t a b, np (let* (m, r') := read_message None help0 t a b r in read_valids n r' (with_help v m) bk) (fun p => room (fst p) (k + cost (snd p)))).
  { intros t a b. eapply np_bind'; [apply np_of, message_np; intros p w Q; discriminate|]. intros (m & r') E _. apply message_sfx in E. now apply G. }
  assert (Ad : forall w, 1 <= size_of e -> np (let* (bk', _) := add_style FValidation w bk in read_valids n r valid0 bk') (fun p => room (fst p) (k + cost (snd p)))).
  { intros w L. eapply np_bind'; [apply (add_style_np _ _ _ (k + cost r)); rewrite cost_cons in R; eapply room_le; [exact R|lia]|]. intros (bk' & nm) _ H. apply IH; [exact F'|exact H]. }
  destruct e as [t a|t a|t|t|t|t]; try (apply G0).
  - destruct (fine_tag _ _ _ _ _ F eq_refl) as (A & _).
    destruct (str_eqb t t_valid); [eapply np_bind'; [apply np_of, valid_attrs_np, A|]; intros w _ _; apply Ad; cbn [size_of]; lia|].
    destruct (str_eqb t t_err); [apply Er|]. destruct (str_eqb t t_help); [apply He|apply G0].
  - destruct (str_eqb t t_err); [apply Er|]. destruct (str_eqb t t_help); [apply He|apply G0].
  - destruct (str_eqb t t_valid); [apply Ad; cbn [size_of]; lia|]. destruct (str_eqb t t_valids); [exact R'|apply G0].
Qed.

(** ** Scripts *)

Lemma listener_np a : forall l, listener_attrs a l <> Panic.
Proof.
  induction a as [|[k v] a IH]; intros [e la m ac h ty]; [discriminate|]. cbn [listener_attrs]. apply bind_np; [|exact IH].
  unfold listener_attr. by_key.
Qed.
Lemma scripts_np b e r : fine (e :: r) -> scripts_step b e r <> Panic.
Proof.
  intros F. unfold scripts_step. destruct (on_tag e) as [((n & a) & em)|] eqn:T; [|discriminate]. destruct (str_eqb n t_script) eqn:Q.
  - apply str_eqb_eq in Q. apply bind_np; [|intros (x & r'); discriminate]. destruct em; [destruct (fine_tag _ _ _ _ _ F T) as (_ & N & _); destruct (N eq_refl Q)|]. eapply xml_np; eassumption.
  - destruct (str_eqb n t_listener); [|discriminate]. apply bind_np; [apply listener_np|discriminate].
Qed.

(** ** Root elements and settings *)

Lemma root_np file v w a : on_root file v w a <> Panic.
Proof.
  unfold on_root. apply bind_np; [|intros (x & m); discriminate]. unfold read_root. generalize (@None str, @nil (str * str)). induction a as [|kv a IH]; intros s; [discriminate|]. cbn [root_fold].
  apply bind_np; [|exact IH]. unfold root_attr. destruct (str_eqb (fst kv) _); [discriminate|]. destruct (starts_with _ _); [discriminate|]. destruct (str_eqb (fst kv) _); [destruct (str_eqb (snd kv) mimetype); discriminate|discriminate].
Qed.
Lemma config_np evs : forall s, state_shape s -> config_loop s evs <> Panic.
Proof.
  induction evs as [|e r IH]; intros s H; [discriminate|]. cbn [config_loop]. pose proof (step_shape e s H) as S. destruct (cstep e s) as [s'| |]; cbn [bind]; [|discriminate|contradiction].
  destruct s' as [c|c i st]; [discriminate|]. now apply IH.
Qed.
Lemma settings_np r : config_loop (CInside None None [CFrame None None cm_new 0]) r <> Panic.
Proof. apply config_np. exact (step_shape (EStart t_settings []) (COutside None) I). Qed.

(** ** Metadata *)

Lemma fold_np {A} (f : str * str -> A -> res A) (P : str * str -> Prop) a : Forall P a -> (forall kv s, P kv -> f kv s <> Panic) -> forall s, MetaModel.fold_attrs f a s <> Panic.
Proof. intros F H. induction F as [|kv a Pk _ IH]; intros s; [discriminate|]. cbn [MetaModel.fold_attrs]. apply bind_np; [now apply H|exact IH]. Qed.
Lemma template_np kv s : template_attr kv s <> Panic.
Proof.
  unfold template_attr. destruct s, kv as [k v]. destruct (str_eqb k _); [apply bind_np; [apply datetime_np|discriminate]|].
  by_key.
Qed.
Lemma reload_np kv s : attr_calm kv -> reload_attr kv s <> Panic.
Proof.
  intros (_ & _ & C). unfold reload_attr. destruct s, kv as [k v]. cbn [fst snd] in C. destruct (str_eqb k (lit "meta:delay")) eqn:Q; [apply str_eqb_eq in Q; apply bind_np; [apply duration_np, C; now right|discriminate]|].
  clear Q C. by_key.
Qed.
Lemma links_np kv s : links_attr kv s <> Panic.
Proof. unfold links_attr. destruct s, kv as [k v]. by_key. Qed.
Lemma stats_np kv s : stats_attr kv s <> Panic.
Proof. unfold stats_attr. destruct s, kv as [k v]. by_key. Qed.
Lemma user_attrs_ok a : forall s x, MetaModel.fold_attrs user_attr a s = Ok x -> forall v, snd x = Some v -> snd s = Some v \/ In (lit "meta:value-type", v) a.
Proof.
  induction a as [|[k w] a IH]; intros s x H v E; cbn [MetaModel.fold_attrs] in H; [injection H as <-; now left|]. apply bind_ok in H as (s' & U & H). destruct (IH _ _ H v E) as [S|S]; [|right; now right].
  unfold user_attr in U. destruct (str_eqb k _); [injection U as <-; now left|]. destruct (str_eqb k (lit "meta:value-type")) eqn:Q; injection U as <-; [|now left].
  apply str_eqb_eq in Q. cbn [snd] in S. injection S as ->. right. left. now rewrite Q.
Qed.
Lemma user_np kv s : user_attr kv s <> Panic.
Proof. unfold user_attr. destruct kv as [k v]. destruct (str_eqb k _); [discriminate|]. destruct (str_eqb k _); discriminate. Qed.
Lemma field_np f t m : (f = FDuration -> small_numbers t) -> set_field f t m <> Panic.
Proof.
  intros H. unfold set_field. destruct m.
  assert (D : match t with [] => Ok None | _ => let* d := parse_datetime t in Ok (Some d) end <> Panic) by (destruct t; [discriminate|]; apply bind_np; [apply datetime_np|discriminate]).
  destruct f; try discriminate; (apply bind_np; [try exact D|discriminate]).
  - destruct t; [discriminate|apply u32_np].
  - destruct t; [discriminate|apply duration_np, H; reflexivity].
Qed.
Lemma text_in_app p q : text_in (p ++ q) = text_in p ++ text_in q.
Proof. induction p as [|e p IH]; [reflexivity|]. cbn [app text_in]. destruct e; rewrite ?IH, ?app_assoc; reflexivity. Qed.
Lemma value_np ty x : (ty = Some (lit "time") -> small_numbers x) -> user_value ty x <> Panic.
Proof.
  intros H. unfold user_value. destruct ty as [t|]; [|discriminate]. destruct (str_eqb t _); [apply bind_np; [apply bool_np|discriminate]|]. destruct (str_eqb t _); [apply bind_np; [apply datetime_np|discriminate]|].
  destruct (str_eqb t _); [apply bind_np; [apply f64_np|discriminate]|]. destruct (str_eqb t (lit "time")) eqn:Q; [|discriminate]. apply str_eqb_eq in Q as ->. apply bind_np; [apply duration_np, H; reflexivity|discriminate].
Qed.
(** What has been read of the element being read; [pre] are the events before. *)
Definition within (s : mstate) (pre : list event) : Prop :=
  match s with
  | MText _ n f t => exists p a q, pre = p ++ EStart n a :: q /\ ~ In (EEnd n) q /\ t = text_in q /\ field_tag f = n
  | MUser _ n _ ty => exists p a q, pre = p ++ EStart n a :: q /\ ~ In (EEnd n) q /\ n = t_user /\ forall v, ty = Some v -> In (lit "meta:value-type", v) a
  | _ => True
  end.
Lemma not_end n q e : ~ In (EEnd n) q -> e <> EEnd n -> ~ In (EEnd n) (q ++ [e]).
Proof. intros H E I. apply in_app_or in I as [I|[I|[]]]; auto. Qed.
Lemma find_field n f : find (fun f => str_eqb (field_tag f) n) all_fields = Some f -> field_tag f = n.
Proof. intros H. apply find_some in H as (_ & H). now apply str_eqb_eq. Qed.
Lemma mstep_np all pre e r s : all = pre ++ e :: r -> meta_calm all -> event_calm e -> within s pre -> np (mstep e s) (fun s' => within s' (pre ++ [e])).
Proof.
  intros E (D & V) C W. destruct s as [m|m|m n f t|m n u ty]; cbn [mstep].
  - destruct e; try exact I. destruct (str_eqb n t_meta); exact I.
  - destruct e as [n a|n a|n|x|x|x]; try exact I; [|destruct (str_eqb n t_meta); exact I]. cbn [event_calm] in C. destruct C as (C & _).
    destruct (find _ all_fields) as [f|] eqn:Q; [apply find_field in Q; exists pre, a, []; cbn; auto|].
    assert (Z : forall A (x : res A) (g : A -> meta), x <> Panic -> np (let* y := x in Ok (MInside (g y))) (fun s' => within s' (pre ++ [EStart n a]))).
    { intros A x g H. eapply np_bind'; [apply np_of, H|]. intros; exact I. }
    destruct (str_eqb n t_template); [apply (Z _ _ (fun t => set_template t m)), (fold_np _ _ _ C); intros; apply template_np|].
    destruct (str_eqb n (lit "meta:auto-reload")); [apply (Z _ _ (fun t => set_reload t m)), (fold_np _ _ _ C); intros; now apply reload_np|].
    destruct (str_eqb n t_links); [apply (Z _ _ (fun t => set_links t m)), (fold_np _ _ _ C); intros; apply links_np|].
    destruct (str_eqb n t_stats); [apply (Z _ _ (fun t => set_stats t m)), (fold_np _ _ _ C); intros; apply stats_np|].
    destruct (str_eqb n t_user) eqn:U; [|exact I]. apply str_eqb_eq in U. eapply np_bind'; [apply np_of, (fold_np _ _ _ C); intros; apply user_np|]. intros t T _. cbn [np within].
    exists pre, a, []. split; [reflexivity|]. split; [cbn; tauto|]. split; [exact U|]. intros v Hv. destruct (user_attrs_ok _ _ _ T v Hv) as [H|H]; [discriminate|exact H].
  - destruct W as (p & a & q & -> & N & -> & T). assert (K : forall x t', e <> EEnd n -> text_in (q ++ [e]) = t' -> x = MText m n f t' -> within x ((p ++ EStart n a :: q) ++ [e])).
    { intros x t' Ne <- ->. exists p, a, (q ++ [e]). split; [now rewrite <- app_assoc|]. split; [now apply not_end|]. auto. }
    destruct e as [n' a'|n' a'|n'|x|x|x]; try (eapply K; [discriminate| |reflexivity]; rewrite text_in_app; cbn; now rewrite app_nil_r).
    + destruct (str_eqb n' n) eqn:Q; [|eapply K; [intros X; injection X as ->; now rewrite str_eqb_refl in Q| |reflexivity]; rewrite text_in_app; cbn; now rewrite app_nil_r].
      eapply np_bind'; [apply np_of, field_np|intros; exact I]. intros ->. cbn [field_tag] in T. subst n. apply (D p a q (EEnd n' :: r)); [now rewrite <- app_assoc in E|exact N].
    + eapply np_bind'; [apply np_of, entity_np|]. intros v Hv _. eapply K; [discriminate| |reflexivity]. rewrite text_in_app. cbn. now rewrite Hv, app_nil_r.
  - destruct W as (p & a & q & -> & N & T & Y). assert (K : forall x u', e <> EEnd n -> x = MUser m n u' ty -> within x ((p ++ EStart n a :: q) ++ [e])).
    { intros x u' Ne ->. exists p, a, (q ++ [e]). split; [now rewrite <- app_assoc|]. split; [now apply not_end|]. auto. }
    destruct e as [n' a'|n' a'|n'|x|x|x]; try (eapply K; [discriminate|reflexivity]).
    + destruct (str_eqb n' n) eqn:Q; [exact I|]. eapply K; [intros X; injection X as ->; now rewrite str_eqb_refl in Q|reflexivity].
    + eapply np_bind'; [apply np_of, value_np|intros v _ _; eapply K; [discriminate|reflexivity]]. intros ->. subst n. apply (V p a q x r); [now rewrite <- app_assoc in E|exact N|now apply Y].
Qed.
Lemma meta_loop_np all evs : forall pre s, all = pre ++ evs -> meta_calm all -> tags_calm evs -> within s pre -> meta_loop s evs <> Panic.
Proof.
  induction evs as [|e r IH]; intros pre s E M T W; [discriminate|]. inversion T; subst. cbn [meta_loop]. pose proof (mstep_np _ pre e r s eq_refl M H1 W) as S. destruct (mstep e s) as [s'| |]; cbn [bind np] in *; [|discriminate|contradiction].
  assert (G : meta_loop s' r <> Panic) by (apply (IH (pre ++ [e]) s'); [now rewrite <- app_assoc|exact M|exact H2|exact S]). destruct s'; try exact G. discriminate.
Qed.
Lemma meta_calm_sfx r evs : meta_calm evs -> sfx r evs -> meta_calm r.
Proof.
  intros (D & V) (u & ->). split.
  - intros p a q t ->. apply (D (u ++ p) a q t). now rewrite <- app_assoc.
  - intros p a q x t ->. apply (V (u ++ p) a q x t). now rewrite <- app_assoc.
Qed.
Lemma meta_np m evs : meta_calm evs -> tags_calm evs -> meta_loop (MInside m) evs <> Panic.
Proof. intros M T. now apply (meta_loop_np evs evs [] (MInside m)). Qed.

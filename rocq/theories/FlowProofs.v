(** What a sequence of calls writes as part of a document, and loops that read it. *)
From Verif Require Import Base Lib XmlModel XmlSpec XmlProofs CellIoModel CellIoProofs ScriptProofs StyleModel.

(** ** Writing *)

(** In front of anything that ends the tag before it, the calls are in order, open what they close, and ask for these events. *)
Definition flows (lb : bool) (cs : list call) (evs : list event) : Prop :=
  (forall rest, flushes rest -> flushes (cs ++ rest))
  /\ (forall rest, (forall q, sensible q rest) -> forall q, sensible q (cs ++ rest))
  /\ (forall st rest, calls_nested st rest -> calls_nested st (cs ++ rest))
  /\ (forall p rest, flushes rest -> asked esc_split lb p (cs ++ rest) = finish lb p ++ evs ++ asked esc_split lb None rest).

Lemma flows_nil lb : flows lb [] [].
Proof. split; [auto|]. split; [auto|]. split; [auto|]. intros p rest H. now apply asked_flush. Qed.
Lemma flows_app lb a ea b eb : flows lb a ea -> flows lb b eb -> flows lb (a ++ b) (ea ++ eb).
Proof.
  intros (A1 & A2 & A3 & A4) (B1 & B2 & B3 & B4). split; [intros rest H; rewrite <- app_assoc; auto|]. split; [intros rest H q; rewrite <- app_assoc; auto|].
  split; [intros st rest H; rewrite <- app_assoc; auto|]. intros p rest H. rewrite <- !app_assoc. rewrite A4 by auto. rewrite B4 by exact H. reflexivity.
Qed.
Lemma flows_flat_map {A} lb (f : A -> list call) (g : A -> list event) l : Forall (fun x => flows lb (f x) (g x)) l -> flows lb (flat_map f l) (flat_map g l).
Proof. induction 1 as [|x l H _ IH]; cbn [flat_map]; [apply flows_nil|now apply flows_app]. Qed.
Lemma good_is_attr l : Forall good_attr l -> Forall is_attr l.
Proof. apply Forall_impl. intros [] H; cbn in *; try contradiction; discriminate. Qed.
Lemma flows_empty lb n l : name_ok n -> Forall good_attr l -> flows lb (CEmpty n :: l) [EEmpty n (attrs_of l); EText (nl lb)].
Proof.
  intros N G. pose proof (good_is_attr l G) as A. split; [intros rest _; exact I|].
  split; [intros rest H q; cbn [app]; apply sn_empty; [exact N|]; apply sensible_attr_calls; auto|].
  split; [intros st rest H; cbn [app calls_nested]; now apply nested_attr_calls|].
  intros p rest H. cbn [app asked]. rewrite (asked_attr_calls _ _ _ A). rewrite asked_flush by exact H. reflexivity.
Qed.
Lemma flows_elem lb n l cs evs : name_ok n -> Forall good_attr l -> flows lb cs evs ->
  flows lb (CElem n :: l ++ cs ++ [CEnd n]) (EStart n (attrs_of l) :: evs ++ [EEnd n; EText (nl lb)]).
Proof.
  intros N G (C1 & C2 & C3 & C4). pose proof (good_is_attr l G) as A. split; [intros rest _; exact I|].
  split. { intros rest H q. cbn [app]. apply sn_elem; [exact N|]. rewrite <- !app_assoc. apply sensible_attr_calls; [exact G|]. apply C2. intros q'. cbn [app]. now apply sn_end. }
  split. { intros st rest H. cbn [app calls_nested]. rewrite <- !app_assoc. apply nested_attr_calls; [exact A|]. apply C3. cbn [app calls_nested]. auto. }
  intros p rest H. cbn [app asked]. rewrite <- !app_assoc. rewrite (asked_attr_calls _ _ _ A). rewrite C4 by exact I. cbn [app finish asked]. reflexivity.
Qed.
Lemma flows_elem_if lb b n l cs evs : name_ok n -> Forall good_attr l -> flows lb cs evs -> (b = false -> cs = []) ->
  flows lb (CElemIf b n :: l ++ cs ++ [CEndIf b n])
    (if b then EStart n (attrs_of l) :: evs ++ [EEnd n; EText (nl lb)] else [EEmpty n (attrs_of l); EText (nl lb)]).
Proof.
  intros N G F E. pose proof F as (C1 & C2 & C3 & C4). pose proof (good_is_attr l G) as A. split; [intros rest _; exact I|].
  split. { intros rest H q. cbn [app]. apply sn_elem_if; [exact N|]. rewrite <- !app_assoc. apply sensible_attr_calls; [exact G|]. apply C2. intros q'. cbn [app]. now apply sn_end_if. }
  split. { intros st rest H. cbn [app calls_nested]. rewrite <- !app_assoc. destruct b; (apply nested_attr_calls; [exact A|]; apply C3; cbn [app calls_nested]; auto). }
  intros p rest H. cbn [app asked]. rewrite <- !app_assoc. rewrite (asked_attr_calls _ _ _ A). destruct b; cbn [negb].
  - rewrite C4 by exact I. cbn [app finish asked]. rewrite <- ?app_assoc. reflexivity.
  - rewrite E by reflexivity. reflexivity.
Qed.
Lemma flows_text lb t : flows lb [CTextEsc t] (esc_split t).
Proof.
  split; [intros rest _; exact I|]. split; [intros rest H q; cbn [app]; apply sn_text_esc; apply H|]. split; [intros st rest H; exact H|].
  intros p rest _. reflexivity.
Qed.
Lemma flows_nodes lb l : Forall names_ok l -> flows lb (flat_map write_node l) (flat_map (node_events lb) l).
Proof.
  intros H. apply flows_flat_map. revert H. apply Forall_impl. intros x N. split.
  { intros rest _. destruct x; exact I. }
  split; [intros rest H q; now apply sensible_node|]. split; [intros st rest H; now apply nested_node|]. intros p rest _. apply asked_node.
Qed.
(** Attributes written one by one. *)
Lemma attrs_of_calls a : attrs_of (attr_calls a) = a.
Proof. unfold attr_calls. induction a as [|[k v] a IH]; [reflexivity|]. cbn [map attrs_of attr_of fst snd]. now rewrite IH. Qed.
Lemma attr_calls_good a : Forall (fun kv => name_ok (fst kv)) a -> Forall good_attr (attr_calls a).
Proof. induction 1 as [|[k v] a H _ IH]; constructor; auto. Qed.

(** A document with one element around everything. *)
Lemma flows_doc lb e n l cs evs : enc_ok e -> name_ok n -> Forall good_attr l -> flows lb cs evs ->
  exists head text, read_events (render lb (CDtd e :: CElem n :: l ++ cs ++ [CEnd n]))
  = Ok (coalesce (EOther head :: EText text :: EStart n (attrs_of l) :: evs ++ [EEnd n; EText (nl lb)])).
Proof.
  intros E N G F. pose proof F as (C1 & C2 & C3 & C4). pose proof (good_is_attr l G) as A.
  eexists _, _. rewrite read_events_render.
  2: { apply sn_dtd; [exact E|]. apply sn_elem; [exact N|]. apply sensible_attr_calls; [exact G|]. apply C2. intros q. apply sn_end; [exact N|constructor]. }
  2: { cbn [calls_nested]. apply nested_attr_calls; [exact A|]. apply C3. cbn. auto. }
  1: { unfold events_of. cbn [asked finish app]. rewrite (asked_attr_calls _ _ _ A). rewrite C4 by exact I. cbn [app finish asked]. reflexivity. }
Qed.

(** ** Reading *)

Lemma coalesce_from_length b acc : (length (coalesce b) <= length (coalesce_from acc b))%nat.
Proof.
  revert acc. assert (E : forall acc l, (length l <= length (emit_text acc ++ l))%nat) by (intros; rewrite app_length; lia).
  assert (G : forall b x acc, (length (coalesce_from x b) <= length (coalesce_from (acc ++ x) b))%nat).
  { induction b0 as [|e b0 IH]; intros x acc.
    - cbn. destruct x as [|c x], acc as [|d acc]; cbn; try lia.
    - destruct e; cbn [coalesce_from]; rewrite ?app_length; try (destruct x as [|c x], acc as [|d acc]; cbn; lia). rewrite <- app_assoc. apply IH. }
  intros acc. unfold coalesce. pose proof (G b [] acc). now rewrite app_nil_r in H.
Qed.
Lemma coalesce_suffix_length a : forall acc b, (length (coalesce b) <= length (coalesce_from acc (a ++ b)))%nat.
Proof.
  induction a as [|e a IH]; intros acc b; cbn [app]; [apply coalesce_from_length|].
  destruct e; cbn [coalesce_from]; rewrite ?app_length; cbn [length]; try (pose proof (IH [] b); lia). apply IH.
Qed.

Section Reading.
Context {S : Type}.
Variable stop : option str.
Variable step : S -> event -> list event -> res (S * list event).

Definition reads (s : S) (evs : list event) (R : res (bool * S * list event)) : Prop :=
  forall n, (length evs <= n)%nat -> reading n stop step s evs = R.
Definition mute : Prop := forall s t r, step s (EText t) r = Ok (s, r).
(** Reading these events turns [s] into [s'], whatever comes next. *)
Definition passes (s : S) (evs : list event) (s' : S) : Prop :=
  forall rest R, reads s' (coalesce rest) R -> reads s (coalesce (evs ++ rest)) R.
Definition is_stop (e : event) : bool := match e, stop with EEnd t, Some q => str_eqb t q | _, _ => false end.

Lemma reads_run s evs R : reads s evs R -> reading (length evs) stop step s evs = R.
Proof. intros H. apply H. lia. Qed.
Lemma reads_nil s : reads s (coalesce []) (Ok (false, s, [])).
Proof. intros n _. now destruct n. Qed.
Lemma reads_event s e evs s' evs' R : is_stop e = false -> not_text e -> step s e (coalesce evs) = Ok (s', coalesce evs') ->
  (length (coalesce evs') <= length (coalesce evs))%nat -> reads s' (coalesce evs') R -> reads s (coalesce (e :: evs)) R.
Proof.
  intros P T E L H n Ln. unfold coalesce in Ln |- *. rewrite coalesce_cons in * by exact T. cbn [emit_text app length] in *. fold (coalesce evs) in *.
  destruct n as [|n]; [inversion Ln|]. cbn [reading]. unfold is_stop in P. rewrite P. rewrite E. cbn [bind]. apply H. lia.
Qed.
Lemma reads_stop s t evs : stop = Some t -> reads s (coalesce (EEnd t :: evs)) (Ok (true, s, coalesce evs)).
Proof.
  intros E n L. unfold coalesce in L |- *. rewrite coalesce_cons in * by exact I. cbn [emit_text app length] in *. destruct n as [|n]; [inversion L|].
  cbn [reading]. rewrite E, str_eqb_refl. reflexivity.
Qed.
Lemma reads_text : mute -> forall evs acc s R, reads s (coalesce evs) R -> reads s (coalesce_from acc evs) R.
Proof.
  intros M.
  assert (D : forall c s r R, reads s r R -> reads s (EText c :: r) R).
  { intros c s r R H n L. destruct n as [|n]; [inversion L|]. cbn [length] in L. cbn [reading]. rewrite M. cbn [bind]. apply H. lia. }
  assert (U : forall c s r R, reads s (EText c :: r) R -> reads s r R).
  { intros c s r R H n L. specialize (H (Datatypes.S n)). cbn [length] in H. specialize (H ltac:(lia)). cbn [reading] in H. rewrite M in H. exact H. }
  induction evs as [|e evs IH]; intros acc s R H.
  - destruct acc; [exact H|]. apply D. exact H.
  - destruct e; unfold coalesce in H; try (rewrite coalesce_cons in * by exact I; destruct acc; [exact H|]; apply D; exact H).
    cbn [coalesce_from app] in *. apply IH. 
    assert (Z : forall evs acc s R, reads s (coalesce_from acc evs) R -> reads s (coalesce evs) R).
    { clear -D U. induction evs as [|e evs IH]; intros acc s R H.
      - destruct acc; [exact H|]. apply U in H. exact H.
      - unfold coalesce. destruct e; try (rewrite coalesce_cons in * by exact I; destruct acc; [exact H|]; apply U in H; exact H).
        cbn [coalesce_from app] in *.
        assert (Y : forall evs acc acc' s R, reads s (coalesce_from acc evs) R -> reads s (coalesce_from acc' evs) R).
        { clear -D U. induction evs as [|e evs IH]; intros acc acc' s R H.
          - destruct acc, acc'; cbn [coalesce_from emit_text] in *; auto. + now apply U in H. + apply U in H. now apply D.
          - destruct e; try (rewrite coalesce_cons in * by exact I; destruct acc, acc'; cbn [emit_text app] in *; auto; [now apply U in H|apply U in H; now apply D]).
            cbn [coalesce_from] in *. eapply IH. exact H. }
        eapply Y. exact H. }
    eapply Z. exact H.
Qed.

Lemma passes_nil s : passes s [] s.
Proof. intros rest R H. exact H. Qed.
Lemma passes_app s a s1 b s2 : passes s a s1 -> passes s1 b s2 -> passes s (a ++ b) s2.
Proof. intros A B rest R H. rewrite <- app_assoc. apply A, B, H. Qed.
Lemma passes_text s t : mute -> passes s [EText t] s.
Proof. intros M rest R H. cbn [app]. unfold coalesce. cbn [coalesce_from]. now apply reads_text. Qed.
Lemma passes_event s e s' : is_stop e = false -> not_text e -> (forall r, step s e r = Ok (s', r)) -> passes s [e] s'.
Proof. intros P T E rest R H. cbn [app]. eapply reads_event; [exact P|exact T|apply E|apply le_n|exact H]. Qed.
Lemma passes_empty lb s n a s' : mute -> (forall r, step s (EEmpty n a) r = Ok (s', r)) -> passes s [EEmpty n a; EText (nl lb)] s'.
Proof. intros M E. apply (passes_app _ [EEmpty n a] s'); [apply passes_event; [reflexivity|exact I|exact E]|now apply passes_text]. Qed.
(** An element that is read by a function of its own. *)
Lemma passes_sub lb s e inner tag s' : mute -> is_stop e = false -> not_text e ->
  (forall rest, step s e (coalesce (inner ++ EEnd tag :: EText (nl lb) :: rest)) = Ok (s', coalesce (EText (nl lb) :: rest))) ->
  passes s (e :: inner ++ [EEnd tag; EText (nl lb)]) s'.
Proof.
  intros M P T E rest R H. cbn [app]. rewrite <- app_assoc. cbn [app]. eapply reads_event; [exact P|exact T|apply E| |].
  - replace (inner ++ EEnd tag :: EText (nl lb) :: rest) with ((inner ++ [EEnd tag]) ++ EText (nl lb) :: rest) by (rewrite <- app_assoc; reflexivity).
    unfold coalesce at 2. apply coalesce_suffix_length.
  - unfold coalesce. cbn [coalesce_from]. now apply reads_text.
Qed.
Lemma passes_flat_map {A} (g : A -> list event) (f : S -> A -> S) l : (forall s x, In x l -> passes s (g x) (f s x)) -> forall s, passes s (flat_map g l) (fold_left f l s).
Proof.
  induction l as [|x l IH]; intros H s; cbn [flat_map fold_left]; [apply passes_nil|]. eapply passes_app; [apply H; now left|]. apply IH. intros s' y I. apply H. now right.
Qed.
(** The whole loop, up to its end tag. *)
Lemma passes_run s evs s' t rest : stop = Some t -> passes s evs s' ->
  reading (length (coalesce (evs ++ EEnd t :: rest))) stop step s (coalesce (evs ++ EEnd t :: rest)) = Ok (true, s', coalesce rest).
Proof. intros E P. apply (P (EEnd t :: rest)); [now apply reads_stop|lia]. Qed.
Lemma passes_end s evs s' : passes s evs s' -> reading (length (coalesce evs)) stop step s (coalesce evs) = Ok (false, s', []).
Proof. intros P. rewrite <- (app_nil_r evs). apply (P []); [apply reads_nil|lia]. Qed.
End Reading.

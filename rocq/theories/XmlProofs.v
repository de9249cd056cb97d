(** Proofs about the XML layer. *)
From Verif Require Import Base Lib XmlModel XmlSpec.

Ltac nf_app := repeat (progress (rewrite <- ?app_assoc; cbn [app])).
Ltac chars := unfold c_quot, c_amp, c_apos, c_slash, c_semi, c_lt, c_eq, c_gt, c_nl, c_bslash in *.

(** ** Escaping *)

Inductive char_view (c : char) : Prop :=
| cv_special n : entity_of c = Some n -> escape_char c = c_amp :: n ++ [c_semi] ->
    named_entity n = Some c -> resolve_char_ref n = Ok None ->
    Forall (fun x => ~ special x /\ x <> c_semi) n -> special c -> char_view c
| cv_plain : entity_of c = None -> escape_char c = [c] -> ~ special c -> char_view c.

Ltac ent := repeat (apply Forall_cons; [split; cbn; chars; lia|]); apply Forall_nil.

Lemma char_cases c : char_view c.
Proof.
  destruct (N.eq_dec c 34) as [->|H34]; [apply (cv_special _ (lit "quot")); try reflexivity; [ent|cbn; chars; auto 7]|].
  destruct (N.eq_dec c 39) as [->|H39]; [apply (cv_special _ (lit "apos")); try reflexivity; [ent|cbn; chars; auto 7]|].
  destruct (N.eq_dec c 38) as [->|H38]; [apply (cv_special _ (lit "amp")); try reflexivity; [ent|cbn; chars; auto 7]|].
  destruct (N.eq_dec c 60) as [->|H60]; [apply (cv_special _ (lit "lt")); try reflexivity; [ent|cbn; chars; auto 7]|].
  destruct (N.eq_dec c 62) as [->|H62]; [apply (cv_special _ (lit "gt")); try reflexivity; [ent|cbn; chars; auto 7]|].
  apply cv_plain.
  - unfold entity_of. destruct c as [|p]; [reflexivity|].
    do 6 (destruct p as [p|p|]; try reflexivity); exfalso; lia.
  - unfold escape_char; chars.
    rewrite (proj2 (N.eqb_neq c 34)), (proj2 (N.eqb_neq c 39)), (proj2 (N.eqb_neq c 38)),
      (proj2 (N.eqb_neq c 60)), (proj2 (N.eqb_neq c 62)) by auto. reflexivity.
  - unfold special; chars. cbn. lia.
Qed.

Lemma escape_clean s : clean (escape s).
Proof.
  induction s as [|c s IH]; cbn [escape flat_map]; [constructor|].
  fold (escape s). destruct (char_cases c) as [n E -> _ _ _ _|_ -> H].
  - nf_app. now apply clean_ent with c.
  - cbn. now constructor.
Qed.

Lemma unescape_from_name n acc s : Forall (fun x => ~ special x /\ x <> c_semi) n ->
  unescape_from (Some acc) (n ++ s) = unescape_from (Some (rev n ++ acc)) s.
Proof.
  intros H. revert acc. induction H as [|x n [Hx Hy] _ IH]; intros acc; [reflexivity|].
  cbn [app unescape_from]. destruct (N.eqb_spec x c_semi); [tauto|].
  destruct (N.eqb_spec x c_amp) as [->|_]; [exfalso; apply Hx; cbn; auto|].
  rewrite IH. cbn [rev]. nf_app. reflexivity.
Qed.

Lemma unescape_escape s : unescape (escape s) = Ok s.
Proof.
  unfold unescape. induction s as [|c s IH]; [reflexivity|].
  cbn [escape flat_map]. fold (escape s).
  destruct (char_cases c) as [n E -> H1 H2 H3 H4|_ -> H].
  - nf_app. cbn [unescape_from]. rewrite N.eqb_refl, unescape_from_name by auto.
    cbn [unescape_from]. rewrite N.eqb_refl. rewrite app_nil_r, rev_involutive, H2. cbn [bind].
    rewrite H1, IH. reflexivity.
  - cbn [app unescape_from]. destruct (N.eqb_spec c c_amp) as [->|_]; [exfalso; apply H; cbn; auto|].
    rewrite IH. reflexivity.
Qed.

Lemma clean_entities_only s : clean s ->
  forall pre c post, s = pre ++ c :: post -> special c ->
  exists n post', c = c_amp /\ In n [lit "quot"; lit "apos"; lit "amp"; lit "lt"; lit "gt"] /\ post = n ++ c_semi :: post'.
Proof.
  induction 1 as [|x s Hx _ IH|x n s E _ IH]; intros pre c post Heq Hc.
  - destruct pre; discriminate.
  - destruct pre as [|y pre]; inversion Heq; subst; [tauto|]. eapply IH; eauto.
  - destruct pre as [|y pre].
    + inversion Heq; subst. exists n, s. split; [auto|]. split; [|auto].
      destruct (char_cases x) as [n' E' _ _ _ _ Hs|E' _ _]; [|congruence].
      assert (n' = n) by congruence. subst n'. unfold special in Hs. cbn in Hs.
      chars. destruct Hs as [<-|[<-|[<-|[<-|[<-|[]]]]]]; cbn in E; inversion E; subst; cbn; auto 7.
    + cbn in Heq. injection Heq as _ Heq.
      destruct (char_cases x) as [n' E' _ _ _ Hn _|E' _ _]; [|congruence].
      assert (n' = n) by congruence. subst n'.
      assert (Hsplit : (exists n2, n = pre ++ c :: n2) \/ (exists p2, c_semi :: s = p2 ++ c :: post)).
      { clear - Heq. revert n Heq. induction pre as [|p pre IH]; intros [|z n] Heq; cbn in *.
        - right. exists []. auto.
        - left. injection Heq as -> _. eauto.
        - right. exists (p :: pre). auto.
        - injection Heq as -> Heq. apply IH in Heq as [[n2 ->]|H]; [left; eauto|right; auto]. }
      destruct Hsplit as [[n2 ->]|[p2 Hp]].
      * exfalso. apply Forall_app in Hn as [_ Hn]. inversion Hn; subst. tauto.
      * destruct p2 as [|q p2]; cbn in Hp; injection Hp as Ha Hb.
        -- subst c. exfalso. unfold special in Hc. cbn in Hc. chars. lia.
        -- eapply IH; eauto.
Qed.

(** ** Tags *)

Lemma lex_attrs_app r : forall m a s, lex_attrs m r = Ok a ->
  lex_attrs m (r ++ s) = let* b := lex_attrs ABefore s in Ok (a ++ b).
Proof.
  induction r as [|c r IH]; intros m a s H.
  - destruct m; try discriminate. inversion H; subst. cbn. destruct (lex_attrs ABefore s); reflexivity.
  - cbn [app]. destruct m; cbn [lex_attrs] in *.
    + destruct (is_ws c); [auto|]. destruct (c =? c_eq); [discriminate|auto].
    + destruct (c =? c_eq); [auto|]. destruct (is_ws c); auto.
    + destruct (is_ws c); [auto|]. destruct (c =? c_eq); [auto|discriminate].
    + destruct (is_ws c); [auto|]. destruct ((c =? c_quot) || (c =? c_apos)); [auto|discriminate].
    + destruct (c =? q); [|auto].
      destruct (unescape (rev acc)) as [v| |]; cbn [bind] in *; try discriminate.
      destruct (lex_attrs ABefore r) as [b| |] eqn:E; cbn [bind] in *; try discriminate.
      inversion H; subst. rewrite (IH ABefore b s E).
      destruct (lex_attrs ABefore s); reflexivity.
Qed.

Definition attr_chars (k v : str) : str := lit " " ++ k ++ [c_eq; c_quot] ++ v ++ [c_quot].

Lemma name_char_facts c : name_char c ->
  is_ws c = false /\ (c =? c_eq) = false /\ (c =? c_quot) = false /\ (c =? c_apos) = false /\
  (c =? c_gt) = false /\ (c =? c_lt) = false /\ (c =? c_amp) = false /\ (c =? c_slash) = false /\
  (c =? 63) = false /\ (c =? 33) = false /\ (c =? c_bslash) = false.
Proof. unfold name_char, is_ws. chars. cbn. intros H. lia. Qed.

Lemma lex_attrs_key k acc s : Forall name_char k ->
  lex_attrs (AKey acc) (k ++ s) = lex_attrs (AKey (rev k ++ acc)) s.
Proof.
  intros H. revert acc. induction H as [|c k Hc _ IH]; intros acc; [reflexivity|].
  cbn [app lex_attrs]. destruct (name_char_facts c Hc) as (-> & -> & _).
  rewrite IH. cbn [rev]. nf_app. reflexivity.
Qed.

Lemma lex_attrs_val k v acc s : Forall (fun c => c <> c_quot) v ->
  lex_attrs (AVal k c_quot acc) (v ++ s) = lex_attrs (AVal k c_quot (rev v ++ acc)) s.
Proof.
  intros H. revert acc. induction H as [|c v Hc _ IH]; intros acc; [reflexivity|].
  cbn [app lex_attrs]. destruct (N.eqb_spec c c_quot); [tauto|].
  rewrite IH. cbn [rev]. nf_app. reflexivity.
Qed.

Lemma lex_attrs_one k v v' : name_ok k -> Forall (fun c => c <> c_quot) v -> unescape v = Ok v' ->
  lex_attrs ABefore (attr_chars k v) = Ok [(k, v')].
Proof.
  intros [Hne Hk] Hv Hu. unfold attr_chars. destruct k as [|c k]; [congruence|].
  inversion Hk; subst. destruct (name_char_facts c H1) as (E1 & E2 & _).
  nf_app. change (lit " ") with [32]. cbn [app lex_attrs]. cbn [is_ws].
  change (is_ws 32) with true. cbn match. rewrite E1, E2.
  rewrite lex_attrs_key by auto. cbn [lex_attrs]. rewrite N.eqb_refl.
  change (is_ws c_quot) with false. change ((c_quot =? c_quot) || (c_quot =? c_apos)) with true. cbn match.
  rewrite lex_attrs_val by auto. cbn [lex_attrs]. rewrite N.eqb_refl.
  rewrite app_nil_r, rev_involutive, Hu. cbn [bind].
  rewrite rev_app_distr, rev_involutive. cbn. reflexivity.
Qed.

(** The text of a tag opened with name [n] and given attributes [a]. *)
Definition tagw (n : str) (a : list (str * str)) (w : str) : Prop :=
  exists r, w = n ++ r /\ name_ok n /\ (r = [] \/ exists r', r = 32 :: r') /\
    lex_attrs ABefore r = Ok a /\ (last w 0 =? c_slash) = false.

Lemma last_snoc {A} (l : list A) x d : last (l ++ [x]) d = x.
Proof. apply last_last. Qed.

Lemma last_name n : name_ok n -> (last n 0 =? c_slash) = false.
Proof.
  intros [Hne H]. induction n as [|c n IH] using rev_ind; [congruence|].
  rewrite last_snoc. apply Forall_app in H as [_ H]. inversion H; subst.
  now apply name_char_facts.
Qed.

Lemma tagw_name n : name_ok n -> tagw n [] n.
Proof. intros H. exists []. rewrite app_nil_r. repeat split; auto; try apply H. now apply last_name. Qed.

Lemma tagw_attr n a w k v v' : tagw n a w -> name_ok k -> Forall (fun c => c <> c_quot) v ->
  unescape v = Ok v' -> tagw n (a ++ [(k, v')]) (w ++ attr_chars k v).
Proof.
  intros (r & -> & Hn & Hr & Hl & _) Hk Hv Hu. exists (r ++ attr_chars k v).
  split; [now rewrite app_assoc|]. split; [auto|]. split; [|split].
  - right. destruct Hr as [->|[r' ->]]; eexists; reflexivity.
  - rewrite (lex_attrs_app r _ a) by auto. rewrite (lex_attrs_one k v v') by auto. reflexivity.
  - unfold attr_chars. rewrite !app_assoc, last_snoc. reflexivity.
Qed.

Lemma span_name n r : name_ok n -> (r = [] \/ exists r', r = 32 :: r') ->
  span (fun c => negb (is_ws c)) (n ++ r) = (n, r).
Proof.
  intros [_ H] Hr. induction H as [|c n Hc _ IH]; cbn [app].
  - destruct Hr as [->|[r' ->]]; reflexivity.
  - cbn [span]. destruct (name_char_facts c Hc) as (-> & _). cbn [negb]. now rewrite IH.
Qed.

Lemma parse_start_w n a w : tagw n a w -> parse_start w = Ok (n, a).
Proof.
  intros (r & -> & Hn & Hr & Hl & _). unfold parse_start. rewrite span_name by auto.
  rewrite Hl. reflexivity.
Qed.

Lemma tagw_head n a w : tagw n a w -> exists c w', w = c :: w' /\ name_char c.
Proof.
  intros (r & -> & [Hne H] & _). destruct n as [|c n]; [congruence|]. inversion H; subst. cbn. eauto.
Qed.

Lemma parse_tag_start n a w : tagw n a w -> parse_tag w = Ok (EStart n a).
Proof.
  intros H. pose proof (parse_start_w _ _ _ H) as Hp. destruct (tagw_head _ _ _ H) as (c & w' & E & Hc).
  destruct H as (r & _ & _ & _ & _ & Hl).
  unfold parse_tag. rewrite E in *. destruct (name_char_facts c Hc) as (_ & _ & _ & _ & _ & _ & _ & -> & -> & -> & _).
  cbn [orb]. rewrite Hl, Hp. reflexivity.
Qed.

Lemma parse_tag_empty n a w : tagw n a w -> parse_tag (w ++ [c_slash]) = Ok (EEmpty n a).
Proof.
  intros H. pose proof (parse_start_w _ _ _ H) as Hp. destruct (tagw_head _ _ _ H) as (c & w' & E & Hc).
  unfold parse_tag. rewrite E in *. cbn [app]. destruct (name_char_facts c Hc) as (_ & _ & _ & _ & _ & _ & _ & -> & -> & -> & _).
  cbn [orb]. change (c :: w' ++ [c_slash]) with ((c :: w') ++ [c_slash]).
  rewrite last_snoc, N.eqb_refl, removelast_last, Hp. reflexivity.
Qed.

Lemma parse_tag_end n : name_ok n -> parse_tag (c_slash :: n) = Ok (EEnd n).
Proof.
  intros H. cbn. f_equal. f_equal. rewrite <- (app_nil_r n) at 1. rewrite span_name by auto. reflexivity.
Qed.

(** ** The lexer *)

Lemma lex_name n acc s : Forall name_char n ->
  lex (MTag acc None) (n ++ s) = lex (MTag (rev n ++ acc) None) s.
Proof.
  intros H. revert acc. induction H as [|c n Hc _ IH]; intros acc; [reflexivity|].
  cbn [app lex]. destruct (name_char_facts c Hc) as (_ & _ & E1 & E2 & E3 & _). rewrite E3, E1, E2. cbn [orb].
  rewrite IH. cbn [rev]. nf_app. reflexivity.
Qed.

Lemma lex_quoted v acc s : Forall (fun c => c <> c_quot) v ->
  lex (MTag acc (Some c_quot)) (v ++ c_quot :: s) = lex (MTag (c_quot :: rev v ++ acc) None) s.
Proof.
  intros H. revert acc. induction H as [|c v Hc _ IH]; intros acc.
  - cbn [app lex]. rewrite N.eqb_refl. reflexivity.
  - cbn [app lex]. destruct (N.eqb_spec c c_quot); [tauto|]. rewrite IH. cbn [rev]. nf_app. reflexivity.
Qed.

Lemma lex_attr k v acc s : name_ok k -> Forall (fun c => c <> c_quot) v ->
  lex (MTag acc None) (attr_chars k v ++ s) = lex (MTag (rev (attr_chars k v) ++ acc) None) s.
Proof.
  intros [_ Hk] Hv. unfold attr_chars. change (lit " ") with [32]. nf_app. cbn [lex].
  change (32 =? c_gt) with false. change ((32 =? c_quot) || (32 =? c_apos)) with false. cbn match.
  rewrite lex_name by auto. cbn [lex].
  change (c_eq =? c_gt) with false. change ((c_eq =? c_quot) || (c_eq =? c_apos)) with false. cbn match.
  change (c_quot =? c_gt) with false. change ((c_quot =? c_quot) || (c_quot =? c_apos)) with true. cbn match.
  rewrite lex_quoted by auto. f_equal. f_equal.
  cbn [rev]. rewrite !rev_app_distr. cbn [rev app]. rewrite !rev_app_distr. cbn [rev app]. nf_app. reflexivity.
Qed.

Definition good (s : str) (evs : list event) : Prop :=
  forall acc, lex (MText acc) s = Ok (coalesce_from (rev acc) evs).

Lemma good_nil : good [] [].
Proof. intros acc. reflexivity. Qed.

Lemma good_skip s evs : good s evs -> good s (EText [] :: evs).
Proof. intros H acc. cbn [coalesce_from]. rewrite app_nil_r. apply H. Qed.

Lemma good_text t s evs : raw_text_ok t -> good s evs -> good (t ++ s) (EText t :: evs).
Proof.
  intros Ht Hs. induction Ht as [|c t Hc _ IH]; cbn [app]; [now apply good_skip|].
  intros acc. cbn [lex].
  destruct (N.eqb_spec c c_lt) as [->|_]; [exfalso; apply Hc; cbn; auto|].
  destruct (N.eqb_spec c c_amp) as [->|_]; [exfalso; apply Hc; cbn; auto|].
  rewrite IH. cbn [coalesce_from rev]. nf_app. reflexivity.
Qed.

Lemma lex_ref n acc s : Forall (fun x => ~ special x /\ x <> c_semi) n ->
  lex (MRef acc) (n ++ s) = lex (MRef (rev n ++ acc)) s.
Proof.
  intros H. revert acc. induction H as [|x n [Hx Hy] _ IH]; intros acc; [reflexivity|].
  cbn [app lex]. destruct (N.eqb_spec x c_semi); [tauto|].
  destruct (N.eqb_spec x c_lt) as [->|_]; [exfalso; apply Hx; cbn; auto|].
  destruct (N.eqb_spec x c_amp) as [->|_]; [exfalso; apply Hx; cbn; auto|].
  cbn [orb]. rewrite IH. cbn [rev]. nf_app. reflexivity.
Qed.

Lemma good_escape t s evs : good s evs -> good (escape t ++ s) (esc_split t ++ evs).
Proof.
  intros Hs. induction t as [|c t IH]; [exact Hs|].
  cbn [escape flat_map esc_split map app]. fold (escape t). fold (esc_split t).
  destruct (char_cases c) as [n -> -> H1 H2 H3 H4| -> -> H].
  - intros acc. nf_app. cbn [lex]. change (c_amp =? c_lt) with false. rewrite N.eqb_refl.
    rewrite lex_ref by auto. cbn [lex]. rewrite N.eqb_refl, IH, app_nil_r, rev_involutive. reflexivity.
  - rewrite <- app_assoc. apply good_text; [|exact IH].
    constructor; [|constructor]. intros Hi. apply H. cbn in Hi |- *. tauto.
Qed.

Definition not_text (e : event) : Prop := match e with EText _ => False | _ => True end.

Lemma coalesce_cons acc e evs : not_text e -> coalesce_from acc (e :: evs) = emit_text acc ++ e :: coalesce_from [] evs.
Proof. destruct e; cbn; tauto. Qed.

Lemma good_open n s evs : name_ok n ->
  lex (MTag (rev n) None) s = Ok (coalesce_from [] evs) ->
  (exists e r, evs = e :: r /\ not_text e) ->
  good (start_chars n ++ s) evs.
Proof.
  intros [_ Hn] H (e & r & -> & He) acc. unfold start_chars. cbn [app lex]. rewrite N.eqb_refl.
  rewrite lex_name by auto. rewrite app_nil_r, H. cbn [bind].
  rewrite !coalesce_cons by auto. reflexivity.
Qed.

Lemma lex_gt w e s evs : parse_tag w = Ok e -> not_text e -> good s evs ->
  lex (MTag (rev w) None) (c_gt :: s) = Ok (coalesce_from [] (e :: evs)).
Proof.
  intros Hp He Hs. cbn [lex]. rewrite N.eqb_refl, rev_involutive, Hp. cbn [bind].
  rewrite Hs. cbn [bind rev]. rewrite coalesce_cons by auto. reflexivity.
Qed.

Lemma raw_nl lb : raw_text_ok (nl lb).
Proof. destruct lb; cbn; repeat constructor. cbn. chars. lia. Qed.

Lemma lex_close_empty lb n a w s evs : tagw n a w -> good s evs ->
  lex (MTag (rev w) None) (close_elem lb OEmpty ++ s) = Ok (coalesce_from [] (EEmpty n a :: EText (nl lb) :: evs)).
Proof.
  intros Hw Hs. cbn [close_elem]. nf_app. cbn [lex].
  change (c_slash =? c_gt) with false. change ((c_slash =? c_quot) || (c_slash =? c_apos)) with false. cbn match.
  rewrite N.eqb_refl. cbn [rev]. rewrite rev_involutive. rewrite (parse_tag_empty n a w Hw). cbn [bind].
  rewrite (good_text _ _ _ (raw_nl lb) Hs). reflexivity.
Qed.

Lemma good_end lb n s evs : name_ok n -> good s evs -> good (end_chars lb n ++ s) (EEnd n :: EText (nl lb) :: evs).
Proof.
  intros Hn Hs acc. unfold end_chars. nf_app. cbn [lex]. rewrite N.eqb_refl.
  change (c_slash =? c_gt) with false. change ((c_slash =? c_quot) || (c_slash =? c_apos)) with false. cbn match.
  rewrite lex_name by apply Hn. change (rev n ++ [c_slash]) with (rev (c_slash :: n)).
  erewrite lex_gt; [|now apply parse_tag_end|exact I|exact (good_text _ _ _ (raw_nl lb) Hs)].
  cbn [bind]. rewrite !coalesce_cons by exact I. reflexivity.
Qed.

Lemma span_all n : Forall (fun c => is_ws c = false) n -> span (fun c => negb (is_ws c)) n = (n, []).
Proof. induction 1 as [|c n C _ IH]; [reflexivity|]. cbn [span]. now rewrite C, IH. Qed.
Lemma good_end_slash lb n s evs : name_ok n -> good s evs -> good (end_chars lb (c_slash :: n) ++ s) (EEnd (c_slash :: n) :: EText (nl lb) :: evs).
Proof.
  intros Hn Hs acc. unfold end_chars. nf_app. cbn [lex]. rewrite N.eqb_refl.
  change (c_slash =? c_gt) with false. change ((c_slash =? c_quot) || (c_slash =? c_apos)) with false. cbn match. cbn [app lex].
  change (c_slash =? c_gt) with false. change ((c_slash =? c_quot) || (c_slash =? c_apos)) with false. cbn match.
  rewrite lex_name by apply Hn. change (rev n ++ [c_slash; c_slash]) with (rev n ++ [c_slash] ++ [c_slash]). rewrite app_assoc. change (rev n ++ [c_slash]) with (rev (c_slash :: n)).
  change (rev (c_slash :: n) ++ [c_slash]) with (rev (c_slash :: c_slash :: n)).
  erewrite lex_gt; [|change (parse_tag (c_slash :: c_slash :: n)) with (Ok (EEnd (fst (span (fun c => negb (is_ws c)) (c_slash :: n))))); rewrite span_all; [reflexivity|]|exact I|exact (good_text _ _ _ (raw_nl lb) Hs)].
  - cbn [bind fst]. rewrite !coalesce_cons by exact I. reflexivity.
  - constructor; [reflexivity|]. eapply Forall_impl; [|apply Hn]. intros c C. now apply name_char_facts in C.
Qed.

Lemma good_elem n t te s evs : name_ok n ->
  (forall s evs, good s evs -> good (t ++ s) (te ++ evs)) -> good s evs ->
  good (start_chars n ++ [c_gt] ++ t ++ s) (EStart n [] :: te ++ evs).
Proof.
  intros Hn Ht Hs. apply good_open; [auto| |do 2 eexists; split; [reflexivity|exact I]].
  cbn [app]. apply lex_gt; [now apply parse_tag_start, tagw_name|exact I|]. now apply Ht.
Qed.

Lemma enc_lex w acc s : Forall (fun c => ~ In c [c_quot; c_apos; c_gt]) w ->
  lex (MTag acc (Some c_quot)) (w ++ c_quot :: s) = lex (MTag (c_quot :: rev w ++ acc) None) s.
Proof.
  intros H. apply lex_quoted. eapply Forall_impl; [|exact H]. cbv beta. intros c Hc ->. apply Hc. cbn. auto.
Qed.

Lemma escape_no_quot v : Forall (fun c => c <> c_quot) (escape v).
Proof.
  induction v as [|c v IH]; [constructor|]. cbn [escape flat_map]. fold (escape v). apply Forall_app. split; [|exact IH].
  destruct (char_cases c) as [n _ -> _ _ H _|_ -> H].
  - constructor; [discriminate|]. apply Forall_app. split; [|repeat constructor; discriminate].
    eapply Forall_impl; [|exact H]. cbv beta. intros x [Hx _] ->. apply Hx. cbn. auto.
  - constructor; [|constructor]. intros ->. apply H. cbn. auto.
Qed.

Lemma escape_name_ok n : name_ok n -> escape_name n = n.
Proof.
  intros [_ H]. induction H as [|c n Hc _ IH]; [reflexivity|]. unfold escape_name in *. cbn [flat_map]. rewrite IH.
  destruct (name_char_facts c Hc) as (_ & _ & E1 & E2 & E3 & E4 & E5 & _ & _ & _ & ->).
  unfold escape_char. rewrite E1, E2, E5, E4, E3. reflexivity.
Qed.

Lemma unescape_raw v : raw_value_ok v -> unescape v = Ok v.
Proof.
  unfold unescape. induction 1 as [|c v Hc _ IH]; [reflexivity|]. cbn [unescape_from].
  destruct (N.eqb_spec c c_amp) as [->|_]; [exfalso; apply Hc; cbn; auto|]. rewrite IH. reflexivity.
Qed.

Lemma raw_no_quot v : raw_value_ok v -> Forall (fun c => c <> c_quot) v.
Proof. intros H. eapply Forall_impl; [|exact H]. cbv beta. intros c Hc ->. apply Hc. cbn. auto. Qed.

Lemma lex_app_dtd e acc s evs lb : enc_ok e -> good s evs ->
  lex (MText acc) ((lit "<?xml version=""1.0"" encoding=""" ++ e ++ lit """ ?>" ++ [c_nl] ++ nl lb) ++ s)
  = Ok (coalesce_from (rev acc) (EOther (lit "?xml version=""1.0"" encoding=""" ++ e ++ lit """ ?")
         :: EText (c_nl :: nl lb) :: evs)).
Proof.
  intros He Hs. rewrite coalesce_cons by exact I.
  assert (Hn : raw_text_ok (c_nl :: nl lb)). { constructor; [cbn; chars; lia|apply raw_nl]. }
  pose proof (good_text _ _ _ Hn Hs []) as Hg.
  rewrite <- !app_assoc. cbn -[coalesce_from nl lex app] in *.
  repeat (progress (cbn [app])).
  repeat match goal with
  | |- context [lex (MTag ?a ?q) (?c :: ?r)] =>
     first [ progress (change (lex (MTag a q) (c :: r)) with (lex (MTag (c :: a) None) r))
           | progress (change (lex (MTag a q) (c :: r)) with (lex (MTag (c :: a) (Some c_quot)) r)) ]
  | |- context [lex (MText ?a) (60 :: ?r)] =>
     change (lex (MText a) (60 :: r)) with (let* x := lex (MTag [] None) r in Ok (emit_text (rev a) ++ x))
  end.
  match goal with |- context [lex (MTag ?a (Some c_quot)) (e ++ 34 :: ?r)] =>
    change (e ++ 34 :: r) with (e ++ c_quot :: r); rewrite (enc_lex e a r He) end.
  repeat match goal with
  | |- context [lex (MTag ?a None) (32 :: ?r)] => change (lex (MTag a None) (32 :: r)) with (lex (MTag (32 :: a) None) r)
  | |- context [lex (MTag ?a None) (63 :: ?r)] => change (lex (MTag a None) (63 :: r)) with (lex (MTag (63 :: a) None) r)
  end.
  match goal with |- context [lex (MTag ?a None) (62 :: ?r)] =>
    change (lex (MTag a None) (62 :: r)) with (let* ev := parse_tag (rev a) in let* x := lex (MText []) r in Ok (ev :: x)) end.
  match goal with |- context [parse_tag ?x] => let H := fresh in
    assert (H : x = lit "?xml version=""1.0"" encoding=""" ++ e ++ lit """ ?") end.
  { cbn [rev]. rewrite rev_app_distr, rev_involutive. cbn [rev app]. rewrite <- ?app_assoc. reflexivity. }
  rewrite H. cbn [lit app parse_tag]. change (N_of_ascii "?"%char) with 63.
  change (63 =? c_slash) with false. change ((63 =? 63) || (63 =? 33)) with true. cbn match. cbn [bind].
  cbn [app] in Hg. change (lex (MText []) (c_nl :: nl lb ++ s)) with (lex (MText []) ((c_nl :: nl lb) ++ s)).
  cbn [app]. rewrite Hg. reflexivity.
Qed.

Lemma asked_pending_head lb cs n a e : sensible true cs ->
  exists ev r, asked esc_split lb (Some (n, a, e)) cs = ev :: r /\ not_text ev.
Proof.
  intros H. remember true as p eqn:Ep. revert n a e Ep.
  induction H; intros n0 a0 e0 Ep; try discriminate; cbn [asked with_attr]; auto;
    try (destruct b); destruct e0; cbn [finish app]; do 2 eexists; (split; [reflexivity|exact I]).
Qed.

(** What is proved of a sequence of calls, for every state it may start in. *)
Definition rendered (lb p : bool) (cs : list call) : Prop :=
  (p = false -> good (render_from lb ONone cs) (asked esc_split lb None cs)) /\
  (p = true -> forall n a (e : bool) w, tagw n a w ->
     lex (MTag (rev w) None) (render_from lb (if e then OEmpty else OElem) cs)
     = Ok (coalesce_from [] (asked esc_split lb (Some (n, a, e)) cs))).

Lemma rendered_closing lb p cs out evs :
  (forall o, render_from lb o cs = close_elem lb o ++ out) ->
  (forall q, asked esc_split lb q cs = finish lb q ++ evs) ->
  good out evs -> rendered lb p cs.
Proof.
  intros Hr Ha Hg. split.
  - intros _. rewrite Hr, Ha. exact Hg.
  - intros _ n a e w Hw. rewrite Hr, Ha. destruct e; cbn [finish].
    + now apply lex_close_empty.
    + cbn [close_elem app]. apply lex_gt; [now apply parse_tag_start|exact I|exact Hg].
Qed.

Lemma rendered_open lb n (e : bool) cs : name_ok n -> sensible true cs -> rendered lb true cs ->
  good (start_chars n ++ render_from lb (if e then OEmpty else OElem) cs) (asked esc_split lb (Some (n, [], e)) cs).
Proof.
  intros Hn Hs [_ H]. apply good_open; [auto| |].
  - apply H; [reflexivity|now apply tagw_name].
  - apply asked_pending_head; auto.
Qed.

Lemma rendered_attr lb n v v' chars cs : name_ok n -> chars = attr_chars n v ->
  Forall (fun c => c <> c_quot) v -> unescape v = Ok v' ->
  rendered lb true cs ->
  forall m a (e : bool) w, tagw m a w ->
  lex (MTag (rev w) None) (chars ++ render_from lb (if e then OEmpty else OElem) cs)
  = Ok (coalesce_from [] (asked esc_split lb (Some (m, a ++ [(n, v')], e)) cs)).
Proof.
  intros Hn -> Hv Hu [_ H] m a e w Hw. rewrite lex_attr by auto. rewrite <- rev_app_distr.
  apply H; [reflexivity|]. eapply tagw_attr; eauto.
Qed.

Lemma render_good lb p cs : sensible p cs -> rendered lb p cs.
Proof.
  induction 1 as [|enc cs He _ IH|p n t cs Hn Ht _ IH|p n t cs Hn _ IH|p n cs Hn Hs IH|p b n cs Hn Hs IH|p n cs Hn Hs IH
    |n v cs Hn Hv _ IH|n v cs Hn _ IH|p t cs Ht _ IH|p t cs _ IH|p b n cs Hn _ IH|p n cs Hn _ IH|p n cs Hn _ IH].
  - split; [intros _; exact good_nil|discriminate].
  - split; [|discriminate]. intros _ acc. destruct IH as [IH _]. specialize (IH eq_refl).
    change (render_from lb ONone (CDtd enc :: cs)) with
      ((lit "<?xml version=""1.0"" encoding=""" ++ enc ++ lit """ ?>" ++ [c_nl] ++ nl lb) ++ render_from lb ONone cs).
    cbn [asked]. now apply lex_app_dtd.
  - destruct IH as [IH _]. specialize (IH eq_refl).
    eapply rendered_closing with (out := start_chars n ++ [c_gt] ++ t ++ end_chars lb n ++ render_from lb ONone cs).
    + intros o. cbn [render_from step]. nf_app. reflexivity.
    + intros q. cbn [asked]. reflexivity.
    + apply (good_elem n t [EText t] (end_chars lb n ++ render_from lb ONone cs)
         (EEnd n :: EText (nl lb) :: asked esc_split lb None cs) Hn).
      * intros s evs Hs. now apply good_text.
      * now apply good_end.
  - destruct IH as [IH _]. specialize (IH eq_refl).
    eapply rendered_closing with (out := start_chars n ++ [c_gt] ++ escape t ++ end_chars lb n ++ render_from lb ONone cs).
    + intros o. cbn [render_from step]. nf_app. reflexivity.
    + intros q. cbn [asked]. reflexivity.
    + apply (good_elem n (escape t) (esc_split t) (end_chars lb n ++ render_from lb ONone cs)
         (EEnd n :: EText (nl lb) :: asked esc_split lb None cs) Hn).
      * intros s evs Hs. now apply good_escape.
      * now apply good_end.
  - eapply rendered_closing with (out := start_chars n ++ render_from lb OElem cs).
    + intros o. cbn [render_from step]. nf_app. reflexivity.
    + intros q. cbn [asked]. reflexivity.
    + now apply (rendered_open lb n false).
  - eapply rendered_closing with (out := start_chars n ++ render_from lb (if negb b then OEmpty else OElem) cs).
    + intros o. cbn [render_from step]. destruct b; nf_app; reflexivity.
    + intros q. cbn [asked]. reflexivity.
    + now apply (rendered_open lb n (negb b)).
  - eapply rendered_closing with (out := start_chars n ++ render_from lb OEmpty cs).
    + intros o. cbn [render_from step]. nf_app. reflexivity.
    + intros q. cbn [asked]. reflexivity.
    + now apply (rendered_open lb n true).
  - split; [discriminate|]. intros _ m a e w Hw. cbn [render_from step asked with_attr].
    apply rendered_attr with (v := v); auto using raw_no_quot, unescape_raw.
  - split; [discriminate|]. intros _ m a e w Hw. cbn [render_from step asked with_attr].
    apply rendered_attr with (v := escape v); auto using escape_no_quot, unescape_escape.
    rewrite escape_name_ok by auto. reflexivity.
  - destruct IH as [IH _]. specialize (IH eq_refl).
    eapply rendered_closing with (out := t ++ render_from lb ONone cs).
    + intros o. cbn [render_from step]. nf_app. reflexivity.
    + intros q. cbn [asked]. reflexivity.
    + now apply good_text.
  - destruct IH as [IH _]. specialize (IH eq_refl).
    eapply rendered_closing with (out := escape t ++ render_from lb ONone cs).
    + intros o. cbn [render_from step]. nf_app. reflexivity.
    + intros q. cbn [asked]. reflexivity.
    + now apply good_escape.
  - destruct IH as [IH _]. specialize (IH eq_refl). destruct b.
    + eapply rendered_closing with (out := end_chars lb n ++ render_from lb ONone cs).
      * intros o. cbn [render_from step]. nf_app. reflexivity.
      * intros q. cbn [asked]. reflexivity.
      * now apply good_end.
    + eapply rendered_closing with (out := render_from lb ONone cs).
      * intros o. cbn [render_from step]. nf_app. reflexivity.
      * intros q. cbn [asked]. reflexivity.
      * auto.
  - destruct IH as [IH _]. specialize (IH eq_refl).
    eapply rendered_closing with (out := end_chars lb n ++ render_from lb ONone cs).
    + intros o. cbn [render_from step]. nf_app. reflexivity.
    + intros q. cbn [asked]. reflexivity.
    + now apply good_end.
  - destruct IH as [IH _]. specialize (IH eq_refl).
    eapply rendered_closing with (out := end_chars lb (c_slash :: n) ++ render_from lb ONone cs).
    + intros o. cbn [render_from step]. nf_app. reflexivity.
    + intros q. cbn [asked]. reflexivity.
    + now apply good_end_slash.
Qed.

Lemma lex_render lb cs : sensible false cs -> lex (MText []) (render lb cs) = Ok (events_of lb cs).
Proof. intros H. apply render_good with (lb := lb) in H as [H _]. apply (H eq_refl []). Qed.

(** ** Nesting *)

Lemma nested_skip st e r : match e with EStart _ _ | EEnd _ => False | _ => True end ->
  nested st (e :: r) = nested st r.
Proof. destruct e; cbn; tauto. Qed.

Lemma nested_coalesce evs : forall st acc, nested st (coalesce_from acc evs) = nested st evs.
Proof.
  assert (Hemit : forall st acc r, nested st (emit_text acc ++ r) = nested st r).
  { intros st [|c acc] r; reflexivity. }
  induction evs as [|e evs IH]; intros st acc.
  - cbn. destruct acc; reflexivity.
  - destruct e; cbn [coalesce_from]; try (rewrite Hemit); cbn [nested]; rewrite ?IH; auto.
    destruct st as [|m st]; [reflexivity|]. now rewrite IH.
Qed.

Lemma nested_esc t st r : nested st (esc_split t ++ r) = nested st r.
Proof.
  induction t as [|c t IH]; [reflexivity|]. cbn [esc_split map app]. fold (esc_split t).
  destruct (entity_of c); cbn [nested]; exact IH.
Qed.

Definition open_names (p : pending) (st : list str) : list str :=
  match p with Some (n, _, false) => n :: st | _ => st end.

Lemma nested_asked lb cs : forall p st, calls_nested (open_names p st) cs ->
  nested st (asked esc_split lb p cs) = true.
Proof.
  assert (Hfin : forall p st r, nested st (finish lb p ++ r) = nested (open_names p st) r).
  { intros [[[n a] []]|] st r; reflexivity. }
  induction cs as [|c cs IH]; intros p st H; [reflexivity|].
  assert (IH0 : forall st, calls_nested st cs -> nested st (asked esc_split lb None cs) = true).
  { intros st' H'. apply (IH None). exact H'. }
  destruct c; cbn [calls_nested asked] in *;
    rewrite ?Hfin; cbn [app nested]; rewrite ?nested_esc; cbn [nested]; rewrite ?str_eqb_refl; cbn [andb]; auto.
  all: try solve [apply IH; exact H].
  all: try solve [apply IH; destruct has_content; exact H].
  all: try solve [apply IH; destruct p as [[[m a] e]|]; exact H].
  - destruct has_content; rewrite Hfin; [|auto]. cbn [nested].
    destruct (open_names p st) as [|m s']; [tauto|]. destruct H as [-> H]. rewrite str_eqb_refl. cbn. auto.
  - destruct (open_names p st) as [|m s']; [tauto|]. destruct H as [-> H]. rewrite str_eqb_refl. cbn. auto.
Qed.

Lemma read_events_render lb cs : sensible false cs -> calls_nested [] cs ->
  read_events (render lb cs) = Ok (events_of lb cs).
Proof.
  intros H1 H2. unfold read_events. rewrite lex_render by auto. cbn [bind].
  unfold events_of at 1, coalesce. rewrite nested_coalesce, (nested_asked lb cs None []) by auto. reflexivity.
Qed.

(** ** References resolved *)

Lemma coalesce_from_emit acc r : coalesce_from [] (emit_text acc ++ r) = coalesce_from acc r.
Proof. destruct acc; reflexivity. Qed.

Lemma map_deref_emit t : map deref (emit_text t) = emit_text t.
Proof. destruct t; reflexivity. Qed.

Lemma coalesce_deref evs : forall acc acc',
  coalesce_from acc' (map deref (coalesce_from acc evs)) = coalesce_from (acc' ++ acc) (map deref evs).
Proof.
  induction evs as [|e evs IH]; intros acc acc'.
  - cbn [coalesce_from map]. rewrite map_deref_emit. destruct acc; cbn; now rewrite ?app_nil_r.
  - assert (He : forall x y e', coalesce_from x (emit_text y ++ e') = coalesce_from (x ++ y) e').
    { intros x [|c y] e'; cbn; now rewrite ?app_nil_r. }
    destruct e; cbn [coalesce_from map deref]; rewrite ?map_app, ?map_deref_emit, ?He;
      cbn [map deref coalesce_from]; rewrite ?IH; cbn [app]; auto.
    all: try (now rewrite app_assoc).
    all: try (rewrite IH, app_nil_r; reflexivity).
    destruct (named_entity t); rewrite ?IH, ?app_nil_r; reflexivity.
Qed.

Lemma coalesce_esc t : forall acc r,
  coalesce_from acc (map deref (esc_split t) ++ r) = coalesce_from (acc ++ t) r.
Proof.
  induction t as [|c t IH]; intros acc r; [now rewrite app_nil_r|].
  cbn [esc_split map app]. fold (esc_split t). 
  destruct (char_cases c) as [n -> _ H1 _ _ _| -> _ _]; cbn [deref]; rewrite ?H1; cbn [coalesce_from];
    rewrite IH; rewrite <- app_assoc; reflexivity.
Qed.

Lemma map_deref_finish lb p : map deref (finish lb p) = finish lb p.
Proof. destruct p as [[[n a] []]|]; reflexivity. Qed.

Lemma asked_deref lb cs : forall p acc,
  coalesce_from acc (map deref (asked esc_split lb p cs)) = coalesce_from acc (asked esc_whole lb p cs).
Proof.
  induction cs as [|c cs IH]; intros p acc; [reflexivity|].
  assert (Hfin : forall r r', (forall acc, coalesce_from acc r = coalesce_from acc r') ->
    forall acc, coalesce_from acc (finish lb p ++ r) = coalesce_from acc (finish lb p ++ r')).
  { intros r r' H acc0. destruct p as [[[n a] []]|]; cbn; rewrite ?H; auto. }
  destruct c; try match goal with |- context [CEndIf ?b _] => destruct b end; cbn [asked]; rewrite ?map_app, ?map_deref_finish; try apply Hfin; try (intros acc0);
    cbn [map deref coalesce_from app]; rewrite ?map_app, ?coalesce_esc; cbn [map deref coalesce_from app esc_whole];
    rewrite ?IH; auto.
Qed.

Lemma events_plain lb cs :
  coalesce (map deref (events_of lb cs)) = coalesce (asked esc_whole lb None cs).
Proof. unfold events_of, coalesce. rewrite coalesce_deref. cbn [app]. apply asked_deref. Qed.

(** ** Trees *)

Lemma xnode_ind' (P : xnode -> Prop) :
  (forall t, P (XText t)) -> (forall n a c, Forall P c -> P (XTag n a c)) -> forall x, P x.
Proof.
  intros Ht Hn. fix IH 1. intros [t|n a c]; [apply Ht|]. apply Hn.
  induction c as [|y c IHc]; constructor; [apply IH|exact IHc].
Qed.

Lemma names_ok_tag n a c : names_ok (XTag n a c) <->
  name_ok n /\ Forall (fun kv => name_ok (fst kv)) a /\ Forall names_ok c.
Proof.
  cbn [names_ok]. assert (H : ((fix all (l : list xnode) : Prop := match l with
    | [] => True | y :: l' => names_ok y /\ all l' end) c) <-> Forall names_ok c).
  { induction c as [|y c IH]; [split; auto|]. rewrite IH. split; [intros [? ?]; constructor; auto|].
    intros H. inversion H; auto. }
  rewrite H. tauto.
Qed.

Lemma lacks_tag s n a c : lacks s (XTag n a c) <-> (c = [] \/ n <> s) /\ Forall (lacks s) c.
Proof.
  cbn [lacks]. assert (H : ((fix all (l : list xnode) : Prop := match l with
    | [] => True | y :: l' => lacks s y /\ all l' end) c) <-> Forall (lacks s) c).
  { induction c as [|y c IH]; [split; auto|]. rewrite IH. split; [intros [? ?]; constructor; auto|].
    intros H. inversion H; auto. }
  rewrite H. tauto.
Qed.

(** Writing a tree is a sensible, nested sequence of calls. *)
Lemma sensible_attrs a cs : Forall (fun kv => name_ok (fst kv)) a -> sensible true cs ->
  sensible true (map (fun kv => CAttrEsc (fst kv) (snd kv)) a ++ cs).
Proof. induction 1; intros; cbn [map app]; [auto|]. apply sn_attr_esc; auto. Qed.

Lemma sensible_weaken cs : sensible false cs ->
  match cs with CDtd _ :: _ | [] => True | _ => sensible true cs end.
Proof. destruct 1; auto; first [apply sn_end_slash; assumption|constructor; assumption]. Qed.

Lemma sensible_node x : forall p cs, names_ok x -> (forall q, sensible q cs) -> sensible p (write_node x ++ cs).
Proof.
  assert (Hl : forall c, Forall (fun x => forall p cs, names_ok x -> (forall q, sensible q cs) -> sensible p (write_node x ++ cs)) c ->
    forall p cs, Forall names_ok c -> (forall q, sensible q cs) -> sensible p (flat_map write_node c ++ cs)).
  { induction 1 as [|y c Hy _ IH]; intros p cs Hok Hcs; [auto|].
    inversion Hok; subst. cbn [flat_map]. rewrite <- app_assoc. apply Hy; auto. }
  induction x as [t|n a c IH] using xnode_ind'; intros p cs Hok Hcs.
  - cbn. apply sn_text_esc. auto.
  - apply names_ok_tag in Hok as (Hn & Ha & Hc).
    cbn [write_node]. cbn [app]. apply sn_elem_if; auto. nf_app. apply sensible_attrs; auto.
    apply Hl; auto. intros q. apply sn_end_if; auto.
Qed.

Lemma sensible_node_false x p cs : names_ok x -> sensible false cs -> (exists n a c, x = XTag n a c) ->
  sensible p (write_node x ++ cs).
Proof.
  intros Hok Hcs (n & a & c & ->). apply names_ok_tag in Hok as (Hn & Ha & Hc).
  cbn [write_node]. cbn [app]. apply sn_elem_if; auto. nf_app. apply sensible_attrs; auto.
  assert (Hl : forall c, Forall names_ok c -> forall p, sensible p (flat_map write_node c ++ CEndIf (has_content c) n :: cs)).
  { clear c Hc. intros c Hc. generalize (has_content c). intros b. induction Hc as [|y c Hy _ IH]; intros q.
    - cbn. now apply sn_end_if.
    - cbn [flat_map]. rewrite <- app_assoc. apply sensible_node; auto. }
  now apply Hl.
Qed.

Lemma nested_node x : forall st cs, calls_nested st cs -> calls_nested st (write_node x ++ cs).
Proof.
  assert (Hl : forall c, Forall (fun x => forall st cs, calls_nested st cs -> calls_nested st (write_node x ++ cs)) c ->
    forall st cs, calls_nested st cs -> calls_nested st (flat_map write_node c ++ cs)).
  { induction 1 as [|y c Hy _ IH]; intros st cs H; [auto|]. cbn [flat_map]. rewrite <- app_assoc. auto. }
  assert (Ha : forall a st cs, calls_nested st cs ->
     calls_nested st (map (fun kv => CAttrEsc (fst kv) (snd kv)) a ++ cs)).
  { induction a; intros; cbn; auto. }
  induction x as [t|n a c IH] using xnode_ind'; intros st cs H; [exact H|].
  cbn [write_node app]. nf_app. destruct c as [|y c]; cbn [has_content calls_nested].
  - apply Ha. exact H.
  - apply Ha. apply Hl; [exact IH|]. cbn. auto.
Qed.

(** the events of a tree *)
Fixpoint node_events (lb : bool) (x : xnode) : list event :=
  match x with
  | XText t => esc_split t
  | XTag n a [] => [EEmpty n a; EText (nl lb)]
  | XTag n a c => EStart n a :: flat_map (node_events lb) c ++ [EEnd n; EText (nl lb)]
  end.

Lemma asked_attrs esc lb a : forall n a0 e cs,
  asked esc lb (Some (n, a0, e)) (map (fun kv => CAttrEsc (fst kv) (snd kv)) a ++ cs)
  = asked esc lb (Some (n, a0 ++ a, e)) cs.
Proof.
  induction a as [|[k v] a IH]; intros; cbn [map app]; [now rewrite app_nil_r|].
  cbn [asked with_attr fst snd]. rewrite IH. now rewrite <- app_assoc.
Qed.

Lemma asked_node lb x : forall p cs,
  asked esc_split lb p (write_node x ++ cs) = finish lb p ++ node_events lb x ++ asked esc_split lb None cs.
Proof.
  assert (Hl : forall c, Forall (fun x => forall p cs,
      asked esc_split lb p (write_node x ++ cs) = finish lb p ++ node_events lb x ++ asked esc_split lb None cs) c ->
    c <> [] -> forall p cs,
      asked esc_split lb p (flat_map write_node c ++ cs) = finish lb p ++ flat_map (node_events lb) c ++ asked esc_split lb None cs).
  { intros c Hc Hne. induction Hc as [|y c Hy Hc IH]; [congruence|]. intros p cs.
    cbn [flat_map]. rewrite <- app_assoc, Hy. destruct c as [|z c].
    - cbn [flat_map app]. now rewrite app_nil_r.
    - rewrite IH by discriminate. cbn [finish app]. now rewrite <- app_assoc. }
  induction x as [t|n a c IH] using xnode_ind'; intros p cs.
  - cbn [write_node app asked node_events]. reflexivity.
  - cbn [write_node app]. cbn [asked]. nf_app. rewrite asked_attrs. cbn [app].
    destruct c as [|y c].
    + cbn. reflexivity.
    + cbn [has_content negb]. rewrite Hl by (auto; discriminate). cbn [finish asked node_events app].
      rewrite <- !app_assoc. reflexivity.
Qed.

Lemma coalesce_node lb x cs :
  events_of lb (write_node x ++ cs) = coalesce (node_events lb x ++ asked esc_split lb None cs).
Proof. unfold events_of. now rewrite asked_node. Qed.

(** merging of text *)
Lemma mcons_text t u l : mcons (XText t) (mcons (XText u) l) = mcons (XText (t ++ u)) l.
Proof.
  destruct l as [|[w|n a c] l]; cbn.
  - destruct u; cbn; [rewrite app_nil_r; destruct t; reflexivity|]. destruct t; reflexivity.
  - now rewrite app_assoc.
  - destruct u; cbn; [rewrite app_nil_r; destruct t; reflexivity|]. destruct t; reflexivity.
Qed.

Lemma mcons_nil l : mcons (XText []) l = l.
Proof. destruct l as [|[w|n a c] l]; reflexivity. Qed.

Lemma fold_mcons_mcons x l m : fold_right mcons m (mcons x l) = mcons x (fold_right mcons m l).
Proof.
  destruct x as [t|]; [|reflexivity]. destruct t as [|c t]; [now rewrite !mcons_nil|].
  destruct l as [|[u|] l]; [reflexivity| |reflexivity].
  symmetry. exact (mcons_text (c :: t) u (fold_right mcons m l)).
Qed.

Lemma fold_merge l m : fold_right mcons m (merge_text l) = fold_right mcons m l.
Proof.
  induction l as [|x l IH]; [reflexivity|]. cbn [merge_text fold_right]. fold (merge_text l).
  rewrite fold_mcons_mcons, IH. reflexivity.
Qed.

Lemma merge_app a b : merge_text (a ++ b) = fold_right mcons (merge_text b) (merge_text a).
Proof. rewrite fold_merge. unfold merge_text. now rewrite fold_right_app. Qed.

(** equality of trees up to text merging *)
Definition nmerge (c : list xnode) : list xnode := merge_text (map norm c).

Definition frame_eq (f g : frame) : Prop :=
  let '(n, a, c) := f in let '(m, b, d) := g in n = m /\ a = b /\ nmerge c = nmerge d.

Definition out_eq (r s : res (xnode * list event)) : Prop :=
  match r, s with
  | Ok (x, e), Ok (y, e') => norm x = norm y /\ e = e'
  | Err, Err | Panic, Panic => True
  | _, _ => False
  end.

Lemma out_eq_refl r : out_eq r r.
Proof. destruct r as [[x e]| |]; cbn; auto. Qed.
Lemma out_eq_trans r s t : out_eq r s -> out_eq s t -> out_eq r t.
Proof.
  destruct r as [[? ?]| |], s as [[? ?]| |], t as [[? ?]| |]; cbn; try tauto.
  intros [? ?] [? ?]. split; congruence.
Qed.

Lemma nmerge_app a b : nmerge (a ++ b) = fold_right mcons (nmerge b) (nmerge a).
Proof. unfold nmerge. rewrite map_app. apply merge_app. Qed.

Lemma frame_eq_add x y f g : frame_eq f g -> norm x = norm y -> frame_eq (frame_add x f) (frame_add y g).
Proof.
  destruct f as [[n a] c], g as [[m b] d]; cbn. intros (-> & -> & H) Hx. repeat split.
  rewrite !nmerge_app, H. unfold nmerge at 1 3. cbn. now rewrite Hx.
Qed.

Lemma frame_eq_refl f : frame_eq f f.
Proof. destruct f as [[n a] c]; cbn; auto. Qed.
Lemma frame_eq_sym f g : frame_eq f g -> frame_eq g f.
Proof. destruct f as [[n a] c], g as [[m b] d]; cbn. intros (-> & -> & ->). auto. Qed.
Lemma frame_eq_trans f g h : frame_eq f g -> frame_eq g h -> frame_eq f h.
Proof. destruct f as [[n a] c], g as [[m b] d], h as [[k e] i]; cbn. intros (-> & -> & ->) (-> & -> & ->). auto. Qed.

Lemma frame_eq_close f g : frame_eq f g -> norm (close_frame f) = norm (close_frame g).
Proof. destruct f as [[n a] c], g as [[m b] d]; cbn. intros (-> & -> & H). unfold nmerge in H. now rewrite H. Qed.

Lemma stack_refl st : Forall2 frame_eq st st.
Proof. induction st; constructor; auto using frame_eq_refl. Qed.

Lemma loop_cong super evs : forall st st', Forall2 frame_eq st st' ->
  out_eq (read_xml_loop super st evs) (read_xml_loop super st' evs).
Proof.
  induction evs as [|e evs IH]; intros st st' H.
  - destruct H as [|f g st st' Hf H]; cbn; auto using frame_eq_close.
  - assert (Htop : forall x y, norm x = norm y ->
      out_eq (let* s := top_add x st in read_xml_loop super s evs) (let* s := top_add y st' in read_xml_loop super s evs)).
    { intros x y Hxy. destruct H as [|f g st st' Hf H]; cbn; auto. apply IH. constructor; auto using frame_eq_add. }
    destruct e; cbn [read_xml_loop]; auto.
    + apply IH. constructor; auto using frame_eq_refl.
    + destruct H as [|f g st st' Hf H]; [destruct (str_eqb n super); exact I|].
      destruct (str_eqb n super); [cbn; auto using frame_eq_close|].
      destruct H as [|f' g' st st' Hf' H]; cbn; auto. apply IH. constructor; auto using frame_eq_add, frame_eq_close.
    + destruct (entity t); cbn; auto.
Qed.

Lemma add_text_text t u f : frame_eq (frame_add (XText u) (frame_add (XText t) f)) (frame_add (XText (t ++ u)) f).
Proof.
  destruct f as [[n a] c]; cbn. repeat split. rewrite <- app_assoc. rewrite !(nmerge_app c). f_equal.
  unfold nmerge, merge_text. cbn [app map norm fold_right]. apply mcons_text.
Qed.
Lemma add_text_nil f : frame_eq (frame_add (XText []) f) f.
Proof.
  destruct f as [[n a] c]; cbn. repeat split. rewrite nmerge_app. cbn. unfold nmerge at 1. apply fold_merge.
Qed.

Lemma loop_esc super t : forall f st tail,
  out_eq (read_xml_loop super (f :: st) (esc_split t ++ tail)) (read_xml_loop super (frame_add (XText t) f :: st) tail).
Proof.
  induction t as [|c t IH]; intros f st tail.
  - cbn. apply loop_cong. constructor; [apply frame_eq_sym, add_text_nil|apply stack_refl].
  - cbn [esc_split map app]. fold (esc_split t).
    assert (Hstep : out_eq (read_xml_loop super (frame_add (XText [c]) f :: st) (esc_split t ++ tail))
        (read_xml_loop super (frame_add (XText (c :: t)) f :: st) tail)).
    { eapply out_eq_trans; [apply IH|]. apply loop_cong. constructor; [apply (add_text_text [c] t)|apply stack_refl]. }
    destruct (char_cases c) as [n -> _ H1 H2 _ _| -> _ _]; cbn [read_xml_loop].
    + unfold entity. rewrite H2. cbn [bind]. rewrite H1. cbn [bind top_add]. exact Hstep.
    + cbn [bind top_add]. exact Hstep.
Qed.

Lemma loop_node super x : lacks super x -> forall f st tail,
  out_eq (read_xml_loop super (f :: st) (node_events false x ++ tail)) (read_xml_loop super (frame_add x f :: st) tail).
Proof.
  assert (Hl : forall c, Forall (fun x => lacks super x -> forall f st tail,
      out_eq (read_xml_loop super (f :: st) (node_events false x ++ tail)) (read_xml_loop super (frame_add x f :: st) tail)) c ->
    Forall (lacks super) c -> forall n a c0 st tail,
      out_eq (read_xml_loop super ((n, a, c0) :: st) (flat_map (node_events false) c ++ tail))
             (read_xml_loop super ((n, a, c0 ++ c) :: st) tail)).
  { induction 1 as [|y c Hy _ IH]; intros Hok n a c0 st tail.
    - cbn. rewrite app_nil_r. apply out_eq_refl.
    - inversion Hok; subst. cbn [flat_map]. rewrite <- app_assoc.
      eapply out_eq_trans; [apply Hy; auto|]. cbn [frame_add].
      eapply out_eq_trans; [apply IH; auto|]. rewrite <- app_assoc. apply out_eq_refl. }
  assert (Hnl : forall f st tail,
     out_eq (read_xml_loop super (f :: st) (EText (nl false) :: tail)) (read_xml_loop super (f :: st) tail)).
  { intros f st tail. cbn [nl read_xml_loop top_add bind]. apply loop_cong.
    constructor; [apply add_text_nil|apply stack_refl]. }
  induction x as [t|n a c IH] using xnode_ind'; intros Hx f st tail.
  - apply loop_esc.
  - apply lacks_tag in Hx as [Hn Hc]. destruct c as [|y c].
    + cbn [node_events app]. cbn [read_xml_loop top_add bind]. apply Hnl.
    + destruct Hn as [Hn|Hn]; [discriminate|].
      cbn [node_events app]. cbn [read_xml_loop]. rewrite <- app_assoc.
      eapply out_eq_trans; [apply (Hl (y :: c) IH Hc)|]. cbn [app].
      cbn [read_xml_loop]. destruct (str_eqb n super) eqn:E; [apply str_eqb_eq in E; tauto|].
      cbn [top_add bind close_frame]. apply Hnl.
Qed.

(** reading the coalesced events instead *)
Definition out_coal (r s : res (xnode * list event)) : Prop :=
  match r, s with
  | Ok (x, e), Ok (y, e') => norm x = norm y /\ e' = coalesce e
  | Err, Err | Panic, Panic => True
  | _, _ => False
  end.

Lemma loop_coalesce super evs : forall acc f g st st', frame_eq f (frame_add (XText acc) g) -> Forall2 frame_eq st st' ->
  out_coal (read_xml_loop super (f :: st) evs) (read_xml_loop super (g :: st') (coalesce_from acc evs)).
Proof.
  induction evs as [|e evs IH]; intros acc f g st st' Hf Hst.
  - cbn [coalesce_from read_xml_loop]. destruct acc as [|c acc]; cbn [emit_text read_xml_loop top_add bind out_coal].
    + split; [|reflexivity]. apply frame_eq_close. eapply frame_eq_trans; [exact Hf|apply add_text_nil].
    + split; [|reflexivity]. now apply frame_eq_close.
  - assert (Hemit : forall e, not_text e ->
      exists g', frame_eq f g' /\ read_xml_loop super (g :: st') (emit_text acc ++ e :: coalesce_from [] evs)
         = read_xml_loop super (g' :: st') (e :: coalesce_from [] evs)).
    { intros e' _. destruct acc as [|c acc].
      - exists g. split; [eapply frame_eq_trans; [exact Hf|apply add_text_nil]|reflexivity].
      - exists (frame_add (XText (c :: acc)) g). split; [exact Hf|reflexivity]. }
    assert (Hnil : forall f g, frame_eq f g -> frame_eq f (frame_add (XText []) g)).
    { intros f0 g0 H. eapply frame_eq_trans; [exact H|]. apply frame_eq_sym, add_text_nil. }
    destruct e; cbn [coalesce_from];
      try (match goal with |- context [emit_text acc ++ ?e :: _] =>
             destruct (Hemit e I) as (g' & Hg & ->) end; clear Hemit; cbn [read_xml_loop]).
    + apply IH; [apply Hnil, frame_eq_refl|]. constructor; auto.
    + cbn [top_add bind]. apply IH; [|auto]. apply Hnil. now apply frame_eq_add.
    + destruct (str_eqb n super).
      * cbn. split; [now apply frame_eq_close|reflexivity].
      * destruct Hst as [|f2 g2 st st' H2 Hst]; cbn [top_add bind out_coal]; [exact I|].
        apply IH; [|auto]. apply Hnil. apply frame_eq_add; auto. now apply frame_eq_close.
    + cbn [read_xml_loop top_add bind]. apply IH; [|auto].
      eapply frame_eq_trans; [apply frame_eq_add; [exact Hf|reflexivity]|]. apply add_text_text.
    + destruct (entity t); cbn [bind out_coal]; auto. cbn [top_add bind]. apply IH; [|auto]. apply Hnil. now apply frame_eq_add.
    + apply IH; auto.
Qed.

Lemma out_combine r s x e : out_coal r s -> out_eq r (Ok (x, e)) -> exists t, s = Ok (t, coalesce e) /\ norm t = norm x.
Proof.
  destruct r as [[x1 e1]| |], s as [[x2 e2]| |]; cbn; try tauto.
  intros [H1 ->] [H2 ->]. exists x2. split; [reflexivity|congruence].
Qed.

Lemma coalesce_skip evs : coalesce (EText [] :: evs) = coalesce evs.
Proof. reflexivity. Qed.

Lemma read_tree n a c evs : root_name_unique n c ->
  exists t, read_tag (coalesce (node_events false (XTag n a c) ++ evs)) = Ok (t, coalesce evs) /\
            norm t = norm (XTag n a c).
Proof.
  intros Hu. destruct c as [|y c].
  - exists (XTag n a []). split; reflexivity.
  - cbn [node_events app]. unfold coalesce at 1. rewrite coalesce_cons by exact I. cbn [emit_text app read_tag].
    unfold read_xml. rewrite <- app_assoc. cbn [app].
    pose proof (loop_coalesce n (flat_map (node_events false) (y :: c) ++ EEnd n :: EText (nl false) :: evs)
      [] (n, a, []) (n, a, []) [] []) as H.
    assert (H0 : out_eq (read_xml_loop n [(n, a, [])] (flat_map (node_events false) (y :: c) ++ EEnd n :: EText (nl false) :: evs))
       (Ok (XTag n a (y :: c), EText (nl false) :: evs))).
    { assert (Hl : forall l c0, Forall (lacks n) l ->
        out_eq (read_xml_loop n [(n, a, c0)] (flat_map (node_events false) l ++ EEnd n :: EText (nl false) :: evs))
          (Ok (XTag n a (c0 ++ l), EText (nl false) :: evs))).
      { induction l as [|z l IHl]; intros c0 Hz.
        - cbn [flat_map app read_xml_loop]. rewrite str_eqb_refl, app_nil_r. split; reflexivity.
        - inversion Hz; subst. cbn [flat_map]. rewrite <- app_assoc.
          eapply out_eq_trans; [apply loop_node; auto|]. cbn [frame_add].
          eapply out_eq_trans; [apply IHl; auto|]. rewrite <- app_assoc. apply out_eq_refl. }
      apply (Hl (y :: c) []). exact Hu. }
    specialize (H (frame_eq_sym _ _ (add_text_nil _)) (Forall2_nil _)).
    destruct (out_combine _ _ _ _ H H0) as (t & Ht & Hx). exists t. split; [exact Ht|exact Hx].
Qed.

Lemma xmltag_roundtrip_in_doc n a c cs : root_name_unique n c ->
  exists t, read_tag (events_of false (write_node (XTag n a c) ++ cs)) = Ok (t, events_of false cs) /\
            norm t = norm (XTag n a c).
Proof. intros Hu. rewrite coalesce_node. now apply read_tree. Qed.

Lemma xmltag_roundtrip n a c : names_ok (XTag n a c) -> root_name_unique n c ->
  exists evs t, read_events (render false (write_node (XTag n a c))) = Ok evs /\
    read_tag evs = Ok (t, []) /\ norm t = norm (XTag n a c).
Proof.
  intros Hok Hu.
  destruct (xmltag_roundtrip_in_doc n a c [] Hu) as (t & Hr & Ht). rewrite app_nil_r in Hr.
  exists (events_of false (write_node (XTag n a c))), t. split; [|split; [exact Hr|exact Ht]].
  apply read_events_render.
  - rewrite <- (app_nil_r (write_node _)). apply sensible_node_false; [auto|constructor|eauto].
  - rewrite <- (app_nil_r (write_node _)). apply nested_node. reflexivity.
Qed.

(** ** Trees in which the name of the root occurs again *)

Fixpoint after_end (s : str) (evs : list event) : list event :=
  match evs with
  | [] => []
  | EEnd n :: r => if str_eqb n s then r else after_end s r
  | _ :: r => after_end s r
  end.

Lemma loop_rest super evs : forall st x rest,
  read_xml_loop super st evs = Ok (x, rest) -> rest = after_end super evs.
Proof.
  induction evs as [|e evs IH]; intros st x rest H; cbn [read_xml_loop after_end] in *.
  - destruct st; inversion H; auto.
  - assert (Htop : forall y, (let* s := top_add y st in read_xml_loop super s evs) = Ok (x, rest) -> rest = after_end super evs).
    { intros y Hy. apply bind_ok in Hy as (s & _ & Hy). eauto. }
    destruct e; eauto.
    + destruct (str_eqb n super).
      * destruct st; inversion H; auto.
      * destruct st as [|f st]; [discriminate|]. apply bind_ok in H as (s & _ & H). eauto.
    + apply bind_ok in H as (v & _ & H). eauto.
Qed.

Fixpoint ends (evs : list event) : nat :=
  match evs with [] => O | EEnd _ :: r => S (ends r) | _ :: r => ends r end.

Lemma ends_app a b : ends (a ++ b) = (ends a + ends b)%nat.
Proof. induction a as [|[] a IH]; cbn; lia. Qed.
Lemma ends_coalesce evs : forall acc, ends (coalesce_from acc evs) = ends evs.
Proof.
  induction evs as [|e evs IH]; intros acc; [destruct acc; reflexivity|].
  destruct e; cbn [coalesce_from]; rewrite ?ends_app; try (rewrite IH; reflexivity);
    (destruct acc; cbn; rewrite IH; reflexivity).
Qed.

Lemma after_end_coalesce s evs : forall acc, ends (after_end s (coalesce_from acc evs)) = ends (after_end s evs).
Proof.
  assert (He : forall acc r, after_end s (emit_text acc ++ r) = after_end s r) by (intros []; reflexivity).
  induction evs as [|e evs IH]; intros acc; [destruct acc; reflexivity|].
  destruct e; cbn [coalesce_from]; rewrite ?He; cbn [after_end]; auto.
  destruct (str_eqb n s); [apply ends_coalesce|auto].
Qed.

Fixpoint has_end (s : str) (evs : list event) : bool :=
  match evs with [] => false | EEnd n :: r => str_eqb n s || has_end s r | _ :: r => has_end s r end.

Lemma has_end_app s a b : has_end s (a ++ b) = has_end s a || has_end s b.
Proof. induction a as [|[] a IH]; cbn; auto. rewrite IH. now rewrite orb_assoc. Qed.

Lemma after_end_app s a b : has_end s a = true -> (ends (after_end s (a ++ b)) >= ends b)%nat.
Proof.
  induction a as [|e a IH]; cbn [has_end]; [discriminate|].
  destruct e; cbn [app after_end]; auto.
  destruct (str_eqb n s); cbn; [rewrite ends_app; lia|auto].
Qed.

Lemma esc_no_end s t : has_end s (esc_split t) = false.
Proof. induction t as [|c t IH]; [reflexivity|]. cbn. destruct (entity_of c); exact IH. Qed.

Lemma lacks_dec s lb x : has_end s (node_events lb x) = false -> lacks s x.
Proof.
  induction x as [t|n a c IH] using xnode_ind'; [cbn; auto|]. intros H. apply lacks_tag.
  destruct c as [|y c]; [split; [auto|constructor]|].
  assert (Hc : forall l, Forall (fun x => has_end s (node_events lb x) = false -> lacks s x) l ->
     has_end s (flat_map (node_events lb) l) = false -> Forall (lacks s) l).
  { induction 1 as [|z l Hz _ IHl]; intros Hh; constructor; cbn [flat_map] in Hh; rewrite has_end_app in Hh;
      apply orb_false_iff in Hh as [? ?]; auto. }
  cbn [node_events has_end] in H. rewrite has_end_app in H. apply orb_false_iff in H as [H1 H2].
  split; [|apply Hc; auto]. right. cbn in H2. apply orb_false_iff in H2 as [H2 _]. now apply str_eqb_neq.
Qed.

Lemma xmltag_survives_iff n a c : names_ok (XTag n a c) ->
  (exists evs t, read_events (render false (write_node (XTag n a c))) = Ok evs /\
    read_tag evs = Ok (t, []) /\ norm t = norm (XTag n a c)) <-> root_name_unique n c.
Proof.
  intros Hok. split; [|now apply xmltag_roundtrip].
  intros (evs & t & He & Ht & _).
  rewrite read_events_render in He.
  2:{ rewrite <- (app_nil_r (write_node _)). apply sensible_node_false; [auto|constructor|eauto]. }
  2:{ rewrite <- (app_nil_r (write_node _)). apply nested_node. reflexivity. }
  assert (evs = events_of false (write_node (XTag n a c))) by congruence. subst evs.
  rewrite <- (app_nil_r (write_node _)), coalesce_node in Ht. cbn [asked] in Ht. rewrite app_nil_r in Ht.
  destruct c as [|y c]; [constructor|].
  unfold root_name_unique.
  destruct (has_end n (flat_map (node_events false) (y :: c))) eqn:Hh.
  - exfalso. cbn [node_events] in Ht. unfold coalesce in Ht. rewrite coalesce_cons in Ht by exact I.
    cbn [emit_text app read_tag] in Ht. unfold read_xml in Ht. apply loop_rest in Ht.
    apply (f_equal ends) in Ht. rewrite after_end_coalesce in Ht.
    pose proof (after_end_app n _ [EEnd n; EText (nl false)] Hh) as Hge. cbn [ends] in *. lia.
  - clear - Hh. induction (y :: c) as [|z l IH]; constructor; cbn [flat_map] in Hh; rewrite has_end_app in Hh;
      apply orb_false_iff in Hh as [H1 H2]; eauto using lacks_dec.
Qed.

(** ** references *)
Lemma resolve_no_hash s : hd 0 s <> 35 -> resolve_char_ref s = Ok None.
Proof.
  intros H. destruct s as [|c s]; [reflexivity|]. cbn [hd] in H. unfold resolve_char_ref.
  replace (c =? 35) with false by (symmetry; now apply N.eqb_neq). reflexivity.
Qed.
Lemma num_base_digits d acc : Forall (fun c => 48 <= c <= 57) d ->
  num_base 10 acc d = Some (fold_left (fun v c => v * 10 + (c - 48)) d acc).
Proof.
  intros H. revert acc. induction H as [|c d Hc Hd IH]; intros acc; [reflexivity|]. cbn [num_base fold_left].
  unfold hex_val, is_digit. replace (_ && _)%bool with true by lia. replace (c - 48 <? 10) with true by lia. apply IH.
Qed.
Lemma entity_named c n : entity_of c = Some n -> entity n = Ok [c].
Proof.
  unfold entity_of. intros H. destruct c as [|p]; [discriminate|].
  do 6 (try destruct p as [p|p|]; try discriminate); inversion H; subst; vm_compute; reflexivity.
Qed.
Lemma entity_unknown s : hd 0 s <> 35 -> (forall c, entity_of c <> Some s) -> entity s = Ok (38 :: s ++ [59]).
Proof.
  intros H C. unfold entity. rewrite resolve_no_hash by auto. cbn [bind]. unfold named_entity.
  destruct (str_eqb s (lit "lt")) eqn:E1; [apply str_eqb_eq in E1; subst; now destruct (C 60)|].
  destruct (str_eqb s (lit "gt")) eqn:E2; [apply str_eqb_eq in E2; subst; now destruct (C 62)|].
  destruct (str_eqb s (lit "amp")) eqn:E3; [apply str_eqb_eq in E3; subst; now destruct (C 38)|].
  destruct (str_eqb s (lit "apos")) eqn:E4; [apply str_eqb_eq in E4; subst; now destruct (C 39)|].
  destruct (str_eqb s (lit "quot")) eqn:E5; [apply str_eqb_eq in E5; subst; now destruct (C 34)|].
  reflexivity.
Qed.
Lemma entity_decimal d : d <> [] -> Forall (fun c => 48 <= c <= 57) d ->
  let n := fold_left (fun v c => v * 10 + (c - 48)) d 0 in
  0 < n -> n < 55296 -> entity (35 :: d) = Ok [n].
Proof.
  intros Hne H n H0 H1. unfold entity.
  assert (E : resolve_char_ref (35 :: d) = match num_base 10 0 d with Some n => if char_ok n then Ok (Some n) else Err | None => Err end).
  { destruct d as [|c d]; [congruence|]. inversion H; subst. unfold resolve_char_ref. cbn [N.eqb Pos.eqb].
    replace (c =? 120) with false by lia. reflexivity. }
  rewrite E, num_base_digits by auto. fold n. unfold char_ok. replace (_ && _)%bool with true by lia. reflexivity.
Qed.

(** Proofs about writing and reading rich text. *)
From Verif Require Import Base Lib XmlModel XmlSpec XmlProofs TreeProofs CellModel NumModel NumSpec DrawModel CellIoModel CellIoSpec CellIoProofs DrawProofs.

Definition into (p : option (str + xnode)) : tcontent :=
  match p with None => TcEmpty | Some (inl t) => TcText t | Some (inr y) => TcXml y end.
Definition para_reads (lb : bool) (x : xnode) (p : option (str + xnode)) : Prop :=
  forall tag s evs, cell_loop tag s KCell (coalesce (node_events lb x ++ evs))
    = cell_loop tag (set_content (append_text (into p) (a_content s)) s) KCell (coalesce evs).

Lemma reads_none lb a : para_reads lb (XTag t_p a []) (Some (inl [])).
Proof.
  intros tag s evs. cbn [node_events app]. unfold coalesce at 1. rewrite coalesce_cons by exact I. cbn [emit_text app cell_loop cell_step].
  change (str_eqb t_p t_p) with true. cbn [bind]. apply kcell_skip.
Qed.
Lemma plain_texty lb c t : plain_of c = Some t -> exists vs, Forall2 texty (flat_map (node_events lb) c) vs /\ concat vs = t.
Proof.
  revert t. induction c as [|[u|n a d] c IH]; intros t H; cbn [plain_of] in H; try discriminate.
  - injection H as <-. exists []. split; [constructor|reflexivity].
  - destruct (plain_of c) as [w|]; [|discriminate]. injection H as <-. destruct (IH w eq_refl) as (vs & F & C). exists (map (fun c => [c]) u ++ vs). split.
    + cbn [flat_map node_events]. apply Forall2_app; [apply esc_texty|exact F].
    + now rewrite concat_app, concat_single, C.
Qed.
Lemma start_para tag s a evs : cell_loop tag s KCell (coalesce (EStart t_p a :: evs)) = cell_loop tag s (KPara a PEmpty []) (coalesce evs).
Proof. unfold coalesce. rewrite coalesce_cons by exact I. cbn [emit_text app cell_loop cell_step]. change (str_eqb t_p t_p) with true. reflexivity. Qed.
Lemma reads_plain lb a c t : c <> [] -> plain_of c = Some t -> para_reads lb (XTag t_p a c) (match t with [] => None | _ => Some (inl t) end).
Proof.
  intros N H tag s evs. destruct c as [|y c]; [congruence|].
  change (node_events lb (XTag t_p a (y :: c))) with (EStart t_p a :: flat_map (node_events lb) (y :: c) ++ [EEnd t_p; EText (nl lb)]).
  cbn [app]. rewrite start_para, <- app_assoc. destruct (plain_texty lb _ _ H) as (vs & F & C). change PEmpty with (pt []). cbn [app]. unfold coalesce at 1.
  rewrite (para_feed tag s a _ vs _ F [] []), C. cbn [app]. rewrite kcell_skip. destruct t; reflexivity.
Qed.

(** ** Paragraphs with elements *)

Definition rise (e : event) : Z := match e with EStart _ _ => 1 | EEnd _ => -1 | _ => 0 end.
Definition balance (evs : list event) : Z := fold_right (fun e n => rise e + n)%Z 0%Z evs.
Lemma balance_app a b : balance (a ++ b) = (balance a + balance b)%Z.
Proof. induction a as [|e a IH]; [reflexivity|]. cbn [app balance fold_right] in *. fold (balance (a ++ b)). fold (balance a). lia. Qed.
Lemma balance_emit t : balance (emit_text t) = 0%Z. Proof. now destruct t. Qed.
Lemma balance_coalesce evs : forall acc, balance (coalesce_from acc evs) = balance evs.
Proof.
  induction evs as [|e evs IH]; intros acc; [apply balance_emit|]. destruct e; cbn [coalesce_from]; rewrite ?balance_app, ?balance_emit; cbn [balance fold_right rise]; fold (balance evs);
  try fold (balance (coalesce_from [] evs)); rewrite ?IH; reflexivity.
Qed.
Lemma balance_esc t : balance (esc_split t) = 0%Z.
Proof. unfold esc_split. induction t as [|c t IH]; [reflexivity|]. cbn [map balance fold_right]. fold (balance (map (fun c => match entity_of c with Some n => ERef n | None => EText [c] end) t)). destruct (entity_of c); cbn [rise]; lia. Qed.
Lemma balance_node lb x : balance (node_events lb x) = 0%Z.
Proof.
  induction x as [t|n a c IH] using xnode_ind'; [apply balance_esc|]. destruct c as [|y c]; [reflexivity|].
  change (node_events lb (XTag n a (y :: c))) with (EStart n a :: flat_map (node_events lb) (y :: c) ++ [EEnd n; EText (nl lb)]).
  assert (F : balance (flat_map (node_events lb) (y :: c)) = 0%Z) by (induction IH as [|z l H _ IH]; [reflexivity|]; cbn [flat_map]; rewrite balance_app; lia).
  cbn [balance fold_right]. fold (balance (flat_map (node_events lb) (y :: c) ++ [EEnd n; EText (nl lb)])). rewrite balance_app, F. reflexivity.
Qed.
Definition is_rich (pc : pcontent) : bool := match pc with PXml _ => true | _ => false end.
Definition opens (e : event) : bool := match e with EStart _ _ | EEmpty _ _ => true | _ => false end.
Lemma parent_text a v pc g : frame_eq (p_parent t_p a pc) g -> frame_eq (p_parent t_p a (p_text v pc)) (frame_add (XText v) g).
Proof.
  intros H. destruct pc as [|t|f]; cbn [p_text p_parent] in *; try (apply (frame_eq_add (XText v) (XText v)); [exact H|reflexivity]).
  - apply (frame_eq_add (XText v) (XText v)) in H; [|reflexivity]. exact H.
  - eapply frame_eq_trans; [apply frame_eq_sym, (add_text_text t v (t_p, a, []))|]. apply frame_eq_add; [exact H|reflexivity].
Qed.
Lemma para_tree a r t : forall P pc st g tst, frame_eq (p_parent t_p a pc) g -> Forall2 frame_eq st tst -> (is_rich pc = false -> st = []) ->
  read_xml_loop t_p (g :: tst) (P ++ EEnd t_p :: r) = Ok (t, r) -> (Z.of_nat (length st) + balance P = 0)%Z ->
  exists pc', norm (close_frame (p_parent t_p a pc')) = norm t /\ is_rich pc' = is_rich pc || existsb opens P /\
    forall tag s r', cell_loop tag s (KPara a pc st) (P ++ EEnd t_p :: r') = cell_loop tag (set_content (append_text (p_done pc') (a_content s)) s) KCell r'.
Proof.
  induction P as [|e P IH]; intros pc st g tst F S N R B; cbn [app read_xml_loop] in R.
  - cbn [balance fold_right] in B. destruct st; [|cbn [length] in B; lia]. rewrite str_eqb_refl in R. injection R as <-. exists pc. split; [now apply frame_eq_close|]. split; [cbn; now rewrite orb_false_r|].
    intros tag s r'. cbn [app cell_loop cell_step para_step]. rewrite str_eqb_refl. reflexivity.
  - cbn [balance fold_right] in B. fold (balance P) in B. cbn [existsb].
    assert (G : forall pc' st' g' tst', (forall tag s r', cell_loop tag s (KPara a pc st) ((e :: P) ++ EEnd t_p :: r') = cell_loop tag s (KPara a pc' st') (P ++ EEnd t_p :: r')) ->
      frame_eq (p_parent t_p a pc') g' -> Forall2 frame_eq st' tst' -> (is_rich pc' = false -> st' = []) -> read_xml_loop t_p (g' :: tst') (P ++ EEnd t_p :: r) = Ok (t, r) ->
      (Z.of_nat (length st') + balance P = 0)%Z -> is_rich pc' = is_rich pc || opens e ->
      exists pc', norm (close_frame (p_parent t_p a pc')) = norm t /\ is_rich pc' = is_rich pc || (opens e || existsb opens P) /\
        forall tag s r', cell_loop tag s (KPara a pc st) ((e :: P) ++ EEnd t_p :: r') = cell_loop tag (set_content (append_text (p_done pc') (a_content s)) s) KCell r').
    { intros pc' st' g' tst' E F' S' N' R' B' O. destruct (IH pc' st' g' tst' F' S' N' R' B') as (q & Q1 & Q2 & Q3). exists q. split; [exact Q1|]. split; [rewrite Q2, O; now rewrite orb_assoc|].
      intros tag s r'. now rewrite E, Q3. }
    destruct e as [n b|n b|n|v|u|v]; cbn [rise opens] in *.
    + apply (G (PXml (n, b, [])) (p_parent t_p a pc :: st) (n, b, []) (g :: tst));
      [reflexivity|apply frame_eq_refl|constructor; assumption|discriminate|exact R|cbn [length]; lia|cbn; now rewrite orb_true_r].
    + cbn [top_add bind] in R. apply (G (PXml (frame_add (XTag n b []) (p_parent t_p a pc))) st (frame_add (XTag n b []) g) tst);
      [reflexivity|cbn [p_parent]; apply frame_eq_add; [exact F|reflexivity]|exact S|discriminate|exact R|lia|cbn; now rewrite orb_true_r].
    + destruct (str_eqb n t_p) eqn:E.
      { injection R as _ R. apply (f_equal (@length event)) in R. rewrite app_length in R. cbn [length] in R. lia. }
      apply bind_ok in R as (st2 & T & R). destruct S as [|f f' st tst Hf S]; [discriminate|]. cbn [top_add] in T. injection T as <-.
      destruct pc as [| |q]; [specialize (N eq_refl); discriminate|specialize (N eq_refl); discriminate|]. cbn [p_parent] in F.
      apply (G (PXml (frame_add (close_frame q) f)) st (frame_add (close_frame g) f') tst);
      [|cbn [p_parent]; apply frame_eq_add; [exact Hf|now apply frame_eq_close]|exact S|discriminate|exact R|cbn [length] in B; lia|reflexivity].
      intros tag s r'. cbn [app cell_loop cell_step para_step]. rewrite E. reflexivity.
    + cbn [top_add bind] in R. apply (G (p_text v pc) st (frame_add (XText v) g) tst);
      [reflexivity|now apply parent_text|exact S| |exact R|lia|destruct pc; reflexivity]. intros Q. apply N. destruct pc; auto; discriminate.
    + apply bind_ok in R as (w & Ev & R). cbn [top_add bind] in R. apply (G (p_text w pc) st (frame_add (XText w) g) tst);
      [|now apply parent_text|exact S| |exact R|lia|destruct pc; reflexivity].
      * intros tag s r'. cbn [app cell_loop cell_step para_step]. rewrite Ev. reflexivity.
      * intros Q. apply N. destruct pc; auto; discriminate.
    + apply (G pc st g tst); [reflexivity|exact F|exact S|exact N|exact R|lia|now rewrite orb_false_r].
Qed.
Lemma opens_coalesce evs : forall acc, existsb opens (coalesce_from acc evs) = existsb opens evs.
Proof.
  assert (O : forall t r, existsb opens (emit_text t ++ r) = existsb opens r) by (now intros [|c t] r).
  induction evs as [|e evs IH]; intros acc; [cbn [coalesce_from]; rewrite <- (app_nil_r (emit_text acc)); apply (O acc [])|]. destruct e; cbn [coalesce_from]; rewrite ?O; cbn [existsb opens]; rewrite ?IH; reflexivity.
Qed.
Lemma rich_opens lb c : plain_of c = None -> existsb opens (flat_map (node_events lb) c) = true.
Proof.
  induction c as [|[u|n a d] c IH]; intros H; cbn [plain_of] in H; [discriminate| |].
  - cbn [flat_map]. rewrite existsb_app, IH by (destruct (plain_of c); [discriminate|reflexivity]). apply orb_true_r.
  - cbn [flat_map node_events]. destruct d; reflexivity.
Qed.
Lemma reads_rich lb a c : plain_of c = None -> Forall (lacks t_p) c -> exists y, norm y = norm (broken lb (XTag t_p a c)) /\ para_reads lb (XTag t_p a c) (Some (inr y)).
Proof.
  intros H L. destruct c as [|y c]; [discriminate|]. destruct (tree_read lb t_p a y c L) as (t & Ht & R).
  specialize (R []). rewrite coalesce_split in R by exact I. unfold read_xml in R.
  destruct (para_tree a _ t (coalesce (flat_map (node_events lb) (y :: c))) PEmpty [] (t_p, a, []) [] (frame_eq_refl _) (Forall2_nil _) (fun _ => eq_refl) R) as (pc & P1 & P2 & P3).
  { unfold coalesce. rewrite balance_coalesce. assert (E : forall l, balance (flat_map (node_events lb) l) = 0%Z) by (induction l as [|z l IH]; [reflexivity|]; cbn [flat_map]; rewrite balance_app, balance_node; lia).
    rewrite E. reflexivity. }
  unfold coalesce in P2. rewrite opens_coalesce, rich_opens in P2 by exact H. destruct pc as [| |f]; try discriminate. exists (close_frame f). split; [cbn [p_parent] in P1; congruence|]. intros tag s evs.
  change (node_events lb (XTag t_p a (y :: c))) with (EStart t_p a :: flat_map (node_events lb) (y :: c) ++ [EEnd t_p; EText (nl lb)]).
  cbn [app]. rewrite start_para, <- app_assoc. cbn [app]. rewrite coalesce_split by exact I. rewrite P3. cbn [p_done into]. apply kcell_skip.
Qed.
Lemma para_read_back lb x : para_ok x -> exists p, para_after lb x p /\ para_reads lb x p.
Proof.
  destruct x as [t|n a c]; [contradiction|]. intros (-> & _ & U). change (lit "text:p") with t_p in *. destruct c as [|y c]; [exists (Some (inl [])); split; [constructor|apply reads_none]|].
  destruct (plain_of (y :: c)) as [t|] eqn:E.
  - exists (match t with [] => None | _ => Some (inl t) end). split; [|apply reads_plain; [discriminate|exact E]]. destruct t; [apply pa_blank|apply pa_plain]; first [exact E|discriminate].
  - destruct (reads_rich lb a (y :: c) E U) as (z & Z1 & Z2). exists (Some (inr z)). split; [now constructor|exact Z2].
Qed.

(** ** Values *)

Definition content_of (ps : list (option (str + xnode))) : tcontent := fold_left (fun old p => append_text (into p) old) ps TcEmpty.
Lemma paras_read lb l ps : Forall2 (para_reads lb) l ps -> forall tag s evs,
  cell_loop tag s KCell (coalesce (flat_map (node_events lb) l ++ evs)) = cell_loop tag (set_content (fold_left (fun old p => append_text (into p) old) ps (a_content s)) s) KCell (coalesce evs).
Proof.
  induction 1 as [|x p l ps H _ IH]; intros tag s evs; cbn [flat_map app fold_left]; [now rewrite set_content_id|]. rewrite <- app_assoc, H, IH. reflexivity.
Qed.
Lemma para_text_ok x : para_ok x -> text_ok x. Proof. destruct x; [auto|]. intros (-> & H). split; [now left|exact H]. Qed.
Lemma body_rich lb l : Forall para_ok l -> exists ps, Forall2 (para_after lb) l ps /\ body_reads lb (flat_map write_node l) (content_of ps).
Proof.
  intros H. assert (Q : exists ps, Forall2 (para_after lb) l ps /\ Forall2 (para_reads lb) l ps).
  { clear - H. induction H as [|x l Hx _ (ps & A & B)]; [exists []; split; constructor|]. destruct (para_read_back lb x Hx) as (p & P1 & P2). exists (p :: ps). split; constructor; auto. }
  destruct Q as (ps & A & B). exists ps. split; [exact A|]. intros tag s cs E. rewrite asked_texts by (eapply Forall_impl; [apply para_text_ok|exact H]). rewrite (paras_read lb l ps B), E. reflexivity.
Qed.
Lemma into_vec ps : forall l, fold_left (fun old p => append_text (into p) old) ps (TcVec l) = TcVec (l ++ map as_para (somes ps)).
Proof.
  induction ps as [|p ps IH]; intros l; cbn [fold_left]; [now rewrite app_nil_r|]. cbn [append_text]. rewrite IH, <- app_assoc. f_equal. f_equal.
  destruct p as [[t|y]|]; reflexivity.
Qed.
Lemma content_value l ps : found (VTextXml l) (content_of ps) = rich_value ps.
Proof.
  unfold content_of, rich_value. induction ps as [|p ps IH]; [reflexivity|]. cbn [fold_left append_text]. destruct p as [[t|y]|]; cbn [into drop_none]; [| |exact IH].
  - destruct ps as [|q ps]; [reflexivity|]. cbn [fold_left append_text into]. rewrite into_vec. destruct q as [[u|z]|]; reflexivity.
  - destruct ps as [|q ps]; [reflexivity|]. cbn [fold_left append_text into]. rewrite into_vec. destruct q as [[u|z]|]; reflexivity.
Qed.
Lemma body_any lb v : writable v -> exists t, body_reads lb (value_body v) t /\ value_after lb v (found v t).
Proof.
  intros (P & H). assert (D : (forall l, v <> VTextXml l) \/ exists l, v = VTextXml l) by (destruct v; eauto; left; discriminate).
  destruct D as [D|(l & ->)].
  - exists (body_content v). split; [now apply body_value|]. destruct v; try reflexivity; [|exfalso; eapply D; reflexivity].
    exists (split_lines s). split; [apply split_lines_ok|]. apply read_lines_found.
  - destruct (body_rich lb l (H l eq_refl)) as (ps & A & B). exists (content_of ps). split; [exact B|]. exists ps. split; [exact A|]. apply content_value.
Qed.
Lemma flushes_any v : writable v -> v <> VEmpty -> flushes (value_body v ++ [CEnd []]).
Proof.
  intros (_ & H) N. destruct v; try (now apply flushes_value). cbn [value_body]. apply texts_flush; [|exact I]. eapply Forall_impl; [apply para_text_ok|now apply H].
Qed.

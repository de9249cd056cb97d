(** Proofs about writing and reading annotations and frames. *)
From Verif Require Import Base Lib XmlModel XmlSpec XmlProofs TreeProofs CellModel NumModel NumSpec NumProofs NumProps DrawModel CellIoModel CellIoSpec CellIoProofs.

(** ** Text *)

Lemma entity_texty n c : entity_of c = Some n -> entity n = Ok [c].
Proof. apply entity_named. Qed.
(** A state that [read_text] is in, with what is done at the end. *)
Definition in_text (K : str -> smode) (super : str) (fin : str -> res smode) : Prop :=
  forall t e, sub_step (K t) e = let* r := rtext_step super t e in match r with inl t' => Ok (inl (K t')) | inr t' => let* m := fin t' in Ok (inl m) end.
Lemma text_emit K super fin t acc evs : in_text K super fin -> sub_loop (K t) (emit_text acc ++ evs) = sub_loop (K (t ++ acc)) evs.
Proof. intros H. destruct acc as [|c acc]; [now rewrite app_nil_r|]. cbn [emit_text app sub_loop]. rewrite H. reflexivity. Qed.
Lemma text_feed K super fin evs vs r : in_text K super fin -> Forall2 texty evs vs -> forall t acc,
  sub_loop (K t) (coalesce_from acc (evs ++ EEnd super :: r)) = let* m := fin (t ++ acc ++ concat vs) in sub_loop m (coalesce r).
Proof.
  intros H. induction 1 as [|e v evs vs He _ IH]; intros t acc.
  - cbn [app concat coalesce_from]. rewrite (text_emit _ _ _ _ _ _ H), app_nil_r. cbn [sub_loop]. rewrite H. cbn [rtext_step]. rewrite str_eqb_refl. cbn [bind].
    destruct (fin (t ++ acc)); reflexivity.
  - destruct He as [->|(n & c & -> & Hc & ->)]; cbn [app coalesce_from concat].
    + rewrite IH. now rewrite <- !app_assoc.
    + rewrite (text_emit _ _ _ _ _ _ H). cbn [sub_loop]. rewrite H. cbn [rtext_step]. rewrite (entity_named c n Hc). cbn [bind].
      rewrite IH. cbn [app]. now rewrite <- !app_assoc.
Qed.

(** Modes in which text is passed over. *)
Definition outer (m : smode) : Prop := forall t, sub_step m (EText t) = Ok (inl m).
Lemma outer_acc m evs : outer m -> forall acc, sub_loop m (coalesce_from acc evs) = sub_loop m (coalesce evs).
Proof.
  intros O. assert (S : forall t r, sub_loop m (emit_text t ++ r) = sub_loop m r) by (intros [|c t] r; [reflexivity|]; cbn [emit_text app sub_loop]; now rewrite O).
  unfold coalesce. induction evs as [|e evs IH]; intros acc.
  - cbn [coalesce_from]. rewrite <- (app_nil_r (emit_text acc)), S. reflexivity.
  - destruct e; cbn [coalesce_from]; rewrite ?S; try reflexivity. rewrite IH. symmetry. apply IH.
Qed.
Lemma outer_skip m t evs : outer m -> sub_loop m (coalesce (EText t :: evs)) = sub_loop m (coalesce evs).
Proof. intros O. unfold coalesce. cbn [coalesce_from]. now apply outer_acc. Qed.
Lemma outer_ann a : outer (SAnn a). Proof. intros t. reflexivity. Qed.
Lemma outer_frame f : outer (SFrame f). Proof. intros t. reflexivity. Qed.
Lemma outer_image f i : outer (SImage f i). Proof. intros t. reflexivity. Qed.

Lemma coalesce_start m n a evs : sub_loop m (coalesce (EStart n a :: evs)) = let* x := sub_step m (EStart n a) in match x with inl m' => sub_loop m' (coalesce evs) | inr d => Ok (d, coalesce evs) end.
Proof. unfold coalesce. rewrite coalesce_cons by exact I. reflexivity. Qed.

(** An optional element with text. *)
Lemma elem_feed lb m n v K fin m' cs : sub_step m (EStart n []) = Ok (inl (K [])) -> in_text K n fin -> fin v = Ok m' -> outer m' ->
  sub_loop m (coalesce (asked esc_split lb None (opt_elem n (Some v) ++ cs))) = sub_loop m' (coalesce (asked esc_split lb None cs)).
Proof.
  intros S H F O. cbn [opt_elem app asked finish]. rewrite coalesce_start, S. cbn [bind]. unfold coalesce at 1.
  rewrite (text_feed K n fin (esc_split v) (map (fun c => [c]) v) _ H (esc_texty v) [] []). rewrite concat_single. cbn [app]. rewrite F. cbn [bind]. now apply outer_skip.
Qed.

(** ** Trees *)

Definition in_tree (K : list frame -> smode) (super : str) (fin : xnode -> smode) : Prop :=
  forall st e, sub_step (K st) e = let* r := tree_step super st e in match r with inl st' => Ok (inl (K st')) | inr x => Ok (inl (fin x)) end.
Lemma tree_feed K super fin r t : in_tree K super fin -> forall P st, read_xml_loop super st (P ++ EEnd super :: r) = Ok (t, r) ->
  sub_loop (K st) (P ++ EEnd super :: r) = sub_loop (fin t) r.
Proof.
  intros H. induction P as [|e P IH]; intros st R; cbn [app read_xml_loop sub_loop] in *.
  - rewrite H. cbn [tree_step]. rewrite str_eqb_refl in *. destruct st; [discriminate|]. cbn [bind]. congruence.
  - rewrite H. destruct e; cbn [tree_step].
    + cbn [bind]. auto.
    + apply bind_ok in R as (s & E & R). rewrite E. cbn [bind]. auto.
    + destruct (str_eqb n super) eqn:E.
      * destruct st; [discriminate|]. injection R as _ R. apply (f_equal (@length event)) in R. rewrite app_length in R. cbn [length] in R. lia.
      * destruct st as [|f st]; [discriminate|]. apply bind_ok in R as (s & E2 & R). rewrite E2. cbn [bind]. auto.
    + apply bind_ok in R as (s & E & R). rewrite E. cbn [bind]. auto.
    + apply bind_ok in R as (v & E & R). apply bind_ok in R as (s & E2 & R). rewrite E. cbn [bind]. rewrite E2. cbn [bind]. auto.
    + cbn [bind]. auto.
Qed.
(** A mode that takes paragraphs and lists. *)
Definition hosts (m : smode) (fin : xnode -> smode) : Prop :=
  (forall x, outer (fin x)) /\
  forall n, n = lit "text:p" \/ n = lit "text:list" ->
    (forall b, sub_step m (EEmpty n b) = Ok (inl (fin (XTag n b []))))
    /\ exists K, (forall b, sub_step m (EStart n b) = Ok (inl (K [(n, b, [])]))) /\ in_tree K n fin.
Lemma hosts_ann a : hosts (SAnn a) (fun x => SAnn (ann_push x a)).
Proof.
  split; [intros; apply outer_ann|]. intros n [-> | ->]; (split; [reflexivity|]); [exists (SAnnTree a (lit "text:p"))|exists (SAnnTree a (lit "text:list"))]; (split; [reflexivity|]);
  intros st e; cbn [sub_step]; reflexivity.
Qed.
Lemma hosts_image f i : hosts (SImage f i) (fun x => SImage f (im_push x i)).
Proof.
  split; [intros; apply outer_image|]. intros n [-> | ->]; (split; [reflexivity|]); [exists (SImageTree f i (lit "text:p"))|exists (SImageTree f i (lit "text:list"))]; (split; [reflexivity|]);
  intros st e; cbn [sub_step]; reflexivity.
Qed.
Definition tree_reads (lb : bool) (x t : xnode) : Prop :=
  forall m fin, hosts m fin -> forall evs, sub_loop m (coalesce (node_events lb x ++ evs)) = sub_loop (fin t) (coalesce evs).
Lemma reads_empty lb n a : n = lit "text:p" \/ n = lit "text:list" -> tree_reads lb (XTag n a []) (XTag n a []).
Proof.
  intros N m fin (O & H) evs. destruct (H n N) as (E & _). cbn [node_events app]. unfold coalesce at 1. rewrite coalesce_cons by exact I. cbn [emit_text app sub_loop].
  rewrite E. cbn [bind]. apply outer_skip, O.
Qed.
Lemma reads_ok lb x : text_ok x -> exists t, norm t = norm (broken lb x) /\ tree_reads lb x t.
Proof.
  destruct x as [t|n a [|y c]]; [contradiction| |]; intros (N & _ & U).
  - exists (XTag n a []). split; [reflexivity|]. now apply reads_empty.
  - destruct (tree_read lb n a y c U) as (t & Ht & R). exists t. split; [exact Ht|]. intros m fin (O & H) evs. destruct (H n N) as (_ & K & S & T).
    change (node_events lb (XTag n a (y :: c))) with (EStart n a :: flat_map (node_events lb) (y :: c) ++ [EEnd n; EText (nl lb)]).
    cbn [app]. rewrite coalesce_start, S. cbn [bind]. rewrite <- app_assoc. cbn [app]. specialize (R evs). rewrite coalesce_split in R |- * by exact I.
    rewrite (tree_feed K n fin _ t T); [|exact R]. apply outer_skip, O.
Qed.
Lemma coalesce_plain t r : no_specials t -> forall acc, coalesce_from acc (esc_split t ++ r) = coalesce_from (acc ++ t) r.
Proof.
  induction 1 as [|c t H _ IH]; intros acc; [now rewrite app_nil_r|]. unfold esc_split in *. cbn [map app].
  assert (E : entity_of c = None).
  { destruct (char_cases c); [contradiction|assumption]. }
  rewrite E. cbn [coalesce_from]. rewrite IH, <- app_assoc. reflexivity.
Qed.
Lemma special_entity c : special c -> exists n, entity_of c = Some n.
Proof. intros H. destruct (char_cases c); [eauto|contradiction]. Qed.
Lemma reads_exact lb x : text_ok x -> text_exact x -> tree_reads lb x x.
Proof.
  intros O (n & a & l & -> & P). destruct l as [|t l]; [apply reads_empty, O|]. destruct O as (N & _). intros m fin (O & H) evs. destruct (H n N) as (_ & K & S & T).
  change (node_events lb (XTag n a (map XText (t :: l)))) with (EStart n a :: flat_map (node_events lb) (map XText (t :: l)) ++ [EEnd n; EText (nl lb)]).
  cbn [app]. rewrite coalesce_start, S. cbn [bind]. rewrite <- app_assoc. cbn [app].
  assert (G : forall l, pieces l -> forall c0, sub_loop (K [(n, a, c0)]) (coalesce (flat_map (node_events lb) (map XText l) ++ EEnd n :: EText (nl lb) :: evs))
    = sub_loop (fin (XTag n a (c0 ++ map XText l))) (coalesce evs)).
  { assert (E : forall c0, sub_loop (K [(n, a, c0)]) (coalesce (EEnd n :: EText (nl lb) :: evs)) = sub_loop (fin (XTag n a c0)) (coalesce evs)).
    { intros c0. unfold coalesce at 1. rewrite coalesce_cons by exact I. cbn [emit_text app sub_loop]. rewrite T. cbn [tree_step]. rewrite str_eqb_refl. cbn [bind close_frame]. apply outer_skip, O. }
    assert (X : forall c0 t rest, t <> [] -> no_specials t -> sub_loop (K [(n, a, c0)]) (emit_text t ++ rest) = sub_loop (K [(n, a, c0 ++ [XText t])]) rest).
    { intros c0 [|c u] rest Nt _; [congruence|]. cbn [emit_text app sub_loop]. rewrite T. reflexivity. }
    assert (Y : forall c0 c rest, special c -> sub_loop (K [(n, a, c0)]) (coalesce (esc_split [c] ++ rest)) = sub_loop (K [(n, a, c0 ++ [XText [c]])]) (coalesce rest)).
    { intros c0 c rest Hc. destruct (special_entity c Hc) as (nm & En). unfold esc_split. cbn [map app]. rewrite En. unfold coalesce at 1. rewrite coalesce_cons by exact I.
      cbn [emit_text app sub_loop]. rewrite T. cbn [tree_step]. rewrite (entity_named c nm En). reflexivity. }
    induction 1 as [|c q Hc _ IH|q Nq Hq|q c l0 Nq Hq Hc _ IH]; intros c0; cbn [map flat_map app node_events].
    - rewrite app_nil_r. apply E.
    - rewrite <- app_assoc, Y by exact Hc. rewrite IH, <- app_assoc. reflexivity.
    - rewrite app_nil_r. unfold coalesce at 1. rewrite coalesce_plain by exact Hq. cbn [app]. rewrite coalesce_cons by exact I. rewrite X by assumption.
      pose proof (E (c0 ++ [XText q])) as E1. unfold coalesce in E1 at 1. rewrite coalesce_cons in E1 by exact I. exact E1.
    - rewrite <- !app_assoc. unfold coalesce at 1. rewrite coalesce_plain by exact Hq. cbn [app]. destruct (special_entity c Hc) as (nm & En).
      assert (Z : forall acc r, coalesce_from acc (esc_split [c] ++ r) = emit_text acc ++ coalesce (esc_split [c] ++ r)).
      { intros acc r. unfold esc_split. cbn [map app]. rewrite En. unfold coalesce. rewrite !coalesce_cons by exact I. reflexivity. }
      rewrite Z, X by assumption. rewrite Y by exact Hc. rewrite IH, <- !app_assoc. reflexivity. }
  rewrite (G (t :: l) P []). reflexivity.
Qed.
Lemma asked_texts lb l cs : Forall text_ok l -> asked esc_split lb None (flat_map write_node l ++ cs) = flat_map (node_events lb) l ++ asked esc_split lb None cs.
Proof.
  induction 1 as [|x l _ _ IH]; [reflexivity|]. cbn [flat_map]. rewrite <- !app_assoc, asked_node. cbn [finish app]. now rewrite IH.
Qed.
Lemma texts_flush l cs : Forall text_ok l -> flushes cs -> flushes (flat_map write_node l ++ cs).
Proof. intros [|[t|n a c] l' H _] F; [exact F|contradiction|exact I]. Qed.

(** ** Annotations *)

Lemma ann_texts lb l ts : Forall2 (tree_reads lb) l ts -> forall a evs,
  sub_loop (SAnn a) (coalesce (flat_map (node_events lb) l ++ evs))
  = sub_loop (SAnn (Ann (an_name a) (an_display a) (an_creator a) (an_date a) (an_text a ++ ts) (an_attrs a))) (coalesce evs).
Proof.
  induction 1 as [|x t l ts H _ IH]; intros a evs.
  - cbn [flat_map app]. rewrite app_nil_r. now destruct a.
  - cbn [flat_map]. rewrite <- app_assoc, (H _ _ (hosts_ann a)), IH. cbn. now rewrite <- app_assoc.
Qed.
Lemma ann_attrs_other l : Forall (fun kv => fst kv <> lit "office:display" /\ fst kv <> lit "office:name") l -> forall a,
  ann_read_attrs a l = Ok (Ann (an_name a) (an_display a) (an_creator a) (an_date a) (an_text a) (an_attrs a ++ l)).
Proof.
  induction 1 as [|[k v] l (H1 & H2) _ IH]; intros a; cbn [ann_read_attrs]; [rewrite app_nil_r; now destruct a|].
  cbn [fst] in *. unfold ann_attr. destruct (str_eqb k (lit "office:display")) eqn:E1; [apply str_eqb_eq in E1; congruence|].
  destruct (str_eqb k (lit "office:name")) eqn:E2; [apply str_eqb_eq in E2; congruence|]. cbn [bind]. rewrite IH. cbn [an_name an_display an_creator an_date an_text an_attrs].
  now rewrite <- app_assoc.
Qed.
Lemma opt_flush n o cs : flushes cs -> flushes (opt_elem n o ++ cs).
Proof. destruct o; [intros; exact I|auto]. Qed.
(** From the start tag of an annotation or a frame. *)
Lemma cell_sub tag q evs : forall s d r, sub_loop q evs = Ok (d, r) -> cell_loop tag s (KSub q) evs = cell_loop tag (put_sub d s) KCell r.
Proof.
  revert q. induction evs as [|e evs IH]; intros q s d r H; [discriminate|]. cbn [sub_loop cell_loop cell_step] in *. apply bind_ok in H as ([q'|d'] & E & H); rewrite E; cbn [bind].
  - now apply IH.
  - now injection H as <- <-.
Qed.
Lemma map_attrs_is l : Forall is_attr (map_attrs l). Proof. induction l; constructor; [discriminate|assumption]. Qed.
Lemma map_attrs_of l : attrs_of (map_attrs l) = l. Proof. unfold map_attrs. induction l as [|[k v] l IH]; cbn; [reflexivity|now rewrite IH]. Qed.

Lemma annotation_reads lb a ts : ann_ok a -> Forall2 (tree_reads lb) (an_text a) ts ->
  sub_reads lb (write_annotation a) (inl (Ann (an_name a) (an_display a) (an_creator a) (an_date a) ts (an_attrs a))).
Proof.
  intros (_ & A & D & T) R tag s cs. unfold write_annotation. cbn [app asked finish with_attr]. rewrite <- !app_assoc.
  rewrite (asked_attr_calls _ _ (map_attrs (an_attrs a))) by apply map_attrs_is. rewrite map_attrs_of.
  rewrite asked_flush by (apply opt_flush, opt_flush, texts_flush; [exact T|exact I]). cbn [finish app].
  unfold coalesce at 1. rewrite coalesce_cons by exact I. cbn [emit_text app cell_loop].
  assert (S : cell_step tag s KCell (EStart t_annotation ((lit "office:display", show_bool (an_display a)) :: (lit "office:name", an_name a) :: an_attrs a))
    = Ok (inl (s, KSub (SAnn (Ann (an_name a) (an_display a) None None [] (an_attrs a)))))).
  { unfold cell_step. change (str_eqb t_annotation t_p) with false. change (str_eqb t_annotation t_annotation || str_eqb t_annotation t_frame) with true. cbv iota.
    unfold sub_start. change (str_eqb t_annotation t_annotation) with true. cbv iota. cbn [ann_read_attrs]. unfold ann_attr at 1.
    change (str_eqb (lit "office:display") (lit "office:display")) with true. cbv iota.
    assert (B : parse_bool (escape (show_bool (an_display a))) = Ok (an_display a)) by (destruct (an_display a); reflexivity). rewrite B. cbn [bind].
    unfold ann_attr at 1. change (str_eqb (lit "office:name") (lit "office:display")) with false. change (str_eqb (lit "office:name") (lit "office:name")) with true. cbv iota. cbn [bind].
    rewrite ann_attrs_other by exact A. reflexivity. }
  rewrite S. cbn [bind]. fold (coalesce (asked esc_split lb None (opt_elem t_creator (an_creator a) ++
    opt_elem t_date (match an_date a with Some d => Some (format_datetime d) | None => None end) ++ flat_map write_node (an_text a) ++ [CEnd t_annotation] ++ cs))).
  erewrite (cell_sub tag _ _ s (inl (Ann (an_name a) (an_display a) (an_creator a) (an_date a) ts (an_attrs a)))); [apply (kcell_skip tag _ (nl lb))|].
  assert (C : forall a0 rest, an_creator a0 = None -> sub_loop (SAnn a0) (coalesce (asked esc_split lb None (opt_elem t_creator (an_creator a) ++ rest)))
    = sub_loop (SAnn (ann_set_creator (an_creator a) a0)) (coalesce (asked esc_split lb None rest))).
  { intros a0 rest E. destruct (an_creator a) as [v|].
    - apply (elem_feed lb (SAnn a0) t_creator v (SAnnText a0 false) (fun t => let* x := ann_text_done a0 false t in Ok (SAnn x))); [reflexivity| |reflexivity|apply outer_ann].
      intros t e. cbn [sub_step text_tag]. destruct (rtext_step t_creator t e) as [[]| |]; reflexivity.
    - cbn [opt_elem app]. destruct a0; cbn in E; subst; reflexivity. }
  rewrite C by reflexivity. clear C.
  assert (C : forall a0 rest, an_date a0 = None -> sub_loop (SAnn a0) (coalesce (asked esc_split lb None (opt_elem t_date (match an_date a with Some d => Some (format_datetime d) | None => None end) ++ rest)))
    = sub_loop (SAnn (ann_set_date (an_date a) a0)) (coalesce (asked esc_split lb None rest))).
  { intros a0 rest E. destruct (an_date a) as [d|].
    - apply (elem_feed lb (SAnn a0) t_date (format_datetime d) (SAnnText a0 true) (fun t => let* x := ann_text_done a0 true t in Ok (SAnn x))); [reflexivity| | |apply outer_ann].
      + intros t e. cbn [sub_step text_tag]. destruct (rtext_step t_date t e) as [[]| |]; cbn [bind]; try reflexivity. destruct (ann_text_done a0 true s0); reflexivity.
      + cbn [ann_text_done]. destruct (D d eq_refl) as (V & Y). rewrite C27_survives by assumption. reflexivity.
    - cbn [opt_elem app]. destruct a0; cbn in E; subst; reflexivity. }
  rewrite C by reflexivity. clear C. rewrite asked_texts by exact T. rewrite (ann_texts lb _ ts R). cbn [ann_set_date ann_set_creator an_name an_display an_creator an_date an_text an_attrs app asked finish].
  unfold coalesce at 1. rewrite coalesce_cons by exact I. reflexivity.
Qed.

(** ** Frames *)

Lemma image_texts lb f l ts : Forall2 (tree_reads lb) l ts -> forall i evs,
  sub_loop (SImage f i) (coalesce (flat_map (node_events lb) l ++ evs)) = sub_loop (SImage f (DImage (im_attrs i) (im_data i) (im_text i ++ ts))) (coalesce evs).
Proof.
  induction 1 as [|x t l ts H _ IH]; intros i evs.
  - cbn [flat_map app]. rewrite app_nil_r. now destruct i.
  - cbn [flat_map]. rewrite <- app_assoc, (H _ _ (hosts_image f i)), IH. cbn. now rewrite <- app_assoc.
Qed.
Lemma image_reads lb f i ts cs : image_ok i -> Forall2 (tree_reads lb) (im_text i) ts ->
  sub_loop (SFrame f) (coalesce (asked esc_split lb None (write_image i ++ cs))) = sub_loop (SFrame (df_push (DImage (im_attrs i) (im_data i) ts) f)) (coalesce (asked esc_split lb None cs)).
Proof.
  intros (_ & D & T) R. unfold write_image. cbn [app asked finish]. rewrite <- !app_assoc.
  rewrite (asked_attr_calls _ _ (map_attrs (im_attrs i))) by apply map_attrs_is. rewrite map_attrs_of.
  rewrite asked_flush by (destruct (im_data i); [exact I|]; apply texts_flush; [exact T|exact I]). cbn [finish app].
  rewrite coalesce_start. change (sub_step (SFrame f) (EStart t_image (im_attrs i))) with (Ok (inl (SImage f (DImage (im_attrs i) None [])) : smode + (annotation + dframe))). cbn [bind].
  assert (E : forall i0, sub_loop (SImage f i0) (coalesce (asked esc_split lb None (flat_map write_node (im_text i) ++ [CEnd t_image] ++ cs)))
    = sub_loop (SFrame (df_push (DImage (im_attrs i0) (im_data i0) (im_text i0 ++ ts)) f)) (coalesce (asked esc_split lb None cs))).
  { intros i0. rewrite asked_texts by exact T. rewrite (image_texts lb f _ ts R). cbn [app asked finish]. unfold coalesce at 1. rewrite coalesce_cons by exact I. cbn [emit_text app sub_loop].
    change (str_eqb t_image t_image) with true. cbn [sub_step]. change (str_eqb t_image t_image) with true. cbv iota. cbn [bind].
    rewrite (outer_acc _ (EText (nl lb) :: asked esc_split lb None cs) (outer_frame _)). now rewrite outer_skip by apply outer_frame. }
  destruct (im_data i) as [v|]; [|apply E]. cbn [app asked finish]. rewrite coalesce_start.
  change (sub_step (SImage f (DImage (im_attrs i) None [])) (EStart t_data [])) with (Ok (inl (SImageData f (DImage (im_attrs i) None []) []) : smode + (annotation + dframe))). cbn [bind].
  assert (H : in_text (SImageData f (DImage (im_attrs i) None [])) t_data (fun t => Ok (SImage f (im_set_data t (DImage (im_attrs i) None []))))).
  { intros t e. cbn [sub_step]. destruct (rtext_step t_data t e) as [[]| |]; reflexivity. }
  pose proof (fun r => text_feed _ _ _ [EText v] [v] r H ltac:(repeat constructor) [] []) as F. cbn [app concat] in F. unfold coalesce at 1. rewrite F. cbn [bind]. rewrite app_nil_r.
  rewrite outer_skip by apply outer_image. now rewrite E.
Qed.
Definition image_with (i : dimage) (ts : list xnode) : dimage := DImage (im_attrs i) (im_data i) ts.
Lemma frame_reads lb f is_ : frame_ok f -> Forall2 (fun i j => exists ts, Forall2 (tree_reads lb) (im_text i) ts /\ j = image_with i ts) (df_content f) is_ ->
  sub_reads lb (write_frame f) (inr (DFrame (df_title f) (df_desc f) (df_attrs f) is_)).
Proof.
  intros (_ & O) R tag s cs. unfold write_frame. cbn [app asked finish]. rewrite <- !app_assoc.
  rewrite (asked_attr_calls _ _ (map_attrs (df_attrs f))) by apply map_attrs_is. rewrite map_attrs_of.
  rewrite asked_flush by (destruct (df_content f); [apply opt_flush, opt_flush; exact I|exact I]). cbn [finish app].
  unfold coalesce at 1. rewrite coalesce_cons by exact I. cbn [emit_text app cell_loop].
  assert (S : cell_step tag s KCell (EStart t_frame (df_attrs f)) = Ok (inl (s, KSub (SFrame (DFrame None None (df_attrs f) []))))) by reflexivity.
  rewrite S. cbn [bind]. fold (coalesce (asked esc_split lb None (flat_map write_image (df_content f) ++ opt_elem t_desc (df_desc f) ++ opt_elem t_title (df_title f) ++ [CEnd t_frame] ++ cs))).
  erewrite (cell_sub tag _ _ s (inr (DFrame (df_title f) (df_desc f) (df_attrs f) is_))); [apply (kcell_skip tag _ (nl lb))|].
  assert (C : forall l js, Forall image_ok l -> Forall2 (fun i j => exists ts, Forall2 (tree_reads lb) (im_text i) ts /\ j = image_with i ts) l js -> forall f0 rest,
    sub_loop (SFrame f0) (coalesce (asked esc_split lb None (flat_map write_image l ++ rest)))
    = sub_loop (SFrame (DFrame (df_title f0) (df_desc f0) (df_attrs f0) (df_content f0 ++ js))) (coalesce (asked esc_split lb None rest))).
  { intros l js Hl. induction 1 as [|i j l js (ts & Ht & ->) _ IH]; intros f0 rest.
    - cbn [flat_map app]. rewrite app_nil_r. now destruct f0.
    - inversion Hl; subst. cbn [flat_map]. rewrite <- app_assoc, (image_reads lb f0 i ts) by assumption. rewrite IH by assumption. cbn. now rewrite <- app_assoc. }
  rewrite (C _ _ O R). clear C. cbn [df_title df_desc df_attrs df_content app].
  assert (C : forall (d : bool) o f0 rest, (if d then df_title f0 else df_desc f0) = None -> sub_loop (SFrame f0) (coalesce (asked esc_split lb None (opt_elem (frame_tag d) o ++ rest)))
    = sub_loop (SFrame (match o with Some v => df_set d v f0 | None => f0 end)) (coalesce (asked esc_split lb None rest))).
  { intros d [v|] f0 rest _; [|reflexivity].
    apply (elem_feed lb (SFrame f0) (frame_tag d) v (SFrameText f0 d) (fun t => Ok (SFrame (df_set d t f0)))); [now destruct d| |reflexivity|apply outer_frame].
    intros t e. cbn [sub_step]. destruct (rtext_step (frame_tag d) t e) as [[]| |]; reflexivity. }
  change t_desc with (frame_tag false). rewrite C by reflexivity. change t_title with (frame_tag true). rewrite C by (destruct (df_desc f); reflexivity). clear C.
  cbn [app asked finish]. unfold coalesce at 1. rewrite coalesce_cons by exact I. cbn [emit_text app sub_loop sub_step]. change (str_eqb t_frame t_frame) with true. cbv iota. cbn [bind].
  destruct (df_desc f), (df_title f); reflexivity.
Qed.

(** ** What comes back *)

Lemma all_trees lb l : Forall text_ok l -> exists ts, texts_same lb l ts /\ Forall2 (tree_reads lb) l ts.
Proof.
  induction 1 as [|x l H _ (ts & E & R)]; [exists []; split; [reflexivity|constructor]|]. destruct (reads_ok lb x H) as (t & Et & Rt). exists (t :: ts).
  split; [unfold texts_same in *; cbn [map]; congruence|now constructor].
Qed.
Lemma exact_trees lb l : Forall text_ok l -> Forall text_exact l -> Forall2 (tree_reads lb) l l.
Proof. intros H. induction 1; inversion H; subst; constructor; auto. now apply reads_exact. Qed.
Lemma annotation_same lb a : ann_ok a -> exists b, ann_same lb a b /\ sub_reads lb (write_annotation a) (inl b).
Proof.
  intros H. destruct (all_trees lb (an_text a)) as (ts & E & R); [apply H|]. eexists. split; [|exact (annotation_reads lb a ts H R)]. repeat split. exact E.
Qed.
Lemma annotation_exact lb a : ann_ok a -> ann_exact a -> sub_reads lb (write_annotation a) (inl a).
Proof.
  intros H X. pose proof (annotation_reads lb a (an_text a) H (exact_trees lb _ (proj2 (proj2 (proj2 H))) X)) as R. now destruct a.
Qed.
Lemma frame_same_reads lb f : frame_ok f -> exists g, frame_same lb f g /\ sub_reads lb (write_frame f) (inr g).
Proof.
  intros H. assert (Q : exists is_, Forall2 (fun i j => exists ts, Forall2 (tree_reads lb) (im_text i) ts /\ j = image_with i ts) (df_content f) is_
    /\ Forall2 (image_same lb) (df_content f) is_).
  { destruct H as (_ & O). induction O as [|i l Hi _ (js & J1 & J2)]; [exists []; split; constructor|]. destruct (all_trees lb (im_text i)) as (ts & E & R); [apply Hi|].
    exists (image_with i ts :: js). split; constructor; auto; [eauto|]. repeat split. exact E. }
  destruct Q as (js & J1 & J2). eexists. split; [|exact (frame_reads lb f js H J1)]. repeat split. exact J2.
Qed.
Lemma frame_exact_reads lb f : frame_ok f -> frame_exact f -> sub_reads lb (write_frame f) (inr f).
Proof.
  intros H X. assert (Q : Forall2 (fun i j => exists ts, Forall2 (tree_reads lb) (im_text i) ts /\ j = image_with i ts) (df_content f) (df_content f)).
  { destruct H as (_ & O). unfold frame_exact in X. induction X; inversion O; subst; constructor; auto. exists (im_text x). split; [|now destruct x]. apply exact_trees; [apply H2|exact H]. }
  pose proof (frame_reads lb f _ H Q) as R. now destruct f.
Qed.
(** Reading has one result. *)
Lemma reads_once lb body d d' : sub_reads lb body d -> sub_reads lb body d' -> d = d'.
Proof.
  intros H H'. specialize (H [] cellacc0 [CEnd []]). specialize (H' [] cellacc0 [CEnd []]). rewrite H in H'.
  assert (E : forall s, cell_loop [] s KCell (coalesce (asked esc_split lb None [CEnd []])) = Ok (s, coalesce [EText (nl lb)])) by (intros; apply (body_end lb [] s [])).
  rewrite !E in H'. injection H' as H'. apply (f_equal (fun s => match a_cell s with Some c => match c_extra c with Some x => (x_annotation x, x_frames x) | None => (None, []) end | None => (None, []) end)) in H'.
  destruct d as [d|d], d' as [d'|d']; cbn in H'; congruence.
Qed.
Lemma annotation_after lb a : ann_ok a -> exists b, ann_after lb a b /\ sub_reads lb (write_annotation a) (inl b).
Proof.
  intros H. destruct (annotation_same lb a H) as (b & S & R). exists b. split; [|exact R]. split; [exact S|]. intros X.
  pose proof (reads_once _ _ _ _ R (annotation_exact lb a H X)). congruence.
Qed.
Lemma frame_after_reads lb f : frame_ok f -> exists g, frame_after lb f g /\ sub_reads lb (write_frame f) (inr g).
Proof.
  intros H. destruct (frame_same_reads lb f H) as (b & S & R). exists b. split; [|exact R]. split; [exact S|]. intros X.
  pose proof (reads_once _ _ _ _ R (frame_exact_reads lb f H X)). congruence.
Qed.
Lemma kept_subs lb c : extra_ok c -> exists an fr, subs_read lb c an fr /\ kept lb c (with_subs c an fr).
Proof.
  intros (_ & H). unfold subs_read, with_subs, kept. destruct c as [v f st k [x|]]; cbn [c_extra c_value c_formula c_style c_repeat] in *; [|exists None, []; repeat split].
  destruct H as (A & F). assert (Q : exists an, match x_annotation x, an with Some a, Some b => sub_reads lb (write_annotation a) (inl b) | None, None => True | _, _ => False end
    /\ match x_annotation x, an with None, None => True | Some a, Some b => ann_after lb a b | _, _ => False end).
  { destruct (x_annotation x) as [a|]; [|exists None; auto]. destruct (annotation_after lb a (A a eq_refl)) as (b & B1 & B2). exists (Some b). auto. }
  destruct Q as (an & Q1 & Q2). assert (G : exists fr, Forall2 (fun f g => sub_reads lb (write_frame f) (inr g)) (x_frames x) fr /\ Forall2 (frame_after lb) (x_frames x) fr).
  { induction F as [|g l G _ (fr & F1 & F2)]; [exists []; split; constructor|]. destruct (frame_after_reads lb g G) as (g' & G1 & G2). exists (g' :: fr). split; constructor; auto. }
  destruct G as (fr & F1 & F2). exists an, fr. cbn [x_validation x_span x_matrix x_annotation x_frames]. repeat split; auto.
Qed.
Lemma ok_names c : extra_ok c -> (forall l, c_value c = VTextXml l -> Forall para_ok l) -> cell_names c.
Proof.
  intros (_ & H) V. split; [destruct (c_value c); auto; specialize (V _ eq_refl); eapply Forall_impl; [|exact V]; intros [t|n a c0]; [contradiction|]; intros (_ & N & _); exact N|]. destruct (c_extra c) as [x|]; [|exact I]. destruct H as (A & F).
  assert (T : forall l, Forall text_ok l -> Forall names_ok l) by (intros l; apply Forall_impl; intros [t|n a l']; [contradiction|]; intros (_ & N & _); exact N).
  split.
  - destruct (x_annotation x) as [a|]; [|exact I]. destruct (A a eq_refl) as (A1 & _ & _ & A2). split; auto.
  - eapply Forall_impl; [|exact F]. intros f (F1 & F2). split; [exact F1|]. eapply Forall_impl; [|exact F2]. intros i (I1 & I2 & I3). split; [exact I1|]. split; auto.
Qed.
Lemma read_written_kept lb ign dflt ds c h k t :
  extra_ok c -> 1 <= k <= u32_max -> payload_ok (c_value c) -> body_reads lb (value_body (c_value c)) t ->
  (c_value c <> VEmpty -> flushes (value_body (c_value c) ++ [CEnd []])) ->
  exists d o, kept lb c d /\ (forall cs, read_table_cell ign dflt (coalesce (asked esc_split lb None (write_cell ds c h k ++ cs)))
    = Ok (k, o, coalesce (EText (nl lb) :: asked esc_split lb None cs)))
  /\ option_map cell_content o =
     (let K := result ds d (found (c_value c) t) k in if void_b ign dflt K then None else Some K).
Proof.
  intros Hx Hk Hp Hb Hf. destruct (kept_subs lb c Hx) as (an & fr & S & E).
  destruct (read_written lb ign dflt ds c h k t an fr (proj1 Hx) Hk Hp Hb Hf S) as (o & H & C). eauto.
Qed.
Lemma kept_style lb ds c d : kept lb c d -> written_style ds d = written_style ds c.
Proof. intros (V & _ & S & _). unfold written_style. now rewrite V, S. Qed.
Lemma kept_exact lb c d : kept lb c d ->
  match c_extra c with None => True | Some x => (forall a, x_annotation x = Some a -> ann_exact a) /\ Forall frame_exact (x_frames x) end -> d = c.
Proof.
  destruct c as [v f st k x], d as [v' f' st' k' y]. unfold kept. cbn [c_value c_formula c_style c_repeat c_extra]. intros (-> & -> & -> & -> & H) X. f_equal.
  destruct x as [[va sp ma an fr]|], y as [[va' sp' ma' an' fr']|]; try contradiction; [|reflexivity]. cbn [x_validation x_span x_matrix x_annotation x_frames] in *.
  destruct H as (-> & -> & -> & A & F), X as (XA & XF). f_equal. f_equal.
  - destruct an as [a|], an' as [b|]; try contradiction; [|reflexivity]. f_equal. apply A. auto.
  - clear - F XF. induction F as [|f g l l' H _ IH]; [reflexivity|]. inversion XF; subst. f_equal; [now apply H|auto].
Qed.

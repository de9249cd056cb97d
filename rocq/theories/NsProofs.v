(** Proofs for C56. *)
From Coq Require Import Permutation.
From Verif Require Import Base Lib OMap OMapProofs NumModel EnumModel RefsModel XmlModel XmlSpec XmlProofs CellModel CellIoModel CellIoSpec CellIoProofs BookModel HeaderModel SplitModel TableModel StyleModel ValidModel ScriptModel MetaModel ConfigModel ConfigProofs WorkModel NsSpec.

(** ** Calls *)

(** [seen]: the attributes of the tag that is open. *)
Fixpoint tidy (ns seen : list str) (cs : list call) : Prop :=
  match cs with
  | [] => True
  | c :: r =>
      match c with
      | CElem n | CElemIf _ n | CEmpty n | CElemText n _ | CElemTextEsc n _ => declared ns n /\ tidy ns [] r
      | CAttr k _ | CAttrEsc k _ => declared ns k /\ ~ In k seen /\ tidy ns (k :: seen) r
      | CDtd _ => tidy ns seen r
      | _ => tidy ns [] r
      end
  end.
Definition any (ns : list str) (cs : list call) : Prop := forall seen, tidy ns seen cs.
Lemma nodup_snoc {A} (l : list A) x : NoDup l -> ~ In x l -> NoDup (l ++ [x]).
Proof. intros H N. apply NoDup_rev in H. rewrite <- (rev_involutive (l ++ [x])). apply NoDup_rev. rewrite rev_app_distr. cbn. constructor; [rewrite <- in_rev; exact N|exact H]. Qed.
Definition pend_fine (ns seen : list str) (p : pending) : Prop :=
  match p with Some (n, a, _) => declared ns n /\ attrs_fine ns a /\ incl (map fst a) seen | None => True end.
Lemma finish_fine ns lb seen p : pend_fine ns seen p -> Forall (tag_fine ns) (finish lb p).
Proof. destruct p as [[[n a] []]|]; intros H; cbn; repeat constructor; try exact I; apply H. Qed.
Lemma esc_fine ns t : Forall (tag_fine ns) (esc_split t).
Proof. unfold esc_split. apply Forall_map. apply Forall_forall. intros c _. destruct (entity_of c); exact I. Qed.
Lemma asked_fine ns lb cs : forall seen p, tidy ns seen cs -> pend_fine ns seen p -> Forall (tag_fine ns) (asked esc_split lb p cs).
Proof.
  assert (E : forall seen n, declared ns n -> forall b, pend_fine ns seen (Some (n, [], b))) by (intros seen n D b; split; [exact D|]; split; [split; constructor|intros x []]).
  assert (A : forall seen p k v, declared ns k -> ~ In k seen -> pend_fine ns seen p -> pend_fine ns (k :: seen) (with_attr k v p)).
  { intros seen [[[n a] b]|] k v D N H; [|exact I]. destruct H as (Hn & (Ha & Hd) & Hi). split; [exact Hn|]. split.
    - split; [apply Forall_app; split; [exact Ha|]; constructor; [exact D|constructor]|]. rewrite map_app. cbn [map fst]. apply nodup_snoc; [exact Hd|intros I; apply N, Hi, I].
    - rewrite map_app. intros x I. apply in_app_or in I as [I|[<-|[]]]; [right; now apply Hi|now left]. }
  induction cs as [|c cs IH]; intros seen p H P; [constructor|].
  destruct c as [e|n t|n t|n|b n|n|k v|k v|t|t|b n|n]; cbn [asked tidy] in *.
  - constructor; [exact I|]. constructor; [exact I|]. now apply (IH seen).
  - apply Forall_app. split; [eapply finish_fine; exact P|]. constructor; [split; [apply H|split; constructor]|]. repeat (constructor; [exact I|]). apply (IH []); [apply H|exact I].
  - apply Forall_app. split; [eapply finish_fine; exact P|]. constructor; [split; [apply H|split; constructor]|]. apply Forall_app. split; [apply esc_fine|]. repeat (constructor; [exact I|]). apply (IH []); [apply H|exact I].
  - apply Forall_app. split; [eapply finish_fine; exact P|]. apply (IH []); [apply H|apply E, H].
  - apply Forall_app. split; [eapply finish_fine; exact P|]. apply (IH []); [apply H|apply E, H].
  - apply Forall_app. split; [eapply finish_fine; exact P|]. apply (IH []); [apply H|apply E, H].
  - apply (IH (k :: seen)); [apply H|]. apply A; [apply H|apply H|exact P].
  - apply (IH (k :: seen)); [apply H|]. apply A; [apply H|apply H|exact P].
  - apply Forall_app. split; [eapply finish_fine; exact P|]. constructor; [exact I|]. apply (IH []); [exact H|exact I].
  - apply Forall_app. split; [eapply finish_fine; exact P|]. apply Forall_app. split; [apply esc_fine|]. apply (IH []); [exact H|exact I].
  - destruct b; (apply Forall_app; split; [eapply finish_fine; exact P|]); repeat (constructor; [exact I|]); (apply (IH []); [exact H|exact I]).
  - apply Forall_app. split; [eapply finish_fine; exact P|]. repeat (constructor; [exact I|]). apply (IH []); [exact H|exact I].
Qed.
Lemma coalesce_fine ns evs : forall acc, Forall (tag_fine ns) evs -> Forall (tag_fine ns) (coalesce_from acc evs).
Proof.
  assert (E : forall acc, Forall (tag_fine ns) (emit_text acc)) by (intros []; repeat constructor).
  induction evs as [|e evs IH]; intros acc H; [apply E|]. inversion H; subst. destruct e; cbn [coalesce_from]; try (apply Forall_app; split; [apply E|]; constructor; [assumption|now apply IH]). now apply IH.
Qed.
Lemma any_events ns lb cs : any ns cs -> Forall (tag_fine ns) (events_of lb cs).
Proof. intros H. apply coalesce_fine. apply (asked_fine ns lb cs []); [apply H|exact I]. Qed.

(** ** One tag *)

Definition key (c : call) : option str := match c with CAttr k _ | CAttrEsc k _ => Some k | _ => None end.
(** The attributes are among [ks], in this order. *)
Inductive among : list call -> list str -> Prop :=
| am_nil : among [] []
| am_skip a k ks : among a ks -> among a (k :: ks)
| am_take c a k ks : key c = Some k -> among a ks -> among (c :: a) (k :: ks).
Lemma am_none ks : among [] ks. Proof. induction ks; [apply am_nil|now apply am_skip]. Qed.
Lemma am_app a ks b ls : among a ks -> among b ls -> among (a ++ b) (ks ++ ls).
Proof. induction 1; intros B; cbn [app]; [exact B|apply am_skip; auto|apply am_take; auto]. Qed.
Lemma am_opt n o : among (opt_attr n o) [n]. Proof. destruct o; [apply am_take; [reflexivity|apply am_nil]|apply am_none]. Qed.
Lemma am_num n k : among (num_attr n k) [n]. Proof. unfold num_attr. destruct (1 <? k); [apply am_take; [reflexivity|apply am_nil]|apply am_none]. Qed.
Lemma am_map (a : list (str * str)) : among (map (fun kv => CAttrEsc (fst kv) (snd kv)) a) (map fst a).
Proof. induction a as [|kv a IH]; [apply am_nil|]. cbn [map]. apply am_take; [reflexivity|exact IH]. Qed.
Lemma among_tidy ns a ks rest : among a ks -> Forall (declared ns) ks -> NoDup ks -> any ns rest -> forall seen, (forall k, In k ks -> ~ In k seen) -> tidy ns seen (a ++ rest).
Proof.
  intros H. induction H as [|a k ks H IH|c a k ks E H IH]; intros D N R seen S; [apply R| |].
  - inversion D; inversion N; subst. apply IH; auto. intros x I. apply S. now right.
  - inversion D; inversion N; subst. assert (T : declared ns k /\ ~ In k seen /\ tidy ns (k :: seen) (a ++ rest)).
    { split; [assumption|]. split; [apply S; now left|]. apply IH; auto. intros x I [->|J]; [contradiction|]. now apply (S x (or_intror I)). }
    destruct c; try discriminate; injection E as ->; exact T.
Qed.
Definition starts (c : call) (n : str) : Prop := match c with CElem m | CElemIf _ m | CEmpty m => m = n | _ => False end.
Lemma any_start ns c n a ks rest : starts c n -> declared ns n -> among a ks -> Forall (declared ns) ks -> NoDup ks -> any ns rest -> any ns (c :: a ++ rest).
Proof.
  intros S D A K N R seen. assert (T : declared ns n /\ tidy ns [] (a ++ rest)) by (split; [exact D|]; apply (among_tidy ns a ks); auto).
  destruct c; try contradiction; cbn [starts] in S; subst; exact T.
Qed.
(** A tag with attributes whose names are known. *)
Definition knows (std : list str) (n : str) : bool := match prefix_of n with None => true | Some p => existsb (str_eqb (lit "xmlns:" ++ p)) std end.
Fixpoint apart (l : list str) : bool := match l with [] => true | k :: r => negb (existsb (str_eqb k) r) && apart r end.
Lemma apart_nodup l : apart l = true -> NoDup l.
Proof.
  induction l as [|k l IH]; intros H; constructor; cbn [apart] in H; apply andb_true_iff in H as (A & B); auto. intros I. apply negb_true_iff in A.
  assert (existsb (str_eqb k) l = true) by (apply existsb_exists; exists k; split; [exact I|apply str_eqb_refl]). congruence.
Qed.
Lemma knows_declared std ns n : incl std ns -> knows std n = true -> declared ns n.
Proof.
  intros S K. unfold knows, declared in *. destruct (prefix_of n) as [p|]; [|exact I]. right. right. apply existsb_exists in K as (k & I & E). apply str_eqb_eq in E. rewrite E. now apply S.
Qed.
Lemma any_known std ns c n a ks rest : incl std ns -> starts c n -> among a ks -> forallb (knows std) (n :: ks) && apart ks = true -> any ns rest -> any ns (c :: a ++ rest).
Proof.
  intros S C A K R. apply andb_true_iff in K as (K & N). cbn [forallb] in K. apply andb_true_iff in K as (Kn & K).
  apply (any_start ns c n a ks); auto; [eapply knows_declared; eassumption| |now apply apart_nodup]. apply Forall_forall. intros k I. rewrite forallb_forall in K. eapply knows_declared; [exact S|now apply K].
Qed.
Lemma any_end ns n rest : any ns rest -> any ns (CEnd n :: rest). Proof. intros R seen. apply R. Qed.
Lemma any_end_if ns b n rest : any ns rest -> any ns (CEndIf b n :: rest). Proof. intros R seen. apply R. Qed.
Lemma any_text ns t rest : any ns rest -> any ns (CText t :: rest). Proof. intros R seen. apply R. Qed.
Lemma any_text_esc ns t rest : any ns rest -> any ns (CTextEsc t :: rest). Proof. intros R seen. apply R. Qed.
Lemma any_elem_text ns n t rest : declared ns n -> any ns rest -> any ns (CElemText n t :: rest). Proof. intros D R seen. split; [exact D|apply R]. Qed.
Lemma any_elem_text_esc ns n t rest : declared ns n -> any ns rest -> any ns (CElemTextEsc n t :: rest). Proof. intros D R seen. split; [exact D|apply R]. Qed.
Lemma any_nil ns : any ns []. Proof. intros seen. exact I. Qed.
(** Something that can stand before anything. *)
Definition part_ok (ns : list str) (cs : list call) : Prop := forall rest, any ns rest -> any ns (cs ++ rest).
Lemma pk_nil ns : part_ok ns []. Proof. intros rest R. exact R. Qed.
Lemma pk_app ns a b : part_ok ns a -> part_ok ns b -> part_ok ns (a ++ b). Proof. intros A B rest R. rewrite <- app_assoc. apply A, B, R. Qed.
Lemma pk_flat {A} ns (f : A -> list call) l : Forall (fun x => part_ok ns (f x)) l -> part_ok ns (flat_map f l).
Proof. induction 1; cbn [flat_map]; [apply pk_nil|now apply pk_app]. Qed.
Lemma pk_cat {A} ns (f : A -> res (list call)) l cs : cat_calls f l = Ok cs -> (forall x c, In x l -> f x = Ok c -> part_ok ns c) -> part_ok ns cs.
Proof.
  revert cs. induction l as [|x l IH]; intros cs H F; cbn [cat_calls] in H; [injection H as <-; apply pk_nil|]. apply bind_ok in H as (a & Ea & H). apply bind_ok in H as (b & Eb & H).
  injection H as <-. apply pk_app; [apply (F x); [now left|exact Ea]|apply IH; [exact Eb|]; intros; eapply F; [right; eassumption|eassumption]].
Qed.
(** A whole element: the start with its attributes, what is inside, the end. *)
Lemma pk_elem ns c n a ks inner e : starts c n -> declared ns n -> among a ks -> Forall (declared ns) ks -> NoDup ks -> part_ok ns inner -> (forall rest, any ns rest -> any ns (e ++ rest)) ->
  part_ok ns (c :: a ++ inner ++ e).
Proof. intros S D A K N P E rest R. cbn [app]. rewrite <- !app_assoc. apply (any_start ns c n a ks); auto. Qed.
Lemma fine_keys ns (a : list (str * str)) : attrs_fine ns a -> Forall (declared ns) (map fst a) /\ NoDup (map fst a).
Proof. intros (D & N). split; [apply Forall_map; exact D|exact N]. Qed.
Lemma but_keys ns but (a : list (str * str)) : NoDup but -> Forall (declared ns) but -> attrs_but ns but a -> Forall (declared ns) (but ++ map fst a) /\ NoDup (but ++ map fst a).
Proof.
  intros N D (F & B). apply fine_keys in F as (F & M). split; [apply Forall_app; auto|]. clear D. induction but as [|k but IH]; [exact M|]. inversion N; subst. cbn [app]. constructor.
  - intros I. apply in_app_or in I as [I|I]; [contradiction|]. apply in_map_iff in I as (kv & E & I). rewrite Forall_forall in B. apply (B kv I). left. congruence.
  - apply IH; [assumption|]. eapply Forall_impl; [|exact B]. intros kv Q I. apply Q. now right.
Qed.

(** ** Trees, cells, tables, validations, scripts *)

Definition std : list str := [lit "xmlns:office"; lit "xmlns:table"; lit "xmlns:text"; lit "xmlns:style"; lit "xmlns:number"; lit "xmlns:script"; lit "xmlns:xlink"; lit "xmlns:dc"; lit "xmlns:draw"; lit "xmlns:svg"].
Ltac known S := match goal with |- declared _ _ => apply (knows_declared std _ _ S); vm_compute; reflexivity end.
Ltac knowns S := repeat (apply Forall_cons; [known S|]); try apply Forall_nil.
Section Body.
  Variables (ns : list str) (S : incl std ns).
  Notation part_ok := (part_ok ns).
  Lemma tree_list n a c : tree_fine ns (XTag n a c) <-> declared ns n /\ attrs_fine ns a /\ Forall (tree_fine ns) c.
  Proof.
    cbn [tree_fine]. split; intros (A & B & C); split; auto; split; auto; clear - C; [induction c as [|y c IH]; constructor; [apply C|apply IH, C]|induction C; cbn; auto].
  Qed.
  Lemma pk_node x : tree_fine ns x -> part_ok (write_node x).
  Proof.
    induction x as [t|n a c IH] using xnode_ind'; intros H; [intros rest R; now apply any_text_esc|]. apply tree_list in H as (D & A & C). apply fine_keys in A as (A & N).
    cbn [write_node]. apply (pk_elem ns _ n _ (map fst a)); auto; [reflexivity|apply am_map| |intros; now apply any_end_if]. apply pk_flat. clear - IH C. induction IH; inversion C; subst; constructor; auto.
  Qed.
  Lemma pk_nodes l : Forall (tree_fine ns) l -> part_ok (flat_map write_node l).
  Proof. intros H. apply pk_flat. eapply Forall_impl; [|exact H]. apply pk_node. Qed.
  Lemma pk_opt_elem n o : declared ns n -> part_ok (opt_elem n o).
  Proof. intros D. destruct o; [|apply pk_nil]. intros rest R. cbn [app opt_elem]. first [now apply any_elem_text_esc|apply (any_start ns _ n [] []); [reflexivity|exact D|apply am_nil|constructor|constructor|]; apply any_text_esc, any_end, R]. Qed.
  Lemma pk_note a : note_fine ns a -> part_ok (write_annotation a).
  Proof.
    intros (A & T). assert (K : Forall (declared ns) ([lit "office:display"; lit "office:name"] ++ map fst (an_attrs a)) /\ NoDup ([lit "office:display"; lit "office:name"] ++ map fst (an_attrs a))).
    { apply but_keys; [apply apart_nodup; vm_compute; reflexivity|knowns S|exact A]. }
    destruct K as (K & N). intros rest R. unfold write_annotation. cbn [app]. rewrite <- !app_assoc. cbn [app].
    match goal with |- any _ (?c :: ?x :: ?y :: ?m ++ ?r) => change (any ns (c :: (x :: y :: m) ++ r)) end.
    apply (any_start ns _ t_annotation _ _ _) with (4 := K); [reflexivity|known S| |exact N|].
    { apply am_take; [reflexivity|]. apply am_take; [reflexivity|]. apply am_map. }
    apply pk_opt_elem; [known S|]. apply pk_opt_elem; [known S|]. apply pk_nodes; [exact T|]. now apply any_end.
  Qed.
  Lemma pk_image i : image_fine ns i -> part_ok (write_image i).
  Proof.
    intros (A & T) rest R. apply fine_keys in A as (A & N). unfold write_image. cbn [app]. rewrite <- !app_assoc. apply (any_start ns _ t_image _ (map fst (im_attrs i))); auto; [reflexivity|known S|apply am_map|].
    assert (R' : any ns (flat_map write_node (im_text i) ++ [CEnd t_image] ++ rest)) by (apply pk_nodes; [exact T|now apply any_end]).
    destruct (im_data i); [|exact R']. cbn [app]. apply (any_start ns _ t_data [] []); [reflexivity|known S|apply am_nil|constructor|constructor|]. apply any_text, any_end, R'.
  Qed.
  Lemma pk_frame f : dframe_fine ns f -> part_ok (write_frame f).
  Proof.
    intros (A & T) rest R. apply fine_keys in A as (A & N). unfold write_frame. cbn [app]. rewrite <- !app_assoc. apply (any_start ns _ t_frame _ (map fst (df_attrs f))); auto; [reflexivity|known S|apply am_map|].
    apply pk_flat; [eapply Forall_impl; [|exact T]; apply pk_image|]. apply pk_opt_elem; [known S|]. apply pk_opt_elem; [known S|]. now apply any_end.
  Qed.
  Lemma pk_para t : part_ok (para t).
  Proof. intros rest R. cbn [app para]. apply (any_start ns _ t_p [] []); [reflexivity|known S|apply am_nil|constructor|constructor|]. apply any_text, any_end, R. Qed.
  Definition value_keys : list str := [lit "office:value-type"; lit "office:date-value"; lit "office:time-value"; lit "office:boolean-value"; lit "office:currency"; lit "office:value"].
  Lemma am_value v : among (value_attrs v) value_keys.
  Proof. destruct v; cbn; unfold value_keys; repeat first [apply am_none|apply am_take; [reflexivity|]|apply am_skip]. Qed.
  Definition cell_keys : list str :=
    [lit "table:formula"; lit "table:number-columns-repeated"; lit "table:style-name"; lit "table:content-validation-name"; lit "table:number-rows-spanned"; lit "table:number-columns-spanned";
     lit "table:number-matrix-rows-spanned"; lit "table:number-matrix-columns-spanned"] ++ value_keys.
  Lemma am_cell ds c k : among (cell_attrs ds c k) cell_keys.
  Proof.
    unfold cell_attrs, cell_keys. change ([lit "table:formula"; ?b; ?c; ?d; ?e; ?f; ?g; ?h] ++ value_keys) with ([lit "table:formula"] ++ [b] ++ [c] ++ [d; e; f; g; h] ++ value_keys).
    apply am_app; [apply am_opt|]. apply am_app; [apply am_num|]. apply am_app; [apply am_opt|]. apply am_app; [|apply am_value]. destruct (c_extra c) as [x|]; [|apply am_none]. unfold extra_attrs.
    repeat (match goal with |- among (_ ++ _) (?a :: ?l) => change (a :: l) with ([a] ++ l) end; apply am_app; [first [apply am_opt|apply am_num]|]). apply am_num.
  Qed.
  Lemma pk_value v : (forall l, v = VTextXml l -> Forall (tree_fine ns) l) -> part_ok (value_body v).
  Proof.
    intros H. destruct v; cbn [value_body]; try apply pk_para; [apply pk_nil| | |].
    - intros rest R. cbn [app]. apply (any_start ns _ t_p [] []); [reflexivity|known S|apply am_nil|constructor|constructor|]. apply any_text_esc, any_text, any_text, any_end, R.
    - intros rest R. induction (split_lines s) as [|t l IH]; [exact R|]. cbn [map app]. apply any_elem_text_esc; [known S|exact IH].
    - apply pk_nodes. now apply H.
  Qed.
  Lemma pk_cell ds c h k : cell_fine ns c -> part_ok (write_cell ds c h k).
  Proof.
    intros (V & X) rest R. unfold write_cell. cbn [app]. rewrite <- app_assoc. apply (any_known std ns _ (cell_tag h) _ cell_keys); [exact S|reflexivity|apply am_cell|destruct h; vm_compute; reflexivity|].
    unfold cell_body. rewrite <- !app_assoc. apply pk_value; [exact V|]. destruct (c_extra c) as [x|]; [|now apply any_end_if]. destruct (X x eq_refl) as (A & F). unfold extra_body. rewrite <- app_assoc.
    assert (R' : any ns (flat_map write_frame (x_frames x) ++ [CEndIf (cell_has_subs c) (cell_tag h)] ++ rest)).
    { apply pk_flat; [eapply Forall_impl; [|exact F]; apply pk_frame|]. now apply any_end_if. }
    destruct (x_annotation x); [|exact R']. apply pk_note; [now apply A|exact R'].
  Qed.

  (** The items of a table. *)
  Definition item_fine (i : titem) : Prop :=
    match i with
    | TOpen n a | TEmpty n a => exists ks, among a ks /\ forallb (knows std) (n :: ks) && apart ks = true
    | TClose _ => True
    | TCell c _ _ => cell_fine ns c
    | TNode x => tree_fine ns x
    end.
  Lemma pk_item ds i : item_fine i -> part_ok (TableModel.item_calls ds i).
  Proof.
    destruct i as [n a|n|n a|c h k|x]; cbn [item_fine TableModel.item_calls]; intros H.
    - destruct H as (ks & A & K). intros rest R. cbn [app]. now apply (any_known std ns _ n _ ks).
    - intros rest R. now apply any_end.
    - destruct H as (ks & A & K). intros rest R. cbn [app]. now apply (any_known std ns _ n _ ks).
    - now apply pk_cell.
    - now apply pk_node.
  Qed.
  Ltac lits ks := exists ks; split; [|vm_compute; reflexivity].
  Lemma am_display d : among (display_attr d) [a_disp]. Proof. destruct d; [apply am_none|apply am_take; [reflexivity|apply am_nil]]. Qed.
  Lemma am_vis v : among (vis_attr v) [a_vis]. Proof. destruct v; first [apply am_none|apply am_take; [reflexivity|apply am_nil]]. Qed.
  Lemma am_row_header h : among (row_header_attrs h) [a_style; a_dstyle; a_vis].
  Proof. unfold row_header_attrs. change [a_style; a_dstyle; a_vis] with ([a_style] ++ [a_dstyle] ++ [a_vis]). apply am_app; [apply am_opt|]. apply am_app; [apply am_opt|apply am_vis]. Qed.
  Lemma it_col m c : item_fine (fst (col_item m c)).
  Proof.
    unfold col_item. destruct (hget c m) as [h|]; cbn [fst item_fine].
    - lits [a_crep; a_style; a_dstyle; a_vis]. unfold col_attrs. change [a_crep; a_style; a_dstyle; a_vis] with ([a_crep] ++ [a_style] ++ [a_dstyle] ++ [a_vis]).
      apply am_app; [apply am_num|]. apply am_app; [apply am_opt|]. apply am_app; [apply am_opt|apply am_vis].
    - lits (@nil str). apply am_nil.
  Qed.
  Definition group_tag (t : str) : Prop := t = t_cgroup \/ t = t_rgroup.
  Lemma it_group t d : group_tag t -> item_fine (TOpen t (display_attr d)).
  Proof. intros [->| ->]; lits [a_disp]; apply am_display. Qed.
  Lemma it_opens t k gs : group_tag t -> Forall item_fine (opens t k gs).
  Proof. intros G. unfold opens. apply Forall_map. apply Forall_forall. intros g _. now apply it_group. Qed.
  Lemma it_closes t k gs : Forall item_fine (closes t k gs).
  Proof. unfold closes. apply Forall_map. apply Forall_forall. intros g _. exact I. Qed.
  Lemma it_cols s mx n : forall c o, write_cols s mx n c = Ok o -> Forall item_fine o.
  Proof.
    induction n as [|n IH]; intros c o H; cbn [write_cols] in H; [injection H as <-; constructor|]. destruct (mx <=? c); [injection H as <-; constructor|].
    pose proof (it_col (tb_cols s) c) as C. destruct (col_item (tb_cols s) c) as [it span]. cbn [fst] in C. destruct (span =? 0); [discriminate|].
    apply bind_ok in H as (c' & _ & H). apply bind_ok in H as (r & Er & H). assert (E : o = opens t_cgroup c (tb_gcols s) ++ around (in_header (tb_hcols s) c) t_hcols [it] ++ closes t_cgroup c (tb_gcols s) ++ r) by congruence.
    rewrite E. clear H E. apply Forall_app. split; [apply it_opens; now left|]. apply Forall_app. split; [|apply Forall_app; split; [apply it_closes|eapply IH; exact Er]].
    unfold around. destruct (in_header (tb_hcols s) c); [|constructor; [exact C|constructor]]. cbn [app]. constructor; [|constructor; [exact C|constructor; [exact I|constructor]]].
    lits (@nil str). apply am_nil.
  Qed.
  Lemma it_open_groups r rep gs : forall s o s', open_groups r rep gs s = Ok (o, s') -> Forall item_fine o.
  Proof.
    induction gs as [|g gs IH]; intros s o s' H; cbn [open_groups] in H; [assert (o = []) by congruence; subst; constructor|]. apply bind_ok in H as (b & _ & H). destruct b; [|eapply IH; exact H].
    apply bind_ok in H as ((o1 & s1) & E & H). assert (Eo : o = TOpen t_rgroup (display_attr (g_display g)) :: o1) by congruence. rewrite Eo. constructor; [apply it_group; now right|eapply IH; exact E].
  Qed.
  Lemma it_close_groups r rep gs : forall s o s', close_groups r rep gs s = Ok (o, s') -> Forall item_fine o.
  Proof.
    induction gs as [|g gs IH]; intros s o s' H; cbn [close_groups] in H; [assert (o = []) by congruence; subst; constructor|]. apply bind_ok in H as (b & _ & H). destruct b; [|eapply IH; exact H].
    apply bind_ok in H as (n & _ & H). apply bind_ok in H as ((o1 & s1) & E & H). assert (Eo : o = TClose t_rgroup :: o1) by congruence. rewrite Eo. constructor; [exact I|eapply IH; exact E].
  Qed.
  Lemma it_close_at r gs : forall n o m, close_at r gs n = Ok (o, m) -> Forall item_fine o.
  Proof.
    induction gs as [|g gs IH]; intros n o m H; cbn [close_at] in H; [assert (o = []) by congruence; subst; constructor|]. destruct (g_to g =? r); [|eapply IH; exact H].
    apply bind_ok in H as (n' & _ & H). apply bind_ok in H as ((o1 & s1) & E & H). assert (Eo : o = TClose t_rgroup :: o1) by congruence. rewrite Eo. constructor; [exact I|eapply IH; exact E].
  Qed.
  Lemma it_if (b : bool) i : item_fine i -> Forall item_fine (if b then [i] else []).
  Proof. intros H. destruct b; constructor; [exact H|constructor]. Qed.
  Lemma it_hrows : item_fine (TOpen t_hrows []). Proof. lits (@nil str). apply am_nil. Qed.
  Lemma it_filler h k : item_fine (empty_cells h k).
  Proof. unfold empty_cells, item_fine. exists [a_crep]. split; [destruct (1 <? k); [apply am_take; [reflexivity|apply am_nil]|apply am_none]|destruct h; vm_compute; reflexivity]. Qed.
  Lemma it_start sh r rep back s o s' : start_row sh r rep back s = Ok (o, s') -> Forall item_fine o.
  Proof.
    unfold start_row. intros H. apply bind_ok in H as ((o1 & s1) & E1 & H). apply bind_ok in H as (hd & _ & H). apply bind_ok in H as (a & Ea & H).
    assert (Eo : o = o1 ++ (if hd || w_head s1 then [TOpen t_hrows []] else []) ++ TOpen t_row a :: (if 0 <? back then [TEmpty t_cell (num_attr a_crep back)] else [])) by (cbn [w_head] in H; congruence). clear H. rewrite Eo.
    apply Forall_app. split; [eapply it_open_groups; exact E1|]. apply Forall_app. split; [apply it_if, it_hrows|]. constructor; [|apply it_if; lits [a_crep]; apply am_num].
    unfold row_attrs in Ea. apply bind_ok in Ea as (h & _ & Ea). assert (a = match h with Some h => num_attr a_rrep (ra_repeat (h_attr h)) ++ row_header_attrs h | None => [] end) as -> by congruence.
    lits ([a_rrep] ++ [a_style; a_dstyle; a_vis]). destruct h as [h|]; [|apply am_none]. apply am_app; [apply am_num|apply am_row_header].
  Qed.
  Lemma it_end sh r rep s o s' : end_row sh r rep s = Ok (o, s') -> Forall item_fine o.
  Proof.
    unfold end_row. intros H. apply bind_ok in H as (hd & _ & H). apply bind_ok in H as ((o1 & s1) & E & H). assert (Eo : o = TClose t_row :: (if w_head s then [TClose t_hrows] else []) ++ o1) by congruence. rewrite Eo.
    constructor; [exact I|]. apply Forall_app. split; [apply it_if; exact I|eapply it_close_groups; exact E].
  Qed.
  Lemma it_last s : Forall item_fine (end_last_row s).
  Proof.
    unfold end_last_row. constructor; [exact I|]. apply Forall_app. split; [apply it_if; exact I|]. apply Forall_forall. intros i H. apply repeat_spec in H. subst. exact I.
  Qed.
  Lemma it_empty_row sh r rep w o : empty_row sh r rep w = Ok o -> Forall item_fine o.
  Proof.
    unfold empty_row, empty_row_attrs. intros H. apply bind_ok in H as (a & Ea & H). apply bind_ok in Ea as (h & _ & Ea). assert (Eo : o = [TOpen t_row a; TEmpty t_cell [CAttr a_crep (show_N w)]; TClose t_row]) by congruence. rewrite Eo.
    assert (a = CAttr a_rrep (show_N rep) :: match h with Some h => row_header_attrs h | None => [] end) as -> by congruence. constructor; [|constructor; [|constructor; [exact I|constructor]]].
    - lits (a_rrep :: [a_style; a_dstyle; a_vis]). apply am_take; [reflexivity|]. destruct h; [apply am_row_header|apply am_none].
    - lits [a_crep]. apply am_take; [reflexivity|apply am_nil].
  Qed.
  Lemma it_empty_in sh r w s o s' : empty_row_in sh r w s = Ok (o, s') -> Forall item_fine o.
  Proof.
    unfold empty_row_in. intros H. apply bind_ok in H as ((c & n) & Ec & H). apply bind_ok in H as (row & Er & H).
    match type of H with Ok (?x, _) = _ => assert (Eo : o = x) by congruence end. clear H. rewrite Eo.
    apply Forall_app. split; [apply it_if; exact I|]. apply Forall_app. split; [eapply it_close_at; exact Ec|]. apply Forall_app. split; [apply it_opens; now right|].
    apply Forall_app. split; [apply it_if, it_hrows|eapply it_empty_row; exact Er].
  Qed.
  Lemma it_empty_rows_in sh n : forall r w s o s', empty_rows_in sh n r w s = Ok (o, s') -> Forall item_fine o.
  Proof.
    induction n as [|n IH]; intros r w s o s' H; cbn [empty_rows_in] in H; [assert (o = []) by congruence; subst; constructor|]. apply bind_ok in H as ((a & s1) & Ea & H). apply bind_ok in H as ((b & s2) & Eb & H).
    assert (o = a ++ b) as -> by congruence. apply Forall_app. split; [eapply it_empty_in; exact Ea|eapply IH; exact Eb].
  Qed.
  Lemma it_empty_rows sh r rep w s o s' : empty_rows sh r rep w s = Ok (o, s') -> Forall item_fine o.
  Proof.
    unfold empty_rows. destruct (negb (is_nil (tb_grows sh)) || CellModel.is_some (tb_hrows sh)); intros H.
    - apply bind_ok in H as (x & _ & H). eapply it_empty_rows_in; exact H.
    - apply bind_ok in H as (x & E & H). assert (o = x) as -> by congruence. eapply it_empty_row; exact E.
  Qed.
  Lemma it_pieces f l : (forall h k, item_fine (f h k)) -> forall o, pieces f l = Ok o -> Forall item_fine o.
  Proof.
    intros F. induction l as [|s l IH]; intros o H; cbn [pieces] in H; [assert (o = []) by congruence; subst; constructor|]. apply bind_ok in H as (k & _ & H). apply bind_ok in H as (r & E & H).
    assert (o = f (s_hidden s) k :: r) as -> by congruence. constructor; auto.
  Qed.
  Lemma it_gap spans r c w o : gap_cells spans r c w = Ok o -> Forall item_fine o.
  Proof.
    unfold gap_cells. destruct (0 <? w); intros H; [|assert (o = []) by congruence; subst; constructor]. apply bind_ok in H as (sp & _ & H). eapply it_pieces; [|exact H]. apply it_filler.
  Qed.
  Lemma it_at sh mx pv spans s p c next o sp s' : cell_fine ns c -> write_cell_at sh mx pv spans s p c next = Ok (o, sp, s') -> Forall item_fine o.
  Proof.
    intros F H. unfold write_cell_at in H. destruct p as [row col]. destruct (match next with Some q => q | None => mx end) as [nrow ncol].
    apply bind_ok in H as (fr & _ & H). apply bind_ok in H as (fc & _ & H). destruct (match pv with Some v => (pv_row v, pv_rep v, pv_col v) | None => (0, 1, 0) end) as [[prow prep] pcol].
    apply bind_ok in H as (br & _ & H). apply bind_ok in H as (bc & _ & H). apply bind_ok in H as ((o1 & s1) & E1 & H). apply bind_ok in H as ((o2 & s2) & E2 & H). apply bind_ok in H as ((o3 & s3) & E3 & H).
    apply bind_ok in H as ((spans' & spl) & _ & H). apply bind_ok in H as (o4 & E4 & H). apply bind_ok in H as (o5 & E5 & H).
    assert (Eo : o = o1 ++ o2 ++ o3 ++ o4 ++ o5 ++ match next with None => end_last_row s3 | Some _ => [] end) by congruence. rewrite Eo. clear H Eo.
    apply Forall_app. split. { destruct ((0 <? br) && _); [eapply it_end; exact E1|assert (o1 = []) as -> by congruence; constructor]. }
    apply Forall_app. split.
    { destruct (0 <? br); [|assert (o2 = []) as -> by congruence; constructor]. destruct (br <? prep); [discriminate|]. apply bind_ok in E2 as (sy & _ & E2). apply bind_ok in E2 as (r0 & _ & E2).
      destruct (0 <? sy); [eapply it_empty_rows; exact E2|assert (o2 = []) as -> by congruence; constructor]. }
    apply Forall_app. split. { destruct ((0 <? br) || _); [eapply it_start; exact E3|assert (o3 = []) as -> by congruence; constructor]. }
    apply Forall_app. split. { eapply it_pieces; [|exact E4]. intros h k. exact F. }
    apply Forall_app. split; [|destruct next; [constructor|apply it_last]].
    assert (G : forall w x, (if 0 <? w then let* c0 := add32 col (c_repeat c) in gap_cells spans' row c0 w else Ok []) = Ok x -> Forall item_fine x).
    { intros w x H. destruct (0 <? w); [|assert (x = []) as -> by congruence; constructor]. apply bind_ok in H as (c0 & _ & H). eapply it_gap; exact H. }
    cbv zeta in E5. destruct (0 <? fr); [eapply G; exact E5|]. destruct (0 <? fc); [|assert (o5 = []) as -> by congruence; constructor]. destruct (fc <? c_repeat c); [discriminate|]. eapply G; exact E5.
  Qed.
  Lemma it_cells sh mx l : forall pv spans s o, Forall (fun kv => cell_fine ns (snd kv)) l -> write_cells sh mx pv spans s l = Ok o -> Forall item_fine o.
  Proof.
    induction l as [|[p c] l IH]; intros pv spans s o F H; cbn [write_cells] in H; [assert (o = []) as -> by congruence; constructor|]. inversion F; subst.
    apply bind_ok in H as (((o1 & sp) & s1) & E1 & H). apply bind_ok in H as (r & E2 & H). assert (o = o1 ++ r) as -> by congruence. apply Forall_app. split; [eapply it_at; [|exact E1]; assumption|eapply IH; [|exact E2]; assumption].
  Qed.
  Lemma it_nodes l e : Forall (tree_fine ns) e -> Forall item_fine (nodes_in l e).
  Proof. intros H. unfold nodes_in. apply Forall_map. apply Forall_forall. intros x I. apply filter_In in I as (I & _). rewrite Forall_forall in H. now apply H. Qed.
  Lemma pk_items ds l : Forall item_fine l -> part_ok (flat_map (TableModel.item_calls ds) l).
  Proof. intros H. apply pk_flat. eapply Forall_impl; [|exact H]. intros i. apply pk_item. Qed.
  Lemma pk_sheet ds sh cs : sheet_fine ns sh -> write_sheet ds sh = Ok cs -> part_ok cs.
  Proof.
    intros (C & X) H. unfold write_sheet in H. apply bind_ok in H as (a & Ea & H). apply bind_ok in H as (body & Eb & H).
    assert (E : cs = CElem t_table :: a ++ flat_map (TableModel.item_calls ds) body ++ CEnd t_table :: flat_map (TableModel.item_calls ds) (nodes_in epilogue (tb_extra sh))) by congruence. rewrite E. clear H E.
    unfold table_items in Eb. apply bind_ok in Eb as (mx & _ & Eb). apply bind_ok in Eb as (cols & Ec & Eb). apply bind_ok in Eb as (rows & Er & Eb). assert (body = nodes_in prelude (tb_extra sh) ++ cols ++ rows) as -> by congruence.
    intros rest R. cbn [app]. rewrite <- !app_assoc. cbn [app].
    apply (any_known std ns _ t_table _ ([lit "table:name"] ++ [a_style] ++ [lit "table:print-ranges"] ++ [lit "table:print"] ++ [lit "table:display"])); [exact S|reflexivity| |vm_compute; reflexivity|].
    - unfold table_attrs in Ea. apply bind_ok in Ea as (pr & Ep & Ea).
      assert (a = [CAttrEsc (lit "table:name") (tb_name sh)] ++ opt_attr a_style (tb_style sh) ++ pr ++ (if tb_print sh then [] else [CAttr (lit "table:print") (lit "false")]) ++ (if tb_display sh then [] else [CAttr (lit "table:display") (lit "false")])) as -> by (cbn [app]; congruence).
      apply am_app; [apply am_take; [reflexivity|apply am_nil]|]. apply am_app; [apply am_opt|]. apply am_app.
      + destruct (tb_ranges sh); [|assert (pr = []) as -> by congruence; apply am_none]. apply bind_ok in Ep as (t & _ & Ep). assert (pr = [CAttrEsc (lit "table:print-ranges") t]) as -> by congruence. apply am_take; [reflexivity|apply am_nil].
      + apply am_app; [destruct (tb_print sh)|destruct (tb_display sh)]; first [apply am_none|apply am_take; [reflexivity|apply am_nil]].
    - apply pk_items; [|apply any_end; apply pk_items; [now apply it_nodes|exact R]]. apply Forall_app. split; [now apply it_nodes|]. apply Forall_app. split.
      + unfold write_table_columns in Ec. apply bind_ok in Ec as (m & _ & Ec). eapply it_cols; exact Ec.
      + eapply it_cells; [exact C|exact Er].
  Qed.
  Lemma pk_sheets ds l cs : Forall (sheet_fine ns) l -> sheets_calls ds l = Ok cs -> part_ok cs.
  Proof.
    intros F. revert cs. induction F as [|sh l H _ IH]; intros cs E; cbn [sheets_calls] in E; [assert (cs = []) as -> by congruence; apply pk_nil|].
    apply bind_ok in E as (a & Ea & E). apply bind_ok in E as (b & Eb & E). assert (cs = a ++ b) as -> by congruence. apply pk_app; [eapply pk_sheet; eassumption|now apply IH].
  Qed.
End Body.

(** ** Styles *)

Section Styles.
  Variables (ns : list str) (S : incl std ns).
  Notation part_ok := (part_ok ns).
  Lemma am_attrs a : among (attr_calls a) (map fst a). Proof. apply am_map. Qed.
  Lemma pk_empty n a : declared ns n -> attrs_fine ns a -> part_ok (CEmpty n :: attr_calls a).
  Proof. intros D A rest R. apply fine_keys in A as (A & N). cbn [app]. apply (any_start ns _ n _ (map fst a)); auto; [reflexivity|apply am_attrs]. Qed.
  Lemma pk_props n a : declared ns n -> attrs_fine ns a -> part_ok (prop_calls n a).
  Proof. intros D A. unfold prop_calls. destruct (is_nil a); [apply pk_nil|now apply pk_empty]. Qed.
  Lemma pk_wrap n inner : declared ns n -> part_ok inner -> part_ok (CElem n :: inner ++ [CEnd n]).
  Proof. intros D I rest R. cbn [app]. rewrite <- app_assoc. apply (any_start ns _ n [] []); [reflexivity|exact D|apply am_nil|constructor|constructor|]. apply I. now apply any_end. Qed.
  Lemma pk_wrap_if b n inner : declared ns n -> part_ok inner -> part_ok (CElemIf b n :: inner ++ [CEndIf b n]).
  Proof. intros D I rest R. cbn [app]. rewrite <- app_assoc. apply (any_start ns _ n [] []); [reflexivity|exact D|apply am_nil|constructor|constructor|]. apply I. now apply any_end_if. Qed.
  Definition map_keys : list str := [lit "style:condition"; lit "style:apply-style-name"; lit "style:base-cell-address"].
  Lemma pk_smap m cs : smap_calls m = Ok cs -> part_ok cs.
  Proof.
    intros H. unfold smap_calls in H. apply bind_ok in H as (b & Eb & H). injection H as <-. intros rest R.
    cbn [app]. match goal with |- any _ (?c :: ?x :: ?y :: ?b ++ ?r) => change (any ns (c :: (x :: y :: b) ++ r)) end.
    apply (any_known std ns _ t_map _ map_keys); [exact S|reflexivity| |vm_compute; reflexivity|exact R]. unfold map_keys. apply am_take; [reflexivity|]. apply am_take; [reflexivity|].
    destruct (sp_base m); [|injection Eb as <-; apply am_none]. apply bind_ok in Eb as (t & _ & Eb). injection Eb as <-. apply am_take; [reflexivity|apply am_nil].
  Qed.
  Lemma pk_para_props b : style_fine ns b -> part_ok (para_calls b).
  Proof.
    intros (_ & _ & P & _ & T). unfold para_calls. destruct (is_nil (sb_para b)); [apply pk_nil|]. destruct (sb_tabs b) as [l|]; [|apply pk_empty; [known S|exact P]].
    intros rest R. apply fine_keys in P as (P & N). cbn [app]. rewrite <- !app_assoc. apply (any_start ns _ t_para _ (map fst (sb_para b))); auto; [reflexivity|known S|apply am_attrs|].
    cbn [app]. rewrite <- app_assoc. apply (any_start ns _ t_tabs [] []); [reflexivity|known S|apply am_nil|constructor|constructor|].
    apply pk_flat; [|apply any_end, any_end, R]. specialize (T l eq_refl). eapply Forall_impl; [|exact T]. intros a A. apply pk_empty; [known S|exact A].
  Qed.
  Lemma pk_style_inner f b cs : style_fine ns b -> declared ns (main_tag f) -> style_inner f b = Ok cs -> part_ok cs.
  Proof.
    intros F D H. pose proof F as (_ & M & P & T & _). assert (Dt : declared ns t_text) by known S. assert (Dp : declared ns t_para) by known S.
    destruct f; cbn [style_inner] in H; try (injection H as <-; now apply pk_props).
    - apply bind_ok in H as (m & Em & H). injection H as <-. repeat (apply pk_app; [now apply pk_props|]). destruct (sb_maps b) as [l|]; [|injection Em as <-; apply pk_nil].
      eapply pk_cat; [exact Em|]. intros x c _ E. eapply pk_smap; exact E.
    - injection H as <-. apply pk_app; [now apply pk_para_props|now apply pk_props].
    - injection H as <-. repeat (apply pk_app; [now apply pk_props|]). now apply pk_props.
  Qed.
  Lemma own_keys a : attrs_fine ns a -> Forall (declared ns) (map fst (filter own_attr a)) /\ NoDup (map fst (filter own_attr a)) /\ ~ In k_name (map fst (filter own_attr a)) /\ ~ In k_family (map fst (filter own_attr a)).
  Proof.
    intros (A & N). assert (Sub : forall k, In k (map fst (filter own_attr a)) -> In k (map fst a)).
    { intros k H. apply in_map_iff in H as (kv & <- & H). apply filter_In in H as (H & _). now apply in_map. }
    split; [apply Forall_map, Forall_forall; intros kv H; apply filter_In in H as (H & _); rewrite Forall_forall in A; now apply A|]. split.
    - clear - N. induction a as [|kv a IH]; cbn [filter map]; [constructor|]. inversion N; subst. destruct (own_attr kv); [|now apply IH]. cbn [map]. constructor; [|now apply IH].
      intros H. apply in_map_iff in H as (kv' & E & H). apply filter_In in H as (H & _). apply H1. rewrite <- E. now apply in_map.
    - split; intros H; apply in_map_iff in H as (kv & E & H); apply filter_In in H as (_ & H); unfold own_attr in H; rewrite E in H; vm_compute in H; discriminate.
  Qed.
  Lemma pk_style f n u b cs : style_fine ns b -> declared ns (main_tag f) -> style_calls f n u b = Ok cs -> part_ok cs.
  Proof.
    intros F D H. unfold style_calls in H. apply bind_ok in H as (inner & Ei & H).
    match type of H with Ok ?x = _ => assert (E : cs = x) by congruence end. rewrite E. clear H E. intros rest R. pose proof (own_keys _ (proj1 F)) as (K & N & N1 & N2).
    assert (I : any ns (inner ++ [CEndIf (negb (style_empty f b)) (style_tag u)] ++ rest)) by (eapply pk_style_inner; eauto; now apply any_end_if).
    set (ks := k_name :: k_family :: map fst (filter own_attr (sb_attr b))).
    cbn [app]. rewrite <- !app_assoc. cbn [app]. rewrite <- !app_assoc.
    match goal with |- any _ (?c :: ?x ++ ?y :: ?z ++ ?r) => replace (c :: x ++ y :: z ++ r) with (c :: (x ++ y :: z) ++ r) by (now rewrite <- app_assoc) end.
    apply (any_start ns _ (style_tag u) _ ks); [reflexivity|destruct u; known S| | | |exact I].
    - unfold ks. destruct u; cbn [app]; [apply am_skip|apply am_take; [reflexivity|]..]; (apply am_take; [reflexivity|apply am_attrs]).
    - constructor; [known S|]. constructor; [known S|]. exact K.
    - constructor; [|constructor; [exact N2|exact N]]. intros [H|H]; [vm_compute in H; discriminate|contradiction].
  Qed.
  Lemma pk_pair_map (m : str * str) : part_ok [CEmpty t_map; CAttrEsc (lit "style:condition") (fst m); CAttrEsc (lit "style:apply-style-name") (snd m)].
  Proof.
    intros rest R. cbn [app]. match goal with |- any _ (?c :: ?x :: ?y :: ?r) => change (any ns (c :: [x; y] ++ r)) end.
    apply (any_known std ns _ t_map _ map_keys); [exact S|reflexivity| |vm_compute; reflexivity|exact R]. apply am_take; [reflexivity|]. apply am_take; [reflexivity|]. apply am_none.
  Qed.
  Lemma pk_part p : attrs_fine ns (pt_attr p) -> part_ok (part_calls p).
  Proof.
    intros A. assert (D : declared ns (part_tag (pt_type p))) by (destruct (pt_type p); known S). pose proof A as A0. apply fine_keys in A0 as (K & N).
    assert (E : part_ok (CEmpty (part_tag (pt_type p)) :: attr_calls (pt_attr p))) by now apply pk_empty.
    assert (T : forall c e, starts c (part_tag (pt_type p)) -> (forall rest, any ns rest -> any ns (e ++ rest)) -> part_ok (c :: attr_calls (pt_attr p) ++ e)).
    { intros c e Hc He rest R. cbn [app]. rewrite <- app_assoc. apply (any_start ns c (part_tag (pt_type p)) _ (map fst (pt_attr p))); auto. apply am_attrs. }
    assert (X : forall t, part_ok (match pt_content p with
      | Some (c :: t) => CElemIf true (part_tag (pt_type p)) :: attr_calls (pt_attr p) ++ [CTextEsc (c :: t); CEndIf true (part_tag (pt_type p))]
      | _ => CElemIf false (part_tag (pt_type p)) :: attr_calls (pt_attr p) ++ [CEndIf false (part_tag (pt_type p))] end) \/ t = 0%N).
    { intros t. left. destruct (pt_content p) as [[|c l]|]; apply T; try reflexivity; intros rest R; cbn [app]; [now apply any_end_if|apply any_text_esc; now apply any_end_if|now apply any_end_if]. }
    unfold part_calls. destruct (pt_type p); try exact E; try (destruct (X 1%N) as [Y|Y]; [exact Y|discriminate]).
    destruct (pt_pos p) as [z|]; [|exact E]. apply T; [reflexivity|]. intros rest R. destruct (pt_content p) as [t|]; cbn [app].
    - match goal with |- any _ (?c :: ?x :: ?r) => change (any ns (c :: [x] ++ r)) end. apply (any_known std ns _ t_embedded _ [lit "number:position"]); [exact S|reflexivity| |vm_compute; reflexivity|].
      + apply am_take; [reflexivity|apply am_nil].
      + apply any_text_esc, any_end, any_end, R.
    - match goal with |- any _ (?c :: ?x :: ?r) => change (any ns (c :: [x] ++ r)) end. apply (any_known std ns _ t_embedded _ [lit "number:position"]); [exact S|reflexivity| |vm_compute; reflexivity|].
      + apply am_take; [reflexivity|apply am_nil].
      + apply any_end, R.
  Qed.
  Lemma pk_format f n b : format_fine ns b -> declared ns (fmt_tag f) -> part_ok (format_calls f n b).
  Proof.
    intros (A & T & P) D. assert (K : Forall (declared ns) ([k_name] ++ map fst (fb_attr b)) /\ NoDup ([k_name] ++ map fst (fb_attr b))).
    { apply but_keys; [apply apart_nodup; vm_compute; reflexivity|knowns S|exact A]. }
    destruct K as (K & N). intros rest R. unfold format_calls. cbn [app]. rewrite <- !app_assoc. match goal with |- any _ (?c :: ?x :: ?m ++ ?r) => change (any ns (c :: (x :: m) ++ r)) end.
    apply (any_start ns _ (fmt_tag f) _ _ _) with (4 := K); [reflexivity|exact D|apply am_take; [reflexivity|apply am_attrs]|exact N|].
    apply pk_props; [known S|exact T|]. apply pk_flat; [eapply Forall_impl; [|exact P]; apply pk_part|].
    assert (R' : any ns ([CEnd (fmt_tag f)] ++ rest)) by now apply any_end.
    destruct (fb_maps b); [|exact R']. apply pk_flat; [|exact R']. apply Forall_forall. intros m _. apply pk_pair_map.
  Qed.
  Lemma pk_page n b : page_fine ns b -> part_ok (page_calls n b).
  Proof.
    intros (P & H & F) rest R. unfold page_calls. cbn [app]. rewrite <- !app_assoc. match goal with |- any _ (?c :: ?x :: ?m ++ ?r) => change (any ns (c :: (x :: m) ++ r)) end.
    apply (any_known std ns _ t_page _ [k_name; lit "style:page-usage"]); [exact S|reflexivity| |vm_compute; reflexivity|].
    { apply am_take; [reflexivity|]. destruct (pg_usage b); [apply am_take; [reflexivity|apply am_nil]|apply am_none]. }
    apply pk_props; [known S|exact P|]. repeat (cbn [app]; rewrite <- ?app_assoc).
    apply (any_start ns _ t_header_style [] []); [reflexivity|known S|apply am_nil|constructor|constructor|].
    assert (E : forall a r, attrs_fine ns a -> any ns r -> any ns (CEmpty t_hf_props :: attr_calls a ++ r)) by (intros a r A Rr; apply (pk_empty t_hf_props a); [known S|exact A|exact Rr]).
    apply E; [exact H|]. apply any_end. cbn [app]. rewrite <- ?app_assoc. apply (any_start ns _ t_footer_style [] []); [reflexivity|known S|apply am_nil|constructor|constructor|].
    apply E; [exact F|]. apply any_end, any_end, R.
  Qed.
  Lemma pk_hf s h : hf_fine ns h -> part_ok (hf_calls s h).
  Proof.
    intros (L & C & Rr & K) rest R. unfold hf_calls. cbn [app]. rewrite <- !app_assoc.
    apply (any_known std ns _ (hf_tag s) _ [lit "style:display"]); [exact S|reflexivity| |destruct s; vm_compute; reflexivity|].
    { match goal with |- among (if ?b then _ else _) _ => destruct b end; [apply am_take; [reflexivity|apply am_nil]|apply am_none]. }
    assert (G : forall t l, declared ns t -> Forall (tree_fine ns) l -> part_ok (region_calls t l)).
    { intros t l D F. unfold region_calls. destruct (is_nil l); [apply pk_nil|]. apply pk_wrap; [exact D|]. now apply pk_nodes. }
    unfold regions_calls. rewrite <- !app_assoc. repeat (apply G; [known S|assumption|]). apply pk_nodes; [exact K|]. now apply any_end_if.
  Qed.
  Lemma pk_master n b : (forall s, hf_fine ns (mp_hf b s)) -> part_ok (master_calls n b).
  Proof.
    intros H rest R. unfold master_calls. cbn [app]. rewrite <- !app_assoc.
    match goal with |- any _ (?c :: ?x :: ?m ++ ?o ++ ?p ++ ?r) => replace (c :: x :: m ++ o ++ p ++ r) with (c :: ([x] ++ m ++ o ++ p) ++ r) by (cbn [app]; now rewrite <- !app_assoc) end.
    apply (any_known std ns _ t_master _ ([k_name] ++ [lit "style:display-name"] ++ [lit "style:page-layout-name"] ++ [lit "style:next-style-name"])); [exact S|reflexivity| |vm_compute; reflexivity|].
    { apply am_app; [apply am_take; [reflexivity|apply am_nil]|]. apply am_app; [destruct (is_nil (mp_display b)); [apply am_none|apply am_take; [reflexivity|apply am_nil]]|]. apply am_app; apply am_opt. }
    apply pk_flat; [|now apply any_end]. apply Forall_forall. intros s _. apply pk_hf, H.
  Qed.
  (** The families that are written have elements. *)
  Lemma pk_styles_family b o u f cs : styles_fine ns b -> (declared ns (main_tag f) /\ declared ns (fmt_tag f)) -> family_calls b o u f = Ok cs -> part_ok cs.
  Proof.
    intros (B & _) (D1 & D2) H. eapply pk_cat; [exact H|]. intros [k s] c I E. specialize (B f _ I). cbn [snd] in *. unfold StyleModel.item_calls in E. destruct (nm_body s) as [o' u' x|o' u' x|x|x]; cbn [body_fine] in B.
    - destruct (origin_eqb o' o && suse_eqb u' u); [eapply pk_style; eassumption|assert (c = []) as -> by congruence; apply pk_nil].
    - destruct (origin_eqb o' o && suse_eqb u' u); [assert (c = format_calls f (nm_name s) x) as -> by congruence; now apply pk_format|assert (c = []) as -> by congruence; apply pk_nil].
    - assert (c = page_calls (nm_name s) x) as -> by congruence. now apply pk_page.
    - assert (c = master_calls (nm_name s) x) as -> by congruence. now apply pk_master.
  Qed.
  Lemma tags_known f : declared ns (main_tag f) /\ declared ns (fmt_tag f).
  Proof. destruct f; split; first [known S|exact I]. Qed.
  Lemma pk_write_styles b o u cs : styles_fine ns b -> write_styles b o u = Ok cs -> part_ok cs.
  Proof. intros B H. eapply pk_cat; [exact H|]. intros f c _ E. eapply pk_styles_family; [exact B|apply tags_known|exact E]. Qed.
  Lemma pk_write_formats b o u cs : styles_fine ns b -> write_formats b o u = Ok cs -> part_ok cs.
  Proof. intros B H. eapply pk_cat; [exact H|]. intros f c _ E. eapply pk_styles_family; [exact B|apply tags_known|exact E]. Qed.
  Lemma pk_fonts b o : styles_fine ns b -> part_ok (write_fonts b o).
  Proof.
    intros (_ & F). unfold write_fonts. apply pk_wrap_if; [known S|]. apply pk_flat. eapply Forall_impl; [|exact F]. intros [k ft] A. cbn [snd] in *. unfold font_calls.
    destruct (origin_eqb (ft_origin ft) o); [|apply pk_nil]. assert (K : Forall (declared ns) ([k_name] ++ map fst (ft_attr ft)) /\ NoDup ([k_name] ++ map fst (ft_attr ft))).
    { apply but_keys; [apply apart_nodup; vm_compute; reflexivity|knowns S|exact A]. }
    destruct K as (K & N). intros rest R. cbn [app]. match goal with |- any _ (?c :: ?x :: ?m ++ ?r) => change (any ns (c :: (x :: m) ++ r)) end.
    apply (any_start ns _ t_font _ _ _) with (4 := K); [reflexivity|known S|apply am_take; [reflexivity|apply am_attrs]|exact N|exact R].
  Qed.
  Lemma pk_office_styles b o cs : styles_fine ns b -> write_office_styles b o = Ok cs -> part_ok cs.
  Proof.
    intros B H. unfold write_office_styles in H. apply bind_ok in H as (d & Ed & H). apply bind_ok in H as (n & En & H). apply bind_ok in H as (fn & Efn & H). apply bind_ok in H as (fd & Efd & H).
    assert (cs = CElem t_office_styles :: (d ++ n ++ fn ++ fd) ++ [CEnd t_office_styles]) as -> by (rewrite <- !app_assoc; congruence). apply pk_wrap; [known S|].
    apply pk_app; [eapply pk_write_styles; eassumption|]. apply pk_app; [eapply pk_write_styles; eassumption|]. apply pk_app; eapply pk_write_formats; eassumption.
  Qed.
  Lemma pk_automatic b o cs : styles_fine ns b -> write_automatic b o = Ok cs -> part_ok cs.
  Proof.
    intros B H. unfold write_automatic in H. apply bind_ok in H as (p & Ep & H). apply bind_ok in H as (s & Es & H). apply bind_ok in H as (v & Ev & H).
    assert (cs = CElem t_automatic :: (p ++ s ++ v) ++ [CEnd t_automatic]) as -> by (rewrite <- !app_assoc; congruence). apply pk_wrap; [known S|].
    apply pk_app; [eapply pk_styles_family; [exact B|apply tags_known|exact Ep]|]. apply pk_app; [eapply pk_write_styles; eassumption|eapply pk_write_formats; eassumption].
  Qed.
  Lemma pk_masters b cs : styles_fine ns b -> write_masters b = Ok cs -> part_ok cs.
  Proof.
    intros B H. unfold write_masters in H. apply bind_ok in H as (m & Em & H). assert (cs = CElem t_masters :: m ++ [CEnd t_masters]) as -> by congruence. apply pk_wrap; [known S|].
    eapply pk_styles_family; [exact B|apply tags_known|exact Em].
  Qed.
  Lemma convert_fine b : styles_fine ns b -> styles_fine ns (convert b).
  Proof.
    intros (B & F). split; [|exact F]. intros f kv I. cbn [convert sk_book bk_styles] in I. apply in_map_iff in I as ((k & s) & <- & I). specialize (B f _ I). cbn [snd] in *.
    unfold converted. destruct (nm_body s) eqn:E; cbn [nm_body]; rewrite ?E in *; exact B.
  Qed.

  (** ** Scripts, validations, the body *)

  Lemma pk_script s : Forall (tree_fine ns) (sc_body s) -> part_ok (script_calls s).
  Proof.
    intros F rest R. unfold script_calls. rewrite <- !app_assoc. match goal with |- any _ ([?c; ?x] ++ ?r) => change (any ns (c :: [x] ++ r)) end.
    apply (any_known std ns _ t_script _ [lit "script:language"]); [exact S|reflexivity|apply am_take; [reflexivity|apply am_nil]|vm_compute; reflexivity|]. apply pk_nodes; [exact F|]. now apply any_end.
  Qed.
  Lemma pk_listener l : part_ok (listener_calls l).
  Proof.
    intros rest R. unfold listener_calls. match goal with |- any _ ((?c :: ?x) ++ ?r) => change (any ns (c :: x ++ r)) end.
    apply (any_known std ns _ t_listener _ [lit "script:event-name"; lit "script:language"; lit "script:macro-name"; lit "xlink:actuate"; lit "xlink:href"; lit "xlink:type"]);
      [exact S|reflexivity|repeat (apply am_take; [reflexivity|]); apply am_nil|vm_compute; reflexivity|exact R].
  Qed.
  Lemma pk_scripts w : Forall (fun s => Forall (tree_fine ns) (sc_body s)) (fst (wb_scripts w)) -> part_ok (scripts_calls w).
  Proof.
    intros F. unfold scripts_calls, write_office_scripts. cbn [app]. rewrite app_assoc. apply pk_wrap_if; [known S|]. apply pk_app; apply pk_flat; [eapply Forall_impl; [|exact F]; apply pk_script|].
    apply Forall_forall. intros l _. apply pk_listener.
  Qed.
  Lemma pk_message {T} tag (ty : T -> list call) m ks : (tag = t_err \/ tag = t_help) -> (forall t, among (ty t) ks) -> (ks = [lit "table:message-type"] \/ ks = []) -> message_fine ns (Some m) -> part_ok (message_calls tag ty m).
  Proof.
    intros Ht A K F rest R. unfold message_calls. rewrite <- !app_assoc.
    match goal with |- any _ ([?c; ?x] ++ ?y ++ ?z ++ ?r) => replace ([c; x] ++ y ++ z ++ r) with (c :: ([x] ++ y ++ z) ++ r) by (cbn [app]; now rewrite <- !app_assoc) end.
    apply (any_known std ns _ tag _ ([lit "table:display"] ++ ks ++ [lit "table:title"])); [exact S|reflexivity| |destruct Ht as [->| ->], K as [->| ->]; vm_compute; reflexivity|].
    - apply am_app; [apply am_take; [reflexivity|apply am_nil]|]. apply am_app; [apply A|]. destruct (ValidModel.m_title m); [apply am_take; [reflexivity|apply am_nil]|apply am_none].
    - destruct (m_text m) as [x|] eqn:E; [|now apply any_end_if]. apply pk_node; [now apply (F m x eq_refl)|now apply any_end_if].
  Qed.
  Lemma pk_valid v cs : valid_fine ns v -> valid_calls v = Ok cs -> part_ok cs.
  Proof.
    intros (E & H) C. unfold valid_calls in C. apply bind_ok in C as (b & _ & C). injection C as <-. intros rest R.
    match goal with |- any _ ((?c :: ?x :: ?y :: ?z :: ?u :: ?v :: ?l) ++ rest) => change (any ns (c :: [x; y; z; u; v] ++ (l ++ rest))) end.
    apply (any_known std ns _ t_valid _ [lit "table:name"; lit "table:condition"; lit "table:allow-empty-cell"; lit "table:display-list"; lit "table:base-cell-address"]);
      [exact S|reflexivity|repeat (apply am_take; [reflexivity|]); apply am_nil|vm_compute; reflexivity|]. rewrite <- !app_assoc.
    assert (R1 : any ns ([CEnd t_valid] ++ rest)) by now apply any_end.
    assert (R2 : any ns ((match vb_help (nm_body v) with Some m => message_calls t_help help_type m | None => [] end) ++ [CEnd t_valid] ++ rest)).
    { destruct (vb_help (nm_body v)); [|exact R1]. apply (pk_message t_help help_type _ []); [now right|intros; apply am_nil|now right|exact H|exact R1]. }
    destruct (vb_err (nm_body v)); [|exact R2]. apply (pk_message t_err err_type _ [lit "table:message-type"]); [now left|intros; apply am_take; [reflexivity|apply am_nil]|now left|exact E|exact R2].
  Qed.
  Lemma pk_valids vs cs : Forall (valid_fine ns) vs -> write_validations vs = Ok cs -> part_ok cs.
  Proof.
    intros F H. assert (G : forall vs cs, Forall (valid_fine ns) vs -> valids_calls vs = Ok cs -> part_ok cs).
    { clear - S. induction vs as [|v vs IH]; intros cs F H; cbn [valids_calls] in H; [injection H as <-; apply pk_nil|]. inversion F; subst. apply bind_ok in H as (a & Ea & H). apply bind_ok in H as (b & Eb & H). injection H as <-.
      apply pk_app; [eapply pk_valid; eassumption|now apply IH]. }
    unfold write_validations in H. destruct vs as [|v vs]; [injection H as <-; apply pk_nil|]. apply bind_ok in H as (b & Eb & H). assert (cs = CElem t_valids :: b ++ [CEnd t_valids]) as -> by congruence.
    apply pk_wrap; [known S|]. eapply G; eassumption.
  Qed.
  Lemma pk_body w cs : body_part_fine ns w -> write_body w = Ok cs -> part_ok cs.
  Proof.
    intros (_ & V & Sh & X) H. unfold write_body in H. apply bind_ok in H as (v & Ev & H). apply bind_ok in H as (s & Es & H).
    assert (Xf : forall l, Forall (tree_fine ns) (filter (named_in l) (wb_extra w))) by (intros l; apply Forall_forall; intros x I; apply filter_In in I as (I & _); rewrite Forall_forall in X; now apply X).
    match type of H with Ok ([_; _] ++ ?p ++ _ ++ _ ++ ?e ++ _) = _ => assert (cs = CElem t_body :: (CElem t_spreadsheet :: (p ++ v ++ s ++ e) ++ [CEnd t_spreadsheet]) ++ [CEnd t_body]) as -> end.
    { cbn [app] in H. cbn [app]. rewrite <- !app_assoc. cbn [app]. congruence. }
    apply pk_wrap; [known S|]. apply pk_wrap; [known S|]. apply pk_app; [apply pk_nodes, Xf|]. apply pk_app; [eapply pk_valids; [|exact Ev]; apply Forall_map; exact V|].
    apply pk_app; [eapply pk_sheets; eassumption|apply pk_nodes, Xf].
  Qed.
End Styles.

(** ** Metadata and settings *)

Definition std_meta : list str := [lit "xmlns:office"; lit "xmlns:meta"; lit "xmlns:dc"; lit "xmlns:xlink"].
Definition std_settings : list str := [lit "xmlns:office"; lit "xmlns:config"].
Section Other.
  Variable ns : list str.
  Notation part_ok := (part_ok ns).
  Lemma am_attr_if {A} n (show : A -> str) o : among (attr_if n show o) [n]. Proof. destruct o; [apply am_take; [reflexivity|apply am_nil]|apply am_none]. Qed.
  Lemma am_attr_esc n o : among (attr_esc_if n o) [n]. Proof. destruct o; [apply am_take; [reflexivity|apply am_nil]|apply am_none]. Qed.
  Lemma pk_empty_calls st n a ks : incl st ns -> among a ks -> forallb (knows st) (n :: ks) && apart ks = true -> part_ok (empty_calls n a).
  Proof. intros S A K. unfold empty_calls. destruct a as [|c a]; [apply pk_nil|]. intros rest R. apply (any_known st ns _ n (c :: a) ks rest); auto. reflexivity. Qed.
  Lemma pk_one c : (forall rest, any ns rest -> any ns (c :: rest)) -> part_ok [c]. Proof. intros H rest R. apply H, R. Qed.
  Lemma pk_field m f : declared ns (field_tag f) -> part_ok (field_calls m f).
  Proof.
    intros D. assert (T : forall t, part_ok (text_calls (field_tag f) t)) by (intros [|c t]; [apply pk_nil|]; apply pk_one; intros; now apply any_elem_text_esc).
    assert (E : forall t, part_ok [CElemText (field_tag f) t]) by (intros t; apply pk_one; intros; now apply any_elem_text).
    assert (Da : forall d, part_ok (date_calls (field_tag f) d)) by (intros [d|]; [apply E|apply pk_nil]).
    destruct f; cbn [field_calls]; auto; match goal with |- context [if ?b then _ else _] => destruct b end; auto using pk_nil.
  Qed.
  Lemma pk_user st u : In (lit "xmlns:meta") st -> incl st ns -> part_ok (user_calls u).
  Proof.
    intros M S rest R. assert (S' : incl [lit "xmlns:meta"] ns) by (intros k [<-|[]]; apply S, M). unfold user_calls. rewrite <- !app_assoc. match goal with |- any _ ([?c; ?x] ++ ?y ++ ?r) => change (any ns (c :: ([x] ++ y) ++ r)) end.
    apply (any_known [lit "xmlns:meta"] ns _ t_user _ ([lit "meta:name"] ++ [lit "meta:value-type"])); [exact S'|reflexivity| |vm_compute; reflexivity|].
    - apply am_app; [apply am_take; [reflexivity|apply am_nil]|]. destruct (snd u); first [apply am_none|apply am_take; [reflexivity|apply am_nil]].
    - destruct (snd u); first [apply any_text, any_end, R|apply any_text_esc, any_end, R].
  Qed.
  Lemma pk_meta m : incl std_meta ns -> part_ok (write_office_meta m).
  Proof.
    intros S rest R. unfold write_office_meta. cbn [app]. rewrite <- !app_assoc. apply (any_known std_meta ns _ t_meta [] []); [exact S|reflexivity|apply am_nil|vm_compute; reflexivity|].
    apply (pk_flat ns (field_calls m) all_fields); [apply Forall_forall; intros f _; apply pk_field, (knows_declared std_meta); [exact S|destruct f; vm_compute; reflexivity]|].
    apply (pk_empty_calls std_meta _ _ ([lit "meta:date"] ++ [lit "xlink:actuate"] ++ [lit "xlink:href"] ++ [lit "xlink:title"] ++ [lit "xlink:type"]));
      [exact S|repeat (apply am_app; [first [apply am_attr_if|apply am_attr_esc]|]); apply am_attr_if|vm_compute; reflexivity|].
    apply (pk_empty_calls std_meta _ _ ([lit "meta:delay"] ++ [lit "xlink:actuate"] ++ [lit "xlink:href"] ++ [lit "xlink:show"] ++ [lit "xlink:type"]));
      [exact S|repeat (apply am_app; [first [apply am_attr_if|apply am_attr_esc]|]); apply am_attr_if|vm_compute; reflexivity|].
    apply (pk_empty_calls std_meta _ _ ([lit "office:target-frame-name"] ++ [lit "xlink:show"])); [exact S|apply am_app; [apply am_attr_esc|apply am_attr_if]|vm_compute; reflexivity|].
    unfold stats_calls. match goal with |- any _ ((?c :: ?x) ++ ?r) => change (any ns (c :: x ++ r)) end.
    apply (any_known std_meta ns _ t_stats _ [lit "meta:table-count"; lit "meta:cell-count"; lit "meta:object-count"; lit "meta:ole-object-count"]);
      [exact S|reflexivity|repeat (apply am_take; [reflexivity|]); apply am_nil|vm_compute; reflexivity|].
    apply pk_flat; [apply Forall_forall; intros u _; apply (pk_user std_meta); [cbn; auto|exact S]|]. now apply any_end.
  Qed.
  Definition bare_meta : list str := [lit "xmlns:office"; lit "xmlns:meta"].
  Lemma pk_meta_bare m : meta_bare m -> incl bare_meta ns -> part_ok (write_office_meta m).
  Proof.
    intros (B1 & B2 & B3 & B4 & B5 & B6 & T1 & T2 & T3 & T4 & L1 & L2 & L3 & L4 & H1) S rest R. unfold write_office_meta. cbn [app]. rewrite <- !app_assoc.
    apply (any_known bare_meta ns _ t_meta (@nil call) (@nil str)); [exact S|reflexivity|apply am_nil|vm_compute; reflexivity|].
    apply (pk_flat ns (field_calls m) all_fields).
    { apply Forall_forall. intros f _. destruct f; cbn [field_calls]; rewrite ?B1, ?B2, ?B3, ?B4, ?B5, ?B6; try (exact (pk_nil ns)).
      - apply (pk_field m FGenerator). apply (knows_declared bare_meta); [exact S|vm_compute; reflexivity].
      - apply (pk_field m FKeyword). apply (knows_declared bare_meta); [exact S|vm_compute; reflexivity].
      - apply (pk_field m FInitial). apply (knows_declared bare_meta); [exact S|vm_compute; reflexivity].
      - apply (pk_field m FPrinted). apply (knows_declared bare_meta); [exact S|vm_compute; reflexivity].
      - apply (pk_field m FCreated). apply (knows_declared bare_meta); [exact S|vm_compute; reflexivity].
      - apply (pk_field m FPrint). apply (knows_declared bare_meta); [exact S|vm_compute; reflexivity].
      - apply (pk_field m FCycles). apply (knows_declared bare_meta); [exact S|vm_compute; reflexivity].
      - apply (pk_field m FDuration). apply (knows_declared bare_meta); [exact S|vm_compute; reflexivity]. }
    unfold template_calls, reload_calls, links_calls. rewrite T1, T2, T3, T4, L1, L2, L3, L4, H1. cbn [attr_if attr_esc_if]. rewrite !app_nil_r.
    apply (pk_empty_calls bare_meta _ _ [lit "meta:date"]); [exact S|apply am_attr_if|vm_compute; reflexivity|].
    apply (pk_empty_calls bare_meta _ _ [lit "meta:delay"]); [exact S|apply am_attr_if|vm_compute; reflexivity|].
    apply (pk_empty_calls bare_meta _ _ [lit "office:target-frame-name"]); [exact S|apply am_attr_esc|vm_compute; reflexivity|].
    unfold stats_calls. match goal with |- any _ ((?c :: ?x) ++ ?r) => change (any ns (c :: x ++ r)) end.
    apply (any_known bare_meta ns _ t_stats _ [lit "meta:table-count"; lit "meta:cell-count"; lit "meta:object-count"; lit "meta:ole-object-count"]);
      [exact S|reflexivity|repeat (apply am_take; [reflexivity|]); apply am_nil|vm_compute; reflexivity|].
    apply pk_flat; [apply Forall_forall; intros u _; apply (pk_user bare_meta); [cbn; auto|exact S]|]. now apply any_end.
  Qed.
  Lemma pk_concat l cs : concat_res l = Ok cs -> (forall c, In (Ok c) l -> part_ok c) -> part_ok cs.
  Proof.
    revert cs. induction l as [|c l IH]; intros cs H F; cbn [concat_res] in H; [injection H as <-; apply pk_nil|]. apply bind_ok in H as (a & -> & H). apply bind_ok in H as (b & Eb & H). injection H as <-.
    apply pk_app; [apply F; now left|apply IH; [exact Eb|]; intros; apply F; now right].
  Qed.
  Lemma pk_vec ix l n : forall i cs, vec_loop n i ix l = Ok cs -> (forall c, In (Ok c) l -> part_ok c) -> part_ok cs.
  Proof.
    induction n as [|n IH]; intros i cs H F; [discriminate|]. cbn [vec_loop] in H. destruct (am_get (show_N i) ix) as [j|]; [|injection H as <-; apply pk_nil].
    destruct (nth_error l j) as [c|] eqn:E; [|injection H as <-; apply pk_nil]. apply bind_ok in H as (a & -> & H). apply bind_ok in H as (b & Eb & H). injection H as <-.
    apply pk_app; [apply F; eapply nth_error_In; exact E|eapply IH; eassumption].
  Qed.
  Lemma pk_item_set x : incl std_settings ns -> forall name cs, write_item name x = Ok cs -> part_ok cs.
  Proof.
    intros S. induction x as [v|k ix vals IH] using citem_rect'; intros name cs H; cbn [write_item] in H.
    - injection H as <-. intros rest R. unfold write_value. match goal with |- any _ ((?c :: ?x :: ?y :: ?r) ++ rest) => change (any ns (c :: [x; y] ++ (r ++ rest))) end.
      apply (any_known std_settings ns _ t_item _ [a_name; ConfigModel.a_type]); [exact S|reflexivity|repeat (apply am_take; [reflexivity|]); apply am_nil|vm_compute; reflexivity|].
      cbn [app]. destruct v; first [apply any_text; now apply any_end_if|apply any_text_esc; now apply any_end_if].
    - apply bind_ok in H as (body & Eb & H). match type of H with Ok ?x = _ => assert (E : cs = x) by congruence end. rewrite E. clear H E. intros rest R. cbn [app]. rewrite <- !app_assoc.
      apply (any_known std_settings ns _ (kind_tag k) _ [a_name]); [exact S|reflexivity|destruct name; [apply am_take; [reflexivity|apply am_nil]|apply am_none]|destruct k; vm_compute; reflexivity|].
      assert (P : part_ok body); [|apply P; now apply any_end].
      match type of Eb with context [map ?part vals] => assert (F : forall c, In (Ok c) (map part vals) -> part_ok c) end.
      { intros c I. apply in_map_iff in I as (kv & Ec & I). destruct (may_hold k (snd kv)); [|discriminate]. rewrite Forall_forall in IH. eapply IH; [exact I|exact Ec]. }
      destruct k; first [eapply pk_concat; [exact Eb|exact F]|eapply pk_vec; [exact Eb|exact F]].
  Qed.
  Lemma pk_settings c cs : incl std_settings ns -> write_settings c = Ok cs -> part_ok cs.
  Proof.
    intros S H. assert (D : declared ns t_settings) by (apply (knows_declared std_settings); [exact S|vm_compute; reflexivity]). unfold write_settings in H. destruct c as [v|k m].
    - injection H as <-. apply (pk_wrap ns t_settings []); [exact D|apply pk_nil].
    - apply bind_ok in H as (b & Eb & H). assert (cs = CElem t_settings :: b ++ [CEnd t_settings]) as -> by (cbn [app] in H; congruence). apply pk_wrap; [exact D|]. eapply pk_concat; [exact Eb|].
      intros c I. apply in_map_iff in I as (kv & Ec & _). destruct (snd kv) as [|[] ?]; try discriminate. eapply pk_item_set; eassumption.
  Qed.
End Other.

(** ** Documents *)

Lemma prefix_xmlns p : prefix_of (lit "xmlns:" ++ p) = Some (lit "xmlns"). Proof. reflexivity. Qed.
Lemma del_keys {V} k (m : amap V) x : In x (map fst (am_del k m)) -> In x (map fst m).
Proof. unfold am_del. intros I. apply in_map_iff in I as (kv & <- & I). apply filter_In in I as (I & _). now apply in_map. Qed.
Lemma del_nodup {V} k (m : amap V) : NoDup (map fst m) -> NoDup (k :: map fst (am_del k m)).
Proof.
  intros N. constructor.
  - unfold am_del. intros I. apply in_map_iff in I as (kv & E & I). apply filter_In in I as (_ & F). rewrite E, str_eqb_refl in F. discriminate.
  - induction m as [|kv m IH]; [constructor|]. inversion N; subst. unfold am_del in *. cbn [filter]. match goal with |- context [if ?b then _ else _] => destruct b end; [|now apply IH]. cbn [map]. constructor; [|now apply IH].
    intros I. apply H1. now apply (del_keys k).
Qed.
Lemma put_map_ok k v m : (exists p, k = lit "xmlns:" ++ p) -> ns_map_ok m -> ns_map_ok (am_put k v m).
Proof.
  intros K (N & F). split; [now apply del_nodup|]. constructor; [exact K|]. apply Forall_forall. intros kv I. rewrite Forall_forall in F. apply F. unfold am_del in I. now apply filter_In in I as (I & _).
Qed.
Lemma put_keys {V} k (v : V) m x : x = k \/ In x (map fst m) -> In x (map fst (am_put k v m)).
Proof.
  intros [->|I]; [now left|]. cbn [am_put map fst]. destruct (str_eqb x k) eqn:E; [apply str_eqb_eq in E; subst; now left|]. right. apply in_map_iff in I as (kv & <- & I). apply in_map. unfold am_del. apply filter_In. split; [exact I|].
  rewrite E. reflexivity.
Qed.
Lemma puts_ok added : forall m, Forall (fun kv => exists p, fst kv = lit "xmlns:" ++ p) added -> ns_map_ok m -> ns_map_ok (put_all added m).
Proof. induction added as [|kv l IH]; intros m F M; [exact M|]. inversion F; subst. unfold put_all in *. cbn [fold_left]. apply IH; auto. now apply put_map_ok. Qed.
Lemma puts_keys (added : amap str) : forall m x, In x (map fst added) \/ In x (map fst m) -> In x (map fst (put_all added m)).
Proof.
  induction added as [|kv l IH]; intros m x H; [now destruct H|]. unfold put_all in *. cbn [fold_left]. apply IH. destruct H as [[<-|H]|H]; [right; apply put_keys; now left|now left|right; apply put_keys; now right].
Qed.
Lemma perm_map_ok l m : Permutation l m -> ns_map_ok m -> ns_map_ok l.
Proof. intros P (N & F). split; [eapply Permutation_NoDup; [apply Permutation_sym, Permutation_map, P|exact N]|eapply Permutation_Forall; [apply Permutation_sym, P|exact F]]. Qed.
(** A table of the code. *)
Definition xmlns_b (n : str) : bool := str_eqb (firstn 6 n) (lit "xmlns:").
Lemma table_xmlns (m : amap str) : forallb (fun kv => xmlns_b (fst kv)) m = true -> Forall (fun kv => exists p, fst kv = lit "xmlns:" ++ p) m.
Proof.
  intros H. apply Forall_forall. intros kv I. rewrite forallb_forall in H. specialize (H kv I). apply str_eqb_eq in H. exists (skipn 6 (fst kv)). rewrite <- H. symmetry. apply firstn_skipn.
Qed.
Lemma root_fine l more : ns_map_ok l -> forallb (knows std) (map fst more) && apart (map fst more) && forallb (fun k => negb (xmlns_b k)) (map fst more) = true -> incl [lit "xmlns:office"] (map fst l) ->
  (forall k, In k (map fst more) -> prefix_of k = Some (lit "office")) -> attrs_fine (map fst (l ++ more)) (l ++ more).
Proof.
  intros (N & F) H O P. apply andb_true_iff in H as (H & X). apply andb_true_iff in H as (_ & A). split.
  - apply Forall_app. split; apply Forall_forall; intros kv I.
    + rewrite Forall_forall in F. destruct (F kv I) as (p & Ep). assert (Q : prefix_of (fst kv) = Some (lit "xmlns")) by (transitivity (prefix_of (lit "xmlns:" ++ p)); [f_equal; exact Ep|reflexivity]). unfold declared. rewrite Q. right. now left.
    + unfold declared. cbv beta. rewrite (P (fst kv)) by now apply in_map. right. right. rewrite map_app. apply in_or_app. left. apply O. now left.
  - rewrite map_app. apply apart_nodup in A. clear P. revert A X. generalize (map fst more). intros ks. induction ks as [|k ks IH] using rev_ind; intros A X; [now rewrite app_nil_r|].
    rewrite forallb_app in X. apply andb_true_iff in X as (X & Xk). rewrite app_assoc. apply NoDup_rev in A. rewrite rev_app_distr in A. cbn in A. inversion A; subst. apply NoDup_rev in H2. rewrite rev_involutive in H2.
    apply nodup_snoc; [now apply IH|]. intros I. apply in_app_or in I as [I|I]; [|apply H1; now apply in_rev in I].
    cbn [forallb] in Xk. apply andb_true_iff in Xk as (Xk & _). apply in_map_iff in I as (kv & E & I). rewrite Forall_forall in F. destruct (F kv I) as (p & Ep). assert (Ek : k = lit "xmlns:" ++ p) by (rewrite <- E; exact Ep). rewrite Ek in Xk. discriminate Xk.
Qed.
Lemma doc_fine lb e n a rest : flushes rest -> declared (map fst a) n -> attrs_fine (map fst a) a -> any (map fst a) rest -> names_fine (events_of lb (CDtd e :: CElem n :: attr_calls a ++ rest)).
Proof.
  intros Fl D A R. assert (K : any (map fst a) (CDtd e :: CElem n :: attr_calls a ++ rest)).
  { intros seen. cbn [tidy]. split; [exact D|]. apply fine_keys in A as (A & N). apply (among_tidy _ _ (map fst a)); auto. apply am_attrs. }
  pose proof (any_events _ lb _ K) as E. unfold events_of in *. cbn [asked finish app] in *.
  assert (I : Forall is_attr (attr_calls a)) by (apply Forall_map, Forall_forall; intros kv _; discriminate). rewrite (asked_attr_calls esc_split lb (attr_calls a) I) in *. rewrite asked_flush in * by exact Fl.
  assert (V : attrs_of (attr_calls a) = a). { clear. induction a as [|[k v] a IH]; [reflexivity|]. cbn [attr_calls map]. unfold attr_calls in *. cbn. now rewrite IH. }
  rewrite V in *. cbn [finish app] in *. unfold coalesce in *. cbn [coalesce_from emit_text app] in *.
  eexists [_; _], n, a, _. split; [reflexivity|]. split; [repeat constructor|exact E].
Qed.

(** What comes out if a file that was read is written and read again. *)
From Verif Require Import Base Lib XmlModel XmlSpec XmlProofs TreeProofs NumSpec CellModel CellIoModel CellIoSpec.

(** ** Specification *)

(** The same up to the pieces of the texts. *)
Definition value_same (v w : value) : Prop :=
  match v, w with
  | VTextXml l, VTextXml m => map norm m = map norm l
  | _, _ => w = v
  end.
Definition ann_alike (a b : annotation) : Prop :=
  an_name b = an_name a /\ an_display b = an_display a /\ an_creator b = an_creator a /\ an_date b = an_date a /\ an_attrs b = an_attrs a
  /\ map norm (an_text b) = map norm (an_text a).
Definition image_alike (i j : dimage) : Prop := im_attrs j = im_attrs i /\ im_data j = im_data i /\ map norm (im_text j) = map norm (im_text i).
Definition frame_alike (f g : dframe) : Prop :=
  df_title g = df_title f /\ df_desc g = df_desc f /\ df_attrs g = df_attrs f /\ Forall2 image_alike (df_content f) (df_content g).
Definition content_same (k m : content) : Prop :=
  value_same (k_value k) (k_value m) /\ k_style m = k_style k /\ k_formula m = k_formula k /\ k_repeat m = k_repeat k
  /\ k_validation m = k_validation k /\ k_span m = k_span k /\ k_matrix m = k_matrix k
  /\ match k_annotation k, k_annotation m with None, None => True | Some a, Some b => ann_alike a b | _, _ => False end
  /\ Forall2 frame_alike (k_frames k) (k_frames m).

(** Values that stay as they are: text is one line that is not blank; rich text consists of paragraphs that have elements in them or are plain
    text that is not empty, and is not a single plain paragraph. *)
Definition rich (x : xnode) : Prop := match x with XTag _ _ c => plain_of c = None | XText _ => False end.
Definition solid (x : xnode) : Prop := exists c t, x = XTag (lit "text:p") [] c /\ plain_of c = Some t /\ t <> [].
Definition settled (v : value) : Prop :=
  match v with
  | VText s => s <> [] /\ ~ In c_nl s
  | VTextXml l => l <> [] /\ Forall (fun x => rich x \/ solid x) l /\ forall x, l = [x] -> rich x
  | _ => True
  end.
(** [n] times through a package. *)
Inductive trips : nat -> value -> value -> Prop :=
| trips_0 v : trips 0 v v
| trips_S n v w u : value_after false v w -> trips n w u -> trips (S n) v u.

(** The elements inside a tree, and the line breaks in its texts. *)
Fixpoint inside (x : xnode) : nat :=
  match x with
  | XText _ => 0
  | XTag _ _ c => (fix all (l : list xnode) := match l with [] => 0 | y :: r => match y with XTag _ _ _ => S (inside y) | XText _ => 0 end + all r end) c
  end%nat.
Definition breaks_of (t : str) : nat := length (filter (N.eqb c_nl) t).
Fixpoint breaks (x : xnode) : nat :=
  match x with
  | XText t => breaks_of t
  | XTag _ _ c => (fix all (l : list xnode) := match l with [] => 0 | y :: r => breaks y + all r end) c
  end%nat.

(** ** Plain text *)

Lemma plain_merge c : plain_of (merge_text (map norm c)) = plain_of c.
Proof.
  induction c as [|[t|n a d] c IH]; [reflexivity| |]; cbn [map norm merge_text fold_right]; fold (merge_text (map norm c)); [|reflexivity].
  cbn [plain_of]. rewrite <- IH. unfold mcons. destruct (merge_text (map norm c)) as [|[u|m b e] l]; cbn [plain_of].
  - destruct t; cbn [plain_of]; now rewrite ?app_nil_r.
  - destruct (plain_of l); [now rewrite app_assoc|reflexivity].
  - destruct t; reflexivity.
Qed.
Lemma norm_plain_of n a c m b d : norm (XTag n a c) = norm (XTag m b d) -> plain_of c = plain_of d.
Proof. intros E. cbn [norm] in E. rewrite <- (plain_merge c), <- (plain_merge d). congruence. Qed.
(** Plain text has one form. *)
Lemma merge_plain c : forall t, plain_of c = Some t -> merge_text (map norm c) = match t with [] => [] | _ => [XText t] end.
Proof.
  induction c as [|[u|n a d] c IH]; intros t E; cbn [plain_of] in E; [injection E as <-; reflexivity| |discriminate].
  destruct (plain_of c) as [w|]; [|discriminate]. injection E as <-. cbn [map norm merge_text fold_right]. fold (merge_text (map norm c)). rewrite (IH w eq_refl).
  destruct w as [|x w]; cbn [mcons]; [rewrite app_nil_r; now destruct u|]. destruct (u ++ x :: w) eqn:F; [now destruct u|reflexivity].
Qed.
Lemma solid_norm n a c t : plain_of c = Some t -> t <> [] -> norm (XTag n a c) = XTag n a [XText t].
Proof. intros E T. cbn [norm]. rewrite (merge_plain c t E). now destruct t. Qed.

Lemma rich_after x o : rich x -> para_after false x o -> exists y, o = Some (inr y) /\ rich y /\ norm y = norm x.
Proof.
  intros R H. inversion H as [n a|n a c t C P T|n a c C P|n a c y P E]; subst; cbn [rich] in R.
  - discriminate.
  - congruence.
  - congruence.
  - exists y. rewrite broken_norm in E. split; [reflexivity|]. split; [|exact E]. destruct y as [t|m b d]; [discriminate|]. cbn [rich].
    now rewrite (norm_plain_of _ _ _ _ _ _ E).
Qed.
Lemma solid_after x o : solid x -> para_after false x o -> exists t, o = Some (inl t) /\ t <> [] /\ norm (as_para (inl t)) = norm x.
Proof.
  intros (c & t & -> & P & T) H. inversion H as [n a|n a c' t' C P' T'|n a c' C P'|n a c' y P' E]; subst.
  - cbn in P. congruence.
  - assert (t' = t) as -> by congruence. exists t. split; [reflexivity|]. split; [exact T|]. rewrite (solid_norm _ _ c t P T). cbn [as_para]. now apply (solid_norm _ _ [XText t] t); [cbn; now rewrite app_nil_r|].
  - congruence.
  - congruence.
Qed.
Definition solid_part (p : str + xnode) : Prop := match p with inl t => t <> [] | inr y => rich y end.
Lemma part_para p : solid_part p -> rich (as_para p) \/ solid (as_para p).
Proof. destruct p as [t|y]; intros H; [right|left; exact H]. exists [XText t], t. cbn [as_para plain_of]. rewrite app_nil_r. auto. Qed.

Lemma paras_after l ps : Forall (fun x => rich x \/ solid x) l -> Forall2 (para_after false) l ps ->
  exists qs, ps = map Some qs /\ Forall solid_part qs /\ map norm (map as_para qs) = map norm l /\ Forall2 (fun x q => rich x <-> exists y, q = inr y) l qs.
Proof.
  intros F H. induction H as [|x o l ps H _ IH]; [exists []; repeat split; constructor|]. inversion F as [|? ? Fx Fl]; subst.
  destruct (IH Fl) as (qs & -> & Q1 & Q2 & Q3). destruct Fx as [R|S].
  - destruct (rich_after _ _ R H) as (y & -> & Ry & Ey). exists (inr y :: qs). cbn [map as_para]. rewrite Q2, Ey. repeat split; constructor; auto. split; eauto.
  - destruct (solid_after _ _ S H) as (t & -> & T & E). exists (inl t :: qs). split; [reflexivity|]. split; [now constructor|].
    split; [cbn [map]; now rewrite E, Q2|]. constructor; [|exact Q3]. destruct S as (c & u & -> & P & _). cbn [rich]. split; [congruence|intros (y & Y); discriminate].
Qed.
Lemma drop_somes {A} (qs : list A) : drop_none (map Some qs) = map Some qs.
Proof. now destruct qs. Qed.
Lemma somes_all {A} (qs : list A) : somes (map Some qs) = qs.
Proof. induction qs as [|q qs IH]; [reflexivity|]. cbn. unfold somes in IH. now rewrite IH. Qed.
Lemma rich_case ps : match drop_none ps with
  | [] => rich_value ps = VEmpty
  | [Some (inl t)] => rich_value ps = VText t
  | l => rich_value ps = VTextXml (map as_para (somes l))
  end.
Proof. unfold rich_value. destruct (drop_none ps) as [|[[t|y]|] [|o l]]; reflexivity. Qed.
Lemma drop_first {A} (l : list (option A)) o r : drop_none l = o :: r -> exists a, o = Some a.
Proof. induction l as [|[a|] l IH]; cbn [drop_none]; intros E; [discriminate|injection E as <- _; eauto|auto]. Qed.
Lemma drop_in {A} (l : list (option A)) o : In o (drop_none l) -> In o l.
Proof. induction l as [|[a|] l IH]; cbn [drop_none]; intros H; [exact H|exact H|right; auto]. Qed.

(** A single line. *)
Lemma one_line s ls : ~ In c_nl s -> lines_of s ls -> ls = [s].
Proof.
  intros N (E & F & J). destruct ls as [|x [|y ls]]; [contradiction|cbn in J; now subst|]. exfalso. apply N. rewrite <- J. cbn [join]. apply in_or_app. right. now left.
Qed.
Lemma settled_fixed v w : settled v -> value_after false v w -> value_same v w /\ settled w.
Proof.
  intros S H. destruct v as [| | | | |s|l| |]; try (cbn [value_after] in H; subst w; now split).
  - destruct S as (S1 & S2). destruct H as (ls & L & ->). rewrite (one_line s ls S2 L). unfold text_value. cbn [drop_blank]. destruct s as [|c s]; [contradiction|]. now split.
  - destruct S as (S1 & S2 & S3). destruct H as (ps & P & ->). destruct (paras_after l ps S2 P) as (qs & -> & Q1 & Q2 & Q3).
    assert (E : rich_value (map Some qs) = VTextXml (map as_para qs)).
    { unfold rich_value. rewrite drop_somes. destruct Q3 as [|x q l qs Hq Q3]; [contradiction|]. cbn [map]. destruct q as [t|y].
      - destruct Q3 as [|x2 q2 l2 qs2 Hq2 Q3]; [|cbn [map]; rewrite <- (somes_all qs2) at 2; reflexivity].
        exfalso. destruct (proj1 Hq (S3 x eq_refl)) as (y & Y). discriminate.
      - change (VTextXml (map as_para (somes (map Some (inr y :: qs)))) = VTextXml (map as_para (inr y :: qs))). now rewrite somes_all. }
    rewrite E. split; [exact Q2|]. cbn [settled]. split; [|split].
    + destruct Q3; [contradiction|discriminate].
    + clear -Q1. induction Q1; constructor; [now apply part_para|assumption].
    + intros x Ex. destruct Q3 as [|x0 q l qs Hq Q3]; [contradiction|]. destruct qs; [|discriminate]. inversion Q3; subst. injection Ex as <-.
      destruct (proj1 Hq (S3 x0 eq_refl)) as (y & ->). inversion Q1 as [|? ? Qy _]; subst. exact Qy.
Qed.

(** ** How many times until nothing changes *)

Lemma trips_settled n : forall v w, settled v -> trips n v w -> settled w /\ value_same v w.
Proof.
  assert (R : forall v, value_same v v) by (intros []; reflexivity).
  assert (T : forall a b c, value_same a b -> value_same b c -> value_same a c).
  { intros a b c. destruct a, b; cbn [value_same]; intros E1 E2; try discriminate; try (injection E1 as ->); try (destruct c; congruence); try congruence. }
  induction n as [|n IH]; intros v w S H; inversion H as [|? ? u ? H1 H2]; subst; [split; [exact S|apply R]|].
  destruct (settled_fixed _ _ S H1) as (E & S'). destruct (IH _ _ S' H2) as (S'' & E'). split; [exact S''|]. eapply T; eassumption.
Qed.
Lemma trips_split n m : forall v w, trips (n + m) v w -> exists u, trips n v u /\ trips m u w.
Proof.
  induction n as [|n IH]; intros v w H; [exists v; split; [constructor|exact H]|]. cbn [Nat.add] in H. inversion H as [|? ? u ? H1 H2]; subst.
  destruct (IH _ _ H2) as (z & Z1 & Z2). exists z. split; [econstructor; eassumption|exact Z2].
Qed.
(** [settles n v]: settled after [n] times, and then for ever. *)
Definition settles (n : nat) (v : value) : Prop := forall w, trips n v w -> settled w.
Lemma settles_now n v : settled v -> settles n v.
Proof. intros S w H. now apply (trips_settled n v w). Qed.
Lemma settles_next n v : (forall w, value_after false v w -> settles n w) -> settles (S n) v.
Proof. intros K w H. inversion H as [|? ? u ? H1 H2]; subst. exact (K _ H1 _ H2). Qed.
Lemma settles_more n m v : (n <= m)%nat -> settles n v -> settles m v.
Proof.
  intros L K w H. replace m with (n + (m - n))%nat in H by lia. apply trips_split in H as (u & H1 & H2). exact (proj1 (trips_settled _ _ _ (K _ H1) H2)).
Qed.

Lemma single_solid t : t <> [] -> ~ In c_nl t -> settles 1 (VTextXml [XTag (lit "text:p") [] [XText t]]).
Proof.
  intros T N. apply settles_next. intros w (ps & P & ->). inversion P as [|x o l ps' Po Pr]; subst. inversion Pr; subst.
  destruct (solid_after _ _ (ex_intro _ [XText t] (ex_intro _ t (conj eq_refl (conj (f_equal Some (app_nil_r t)) T)))) Po) as (u & -> & U & E).
  assert (u = t) as ->. { rewrite (solid_norm _ _ [XText t] t) in E; [|cbn; now rewrite app_nil_r|exact T]. cbn [as_para] in E.
    rewrite (solid_norm _ _ [XText u] u) in E; [congruence|cbn; now rewrite app_nil_r|exact U]. }
  apply settles_now. cbn. auto.
Qed.
Lemma text_settles s : settles 2 (VText s).
Proof.
  apply settles_next. intros w (ls & (L1 & L2 & _) & ->). unfold text_value.
  assert (B : forall l r, drop_blank ls = l :: r -> l <> [] /\ Forall (fun x => ~ In c_nl x) (l :: r)).
  { clear L1. induction L2 as [|x ls Hx F IH]; intros l r E; [discriminate|]. cbn [drop_blank] in E. destruct x as [|c x]; cbn [blank] in E; [now apply IH|].
    injection E as <- <-. split; [discriminate|now constructor]. }
  destruct (drop_blank ls) as [|l r]; [now apply settles_now|]. destruct (B l r eq_refl) as (Bl & Bn). inversion Bn as [|? ? Nl Nr]; subst.
  destruct r as [|l2 r]; [apply settles_now; split; assumption|]. set (r' := l2 :: r) in *.
  assert (W : Forall (fun x => x <> [] /\ ~ In c_nl x) (without_blank r')).
  { clearbody r'. apply Forall_forall. intros x I. apply filter_In in I as (I & X). split; [now destruct x|]. rewrite Forall_forall in Nr. now apply Nr. }
  destruct (without_blank r') as [|x q] eqn:Ew; [apply single_solid; assumption|]. apply settles_now. cbn [settled map]. split; [discriminate|]. split; [|discriminate].
  change (Forall (fun y => rich y \/ solid y) (map (fun t => XTag (lit "text:p") [] [XText t]) (l :: x :: q))).
  assert (W' : Forall (fun y => y <> []) (l :: x :: q)) by (constructor; [exact Bl|]; clear -W; induction W as [|? ? (? & _)]; constructor; auto).
  clear -W'. induction W' as [|y m Hy _ IH]; constructor; [|exact IH]. right. exists [XText y], y. cbn. rewrite app_nil_r. auto.
Qed.
(** Rich text of which each paragraph is rich or plain and not empty. *)
Lemma solid_settles l : Forall (fun x => rich x \/ solid x) l -> settles 3 (VTextXml l).
Proof.
  intros F. destruct l as [|x [|y l]].
  - apply settles_next. intros w (ps & P & ->). inversion P; subst. now apply settles_now.
  - inversion F as [|? ? [R|S] _]; subst.
    + apply settles_now. split; [discriminate|]. split; [exact F|]. intros z E. now injection E as <-.
    + apply settles_next. intros w (ps & P & ->). inversion P as [|? o ? ? Po Pr]; subst. inversion Pr; subst.
      destruct (solid_after _ _ S Po) as (t & -> & _ & _). exact (text_settles t).
  - apply settles_now. split; [discriminate|]. split; [exact F|]. discriminate.
Qed.
(** Paragraphs as they are read. *)
Definition as_seen (x : xnode) : Prop := rich x \/ exists t, x = XTag (lit "text:p") [] [XText t].
Lemma seen_settles l : Forall as_seen l -> settles 4 (VTextXml l).
Proof.
  intros F. apply settles_next. intros w (ps & P & ->).
  assert (Q : Forall (fun o => match o with Some p => solid_part p | None => True end) ps).
  { induction P as [|x o l ps H _ IH]; [constructor|]. inversion F as [|? ? Fx Fl]; subst. constructor; [|now apply IH]. destruct Fx as [R|(t & ->)].
    - destruct (rich_after _ _ R H) as (y & -> & Ry & _). exact Ry.
    - inversion H as [|n a c u C Pu U|n a c C Pu|n a c y Py]; subst; [exact U|exact I|discriminate]. }
  pose proof (rich_case ps) as C. assert (Q' : Forall (fun o => match o with Some p => solid_part p | None => True end) (drop_none ps)).
  { apply Forall_forall. intros o I. rewrite Forall_forall in Q. apply Q, drop_in, I. }
  assert (X : Forall (fun x => rich x \/ solid x) (map as_para (somes (drop_none ps)))).
  { clear -Q'. induction Q' as [|[p|] l H _ IH]; cbn; [constructor|constructor; [now apply part_para|exact IH]|exact IH]. }
  destruct (drop_none ps) as [|[[t|y]|] [|o r]]; rewrite C; try (now apply settles_now); try (exact (solid_settles _ X)).
  apply (settles_more 2); [lia|]. apply text_settles.
Qed.
Lemma value_settles v : settles 5 v.
Proof.
  destruct v as [| | | | |s|l| |]; try (now apply settles_now).
  - apply (settles_more 2); [lia|]. apply text_settles.
  - apply settles_next. intros w (ps & P & ->).
    assert (Q : Forall (fun o => match o with Some p => as_seen (as_para p) | None => True end) ps).
    { induction P as [|x o l ps H _ IH]; [constructor|]. constructor; [|exact IH].
      inversion H as [n a|n a c t C Pt T|n a c C Pt|n a c y Py E]; subst; cbn [as_para]; [right; eauto|right; eauto|exact I|].
      left. rewrite broken_norm in E. destruct y as [t|m b d]; [discriminate|]. cbn [rich]. now rewrite (norm_plain_of _ _ _ _ _ _ E). }
    pose proof (rich_case ps) as C. assert (Q' : Forall (fun o => match o with Some p => as_seen (as_para p) | None => True end) (drop_none ps)).
    { apply Forall_forall. intros o I. rewrite Forall_forall in Q. apply Q, drop_in, I. }
    assert (X : Forall as_seen (map as_para (somes (drop_none ps)))).
    { clear -Q'. induction Q' as [|[p|] l' H _ IH]; cbn; [constructor|constructor; [exact H|exact IH]|exact IH]. }
    destruct (drop_none ps) as [|[[t|y]|] [|o r]]; rewrite C; try (now apply settles_now); try (exact (seen_settles _ X)).
    apply (settles_more 2); [lia|]. apply text_settles.
Qed.

(** ** Flat files *)

Definition count {A} (f : A -> nat) (l : list A) : nat := fold_right (fun x n => f x + n)%nat 0%nat l.
Definition elem (y : xnode) : nat := match y with XTag _ _ _ => S (inside y) | XText _ => 0 end.
Lemma inside_tag n a c : inside (XTag n a c) = count elem c.
Proof. induction c as [|y c IH]; [reflexivity|]. cbn [inside count fold_right] in *. fold (count elem c). rewrite <- IH. now destruct y. Qed.
Lemma breaks_tag n a c : breaks (XTag n a c) = count breaks c.
Proof. induction c as [|y c IH]; [reflexivity|]. cbn [breaks count fold_right] in *. fold (count breaks c). now rewrite <- IH. Qed.
Lemma count_app {A} (f : A -> nat) l m : count f (l ++ m) = (count f l + count f m)%nat.
Proof. induction l as [|x l IH]; [reflexivity|]. cbn [app count fold_right]. fold (count f (l ++ m)) (count f l). lia. Qed.
Lemma breaks_app t u : breaks_of (t ++ u) = (breaks_of t + breaks_of u)%nat.
Proof. unfold breaks_of. now rewrite filter_app, app_length. Qed.
Lemma merge_count l : count elem (merge_text l) = count elem l /\ count breaks (merge_text l) = count breaks l.
Proof.
  induction l as [|x l (I1 & I2)]; [now split|]. cbn [merge_text fold_right count]. fold (merge_text l) (count elem l) (count breaks l). rewrite <- I1, <- I2.
  destruct x as [t|n a c]; [|now split]. unfold mcons. destruct (merge_text l) as [|[u|m b d] r]; cbn [count fold_right elem]; [destruct t; now split| |destruct t; now split].
  split; [reflexivity|]. cbn [breaks]. rewrite breaks_app. lia.
Qed.
Lemma norm_counts x : inside (norm x) = inside x /\ breaks (norm x) = breaks x.
Proof.
  induction x as [t|n a c IH] using xnode_ind'; [now split|]. cbn [norm]. rewrite !inside_tag, !breaks_tag. destruct (merge_count (map norm c)) as (-> & ->).
  induction IH as [|y c (H1 & H2) _ (I1 & I2)]; [now split|]. cbn [map count fold_right]. fold (count elem (map norm c)) (count breaks (map norm c)) (count elem c) (count breaks c).
  rewrite I1, I2, H2. split; [|reflexivity]. destruct y; [reflexivity|]. cbn [norm elem] in *. now rewrite H1.
Qed.
Lemma broken_counts x : inside (broken true x) = inside x /\ breaks (broken true x) = (breaks x + inside x)%nat.
Proof.
  induction x as [t|n a c IH] using xnode_ind'; [cbn; lia|]. cbn [broken]. rewrite !inside_tag, !breaks_tag. change (flat_map _ c) with (flat_map (line true) c).
  induction IH as [|y c (H1 & H2) _ (I1 & I2)]; [now split|]. cbn [flat_map]. rewrite !count_app, I1, I2. cbn [count fold_right].
  fold (count elem c) (count breaks c). destruct y as [t|m b d]; [cbn; lia|]. cbn [line count fold_right elem].
  assert (E : elem (broken true (XTag m b d)) = S (inside (broken true (XTag m b d)))) by reflexivity. rewrite E, H1, H2.
  assert (N : breaks (XText (nl true)) = 1%nat) by reflexivity. rewrite N. lia.
Qed.

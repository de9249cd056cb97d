(** Lemmas about the sections with styles and the files they are in. *)
From Verif Require Import Base Lib NumModel NumProps EnumModel RefsModel RefsSpec RefsProofs XmlModel XmlSpec XmlProofs CellModel CellIoModel CellIoProofs BookModel BookProps ScriptProofs
  ValidModel ValidProofs StyleModel StyleSpec FlowProofs StyleProofs.
Require Import Permutation.

(** ** One section *)

Definition item := (family * named body)%type.
Definition open_of (x : item) : str * list (str * str) := opening (fst x) (snd x).
Fixpoint add_all (l : list item) (sb : stylebook) : res stylebook :=
  match l with [] => Ok sb | x :: r => let* sb1 := add_item (fst x) (snd x) sb in add_all r sb1 end.
Lemma add_all_app a b sb : add_all (a ++ b) sb = let* sb1 := add_all a sb in add_all b sb1.
Proof. revert sb. induction a as [|x a IH]; intros sb; cbn [app add_all bind]; [reflexivity|]. destruct (add_item (fst x) (snd x) sb); cbn [bind]; auto. Qed.

(** What is read of an item. *)
Definition item_read (o : origin) (x y : item) : Prop :=
  fst y = fst x /\ nm_name (snd y) = (match nm_body (snd x) with BStyle _ UDefault _ => [] | _ => nm_name (snd x) end)
  /\ same_as (fst x) o (read_use (nm_body (snd x))) (nm_body (snd x)) (nm_body (snd y)).

(** The calls are for the items, and are read as such. *)
Definition sect (lb : bool) (o : origin) (st : stylebook -> event -> list event -> res (stylebook * list event)) (cs : list call) (l : list item) : Prop :=
  exists m, Forall2 (item_read o) l m /\ forall stop sb sb', add_all m sb = Ok sb' -> carries lb stop st cs (map open_of l) sb sb'.
Lemma sect_nil lb o st : sect lb o st [] [].
Proof. exists []. split; [constructor|]. intros stop sb sb' E. injection E as <-. apply carries_nil. Qed.
Lemma sect_app lb o st a la b lb' : sect lb o st a la -> sect lb o st b lb' -> sect lb o st (a ++ b) (la ++ lb').
Proof.
  intros (ma & A1 & A2) (mb & B1 & B2). exists (ma ++ mb). split; [now apply Forall2_app|]. intros stop sb sb' E. rewrite add_all_app in E. apply bind_ok in E as (s1 & E1 & E2).
  rewrite map_app. eapply carries_app; eauto.
Qed.

(** The loop of a section knows the element. *)
Definition handles (o : origin) (st : stylebook -> event -> list event -> res (stylebook * list event)) (f : family) (x : body) : Prop :=
  match x with
  | BStyle _ u _ => forall sb e a b r, on_tag e = Some (style_tag u, a, b) -> st sb e r = read_style_style a o u (style_tag u) a b sb r
  | BFormat _ u _ => forall sb e a b r, on_tag e = Some (fmt_tag f, a, b) -> st sb e r = read_format f o (read_use x) (fmt_tag f) a sb r
  | BPage _ => forall sb e a b r, on_tag e = Some (t_page, a, b) -> st sb e r = read_page a sb r
  | BMaster _ => forall sb e a b r, on_tag e = Some (t_master, a, b) -> st sb e r = read_master a sb r
  end.
Definition goes (o : origin) (u : suse) (x : body) : bool :=
  match x with BStyle o' u' _ | BFormat o' u' _ => origin_eqb o' o && suse_eqb u' u | _ => true end.
Lemma eqb_origin a b : origin_eqb a b = true -> a = b.
Proof. now destruct a, b. Qed.
Lemma eqb_suse a b : suse_eqb a b = true -> a = b.
Proof. now destruct a, b. Qed.
Lemma item_sect lb o u st f s cs : mute st -> (forall x, goes o u x = true -> body_ok lb f x -> handles o st f x) -> body_ok lb f (nm_body s) ->
  item_calls o u f s = Ok cs -> sect lb o st cs (if goes o u (nm_body s) then [(f, s)] else []).
Proof.
  intros M St Ok E. destruct s as [n x]. cbn [nm_body] in *. unfold item_calls in E. cbn [nm_body nm_name] in E.
  destruct (goes o u x) eqn:G.
  2: { destruct x; cbn [goes] in G; try discriminate; rewrite G in E; injection E as <-; apply sect_nil. }
  specialize (St x G Ok). destruct x as [o' u' b|o' u' b|b|b]; cbn [goes] in G; try rewrite G in E.
  - apply andb_prop in G as (G1 & G2). apply eqb_origin in G1. apply eqb_suse in G2. subst o' u'.
    exists [(f, Named (style_item_name n u) (BStyle o u (style_read f b)))]. split.
    + constructor; [|constructor]. split; [reflexivity|]. split; [reflexivity|]. reflexivity.
    + intros stop sb sb' A. cbn [add_all fst snd] in A. apply bind_ok in A as (s1 & A & Q). injection Q as <-. cbn [map open_of fst snd].
      eapply style_carry; [exact M| |exact Ok|exact E|exact A]. intros. now apply (St sb _ _ e).
  - injection E as <-. apply andb_prop in G as (G1 & G2). apply eqb_origin in G1. apply eqb_suse in G2. subst o' u'.
    exists [(f, Named n (BFormat o (read_use (BFormat o u b)) (format_read b)))]. split.
    + constructor; [|constructor]. split; [reflexivity|]. split; [destruct u; reflexivity|]. reflexivity.
    + intros stop sb sb' A. cbn [add_all fst snd] in A. apply bind_ok in A as (s1 & A & Q). injection Q as <-. cbn [map open_of fst snd].
      eapply format_carry with (o := o); [exact M| |exact Ok|exact A]. intros. now apply (St sb _ _ e).
  - injection E as <-. destruct Ok as (-> & P). exists [(FPage, Named n (BPage b))]. split.
    + constructor; [|constructor]. split; [reflexivity|]. split; reflexivity.
    + intros stop sb sb' A. cbn [add_all fst snd] in A. apply bind_ok in A as (s1 & A & Q). injection Q as <-. cbn [map open_of fst snd].
      apply page_carry; [exact M| |exact P|exact A]. intros. now apply (St sb _ _ e).
  - injection E as <-. destruct Ok as (-> & P). destruct (master_carry lb n b P) as (b' & Sm & C). exists [(FMasterPage, Named n (BMaster b'))]. split.
    + constructor; [|constructor]. split; [reflexivity|]. split; [reflexivity|]. exists b'. auto.
    + intros stop sb sb' A. cbn [add_all fst snd] in A. apply bind_ok in A as (s1 & A & Q). injection Q as <-. cbn [map open_of fst snd].
      apply C; [exact M| |exact A]. intros. now apply (St sb _ _ e).
Qed.
Definition picked (b : stylebook) (o : origin) (u : suse) (f : family) : list item :=
  map (pair f) (filter (fun s => goes o u (nm_body s)) (map snd (bk_styles (sk_book b) f))).
Lemma family_sect lb o u st b f cs : mute st -> f <> FValidation -> book_ok lb b -> (forall x, goes o u x = true -> body_ok lb f x -> handles o st f x) ->
  family_calls b o u f = Ok cs -> sect lb o st cs (picked b o u f).
Proof.
  intros M F (_ & O & _) St. unfold family_calls, picked. pose proof (fun k s => O f k s F) as O'. clear O. revert cs.
  induction (bk_styles (sk_book b) f) as [|[k s] l IH]; intros cs E; cbn [cat_calls map filter] in *.
  - injection E as <-. apply sect_nil.
  - apply bind_ok in E as (c1 & E1 & E). apply bind_ok in E as (c2 & E2 & E). injection E as <-. cbn [snd] in *.
    pose proof (item_sect lb o u st f s c1 M St) as H. destruct (O' k s (or_introl eq_refl)) as (_ & _ & B). specialize (H B E1).
    specialize (IH (fun k s i => O' k s (or_intror i)) c2 E2). pose proof (sect_app _ _ _ _ _ _ _ H IH) as R. destruct (goes o u (nm_body s)); exact R.
Qed.
Lemma families_sect lb o u st b fs : mute st -> ~ In FValidation fs -> book_ok lb b -> (forall f x, In f fs -> goes o u x = true -> body_ok lb f x -> handles o st f x) ->
  forall cs, cat_calls (family_calls b o u) fs = Ok cs -> sect lb o st cs (flat_map (picked b o u) fs).
Proof.
  intros M F O St. induction fs as [|f fs IH]; intros cs E; cbn [cat_calls flat_map] in *; [injection E as <-; apply sect_nil|].
  apply bind_ok in E as (c1 & E1 & E). apply bind_ok in E as (c2 & E2 & E). injection E as <-. apply sect_app.
  - apply family_sect; [exact M|cbn in F; tauto|exact O| |exact E1]. intros x. apply St. now left.
  - apply IH; [cbn in F; tauto| |exact E2]. intros g x I. apply St. now right.
Qed.

(** ** The three sections *)

Lemma mute_styles o : mute (styles_step o).
Proof. intros s t r. reflexivity. Qed.
Lemma mute_automatic o : mute (automatic_step o).
Proof. intros s t r. reflexivity. Qed.
Lemma mute_masters : mute masters_step.
Proof. intros s t r. reflexivity. Qed.
Lemma handles_styles lb o u f x : (forall b, x <> BPage b) -> (forall b, x <> BMaster b) -> u <> UAutomatic -> goes o u x = true -> body_ok lb f x -> handles o (styles_step o) f x.
Proof.
  intros P Ms U G K. destruct x as [o' u' b|o' u' b|b|b]; [| |now elim (P b)|now elim (Ms b)]; cbn [goes] in G; apply andb_prop in G as (_ & G); apply eqb_suse in G; subst u'; cbn [handles].
  - intros sb e a em r H. unfold styles_step. rewrite H. destruct u; [|reflexivity|now elim U]. reflexivity.
  - intros sb e a em r H. unfold styles_step. rewrite H. destruct K as (K & _). destruct (format_name f K) as (_ & F).
    assert (N1 : str_eqb (fmt_tag f) t_style = false) by (cbn in K; repeat destruct K as [<-|K]; try contradiction; reflexivity).
    assert (N2 : str_eqb (fmt_tag f) t_default = false) by (cbn in K; repeat destruct K as [<-|K]; try contradiction; reflexivity).
    rewrite N1, N2, F. destruct u; [reflexivity|reflexivity|now elim U].
Qed.
Lemma handles_automatic lb o f x : (forall b, x <> BMaster b) -> goes o UAutomatic x = true -> body_ok lb f x -> handles o (automatic_step o) f x.
Proof.
  intros Ms G K. destruct x as [o' u' b|o' u' b|b|b]; [| | |now elim (Ms b)]; cbn [goes] in G; try (apply andb_prop in G as (_ & G); apply eqb_suse in G; subst u'); cbn [handles].
  - intros sb e a em r H. unfold automatic_step. rewrite H. reflexivity.
  - intros sb e a em r H. unfold automatic_step. rewrite H. destruct K as (K & _). destruct (format_name f K) as (_ & F).
    assert (N1 : str_eqb (fmt_tag f) t_style = false) by (cbn in K; repeat destruct K as [<-|K]; try contradiction; reflexivity).
    assert (N2 : str_eqb (fmt_tag f) t_page = false) by (cbn in K; repeat destruct K as [<-|K]; try contradiction; reflexivity).
    rewrite N1, N2, F. reflexivity.
  - intros sb e a em r H. unfold automatic_step. rewrite H. reflexivity.
Qed.
Lemma handles_masters lb f x : f = FMasterPage -> body_ok lb f x -> handles OStyles masters_step f x.
Proof.
  intros -> K. destruct x as [o' u' b|o' u' b|b|b]; cbn [body_ok] in K.
  - destruct K as (K & _). cbn in K. repeat destruct K as [K|K]; try discriminate. contradiction.
  - destruct K as (K & _). cbn in K. repeat destruct K as [K|K]; try discriminate. contradiction.
  - destruct K as (K & _). discriminate.
  - intros sb e a em r H. unfold masters_step. rewrite H. reflexivity.
Qed.
Definition style_order : list family := [FCol; FRow; FTable; FCell; FParagraph; FText; FRuby; FGraphic].
Definition format_order : list family := [FmtBoolean; FmtCurrency; FmtDateTime; FmtNumber; FmtPercentage; FmtText; FmtTimeDuration].
Definition styles_items (b : stylebook) (o : origin) : list item :=
  flat_map (picked b o UDefault) style_order ++ flat_map (picked b o UNamed) style_order ++ flat_map (picked b o UNamed) format_order ++ flat_map (picked b o UDefault) format_order.
Definition automatic_items (b : stylebook) (o : origin) : list item :=
  picked b o UAutomatic FPage ++ flat_map (picked b o UAutomatic) style_order ++ flat_map (picked b o UAutomatic) format_order.
Definition masters_items (b : stylebook) : list item := picked b OStyles UNamed FMasterPage.
Lemma no_page lb f x b : In f (style_order ++ format_order) -> body_ok lb f x -> x <> BPage b.
Proof. intros I K ->. destruct K as (-> & _). cbn in I. repeat destruct I as [I|I]; try discriminate. contradiction. Qed.
Lemma no_master lb f x b : In f (FPage :: style_order ++ format_order) -> body_ok lb f x -> x <> BMaster b.
Proof. intros I K ->. destruct K as (-> & _). cbn in I. repeat destruct I as [I|I]; try discriminate. contradiction. Qed.
Lemma in_order f : In f style_order \/ In f format_order -> In f (style_order ++ format_order).
Proof. intros H. now apply in_or_app. Qed.
Lemma styles_sect lb b o cs : book_ok lb b -> write_office_styles b o = Ok cs ->
  exists inner, cs = CElem t_office_styles :: inner ++ [CEnd t_office_styles] /\ sect lb o (styles_step o) inner (styles_items b o).
Proof.
  intros O E. unfold write_office_styles in E. apply bind_ok in E as (d & Ed & E). apply bind_ok in E as (n & En & E). apply bind_ok in E as (fn & Efn & E). apply bind_ok in E as (fd & Efd & E).
  injection E as <-. exists (d ++ n ++ fn ++ fd). split; [now rewrite <- !app_assoc|].
  assert (H : forall u fs cs, u <> UAutomatic -> (fs = style_order \/ fs = format_order) -> cat_calls (family_calls b o u) fs = Ok cs -> sect lb o (styles_step o) cs (flat_map (picked b o u) fs)).
  { intros u fs c U Fs E. apply families_sect; [apply mute_styles| |exact O| |exact E].
    - destruct Fs as [->| ->]; cbn; intros I; repeat destruct I as [I|I]; try discriminate; contradiction.
    - intros f x I G K. assert (J : In f (style_order ++ format_order)) by (apply in_order; destruct Fs as [->| ->]; auto).
      eapply handles_styles with (u := u); [|  |exact U|exact G|exact K]; intros b0; [now apply (no_page lb f)|apply (no_master lb f); [now right|exact K]]. }
  unfold styles_items. apply sect_app; [apply H; [discriminate|auto|exact Ed]|]. apply sect_app; [apply H; [discriminate|auto|exact En]|].
  apply sect_app; apply H; try discriminate; auto.
Qed.
Lemma automatic_sect lb b o cs : book_ok lb b -> write_automatic b o = Ok cs ->
  exists inner, cs = CElem t_automatic :: inner ++ [CEnd t_automatic] /\ sect lb o (automatic_step o) inner (automatic_items b o).
Proof.
  intros O E. unfold write_automatic in E. apply bind_ok in E as (p & Ep & E). apply bind_ok in E as (s & Es & E). apply bind_ok in E as (v & Ev & E).
  injection E as <-. exists (p ++ s ++ v). split; [now rewrite <- !app_assoc|].
  assert (H : forall fs cs, incl fs (FPage :: style_order ++ format_order) -> cat_calls (family_calls b o UAutomatic) fs = Ok cs -> sect lb o (automatic_step o) cs (flat_map (picked b o UAutomatic) fs)).
  { intros fs c Fs E. apply families_sect; [apply mute_automatic| |exact O| |exact E].
    - intros I. apply Fs in I. cbn in I. repeat destruct I as [I|I]; try discriminate; contradiction.
    - intros f x I G K. apply handles_automatic with (lb := lb); [|exact G|exact K]. intros b0. apply (no_master lb f); [now apply Fs|exact K]. }
  unfold automatic_items. apply sect_app.
  - specialize (H [FPage] p). cbn [cat_calls] in H. rewrite Ep in H. cbn [bind flat_map] in H. rewrite !app_nil_r in H. apply H; [|reflexivity]. intros f [<-|[]]. now left.
  - apply sect_app; apply H; try assumption; intros f I; right; apply in_order; auto.
Qed.
(** Master pages have no origin and no use. *)
Lemma item_read_origin o o' x y : (exists b, nm_body (snd x) = BMaster b) -> item_read o x y -> item_read o' x y.
Proof. intros (b & E). unfold item_read. rewrite E. auto. Qed.
Lemma masters_sect lb o b cs : book_ok lb b -> write_masters b = Ok cs ->
  exists inner, cs = CElem t_masters :: inner ++ [CEnd t_masters] /\ sect lb o masters_step inner (masters_items b).
Proof.
  intros O E. unfold write_masters in E. apply bind_ok in E as (m & Em & E). injection E as <-. exists m. split; [reflexivity|].
  assert (S : sect lb OStyles masters_step m (masters_items b)).
  { apply family_sect; [apply mute_masters|discriminate|exact O| |exact Em]. intros x G K. now apply (handles_masters lb). }
  destruct S as (l & F & C). exists l. split; [|exact C]. clear -F O. unfold masters_items, picked in *.
  assert (A : Forall (fun x : item => exists b0, nm_body (snd x) = BMaster b0) (map (pair FMasterPage) (filter (fun s => goes OStyles UNamed (nm_body s)) (map snd (bk_styles (sk_book b) FMasterPage))))).
  { apply Forall_forall. intros x I. apply in_map_iff in I as (s & <- & I). apply filter_In in I as (I & _). apply in_map_iff in I as ((k & s') & E & I). cbn [snd] in E. subst s'.
    destruct O as (_ & O & _). destruct (O FMasterPage k s ltac:(discriminate) I) as (_ & _ & K). cbn [snd]. destruct (nm_body s) as [o' u' q|o' u' q|q|q]; cbn [body_ok] in K; eauto.
    - destruct K as (K & _). cbn in K. repeat destruct K as [K|K]; try discriminate. contradiction.
    - destruct K as (K & _). cbn in K. repeat destruct K as [K|K]; try discriminate. contradiction.
    - destruct K. discriminate. }
  induction F as [|x y l m R F IH]; constructor; inversion A; subst; eauto using item_read_origin.
Qed.

(** ** The file around the sections *)

Definition sec_tags : list str := [t_office_styles; t_automatic; t_masters].
(** What is declared inside the outermost element. *)
Definition lists (evs : list event) (g : str -> list (str * list (str * str))) : Prop :=
  forall sec root rest, In sec sec_tags -> declared sec [root] (evs ++ rest) = g sec ++ declared sec [root] rest.
Definition dcarries (lb : bool) (o : origin) (cs : list call) (g : str -> list (str * list (str * str))) (s s' : stylebook) : Prop :=
  exists evs, flows lb cs evs /\ passes None (doc_step o) s evs s' /\ lists evs g.
Lemma dc_app lb o a ga b gb s s1 s2 : dcarries lb o a ga s s1 -> dcarries lb o b gb s1 s2 -> dcarries lb o (a ++ b) (fun x => ga x ++ gb x) s s2.
Proof.
  intros (ea & A1 & A2 & A3) (eb & B1 & B2 & B3). exists (ea ++ eb). split; [now apply flows_app|]. split; [eapply passes_app; eassumption|].
  intros sec root rest I. rewrite <- app_assoc, A3, B3 by exact I. now rewrite app_assoc.
Qed.
Lemma mute_doc o : mute (doc_step o).
Proof. intros s t r. reflexivity. Qed.
Lemma lists_elem lb n a evs l : shows evs l -> lists (EStart n a :: evs ++ [EEnd n; EText (nl lb)]) (fun sec => if str_eqb n sec then l else []).
Proof.
  intros E sec root rest _. cbn [app declared]. rewrite <- app_assoc. cbn [app]. rewrite E by (cbn; lia). cbn [declared tl]. reflexivity.
Qed.
Lemma lists_empty lb n a : lists [EEmpty n a; EText (nl lb)] (fun _ => []).
Proof. intros sec root rest _. reflexivity. Qed.
Lemma dc_section lb o tag st inner l s m :
  (tag, st) = (t_office_styles, styles_step o) \/ (tag, st) = (t_automatic, automatic_step o) \/ (tag, st) = (t_masters, masters_step) ->
  (forall stop sb sb', add_all m sb = Ok sb' -> carries lb stop st inner (map open_of l) sb sb') -> forall s', add_all m s = Ok s' ->
  dcarries lb o (CElem tag :: inner ++ [CEnd tag]) (fun sec => if str_eqb tag sec then map open_of l else []) s s'.
Proof.
  intros T C s' A. destruct (C (Some tag) s s' A) as (evs & F & P & Sh). change (CElem tag :: inner ++ [CEnd tag]) with (CElem tag :: [] ++ inner ++ [CEnd tag]).
  exists (EStart tag (attrs_of []) :: evs ++ [EEnd tag; EText (nl lb)]). split; [|split].
  - apply flows_elem; [|constructor|exact F]. destruct T as [T|[T|T]]; injection T as -> ->; name_lit.
  - apply passes_sub; [apply mute_doc|reflexivity|exact I|]. intros rest.
    pose proof (passes_run _ _ _ _ _ _ (EText (nl lb) :: rest) eq_refl P) as R. revert R. generalize (coalesce (evs ++ EEnd tag :: EText (nl lb) :: rest)). intros E R.
    unfold doc_step. destruct T as [T|[T|T]]; injection T as -> ->.
    + replace (str_eqb t_office_styles t_fonts) with false by reflexivity. rewrite str_eqb_refl, R. reflexivity.
    + replace (str_eqb t_automatic t_fonts) with false by reflexivity. replace (str_eqb t_automatic t_office_styles) with false by reflexivity. rewrite str_eqb_refl, R. reflexivity.
    + replace (str_eqb t_masters t_fonts) with false by reflexivity. replace (str_eqb t_masters t_office_styles) with false by reflexivity.
      replace (str_eqb t_masters t_automatic) with false by reflexivity. rewrite str_eqb_refl, R. reflexivity.
  - now apply lists_elem.
Qed.
(** Fonts: the first has the origin of the file, those after it have content. *)
Fixpoint put_fonts (o : origin) (l : list font) (m : amap font) : amap font :=
  match l with [] => m | ft :: r => put_fonts OContent r (am_put (ft_name ft) (Font (ft_name ft) o (ft_attr ft)) m) end.
Definition fonts_of (b : stylebook) (o : origin) : list font := filter (fun ft => origin_eqb (ft_origin ft) o) (map snd (sk_fonts b)).
Lemma mute_font : mute font_step.
Proof. intros s t r. reflexivity. Qed.
Lemma fonts_carry lb o (l : list (str * font)) :
  (forall k ft, In (k, ft) l -> ft_name ft = k /\ attrs_ok (ft_attr ft) /\ ~ In k_name (map fst (ft_attr ft))) -> forall q b,
  exists d q', carries lb (Some t_fonts) font_step (flat_map (fun kv => font_calls o (snd kv)) l) d (b, q)
    (SBook (put_fonts q (filter (fun ft => origin_eqb (ft_origin ft) o) (map snd l)) (sk_fonts b)) (sk_book b), q').
Proof.
  induction l as [|[k ft] l IH]; intros H q b; cbn [flat_map map filter snd].
  - exists [], q. destruct b. apply carries_nil.
  - destruct (H k ft (or_introl eq_refl)) as (_ & A & N). specialize (IH (fun k ft i => H k ft (or_intror i))). unfold font_calls at 1.
    destruct (origin_eqb (ft_origin ft) o); [|cbn [app put_fonts]; apply IH]. cbn [put_fonts].
    destruct (IH OContent (SBook (am_put (ft_name ft) (Font (ft_name ft) q (ft_attr ft)) (sk_fonts b)) (sk_book b))) as (d & q' & C). cbn [sk_fonts sk_book] in C.
    eexists. exists q'. eapply carries_app; [|exact C].
    apply carries_empty; [apply mute_font|name_lit|apply Forall_cons; [name_lit|now apply attr_calls_good]|]. intros r.
    unfold font_step. cbn [on_tag]. rewrite str_eqb_refl. cbn [attrs_of attr_of]. rewrite attrs_of_calls, copy_named by exact N. reflexivity.
Qed.
Lemma dc_fonts lb o b s : book_ok lb b -> dcarries lb o (write_fonts b o) (fun _ => []) s (SBook (put_fonts o (fonts_of b o) (sk_fonts s)) (sk_book s)).
Proof.
  intros (_ & _ & _ & F). unfold write_fonts, fonts_of. change (lit "style:name") with k_name in F.
  destruct (fonts_carry lb o (sk_fonts b) F o s) as (d & q' & evs & C1 & C2 & C3).
  set (e := negb (is_nil (sk_fonts b))) in *. assert (E : e = false -> flat_map (fun kv => font_calls o (snd kv)) (sk_fonts b) = []) by (unfold e; destruct (sk_fonts b); [auto|discriminate]).
  change (CElemIf e t_fonts :: flat_map (fun kv => font_calls o (snd kv)) (sk_fonts b) ++ [CEndIf e t_fonts])
    with (CElemIf e t_fonts :: [] ++ flat_map (fun kv => font_calls o (snd kv)) (sk_fonts b) ++ [CEndIf e t_fonts]).
  eexists. split; [apply flows_elem_if; [name_lit|constructor|exact C1|exact E]|]. cbn [attrs_of]. destruct e eqn:Ee.
  - split.
    + apply passes_sub; [apply mute_doc|reflexivity|exact I|]. intros rest.
      pose proof (passes_run _ _ _ _ _ _ (EText (nl lb) :: rest) eq_refl C2) as R. revert R. generalize (coalesce (evs ++ EEnd t_fonts :: EText (nl lb) :: rest)). intros E0 R.
      unfold doc_step. rewrite str_eqb_refl. unfold read_fonts. rewrite R. reflexivity.
    + intros sec root rest I. rewrite (lists_elem lb t_fonts [] evs d C3) by exact I. destruct I as [<-|[<-|[<-|[]]]]; reflexivity.
  - assert (N : sk_fonts b = []) by (unfold e in Ee; destruct (sk_fonts b); [reflexivity|discriminate]). rewrite N. cbn [map filter put_fonts].
    split; [|apply lists_empty]. apply passes_empty; [apply mute_doc|]. intros r. destruct s. reflexivity.
Qed.
(** Parts without styles. *)
Lemma balanced_declared evs : balanced evs -> (forall n a, In (EStart n a) evs -> ~ In n sec_tags) -> forall sec root st rest, In sec sec_tags -> ~ In root sec_tags \/ st = [] ->
  declared sec (root :: st) (evs ++ rest) = declared sec (root :: st) rest.
Proof.
  intros B. induction B as [|e r Fl B IH|n a inner m r Bi IHi Br IHr]; intros H sec root st rest I R.
  - reflexivity.
  - specialize (IH (fun n a i => H n a (or_intror i)) sec root st rest I R). destruct e; try contradiction; try exact IH.
    cbn [app declared]. destruct st as [|s' [|]]; [exact IH| |exact IH]. destruct R as [R|R]; [|discriminate].
    destruct (str_eqb root sec) eqn:E; [apply str_eqb_eq in E; subst; contradiction|exact IH].
  - assert (Q : declared sec (n :: root :: st) ((inner ++ EEnd m :: r) ++ rest) = declared sec (root :: st) rest).
    { rewrite <- app_assoc. cbn [app]. rewrite IHi; [| |exact I|left; apply (H n a); now left].
      - cbn [declared tl]. apply IHr; [|exact I|exact R]. intros n0 a0 i. apply (H n0 a0). right. apply in_or_app. right. now right.
      - intros n0 a0 i. apply (H n0 a0). right. apply in_or_app. now left. }
    cbn [app declared]. destruct st as [|s' [|]]; [exact Q| |exact Q]. destruct R as [R|R]; [|discriminate].
    destruct (str_eqb root sec) eqn:E; [apply str_eqb_eq in E; subst; contradiction|exact Q].
Qed.
Lemma quiet_passes o s evs : (forall n a, In (EStart n a) evs -> ~ In n (t_fonts :: sec_tags)) -> passes None (doc_step o) s evs s.
Proof.
  induction evs as [|e evs IH]; intros H; [apply passes_nil|]. apply (passes_app _ _ _ [e] s); [|apply IH; intros n a i; apply (H n a); now right].
  destruct e as [n a|n a|n|t|t|t]; try (apply passes_event; [reflexivity|exact I|reflexivity]); [|now apply passes_text].
  apply passes_event; [reflexivity|exact I|]. intros r. unfold doc_step. pose proof (H n a (or_introl eq_refl)) as N.
  assert (E : forall t, In t (t_fonts :: sec_tags) -> str_eqb n t = false) by (intros t It; apply str_eqb_neq; intros ->; contradiction).
  rewrite !E by (unfold sec_tags, In; auto). reflexivity.
Qed.
Lemma dc_quiet lb o cs s : quiet lb cs -> dcarries lb o cs (fun _ => []) s s.
Proof.
  intros (evs & F & B & N). exists evs. split; [exact F|]. split; [now apply quiet_passes|]. intros sec root rest I. apply balanced_declared; [exact B| |exact I|now right].
  intros n a i j. apply (N n a i). right. exact j.
Qed.
Lemma declared_coalesce sec evs : forall st acc, declared sec st (coalesce_from acc evs) = declared sec st evs.
Proof.
  assert (T : forall acc st l, declared sec st (emit_text acc ++ l) = declared sec st l) by (intros [|c acc] st l; reflexivity).
  induction evs as [|e evs IH]; intros st acc; [cbn [coalesce_from]; rewrite <- (app_nil_r (emit_text acc)); apply T|].
  destruct e; try (rewrite coalesce_cons by exact I; rewrite T; cbn [declared]; rewrite !IH; destruct st as [|s1 [|s2 [|]]]; reflexivity).
  cbn [coalesce_from declared]. apply IH.
Qed.
(** A whole file. *)
Lemma dc_doc lb o n ns cs g s s' : In n [lit "office:document-styles"; lit "office:document-content"; lit "office:document"] -> attrs_ok ns -> dcarries lb o cs g s s' ->
  exists evs, read_events (render lb (CDtd (lit "UTF-8") :: CElem n :: attr_calls ns ++ cs ++ [CEnd n])) = Ok evs
    /\ read_doc o s evs = Ok s' /\ forall sec, In sec sec_tags -> declared sec [] evs = g sec.
Proof.
  intros In A (evs & F & P & L).
  assert (N : name_ok n) by (destruct In as [<-|[<-|[<-|[]]]]; name_lit).
  assert (Q : forall r, doc_step o s (EStart n (attrs_of (attr_calls ns))) r = Ok (s, r)) by (intros r; destruct In as [<-|[<-|[<-|[]]]]; reflexivity).
  destruct (flows_doc lb (lit "UTF-8") n (attr_calls ns) cs evs) as (head & text & R); [|exact N|now apply attr_calls_good|exact F|].
  { apply Forall_forall. intros c I J. cbn in I, J. repeat (destruct I as [I|I]; [subst c; repeat (destruct J as [J|J]; [discriminate|]); contradiction|]); contradiction. }
  eexists. split; [exact R|]. split.
  - unfold read_doc.
    assert (Ps : passes None (doc_step o) s (EOther head :: EText text :: EStart n (attrs_of (attr_calls ns)) :: evs ++ [EEnd n; EText (nl lb)]) s').
    { apply (passes_app _ _ _ [EOther head] s); [apply passes_event; [reflexivity|exact I|reflexivity]|].
      apply (passes_app _ _ _ [EText text] s); [apply passes_text, mute_doc|].
      apply (passes_app _ _ _ [EStart n (attrs_of (attr_calls ns))] s); [apply passes_event; [reflexivity|exact I|exact Q]|].
      eapply passes_app; [exact P|]. apply (passes_app _ _ _ [EEnd n] s'); [apply passes_event; [reflexivity|exact I|reflexivity]|apply passes_text, mute_doc]. }
    rewrite (passes_end _ _ _ _ _ Ps). reflexivity.
  - intros sec I. unfold coalesce. rewrite declared_coalesce. cbn [declared]. rewrite L by exact I. cbn [declared]. apply app_nil_r.
Qed.

(** ** Adding the styles that are read *)

Lemma family_refl f : family_eqb f f = true.
Proof. now apply family_eqb_eq. Qed.
Lemma add_item_facts f s sb sb' : add_item f s sb = Ok sb' -> exists r, r <> [] /\ (nm_name s <> [] -> r = nm_name s) /\ (nm_name s = [] -> found sb f r = None /\ numbered f r)
  /\ found sb' f r = Some (Named r (nm_body s)) /\ (forall g k, ~ (g = f /\ k = r) -> found sb' g k = found sb g k) /\ sk_fonts sb' = sk_fonts sb.
Proof.
  intros E. unfold add_item in E. apply bind_ok in E as ((bk & r) & E & Q). injection Q as <-. apply C32_add in E as (A & B & C & D & F). exists r. unfold found. cbn [sk_book sk_fonts].
  split; [exact C|]. split; [exact B|]. split; [exact A|]. split; [exact D|]. split; [exact F|reflexivity].
Qed.
Lemma found_or sb sb' f k r x : found sb' f r = Some x -> (forall g k, ~ (g = f /\ k = r) -> found sb' g k = found sb g k) ->
  (k = r /\ found sb' f k = Some x) \/ (k <> r /\ found sb' f k = found sb f k).
Proof. intros A B. destruct (str_eqb k r) eqn:E; [apply str_eqb_eq in E; subst k; left; auto|]. right. assert (k <> r) by (intros ->; now rewrite str_eqb_refl in E). split; [assumption|]. apply B. tauto. Qed.
Lemma add_fonts m : forall sb sb', add_all m sb = Ok sb' -> sk_fonts sb' = sk_fonts sb.
Proof.
  induction m as [|[f s] m IH]; intros sb sb' E; cbn [add_all fst snd] in E; [now injection E as <-|]. apply bind_ok in E as (s1 & E1 & E). apply add_item_facts in E1 as (r & _ & _ & _ & _ & _ & <-).
  now apply IH.
Qed.
(** The last one of a name is found. *)
Lemma add_kept (Q : body -> Prop) f k : k <> [] -> forall m sb sb', add_all m sb = Ok sb' -> (forall y, In (f, y) m -> nm_name y = k -> Q (nm_body y)) ->
  (exists y, In (f, y) m /\ nm_name y = k) \/ (exists x, found sb f k = Some (Named k x) /\ Q x) -> exists x, found sb' f k = Some (Named k x) /\ Q x.
Proof.
  intros K. induction m as [|[g s] m IH]; intros sb sb' E All Or; cbn [add_all fst snd] in E.
  - injection E as <-. destruct Or as [(y & [] & _)|H]. exact H.
  - apply bind_ok in E as (s1 & E1 & E). apply add_item_facts in E1 as (r & Rn & N1 & N2 & F1 & F2 & _).
    apply (IH s1 sb' E); [intros y i; apply All; now right|].
    assert (Here : forall y, g = f -> s = y -> nm_name y = k -> exists x, found s1 f k = Some (Named k x) /\ Q x).
    { intros y -> -> Ny. assert (r = k) by (rewrite N1; [exact Ny|congruence]). subst r. exists (nm_body y). split; [exact F1|]. apply All; [now left|exact Ny]. }
    destruct Or as [(y & [I|I] & Ny)|(x & Fx & Qx)].
    + right. injection I as -> ->. now apply (Here y).
    + left. eauto.
    + right. destruct (family_dec g f) as [->|Ng].
      * destruct (str_eqb k r) eqn:Er.
        -- apply str_eqb_eq in Er. subst r. destruct (nm_name s) as [|c n] eqn:Es; [destruct N2 as (N2 & _); [reflexivity|congruence]|].
           apply (Here s); auto. rewrite Es. symmetry. apply N1. discriminate.
        -- exists x. split; [|exact Qx]. rewrite F2; [exact Fx|]. intros (_ & ->). now rewrite str_eqb_refl in Er.
      * exists x. split; [|exact Qx]. rewrite F2; [exact Fx|]. intros (-> & _). now elim Ng.
Qed.
(** What has no name gets one of those with a number. *)
Lemma add_unnamed f m : forall sb sb', add_all m sb = Ok sb' -> (forall y, In (f, y) m -> ~ numbered f (nm_name y)) ->
  (forall x k, found sb f k = Some (Named k x) -> numbered f k -> found sb' f k = Some (Named k x))
  /\ forall x, In (f, Named [] x) m -> exists k, found sb' f k = Some (Named k x) /\ numbered f k.
Proof.
  induction m as [|[g s] m IH]; intros sb sb' E All; cbn [add_all fst snd] in E.
  - injection E as <-. split; [auto|]. intros x [].
  - apply bind_ok in E as (s1 & E1 & E). apply add_item_facts in E1 as (r & Rn & N1 & N2 & F1 & F2 & _).
    destruct (IH s1 sb' E (fun y i => All y (or_intror i))) as (H1 & H2). split.
    + intros x k Fx Nk. apply H1; [|exact Nk]. rewrite F2; [exact Fx|]. intros (-> & ->). destruct (nm_name s) as [|c n] eqn:Es; [destruct N2 as (N2 & _); [reflexivity|congruence]|].
      apply (All s (or_introl eq_refl)). rewrite Es, <- N1 by discriminate. exact Nk.
    + intros x [I|I]; [|now apply H2]. injection I as -> ->. cbn [nm_name nm_body] in *. destruct (N2 eq_refl) as (_ & Nr). exists r. split; [|exact Nr]. now apply H1.
Qed.
(** Everything found has been added. *)
Lemma add_from m : forall sb sb', add_all m sb = Ok sb' -> forall f k s, found sb' f k = Some s -> found sb f k = Some s
  \/ exists y, In (f, y) m /\ s = Named k (nm_body y) /\ (nm_name y = k \/ (nm_name y = [] /\ numbered f k)).
Proof.
  induction m as [|[g q] m IH]; intros sb sb' E f k s Fs; cbn [add_all fst snd] in E.
  - injection E as <-. now left.
  - apply bind_ok in E as (s1 & E1 & E). apply add_item_facts in E1 as (r & Rn & N1 & N2 & F1 & F2 & _). destruct (IH s1 sb' E f k s Fs) as [H|(y & I & H)].
    + destruct (family_dec f g) as [->|Ng].
      * destruct (found_or sb s1 g k r _ F1 F2) as [(-> & F)|(Nk & F)]; [|left; congruence]. right. exists q. split; [now left|]. split; [congruence|].
        destruct (nm_name q) eqn:En; [right; split; [reflexivity|now apply N2]|left; symmetry; now apply N1].
      * left. rewrite F2 in H; [exact H|]. intros (-> & _). now elim Ng.
    + right. exists y. split; [now right|exact H].
Qed.
(** There are enough numbers. *)
Lemma add_ok m : forall sb L, known (sk_book sb) L -> N.of_nat (length L) + N.of_nat (length m) < u32_max -> exists sb', add_all m sb = Ok sb' /\ exists L', known (sk_book sb') L' /\ length L' = (length L + length m)%nat.
Proof.
  induction m as [|[f s] m IH]; intros sb L K H; cbn [length] in H; cbn [add_all fst snd].
  - exists sb. split; [reflexivity|]. exists L. split; [exact K|cbn; lia].
  - destruct (add_known f s (sk_book sb) L K) as (b' & r & E & K' & _); [lia|]. unfold add_item. rewrite E. cbn [bind].
    destruct (IH (SBook (sk_fonts sb) b') ((f, r) :: L) K') as (sb' & E2 & L' & K2 & Ln); [cbn [length]; lia|]. exists sb'. split; [exact E2|]. exists L'. split; [exact K2|]. cbn [length] in *. lia.
Qed.
Lemma known_start : known (sk_book stylebook0) [].
Proof. split; [intros f k []|]. intros f c E. discriminate. Qed.

(** ** The items and the members of the sections *)

Definition pick (P : named body -> bool) (b : stylebook) (f : family) : list item := map (pair f) (filter P (map snd (bk_styles (sk_book b) f))).
Lemma picked_pick b o u f : picked b o u f = pick (fun s => goes o u (nm_body s)) b f.
Proof. reflexivity. Qed.
Lemma members_pick fl sec b : members fl sec b = flat_map (pick (in_section fl sec) b) kinds.
Proof. reflexivity. Qed.
Lemma filter_split {A} (P1 P2 P : A -> bool) l : (forall x, In x l -> P x = P1 x || P2 x /\ P1 x && P2 x = false) -> Permutation (filter P1 l ++ filter P2 l) (filter P l).
Proof.
  induction l as [|x l IH]; intros H; [constructor|]. cbn [filter]. destruct (H x (or_introl eq_refl)) as (E & D). rewrite E. specialize (IH (fun y i => H y (or_intror i))).
  destruct (P1 x), (P2 x); cbn [orb andb app] in *; try discriminate; auto. rewrite <- Permutation_middle. now constructor.
Qed.
Lemma flat_map_split {A B} (f g h : A -> list B) l : (forall x, In x l -> Permutation (f x ++ g x) (h x)) -> Permutation (flat_map f l ++ flat_map g l) (flat_map h l).
Proof.
  induction l as [|x l IH]; intros H; [constructor|]. cbn [flat_map]. rewrite <- (H x (or_introl eq_refl)), <- (IH (fun y i => H y (or_intror i))).
  rewrite <- !app_assoc. apply Permutation_app_head. rewrite !app_assoc. apply Permutation_app_tail, Permutation_app_comm.
Qed.
Lemma pick_split P1 P2 P b fs : (forall f s, In f fs -> entry b f s -> P s = P1 s || P2 s /\ P1 s && P2 s = false) ->
  Permutation (flat_map (pick P1 b) fs ++ flat_map (pick P2 b) fs) (flat_map (pick P b) fs).
Proof.
  intros H. apply flat_map_split. intros f I. unfold pick. rewrite <- map_app. apply Permutation_map, filter_split. intros s J. now apply (H f).
Qed.
Lemma pick_none P b fs : (forall f s, In f fs -> entry b f s -> P s = false) -> flat_map (pick P b) fs = [].
Proof.
  induction fs as [|f fs IH]; intros H; [reflexivity|]. cbn [flat_map]. rewrite (IH (fun g s i => H g s (or_intror i))), app_nil_r. unfold pick.
  specialize (fun s => H f s (or_introl eq_refl)). unfold entry in H. induction (map snd (bk_styles (sk_book b) f)) as [|s l IHl]; [reflexivity|].
  cbn [filter]. rewrite (H s (or_introl eq_refl)). apply IHl. intros t i. apply H. now right.
Qed.
Lemma pick_ext P Q b fs : (forall f s, In f fs -> entry b f s -> P s = Q s) -> flat_map (pick P b) fs = flat_map (pick Q b) fs.
Proof.
  induction fs as [|f fs IH]; intros H; [reflexivity|]. cbn [flat_map]. rewrite (IH (fun g s i => H g s (or_intror i))). f_equal. unfold pick. f_equal.
  specialize (fun s => H f s (or_introl eq_refl)). unfold entry in H. induction (map snd (bk_styles (sk_book b) f)) as [|s l IHl]; [reflexivity|].
  cbn [filter]. rewrite (H s (or_introl eq_refl)), IHl; [reflexivity|]. intros t i. apply H. now right.
Qed.
Lemma perm_styles : Permutation style_order style_kinds.
Proof. unfold style_order, style_kinds. apply NoDup_Permutation; [repeat constructor; cbn; intuition discriminate|repeat constructor; cbn; intuition discriminate|]. intros f. cbn. tauto. Qed.
Lemma perm_formats : Permutation format_order format_kinds.
Proof. unfold format_order, format_kinds. apply NoDup_Permutation; [repeat constructor; cbn; intuition discriminate|repeat constructor; cbn; intuition discriminate|]. intros f. cbn. tauto. Qed.
Lemma entry_in b f s : entry b f s -> exists k, In (k, s) (bk_styles (sk_book b) f).
Proof. intros H. apply in_map_iff in H as ((k & s') & E & I). cbn in E. subst. eauto. Qed.
Lemma kind_body lb b f s : book_ok lb b -> In f kinds -> entry b f s ->
  (In f style_kinds -> exists o u x, nm_body s = BStyle o u x) /\ (In f format_kinds -> exists o u x, nm_body s = BFormat o u x)
  /\ (f = FPage -> exists x, nm_body s = BPage x) /\ (f = FMasterPage -> exists x, nm_body s = BMaster x).
Proof.
  intros (_ & O & _) K E. apply entry_in in E as (k & E). assert (V : f <> FValidation) by (intros ->; cbn in K; repeat destruct K as [K|K]; try discriminate; contradiction).
  destruct (O f k s V E) as (_ & _ & B). destruct (nm_body s) as [o u x|o u x|x|x]; cbn [body_ok] in B.
  - destruct B as (B & _). cbn in B. repeat destruct B as [<-|B]; try contradiction; (split; [|split; [|split]]); intros H; try discriminate; eauto; exfalso; cbn in H; repeat destruct H as [H|H]; try discriminate; contradiction.
  - destruct B as (B & _). cbn in B. repeat destruct B as [<-|B]; try contradiction; (split; [|split; [|split]]); intros H; try discriminate; eauto; exfalso; cbn in H; repeat destruct H as [H|H]; try discriminate; contradiction.
  - destruct B as (-> & _). (split; [|split; [|split]]); intros H; try discriminate; eauto; exfalso; cbn in H; repeat destruct H as [H|H]; try discriminate; contradiction.
  - destruct B as (-> & _). (split; [|split; [|split]]); intros H; try discriminate; eauto; exfalso; cbn in H; repeat destruct H as [H|H]; try discriminate; contradiction.
Qed.
Lemma in_kinds f : In f kinds <-> In f style_kinds \/ In f format_kinds \/ f = FPage \/ f = FMasterPage.
Proof. unfold kinds. rewrite !in_app_iff. cbn [In]. intuition. Qed.
(** The file has the styles of that origin. *)
Definition file_origin (fl : file) (o : origin) (b : stylebook) : Prop :=
  (fl = StylesXml /\ o = OStyles) \/ (fl = FlatXml /\ o = OContent /\ forall f s, In f kinds -> entry b f s -> origin_of (nm_body s) = OContent).
Definition plain_body (x : body) : Prop := match x with BStyle _ _ _ | BFormat _ _ _ => True | _ => False end.
Lemma kind_plain lb b f s : book_ok lb b -> In f style_kinds \/ In f format_kinds -> entry b f s -> plain_body (nm_body s).
Proof.
  intros O K E. destruct (kind_body lb b f s O) as (B1 & B2 & _); [apply in_kinds; tauto|exact E|]. destruct K as [K|K]; [destruct (B1 K) as (o' & u' & x & ->)|destruct (B2 K) as (o' & u' & x & ->)]; exact I.
Qed.
Lemma file_origin_entry fl o b f s : file_origin fl o b -> In f kinds -> entry b f s -> (fl = StylesXml /\ o = OStyles) \/ (fl = FlatXml /\ o = OContent /\ origin_of (nm_body s) = OContent).
Proof. intros [H|(H1 & H2 & H3)] K E; [now left|right]. eauto. Qed.
Lemma styles_members lb fl o b : book_ok lb b -> file_origin fl o b -> Permutation (styles_items b o) (members fl SecStyles b).
Proof.
  intros O F. rewrite members_pick. unfold kinds, styles_items. rewrite !flat_map_app.
  assert (Hs : forall f s, In f style_kinds \/ In f format_kinds -> entry b f s ->
    in_section fl SecStyles s = goes o UDefault (nm_body s) || goes o UNamed (nm_body s) /\ goes o UDefault (nm_body s) && goes o UNamed (nm_body s) = false).
  { intros f s K E. pose proof (kind_plain lb b f s O K E) as P. assert (K' : In f kinds) by (apply in_kinds; tauto). pose proof (file_origin_entry fl o b f s F K' E) as Fo. unfold in_section.
    destruct (nm_body s) as [o' u' x|o' u' x|x|x]; try contradiction; cbn [goes belongs origin_of] in *; destruct Fo as [(-> & ->)|(-> & -> & ->)]; try destruct o'; destruct u'; split; reflexivity. }
  assert (E0 : flat_map (pick (in_section fl SecStyles) b) [FPage; FMasterPage] = []).
  { apply pick_none. intros f s K E. assert (K' : In f kinds) by (apply in_kinds; cbn in K; intuition). destruct (kind_body lb b f s O K' E) as (_ & _ & B3 & B4). unfold in_section.
    destruct K as [<-|[<-|[]]]; [destruct (B3 eq_refl) as (x & ->)|destruct (B4 eq_refl) as (x & ->)]; destruct fl; reflexivity. }
  rewrite E0, app_nil_r, app_assoc. apply Permutation_app.
  - rewrite <- (Permutation_flat_map (pick (in_section fl SecStyles) b) perm_styles). apply pick_split. intros f s I. apply Hs. left. now apply (Permutation_in f perm_styles).
  - rewrite <- (Permutation_flat_map (pick (in_section fl SecStyles) b) perm_formats). rewrite Permutation_app_comm. apply pick_split. intros f s I. apply Hs. right. now apply (Permutation_in f perm_formats).
Qed.
Lemma automatic_members lb fl o b : book_ok lb b -> file_origin fl o b \/ (fl = ContentXml /\ o = OContent) -> Permutation (automatic_items b o) (members fl SecAutomatic b).
Proof.
  intros O F. rewrite members_pick. unfold kinds, automatic_items. rewrite !flat_map_app.
  assert (Hs : forall f s, In f style_kinds \/ In f format_kinds -> entry b f s -> in_section fl SecAutomatic s = goes o UAutomatic (nm_body s)).
  { intros f s K E. pose proof (kind_plain lb b f s O K E) as P. assert (K' : In f kinds) by (apply in_kinds; tauto).
    assert (Fo : ((fl = StylesXml /\ o = OStyles) \/ (fl = FlatXml /\ o = OContent /\ origin_of (nm_body s) = OContent)) \/ (fl = ContentXml /\ o = OContent))
      by (destruct F as [F|F]; [left; exact (file_origin_entry fl o b f s F K' E)|now right]). unfold in_section.
    destruct (nm_body s) as [o' u' x|o' u' x|x|x]; try contradiction; cbn [goes belongs origin_of] in *; destruct Fo as [[(-> & ->)|(-> & -> & ->)]|(-> & ->)]; try destruct o'; destruct u'; reflexivity. }
  assert (E0 : flat_map (pick (in_section fl SecAutomatic) b) [FPage; FMasterPage] = picked b o UAutomatic FPage).
  { change [FPage; FMasterPage] with ([FPage] ++ [FMasterPage]). rewrite flat_map_app.
    rewrite (pick_ext _ (fun s => goes o UAutomatic (nm_body s)) b [FPage]), (pick_none _ b [FMasterPage]), app_nil_r; [cbn [flat_map]; apply app_nil_r| |].
    - intros f s [<-|[]] E. destruct (kind_body lb b FMasterPage s O ltac:(apply in_kinds; tauto) E) as (_ & _ & _ & B4). destruct (B4 eq_refl) as (x & Ex). unfold in_section. rewrite Ex. destruct fl; reflexivity.
    - intros f s [<-|[]] E. destruct (kind_body lb b FPage s O ltac:(apply in_kinds; tauto) E) as (_ & _ & B3 & _). destruct (B3 eq_refl) as (x & Ex). unfold in_section. rewrite Ex. destruct fl; reflexivity. }
  rewrite E0, Permutation_app_comm, <- app_assoc. apply Permutation_app; [|apply Permutation_app; [|reflexivity]].
  - rewrite <- (Permutation_flat_map (pick (in_section fl SecAutomatic) b) perm_styles).
    rewrite (pick_ext (in_section fl SecAutomatic) (fun s => goes o UAutomatic (nm_body s))); [reflexivity|]. intros f s I. apply Hs. left. now apply (Permutation_in f perm_styles).
  - rewrite <- (Permutation_flat_map (pick (in_section fl SecAutomatic) b) perm_formats).
    rewrite (pick_ext (in_section fl SecAutomatic) (fun s => goes o UAutomatic (nm_body s))); [reflexivity|]. intros f s I. apply Hs. right. now apply (Permutation_in f perm_formats).
Qed.
Lemma masters_members lb fl b : book_ok lb b -> fl <> ContentXml -> masters_items b = members fl SecMasters b.
Proof.
  intros O F. rewrite members_pick. unfold kinds, masters_items. change [FPage; FMasterPage] with ([FPage] ++ [FMasterPage]). rewrite !flat_map_app.
  rewrite (pick_none _ b style_kinds), (pick_none _ b format_kinds), (pick_none _ b [FPage]), (pick_ext _ (fun s => goes OStyles UNamed (nm_body s)) b [FMasterPage]); [cbn [app flat_map]; now rewrite app_nil_r| | | |].
  - intros f s [<-|[]] E. destruct (kind_body lb b FMasterPage s O ltac:(apply in_kinds; tauto) E) as (_ & _ & _ & B4). destruct (B4 eq_refl) as (x & Ex). unfold in_section. rewrite Ex. destruct fl; try reflexivity. now elim F.
  - intros f s [<-|[]] E. destruct (kind_body lb b FPage s O ltac:(apply in_kinds; tauto) E) as (_ & _ & B3 & _). destruct (B3 eq_refl) as (x & Ex). unfold in_section. rewrite Ex. destruct fl; reflexivity.
  - intros f s I E. pose proof (kind_plain lb b f s O (or_intror I) E) as P. unfold in_section. destruct (nm_body s) as [o' u' x|o' u' x|x|x]; try contradiction; destruct fl, o', u'; reflexivity.
  - intros f s I E. pose proof (kind_plain lb b f s O (or_introl I) E) as P. unfold in_section. destruct (nm_body s) as [o' u' x|o' u' x|x|x]; try contradiction; destruct fl, o', u'; reflexivity.
Qed.
Lemma content_members lb sec b : book_ok lb b -> sec <> SecAutomatic -> members ContentXml sec b = [].
Proof.
  intros O F. rewrite members_pick. apply pick_none. intros f s K E. unfold in_section. destruct (nm_body s) as [o' u' x|o' u' x|x|x]; cbn [belongs]; try destruct o', u'; destruct sec; try reflexivity; now elim F.
Qed.
Lemma in_members fl sec b f s : In (f, s) (members fl sec b) <-> In f kinds /\ entry b f s /\ in_section fl sec s = true.
Proof.
  unfold members. rewrite in_flat_map. split.
  - intros (g & K & I). apply in_map_iff in I as (t & Q & I). injection Q as -> ->. apply filter_In in I as (I & P). auto.
  - intros (K & E & P). exists f. split; [exact K|]. apply in_map_iff. exists s. split; [reflexivity|]. apply filter_In. auto.
Qed.

(** ** What is found after reading *)

Definition own_read (x y : item) : Prop := item_read (origin_of (nm_body (snd x))) x y.
Lemma item_own o u (x y : item) : goes o u (nm_body (snd x)) = true -> item_read o x y -> own_read x y.
Proof.
  intros G (A & B & C). unfold own_read, item_read. split; [exact A|]. split; [exact B|]. destruct (nm_body (snd x)); cbn [origin_of] in *; try exact C;
    cbn [goes] in G; apply andb_prop in G as (G & _); apply eqb_origin in G; subst; exact C.
Qed.
Lemma same_name lb b f s t : book_ok lb b -> In f kinds -> entry b f s -> entry b f t -> nm_name s = nm_name t -> s = t.
Proof.
  intros (N & O & _) K Es Et E. assert (V : f <> FValidation) by (intros ->; cbn in K; repeat destruct K as [K|K]; try discriminate; contradiction).
  apply entry_in in Es as (k & Is). apply entry_in in Et as (k' & It). destruct (O f k s V Is) as (_ & E1 & _). destruct (O f k' t V It) as (_ & E2 & _). assert (Q : k = k') by congruence. rewrite <- Q in It.
  specialize (N f V). clear -N Is It. induction (bk_styles (sk_book b) f) as [|[q x] l IH]; [contradiction|]. inversion N; subst. destruct Is as [Is|Is], It as [It|It].
  - congruence.
  - injection Is as -> ->. elim H1. apply in_map_iff. exists (k, t). split; [reflexivity|exact It].
  - injection It as -> ->. elim H1. apply in_map_iff. exists (k, s). split; [reflexivity|exact Is].
  - auto.
Qed.
Lemma entry_name lb b f s : book_ok lb b -> In f kinds -> entry b f s -> nm_name s <> [].
Proof.
  intros (_ & O & _) K E. assert (V : f <> FValidation) by (intros ->; cbn in K; repeat destruct K as [K|K]; try discriminate; contradiction).
  apply entry_in in E as (k & I). destruct (O f k s V I) as (A & B & _). congruence.
Qed.
Lemma Forall2_in_l {A B} (R : A -> B -> Prop) l m x : Forall2 R l m -> In x l -> exists y, In y m /\ R x y.
Proof. induction 1 as [|a b l m H _ IH]; [intros []|]. intros [->|I]; [exists b; split; [now left|exact H]|]. destruct (IH I) as (y & J & Hy). exists y. split; [now right|exact Hy]. Qed.
Lemma Forall2_in_r {A B} (R : A -> B -> Prop) l m y : Forall2 R l m -> In y m -> exists x, In x l /\ R x y.
Proof. induction 1 as [|a b l m H _ IH]; [intros []|]. intros [->|I]; [exists a; split; [now left|exact H]|]. destruct (IH I) as (x & J & Hx). exists x. split; [now right|exact Hx]. Qed.
Lemma default_name x y : own_read x y -> nm_name (snd y) = if is_default (nm_body (snd x)) then [] else nm_name (snd x).
Proof. intros (_ & -> & _). destruct (nm_body (snd x)) as [o []| | |]; reflexivity. Qed.
Theorem found_after lb b items m sb sb' : book_ok lb b -> (forall f s, In (f, s) items -> In f kinds /\ entry b f s) -> Forall2 own_read items m ->
  (forall f k, found sb f k = None) -> add_all m sb = Ok sb' ->
  (forall f s, In (f, s) items -> is_default (nm_body s) = false ->
     exists y, found sb' f (nm_name s) = Some (Named (nm_name s) y) /\ same_as f (origin_of (nm_body s)) (read_use (nm_body s)) (nm_body s) y)
  /\ (forall f s, In (f, s) items -> is_default (nm_body s) = true -> (forall t, In (f, t) items -> is_default (nm_body t) = false -> ~ numbered f (nm_name t)) ->
     exists k y, found sb' f k = Some (Named k y) /\ numbered f k /\ same_as f (origin_of (nm_body s)) (read_use (nm_body s)) (nm_body s) y)
  /\ (forall f k s', found sb' f k = Some s' -> exists s, In (f, s) items /\ nm_name s' = k
     /\ same_as f (origin_of (nm_body s)) (read_use (nm_body s)) (nm_body s) (nm_body s') /\ (if is_default (nm_body s) then numbered f k else nm_name s = k)).
Proof.
  intros O It F Em A. split; [|split].
  - intros f s I D. destruct (It f s I) as (K & E). destruct (Forall2_in_l _ _ _ _ F I) as ((g & y) & Iy & Ry). pose proof (default_name _ _ Ry) as Ny. cbn [snd] in Ny. rewrite D in Ny.
    assert (g = f) by (destruct Ry as (R1 & _); exact R1). subst g.
    apply (add_kept (same_as f (origin_of (nm_body s)) (read_use (nm_body s)) (nm_body s)) f (nm_name s) (entry_name lb b f s O K E) m sb sb' A); [|left; exists y; auto].
    intros z Iz Nz. destruct (Forall2_in_r _ _ _ _ F Iz) as ((g & t) & I2 & R2). assert (g = f) by (destruct R2 as (R1 & _); symmetry; exact R1). subst g.
    pose proof (default_name _ _ R2) as N2. cbn [snd] in N2. destruct (It f t I2) as (_ & E2). destruct (is_default (nm_body t)) eqn:Dt; [rewrite Nz in N2; now elim (entry_name lb b f s O K E)|].
    assert (t = s) by (apply (same_name lb b f); auto; congruence). subst t. destruct R2 as (_ & _ & R2). exact R2.
  - intros f s I D H. destruct (It f s I) as (K & E). destruct (Forall2_in_l _ _ _ _ F I) as ((g & y) & Iy & Ry). pose proof (default_name _ _ Ry) as Ny. cbn [snd] in Ny. rewrite D in Ny.
    assert (g = f) by (destruct Ry as (R1 & _); exact R1). subst g. destruct y as [n y]. cbn [nm_name] in Ny. subst n.
    destruct (add_unnamed f m sb sb' A) as (_ & U).
    { intros z Iz. destruct (Forall2_in_r _ _ _ _ F Iz) as ((g & t) & I2 & R2). assert (g = f) by (destruct R2 as (R1 & _); symmetry; exact R1). subst g.
      pose proof (default_name _ _ R2) as N2. cbn [snd] in N2. rewrite N2. destruct (is_default (nm_body t)) eqn:Dt; [|now apply H].
      intros (d & n & _ & Q). destruct f; cbn in Q; discriminate. }
    destruct (U y Iy) as (k & Fk & Nk). exists k, y. split; [exact Fk|]. split; [exact Nk|]. destruct Ry as (_ & _ & R). exact R.
  - intros f k s' Fs. destruct (add_from m sb sb' A f k s' Fs) as [Q|(y & Iy & -> & Q)]; [rewrite Em in Q; discriminate|].
    destruct (Forall2_in_r _ _ _ _ F Iy) as ((g & t) & I2 & R2). assert (g = f) by (destruct R2 as (R1 & _); symmetry; exact R1). subst g.
    exists t. split; [exact I2|]. split; [reflexivity|]. pose proof (default_name _ _ R2) as N2. cbn [snd] in N2. split; [destruct R2 as (_ & _ & R2); exact R2|].
    destruct (It f t I2) as (K & E). destruct (is_default (nm_body t)) eqn:Dt.
    + destruct Q as [Q|(_ & Q)]; [|exact Q]. exfalso. assert (Hk : k <> []); [|congruence]. intros ->. clear -A Fs Em Q N2.
      assert (C : forall m sb sb', add_all m sb = Ok sb' -> (forall f, found sb f [] = None) -> forall f, found sb' f [] = None).
      { clear. induction m as [|[g q] m IH]; intros sb sb' E H f; cbn [add_all fst snd] in E; [injection E as <-; apply H|]. apply bind_ok in E as (s1 & E1 & E).
        apply add_item_facts in E1 as (r & Rn & _ & _ & _ & F2 & _). apply (IH s1 sb' E). intros h. rewrite F2; [apply H|]. intros (_ & <-). now elim Rn. }
      rewrite (C m sb sb' A (fun f => Em f []) f) in Fs. discriminate.
    + destruct Q as [Q|(Q & _)]; [congruence|]. rewrite N2 in Q. now elim (entry_name lb b f t O K E).
Qed.

(** ** The three files *)

Lemma add_refont m F : forall sb sb', add_all m sb = Ok sb' -> add_all m (SBook F (sk_book sb)) = Ok (SBook F (sk_book sb')).
Proof.
  induction m as [|[f s] m IH]; intros sb sb' E; cbn [add_all fst snd] in *; [now injection E as <-|]. apply bind_ok in E as (s1 & E1 & E). unfold add_item in *. cbn [sk_book sk_fonts].
  apply bind_ok in E1 as ((bk & r) & E1 & Q). injection Q as <-. rewrite E1. cbn [bind]. exact (IH _ _ E).
Qed.
Definition with_origin (o : origin) (x : item) : Prop := exists u, goes o u (nm_body (snd x)) = true.
Lemma picked_origin b o u f : Forall (with_origin o) (picked b o u f).
Proof. apply Forall_forall. intros x I. apply in_map_iff in I as (s & <- & I). apply filter_In in I as (_ & G). exists u. exact G. Qed.
Lemma flat_picked_origin b o u fs : Forall (with_origin o) (flat_map (picked b o u) fs).
Proof. induction fs as [|f fs IH]; [constructor|]. cbn [flat_map]. apply Forall_app. split; [apply picked_origin|exact IH]. Qed.
Lemma own_all o l m : Forall (with_origin o) l -> Forall2 (item_read o) l m -> Forall2 own_read l m.
Proof. intros W F. induction F as [|x y l m R F IH]; constructor; inversion W; subst; [destruct H1 as (u & G); eauto using item_own|auto]. Qed.
Lemma masters_origin lb b o : book_ok lb b -> Forall (with_origin o) (masters_items b).
Proof.
  intros O. apply Forall_forall. intros x I. apply in_map_iff in I as (s & <- & I). apply filter_In in I as (I & _).
  destruct (kind_body lb b FMasterPage s O) as (_ & _ & _ & B); [apply in_kinds; tauto|exact I|]. destruct (B eq_refl) as (x & E). exists UNamed. cbn [snd]. rewrite E. reflexivity.
Qed.
Lemma styles_origin b o : Forall (with_origin o) (styles_items b o).
Proof. unfold styles_items. rewrite !Forall_app. split; [apply flat_picked_origin|]. split; [apply flat_picked_origin|]. split; apply flat_picked_origin. Qed.
Lemma automatic_origin b o : Forall (with_origin o) (automatic_items b o).
Proof. unfold automatic_items. rewrite !Forall_app. split; [apply picked_origin|]. split; apply flat_picked_origin. Qed.
(** Two sections, one after the other. *)
Lemma add_two m1 m2 sb sb' : add_all (m1 ++ m2) sb = Ok sb' -> exists s1, add_all m1 sb = Ok s1 /\ add_all m2 s1 = Ok sb'.
Proof. rewrite add_all_app. intros E. apply bind_ok in E as (s1 & E1 & E2). eauto. Qed.
Definition sections (sec : str) (a b c : list item) : list (str * list (str * str)) :=
  (if str_eqb t_office_styles sec then map open_of a else []) ++ (if str_eqb t_automatic sec then map open_of b else []) ++ (if str_eqb t_masters sec then map open_of c else []).

Lemma styles_file lb b ns S : book_ok lb b -> attrs_ok ns -> styles_doc ns b = Ok S ->
  exists m, Forall2 own_read (styles_items b OStyles ++ automatic_items b OStyles ++ masters_items b) m /\ forall sb sb', add_all m sb = Ok sb' ->
  exists evs, read_events (render lb S) = Ok evs /\ read_doc OStyles sb evs = Ok (SBook (put_fonts OStyles (fonts_of b OStyles) (sk_fonts sb)) (sk_book sb'))
    /\ forall sec, In sec sec_tags -> declared sec [] evs = sections sec (styles_items b OStyles) (automatic_items b OStyles) (masters_items b).
Proof.
  intros O A E. unfold styles_doc in E. apply bind_ok in E as (cs & Es & E). apply bind_ok in E as (ca & Ea & E). apply bind_ok in E as (cm & Em & E). injection E as <-.
  destruct (styles_sect lb b OStyles cs O Es) as (is & -> & ms & Fs & Cs). destruct (automatic_sect lb b OStyles ca O Ea) as (ia & -> & ma & Fa & Ca).
  destruct (masters_sect lb OStyles b cm O Em) as (im & -> & mm & Fm & Cm).
  exists (ms ++ ma ++ mm). split.
  - apply (own_all OStyles); [|apply Forall2_app; [exact Fs|apply Forall2_app; assumption]].
    apply Forall_app; split; [apply styles_origin|apply Forall_app; split; [apply automatic_origin|now apply (masters_origin lb)]].
  - intros sb sb' Ad. pose proof (add_refont _ (put_fonts OStyles (fonts_of b OStyles) (sk_fonts sb)) _ _ Ad) as Ad'.
    apply add_two in Ad' as (s1 & A1 & Ad'). apply add_two in Ad' as (s2 & A2 & A3).
    pose proof (dc_section lb OStyles t_office_styles (styles_step OStyles) is (styles_items b OStyles) _ ms (or_introl eq_refl) Cs _ A1) as D1.
    pose proof (dc_section lb OStyles t_automatic (automatic_step OStyles) ia (automatic_items b OStyles) _ ma (or_intror (or_introl eq_refl)) Ca _ A2) as D2.
    pose proof (dc_section lb OStyles t_masters masters_step im (masters_items b) _ mm (or_intror (or_intror eq_refl)) Cm _ A3) as D3.
    pose proof (dc_app _ _ _ _ _ _ _ _ _ (dc_fonts lb OStyles b sb O) (dc_app _ _ _ _ _ _ _ _ _ D1 (dc_app _ _ _ _ _ _ _ _ _ D2 D3))) as D.
    destruct (dc_doc lb OStyles (lit "office:document-styles") ns _ _ _ _ ltac:(now left) A D) as (evs & R & P & L).
    exists evs. split; [|split; [exact P|exact L]]. rewrite <- R. do 2 f_equal. unfold write_fonts. nf_app. reflexivity.
Qed.
Lemma content_file lb b ns pre post C : book_ok lb b -> attrs_ok ns -> quiet lb pre -> quiet lb post -> content_doc ns pre b post = Ok C ->
  exists m, Forall2 own_read (automatic_items b OContent) m /\ forall sb sb', add_all m sb = Ok sb' ->
  exists evs, read_events (render lb C) = Ok evs /\ read_doc OContent sb evs = Ok (SBook (put_fonts OContent (fonts_of b OContent) (sk_fonts sb)) (sk_book sb'))
    /\ forall sec, In sec sec_tags -> declared sec [] evs = sections sec [] (automatic_items b OContent) [].
Proof.
  intros O A Q1 Q2 E. unfold content_doc in E. apply bind_ok in E as (ca & Ea & E). injection E as <-.
  destruct (automatic_sect lb b OContent ca O Ea) as (ia & -> & ma & Fa & Ca).
  exists ma. split; [apply (own_all OContent); [apply automatic_origin|exact Fa]|].
  intros sb sb' Ad. pose proof (add_refont _ (put_fonts OContent (fonts_of b OContent) (sk_fonts sb)) _ _ Ad) as A2.
  pose proof (dc_section lb OContent t_automatic (automatic_step OContent) ia (automatic_items b OContent) _ ma (or_intror (or_introl eq_refl)) Ca _ A2) as D2.
  pose proof (dc_app _ _ _ _ _ _ _ _ _ (dc_quiet lb OContent pre sb Q1) (dc_app _ _ _ _ _ _ _ _ _ (dc_fonts lb OContent b sb O) (dc_app _ _ _ _ _ _ _ _ _ D2 (dc_quiet lb OContent post _ Q2)))) as D.
  destruct (dc_doc lb OContent (lit "office:document-content") ns _ _ _ _ ltac:(right; now left) A D) as (evs & R & P & L).
  exists evs. split; [|split; [exact P|]].
  - rewrite <- R. do 2 f_equal. unfold write_fonts. nf_app. reflexivity.
  - intros sec I. rewrite (L sec I). unfold sections. cbn [map app]. destruct (str_eqb t_office_styles sec), (str_eqb t_masters sec); rewrite ?app_nil_r; reflexivity.
Qed.
Lemma converted_ok lb b : book_ok lb b -> book_ok lb (convert b).
Proof.
  intros (N & O & F1 & F2). split; [|split; [|split; [exact F1|exact F2]]]; unfold convert; cbn [sk_book bk_styles].
  - intros f V. rewrite map_map. cbn [fst]. now apply N.
  - intros f k s V I. apply in_map_iff in I as ((k' & t) & Q & I). cbn [fst snd] in Q. injection Q as <- <-. destruct (O f k' t V I) as (A & B & C).
    split; [exact A|]. unfold converted. destruct (nm_body t) eqn:Et; (split; [exact B|]); cbn [nm_body]; try exact C; rewrite Et; exact C.
Qed.
Lemma converted_entry b f s : entry (convert b) f s <-> exists t, entry b f t /\ s = converted t.
Proof.
  unfold entry, convert. cbn [sk_book bk_styles]. rewrite map_map. cbn [snd]. rewrite in_map_iff. split.
  - intros ((k & t) & <- & I). exists t. split; [apply in_map_iff; exists (k, t); auto|reflexivity].
  - intros (t & I & ->). apply in_map_iff in I as ((k & t') & Q & I). cbn in Q. subst. exists (k, t). auto.
Qed.
Lemma converted_origin lb b : book_ok lb b -> file_origin FlatXml OContent (convert b).
Proof.
  intros O. right. split; [reflexivity|]. split; [reflexivity|]. intros f s _ E. apply converted_entry in E as (t & _ & ->). unfold converted. destruct (nm_body t) eqn:Et; cbn [nm_body]; try reflexivity; rewrite Et; reflexivity.
Qed.
Lemma flat_file lb b ns pre post S : book_ok lb b -> attrs_ok ns -> quiet lb pre -> quiet lb post -> fods_doc ns pre b post = Ok S ->
  exists m, Forall2 own_read (styles_items (convert b) OContent ++ automatic_items (convert b) OContent ++ masters_items (convert b)) m /\ forall sb sb', add_all m sb = Ok sb' ->
  exists evs, read_events (render lb S) = Ok evs /\ read_doc OContent sb evs = Ok (SBook (put_fonts OContent (fonts_of b OContent) (sk_fonts sb)) (sk_book sb'))
    /\ forall sec, In sec sec_tags -> declared sec [] evs = sections sec (styles_items (convert b) OContent) (automatic_items (convert b) OContent) (masters_items (convert b)).
Proof.
  intros O0 A Q1 Q2 E. unfold fods_doc in E. pose proof (converted_ok lb b O0) as O. change (fonts_of b OContent) with (fonts_of (convert b) OContent). revert E O. generalize (convert b). clear O0 b. intros b E O.
  apply bind_ok in E as (cs & Es & E). apply bind_ok in E as (ca & Ea & E). apply bind_ok in E as (cm & Em & E). injection E as <-.
  destruct (styles_sect lb b OContent cs O Es) as (is & -> & ms & Fs & Cs). destruct (automatic_sect lb b OContent ca O Ea) as (ia & -> & ma & Fa & Ca).
  destruct (masters_sect lb OContent b cm O Em) as (im & -> & mm & Fm & Cm).
  exists (ms ++ ma ++ mm). split.
  - apply (own_all OContent); [|apply Forall2_app; [exact Fs|apply Forall2_app; assumption]].
    apply Forall_app; split; [apply styles_origin|apply Forall_app; split; [apply automatic_origin|now apply (masters_origin lb)]].
  - intros sb sb' Ad. pose proof (add_refont _ (put_fonts OContent (fonts_of b OContent) (sk_fonts sb)) _ _ Ad) as Ad'.
    apply add_two in Ad' as (s1 & A1 & Ad'). apply add_two in Ad' as (s2 & A2 & A3).
    pose proof (dc_section lb OContent t_office_styles (styles_step OContent) is (styles_items b OContent) _ ms (or_introl eq_refl) Cs _ A1) as D1.
    pose proof (dc_section lb OContent t_automatic (automatic_step OContent) ia (automatic_items b OContent) _ ma (or_intror (or_introl eq_refl)) Ca _ A2) as D2.
    pose proof (dc_section lb OContent t_masters masters_step im (masters_items b) _ mm (or_intror (or_intror eq_refl)) Cm _ A3) as D3.
    pose proof (dc_app _ _ _ _ _ _ _ _ _ (dc_quiet lb OContent pre sb Q1) (dc_app _ _ _ _ _ _ _ _ _ (dc_fonts lb OContent b sb O) (dc_app _ _ _ _ _ _ _ _ _ D1 (dc_app _ _ _ _ _ _ _ _ _ D2
      (dc_app _ _ _ _ _ _ _ _ _ D3 (dc_quiet lb OContent post _ Q2)))))) as D.
    destruct (dc_doc lb OContent (lit "office:document") ns _ _ _ _ ltac:(right; right; now left) A D) as (evs & R & P & L).
    exists evs. split; [|split; [exact P|]].
    + rewrite <- R. do 2 f_equal. unfold write_fonts. nf_app. reflexivity.
    + intros sec I. rewrite (L sec I). unfold sections. cbn [app]. now rewrite app_nil_r.
Qed.

(** ** Fonts that are read *)

Lemma put_fonts_get l : forall o m, NoDup (map ft_name l) -> forall k,
  am_get k (put_fonts o l m) = match find (fun ft => str_eqb (ft_name ft) k) l with
    | Some ft => Some (Font k (match l with ft0 :: _ => if str_eqb (ft_name ft0) k then o else OContent | [] => OContent end) (ft_attr ft))
    | None => am_get k m end.
Proof.
  induction l as [|ft l IH]; intros o m N k; cbn [put_fonts find]; [reflexivity|]. inversion N; subst. rewrite IH by assumption. destruct (str_eqb (ft_name ft) k) eqn:E.
  - apply str_eqb_eq in E. subst k. assert (F : find (fun x => str_eqb (ft_name x) (ft_name ft)) l = None).
    { destruct (find (fun x => str_eqb (ft_name x) (ft_name ft)) l) as [x|] eqn:Q; [|reflexivity]. apply find_some in Q as (I & Q). apply str_eqb_eq in Q. elim H1. rewrite <- Q. now apply in_map. }
    rewrite F. rewrite am_get_put, str_eqb_refl. reflexivity.
  - destruct (find (fun x => str_eqb (ft_name x) k) l) as [x|]; [destruct l as [|y l]; [reflexivity|destruct (str_eqb (ft_name y) k); reflexivity]|]. rewrite am_get_put, E. reflexivity.
Qed.
Lemma fonts_find lb b o k : book_ok lb b -> find (fun ft => str_eqb (ft_name ft) k) (fonts_of b o) = match am_get k (sk_fonts b) with Some ft => if origin_eqb (ft_origin ft) o then Some ft else None | None => None end.
Proof.
  intros (_ & _ & N & F). unfold fonts_of. assert (F' : forall k ft, In (k, ft) (sk_fonts b) -> ft_name ft = k) by (intros q ft I; now apply F). clear F. revert N F'.
  induction (sk_fonts b) as [|[q ft] l IH]; intros N F; [reflexivity|]. cbn [map snd filter am_get]. inversion N; subst. cbn [fst] in *.
  specialize (IH ltac:(assumption) (fun k x i => F k x (or_intror i))). pose proof (F q ft (or_introl eq_refl)) as E.
  destruct (str_eqb q k) eqn:Eq.
  - destruct (origin_eqb (ft_origin ft) o); [cbn [find]; rewrite E, Eq; reflexivity|]. rewrite IH. apply str_eqb_eq in Eq.
    destruct (am_get k l) as [x|] eqn:G; [|reflexivity]. elim H1. rewrite Eq. exact (am_get_in _ _ _ G).
  - destruct (origin_eqb (ft_origin ft) o); [|exact IH]. cbn [find]. rewrite E, Eq. exact IH.
Qed.
Lemma fonts_names lb b o : book_ok lb b -> NoDup (map ft_name (fonts_of b o)).
Proof.
  intros (_ & _ & N & F). unfold fonts_of. assert (F' : forall k ft, In (k, ft) (sk_fonts b) -> ft_name ft = k) by (intros q ft I; now apply F). clear F. revert N F'.
  induction (sk_fonts b) as [|[q ft] l IH]; intros N F; [constructor|]. cbn [map snd filter]. inversion N; subst. specialize (IH ltac:(assumption) (fun k x i => F k x (or_intror i))).
  destruct (origin_eqb (ft_origin ft) o); [|exact IH]. cbn [map]. constructor; [|exact IH]. intros I. apply in_map_iff in I as (x & E & I). apply filter_In in I as (I & _).
  apply in_map_iff in I as ((k & y) & E2 & I). cbn [snd] in E2. subst y. pose proof (F k x (or_intror I)) as E3. pose proof (F q ft (or_introl eq_refl)) as E4.
  apply H1. cbn [fst]. apply in_map_iff. exists (k, x). split; [cbn; congruence|exact I].
Qed.
Lemma in_am_get {V} k (v : V) m : NoDup (map fst m) -> In (k, v) m -> am_get k m = Some v.
Proof.
  induction m as [|[q w] m IH]; intros N I; [contradiction|]. inversion N; subst. cbn [am_get]. destruct I as [I|I].
  - injection I as -> ->. now rewrite str_eqb_refl.
  - destruct (str_eqb q k) eqn:E; [|now apply IH]. apply str_eqb_eq in E. subst q. elim H1. apply in_map_iff. exists (k, v). auto.
Qed.
Lemma first_font_hd b ft : first_font b ft <-> exists r, fonts_of b OStyles = ft :: r.
Proof.
  unfold first_font, fonts_of. generalize (map snd (sk_fonts b)). intros l. split.
  - intros (l1 & l2 & -> & F & E). exists (filter (fun x => origin_eqb (ft_origin x) OStyles) l2). rewrite filter_app. cbn [filter]. rewrite E. cbn [origin_eqb].
    replace (filter (fun x => origin_eqb (ft_origin x) OStyles) l1) with (@nil font); [reflexivity|]. clear -F. induction F as [|x l H _ IH]; [reflexivity|]. cbn [filter]. rewrite H. exact IH.
  - induction l as [|x l IH]; intros (r & E); [discriminate|]. cbn [filter] in E. destruct (ft_origin x) eqn:Ox; cbn [origin_eqb] in E.
    + destruct IH as (l1 & l2 & -> & F & G); [eauto|]. exists (x :: l1), l2. split; [reflexivity|]. split; [now constructor|exact G].
    + injection E as -> _. exists [], l. split; [reflexivity|]. split; [constructor|exact Ox].
Qed.

(** ** The number of items *)

Lemma picked_length b o u f : (length (picked b o u f) <= length (bk_styles (sk_book b) f))%nat.
Proof. unfold picked. rewrite map_length. rewrite <- (map_length snd (bk_styles (sk_book b) f)). generalize (map snd (bk_styles (sk_book b) f)). intros l. induction l as [|x l IH]; cbn [filter length]; [lia|]. destruct (goes o u (nm_body x)); cbn [length]; lia. Qed.
Lemma kinds_length b : length (flat_map (fun f => bk_styles (sk_book b) f) kinds) =
  (length (flat_map (fun f => bk_styles (sk_book b) f) style_order) + length (flat_map (fun f => bk_styles (sk_book b) f) format_order)
   + length (bk_styles (sk_book b) FPage) + length (bk_styles (sk_book b) FMasterPage))%nat.
Proof.
  unfold kinds. rewrite !flat_map_app, !app_length. rewrite <- (Permutation_length (Permutation_flat_map (fun f => bk_styles (sk_book b) f) perm_styles)).
  rewrite <- (Permutation_length (Permutation_flat_map (fun f => bk_styles (sk_book b) f) perm_formats)). cbn [flat_map length]. rewrite !app_length. cbn [length]. lia.
Qed.
Lemma flat_picked_length b o u fs : (length (flat_map (picked b o u) fs) <= length (flat_map (fun f => bk_styles (sk_book b) f) fs))%nat.
Proof. induction fs as [|f fs IH]; cbn [flat_map]; [apply le_n|]. rewrite !app_length. pose proof (picked_length b o u f). lia. Qed.
Lemma items_length b o : (length (styles_items b o ++ automatic_items b o ++ masters_items b) <= 4 * length (flat_map (fun f => bk_styles (sk_book b) f) kinds))%nat
  /\ (length (automatic_items b o) <= length (flat_map (fun f => bk_styles (sk_book b) f) kinds))%nat.
Proof.
  rewrite kinds_length. unfold styles_items, automatic_items, masters_items. rewrite !app_length.
  pose proof (flat_picked_length b o UDefault style_order). pose proof (flat_picked_length b o UNamed style_order). pose proof (flat_picked_length b o UAutomatic style_order).
  pose proof (flat_picked_length b o UDefault format_order). pose proof (flat_picked_length b o UNamed format_order). pose proof (flat_picked_length b o UAutomatic format_order).
  pose proof (picked_length b o UAutomatic FPage). pose proof (picked_length b OStyles UNamed FMasterPage). lia.
Qed.

(** C55: rich text of a cell written to a file and read again. *)
From Verif Require Import Base Lib XmlModel XmlSpec XmlProofs CellModel NumModel NumSpec NumProofs CellIoModel CellIoSpec CellIoProofs DrawModel TreeProofs DrawProofs RichProofs CellIoProps DrawProps.

(** The value of the cell that was read; none if there is no cell. *)
Definition read_value (o : option cell) : value := match o with Some c => c_value c | None => VEmpty end.
Lemma content_val c : k_value (cell_content c) = c_value c. Proof. now destruct c as [? ? ? ? [x|]]. Qed.
Lemma comes_through lb ign dflt ds c h k : writable (c_value c) -> extra_ok c -> 1 <= k <= u32_max ->
  exists o v, through_file lb ign dflt ds c h k = Ok (k, o) /\ value_after lb (c_value c) v /\ read_value o = v.
Proof.
  intros W X K. destruct (through_events lb ign dflt ds c h k W X K) as (d & o & v & _ & Hv & Ho & Co). exists o, v. split; [exact Ho|]. split; [exact Hv|].
  cbv zeta in Co. destruct (void_b ign dflt (result ds d v k)) eqn:V.
  - destruct o; [discriminate|]. apply void_nothing in V. destruct V as [(V & _)|(_ & V & _)]; symmetry; exact V.
  - destruct o as [c'|]; [|discriminate]. cbn [option_map] in Co. cbn [read_value]. rewrite <- content_val. now replace (cell_content c') with (result ds d v k) by congruence.
Qed.

(** Reading rich text gives, paragraph by paragraph, what [para_after] says, put together as [rich_value] says. *)
Theorem C55_paragraphs : forall lb ign dflt ds c h k l, c_value c = VTextXml l -> Forall para_ok l -> extra_ok c -> 1 <= k <= u32_max ->
  exists o ps, through_file lb ign dflt ds c h k = Ok (k, o) /\ Forall2 (para_after lb) l ps /\ read_value o = rich_value ps.
Proof.
  intros lb ign dflt ds c h k l E P X K. destruct (comes_through lb ign dflt ds c h k) as (o & v & Ho & Hv & R); [rewrite E; split; [exact I|]; intros l' E'; congruence|assumption|assumption|].
  rewrite E in Hv. destruct Hv as (ps & A & ->). exists o, ps. auto.
Qed.
(** Rich text whose paragraphs all have an element in them is read as rich text with the same paragraphs, with their attributes and elements, up to the
    pieces the texts are cut into and, in a file with line breaks, a line break after each element. *)
Theorem C55_survives : forall lb ign dflt ds c h k l, c_value c = VTextXml l -> l <> [] -> Forall para_ok l -> Forall (fun x => exists n a d, x = XTag n a d /\ plain_of d = None) l ->
  extra_ok c -> 1 <= k <= u32_max ->
  exists o l', through_file lb ign dflt ds c h k = Ok (k, o) /\ read_value o = VTextXml l' /\ Forall2 (fun x y => norm y = norm (broken lb x)) l l'.
Proof.
  intros lb ign dflt ds c h k l E N P R X K. destruct (C55_paragraphs lb ign dflt ds c h k l E P X K) as (o & ps & Ho & A & V).
  assert (exists l', ps = map (fun y => Some (inr y)) l' /\ Forall2 (fun x y => norm y = norm (broken lb x)) l l') as (l' & -> & F).
  { clear - A R. induction A as [|x p l ps Hx _ IH]; [exists []; split; [reflexivity|constructor]|]. inversion R as [|? ? (n & a & d & -> & Q) R']; subst. destruct (IH R') as (l' & -> & F).
    inversion Hx; subst; try congruence; [discriminate|]. exists (y :: l'). split; [reflexivity|]. now constructor. }
  exists o, l'. split; [exact Ho|]. split; [|exact F]. rewrite V. destruct l' as [|y l']; [inversion F; congruence|]. unfold rich_value. cbn [map drop_none].
  f_equal. change (Some (inr y) :: map (fun z : xnode => Some (inr z)) l') with (map (fun z : xnode => @Some (str + xnode) (inr z)) (y :: l')).
  generalize (y :: l'). clear. unfold somes. induction l as [|z l IH]; [reflexivity|]. cbn [map flat_map app as_para]. f_equal. exact IH.
Qed.
(** What the value says, paragraph by paragraph, is kept in a file without line breaks, except for paragraphs that say nothing. *)
Definition texts (v : value) : list str := match v with VText s => [s] | VTextXml l => map says l | _ => [] end.
Lemma plain_says c t : plain_of c = Some t -> concat (map says c) = t.
Proof. revert t. induction c as [|[u|n a d] c IH]; intros t E; cbn in E |- *; [congruence| |discriminate]. destruct (plain_of c) as [w|]; [|discriminate]. rewrite (IH w eq_refl). congruence. Qed.
Lemma wb_cons s l : without_blank (s :: l) = without_blank [s] ++ without_blank l.
Proof. unfold without_blank. cbn. now destruct (negb (blank s)). Qed.
Lemma after_says x p : para_after false x p -> without_blank [says x] = without_blank (match p with Some q => [says (as_para q)] | None => [] end).
Proof.
  destruct 1 as [n a|n a c t N E T|n a c N E|n a c y E Hy]; [reflexivity| | |].
  - rewrite says_list, (plain_says c t E). cbn. now rewrite app_nil_r.
  - rewrite says_list, (plain_says c [] E). reflexivity.
  - cbn [as_para]. now rewrite <- (says_norm y), Hy, broken_norm, says_norm.
Qed.
Lemma rich_says ps : without_blank (texts (rich_value ps)) = without_blank (map (fun q => says (as_para q)) (somes ps)).
Proof.
  unfold rich_value. replace (somes ps) with (somes (drop_none ps)) by (induction ps as [|[q|] ps IH]; [reflexivity|reflexivity|exact IH]).
  destruct (drop_none ps) as [|[[t|y]|] r]; cbn [texts]; try (now rewrite map_map); [reflexivity|]. destruct r; cbn [texts]; [|now rewrite map_map].
  cbn. now rewrite app_nil_r.
Qed.
Theorem C55_says : forall ign dflt ds c h k l, c_value c = VTextXml l -> Forall para_ok l -> extra_ok c -> 1 <= k <= u32_max ->
  exists o, through_file false ign dflt ds c h k = Ok (k, o) /\ without_blank (texts (read_value o)) = without_blank (map says l).
Proof.
  intros ign dflt ds c h k l E P X K. destruct (C55_paragraphs false ign dflt ds c h k l E P X K) as (o & ps & Ho & A & V). exists o. split; [exact Ho|]. rewrite V, rich_says.
  clear - A. induction A as [|x p l ps Hx _ IH]; [reflexivity|]. cbn [map]. rewrite (wb_cons (says x)), (after_says x p Hx), <- IH. destruct p as [q|]; [|reflexivity].
  cbn [somes flat_map app map]. rewrite (wb_cons _ (map _ _)). reflexivity.
Qed.
(** A single paragraph without elements is plain text, and this is all that is read of it. *)
Theorem C55_plain : forall lb ign dflt ds c h k n a d t, c_value c = VTextXml [XTag n a d] -> para_ok (XTag n a d) -> plain_of d = Some t -> d = [] \/ t <> [] -> extra_ok c -> 1 <= k <= u32_max ->
  exists o, through_file lb ign dflt ds c h k = Ok (k, o) /\ read_value o = VText t.
Proof.
  intros lb ign dflt ds c h k n a d t E P Q D X K. destruct (C55_paragraphs lb ign dflt ds c h k _ E (Forall_cons _ P (Forall_nil _)) X K) as (o & ps & Ho & A & V).
  exists o. split; [exact Ho|]. rewrite V. inversion A as [|? p ? ? Hp A']; subst. inversion A'; subst. inversion Hp; subst; cbn in Q; try congruence.
  - injection Q as <-. reflexivity.
  - replace t0 with t by congruence. reflexivity.
  - replace t with (@nil char) in D by congruence. destruct D; congruence.
Qed.

(** ** Examples *)

Definition p_ (a : list (str * str)) (l : list xnode) : xnode := XTag (lit "text:p") a l.
Definition red : list (str * str) := [(lit "text:style-name", lit "P1")].
Definition bold (l : list xnode) : xnode := XTag (lit "text:span") [(lit "text:style-name", lit "T1")] l.
Definition rich (l : list xnode) : cell := Cell (VTextXml l) None None 1 None.
Definition got (lb : bool) (l : list xnode) : res value := let* x := through_file lb false None (fun _ => None) (rich l) false 1 in Ok (read_value (snd x)).

Definition ex_rich : list xnode := [p_ red [XText (lit "a "); bold [XText (lit "b")]; XText (lit "<c")]; p_ [] [XTag (lit "text:s") [] []]].
Example C55_ok : Forall para_ok ex_rich.
Proof.
  constructor; [|constructor; [|constructor]]; (split; [reflexivity|split; [|repeat constructor; vm_compute; congruence]]);
    (split; [name_tac|split; [attrs_tac|]]); repeat split; first [name_tac|attrs_tac|idtac].
Qed.
Example C55_paragraphs_ex : para_after true (p_ red [XText (lit "a"); XText (lit "&")]) (Some (inl (lit "a&")))
  /\ rich_value [Some (inl (lit "a&")); None; Some (inr (p_ red [bold []]))] = VTextXml [p_ [] [XText (lit "a&")]; p_ red [bold []]].
Proof. split; [apply pa_plain; [discriminate|reflexivity|discriminate]|reflexivity]. Qed.
Example C55_survives_ex :
  (got false ex_rich, got true ex_rich)
  = (Ok (VTextXml [p_ red [XText (lit "a "); bold [XText (lit "b")]; XText (lit "<"); XText (lit "c")]; p_ [] [XTag (lit "text:s") [] []]]),
     Ok (VTextXml [p_ red [XText (lit "a "); bold [XText (lit "b")]; XText [c_nl]; XText (lit "<"); XText (lit "c")]; p_ [] [XTag (lit "text:s") [] []; XText [c_nl]]])).
Proof. vm_compute. reflexivity. Qed.
Example C55_says_ex : (got false [p_ red [XText (lit "a")]; p_ [] []; p_ [] [XText []]; p_ [] [bold [XText (lit "b")]; XText (lit "c")]], map says [p_ red [XText (lit "a")]; p_ [] []; p_ [] [XText []]; p_ [] [bold [XText (lit "b")]; XText (lit "c")]])
  = (Ok (VTextXml [p_ [] [XText (lit "a")]; p_ [] [XText []]; p_ [] [bold [XText (lit "b")]; XText (lit "c")]]), [lit "a"; []; []; lit "bc"]).
Proof. vm_compute. reflexivity. Qed.
Example C55_plain_ex : (got true [p_ [] [XText (lit "a"); XText (lit "b")]], got true [p_ red []]) = (Ok (VText (lit "ab")), Ok (VText [])).
Proof. vm_compute. reflexivity. Qed.

(** ** What is not kept *)

(** The attributes of a paragraph without elements are not read, so its style is lost; a paragraph with an element keeps them. *)
Theorem C55_style_refuted : exists l l', Forall para_ok l /\ got false l = Ok (VTextXml l') /\ ~ Forall2 (fun x y => norm y = norm x) l l' /\ map says l = map says l'.
Proof.
  exists [p_ red [XText (lit "a")]; p_ red [bold [XText (lit "b")]]], [p_ [] [XText (lit "a")]; p_ red [bold [XText (lit "b")]]].
  split; [|split; [vm_compute; reflexivity|split; [|reflexivity]]].
  - constructor; [|constructor; [|constructor]]; (split; [reflexivity|split; [|repeat constructor; vm_compute; congruence]]);
      (split; [name_tac|split; [attrs_tac|]]); repeat split; first [name_tac|attrs_tac|idtac].
  - intros H. inversion H as [|? ? ? ? E _]. vm_compute in E. discriminate.
Qed.
(** Rich text of one paragraph without elements is plain text when read: its style is lost as well. *)
Theorem C55_single_refuted : exists l, Forall para_ok l /\ forall lb, got lb l = Ok (VText (lit "a")).
Proof.
  exists [p_ red [XText (lit "a")]]. split; [|intros []; vm_compute; reflexivity].
  constructor; [|constructor]. split; [reflexivity|split; [|repeat constructor]]. split; [name_tac|split; [attrs_tac|]]. repeat split.
Qed.
(** A paragraph that holds a text without characters is dropped, so the number of paragraphs is not kept; if it is the only one, there is no value. *)
Theorem C55_blank_refuted : exists l l', Forall para_ok l /\ Forall para_ok l' /\ got false l = Ok VEmpty /\ (exists r, got false l' = Ok (VTextXml r) /\ length r <> length l').
Proof.
  exists [p_ [] [XText []]], [p_ [] [bold []]; p_ [] [XText []]; p_ [] []]. split; [|split; [|split; [vm_compute; reflexivity|eexists; split; [vm_compute; reflexivity|discriminate]]]];
  repeat (apply Forall_cons; [split; [reflexivity|split; [split; [name_tac|split; [attrs_tac|]]; repeat split; first [name_tac|attrs_tac|idtac]|repeat constructor; vm_compute; congruence]]|]); apply Forall_nil.
Qed.
(** A line break inside the only text of a paragraph is kept the first time, but the plain text that is read is two paragraphs the next time. *)
Theorem C55_again_refuted : exists l t, Forall para_ok l /\ got false l = Ok (VText t)
  /\ exists l', (let* x := through_file false false None (fun _ => None) (Cell (VText t) None None 1 None) false 1 in Ok (read_value (snd x))) = Ok (VTextXml l') /\ length l' = 2%nat /\ length l = 1%nat.
Proof.
  exists [p_ [] [XText (lit "a" ++ c_nl :: lit "b")]], (lit "a" ++ c_nl :: lit "b"). split; [|split; [vm_compute; reflexivity|eexists; split; [vm_compute; reflexivity|split; reflexivity]]].
  repeat (apply Forall_cons; [split; [reflexivity|split; [split; [name_tac|split; [attrs_tac|]]; repeat split|repeat constructor]]|]); apply Forall_nil.
Qed.
(** Each part of [para_ok] is needed. A heading is not read at all, a list only as the paragraphs in it, and a paragraph with a paragraph in it, as in an
    annotation, ends too early: the file cannot be read. *)
Theorem C55_heading_refuted : exists t, got false [XTag (lit "text:h") [] [XText t]] = Ok VEmpty /\ t <> []
  /\ got false [XTag (lit "text:h") [] [XText t]; p_ [] [bold [XText (lit "b")]]] = Ok (VTextXml [p_ [] [bold [XText (lit "b")]]]).
Proof. exists (lit "Title"). split; [vm_compute; reflexivity|]. split; [discriminate|vm_compute; reflexivity]. Qed.
Theorem C55_list_refuted : exists a b, got false [XTag (lit "text:list") [] [XTag (lit "text:list-item") [] [p_ [] [XText a]]; XTag (lit "text:list-item") [] [p_ [] [XText b]]]]
  = Ok (VTextXml [p_ [] [XText a]; p_ [] [XText b]]).
Proof. exists (lit "a"), (lit "b"). vm_compute. reflexivity. Qed.
Theorem C55_nested_refuted : exists x, names_ok (p_ [] [x]) /\ got false [p_ [] [x]] = Err /\ got true [p_ [] [x]] = Err.
Proof.
  exists (XTag (lit "office:annotation") [] [p_ [] [XText (lit "note")]]). split; [|vm_compute; split; reflexivity].
  split; [name_tac|split; [attrs_tac|]]. repeat split; first [name_tac|attrs_tac|idtac].
Qed.

Print Assumptions C55_paragraphs.
Print Assumptions C55_survives.
Print Assumptions C55_says.
Print Assumptions C55_plain.
Print Assumptions C55_style_refuted.
Print Assumptions C55_single_refuted.
Print Assumptions C55_blank_refuted.
Print Assumptions C55_again_refuted.
Print Assumptions C55_heading_refuted.
Print Assumptions C55_list_refuted.
Print Assumptions C55_nested_refuted.

(** Properties C09-C12: escaping, XML writer, XML trees, attribute maps. *)
From Verif Require Import Base Lib AttrModel AttrSpec AttrProofs XmlModel XmlSpec XmlProofs.

Local Ltac fa := chk.
Local Ltac nm := split; [discriminate|fa].

(** C09 *)
Theorem C09_escape_clean : forall s, clean (escape s).
Proof. exact escape_clean. Qed.

(** In other words: wherever a special character stands, it is the '&' of an entity. *)
Theorem C09_only_entities : forall s pre c post, escape s = pre ++ c :: post -> special c ->
  exists n post', c = c_amp /\ In n [lit "quot"; lit "apos"; lit "amp"; lit "lt"; lit "gt"] /\
    post = n ++ c_semi :: post'.
Proof. intros s pre c post H Hc. eapply clean_entities_only; [apply escape_clean|exact H|exact Hc]. Qed.

Theorem C09_unescape : forall s, unescape (escape s) = Ok s.
Proof. exact unescape_escape. Qed.

Theorem C09_injective : forall s t, escape s = escape t -> s = t.
Proof.
  intros s t H. pose proof (unescape_escape s) as H1. rewrite H, unescape_escape in H1. congruence.
Qed.

(** What the readers make of a reference: the five entities and decimal references give their
    character, any other name stays visible as it was written. *)
Theorem C09_reference :
  (forall c n, entity_of c = Some n -> entity n = Ok [c]) /\
  (forall s, hd 0 s <> 35 -> (forall c, entity_of c <> Some s) -> entity s = Ok (lit "&" ++ s ++ lit ";")) /\
  (forall d, d <> [] -> Forall (fun c => 48 <= c <= 57) d ->
     let n := fold_left (fun v c => v * 10 + (c - 48)) d 0 in
     0 < n -> n < 55296 -> entity (lit "#" ++ d) = Ok [n]).
Proof. split; [exact entity_named|]. split; [exact entity_unknown|exact entity_decimal]. Qed.
Example C09_reference_ex : entity (lit "nbsp") = Ok (lit "&nbsp;") /\ entity (lit "#65") = Ok (lit "A")
  /\ entity (lit "quot") = Ok [34] /\ entity (lit "#x") = Err /\ entity (lit "#x20aC") = Ok [8364] /\ entity (lit "#0") = Err.
Proof. vm_compute. auto 6. Qed.

Example C09_ex : escape (lit "a<b> & ""c'") = lit "a&lt;b&gt; &amp; &quot;c&apos;" /\
  unescape (lit "a&lt;b&gt; &amp; &quot;c&apos;") = Ok (lit "a<b> & ""c'").
Proof. split; vm_compute; reflexivity. Qed.

(** C10 *)
Theorem C10_written_xml_read_back : forall lb cs, sensible false cs -> calls_nested [] cs ->
  exists evs, read_events (render lb cs) = Ok evs /\
    coalesce (map deref evs) = coalesce (asked esc_whole lb None cs).
Proof.
  intros lb cs H1 H2. exists (events_of lb cs). split; [now apply read_events_render|apply events_plain].
Qed.

(** The exact events, references included; nesting is not needed to split into tokens. *)
Theorem C10_tokens : forall lb cs, sensible false cs -> lex (MText []) (render lb cs) = Ok (events_of lb cs).
Proof. exact lex_render. Qed.

Definition C10_sample : list call :=
  [CDtd (lit "UTF-8"); CElem (lit "a"); CAttrEsc (lit "x") (lit "1""/><b y='<&"); CAttr (lit "n") (lit "7");
   CTextEsc (lit "</a>&amp;"); CEmpty (lit "c"); CTextEsc (lit "t"); CElemTextEsc (lit "d") (lit "<"); CEnd (lit "a")].
Example C10_ex : sensible false C10_sample /\ calls_nested [] C10_sample /\
  coalesce (asked esc_whole false None C10_sample) =
   [EOther (lit "?xml version=""1.0"" encoding=""UTF-8"" ?"); EText [10];
    EStart (lit "a") [(lit "x", lit "1""/><b y='<&"); (lit "n", lit "7")]; EText (lit "</a>&amp;");
    EEmpty (lit "c") []; EText (lit "t"); EStart (lit "d") []; EText (lit "<"); EEnd (lit "d"); EEnd (lit "a")].
Proof.
  split; [|split; [repeat split|vm_compute; reflexivity]].
  unfold C10_sample.
  apply sn_dtd; [fa|]. apply sn_elem; [nm|]. apply sn_attr_esc; [nm|]. apply sn_attr; [nm|fa|].
  apply sn_text_esc. apply sn_empty; [nm|]. apply sn_text_esc. apply sn_elem_text_esc; [nm|]. apply sn_end; [nm|]. apply sn_nil.
Qed.

(** The unescaped calls really need the value to be harmless. *)
Theorem C10_raw_attr_refuted : exists cs, calls_nested [] cs /\
  read_events (render false cs) <> Ok (events_of false cs) /\
  exists k v, cs = [CElem (lit "a"); CAttr k v; CEnd (lit "a")].
Proof.
  exists [CElem (lit "a"); CAttr (lit "x") (lit "1"" y=""2"); CEnd (lit "a")].
  split; [repeat split|]. split; [vm_compute; discriminate|eauto].
Qed.

(** C11 *)
Theorem C11_tree_roundtrip : forall n a c, names_ok (XTag n a c) ->
  (exists evs t, read_events (render false (write_node (XTag n a c))) = Ok evs /\
    read_tag evs = Ok (t, []) /\ norm t = norm (XTag n a c)) <-> root_name_unique n c.
Proof. exact xmltag_survives_iff. Qed.

(** The same inside a larger document: the reader stops exactly behind the tree. *)
Theorem C11_tree_in_document : forall n a c cs, root_name_unique n c ->
  exists t, read_tag (events_of false (write_node (XTag n a c) ++ cs)) = Ok (t, events_of false cs) /\
            norm t = norm (XTag n a c).
Proof. exact xmltag_roundtrip_in_doc. Qed.

(** Merging text is harmless: it keeps the sequence of all characters and tags. *)
Theorem C11_norm_idempotent : forall x, norm (norm x) = norm x.
Proof.
  induction x as [t|n a c IH] using xnode_ind'; [reflexivity|]. cbn. f_equal.
  assert (H : forall l, Forall (fun x => norm (norm x) = norm x) l ->
    map norm (merge_text l) = merge_text (map norm l)).
  { clear. intros l _. induction l as [|x l IH]; [reflexivity|].
    cbn [merge_text map fold_right]. fold (merge_text l). fold (merge_text (map norm l)). rewrite <- IH.
    destruct x as [t|n a c]; cbn [norm mcons map]; [|reflexivity].
    destruct (merge_text l) as [|[u|m b d] l']; cbn [map norm]; destruct t; reflexivity. }
  rewrite (H (map norm c)).
  2:{ apply Forall_map. eapply Forall_impl; [|exact IH]. cbv beta. intros y Hy. now rewrite Hy. }
  rewrite map_map.
  replace (map (fun x => norm (norm x)) c) with (map norm c).
  2:{ apply map_ext_Forall. eapply Forall_impl; [|exact IH]. cbv beta. auto. }
  pose proof (fold_merge (map norm c) []) as Hm. exact Hm.
Qed.

Definition C11_sample : xnode :=
  XTag (lit "a") [(lit "k", lit "<v>")] [XText (lit "x&"); XText (lit "y"); XTag (lit "b") [] [XText (lit "z"); XTag (lit "a") [] []]; XText []].
Example C11_ex : names_ok C11_sample /\ root_name_unique (lit "a") (match C11_sample with XTag _ _ c => c | _ => [] end)
  /\ norm C11_sample = XTag (lit "a") [(lit "k", lit "<v>")] [XText (lit "x&y"); XTag (lit "b") [] [XText (lit "z"); XTag (lit "a") [] []]].
Proof.
  split; [|split; [|vm_compute; reflexivity]].
  - cbn [C11_sample names_ok fst].
    repeat first [exact I | nm | apply conj | apply Forall_nil | apply Forall_cons].
  - unfold root_name_unique. cbn [C11_sample].
    repeat first [exact I | apply Forall_nil | apply Forall_cons | apply conj | (left; reflexivity) | (right; discriminate)].
Qed.

(** An element with content and the name of the root ends the reading early. *)
Theorem C11_nested_name_refuted : exists x evs t rest, names_ok x /\
  read_events (render false (write_node x)) = Ok evs /\ read_tag evs = Ok (t, rest) /\ norm t <> norm x /\ rest <> [].
Proof.
  exists (XTag (lit "g") [] [XTag (lit "g") [] [XText (lit "x")]; XText (lit "y")]).
  eexists _, _, _. split; [|split; [vm_compute; reflexivity|split; [vm_compute; reflexivity|split; vm_compute; discriminate]]].
  cbn [names_ok]. repeat first [exact I | nm | apply conj | apply Forall_nil | apply Forall_cons].
Qed.

(** Flat files get a line break after every end tag, which is read as text. *)
Theorem C11_flat_file_refuted : exists n a c evs t rest, names_ok (XTag n a c) /\ root_name_unique n c /\
  read_events (render true (write_node (XTag n a c))) = Ok evs /\ read_tag evs = Ok (t, rest) /\
  norm t <> norm (XTag n a c).
Proof.
  exists (lit "p"), [], [XText (lit "x"); XTag (lit "s") [] []; XText (lit "y")].
  eexists _, _, _. split; [|split; [|split; [vm_compute; reflexivity|split; [vm_compute; reflexivity|vm_compute; discriminate]]]].
  - cbn [names_ok]. repeat first [exact I | nm | apply conj | apply Forall_nil | apply Forall_cons].
  - unfold root_name_unique. 
    repeat first [exact I | apply Forall_nil | apply Forall_cons | apply conj | (left; reflexivity) | (right; discriminate)].
Qed.

(** C12 *)
Theorem C12_attr_map_laws : forall ops,
  exists m l, am_run ops = Ok m /\ am_iter m = Ok l /\
    (forall k, am_attr k m = Ok (last_set k ops)) /\
    NoDup (map fst l) /\
    (forall k v, In (k, v) l <-> last_set k ops = Some v) /\
    insertion_order ops (map fst l) /\ am_len m = length l.
Proof. exact am_laws. Qed.

Theorem C12_clear_returns : forall ops k m, am_run ops = Ok m ->
  exists m', am_clear k m = Ok (m', last_set k ops).
Proof. exact am_clear_returns. Qed.

Theorem C12_attr_def : forall ops k d m, am_run ops = Ok m ->
  am_attr_def k d m = Ok (match last_set k ops with Some v => v | None => d end).
Proof. exact am_attr_def_ok. Qed.

Definition C12_sample : list am_op :=
  [OpSet (lit "a") (lit "1"); OpSet (lit "b") (lit "2"); OpSet (lit "a") (lit "3"); OpClear (lit "b");
   OpSet (lit "c") (lit "4"); OpSet (lit "b") (lit "5")].
Example C12_ex : exists m, am_run C12_sample = Ok m /\
  am_iter m = Ok [(lit "a", lit "3"); (lit "c", lit "4"); (lit "b", lit "5")] /\
  last_set (lit "a") C12_sample = Some (lit "3") /\ inserted_at (lit "b") C12_sample = Some 5%nat.
Proof. eexists. repeat split; vm_compute; reflexivity. Qed.

(** Adding attributes as a slice is not covered by the laws: an existing name
    is added a second time, the old value stays visible, and the element is
    written with a duplicate attribute. *)
Theorem C12_add_slice_refuted : exists m l, am_run [OpSet (lit "a") (lit "1")] = Ok m /\
  am_attr (lit "a") (am_add_all [(lit "a", lit "2")] m) = Ok (Some (lit "1")) /\
  am_iter (am_add_all [(lit "a", lit "2")] m) = Ok l /\ ~ NoDup (map fst l).
Proof.
  eexists _, _. split; [vm_compute; reflexivity|]. split; [vm_compute; reflexivity|].
  split; [vm_compute; reflexivity|]. cbn. intros H. inversion H; subst. cbn in *. tauto.
Qed.

Print Assumptions C09_escape_clean.
Print Assumptions C09_only_entities.
Print Assumptions C09_unescape.
Print Assumptions C09_injective.
Print Assumptions C09_reference.
Print Assumptions C10_written_xml_read_back.
Print Assumptions C10_tokens.
Print Assumptions C10_raw_attr_refuted.
Print Assumptions C11_tree_roundtrip.
Print Assumptions C11_tree_in_document.
Print Assumptions C11_norm_idempotent.
Print Assumptions C11_nested_name_refuted.
Print Assumptions C11_flat_file_refuted.
Print Assumptions C12_attr_map_laws.
Print Assumptions C12_clear_returns.
Print Assumptions C12_attr_def.
Print Assumptions C12_add_slice_refuted.

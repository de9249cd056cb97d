(** C54: annotations and frames of a cell written to a file and read again. *)
From Verif Require Import Base Lib XmlModel XmlSpec XmlProofs CellModel NumModel NumSpec NumProofs CellIoModel CellIoSpec CellIoProofs DrawModel TreeProofs DrawProofs CellIoProps.

Lemma content_annotation c : k_annotation (cell_content c) = match c_extra c with Some x => x_annotation x | None => None end.
Proof. destruct c as [? ? ? ? [x|]]; reflexivity. Qed.
Lemma content_frames c : k_frames (cell_content c) = match c_extra c with Some x => x_frames x | None => [] end.
Proof. destruct c as [? ? ? ? [x|]]; reflexivity. Qed.
Lemma comes_back lb ign dflt ds c h k x : writable (c_value c) -> extra_ok c -> 1 <= k <= u32_max -> c_extra c = Some x -> x_annotation x <> None \/ x_frames x <> [] ->
  exists d c' y, kept lb c d /\ c_extra d = Some y /\ through_file lb ign dflt ds c h k = Ok (k, Some c')
    /\ k_annotation (cell_content c') = x_annotation y /\ k_frames (cell_content c') = x_frames y.
Proof.
  intros W X K E N. destruct (through_events lb ign dflt ds c h k W X K) as (d & o & v & Hd & _ & Ho & Co).
  assert (exists y, c_extra d = Some y) as (y & Ey) by (pose proof Hd as (_ & _ & _ & _ & Q); rewrite E in Q; destruct (c_extra d); [eauto|contradiction]).
  cbv zeta in Co. assert (V : void_b ign dflt (result ds d v k) = false).
  { pose proof Hd as (_ & _ & _ & _ & Q). rewrite E, Ey in Q. destruct Q as (_ & _ & _ & A & F). unfold void_b, result, content_with.
    cbn [k_annotation k_frames]. destruct (x_annotation x) eqn:Ax, (x_annotation y) eqn:Ay; try contradiction; rewrite ?Ey; cbn [k_annotation k_frames].
    - rewrite ?Ay. cbn [CellModel.is_some negb]. rewrite ?andb_false_r. reflexivity.
    - destruct N as [N|N]; [congruence|]. destruct (x_frames y) as [|g l] eqn:Fy; [inversion F; congruence|]. cbn [is_nil]. rewrite ?andb_false_r. reflexivity. }
  rewrite V in Co. destruct o as [c'|]; [|discriminate]. exists d, c', y. cbn [option_map] in Co. split; [exact Hd|]. split; [exact Ey|]. split; [exact Ho|].
  assert (Co' : cell_content c' = result ds d v k) by congruence. rewrite Co'. unfold result, content_with. now rewrite Ey.
Qed.

(** A cell with an annotation is read with it: name, display, creator, date and attributes are the same, and so are the texts up to the pieces their
    characters are cut into. *)
Theorem C54_annotation : forall lb ign dflt ds c h k x a, writable (c_value c) -> extra_ok c -> 1 <= k <= u32_max -> c_extra c = Some x -> x_annotation x = Some a ->
  exists c' b, through_file lb ign dflt ds c h k = Ok (k, Some c') /\ k_annotation (cell_content c') = Some b /\ ann_same lb a b.
Proof.
  intros lb ign dflt ds c h k x a W X K E A. destruct (comes_back lb ign dflt ds c h k x W X K E) as (d & c' & y & Hd & Ey & H & HA & _); [left; congruence|].
  pose proof Hd as (_ & _ & _ & _ & Q). rewrite E, Ey, A in Q. destruct Q as (_ & _ & _ & Q & _). destruct (x_annotation y) as [b|]; [|contradiction].
  exists c', b. split; [exact H|]. split; [exact HA|]. apply Q.
Qed.
(** A cell with frames is read with as many, in the same order: title, description and attributes are the same, and so are the images of each with
    their attributes and data, and their texts up to the pieces. *)
Theorem C54_frames : forall lb ign dflt ds c h k x, writable (c_value c) -> extra_ok c -> 1 <= k <= u32_max -> c_extra c = Some x -> x_frames x <> [] ->
  exists c', through_file lb ign dflt ds c h k = Ok (k, Some c') /\ Forall2 (frame_same lb) (x_frames x) (k_frames (cell_content c')).
Proof.
  intros lb ign dflt ds c h k x W X K E N. destruct (comes_back lb ign dflt ds c h k x W X K E) as (d & c' & y & Hd & Ey & H & _ & HF); [now right|].
  pose proof Hd as (_ & _ & _ & _ & Q). rewrite E, Ey in Q. destruct Q as (_ & _ & _ & _ & Q). exists c'. split; [exact H|]. rewrite HF. clear - Q. induction Q as [|f g l l' H _ IH]; constructor; [apply H|exact IH].
Qed.
(** If the texts are paragraphs or lists without elements inside, and cut into the pieces they are read in, everything is exactly the same. *)
Theorem C54_exact : forall lb ign dflt ds c h k x, writable (c_value c) -> extra_ok c -> 1 <= k <= u32_max -> c_extra c = Some x -> x_annotation x <> None \/ x_frames x <> [] ->
  (forall a, x_annotation x = Some a -> ann_exact a) -> Forall frame_exact (x_frames x) ->
  exists c', through_file lb ign dflt ds c h k = Ok (k, Some c') /\ k_annotation (cell_content c') = x_annotation x /\ k_frames (cell_content c') = x_frames x.
Proof.
  intros lb ign dflt ds c h k x W X K E N A F. destruct (comes_back lb ign dflt ds c h k x W X K E N) as (d & c' & y & Hd & Ey & H & HA & HF).
  assert (d = c) as -> by (apply (kept_exact lb c d Hd); rewrite E; auto). assert (y = x) by congruence. subst y. exists c'. auto.
Qed.
(** What an annotation says, element by element, is the same in a file without line breaks: the characters of each text. *)
Fixpoint says (x : xnode) : str :=
  match x with
  | XText t => t
  | XTag _ _ l => (fix go l := match l with [] => [] | y :: r => says y ++ go r end) l
  end.
Lemma says_list n a l : says (XTag n a l) = concat (map says l).
Proof. cbn [says]. induction l as [|y l IH]; [reflexivity|]. cbn [map concat]. now rewrite IH. Qed.
Lemma says_norm x : says (norm x) = says x.
Proof.
  induction x as [t|n a l IH] using xnode_ind'; [reflexivity|]. cbn [norm]. rewrite !says_list.
  assert (M : forall x l, concat (map says (mcons x l)) = says x ++ concat (map says l)).
  { clear. intros [t|n a c] l; [|reflexivity]. cbn [mcons]. destruct l as [|[u|n a c] l]; cbn [map concat says]; [destruct t; reflexivity|now rewrite app_assoc|destruct t; reflexivity]. }
  induction IH as [|y l H _ IH]; [reflexivity|]. cbn [map concat merge_text fold_right]. rewrite M. fold (merge_text (map norm l)). now rewrite IH, H.
Qed.
Theorem C54_says : forall ign dflt ds c h k x a, writable (c_value c) -> extra_ok c -> 1 <= k <= u32_max -> c_extra c = Some x -> x_annotation x = Some a ->
  exists c' b, through_file false ign dflt ds c h k = Ok (k, Some c') /\ k_annotation (cell_content c') = Some b /\ map says (an_text b) = map says (an_text a).
Proof.
  intros ign dflt ds c h k x a W X K E A. destruct (C54_annotation false ign dflt ds c h k x a W X K E A) as (c' & b & H & B & (_ & _ & _ & _ & _ & T)). exists c', b. split; [exact H|]. split; [exact B|].
  unfold texts_same in T. apply (f_equal (map says)) in T. rewrite !map_map in T. rewrite (map_ext _ says says_norm) in T. rewrite T. apply map_ext. intros y. now rewrite says_norm, <- (says_norm (broken false y)), broken_norm, says_norm.
Qed.

(** ** Examples *)

Definition par (l : list xnode) : xnode := XTag (lit "text:p") [] l.
Definition ex_ann : annotation :=
  Ann (lit "n1") true (Some (lit "A & B")) (Some (DateTime 2024 5 6 7 8 9 0)) [par [XText (lit "1 "); XText (lit "<"); XText (lit " 2")]; par []] [(lit "svg:width", lit "2cm"); (lit "xml:lang", lit "e'n")].
Definition ex_image : dimage := DImage [(lit "draw:mime-type", lit "image/png")] (Some (lit "iVBORw0KGgo")) [par [XText (lit "cat")]].
Definition ex_frame : dframe := DFrame (Some (lit "T")) (Some (lit "D > d")) [(lit "svg:x", lit "1cm"); (lit "draw:name", lit "f'1")] [ex_image; DImage [(lit "xlink:href", lit "a&b")] None []].
Definition ex_cell (an : option annotation) (fr : list dframe) : cell := Cell (VText (lit "v")) None None 1 (Some (CExt None (CSpan 1 1) (CSpan 1 1) an fr)).
Definition back (lb : bool) (c : cell) : res (option annotation * list dframe) :=
  let* x := through_file lb false None (fun _ => None) c false 1 in
  match snd x with Some c' => Ok (k_annotation (cell_content c'), k_frames (cell_content c')) | None => Err end.

Ltac name_tac := apply name_ok_b; vm_compute; reflexivity.
Ltac attrs_tac := unfold attrs_ok; repeat (apply Forall_cons; [name_tac|]); apply Forall_nil.
Lemma par_ok l : Forall (fun x => exists t, x = XText t) l -> text_ok (par l).
Proof.
  intros H. split; [now left|]. split; [split; [name_tac|]; split; [constructor|]|].
  - induction H as [|x l (t & ->) _ IH]; [exact I|]. split; [exact I|exact IH].
  - eapply Forall_impl; [|exact H]. intros x (t & ->). exact I.
Qed.
Lemma ex_ok : extra_ok (ex_cell (Some ex_ann) [ex_frame]).
Proof.
  split; [vm_compute; repeat split; congruence|]. cbn [c_extra ex_cell x_annotation x_frames]. split.
  - intros a E. injection E as <-. split; [attrs_tac|]. split; [repeat constructor; discriminate|]. split.
    + intros d E. injection E as <-. split; [apply datetime_ok_valid; vm_compute; reflexivity|]. cbn. lia.
    + constructor; [|constructor; [|constructor]]; apply par_ok; repeat constructor; eauto.
  - constructor; [|constructor]. split; [attrs_tac|]. constructor; [|constructor; [|constructor]]; (split; [attrs_tac|]); split; try discriminate; try constructor; [| |constructor].
    + intros v E. injection E as <-. apply plain_text. repeat constructor; vm_compute; intuition congruence.
    + apply par_ok. repeat constructor. eauto.
Qed.
Lemma plain_piece t : t <> [] -> no_specials t -> pieces [t]. Proof. now constructor. Qed.
Example C54_exact_ex : extra_ok (ex_cell (Some ex_ann) [ex_frame]) /\ (ann_exact ex_ann /\ frame_exact ex_frame) /\
  back false (ex_cell (Some ex_ann) [ex_frame]) = Ok (Some ex_ann, [ex_frame]) /\ back true (ex_cell (Some ex_ann) [ex_frame]) = Ok (Some ex_ann, [ex_frame]).
Proof.
  split; [exact ex_ok|]. split; [|vm_compute; split; reflexivity]. assert (N : forall s, existsb (fun c => existsb (N.eqb c) [c_quot; c_apos; c_amp; c_lt; c_gt]) s = false -> no_specials s).
  { intros s H. apply Forall_forall. intros c I Sp. assert (existsb (fun c => existsb (N.eqb c) [c_quot; c_apos; c_amp; c_lt; c_gt]) s = true); [|congruence].
    apply existsb_exists. exists c. split; [exact I|]. apply existsb_exists. exists c. split; [exact Sp|apply N.eqb_refl]. }
  split.
  - constructor; [|constructor; [|constructor]].
    + exists (lit "text:p"), [], [lit "1 "; lit "<"; lit " 2"]. split; [reflexivity|]. apply pc_between; [discriminate|apply N; reflexivity|vm_compute; tauto|]. apply plain_piece; [discriminate|apply N; reflexivity].
    + exists (lit "text:p"), [], []. split; [reflexivity|constructor].
  - constructor; [|constructor; [|constructor]]; repeat constructor. exists (lit "text:p"), [], [lit "cat"]. split; [reflexivity|]. apply plain_piece; [discriminate|apply N; reflexivity].
Qed.
(** A text in one piece with an apostrophe, as [Annotation::new] makes it, comes back in three. *)
Example C54_annotation_ex : back false (ex_cell (Some (Ann [] true None None [par [XText (lit "it's")]] [])) [])
  = Ok (Some (Ann [] true None None [par [XText (lit "it"); XText (lit "'"); XText (lit "s")]] []), []).
Proof. vm_compute. reflexivity. Qed.
Example C54_frames_ex : back true (ex_cell None [ex_frame; DFrame None None [] []]) = Ok (None, [ex_frame; DFrame None None [] []]).
Proof. vm_compute. reflexivity. Qed.
Example C54_says_ex : map says (an_text ex_ann) = [lit "1 < 2"; []].
Proof. reflexivity. Qed.

(** ** What is excluded *)

Definition item (l : list xnode) : xnode := XTag (lit "text:list-item") [] l.
Definition tlist (l : list xnode) : xnode := XTag (lit "text:list") [] l.
Definition noted (l : list xnode) : annotation := Ann (lit "n") true None None l [].
(** A list inside a list: the end of the inner one ends the text, so the inner list is read in place of the outer one; the rest of the outer list is
    skipped, and of what follows in it, paragraphs become texts of the annotation. *)
Theorem C54_nested_refuted : exists a b,
  a = noted [tlist [item [par [XText (lit "1")]; tlist [item [par [XText (lit "2")]]]]; item [par [XText (lit "3")]]]] /\
  b = noted [tlist [item [par [XText (lit "2")]]]; par [XText (lit "3")]] /\
  back false (ex_cell (Some a) []) = Ok (Some b, []).
Proof. do 2 eexists. split; [reflexivity|]. split; [reflexivity|]. vm_compute. reflexivity. Qed.
(** Texts other than paragraphs and lists are written but not read, except for the paragraphs in them. *)
Theorem C54_heading_refuted : exists a,
  a = noted [XTag (lit "text:h") [] [XText (lit "lost")]; par [XText (lit "kept")]] /\
  back false (ex_cell (Some a) []) = Ok (Some (noted [par [XText (lit "kept")]]), []).
Proof. eexists. split; [reflexivity|]. vm_compute. reflexivity. Qed.
(** An attribute with the name of a field is written in addition to the field: twice in one tag, which is not well-formed, and the reader takes the last. *)
Theorem C54_attribute_refuted : exists a, a = Ann (lit "n") true None None [] [(lit "office:name", lit "other")] /\
  back false (ex_cell (Some a) []) = Ok (Some (Ann (lit "other") true None None [] []), []).
Proof. eexists. split; [reflexivity|]. vm_compute. reflexivity. Qed.
(** The data of an image is not escaped: with an ampersand it cannot be read. *)
Theorem C54_data_refuted : exists f, f = DFrame None None [] [DImage [] (Some (lit "a&b")) []] /\ back false (ex_cell None [f]) = Err.
Proof. eexists. split; [reflexivity|]. vm_compute. reflexivity. Qed.
(** A date after the year 9999 makes the file unreadable. *)
Theorem C54_date_refuted : exists a d, valid_datetime d /\ dt_year d = 10000%Z /\ a = Ann [] true None (Some d) [] [] /\ back false (ex_cell (Some a) []) = Err.
Proof. do 2 eexists. split; [apply datetime_ok_valid; instantiate (1 := DateTime 10000 1 1 0 0 0 0); vm_compute; reflexivity|]. split; [reflexivity|]. split; [reflexivity|]. vm_compute. reflexivity. Qed.
(** In a flat file a line break is added after each element inside a paragraph. *)
Theorem C54_flat_refuted : exists a b,
  a = noted [par [XTag (lit "text:span") [] [XText (lit "x")]; XText (lit "y")]] /\ b = noted [par [XTag (lit "text:span") [] [XText (lit "x")]; XText ([c_nl] ++ lit "y")]] /\
  back false (ex_cell (Some a) []) = Ok (Some a, []) /\ back true (ex_cell (Some a) []) = Ok (Some b, []).
Proof. do 2 eexists. split; [reflexivity|]. split; [reflexivity|]. vm_compute. split; reflexivity. Qed.

Print Assumptions C54_annotation.
Print Assumptions C54_frames.
Print Assumptions C54_exact.
Print Assumptions C54_says.
Print Assumptions C54_nested_refuted.
Print Assumptions C54_heading_refuted.
Print Assumptions C54_attribute_refuted.
Print Assumptions C54_data_refuted.
Print Assumptions C54_date_refuted.
Print Assumptions C54_flat_refuted.

(** C83: what is calculated before writing settles: a second save finds nothing left to do. *)
From Verif Require Import Base NumModel EnumModel BookModel StyleModel FmtModel SetModel GetModel SizeModel FmtSpec Lib NumProofs FmtProofs SetProofs BookProps SetProps SizeProps.
From Verif Require Import OMap HeaderModel HeaderSpec HeaderProofs HeaderCuts AgainProofs MetaModel.

(** ** What ought to be the same *)

(** The value of an attribute of a column style or row style; nothing for a style that is not there. *)
Definition held (x : axis) (b : book attrs) (n k : str) : option str :=
  match attrs_of x b n with Some a => value_of k a | None => None end.
(** The same styles with the same values. *)
Definition same_table (x : axis) (b b' : book attrs) : Prop :=
  forall n, (attrs_of x b n = None <-> attrs_of x b' n = None) /\ forall k, held x b n k = held x b' n k.

(** ** Sizes *)

(** What one header does to one attribute of its style: nothing, or a new value whatever was there. *)
Definition size_attr (x : axis) : str := match x with Cols => lit "style:column-width" | Rows => lit "style:row-height" end.
Definition effect (x : axis) (s : length_) (k : str) : option (option str) :=
  if str_eqb (size_attr x) k then Some (match x, s with Cols, LDefault => None | _, _ => Some (show_length s) end)
  else if is_default s && str_eqb (optimal_attr x) k then Some (Some (lit "true")) else None.
Definition step (x : axis) (k : str) (v : option str) (s : length_) : option str := match effect x s k with Some o => o | None => v end.
Definition steps (x : axis) (k : str) (l : list length_) (v : option str) : option str := fold_left (step x k) l v.

Lemma write_all x s a : exists a', write_size x s a = Ok a'.
Proof. destruct x, s; eexists; unfold write_size; cbn [is_default set_optimal set_size run bind]; unfold put; cbn [bind]; reflexivity. Qed.
Lemma write_effect x s a a' k : NoDup (map fst a) -> write_size x s a = Ok a' -> value_of k a' = step x k (value_of k a) s.
Proof.
  intros N H. unfold step, effect. destruct x, s as [|v u]; unfold write_size in H; cbn [is_default set_optimal set_size run bind] in H; unfold put in H; cbn [bind] in H; apply ok_inj in H; subst a'; cbn [size_attr optimal_attr is_default andb].
  - rewrite value_del by (apply put_keys, N). destruct (str_eqb (lit "style:column-width") k); [reflexivity|]. rewrite value_put. destruct (str_eqb _ k); reflexivity.
  - rewrite value_put. destruct (str_eqb _ k); reflexivity.
  - rewrite value_put. destruct (str_eqb (lit "style:row-height") k); [reflexivity|]. rewrite value_put. destruct (str_eqb _ k); reflexivity.
  - rewrite value_put. destruct (str_eqb _ k); reflexivity.
Qed.
Lemma steps_twice x k l v : steps x k l (steps x k l v) = steps x k l v.
Proof.
  assert (D : (forall v, steps x k l v = v) \/ exists c, forall v, steps x k l v = c).
  { induction l as [|s l IH]; [left; reflexivity|]. assert (C : forall v, steps x k (s :: l) v = steps x k l (step x k v s)) by reflexivity. unfold step in C. destruct (effect x s k) as [o|].
    - right. exists (steps x k l o). exact C.
    - destruct IH as [IH|(c & IH)]; [left|right; exists c]; intros v0; rewrite C; apply IH. }
  destruct D as [D|(c & D)]; [rewrite !D; reflexivity|]. rewrite !D. reflexivity.
Qed.
Lemma change_held x n s b b1 : no_doubles x b -> (forall v u, s = Len v u -> float_text v = true) -> attrs_of x b n <> None -> change_size x n s b = Ok b1 ->
  forall m k, held x b1 m k = if str_eqb n m then step x k (held x b m k) s else held x b m k.
Proof.
  intros D F K H m k. destruct (change_spec x n s b b1 D F H) as (_ & O & C). unfold held. destruct (str_eqb n m) eqn:M.
  - apply str_eqb_eq in M. subst m. destruct (attrs_of x b n) as [a|] eqn:A; [|contradiction]. destruct C as (a1 & -> & W). exact (write_effect x s a a1 k (D n a A) W).
  - rewrite O; [reflexivity|]. intros ->. rewrite str_eqb_refl in M. discriminate M.
Qed.
Lemma change_there x n s b b1 m : no_doubles x b -> (forall v u, s = Len v u -> float_text v = true) -> change_size x n s b = Ok b1 -> (attrs_of x b1 m = None <-> attrs_of x b m = None).
Proof.
  intros D F H. destruct (change_spec x n s b b1 D F H) as (_ & O & C). destruct (list_eq_dec N.eq_dec m n) as [->|M]; [|rewrite (O m M); reflexivity].
  destruct (attrs_of x b n) as [a|]; [destruct C as (a1 & -> & _); split; discriminate|rewrite C; split; reflexivity].
Qed.
Lemma sizes_cons m h r : sizes m (h :: r) = match hd_style h with Some n => if str_eqb n m then hd_size h :: sizes m r else sizes m r | None => sizes m r end.
Proof. unfold sizes. cbn [flat_map]. destruct (hd_style h) as [n|]; [destruct (str_eqb n m)|]; reflexivity. Qed.

Lemma sync_held x hs : forall b b' hs', no_doubles x b -> all_there x hs b -> numbers_fine hs -> sync_headers x hs b = Ok (b', hs') ->
  forall n k, held x b' n k = steps x k (sizes n hs') (held x b n k).
Proof.
  induction hs as [|h r IH]; intros b b' hs' D K F H n k.
  - cbn [sync_headers] in H. apply ok_inj in H. injection H as <- <-. reflexivity.
  - cbn [sync_headers] in H. apply bind_ok in H as ((b1 & h1) & H1 & H). apply bind_ok in H as ((b2 & r1) & H2 & H). apply ok_inj in H. injection H as -> <-.
    assert (numbers_fine r) as Fr by (intros h' v u I; apply F; right; exact I).
    assert (all_there x r b) as Kr by (intros h' m I; apply K; right; exact I).
    assert (forall v u, hd_size h = Len v u -> float_text v = true) as Fh by (intros v u; apply F; left; reflexivity).
    unfold sync_header in H1. destruct (hd_style h) as [m|] eqn:S.
    + rewrite andb_false_r in H1. cbn [bind] in H1. rewrite S in H1. apply bind_ok in H1 as (bb & H1 & E). apply ok_inj in E. injection E as <- <-.
      destruct (change_spec x m (hd_size h) b bb D Fh H1) as (D1 & _).
      assert (all_there x r bb) as K1. { intros h' n' I E E'. apply (change_there x m _ b bb n' D Fh H1) in E'. exact (Kr h' n' I E E'). }
      rewrite (IH bb b' r1 D1 K1 Fr H2 n k), (change_held x m _ b bb D Fh (K h m (or_introl eq_refl) S) H1), sizes_cons, S. destruct (str_eqb m n); reflexivity.
    + destruct (is_default (hd_size h)) eqn:Z; cbn [negb andb] in H1.
      * cbn [bind] in H1. rewrite S in H1. cbn [bind] in H1. apply ok_inj in H1. injection H1 as <- <-. rewrite sizes_cons, S. exact (IH b b' r1 D Kr Fr H2 n k).
      * apply bind_ok in H1 as ((b0 & h0) & H0 & H1). apply bind_ok in H0 as ((bn & m) & Hn & E). apply ok_inj in E. injection E as <- <-. cbn [hd_style hd_size] in H1.
        apply bind_ok in H1 as (bb & H1 & E). apply ok_inj in E. injection E as <- <-.
        destruct (add_spec x b bn m D Hn) as (D0 & A0 & A1 & O).
        destruct (change_spec x m (hd_size h) bn bb D0 Fh H1) as (D1 & _).
        assert (attrs_of x bn m <> None) as Km by congruence.
        assert (all_there x r bb) as K1.
        { intros h' n' I E E'. apply (change_there x m _ bn bb n' D0 Fh H1) in E'. destruct (list_eq_dec N.eq_dec n' m) as [->|M]; [exact (Km E')|]. rewrite (O n' M) in E'. exact (Kr h' n' I E E'). }
        assert (held x bn n k = held x b n k) as Hb.
        { unfold held. destruct (list_eq_dec N.eq_dec n m) as [->|M]; [rewrite A0, A1; reflexivity|rewrite (O n M); reflexivity]. }
        rewrite (IH bb b' r1 D1 K1 Fr H2 n k), (change_held x m _ bn bb D0 Fh Km H1), sizes_cons, Hb. cbn [hd_style hd_size]. destruct (str_eqb m n); reflexivity.
Qed.
Lemma sync_settled x hs : forall b, no_doubles x b -> numbers_fine hs -> (forall h, In h hs -> hd_style h = None -> is_default (hd_size h) = true) ->
  exists b', sync_headers x hs b = Ok (b', hs) /\ forall n, attrs_of x b' n = None <-> attrs_of x b n = None.
Proof.
  induction hs as [|h r IH]; intros b D F Z; [exists b; split; [reflexivity|intros n; reflexivity]|]. cbn [sync_headers]. unfold sync_header.
  assert (numbers_fine r) as Fr by (intros h' v u I; apply F; right; exact I).
  assert (forall v u, hd_size h = Len v u -> float_text v = true) as Fh by (intros v u; apply F; left; reflexivity).
  assert (forall h', In h' r -> hd_style h' = None -> is_default (hd_size h') = true) as Zr by (intros h' I; apply Z; right; exact I).
  destruct (hd_style h) as [n|] eqn:S.
  - rewrite andb_false_r. cbn [bind]. rewrite S.
    assert (exists b1, change_size x n (hd_size h) b = Ok b1) as (b1 & C).
    { unfold change_size. destruct (style (family_of x) n b) as [s|]; [|eexists; reflexivity]. destruct (write_all x (hd_size h) (nm_body s)) as (a & ->). eexists. reflexivity. }
    rewrite C. cbn [bind]. destruct (change_spec x n _ b b1 D Fh C) as (D1 & _). destruct (IH b1 D1 Fr Zr) as (b' & E & T). rewrite E. cbn [bind]. exists b'. split; [reflexivity|].
    intros m. rewrite T. exact (change_there x n _ b b1 m D Fh C).
  - rewrite (Z h (or_introl eq_refl) S). cbn [negb andb bind]. rewrite S. cbn [bind]. destruct (IH b D Fr Zr) as (b' & E & T). rewrite E. cbn [bind]. exists b'. split; [reflexivity|exact T].
Qed.

(** The second pass over the sizes makes no style, gives no header another style and changes no attribute. *)
Theorem C83_sizes : forall x hs b b1 hs1, no_doubles x b -> all_there x hs b -> numbers_fine hs -> sync_headers x hs b = Ok (b1, hs1) ->
  exists b2, sync_headers x hs1 b1 = Ok (b2, hs1) /\ same_table x b1 b2.
Proof.
  intros x hs b b1 hs1 D K F H. destruct (sync_spec x hs b b1 hs1 D K F H) as (D1 & G & R).
  assert (F1 : numbers_fine hs1). { intros h' v u I E. destruct (both_in _ _ _ h' G I) as (h & J & G1 & _). apply (F h v u J). congruence. }
  assert (Z1 : forall h, In h hs1 -> hd_style h = None -> is_default (hd_size h) = true).
  { intros h' I E. destruct (both_in _ _ _ h' G I) as (h & J & G1 & G2). rewrite G1. destruct (hd_style h) as [n|]; [congruence|]. destruct (is_default (hd_size h)); [reflexivity|].
    destruct G2 as (n & a & G2 & _). congruence. }
  assert (K1 : all_there x hs1 b1).
  { intros h' n I E. destruct (both_in _ _ _ h' G I) as (h & J & G1 & G2). destruct (hd_style h) as [m|] eqn:S.
    - assert (m = n) as -> by congruence. destruct (attrs_of x b n) as [a|] eqn:A; [|exfalso; exact (K h n J S A)]. destruct (R n a A) as (a' & -> & _). discriminate.
    - destruct (is_default (hd_size h)); [congruence|]. destruct G2 as (m & a & G2 & _ & A & _). assert (m = n) as -> by congruence. congruence. }
  destruct (sync_settled x hs1 b1 D1 F1 Z1) as (b2 & E & T). exists b2. split; [exact E|]. intros n. split; [split; intros A; apply T; exact A|]. intros k.
  rewrite (sync_held x hs1 b1 b2 hs1 D1 K1 F1 E n k), (sync_held x hs b b1 hs1 D K F H n k), steps_twice. reflexivity.
Qed.

(** ** Columns *)

(** The headers that were cut at groups and header columns are cut at the same places again. *)
Theorem C83_cols : forall gs hc m r, disjoint m -> wide m -> calc_col_headers gs hc m = Ok r ->
  calc_col_headers gs hc r = Ok r /\ disjoint r /\ wide r.
Proof.
  intros gs hc m r D W H. split; [|exact (saved_tiles gs hc m r D W H)]. transitivity (calc_col_headers gs hc m); [|exact H]. unfold calc_col_headers. rewrite (saved_dedup gs hc m r D W H). reflexivity.
Qed.
(** Groups and header columns that are changed after a save: the cuts of the save leave no trace. *)
Theorem C83_regroup : forall gs hc gs' hc' m r, disjoint m -> wide m -> calc_col_headers gs hc m = Ok r -> calc_col_headers gs' hc' r = calc_col_headers gs' hc' m.
Proof. intros gs hc gs' hc' m r D W H. unfold calc_col_headers. rewrite (saved_dedup gs hc m r D W H). reflexivity. Qed.

(** ** Metadata *)

Theorem C83_metadata : forall v cells m m1, calc_metadata v cells m = Ok m1 -> calc_metadata v cells m1 = Ok m1.
Proof.
  intros v cells m m1 H. unfold calc_metadata in *. apply bind_ok in H as (n & E & H). apply ok_inj in H. subst m1. rewrite E. reflexivity.
Qed.

(** ** Examples *)

Definition named_col (s : string) : colattr := mkColAttr (Some (lit s)) None Visible None.
(** Three headers, of which the first two are alike; a group over columns 1 to 4 and two header columns. *)
Definition again_cols : hmap colattr := [(0, mkHdr (named_col "a") 2); (2, mkHdr (named_col "a") 4); (6, mkHdr (named_col "b") 3)].
Example C83_cols_ex : disjoint again_cols /\ wide again_cols /\
  calc_col_headers [mkGrp 1 4 true] (Some (0, 1)) again_cols
  = Ok [(0, mkHdr (named_col "a") 1); (1, mkHdr (named_col "a") 1); (2, mkHdr (named_col "a") 3); (5, mkHdr (named_col "a") 1); (6, mkHdr (named_col "b") 3)] /\
  (let* r := calc_col_headers [mkGrp 1 4 true] (Some (0, 1)) again_cols in calc_col_headers [] None r) = Ok [(0, mkHdr (named_col "a") 6); (6, mkHdr (named_col "b") 3)].
Proof.
  assert (T : tiles 0 again_cols) by (vm_compute; repeat split; discriminate). destruct (tiles_disjoint 0 _ T) as (D & W).
  split; [exact D|]. split; [exact W|]. split; vm_compute; reflexivity.
Qed.
Definition again_heads : list header := [Header None (cm "5"); Header None LDefault; Header (Some (lit "x")) (cm "2.5"); Header (Some (lit "x")) LDefault; Header (Some (lit "x")) (cm "3")].
Definition again_book : book attrs := styles_of FCol [(lit "x", [(lit "fo:break-before", lit "page"); (lit "style:column-width", lit "1cm")])].
Definition look (b : book attrs) (n : str) : option str * option str * option str :=
  (held Cols b n (lit "style:column-width"), held Cols b n (lit "style:use-optimal-column-width"), held Cols b n (lit "fo:break-before")).
Example C83_sizes_ex : no_doubles Cols again_book /\ all_there Cols again_heads again_book /\ numbers_fine again_heads /\
  (let* (b1, hs1) := sync_headers Cols again_heads again_book in let* (b2, hs2) := sync_headers Cols hs1 b1 in
   Ok (look b1 (lit "x"), look b1 (lit "co0"), hs1, look b2 (lit "x"), look b2 (lit "co0"), look b2 (lit "co1"), hs2))
  = (let l1 := (Some (lit "3cm"), Some (lit "true"), Some (lit "page")) in let l2 := (Some (lit "5cm"), None, None) in
     let hs := Header (Some (lit "co0")) (cm "5") :: tl again_heads in Ok (l1, l2, hs, l1, l2, (None, None, None), hs)).
Proof.
  split; [|split; [|split; [|vm_compute; reflexivity]]].
  - intros n a A. unfold attrs_of, again_book, styles_of in A. cbn [bk_styles family_eqb map fst snd am_get] in A. change (family_eqb FCol FCol) with true in A. cbn [map fst snd am_get] in A. destruct (str_eqb (lit "x") n); [|discriminate A]. injection A as <-. repeat (constructor; [vm_compute; intuition discriminate|]). constructor.
  - intros h n I S. cbn [In again_heads] in I. repeat (destruct I as [<-|I]); try contradiction; try discriminate S; injection S as <-; vm_compute; discriminate.
  - intros h v u I E. cbn [In again_heads] in I. repeat (destruct I as [<-|I]); try contradiction; try discriminate E; injection E as <- <-; vm_compute; reflexivity.
Qed.
(** The style a header names is not there: the style made for another header can get that name, and then the second pass changes it. *)
Theorem C83_dangling_refuted : exists hs b, no_doubles Cols b /\ numbers_fine hs /\
  (let* (b1, hs1) := sync_headers Cols hs b in let* (b2, hs2) := sync_headers Cols hs1 b1 in
   Ok (held Cols b1 (lit "co0") (optimal_attr Cols), held Cols b2 (lit "co0") (optimal_attr Cols))) = Ok (None, Some (lit "true")).
Proof.
  exists [Header (Some (lit "co0")) LDefault; Header None (cm "5")], (styles_of FCol []). split; [intros n a A; discriminate A|]. split; [|vm_compute; reflexivity].
  intros h v u I E. cbn [In] in I. repeat (destruct I as [<-|I]); try contradiction; try discriminate E; injection E as <- <-; vm_compute; reflexivity.
Qed.
(** Headers that are alike but apart are moved together by the first save (C20_gap_refuted); the second save changes nothing more. *)
Theorem C83_first_refuted : exists m r, disjoint m /\ wide m /\ calc_col_headers [] None m = Ok r /\ r <> m /\ colstyle 5 m <> colstyle 5 r /\ calc_col_headers [] None r = Ok r.
Proof.
  exists [(0, mkHdr (named_col "c") 1); (5, mkHdr (named_col "c") 1)], [(0, mkHdr (named_col "c") 2)].
  assert (T : tiles 0 [(0, mkHdr (named_col "c") 1); (5, mkHdr (named_col "c") 1)]) by (vm_compute; repeat split; discriminate). destruct (tiles_disjoint 0 _ T) as (D & W).
  split; [exact D|]. split; [exact W|]. split; [vm_compute; reflexivity|]. split; [discriminate|]. split; [vm_compute; discriminate|vm_compute; reflexivity].
Qed.
Example C83_metadata_ex : (let* m := calc_metadata (lit "1.0") [3; 4] meta0 in let* m' := calc_metadata (lit "1.0") [3; 4] m in Ok (ms_cells (m_stats m), ms_cells (m_stats m'), m_generator m')) = Ok (7, 7, lit "spreadsheet-ods 1.0").
Proof. vm_compute. reflexivity. Qed.

Print Assumptions C83_sizes.
Print Assumptions C83_cols.
Print Assumptions C83_regroup.
Print Assumptions C83_metadata.
Print Assumptions C83_dangling_refuted.
Print Assumptions C83_first_refuted.

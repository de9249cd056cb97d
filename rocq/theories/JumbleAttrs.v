(** Lemmas about loops over attributes: their order does not matter. *)
From Coq Require Import Permutation.
From Verif Require Import Base Lib NumModel RefsModel EnumModel XmlModel CellModel CellIoModel DrawModel HeaderModel TableModel BookModel ScriptModel ValidModel StyleModel MetaModel ConfigModel WorkModel
  PanicSpec PanicProofs PanicParts ConfigShape IndentSpec ForeignSpec JumbleSpec.

Fixpoint folda {A} (F : A -> str * str -> res A) (s : A) (l : list (str * str)) : res A :=
  match l with [] => Ok s | kv :: r => let* s' := F s kv in folda F s' r end.
Definition ignores {A} (ks : list str) (F : A -> str * str -> res A) : Prop := forall s kv, existsb (str_eqb (fst kv)) ks = false -> F s kv = Ok s.
Definition swaps {A} (F : A -> str * str -> res A) : Prop :=
  forall s x y, attr_calm x -> attr_calm y -> fst x <> fst y -> (let* s' := F s x in F s' y) = (let* s' := F s y in F s' x).
Lemma folda_kept {A} ks (F : A -> str * str -> res A) : ignores ks F -> forall l s, folda F s l = folda F s (kept ks l).
Proof.
  intros G. induction l as [|kv l IH]; intros s; [reflexivity|]. cbn [kept filter folda]. destruct (existsb (str_eqb (fst kv)) ks) eqn:E.
  - cbn [folda]. destruct (F s kv); cbn [bind]; [apply IH|reflexivity|reflexivity].
  - rewrite (G _ _ E). cbn [bind]. apply IH.
Qed.
Lemma folda_perm {A} (F : A -> str * str -> res A) : swaps F -> forall l l', Permutation l l' -> NoDup (map fst l) -> Forall attr_calm l -> forall s, folda F s l = folda F s l'.
Proof.
  intros W l l' P. induction P; intros D C s.
  - reflexivity.
  - cbn [map] in D. inversion D; subst. inversion C; subst. cbn [folda]. destruct (F s x); cbn [bind]; auto.
  - cbn [map] in D. inversion D as [|? ? D1 D2]; subst. inversion C as [|? ? C1 C2]; subst. inversion C2 as [|? ? C3 C4]; subst. cbn [folda].
    assert (N : fst y <> fst x) by (intros E; apply D1; rewrite E; now left). pose proof (W s y x C1 C3 N) as E.
    destruct (F s y) as [s1| |], (F s x) as [s2| |]; cbn [bind] in *; try reflexivity; try discriminate; [rewrite E; reflexivity|now rewrite E..|now rewrite <- E|now rewrite <- E].
  - rewrite IHP1 by assumption. apply IHP2; [|now apply (Permutation_Forall P1)]. apply (Permutation_NoDup (Permutation_map fst P1)), D.
Qed.
Definition steady {A} (ks : list str) (F : A -> str * str -> res A) : Prop := ignores ks F /\ swaps F.
Definition keys_alike (ks : list str) (a a' : list (str * str)) : Prop := Permutation (kept ks a) (kept ks a') /\ NoDup (map fst (kept ks a)) /\ Forall attr_calm (kept ks a).
Lemma folda_alike {A} ks (F : A -> str * str -> res A) a a' : steady ks F -> keys_alike ks a a' -> forall s, folda F s a = folda F s a'.
Proof. intros (G & W) (P & D & C) s. rewrite (folda_kept ks F G a), (folda_kept ks F G a'). now apply folda_perm. Qed.

(** The known keys. *)
Lemma not_key k t ks : existsb (str_eqb k) ks = false -> existsb (str_eqb t) ks = true -> str_eqb k t = false.
Proof. intros A B. destruct (str_eqb k t) eqn:E; [|reflexivity]. apply str_eqb_eq in E. subst. congruence. Qed.
Ltac ignoring := let s := fresh "s" in let k := fresh "k" in let v := fresh "v" in let E := fresh "E" in intros s (k & v) E; cbn [fst snd] in *;
  repeat match goal with |- context [str_eqb k ?t] => rewrite (not_key k t _ E ltac:(vm_compute; reflexivity)) end; try reflexivity; try (destruct s; reflexivity).
Lemma type_np v : read_type v <> Panic. Proof. unfold read_type. destruct (find_key _ v); discriminate. Qed.
Lemma visibility_np v : parse_visibility v <> Panic. Proof. apply arms_np. Qed.
Ltac is_np := match goal with
  | H : parse_bool _ = Panic |- _ => exact (bool_np _ H)
  | H : parse_f64 _ = Panic |- _ => exact (f64_np _ H)
  | H : parse_u32 _ = Panic |- _ => exact (u32_np _ H)
  | H : parse_datetime _ = Panic |- _ => exact (datetime_np _ H)
  | H : arms _ _ = Panic |- _ => exact (arms_np _ _ H)
  | H : read_type _ = Panic |- _ => exact (type_np _ H)
  | H : parse_visibility _ = Panic |- _ => exact (visibility_np _ H)
  | H : parse_xactuate _ = Panic |- _ => exact (arms_np _ _ H)
  | H : parse_xtype _ = Panic |- _ => exact (arms_np _ _ H)
  | H : parse_xshow _ = Panic |- _ => exact (arms_np _ _ H)
  | H : parse_vdisplay _ = Panic |- _ => exact (arms_np _ _ H)
  | H : parse_duration (raw ?v) = Panic, C : attr_calm (?k, ?v), E : ?k = _ |- _ => exact (duration_raw_np v (proj2 (proj2 C) ltac:(cbn [fst]; tauto)) H)
  | H : parse_duration ?v = Panic, C : attr_calm (?k, ?v), E : ?k = _ |- _ => exact (duration_np v (proj2 (proj2 C) ltac:(cbn [fst]; tauto)) H)
  | H : parse_cellref ?v = Panic, C : attr_calm (?k, ?v), E : ?k = _ |- _ => exact (cellref_np v (proj1 (proj2 C) ltac:(cbn [fst]; tauto)) H)
  | H : parse_cellranges ?v = Panic, C : attr_calm (?k, ?v), E : ?k = _ |- _ => exact (cellranges_np v (proj1 (proj2 C) ltac:(cbn [fst]; tauto)) H)
  | H : split_bytes 3 ?v = Panic, C : attr_calm (?k, ?v), E : ?k = _ |- _ => exact (split_np v 3 (proj1 C ltac:(cbn [fst]; tauto)) H)
  end.
(** All cases of two attributes. *)
Ltac one_key k := repeat match goal with |- context [str_eqb k ?t] => destruct (str_eqb k t) eqn:?; cbv iota beta end.
Ltac eqs := repeat match goal with H : str_eqb _ _ = true |- _ => apply str_eqb_eq in H | H : str_eqb _ _ = false |- _ => clear H end.
Ltac outcomes := repeat (cbn [bind]; try reflexivity; match goal with |- context [bind ?x _] => lazymatch x with bind _ _ => fail | Ok _ => fail | _ => destruct x eqn:? end end; try (exfalso; is_np)); cbn [bind]; try reflexivity.
Ltac swapping := let s := fresh "s" in let k := fresh "k" in let v := fresh "v" in let k' := fresh "k'" in let v' := fresh "v'" in let C := fresh "C" in let C' := fresh "C'" in let N := fresh "N" in
  intros s (k & v) (k' & v') C C' N; cbn [fst snd] in *; destruct s; one_key k; one_key k'; eqs; try (exfalso; apply N; congruence); outcomes.

Definition keys_of (n : str) : list str := match looked_at n with Some ks => ks | None => [] end.
Lemma table_steady : steady (keys_of t_table) table_attr.
Proof. split; [unfold table_attr; ignoring|unfold table_attr; swapping]. Qed.
Lemma row_steady : steady (keys_of t_row) row_attr.
Proof. split; [unfold row_attr; ignoring|unfold row_attr; swapping]; destruct o as [[]|]; reflexivity. Qed.
Lemma col_steady : steady (keys_of t_column) col_attr.
Proof. split; [unfold col_attr; ignoring|unfold col_attr; swapping]; destruct o as [[]|]; reflexivity. Qed.
Lemma group_steady : steady [a_disp] group_attr.
Proof. split; [unfold group_attr; ignoring|unfold group_attr; swapping]. Qed.
Definition flip_attr {A} (f : str * str -> A -> res A) (s : A) (kv : str * str) : res A := f kv s.
Lemma meta_fold {A} (f : str * str -> A -> res A) l : forall s, MetaModel.fold_attrs f l s = folda (flip_attr f) s l.
Proof. induction l as [|kv l IH]; intros s; [reflexivity|]. cbn [MetaModel.fold_attrs folda]. unfold flip_attr at 1. destruct (f kv s); cbn [bind]; auto. Qed.
Lemma table_fold {A} (f : A -> str * str -> res A) l : forall s, TableModel.fold_attrs f s l = folda f s l.
Proof. induction l as [|kv l IH]; intros s; [reflexivity|]. cbn [TableModel.fold_attrs folda]. destruct (f s kv); cbn [bind]; auto. Qed.
Lemma template_steady : steady (keys_of t_template) (flip_attr template_attr).
Proof. split; [unfold flip_attr, template_attr; ignoring|unfold flip_attr, template_attr; swapping]. Qed.
Lemma reload_steady : steady (keys_of (lit "meta:auto-reload")) (flip_attr reload_attr).
Proof. split; [unfold flip_attr, reload_attr; ignoring|unfold flip_attr, reload_attr; swapping]. Qed.
Lemma links_steady : steady (keys_of t_links) (flip_attr links_attr).
Proof. split; [unfold flip_attr, links_attr; ignoring|unfold flip_attr, links_attr; swapping]. Qed.
Lemma stats_steady : steady (keys_of t_stats) (flip_attr stats_attr).
Proof. split; [unfold flip_attr, stats_attr; ignoring|unfold flip_attr, stats_attr; swapping]. Qed.
Lemma user_steady : steady (keys_of MetaModel.t_user) (flip_attr user_attr).
Proof. split; [unfold flip_attr, user_attr; ignoring|unfold flip_attr, user_attr; swapping]. Qed.
Lemma listener_steady : steady (keys_of t_listener) (flip_attr listener_attr).
Proof. split; [unfold flip_attr, listener_attr; ignoring|unfold flip_attr, listener_attr; swapping]. Qed.
Lemma valid_steady : steady (keys_of t_valid) valid_attr.
Proof. split; [unfold valid_attr; ignoring; destruct s as [? []]; reflexivity|unfold valid_attr; intros [nm []]; revert nm; swapping]. Qed.
Lemma smap_steady : steady (keys_of t_map) smap_attr.
Proof. split; [unfold smap_attr; ignoring|unfold smap_attr; swapping]. Qed.
Definition sure {A} (f : A -> str * str -> A) (s : A) (kv : str * str) : res A := Ok (f s kv).
Lemma sure_fold {A} (f : A -> str * str -> A) l : forall s, folda (sure f) s l = Ok (fold_left f l s).
Proof. induction l as [|kv l IH]; intros s; [reflexivity|]. cbn [folda fold_left]. unfold sure at 1. cbn [bind]. apply IH. Qed.
Lemma sure_alike {A} ks (f : A -> str * str -> A) a a' s : steady ks (sure f) -> keys_alike ks a a' -> fold_left f a s = fold_left f a' s.
Proof. intros S K. pose proof (folda_alike _ _ _ _ S K s) as E. rewrite !sure_fold in E. now injection E. Qed.
Lemma page_steady : steady (keys_of t_page) (sure page_attr).
Proof. split; [unfold sure, page_attr; ignoring|unfold sure, page_attr; swapping]. Qed.
Lemma vmap_steady : steady (keys_of t_map) (sure vmap_attr).
Proof. split; [unfold sure, vmap_attr; ignoring|unfold sure, vmap_attr; swapping]. Qed.
Lemma master_steady : steady (keys_of t_master) (sure master_attr).
Proof. split; [unfold sure, master_attr; ignoring; destruct s as (? & []); reflexivity|unfold sure, master_attr; swapping; destruct m; reflexivity]. Qed.
Definition hf_attr (h : hfoot) (kv : str * str) : res hfoot :=
  if str_eqb (fst kv) (lit "style:display") then let* d := parse_bool (raw (snd kv)) in Ok (HF d (hf_left h) (hf_center h) (hf_right h) (hf_content h)) else Ok h.
Lemma hf_fold a : forall h, hf_attrs h a = folda hf_attr h a.
Proof.
  induction a as [|(k & v) a IH]; intros h; [reflexivity|]. cbn [hf_attrs folda]. unfold hf_attr at 1. cbn [fst snd]. destruct (str_eqb k _); cbn [bind]; [|apply IH].
  destruct (parse_bool (raw v)); cbn [bind]; auto.
Qed.
Lemma hf_steady : steady [lit "style:display"] hf_attr.
Proof. split; [unfold hf_attr; ignoring|unfold hf_attr; swapping]. Qed.
Lemma smap_fold a : forall s, read_smap s a = folda smap_attr s a.
Proof. induction a as [|kv a IH]; intros h; [reflexivity|]. cbn [read_smap folda]. destruct (smap_attr h kv); cbn [bind]; auto. Qed.
Lemma valid_fold a : forall s, valid_attrs s a = folda valid_attr s a.
Proof. induction a as [|kv a IH]; intros h; [reflexivity|]. cbn [valid_attrs folda]. destruct (valid_attr h kv); cbn [bind]; auto. Qed.
Lemma listener_fold a : forall s, listener_attrs a s = folda (flip_attr listener_attr) s a.
Proof. induction a as [|kv a IH]; intros h; [reflexivity|]. cbn [listener_attrs folda]. unfold flip_attr at 1. destruct (listener_attr kv h); cbn [bind]; auto. Qed.
Lemma cell_fold a : forall s, cell_read_attrs s a = folda cell_attr s a.
Proof. induction a as [|kv a IH]; intros h; [reflexivity|]. cbn [cell_read_attrs folda]. destruct (cell_attr h kv); cbn [bind]; auto. Qed.

(** Cells. *)
Lemma find_key_in {A} (l : list (str * A)) k x : find_key l k = Some x -> In (k, x) l.
Proof. induction l as [|(n & y) l IH]; cbn [find_key]; [discriminate|]. destruct (str_eqb k n) eqn:E; intros H; [|right; auto]. apply str_eqb_eq in E. subst. injection H as ->. now left. Qed.
Definition ckey_name (c : ckey) : str := match find (fun p => match snd p, c with
  | KRepeat, KRepeat | KRows, KRows | KCols, KCols | KMRows, KMRows | KMCols, KMCols | KValidation, KValidation | KType, KType | KDate, KDate | KTime, KTime | KValue, KValue
  | KBool, KBool | KString, KString | KCurrency, KCurrency | KFormula, KFormula | KStyle, KStyle => true | _, _ => false end) ckeys with Some p => fst p | None => [] end.
Lemma ckey_named k c : find_key ckeys k = Some c -> k = ckey_name c.
Proof. intros H. apply find_key_in in H. cbn in H. repeat destruct H as [H|H]; try contradiction; injection H as <- <-; reflexivity. Qed.
Lemma cell_steady : steady (keys_of t_cell) cell_attr.
Proof.
  split.
  - intros s (k & v) E. unfold cell_attr. cbn [fst snd] in *. unfold ckeys. cbn [find_key]. repeat match goal with |- context [str_eqb k ?t] => rewrite (not_key k t _ E ltac:(vm_compute; reflexivity)) end. reflexivity.
  - intros s (k & v) (k' & v') C C' N. unfold cell_attr, span_attr. cbn [fst snd] in *. destruct (find_key ckeys k) as [c|] eqn:E; [apply ckey_named in E|cbn [bind]; destruct (find_key ckeys k'); [|reflexivity]; outcomes].
    + destruct (find_key ckeys k') as [c'|] eqn:E'; [apply ckey_named in E'|destruct c; outcomes].
      assert (D : c <> c') by congruence. destruct s as [[[va fo st rp [[]|]]|] ? ? ? ? ? ? ? ? ?], c, c'; try contradiction; clear D; cbn [ckey_name find ckeys snd fst] in E, E'; outcomes;
        repeat match goal with |- context [1 <? ?n] => destruct (1 <? n) end; reflexivity.
Qed.

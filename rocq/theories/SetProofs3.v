(** Lemmas for SetProps on the exact texts. *)
From Verif Require Import Base NumModel RefsModel EnumModel BookModel StyleModel FmtModel SetModel FmtSpec SetSpec SetText Lib FmtProofs SetProofs.
From Coq Require Import Lia.

Lemma length_same l : show_length l = length_text l.
Proof. destruct l as [|v u]; [reflexivity|]. destruct u; reflexivity. Qed.
Lemma digit_same n : n < 16 -> hexdigit n = nth (N.to_nat n) (lit "0123456789abcdef") 0.
Proof. intros H. assert (N.to_nat n < 16)%nat as L by lia. rewrite <- (N2Nat.id n) at 1. revert L. generalize (N.to_nat n). intros m L.
  do 16 (destruct m as [|m]; [reflexivity|]). lia. Qed.
Lemma hex_same n : n < 256 -> hex2 n = hex_text n.
Proof.
  intros H. assert (n / 16 < 16) as A by (apply N.div_lt_upper_bound; lia). assert (n mod 16 < 16) as B by (apply N.mod_lt; lia).
  unfold hex2, hex_text. rewrite (digit_same _ A), (digit_same _ B). reflexivity.
Qed.
Lemma color_same c : byte_color c -> color_string c = color_text c.
Proof. intros (R & G & B). unfold color_string, color_text. rewrite !hex_same by assumption. reflexivity. Qed.

Lemma border_same w b c : byte_color c -> border_string w b c = blank_between [length_text w; text_Border b; color_text c].
Proof. intros C. unfold border_string. rewrite length_same, color_same by exact C. destruct b; reflexivity. Qed.
Lemma widths_same x y z : border_line_width_string x y z = blank_between [length_text x; length_text y; length_text z].
Proof. unfold border_line_width_string. rewrite !length_same. reflexivity. Qed.
Lemma shadow_same x y b c : byte_color c ->
  shadow_string x y b c = blank_between (color_text c :: length_text x :: length_text y :: map length_text (match b with Some b => [b] | None => [] end)).
Proof. intros C. unfold shadow_string. rewrite !length_same, color_same by exact C. destruct b; [rewrite length_same|]; reflexivity. Qed.
Lemma position_same p s : text_position p s = blank_between (text_TextPosition p :: map text_Percent (match s with Some y => [y] | None => [] end)).
Proof. destruct p as [| |[v]], s as [[w]|]; reflexivity. Qed.

(** The setters that write one attribute with one text. *)
Lemma put_text s k v t a a' : keys s = [k] -> put k v a = Ok a' -> v = t -> exists k, In k (keys s) /\ value_of k a' = Some t /\ forall k', k' <> k -> value_of k' a' = value_of k' a.
Proof.
  intros K H <-. apply ok_inj in H. subst a'. exists k. rewrite K. split; [left; reflexivity|]. rewrite value_put, str_eqb_refl. split; [reflexivity|].
  intros k' D. apply put_frame. exact D.
Qed.
Ltac words := first [reflexivity | match goal with |- ?f ?x = ?g ?x => destruct x; first [reflexivity | apply length_same] end | apply length_same].
Lemma text_set s t a a' : argument_text s = Some t -> Forall byte_color (colors s) -> misspelt s = false ->
  run s a = Ok a' -> exists k, In k (keys s) /\ value_of k a' = Some t /\ forall k', k' <> k -> value_of k' a' = value_of k' a.
Proof.
  intros T C X E. destruct s; cbn [argument_text] in T; try discriminate T; cbn [run] in E;
  try match type of E with (if ?b then _ else _) = _ => destruct b; [|discriminate E] end;
  try (assert (T' := f_equal (fun o => match o with Some x => x | None => [] end) T); cbn beta iota in T'; subst t; eapply put_text; [reflexivity|exact E|words]).
  all: try (assert (T' := f_equal (fun o => match o with Some x => x | None => [] end) T); cbn beta iota in T'; subst t;
    eapply put_text; [reflexivity|exact E|]; cbn [colors] in C; try apply Forall_inv in C;
    first [exact (border_same _ _ _ C) | apply widths_same | exact (shadow_same _ _ _ _ C) | apply position_same | exact (color_same _ C)
          | match goal with |- _ ?x = _ => destruct x; reflexivity end]).
  - destruct width; [discriminate T|]. apply (f_equal (fun o => match o with Some x => x | None => [] end)) in T. cbn beta iota in T. subst t.
    eapply put_text; [reflexivity|exact E|apply length_same].
  - apply (f_equal (fun o => match o with Some x => x | None => [] end)) in T. cbn beta iota in T. subst t.
    destruct hyphenation; [discriminate X|]; (eapply put_text; [reflexivity|exact E|reflexivity]).
  - discriminate X.
Qed.

Lemma locale_set kl kc ks l a : NoDup (map fst a) -> NoDup [kl; kc; ks] ->
  value_of kl (put_locale kl kc ks l a) = (if locale_eqb l unknown then None else Some (lo_lang l)) /\
  value_of kc (put_locale kl kc ks l a) = (if locale_eqb l unknown then None else lo_region l) /\
  value_of ks (put_locale kl kc ks l a) = (if locale_eqb l unknown then None else lo_script l).
Proof.
  intros N D. inversion D as [|x y D1 D2]; subst. inversion D2 as [|x y D3 D4]; subst. clear D2 D4. cbn [In] in D1, D3.
  assert (str_eqb kl kc = false) as E1 by (apply str_eqb_neq; intros ->; apply D1; auto).
  assert (str_eqb kl ks = false) as E2 by (apply str_eqb_neq; intros ->; apply D1; auto).
  assert (str_eqb kc ks = false) as E3 by (apply str_eqb_neq; intros ->; apply D3; auto).
  assert (str_eqb kc kl = false) as E1' by (apply str_eqb_neq; intros ->; apply D1; auto).
  assert (str_eqb ks kl = false) as E2' by (apply str_eqb_neq; intros ->; apply D1; auto).
  assert (str_eqb ks kc = false) as E3' by (apply str_eqb_neq; intros ->; apply D3; auto).
  unfold put_locale. destruct (locale_eqb l unknown); cbn [negb].
  - assert (NoDup (map fst (del_attr kl a))) as N1 by (apply del_keys; exact N). assert (NoDup (map fst (del_attr kc (del_attr kl a)))) as N2 by (apply del_keys; exact N1).
    split; [|split].
    + rewrite !value_del_other by assumption. rewrite value_del by exact N. rewrite str_eqb_refl. reflexivity.
    + rewrite value_del_other by assumption. rewrite value_del by exact N1. rewrite str_eqb_refl. reflexivity.
    + rewrite value_del by exact N2. rewrite str_eqb_refl. reflexivity.
  - set (b := put_attr kl (lo_lang l) a). assert (NoDup (map fst b)) as Nb by (apply put_keys; exact N).
    set (c := match lo_region l with Some r => put_attr kc r b | None => del_attr kc b end).
    assert (NoDup (map fst c)) as Nc by (unfold c; destruct (lo_region l); [apply put_keys|apply del_keys]; exact Nb).
    assert (forall k, str_eqb ks k = false -> value_of k (match lo_script l with Some s => put_attr ks s c | None => del_attr ks c end) = value_of k c) as F3.
    { intros k H. destruct (lo_script l); [rewrite value_put, H; reflexivity|apply value_del_other; exact H]. }
    assert (forall k, str_eqb kc k = false -> value_of k c = value_of k b) as F2.
    { intros k H. unfold c. destruct (lo_region l); [rewrite value_put, H; reflexivity|apply value_del_other; exact H]. }
    split; [|split].
    + rewrite F3, F2 by assumption. unfold b. rewrite value_put, str_eqb_refl. reflexivity.
    + rewrite F3 by assumption. unfold c. destruct (lo_region l).
      * rewrite value_put, str_eqb_refl. reflexivity.
      * rewrite value_del by exact Nb. rewrite str_eqb_refl. reflexivity.
    + destruct (lo_script l).
      * rewrite value_put, str_eqb_refl. reflexivity.
      * rewrite value_del by exact Nc. rewrite str_eqb_refl. reflexivity.
Qed.
Lemma font_set k1 k2 k3 z b i a a' : NoDup [k1; k2; k3] -> font_attr k1 k2 k3 z b i a = Ok a' ->
  value_of k1 a' = Some (text_FontSize z) /\ value_of k2 a' = (if b then Some (lit "bold") else value_of k2 a) /\
  value_of k3 a' = (if i then Some (lit "italic") else value_of k3 a).
Proof.
  intros D. inversion D as [|x y D1 D2]; subst. inversion D2 as [|x y D3 D4]; subst. clear D2 D4. cbn [In] in D1, D3.
  assert (str_eqb k1 k2 = false) as E1 by (apply str_eqb_neq; intros ->; apply D1; auto).
  assert (str_eqb k1 k3 = false) as E2 by (apply str_eqb_neq; intros ->; apply D1; auto).
  assert (str_eqb k2 k3 = false) as E3 by (apply str_eqb_neq; intros ->; apply D3; auto).
  assert (str_eqb k2 k1 = false) as E1' by (apply str_eqb_neq; intros ->; apply D1; auto).
  assert (str_eqb k3 k1 = false) as E2' by (apply str_eqb_neq; intros ->; apply D1; auto).
  assert (str_eqb k3 k2 = false) as E3' by (apply str_eqb_neq; intros ->; apply D3; auto).
  assert (show_FontSize z = text_FontSize z) as Z by (destruct z as [l|[v]]; [apply length_same|reflexivity]).
  unfold font_attr, put. destruct (pos_FontSize z); [|intros H; discriminate H]. cbn [bind].
  destruct b, i; cbn [bind]; intros H; apply ok_inj in H; subst a'; rewrite !value_put, ?str_eqb_refl, ?E1, ?E2, ?E3, ?E1', ?E2', ?E3', Z;
    repeat split; reflexivity.
Qed.
Lemma pos_negative l : pos_length l = false -> negative l.
Proof.
  destruct l as [|v u]; [discriminate|]. cbn [pos_length negative]. unfold pos_float. destruct v as [|c r]; [discriminate|].
  destruct (c =? 45) eqn:E.
  - intros H. right. exists r. apply N.eqb_eq in E. subst c. split; [reflexivity|].
    induction r as [|d r IH]; [discriminate H|]. cbn [forallb] in H. destruct ((d =? 48) || (d =? 46))%bool eqn:F.
    + destruct (IH H) as (x & I & D). exists x. split; [right; exact I|exact D].
    + exists d. split; [left; reflexivity|]. lia.
  - intros H. left. apply negb_false_iff, str_eqb_eq in H. exact H.
Qed.
Lemma negative_pos l : negative l -> pos_length l = false.
Proof.
  destruct l as [|v u]; [intros []|]. cbn [pos_length negative]. intros [->|(r & -> & d & I & D & D')]; [reflexivity|].
  cbn [pos_float N.eqb]. cbn. apply not_true_iff_false. intros F. rewrite forallb_forall in F. specialize (F d I). lia.
Qed.
(** A setter does not run through only with a length less than zero. *)
Lemma run_panics s a : run s a = Panic -> (exists l, In l (lengths s) /\ negative l) \/ exists r, s = table_set_table_end_cell_address r /\ fmt_cell_ref r = Panic.
Proof.
  intros E. destruct s; cbn [run] in E; try (unfold put in E; discriminate E).
  all: try (match type of E with context [if ?p then put _ _ _ else Panic] => destruct p eqn:P end;
    [exfalso; unfold put in E; cbn [bind] in E; first [discriminate E | destruct bold, italic; discriminate E]|left; clear E];
    first [ match type of P with pos_length ?l = false => exists l; split; [left; reflexivity|apply pos_negative; exact P] end
          | match type of P with pos_FontSize ?x = false => destruct x as [l|q]; [|discriminate P]; exists l; split; [left; reflexivity|apply pos_negative; exact P] end
          | match type of P with pos_LineHeight ?x = false => destruct x as [|l|q]; try discriminate P; exists l; split; [left; reflexivity|apply pos_negative; exact P] end
          | match type of P with pos_Margin ?x = false => destruct x as [l|q]; [|discriminate P]; exists l; split; [left; reflexivity|apply pos_negative; exact P] end ]).
  - destruct width; [|unfold put in E]; discriminate E.
  - right. exists cellref. split; [reflexivity|]. destruct (fmt_cell_ref cellref); cbn [bind] in E; first [discriminate E | reflexivity].
Qed.
Lemma run_errs s a : run s a = Err -> exists r, s = table_set_table_end_cell_address r /\ fmt_cell_ref r = Err.
Proof.
  intros E. destruct s; cbn [run] in E; try (unfold put in E; discriminate E).
  all: try (exfalso; unfold put in E; repeat match type of E with context [if ?b then _ else _] => destruct b; cbn [bind] in E end; discriminate E).
  - exists cellref. split; [reflexivity|]. destruct (fmt_cell_ref cellref); cbn [bind] in E; first [discriminate E | reflexivity].
Qed.

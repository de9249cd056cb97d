(** Proofs about references. *)
From Verif Require Import Base RefsModel FormulaModel RefsSpec.

Ltac Zify.zify_post_hook ::= Z.div_mod_to_equations.

Ltac nf_app := repeat (progress (rewrite <- ?app_assoc; cbn [app])).

(** ** generic *)

Lemma bind_ok {A B} (x : res A) (f : A -> res B) b :
  bind x f = Ok b -> exists a, x = Ok a /\ f a = Ok b.
Proof. destruct x; cbn; try discriminate; eauto. Qed.

Lemma span_app p a b :
  Forall (fun c => p c = true) a ->
  match b with [] => True | c :: _ => p c = false end ->
  span p (a ++ b) = (a, b).
Proof.
  induction 1 as [|c a Hc Ha IH]; cbn; intros Hb.
  - destruct b as [|c b]; [reflexivity|]. cbn. rewrite Hb. reflexivity.
  - rewrite Hc, IH; auto.
Qed.

Lemma span_spec p s a b :
  span p s = (a, b) ->
  s = a ++ b /\ Forall (fun c => p c = true) a /\ match b with [] => True | c :: _ => p c = false end.
Proof.
  revert a b. induction s as [|c s IH]; cbn; intros a b H.
  - inversion H; subst. repeat split; auto.
  - destruct (p c) eqn:Hc.
    + destruct (span p s) as [a' b'] eqn:E. inversion H; subst.
      destruct (IH _ _ eq_refl) as (-> & ? & ?). repeat split; auto.
    + inversion H; subst. repeat split; auto.
Qed.

Lemma is_upper_spec c : is_upper c = true <-> 65 <= c <= 90.
Proof. unfold is_upper. lia. Qed.
Lemma is_digit_spec c : is_digit c = true <-> 48 <= c <= 57.
Proof. unfold is_digit. lia. Qed.
Lemma is_alpha_spec c : is_alpha c = true <-> 65 <= c <= 90 \/ 97 <= c <= 122.
Proof. unfold is_alpha, is_upper, is_lower. lia. Qed.
Lemma sheet_name_char_spec c : sheet_name_char c = true <-> plain_char c.
Proof. unfold sheet_name_char, plain_char, is_digit, is_alpha, is_upper, is_lower.
  destruct (c <? 128) eqn:E; lia. Qed.

(** ** column names *)

(** value of a little-endian bijective numeral *)
Fixpoint lval (ds : list N) : N :=
  match ds with [] => 0 | d :: ds' => (d + 1) + 26 * lval ds' end.

Fixpoint cap (room : nat) : N :=
  match room with O => 0 | S k => 26 * cap k + 26 end.

Lemma col_digits_ok room n :
  n <= cap room ->
  exists ds, col_digits room n = Ok ds /\ lval ds = n /\
             Forall (fun d => d < 26) ds /\ (length ds <= room)%nat.
Proof.
  revert n. induction room as [|k IH]; intros n Hn; cbn [col_digits cap] in *.
  - assert (n = 0) as -> by lia. exists []. cbn. auto.
  - destruct (n =? 0) eqn:E.
    + exists []. cbn. repeat split; auto; lia.
    + destruct (n mod 26 =? 0) eqn:Em.
      * destruct (IH (n / 26 - 1)) as (ds & -> & Hv & Hf & Hl); [lia|].
        exists (25 :: ds). cbn [bind lval length]. repeat split; [lia| |lia].
        constructor; [lia|auto].
      * destruct (IH (n / 26)) as (ds & -> & Hv & Hf & Hl); [lia|].
        exists (n mod 26 - 1 :: ds). cbn [bind lval length]. repeat split; [lia| |lia].
        constructor; [lia|auto].
Qed.

Lemma bij26_app a b : bij26 (a ++ [b]) = bij26 a * 26 + (b - 64).
Proof. unfold bij26. rewrite fold_left_app. reflexivity. Qed.

Lemma bij26_rev ds :
  Forall (fun d => d < 26) ds -> bij26 (map (fun d => 65 + d) (rev ds)) = lval ds.
Proof.
  induction 1 as [|d ds Hd _ IH]; [reflexivity|].
  cbn [rev lval]. rewrite map_app. cbn [map]. rewrite bij26_app, IH. lia.
Qed.

Lemma digits_upper ds :
  Forall (fun d => d < 26) ds -> all_upper (map (fun d => 65 + d) (rev ds)).
Proof.
  intros H. apply Forall_rev in H. unfold all_upper. apply Forall_map.
  eapply Forall_impl; [|exact H]. cbv beta. intros; lia.
Qed.

Lemma fmt_col_name_spec col :
  u32 col -> exists s, fmt_col_name col = Ok s /\ column_name col s /\ (1 <= length s <= 7)%nat.
Proof.
  unfold u32, u32_max. intros Hc. unfold fmt_col_name, u32_max.
  destruct (col =? 4294967295) eqn:E.
  - destruct (col_digits_ok 6 (col / 26)) as (ds & -> & Hv & Hf & Hl); [cbn [cap]; lia|].
    cbn [bind]. eexists; split; [reflexivity|].
    assert (Hf' : Forall (fun d => d < 26) (21 :: ds)) by (constructor; [lia|auto]).
    split; [split|].
    + now apply digits_upper.
    + rewrite bij26_rev by auto. cbn [lval]. lia.
    + rewrite map_length, rev_length. cbn [length]. lia.
  - destruct (col_digits_ok 7 (col + 1)) as (ds & -> & Hv & Hf & Hl); [cbn [cap]; lia|].
    cbn [bind]. eexists; split; [reflexivity|].
    split; [split|].
    + now apply digits_upper.
    + now rewrite bij26_rev by auto.
    + rewrite map_length, rev_length. destruct ds; cbn [lval length] in *; lia.
Qed.

(** a bijective numeral is determined by its value *)
Lemma column_name_unique s t : all_upper s -> all_upper t -> bij26 s = bij26 t -> s = t.
Proof.
  revert t. induction s as [|c s IH] using rev_ind; intros t Hs Ht H.
  - destruct t as [|d t] using rev_ind; [reflexivity|].
    apply Forall_app in Ht as [_ Hd]. inversion Hd; subst.
    rewrite bij26_app in H. change (bij26 []) with 0 in H. lia.
  - destruct t as [|d t _] using rev_ind.
    + apply Forall_app in Hs as [_ Hd]. inversion Hd; subst.
      rewrite bij26_app in H. change (bij26 []) with 0 in H. lia.
    + apply Forall_app in Hs as [Hs Hc]. apply Forall_app in Ht as [Ht Hd].
      inversion Hc; inversion Hd; subst. rewrite !bij26_app in H.
      assert (c = d) as -> by lia. f_equal. apply IH; auto. lia.
Qed.

Definition step26 (v c : N) : N := v * 26 + (c - 64).

Lemma fold26_ge s v : v <= fold_left step26 s v.
Proof.
  revert v. induction s as [|c s IH]; intros v; cbn; [lia|].
  specialize (IH (step26 v c)). unfold step26 in *. lia.
Qed.

(** exact outcome of the column name parser *)
Lemma colname_loop_spec s v :
  v <= u32_max -> all_upper s ->
  colname_loop v s = if fold_left step26 s v <=? u32_max then Ok (fold_left step26 s v) else Panic.
Proof.
  revert v. induction s as [|c s IH]; intros v Hv Hs; cbn [colname_loop fold_left].
  - destruct (v <=? u32_max) eqn:E; [reflexivity|lia].
  - inversion Hs; subst. pose proof (fold26_ge s (step26 v c)) as Hge.
    rewrite (proj2 (is_upper_spec c)) by lia.
    assert (Hpanic : ~ step26 v c <= u32_max ->
       (if fold_left step26 s (step26 v c) <=? u32_max then Ok (fold_left step26 s (step26 v c)) else Panic) = @Panic N).
    { intros. destruct (_ <=? _) eqn:E; [lia|reflexivity]. }
    destruct (c - 65 =? 25) eqn:Ec; unfold add32, mul32.
    + destruct (v + 1 <=? u32_max) eqn:E1; cbn [bind].
      2:{ rewrite Hpanic; auto. unfold step26. lia. }
      destruct ((v + 1) * 26 <=? u32_max) eqn:E2; cbn [bind].
      2:{ rewrite Hpanic; auto. unfold step26. lia. }
      rewrite N.add_0_r, E2. cbn [bind].
      replace ((v + 1) * 26) with (step26 v c) by (unfold step26; lia).
      apply IH; auto. unfold step26. lia.
    + destruct (v * 26 <=? u32_max) eqn:E1; cbn [bind].
      2:{ rewrite Hpanic; auto. unfold step26. lia. }
      destruct (v * 26 + (c - 65 + 1) <=? u32_max) eqn:E2; cbn [bind].
      2:{ rewrite Hpanic; auto. unfold step26. lia. }
      replace (v * 26 + (c - 65 + 1)) with (step26 v c) in * by (unfold step26; lia).
      apply IH; auto. lia.
Qed.

Lemma try_colname_spec s :
  all_upper s -> s <> [] ->
  try_u32_from_colname s = if bij26 s <=? u32_max then Ok (bij26 s - 1) else Panic.
Proof.
  intros Hs Hne. unfold try_u32_from_colname.
  rewrite colname_loop_spec by (auto; unfold u32_max; lia).
  change (fold_left step26 s 0) with (bij26 s).
  destruct (bij26 s <=? u32_max) eqn:E; cbn [bind]; [|reflexivity].
  destruct (bij26 s =? 0) eqn:E0; [|reflexivity].
  destruct s as [|c s]; [congruence|]. exfalso.
  unfold bij26 in E0. cbn [fold_left] in E0. inversion Hs; subst.
  pose proof (fold26_ge s (0 * 26 + (c - 64))). unfold step26 in *. lia.
Qed.

Lemma colname_loop_err s v r : colname_loop v s = Ok r -> all_upper s.
Proof.
  revert v. induction s as [|c s IH]; intros v; cbn; [constructor|].
  destruct (is_upper c) eqn:E; [|discriminate]. apply is_upper_spec in E.
  destruct (c - 65 =? 25); intros H.
  - apply bind_ok in H as (? & _ & H). apply bind_ok in H as (? & _ & H).
    apply bind_ok in H as (? & _ & H). constructor; [exact E|eapply IH; exact H].
  - apply bind_ok in H as (? & _ & H). apply bind_ok in H as (? & _ & H).
    constructor; [exact E|eapply IH; exact H].
Qed.

Lemma colname_loop_panic s v : colname_loop v s = Panic ->
  exists a b, s = a ++ b /\ all_upper a /\ u32_max < fold_left step26 a v.
Proof.
  revert v. induction s as [|c s IH]; intros v; cbn; [discriminate|].
  destruct (is_upper c) eqn:E; [|discriminate]. apply is_upper_spec in E.
  assert (Hone : u32_max < step26 v c -> exists a b, c :: s = a ++ b /\ all_upper a /\ u32_max < fold_left step26 a v).
  { intros H. exists [c], s. repeat split; auto. constructor; auto. }
  assert (Hrec : colname_loop (step26 v c) s = Panic ->
     exists a b, c :: s = a ++ b /\ all_upper a /\ u32_max < fold_left step26 a v).
  { intros H. destruct (IH _ H) as (a & b & -> & Ha & Hb).
    exists (c :: a), b. repeat split; auto. constructor; auto. }
  unfold add32, mul32.
  destruct (c - 65 =? 25) eqn:Ec; intros H.
  - destruct (v + 1 <=? u32_max) eqn:E1; cbn [bind] in H.
    2:{ apply Hone. unfold step26. lia. }
    destruct ((v + 1) * 26 <=? u32_max) eqn:E2; cbn [bind] in H.
    2:{ apply Hone. unfold step26. lia. }
    rewrite N.add_0_r, E2 in H. cbn [bind] in H. apply Hrec.
    replace (step26 v c) with ((v + 1) * 26) by (unfold step26; lia). auto.
  - destruct (v * 26 <=? u32_max) eqn:E1; cbn [bind] in H.
    2:{ apply Hone. unfold step26. lia. }
    destruct (v * 26 + (c - 65 + 1) <=? u32_max) eqn:E2; cbn [bind] in H.
    2:{ apply Hone. unfold step26. lia. }
    apply Hrec. replace (step26 v c) with (v * 26 + (c - 65 + 1)) by (unfold step26; lia). auto.
Qed.

(** k letters denote at most cap k *)
Lemma bij26_cap s : all_upper s -> bij26 s <= cap (length s).
Proof.
  induction s as [|c s IH] using rev_ind; intros H; [reflexivity|].
  apply Forall_app in H as [Hs Hc]. inversion Hc; subst.
  rewrite bij26_app, app_length, Nat.add_1_r. cbn [cap]. specialize (IH Hs). lia.
Qed.

(** ** row names *)

Fixpoint ldec (ds : list N) : N :=
  match ds with [] => 0 | d :: ds' => d + 10 * ldec ds' end.
Fixpoint cap10 (room : nat) : N :=
  match room with O => 1 | S k => 10 * cap10 k end.

Lemma row_digits_ok room n :
  n < cap10 room ->
  exists ds, row_digits room n = Ok ds /\ ldec ds = n /\ Forall (fun d => d < 10) ds /\
     (ds = [] /\ n = 0 \/ last ds 0 <> 0).
Proof.
  revert n. induction room as [|k IH]; intros n Hn; cbn [row_digits cap10] in *.
  - assert (n = 0) as -> by lia. exists []. cbn. auto 6.
  - destruct (n =? 0) eqn:E.
    + exists []. cbn. repeat split; auto; try lia. left; split; auto; lia.
    + destruct (IH (n / 10)) as (ds & -> & Hv & Hf & Hl); [lia|].
      exists (n mod 10 :: ds). cbn [bind ldec]. repeat split; [lia| |].
      * constructor; [lia|auto].
      * right. destruct Hl as [[-> Hl]|Hl]; [cbn [last]; lia|].
        destruct ds; cbn [last] in *; [lia|auto].
Qed.

Lemma dec_app a b : dec (a ++ [b]) = dec a * 10 + (b - 48).
Proof. unfold dec. rewrite fold_left_app. reflexivity. Qed.

Lemma dec_rev ds :
  Forall (fun d => d < 10) ds -> dec (map (fun d => 48 + d) (rev ds)) = ldec ds.
Proof.
  induction 1 as [|d ds Hd _ IH]; [reflexivity|].
  cbn [rev ldec]. rewrite map_app. cbn [map]. rewrite dec_app, IH. lia.
Qed.

Lemma hd_rev_last {A} (l : list A) (d : A) : hd d (rev l) = last l d.
Proof.
  destruct l as [|x l _] using rev_ind; [reflexivity|].
  rewrite rev_app_distr, last_last. reflexivity.
Qed.

Lemma fmt_row_name_spec row :
  u32 row -> exists s, fmt_row_name row = Ok s /\ row_name row s /\ s <> [].
Proof.
  unfold u32, u32_max. intros Hc. unfold fmt_row_name.
  destruct (row_digits_ok 10 (row + 1)) as (ds & -> & Hv & Hf & Hl); [cbn [cap10]; lia|].
  cbn [bind]. eexists; split; [reflexivity|].
  assert (Hne : ds <> []) by (intros ->; cbn [ldec] in Hv; lia).
  destruct Hl as [[? ?]|Hl]; [congruence|].
  rewrite <- hd_rev_last in Hl.
  assert (Hr : rev ds <> []).
  { intros H. apply (f_equal (@rev N)) in H. rewrite rev_involutive in H. cbn in H. auto. }
  repeat split.
  - apply Forall_map. apply Forall_rev in Hf. eapply Forall_impl; [|exact Hf]. cbv beta. intros; lia.
  - now rewrite dec_rev.
  - destruct (rev ds) as [|d ds']; [congruence|]. cbn [map hd] in *. lia.
  - destruct (rev ds) as [|d ds']; [congruence|]. cbn [map]. discriminate.
Qed.

Lemma fold10_ge s v : v <= fold_left (fun v c => v * 10 + (c - 48)) s v.
Proof.
  revert v. induction s as [|c s IH]; intros v; cbn; [lia|].
  specialize (IH (v * 10 + (c - 48))). lia.
Qed.

Lemma dec_value_fold s v : dec_value v s = fold_left (fun v c => v * 10 + (c - 48)) s v.
Proof. revert v. induction s as [|c s IH]; intros v; cbn; auto. Qed.

Lemma dec_pos c s : all_digit (c :: s) -> c <> 48 -> 0 < dec (c :: s).
Proof.
  intros H Hc. inversion H; subst. unfold dec. cbn [fold_left].
  pose proof (fold10_ge s (0 * 10 + (c - 48))). lia.
Qed.

(** decimal numerals without leading zero are determined by their value *)
Lemma dec_unique_aux s t :
  all_digit s -> all_digit t -> hd 0 s <> 48 -> hd 0 t <> 48 -> dec s = dec t -> s = t.
Proof.
  revert t. induction s as [|c s IH] using rev_ind; intros t Hs Ht Hhs Hht H.
  - destruct t as [|d t]; [reflexivity|]. cbn [hd] in Hht.
    pose proof (dec_pos d t Ht Hht). change (dec []) with 0 in H. lia.
  - destruct t as [|d t _] using rev_ind.
    + destruct (s ++ [c]) as [|x y] eqn:E; [destruct s; discriminate|].
      cbn [hd] in Hhs. pose proof (dec_pos x y Hs Hhs). change (dec []) with 0 in H. lia.
    + apply Forall_app in Hs as [Hs Hc]. apply Forall_app in Ht as [Ht Hd].
      inversion Hc; inversion Hd; subst. rewrite !dec_app in H.
      assert (c = d) as -> by lia. assert (dec s = dec t) as He by lia.
      f_equal. apply IH; auto.
      * destruct s; cbn in *; [lia|auto].
      * destruct t; cbn in *; [lia|auto].
Qed.

Lemma row_name_unique row s t : row_name row s -> row_name row t -> s = t.
Proof. intros (?&?&?) (?&?&?). apply dec_unique_aux; auto. congruence. Qed.

Lemma try_rowname_spec row s :
  row_name row s -> row < u32_max -> try_u32_from_rowname s = Ok row.
Proof.
  intros (Hd & Hv & _) Hr. unfold try_u32_from_rowname, u32_from_digits.
  rewrite dec_value_fold. change (fold_left _ s 0) with (dec s). rewrite Hv.
  destruct (row + 1 <=? u32_max) eqn:E; [|lia]. cbn [bind].
  destruct (row + 1 =? 0) eqn:E0; [lia|]. f_equal. lia.
Qed.

(** ** token parsers *)

Definition head_not (p : char -> bool) (s : str) : Prop :=
  match s with [] => True | c :: _ => p c = false end.

Lemma opt_dollar_mark abs r :
  (abs = false -> match r with [] => True | c :: _ => c <> 36 end) ->
  opt (tag1 36) (fmt_abs abs ++ r) = Ok (if abs then Some tt else None, r).
Proof.
  intros H. destruct abs; [reflexivity|]. cbn [fmt_abs app].
  unfold opt, tag1. destruct r as [|c r]; [reflexivity|].
  destruct (c =? 36) eqn:E; [|reflexivity]. specialize (H eq_refl). cbn in H. lia.
Qed.

Lemma parse_col_ok abs col s r :
  fmt_col abs col = Ok s -> col < u32_max -> head_not is_alpha r ->
  parse_col (s ++ r) = Ok ((abs, col), r).
Proof.
  intros H Hc Hr. unfold fmt_col in H.
  destruct (fmt_col_name_spec col) as (n & Hn & (Hu & Hv) & Hl); [unfold u32; lia|].
  rewrite Hn in H. cbn [bind] in H. inversion H; subst; clear H.
  unfold parse_col. rewrite <- app_assoc, opt_dollar_mark.
  2:{ intros _. destruct n as [|c n]; cbn in Hl; [lia|]. cbn. inversion Hu; subst. lia. }
  cbn [bind]. unfold take1. rewrite span_app; auto.
  2:{ eapply Forall_impl; [|exact Hu]. cbv beta. intros. apply is_alpha_spec. auto. }
  destruct n as [|c n0] eqn:En; [cbn in Hl; lia|]. rewrite <- En in *. cbn [bind].
  rewrite try_colname_spec by (auto; subst; discriminate).
  rewrite Hv. destruct (col + 1 <=? u32_max) eqn:E; [|lia]. cbn [bind].
  destruct abs; cbn [is_some]; repeat f_equal; lia.
Qed.

Lemma parse_row_ok abs row s r :
  fmt_row abs row = Ok s -> row < u32_max -> head_not is_digit r ->
  parse_row (s ++ r) = Ok ((abs, row), r).
Proof.
  intros H Hc Hr. unfold fmt_row in H.
  destruct (fmt_row_name_spec row) as (n & Hn & Hrn & Hl); [unfold u32; lia|].
  rewrite Hn in H. cbn [bind] in H. inversion H; subst; clear H.
  pose proof Hrn as (Hd & Hv & Hz).
  unfold parse_row. rewrite <- app_assoc, opt_dollar_mark.
  2:{ intros _. destruct n as [|c n0]; [congruence|]. cbn. inversion Hd; subst. lia. }
  cbn [bind]. unfold take1. rewrite span_app; auto.
  2:{ eapply Forall_impl; [|exact Hd]. cbv beta. intros. apply is_digit_spec. auto. }
  destruct n as [|c n0] eqn:En; [congruence|]. rewrite <- En in *. cbn [bind].
  rewrite (try_rowname_spec row) by auto. cbn [bind].
  destruct abs; reflexivity.
Qed.

Lemma parse_col_bound s a c r : parse_col s = Ok ((a, c), r) -> c < u32_max.
Proof.
  unfold parse_col. intros H.
  apply bind_ok in H as ([d s1] & _ & H). apply bind_ok in H as ([n s2] & Hn & H).
  apply bind_ok in H as (v & Hv & H). inversion H; subst; clear H.
  unfold try_u32_from_colname in Hv. apply bind_ok in Hv as (x & Hx & Hv).
  pose proof (colname_loop_err _ _ _ Hx) as Hu.
  rewrite colname_loop_spec in Hx by (auto; unfold u32_max; lia).
  destruct (_ <=? u32_max) eqn:E in Hx; [|discriminate]. inversion Hx; subst.
  destruct (_ =? 0) eqn:E0 in Hv; [discriminate|]. inversion Hv. lia.
Qed.

Lemma parse_row_bound s a c r : parse_row s = Ok ((a, c), r) -> c < u32_max.
Proof.
  unfold parse_row. intros H.
  apply bind_ok in H as ([d s1] & _ & H). apply bind_ok in H as ([n s2] & Hn & H).
  apply bind_ok in H as (v & Hv & H). inversion H; subst; clear H.
  unfold try_u32_from_rowname, u32_from_digits in Hv. apply bind_ok in Hv as (x & Hx & Hv).
  destruct (_ <=? u32_max) eqn:E in Hx; [|discriminate]. inversion Hx; subst.
  destruct (_ =? 0) eqn:E0 in Hv; [discriminate|]. inversion Hv. lia.
Qed.

(** ** quoted strings *)

Lemma quoted_body_ok n r :
  match r with [] => True | c :: _ => c <> 39 end ->
  quoted_body (double_quotes n ++ 39 :: r) = (double_quotes n, 39 :: r).
Proof.
  intros Hr. induction n as [|c n IH].
  - cbn. destruct r as [|c r]; [reflexivity|]. destruct (c =? 39) eqn:E; [lia|reflexivity].
  - cbn [double_quotes]. destruct (c =? 39) eqn:E.
    + cbn [app quoted_body]. cbn. rewrite IH. reflexivity.
    + cbn [app quoted_body]. rewrite E, IH. reflexivity.
Qed.

Lemma undouble_double n : undouble_quotes (double_quotes n) = n.
Proof.
  induction n as [|c n IH]; [reflexivity|].
  cbn [double_quotes]. destruct (c =? 39) eqn:E.
  - cbn [undouble_quotes]. cbn. rewrite IH. f_equal. lia.
  - destruct (double_quotes n) as [|d m] eqn:Em.
    + cbn. cbn in IH. now rewrite <- IH.
    + transitivity (c :: undouble_quotes (d :: m)); [|now rewrite IH].
      cbn [undouble_quotes]. rewrite E. reflexivity.
Qed.

Lemma unquote_double n : unquote_single (39 :: double_quotes n ++ [39]) = n.
Proof.
  unfold unquote_single, strip_prefix_q. cbn. unfold strip_suffix_q.
  rewrite rev_app_distr. cbn. rewrite rev_involutive. apply undouble_double.
Qed.

Lemma single_quoted_ok n r :
  match r with [] => True | c :: _ => c <> 39 end ->
  single_quoted_string (39 :: double_quotes n ++ 39 :: r) = SqOk n r.
Proof.
  intros Hr. unfold single_quoted_string. change (39 =? 39) with true. cbn iota.
  rewrite quoted_body_ok by auto. change (39 =? 39) with true. cbn iota.
  now rewrite unquote_double.
Qed.

Lemma single_quoted_no c r : c <> 39 -> single_quoted_string (c :: r) = SqNoStart.
Proof. intros. cbn. destruct (c =? 39) eqn:E; [lia|reflexivity]. Qed.

Lemma needs_quote_spec n : needs_quote n = true <-> In 39 n \/ In 32 n \/ In 46 n.
Proof.
  unfold needs_quote. rewrite existsb_exists. split.
  - intros (c & Hin & Hc).
    assert (c = 39 \/ c = 32 \/ c = 46) as [->|[->| ->]] by lia; auto.
  - intros [H|[H|H]]; eexists; (split; [exact H|reflexivity]).
Qed.

Lemma needs_quote_false n : needs_quote n = false -> Forall (fun c => c <> 39 /\ c <> 32 /\ c <> 46) n.
Proof.
  unfold needs_quote. induction n as [|c n IH]; cbn [existsb]; [constructor|].
  intros H. apply orb_false_iff in H as [H1 H2]. constructor; [cbv beta; lia|auto].
Qed.

(** ** sheet name and iri *)

Lemma parse_sheet_ok t abs r :
  opt_table_ok t -> parse_sheet_name (fmt_opt_table t abs ++ 46 :: r) = Ok (t, r).
Proof.
  intros Hok. destruct t as [n|]; cbn [fmt_opt_table].
  2:{ cbn. reflexivity. }
  specialize (Hok n eq_refl). unfold fmt_table_name, parse_sheet_name.
  destruct (needs_quote n) eqn:Eq.
  - rewrite <- !app_assoc. rewrite opt_dollar_mark by (cbn; lia). cbn [bind].
    unfold opt, quoted_or_unquoted.
    replace (lit "'" ++ double_quotes n ++ lit "'" ++ 46 :: r)
      with (39 :: double_quotes n ++ 39 :: 46 :: r) by reflexivity.
    rewrite single_quoted_ok by lia. cbn. reflexivity.
  - assert (Hp : n <> [] /\ Forall plain_char n).
    { destruct Hok as [H|H]; auto. apply needs_quote_spec in H. congruence. }
    destruct Hp as [Hne Hp].
    rewrite <- app_assoc, opt_dollar_mark.
    2:{ intros _. destruct n as [|c n]; [congruence|]. cbn. inversion Hp; subst.
        unfold plain_char in *. lia. }
    cbn [bind]. unfold opt, quoted_or_unquoted.
    destruct n as [|c n]; [congruence|].
    cbn [app]. rewrite single_quoted_no.
    2:{ inversion Hp; subst. unfold plain_char in *. lia. }
    unfold unquoted_sheet_name.
    change (c :: n ++ 46 :: r) with ((c :: n) ++ 46 :: r).
    rewrite span_app.
    2:{ eapply Forall_impl; [|exact Hp]. intros a. apply sheet_name_char_spec. }
    2:{ reflexivity. }
    cbn. reflexivity.
Qed.

(** a name which is not [table_ok] is never recovered *)
Lemma parse_sheet_bad n abs r x rest :
  ~ table_ok n -> parse_sheet_name (fmt_table_name n abs ++ 46 :: r) = Ok (x, rest) -> x <> Some n.
Proof.
  intros Hbad H ->. unfold fmt_table_name in H.
  destruct (needs_quote n) eqn:Eq.
  { apply needs_quote_spec in Eq. apply Hbad. left. auto. }
  pose proof (needs_quote_false _ Eq) as Hc.
  (* what follows the optional dollar *)
  assert (Hcore : forall m, Forall (fun c => c <> 39 /\ c <> 32 /\ c <> 46) m ->
     (let* (n0, s2) := opt quoted_or_unquoted (m ++ 46 :: r) in
      let* (_, s3) := tag1 46 s2 in Ok (n0, s3)) = Ok (Some n, rest) ->
     m = n /\ m <> [] /\ Forall plain_char m).
  { intros m Hm Hk. destruct m as [|c m].
    { cbn in Hk. destruct r; discriminate. }
    unfold opt, quoted_or_unquoted in Hk. cbn [app] in Hk.
    inversion Hm as [|? ? Hc1 Hm']; subst.
    rewrite single_quoted_no in Hk by lia.
    unfold unquoted_sheet_name in Hk.
    destruct (span sheet_name_char (c :: m ++ 46 :: r)) as [a b] eqn:Es.
    apply span_spec in Es as (Hs & Ha & Hb).
    destruct a as [|a0 a].
    { cbn [app] in Hs. subst b. cbn [bind] in Hk. unfold tag1 in Hk.
      destruct (c =? 46) eqn:Ec; [lia|]. discriminate. }
    cbn [bind] in Hk. apply bind_ok in Hk as ([u s3] & Ht & Hk). inversion Hk; subst; clear Hk.
    destruct b as [|b0 b]; [discriminate|]. cbn in Ht.
    destruct (b0 =? 46) eqn:Eb; [|discriminate]. inversion Ht; subst. assert (b0 = 46) as -> by lia.
    (* the 46 found is the first one, that is the one after m *)
    assert (Hsplit : forall (p q : str) u v, Forall (fun c => c <> 46) p -> Forall (fun c => c <> 46) q ->
        p ++ 46 :: u = q ++ 46 :: v -> p = q).
    { clear. induction p as [|x p IH]; intros q u v Hp Hq E.
      - destruct q; [reflexivity|]. inversion E; subst. inversion Hq; subst. congruence.
      - destruct q as [|y q]; inversion E; subst.
        + inversion Hp; subst. congruence.
        + inversion Hp; inversion Hq; subst. f_equal. eauto. }
    assert (He : c :: m = a0 :: a).
    { apply (Hsplit (c :: m) (a0 :: a) r rest); auto.
      - eapply Forall_impl; [|exact Hm]. cbv beta. intros; lia.
      - eapply Forall_impl; [|exact Ha]. cbv beta. intros y Hy. apply sheet_name_char_spec in Hy.
        unfold plain_char in Hy. lia. }
    rewrite He. repeat split; [discriminate|].
    eapply Forall_impl; [|exact Ha]. intros y. apply sheet_name_char_spec. }
  unfold parse_sheet_name in H.
  destruct abs; cbn [fmt_abs app lit] in H.
  - change (opt (tag1 36) _) with (Ok (Some tt, n ++ 46 :: r)) in H. cbn [bind] in H.
    apply Hcore in H as (_ & Hne & Hp); auto. apply Hbad. right. auto.
  - destruct n as [|c n].
    { cbn in H. discriminate. }
    destruct (c =? 36) eqn:E.
    + assert (c = 36) as -> by lia.
      change (opt (tag1 36) _) with (Ok (Some tt, n ++ 46 :: r)) in H. cbn [bind] in H.
      inversion Hc; subst. apply Hcore in H as (He & _); auto.
      apply (f_equal (@length N)) in He. cbn in He. lia.
    + assert (Ho : opt (tag1 36) ((c :: n) ++ 46 :: r) = Ok (None, (c :: n) ++ 46 :: r)).
      { unfold opt, tag1. cbn [app]. now rewrite E. }
      rewrite Ho in H. cbn [bind] in H. apply Hcore in H as (_ & Hne & Hp); auto.
      apply Hbad. right. auto.
Qed.

Lemma parse_iri_some i r : parse_iri (fmt_iri (Some i) ++ r) = Ok (Some i, r).
Proof.
  unfold parse_iri, fmt_iri. rewrite <- !app_assoc.
  replace (lit "'" ++ double_quotes i ++ lit "'" ++ lit "#" ++ r)
    with (39 :: double_quotes i ++ 39 :: 35 :: r) by reflexivity.
  rewrite single_quoted_ok by lia. cbn. reflexivity.
Qed.

Lemma parse_iri_none t abs r :
  parse_iri (fmt_opt_table t abs ++ 46 :: r) = Ok (None, fmt_opt_table t abs ++ 46 :: r).
Proof.
  destruct t as [n|]; cbn [fmt_opt_table]; [|reflexivity].
  unfold fmt_table_name. destruct abs; [reflexivity|]. cbn [fmt_abs app].
  destruct (needs_quote n) eqn:E.
  - unfold parse_iri. rewrite <- !app_assoc.
    replace (lit "'" ++ double_quotes n ++ lit "'" ++ 46 :: r)
      with (39 :: double_quotes n ++ 39 :: 46 :: r) by reflexivity.
    rewrite single_quoted_ok by lia. cbn. reflexivity.
  - apply needs_quote_false in E. destruct n as [|c n]; [reflexivity|].
    unfold parse_iri. cbn [app]. inversion E; subst. rewrite single_quoted_no by lia. reflexivity.
Qed.

Lemma parse_iri_ok i t abs r :
  parse_iri (fmt_iri i ++ fmt_opt_table t abs ++ 46 :: r) = Ok (i, fmt_opt_table t abs ++ 46 :: r).
Proof.
  destruct i as [i|]; [apply parse_iri_some|]. cbn [fmt_iri app]. apply parse_iri_none.
Qed.

(** ** round trips *)

Definition first_dollar_or (p : char -> bool) (s : str) : Prop :=
  match s with [] => False | c :: _ => c = 36 \/ p c = true end.

Lemma fmt_col_total abs col : u32 col -> exists s, fmt_col abs col = Ok s.
Proof.
  intros H. destruct (fmt_col_name_spec col H) as (s & Hs & _). unfold fmt_col. rewrite Hs. eexists; reflexivity.
Qed.
Lemma fmt_row_total abs row : u32 row -> exists s, fmt_row abs row = Ok s.
Proof.
  intros H. destruct (fmt_row_name_spec row H) as (s & Hs & _). unfold fmt_row. rewrite Hs. eexists; reflexivity.
Qed.

(** the row text does not start with a letter *)
Lemma fmt_row_head abs row s r : fmt_row abs row = Ok s -> u32 row -> head_not is_alpha (s ++ r).
Proof.
  intros H Hr. destruct (fmt_row_name_spec row Hr) as (n & Hn & (Hd & _) & Hne).
  unfold fmt_row in H. rewrite Hn in H. inversion H; subst. destruct abs; [reflexivity|].
  destruct n as [|c n]; [congruence|]. cbn [fmt_abs app head_not]. inversion Hd; subst.
  destruct (is_alpha c) eqn:E; [|reflexivity]. apply is_alpha_spec in E. lia.
Qed.

Lemma parse_cell_ref_part_ok x s r :
  fmt_cell_ref x = Ok s -> cellref_ok x -> head_not is_digit r ->
  parse_cell_ref_part (s ++ r) = Ok (x, r).
Proof.
  intros H (Ht & Hrow & Hcol) Hr. unfold fmt_cell_ref in H.
  apply bind_ok in H as (c & Hc & H). apply bind_ok in H as (w & Hw & H). inversion H; subst; clear H.
  change (lit ".") with [46]. nf_app.
  unfold parse_cell_ref_part. rewrite parse_iri_ok. cbn [bind].
  rewrite parse_sheet_ok by auto. cbn [bind].
  rewrite (parse_col_ok _ _ _ _ Hc Hcol) by (eapply fmt_row_head; [exact Hw|unfold u32; lia]). cbn [bind].
  rewrite (parse_row_ok _ _ _ _ Hw Hrow Hr). cbn [bind]. destruct x; reflexivity.
Qed.

Lemma parse_cell_range_ok x s r :
  fmt_cell_range x = Ok s -> cellrange_ok x -> head_not is_digit r ->
  parse_cell_range (s ++ r) = Ok (x, r).
Proof.
  intros H (Ht & Ht' & Hrow & Hcol & Hrow' & Hcol') Hr. unfold fmt_cell_range in H.
  apply bind_ok in H as (c & Hc & H). apply bind_ok in H as (w & Hw & H).
  apply bind_ok in H as (c' & Hc' & H). apply bind_ok in H as (w' & Hw' & H). inversion H; subst; clear H.
  change (lit ".") with [46]. change (lit ":") with [58]. nf_app.
  unfold parse_cell_range. rewrite parse_iri_ok. cbn [bind].
  rewrite parse_sheet_ok by auto. cbn [bind].
  rewrite (parse_col_ok _ _ _ _ Hc Hcol) by (eapply fmt_row_head; [exact Hw|unfold u32; lia]). cbn [bind].
  rewrite (parse_row_ok _ _ _ _ Hw Hrow) by reflexivity. cbn [bind].
  change (tag1 58 (58 :: ?k)) with (@Ok (unit * str) (tt, k)). cbn [tag1 bind].
  change (58 =? 58) with true. cbn [bind].
  rewrite parse_sheet_ok by auto. cbn [bind].
  rewrite (parse_col_ok _ _ _ _ Hc' Hcol') by (eapply fmt_row_head; [exact Hw'|unfold u32; lia]). cbn [bind].
  rewrite (parse_row_ok _ _ _ _ Hw' Hrow' Hr). cbn [bind]. destruct x; reflexivity.
Qed.

Lemma parse_col_range_ok x s :
  fmt_col_range x = Ok s -> colrange_ok x -> parse_col_range s = Ok (x, []).
Proof.
  intros H (Ht & Ht' & Hcol & Hcol'). unfold fmt_col_range in H.
  apply bind_ok in H as (c & Hc & H). apply bind_ok in H as (c' & Hc' & H). inversion H; subst; clear H.
  change (lit ".") with [46]. change (lit ":") with [58]. nf_app.
  unfold parse_col_range. rewrite parse_iri_ok. cbn [bind].
  rewrite parse_sheet_ok by auto. cbn [bind].
  rewrite (parse_col_ok _ _ _ _ Hc Hcol) by reflexivity. cbn [tag1 bind].
  change (58 =? 58) with true. cbn [bind].
  rewrite parse_sheet_ok by auto. cbn [bind].
  rewrite <- (app_nil_r c'). rewrite (parse_col_ok _ _ _ _ Hc' Hcol') by exact I. cbn [bind].
  destruct x; reflexivity.
Qed.

Lemma parse_row_range_ok x s :
  fmt_row_range x = Ok s -> rowrange_ok x -> parse_row_range s = Ok (x, []).
Proof.
  intros H (Ht & Ht' & Hrow & Hrow'). unfold fmt_row_range in H.
  apply bind_ok in H as (c & Hc & H). apply bind_ok in H as (c' & Hc' & H). inversion H; subst; clear H.
  change (lit ".") with [46]. change (lit ":") with [58]. nf_app.
  unfold parse_row_range. rewrite parse_iri_ok. cbn [bind].
  rewrite parse_sheet_ok by auto. cbn [bind].
  rewrite (parse_row_ok _ _ _ _ Hc Hrow) by reflexivity. cbn [tag1 bind].
  change (58 =? 58) with true. cbn [bind].
  rewrite parse_sheet_ok by auto. cbn [bind].
  rewrite <- (app_nil_r c'). rewrite (parse_row_ok _ _ _ _ Hc' Hrow') by exact I. cbn [bind].
  destruct x; reflexivity.
Qed.

(** converse: what is recovered was carried by the text *)
Lemma table_ok_dec n : table_ok n \/ ~ table_ok n.
Proof.
  unfold table_ok. destruct (needs_quote n) eqn:E.
  { apply needs_quote_spec in E. auto. }
  destruct n as [|c n].
  { right. intros [H|[H _]]; [|congruence]. apply needs_quote_spec in H. discriminate. }
  destruct (forallb sheet_name_char (c :: n)) eqn:F.
  - left. right. split; [discriminate|]. apply Forall_forall. intros x Hx.
    apply sheet_name_char_spec. eapply forallb_forall in F; eauto.
  - right. intros [H|[_ H]]; [apply needs_quote_spec in H; congruence|].
    enough (forallb sheet_name_char (c :: n) = true) by congruence.
    apply forallb_forall. intros x Hx. rewrite Forall_forall in H. apply sheet_name_char_spec. auto.
Qed.

Lemma parse_sheet_recovers t abs r x :
  parse_sheet_name (fmt_opt_table t abs ++ 46 :: r) = Ok (t, x) -> opt_table_ok t.
Proof.
  intros H n ->. destruct (table_ok_dec n) as [Hn|Hn]; auto. exfalso.
  exact (parse_sheet_bad n abs r _ _ Hn H eq_refl).
Qed.

Lemma complete_ok {A} (p : parser A) s a : complete p s = Ok a <-> p s = Ok (a, []).
Proof.
  unfold complete. split.
  - intros H. apply bind_ok in H as ([a' r] & Hp & H). destruct r; [|discriminate].
    inversion H; subst. auto.
  - intros ->. reflexivity.
Qed.

Lemma cellref_bounds s x r : parse_cell_ref_part s = Ok (x, r) -> cr_row x < u32_max /\ cr_col x < u32_max.
Proof.
  unfold parse_cell_ref_part. intros H.
  apply bind_ok in H as ([? ?] & ? & H). apply bind_ok in H as ([? ?] & ? & H).
  apply bind_ok in H as ([[? ?] ?] & Hc & H). apply bind_ok in H as ([[? ?] ?] & Hr & H).
  inversion H; subst. cbn. apply parse_col_bound in Hc. apply parse_row_bound in Hr. auto.
Qed.
Lemma cellrange_bounds s x r : parse_cell_range s = Ok (x, r) ->
  rg_row x < u32_max /\ rg_col x < u32_max /\ rg_to_row x < u32_max /\ rg_to_col x < u32_max.
Proof.
  unfold parse_cell_range. intros H.
  apply bind_ok in H as ([? ?] & ? & H). apply bind_ok in H as ([? ?] & ? & H).
  apply bind_ok in H as ([[? ?] ?] & Hc & H). apply bind_ok in H as ([[? ?] ?] & Hr & H).
  apply bind_ok in H as ([? ?] & ? & H). apply bind_ok in H as ([? ?] & ? & H).
  apply bind_ok in H as ([[? ?] ?] & Hc' & H). apply bind_ok in H as ([[? ?] ?] & Hr' & H).
  inversion H; subst. cbn. apply parse_col_bound in Hc, Hc'. apply parse_row_bound in Hr, Hr'. auto.
Qed.
Lemma colrange_bounds s x r : parse_col_range s = Ok (x, r) -> cg_col x < u32_max /\ cg_to_col x < u32_max.
Proof.
  unfold parse_col_range. intros H.
  apply bind_ok in H as ([? ?] & ? & H). apply bind_ok in H as ([? ?] & ? & H).
  apply bind_ok in H as ([[? ?] ?] & Hc & H). apply bind_ok in H as ([? ?] & ? & H).
  apply bind_ok in H as ([? ?] & ? & H). apply bind_ok in H as ([[? ?] ?] & Hc' & H).
  inversion H; subst. cbn. apply parse_col_bound in Hc, Hc'. auto.
Qed.
Lemma rowrange_bounds s x r : parse_row_range s = Ok (x, r) -> wg_row x < u32_max /\ wg_to_row x < u32_max.
Proof.
  unfold parse_row_range. intros H.
  apply bind_ok in H as ([? ?] & ? & H). apply bind_ok in H as ([? ?] & ? & H).
  apply bind_ok in H as ([[? ?] ?] & Hc & H). apply bind_ok in H as ([? ?] & ? & H).
  apply bind_ok in H as ([? ?] & ? & H). apply bind_ok in H as ([[? ?] ?] & Hc' & H).
  inversion H; subst. cbn. apply parse_row_bound in Hc, Hc'. auto.
Qed.

Theorem cellref_roundtrip_iff r s :
  cellref_u32 r -> fmt_cell_ref r = Ok s -> (parse_cellref s = Ok r <-> cellref_ok r).
Proof.
  intros Hu Hf. unfold parse_cellref. rewrite complete_ok. split.
  - intros Hp. pose proof (cellref_bounds _ _ _ Hp) as (Hr & Hc).
    split; [|auto]. unfold fmt_cell_ref in Hf.
    apply bind_ok in Hf as (c & Hc' & Hf). apply bind_ok in Hf as (w & Hw & Hf). inversion Hf; subst; clear Hf.
    change (lit ".") with [46] in Hp. unfold parse_cell_ref_part in Hp. cbn [app] in Hp.
    rewrite parse_iri_ok in Hp. cbn [bind] in Hp.
    apply bind_ok in Hp as ([t s2] & Ht & Hp).
    apply bind_ok in Hp as ([[? ?] ?] & _ & Hp). apply bind_ok in Hp as ([[? ?] ?] & _ & Hp).
    assert (Heq : t = cr_table r) by (injection Hp as E; rewrite <- E; reflexivity).
    subst t. eapply parse_sheet_recovers. exact Ht.
  - intros Hok. rewrite <- (app_nil_r s). apply parse_cell_ref_part_ok; auto. exact I.
Qed.

Theorem cellrange_roundtrip_iff r s :
  cellrange_u32 r -> fmt_cell_range r = Ok s -> (parse_cellrange s = Ok r <-> cellrange_ok r).
Proof.
  intros Hu Hf. unfold parse_cellrange. rewrite complete_ok. split.
  - intros Hp. pose proof (cellrange_bounds _ _ _ Hp) as (Hr & Hc & Hr' & Hc').
    unfold fmt_cell_range in Hf.
    apply bind_ok in Hf as (c & Ec & Hf). apply bind_ok in Hf as (w & Ew & Hf).
    apply bind_ok in Hf as (c' & Ec' & Hf). apply bind_ok in Hf as (w' & Ew' & Hf). inversion Hf; subst; clear Hf.
    change (lit ".") with [46] in Hp. change (lit ":") with [58] in Hp.
    unfold parse_cell_range in Hp. cbn [app] in Hp.
    rewrite parse_iri_ok in Hp. cbn [bind] in Hp.
    apply bind_ok in Hp as ([t s2] & Ht & Hp).
    assert (Heq : t = rg_table r).
    { apply bind_ok in Hp as ([[? ?] ?] & _ & Hp). apply bind_ok in Hp as ([[? ?] ?] & _ & Hp).
      apply bind_ok in Hp as ([? ?] & _ & Hp). apply bind_ok in Hp as ([? ?] & _ & Hp).
      apply bind_ok in Hp as ([[? ?] ?] & _ & Hp). apply bind_ok in Hp as ([[? ?] ?] & _ & Hp).
      injection Hp as E; rewrite <- E; reflexivity. }
    subst t. pose proof (parse_sheet_recovers _ _ _ _ Ht) as Hok.
    rewrite parse_sheet_ok in Ht by auto. inversion Ht; subst s2; clear Ht.
    rewrite (parse_col_ok _ _ _ _ Ec Hc) in Hp by (eapply fmt_row_head; [exact Ew|unfold u32; lia]).
    cbn [bind] in Hp. rewrite (parse_row_ok _ _ _ _ Ew Hr) in Hp by reflexivity.
    cbn [bind tag1] in Hp. change (58 =? 58) with true in Hp. cbn [bind] in Hp.
    apply bind_ok in Hp as ([t s2] & Ht & Hp).
    assert (Heq : t = rg_to_table r).
    { apply bind_ok in Hp as ([[? ?] ?] & _ & Hp). apply bind_ok in Hp as ([[? ?] ?] & _ & Hp).
      injection Hp as E; rewrite <- E; reflexivity. }
    subst t. pose proof (parse_sheet_recovers _ _ _ _ Ht) as Hok'.
    repeat split; auto.
  - intros Hok. rewrite <- (app_nil_r s). apply parse_cell_range_ok; auto. exact I.
Qed.

Theorem colrange_roundtrip_iff r s :
  colrange_u32 r -> fmt_col_range r = Ok s -> (parse_colrange s = Ok r <-> colrange_ok r).
Proof.
  intros Hu Hf. unfold parse_colrange. rewrite complete_ok. split.
  - intros Hp. pose proof (colrange_bounds _ _ _ Hp) as (Hc & Hc').
    unfold fmt_col_range in Hf.
    apply bind_ok in Hf as (c & Ec & Hf). apply bind_ok in Hf as (c' & Ec' & Hf). inversion Hf; subst; clear Hf.
    change (lit ".") with [46] in Hp. change (lit ":") with [58] in Hp.
    unfold parse_col_range in Hp. cbn [app] in Hp.
    rewrite parse_iri_ok in Hp. cbn [bind] in Hp.
    apply bind_ok in Hp as ([t s2] & Ht & Hp).
    assert (Heq : t = cg_table r).
    { apply bind_ok in Hp as ([[? ?] ?] & _ & Hp). apply bind_ok in Hp as ([? ?] & _ & Hp).
      apply bind_ok in Hp as ([? ?] & _ & Hp). apply bind_ok in Hp as ([[? ?] ?] & _ & Hp).
      injection Hp as E; rewrite <- E; reflexivity. }
    subst t. pose proof (parse_sheet_recovers _ _ _ _ Ht) as Hok.
    rewrite parse_sheet_ok in Ht by auto. inversion Ht; subst s2; clear Ht.
    rewrite (parse_col_ok _ _ _ _ Ec Hc) in Hp by reflexivity.
    cbn [bind tag1] in Hp. change (58 =? 58) with true in Hp. cbn [bind] in Hp.
    apply bind_ok in Hp as ([t s2] & Ht & Hp).
    assert (Heq : t = cg_to_table r).
    { apply bind_ok in Hp as ([[? ?] ?] & _ & Hp). injection Hp as E; rewrite <- E; reflexivity. }
    subst t. pose proof (parse_sheet_recovers _ _ _ _ Ht) as Hok'.
    repeat split; auto.
  - intros Hok. apply parse_col_range_ok; auto.
Qed.

Theorem rowrange_roundtrip_iff r s :
  rowrange_u32 r -> fmt_row_range r = Ok s -> (parse_rowrange s = Ok r <-> rowrange_ok r).
Proof.
  intros Hu Hf. unfold parse_rowrange. rewrite complete_ok. split.
  - intros Hp. pose proof (rowrange_bounds _ _ _ Hp) as (Hc & Hc').
    unfold fmt_row_range in Hf.
    apply bind_ok in Hf as (c & Ec & Hf). apply bind_ok in Hf as (c' & Ec' & Hf). inversion Hf; subst; clear Hf.
    change (lit ".") with [46] in Hp. change (lit ":") with [58] in Hp.
    unfold parse_row_range in Hp. cbn [app] in Hp.
    rewrite parse_iri_ok in Hp. cbn [bind] in Hp.
    apply bind_ok in Hp as ([t s2] & Ht & Hp).
    assert (Heq : t = wg_table r).
    { apply bind_ok in Hp as ([[? ?] ?] & _ & Hp). apply bind_ok in Hp as ([? ?] & _ & Hp).
      apply bind_ok in Hp as ([? ?] & _ & Hp). apply bind_ok in Hp as ([[? ?] ?] & _ & Hp).
      injection Hp as E; rewrite <- E; reflexivity. }
    subst t. pose proof (parse_sheet_recovers _ _ _ _ Ht) as Hok.
    rewrite parse_sheet_ok in Ht by auto. inversion Ht; subst s2; clear Ht.
    rewrite (parse_row_ok _ _ _ _ Ec Hc) in Hp by reflexivity.
    cbn [bind tag1] in Hp. change (58 =? 58) with true in Hp. cbn [bind] in Hp.
    apply bind_ok in Hp as ([t s2] & Ht & Hp).
    assert (Heq : t = wg_to_table r).
    { apply bind_ok in Hp as ([[? ?] ?] & _ & Hp). injection Hp as E; rewrite <- E; reflexivity. }
    subst t. pose proof (parse_sheet_recovers _ _ _ _ Ht) as Hok'.
    repeat split; auto.
  - intros Hok. apply parse_row_range_ok; auto.
Qed.

(** ** text form *)

Lemma quoted_double n : quoted n (double_quotes n).
Proof.
  induction n as [|c n IH]; cbn [double_quotes]; [constructor|].
  destruct (c =? 39) eqn:E; [assert (c = 39) as -> by lia|]; constructor; auto; lia.
Qed.
Lemma iri_text_ok i : iri_text i (fmt_iri i).
Proof. destruct i as [i|]; cbn [fmt_iri]; [|constructor].
  change (iri_text (Some i) ([39] ++ double_quotes i ++ [39; 35])). constructor. apply quoted_double. Qed.
Lemma table_text_ok abs t : table_text abs t (fmt_opt_table t abs).
Proof.
  destruct t as [n|]; cbn [fmt_opt_table]; [|constructor].
  unfold fmt_table_name. change (fmt_abs abs) with (mark abs).
  destruct (needs_quote n) eqn:E.
  - apply (tt_quoted abs n); [|apply quoted_double]. now apply needs_quote_spec.
  - apply needs_quote_false in E. rewrite Forall_forall in E.
    constructor; intros H; apply E in H; lia.
Qed.
Lemma cell_text_ok ra row ca col c w :
  u32 row -> u32 col -> fmt_col ca col = Ok c -> fmt_row ra row = Ok w ->
  cell_text ra row ca col (c ++ w).
Proof.
  intros Hr Hc H1 H2. unfold fmt_col in H1. unfold fmt_row in H2.
  destruct (fmt_col_name_spec col Hc) as (n & En & Hn & _). rewrite En in H1. inversion H1; subst.
  destruct (fmt_row_name_spec row Hr) as (m & Em & Hm & _). rewrite Em in H2. inversion H2; subst.
  exists n, m. repeat split; try apply Hn; try apply Hm. now rewrite <- app_assoc.
Qed.

Theorem cellref_text_ok r :
  cellref_u32 r -> exists s, fmt_cell_ref r = Ok s /\ cellref_text r s.
Proof.
  intros (Hr & Hc). unfold fmt_cell_ref.
  destruct (fmt_col_total (cr_col_abs r) _ Hc) as (c & Ec).
  destruct (fmt_row_total (cr_row_abs r) _ Hr) as (w & Ew). rewrite Ec, Ew. cbn [bind].
  eexists; split; [reflexivity|].
  exists (fmt_iri (cr_iri r)). eexists. exists (c ++ w).
  split; [apply iri_text_ok|]. split; [|split; [now apply cell_text_ok|]].
  2:{ change (lit ".") with [46]. reflexivity. }
  replace (has_iri (cr_iri r) || cr_row_abs r || cr_col_abs r)
     with (is_some (cr_iri r) || cr_col_abs r || cr_row_abs r) by (destruct (cr_iri r), (cr_col_abs r), (cr_row_abs r); reflexivity).
  apply table_text_ok.
Qed.

Theorem cellrange_text_ok r :
  cellrange_u32 r -> exists s, fmt_cell_range r = Ok s /\ cellrange_text r s.
Proof.
  intros (Hr & Hc & Hr' & Hc'). unfold fmt_cell_range.
  destruct (fmt_col_total (rg_col_abs r) _ Hc) as (c & Ec).
  destruct (fmt_row_total (rg_row_abs r) _ Hr) as (w & Ew).
  destruct (fmt_col_total (rg_to_col_abs r) _ Hc') as (c' & Ec').
  destruct (fmt_row_total (rg_to_row_abs r) _ Hr') as (w' & Ew').
  rewrite Ec, Ew, Ec', Ew'. cbn [bind].
  eexists; split; [reflexivity|].
  exists (fmt_iri (rg_iri r)), (fmt_opt_table (rg_table r) (range_abs r)), (c ++ w),
     (fmt_opt_table (rg_to_table r) (range_abs r)), (c' ++ w').
  split; [apply iri_text_ok|]. split; [apply table_text_ok|]. split; [now apply cell_text_ok|].
  split; [apply table_text_ok|]. split; [now apply cell_text_ok|].
  change (lit ".") with [46]. change (lit ":") with [58]. rewrite <- !app_assoc. reflexivity.
Qed.

(** ** lists of ranges *)

Lemma fmt_range_length x s : fmt_cell_range x = Ok s -> (1 <= length s)%nat.
Proof.
  unfold fmt_cell_range. intros H.
  apply bind_ok in H as (? & ? & H). apply bind_ok in H as (? & ? & H).
  apply bind_ok in H as (? & ? & H). apply bind_ok in H as (? & ? & H). inversion H.
  rewrite !app_length. cbn. lia.
Qed.

Lemma fmt_range_head x s : cellrange_ok x -> fmt_cell_range x = Ok s -> head_not is_multispace s.
Proof.
  intros Hok H. destruct Hok as (Ht & _). unfold fmt_cell_range in H.
  apply bind_ok in H as (? & ? & H). apply bind_ok in H as (? & ? & H).
  apply bind_ok in H as (? & ? & H). apply bind_ok in H as (? & ? & H). inversion H; subst; clear H.
  destruct (rg_iri x); [reflexivity|]. cbn [fmt_iri app is_some orb].
  destruct (rg_table x) as [n|]; [|reflexivity]. cbn [fmt_opt_table]. unfold fmt_table_name.
  destruct (_ || _); [reflexivity|]. cbn [fmt_abs app].
  destruct (needs_quote n) eqn:E; [reflexivity|].
  specialize (Ht n eq_refl). destruct Ht as [Ht|[Hne Hp]].
  - apply needs_quote_spec in Ht. congruence.
  - destruct n as [|c n]; [congruence|]. cbn [app head_not]. inversion Hp; subst.
    unfold is_multispace, plain_char in *. lia.
Qed.

Lemma sep_tail_ok l : forall s fuel,
  Forall cellrange_ok l -> format_cellranges_tl l = Ok s -> (length s <= fuel)%nat ->
  sep_tail (S fuel) s = Ok (l, []).
Proof.
  induction l as [|x l IH]; intros s fuel Hok H Hf; cbn [format_cellranges_tl] in H.
  - inversion H; subst. reflexivity.
  - apply bind_ok in H as (sx & Hx & H). apply bind_ok in H as (t & Ht & H). inversion H; subst; clear H.
    inversion Hok; subst. change (lit " ") with [32] in *. cbn [app] in Hf.
    match goal with |- sep_tail _ ?l = _ => change l with (32 :: sx ++ t) end.
    pose proof (fmt_range_length _ _ Hx) as Hlen.
    assert (Hs : span is_multispace (32 :: sx ++ t) = ([32], sx ++ t)).
    { apply (span_app _ [32]); [constructor; [reflexivity|constructor]|].
      pose proof (fmt_range_head _ _ H1 Hx) as Hh. destruct sx as [|c sx]; [cbn in Hlen; lia|]. exact Hh. }
    cbn [sep_tail]. unfold take1. rewrite Hs.
    cbn [app]. rewrite (parse_cell_range_ok x sx t); auto.
    2:{ destruct l as [|y l]; cbn [format_cellranges_tl] in Ht; [inversion Ht; exact I|].
        apply bind_ok in Ht as (? & ? & Ht). apply bind_ok in Ht as (? & ? & Ht). inversion Ht. reflexivity. }
    cbn [app length] in Hf. rewrite app_length in Hf.
    destruct fuel as [|fuel]; [cbn in Hf; lia|].
    assert (Hlt : (length t <= fuel)%nat) by (cbn in Hf; lia).
    rewrite (IH t fuel); auto.
Qed.

Theorem cellranges_roundtrip l s :
  l <> [] -> Forall cellrange_ok l -> format_cellranges l = Ok s -> parse_cellranges s = Ok (Some l).
Proof.
  intros Hne Hok H. destruct l as [|x l]; [congruence|]. cbn [format_cellranges] in H.
  apply bind_ok in H as (sx & Hx & H). apply bind_ok in H as (t & Ht & H). inversion H; subst; clear H.
  inversion Hok; subst. unfold parse_cellranges, parse_cell_range_list.
  rewrite (parse_cell_range_ok x sx t); auto.
  2:{ destruct l as [|y l]; cbn [format_cellranges_tl] in Ht; [inversion Ht; exact I|].
      apply bind_ok in Ht as (? & ? & Ht). apply bind_ok in Ht as (? & ? & Ht). inversion Ht. reflexivity. }
  rewrite (sep_tail_ok l t (length t)); auto.
Qed.

Lemma format_cellranges_total l : Forall cellrange_u32 l -> exists s, format_cellranges l = Ok s.
Proof.
  intros H. assert (Hp : exists s, format_cellranges_tl l = Ok s).
  { induction H as [|x l Hx _ (s & IH)]; cbn [format_cellranges_tl]; [eauto|].
    destruct (cellrange_text_ok x Hx) as (sx & -> & _). rewrite IH. cbn. eauto. }
  destruct H as [|x l Hx Hl]; cbn [format_cellranges]; [eauto|].
  destruct (cellrange_text_ok x Hx) as (sx & Esx & _).
  destruct Hp as (s & Hp). cbn [format_cellranges_tl] in Hp. rewrite Esx in *. cbn [bind] in *.
  apply bind_ok in Hp as (t & -> & _). cbn. eauto.
Qed.

(** ** what an accepted text says, and when the parser panics *)

Lemma opt_dollar_inv s d r : opt (tag1 36) s = Ok (d, r) -> s = mark (is_some d) ++ r.
Proof.
  unfold opt, tag1. destruct s as [|c s]; intros H.
  - inversion H; reflexivity.
  - destruct (c =? 36) eqn:E; inversion H; subst; cbn; [f_equal; lia|reflexivity].
Qed.

Lemma parse_col_sound s a c r :
  parse_col s = Ok ((a, c), r) -> exists n, s = mark a ++ n ++ r /\ column_name c n.
Proof.
  unfold parse_col. intros H.
  apply bind_ok in H as ([d s1] & Hd & H). apply bind_ok in H as ([n s2] & Hn & H).
  apply bind_ok in H as (v & Hv & H). inversion H; subst; clear H.
  apply opt_dollar_inv in Hd as ->. unfold take1 in Hn.
  destruct (span is_alpha s1) as [x y] eqn:Es. apply span_spec in Es as (-> & _ & _).
  destruct x as [|x0 x]; [discriminate|]. inversion Hn; subst; clear Hn.
  exists (x0 :: x). split; [reflexivity|]. unfold try_u32_from_colname in Hv.
  apply bind_ok in Hv as (w & Hw & Hv). pose proof (colname_loop_err _ _ _ Hw) as Hu.
  rewrite colname_loop_spec in Hw by (auto; unfold u32_max; lia).
  change (fold_left step26 (x0 :: x) 0) with (bij26 (x0 :: x)) in Hw.
  destruct (_ <=? u32_max) eqn:E in Hw; [|discriminate]. inversion Hw; subst.
  destruct (_ =? 0) eqn:E0 in Hv; [discriminate|]. inversion Hv. split; auto. lia.
Qed.

Lemma parse_row_sound s a c r :
  parse_row s = Ok ((a, c), r) -> exists n, s = mark a ++ n ++ r /\ all_digit n /\ dec n = c + 1.
Proof.
  unfold parse_row. intros H.
  apply bind_ok in H as ([d s1] & Hd & H). apply bind_ok in H as ([n s2] & Hn & H).
  apply bind_ok in H as (v & Hv & H). inversion H; subst; clear H.
  apply opt_dollar_inv in Hd as ->. unfold take1 in Hn.
  destruct (span is_digit s1) as [x y] eqn:Es. apply span_spec in Es as (-> & Hx & _).
  destruct x as [|x0 x]; [discriminate|]. inversion Hn; subst; clear Hn.
  exists (x0 :: x). split; [reflexivity|]. split.
  { eapply Forall_impl; [|exact Hx]. intros z. apply is_digit_spec. }
  unfold try_u32_from_rowname, u32_from_digits in Hv. apply bind_ok in Hv as (w & Hw & Hv).
  rewrite dec_value_fold in Hw. change (fold_left _ (x0 :: x) 0) with (dec (x0 :: x)) in Hw.
  destruct (_ <=? u32_max) eqn:E in Hw; [|discriminate]. inversion Hw; subst.
  destruct (_ =? 0) eqn:E0 in Hv; [discriminate|]. inversion Hv. lia.
Qed.

Lemma tag1_inv c s u r : tag1 c s = Ok (u, r) -> s = c :: r.
Proof.
  unfold tag1. destruct s as [|x s]; [discriminate|].
  destruct (x =? c) eqn:E; [|discriminate]. intros H. inversion H; subst. f_equal. lia.
Qed.

(** the rest of a successful parser is a suffix of its input *)
Definition suffix_parser {A} (p : parser A) : Prop :=
  forall s a r, p s = Ok (a, r) -> exists pre, s = pre ++ r.

Lemma single_quoted_suffix s v r : single_quoted_string s = SqOk v r -> exists pre, s = pre ++ r.
Proof.
  unfold single_quoted_string. destruct s as [|c s]; [discriminate|].
  destruct (c =? 39); [|discriminate].
  destruct (quoted_body s) as [b r0] eqn:Eb.
  assert (Hb : forall n s b r0, (length s <= n)%nat -> quoted_body s = (b, r0) -> s = b ++ r0).
  { clear. induction n as [|n IH]; intros s b r0 Hl H.
    - destruct s; [|cbn in Hl; lia]. inversion H. reflexivity.
    - destruct s as [|c s]; cbn in H; [inversion H; reflexivity|]. cbn in Hl.
      destruct (c =? 39) eqn:E.
      + destruct s as [|c' s]; [inversion H; reflexivity|].
        destruct (c' =? 39) eqn:E'; [|inversion H; reflexivity].
        destruct (quoted_body s) as [a b'] eqn:Eq. inversion H; subst.
        apply IH in Eq; [|cbn in Hl; lia]. subst s. cbn. repeat f_equal; lia.
      + destruct (quoted_body s) as [a b'] eqn:Eq. inversion H; subst.
        apply IH in Eq; [|lia]. subst s. reflexivity. }
  destruct r0 as [|c' r0]; [discriminate|]. destruct (c' =? 39); [|discriminate].
  intros H. inversion H; subst. apply (Hb (length s)) in Eb; [|auto]. subst s.
  exists (c :: b ++ [c']). cbn. now rewrite <- app_assoc.
Qed.

Lemma parse_iri_suffix : suffix_parser parse_iri.
Proof.
  intros s a r. unfold parse_iri. destruct (single_quoted_string s) eqn:E.
  - intros H. inversion H; subst. exists []. reflexivity.
  - discriminate.
  - apply single_quoted_suffix in E as (pre & ->).
    destruct (tag1 35 rest) as [[u r']| |] eqn:Et; intros H; inversion H; subst.
    + apply tag1_inv in Et as ->. exists (pre ++ [35]). now rewrite <- app_assoc.
    + exists []. reflexivity.
    + exists []. reflexivity.
Qed.

Lemma parse_sheet_suffix s t r : parse_sheet_name s = Ok (t, r) -> exists pre, s = pre ++ [46] ++ r.
Proof.
  unfold parse_sheet_name. intros H.
  apply bind_ok in H as ([d s1] & Hd & H). apply opt_dollar_inv in Hd as ->.
  apply bind_ok in H as ([n s2] & Hn & H). apply bind_ok in H as ([u s3] & Ht & H).
  inversion H; subst; clear H. apply tag1_inv in Ht as ->.
  assert (exists pre, s1 = pre ++ 46 :: r) as (pre & ->).
  { unfold opt in Hn. destruct (quoted_or_unquoted s1) as [[v r']| |] eqn:E; inversion Hn; subst.
    - unfold quoted_or_unquoted in E. destruct (single_quoted_string s1) eqn:Eq.
      + unfold unquoted_sheet_name in E. destruct (span _ s1) as [x y] eqn:Es.
        apply span_spec in Es as (-> & _). destruct x; inversion E; subst. eauto.
      + unfold unquoted_sheet_name in E. destruct (span _ s1) as [x y] eqn:Es.
        apply span_spec in Es as (-> & _). destruct x; inversion E; subst. eauto.
      + inversion E; subst. now apply single_quoted_suffix in Eq.
    - exists []. reflexivity. }
  exists (mark (is_some d) ++ pre). now rewrite <- app_assoc.
Qed.

(** an accepted reference says what it means *)
Theorem parse_cellref_sound s r :
  parse_cellref s = Ok r ->
  cr_row r < u32_max /\ cr_col r < u32_max /\
  exists pre c w, s = pre ++ [46] ++ mark (cr_col_abs r) ++ c ++ mark (cr_row_abs r) ++ w /\
     column_name (cr_col r) c /\ all_digit w /\ dec w = cr_row r + 1.
Proof.
  unfold parse_cellref. rewrite complete_ok. intros H.
  pose proof (cellref_bounds _ _ _ H) as [Hr Hc]. split; [auto|]. split; [auto|].
  unfold parse_cell_ref_part in H.
  apply bind_ok in H as ([i s1] & Hi & H). apply parse_iri_suffix in Hi as (p1 & ->).
  apply bind_ok in H as ([t s2] & Ht & H). apply parse_sheet_suffix in Ht as (p2 & ->).
  apply bind_ok in H as ([[a c] s3] & Hc' & H). apply parse_col_sound in Hc' as (n & -> & Hn).
  apply bind_ok in H as ([[b w] s4] & Hw & H). apply parse_row_sound in Hw as (m & -> & Hm & Hd).
  inversion H; subst. cbn [cr_col_abs cr_row_abs cr_col cr_row].
  exists (p1 ++ p2), n, m. rewrite <- !app_assoc, app_nil_r. auto.
Qed.

Lemma parse_col_panic s : parse_col s = Panic ->
  exists a b c, s = a ++ b ++ c /\ all_upper b /\ u32_max < bij26 b.
Proof.
  unfold parse_col. destruct (opt (tag1 36) s) as [[d s1]| |] eqn:Ed; cbn [bind]; try discriminate.
  2:{ unfold opt, tag1 in Ed. destruct s as [|c s]; [discriminate|]. destruct (c =? 36); discriminate. }
  apply opt_dollar_inv in Ed as ->. unfold take1.
  destruct (span is_alpha s1) as [x y] eqn:Es. apply span_spec in Es as (-> & _ & _).
  destruct x as [|x0 x]; cbn [bind]; [discriminate|].
  unfold try_u32_from_colname. destruct (colname_loop 0 (x0 :: x)) eqn:El; cbn [bind]; try discriminate.
  { destruct (a =? 0); discriminate. }
  intros _. apply colname_loop_panic in El as (a & b & E & Ha & Hb).
  exists (mark (is_some d)), a, (b ++ y). rewrite E, <- app_assoc. auto.
Qed.

Lemma parse_row_no_panic s : parse_row s <> Panic.
Proof.
  unfold parse_row. destruct (opt (tag1 36) s) as [[d s1]| |] eqn:Ed; cbn [bind]; try discriminate.
  2:{ unfold opt, tag1 in Ed. destruct s as [|c s]; [discriminate|]. destruct (c =? 36); discriminate. }
  unfold take1. destruct (span is_digit s1) as [[|? ?] ?]; cbn [bind]; [discriminate|].
  unfold try_u32_from_rowname, u32_from_digits.
  destruct (_ <=? u32_max); cbn [bind]; [|discriminate]. destruct (_ =? 0); discriminate.
Qed.

Lemma parse_iri_no_panic s : parse_iri s <> Panic.
Proof.
  unfold parse_iri. destruct (single_quoted_string s); try discriminate.
  destruct (tag1 35 rest) as [[? ?]| |]; discriminate.
Qed.

Lemma parse_sheet_no_panic s : parse_sheet_name s <> Panic.
Proof.
  unfold parse_sheet_name.
  destruct (opt (tag1 36) s) as [[d s1]| |] eqn:Ed; cbn [bind]; try discriminate.
  2:{ unfold opt, tag1 in Ed. destruct s as [|c s]; [discriminate|]. destruct (c =? 36); discriminate. }
  destruct (opt quoted_or_unquoted s1) as [[n s2]| |] eqn:Eo; cbn [bind]; try discriminate.
  2:{ unfold opt, quoted_or_unquoted, unquoted_sheet_name in Eo.
      destruct (single_quoted_string s1); try discriminate;
      destruct (span sheet_name_char s1) as [[|? ?] ?]; discriminate. }
  unfold tag1. destruct s2 as [|c s2]; cbn; [discriminate|]. destruct (c =? 46); discriminate.
Qed.

(** a panic can only come from a run of letters too large for u32 *)
Theorem parse_cellref_panic s :
  parse_cellref s = Panic -> exists a b c, s = a ++ b ++ c /\ all_upper b /\ u32_max < bij26 b.
Proof.
  unfold parse_cellref, complete, parse_cell_ref_part.
  destruct (parse_iri s) as [[i s1]| |] eqn:Ei; cbn [bind]; try discriminate.
  2:{ now apply parse_iri_no_panic in Ei. }
  apply parse_iri_suffix in Ei as (p1 & ->).
  destruct (parse_sheet_name s1) as [[t s2]| |] eqn:Et; cbn [bind]; try discriminate.
  2:{ now apply parse_sheet_no_panic in Et. }
  apply parse_sheet_suffix in Et as (p2 & ->).
  destruct (parse_col s2) as [[[a c] s3]| |] eqn:Ec; cbn [bind]; try discriminate.
  - destruct (parse_row s3) as [[[b w] s4]| |] eqn:Er; cbn [bind]; try discriminate.
    + destruct s4; discriminate.
    + now apply parse_row_no_panic in Er.
  - intros _. apply parse_col_panic in Ec as (x & y & z & -> & Hy & Hv).
    exists (p1 ++ p2 ++ [46] ++ x), y, z. rewrite <- !app_assoc. auto.
Qed.

Theorem parse_cellref_no_panic s : letter_runs_le 6 s -> parse_cellref s <> Panic.
Proof.
  intros H Hp. apply parse_cellref_panic in Hp as (a & b & c & -> & Hb & Hv).
  specialize (H a b c eq_refl Hb). pose proof (bij26_cap b Hb) as Hcap.
  assert (Hm : forall i j, (i <= j)%nat -> cap i <= cap j).
  { clear. induction 1; cbn [cap]; lia. }
  pose proof (Hm _ _ H) as H6. change (cap 6) with 321272406 in H6. unfold u32_max in *. lia.
Qed.

(** ** geometry *)

Lemma contains_iff r row col : range_contains r row col = true <-> in_rect r row col.
Proof. unfold range_contains, in_rect. lia. Qed.

Lemma out_looped_iff r row col :
  rg_row r <= rg_to_row r -> rg_col r <= rg_to_col r ->
  (out_looped r row col = true <->
   forall row' col', before_or_at row col row' col' -> ~ in_rect r row' col').
Proof.
  intros H1 H2. unfold out_looped, before_or_at, in_rect. split.
  - intros H row' col' Hb. lia.
  - intros H. destruct ((rg_to_row r <? row) || (row =? rg_to_row r) && (rg_to_col r <? col)) eqn:E; [reflexivity|].
    exfalso. apply (H (rg_to_row r) (rg_to_col r)); lia.
Qed.

Lemma origin_span_iff row col sr sc r :
  u32 row -> u32 col -> 0 < sr -> 0 < sc ->
  (origin_span row col (sr, sc) = Ok r <->
   row + sr <= u32_max /\ col + sc <= u32_max /\
   r = mkCellRange None None false row false col None false (row + sr - 1) false (col + sc - 1)).
Proof.
  intros Hr Hc H1 H2. unfold origin_span, add32, sub32. cbn [fst snd].
  destruct ((0 <? sr) && (0 <? sc)) eqn:E; [|lia].
  destruct (row + sr <=? u32_max) eqn:E1; cbn [bind]; [|split; [discriminate|lia]].
  destruct (1 <=? row + sr) eqn:E2; cbn [bind]; [|lia].
  destruct (col + sc <=? u32_max) eqn:E3; cbn [bind]; [|split; [discriminate|lia]].
  destruct (1 <=? col + sc) eqn:E4; cbn [bind]; [|lia].
  split; intros H; [inversion H; repeat split; lia|]. destruct H as (_ & _ & ->). reflexivity.
Qed.

Lemma origin_span_cells row col sr sc r row' col' :
  origin_span row col (sr, sc) = Ok r ->
  (range_contains r row' col' = true <-> row <= row' < row + sr /\ col <= col' < col + sc).
Proof.
  unfold origin_span, add32, sub32. cbn [fst snd]. intros H.
  destruct ((0 <? sr) && (0 <? sc)) eqn:E; [|discriminate].
  apply bind_ok in H as (a & Ha & H). apply bind_ok in H as (b & Hb & H).
  apply bind_ok in H as (c & Hc & H). apply bind_ok in H as (d & Hd & H). inversion H; subst; clear H.
  destruct (_ <=? _) in Ha; inversion Ha; destruct (_ <=? _) in Hb; inversion Hb;
  destruct (_ <=? _) in Hc; inversion Hc; destruct (_ <=? _) in Hd; inversion Hd; subst.
  unfold range_contains. cbn [rg_row rg_col rg_to_row rg_to_col]. lia.
Qed.

(** ** formula helpers *)

Lemma to_formula_ok r : cellref_u32 r -> helper_result r (cellref_to_formula r).
Proof.
  intros H. destruct (cellref_text_ok r H) as (s & Hs & Ht). exists s.
  unfold cellref_to_formula. rewrite Hs. split; [reflexivity|]. split; [auto|].
  now apply cellref_roundtrip_iff.
Qed.
Lemma range_to_formula_ok r : cellrange_u32 r -> range_helper_result r (cellrange_to_formula r).
Proof.
  intros H. destruct (cellrange_text_ok r H) as (s & Hs & Ht). exists s.
  unfold cellrange_to_formula. rewrite Hs. split; [reflexivity|]. split; [auto|].
  now apply cellrange_roundtrip_iff.
Qed.

Lemma fcellref_ok row col t : u32 row -> u32 col ->
  helper_result (mkCellRef None None false row false col) (fcellref row col) /\
  helper_result (mkCellRef None None true row false col) (fcellrefr row col) /\
  helper_result (mkCellRef None None false row true col) (fcellrefc row col) /\
  helper_result (mkCellRef None None true row true col) (fcellrefa row col) /\
  helper_result (mkCellRef None (Some t) false row false col) (fcellref_table t row col) /\
  helper_result (mkCellRef None (Some t) true row false col) (fcellrefr_table t row col) /\
  helper_result (mkCellRef None (Some t) false row true col) (fcellrefc_table t row col) /\
  helper_result (mkCellRef None (Some t) true row true col) (fcellrefa_table t row col).
Proof. intros Hr Hc. repeat split; apply to_formula_ok; split; assumption. Qed.

Lemma frangeref_ok row col row2 col2 t : row <= row2 -> col <= col2 -> u32 row2 -> u32 col2 ->
  let mk t a b := mkCellRange None t a row b col None a row2 b col2 in
  range_helper_result (mk None false false) (frangeref row col row2 col2) /\
  range_helper_result (mk None true false) (frangerefr row col row2 col2) /\
  range_helper_result (mk None false true) (frangerefc row col row2 col2) /\
  range_helper_result (mk None true true) (frangerefa row col row2 col2) /\
  range_helper_result (mk (Some t) false false) (frangeref_table t row col row2 col2) /\
  range_helper_result (mk (Some t) true false) (frangerefr_table t row col row2 col2) /\
  range_helper_result (mk (Some t) false true) (frangerefc_table t row col row2 col2) /\
  range_helper_result (mk (Some t) true true) (frangerefa_table t row col row2 col2).
Proof.
  intros Hr Hc Hr2 Hc2 mk.
  assert (E : (row <=? row2) && (col <=? col2) = true) by lia.
  unfold frangeref, frangerefr, frangerefc, frangerefa, frangeref_table, frangerefr_table,
    frangerefc_table, frangerefa_table, range_local, range_remote. rewrite E.
  repeat split; apply range_to_formula_ok; unfold cellrange_u32, u32 in *; cbn; repeat split; auto; lia.
Qed.

Lemma frangeref_panic row col row2 col2 t : row2 < row \/ col2 < col ->
  frangeref row col row2 col2 = Panic /\ frangeref_table t row col row2 col2 = Panic.
Proof.
  intros H. unfold frangeref, frangeref_table, range_local, range_remote.
  assert (E : (row <=? row2) && (col <=? col2) = false) by lia. rewrite E. auto.
Qed.

Lemma cell_macro_local ra row ca col :
  cell_macro None ra row ca col = mkCellRef None None ra row ca col.
Proof. destruct ra, ca; reflexivity. Qed.
Lemma cell_macro_table t ra row ca col :
  cell_macro (Some t) ra row ca col = mkCellRef None (Some t) true row true col.
Proof. destruct ra, ca; reflexivity. Qed.
Lemma cell_macro_range_ok t ra row ca col ra2 row2 ca2 col2 :
  cell_macro_range t ra row ca col ra2 row2 ca2 col2 =
  mkCellRange None t ra row ca col None ra2 row2 ca2 col2.
Proof. destruct ra, ca, ra2, ca2; reflexivity. Qed.

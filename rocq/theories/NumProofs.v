(** Proofs about numbers and dates as text. *)
From Verif Require Import Base RefsModel RefsSpec RefsProofs CellModel NumModel NumSpec.

Ltac Zify.zify_post_hook ::= Z.div_mod_to_equations.

(** ** Numerals *)
Lemma dec_value_dec s : dec_value 0 s = dec s.
Proof. apply dec_value_fold. Qed.
Lemma dec_cat a b : dec (a ++ b) = dec a * 10 ^ N.of_nat (length b) + dec b.
Proof.
  induction b as [|c b IH] using rev_ind.
  - rewrite app_nil_r. cbn. lia.
  - rewrite app_assoc, !dec_app, IH, app_length. cbn [length]. rewrite Nat.add_1_r, Nat2N.inj_succ, N.pow_succ_r'. lia.
Qed.
Lemma dec_bound s : all_digit s -> dec s < 10 ^ N.of_nat (length s).
Proof.
  induction s as [|c s IH] using rev_ind; intros H; [cbn; lia|].
  apply Forall_app in H as [H Hc]. inversion Hc; subst. specialize (IH H).
  rewrite dec_app, app_length. cbn [length]. rewrite Nat.add_1_r, Nat2N.inj_succ, N.pow_succ_r'. lia.
Qed.
Lemma dec_zeros k : dec (repeat 48 k) = 0.
Proof. induction k; [reflexivity|]. cbn [repeat]. change (48 :: repeat 48 k) with ([48] ++ repeat 48 k). rewrite dec_cat, IHk. cbn. lia. Qed.
Lemma zeros_digit k : all_digit (repeat 48 k).
Proof. apply Forall_forall. intros c H. apply repeat_spec in H. lia. Qed.
Lemma digit_forallb s : forallb is_digit s = true <-> all_digit s.
Proof.
  rewrite forallb_forall. unfold all_digit. rewrite Forall_forall. split; intros H c Hc.
  - apply is_digit_spec; auto.
  - apply is_digit_spec. auto.
Qed.
Lemma digit_Forall s : all_digit s -> Forall (fun c => is_digit c = true) s.
Proof. intros H. eapply Forall_impl; [|exact H]. cbv beta. intros. now apply is_digit_spec. Qed.
Lemma Forall_digit s : Forall (fun c => is_digit c = true) s -> all_digit s.
Proof. intros H. eapply Forall_impl; [|exact H]. cbv beta. intros c Hc. now apply is_digit_spec. Qed.

Lemma digits_of_ok room n acc : n < 10 ^ N.of_nat room -> room <> O ->
  exists ds, digits_of room n acc = ds ++ acc /\ shortest ds n.
Proof.
  revert n acc. induction room as [|k IH]; intros n acc Hn Hr; [congruence|].
  rewrite Nat2N.inj_succ, N.pow_succ_r' in Hn. cbn [digits_of].
  destruct (n / 10 =? 0) eqn:E.
  - exists [48 + n mod 10]. split; auto. split; [|cbn [hd]; intros ->; reflexivity].
    split; [discriminate|]. split; [constructor; [lia|constructor]|]. unfold dec. cbn [fold_left]. lia.
  - destruct (IH (n / 10) (48 + n mod 10 :: acc)) as (ds & -> & (Hne & Hd & Hv) & Hh).
    + lia.
    + intros ->. cbn in *. lia.
    + exists (ds ++ [48 + n mod 10]). split; [now rewrite <- app_assoc|]. split; [split|].
      * destruct ds; discriminate.
      * split; [apply Forall_app; split; [auto|constructor; [lia|constructor]]|]. rewrite dec_app, Hv. lia.
      * intros H. destruct ds as [|c ds]; [congruence|]. cbn [app hd] in H. cbn [hd] in Hh. specialize (Hh H).
        inversion Hh; subst ds. subst c. cbn in Hv. lia.
Qed.
Lemma show_N_ok n : shortest (show_N n) n.
Proof.
  unfold show_N. destruct (digits_of_ok (S (N.to_nat (N.log2 n))) n []) as (ds & -> & H).
  - rewrite Nat2N.inj_succ, N2Nat.id. destruct (N.eq_dec n 0) as [->|Hn]; [reflexivity|].
    destruct (N.log2_spec n) as [_ H]; [lia|]. eapply N.lt_le_trans; [exact H|].
    apply N.pow_le_mono_l. lia.
  - discriminate.
  - now rewrite app_nil_r.
Qed.
Lemma show_N_numeral n : numeral (show_N n) n.
Proof. apply show_N_ok. Qed.
Lemma show_N_length n k : n < 10 ^ N.of_nat k -> (1 <= k)%nat -> (length (show_N n) <= k)%nat.
Proof.
  intros H Hk. destruct (show_N_ok n) as ((Hne & Hd & Hv) & Hh).
  destruct (show_N n) as [|c s]; [congruence|]. cbn [hd] in Hh.
  destruct (N.eq_dec c 48) as [E|E]; [rewrite (Hh E); cbn; lia|].
  destruct (Nat.le_gt_cases (length (c :: s)) k) as [|C]; auto. exfalso.
  cbn [length] in C. change (c :: s) with ([c] ++ s) in Hv. rewrite dec_cat in Hv.
  inversion Hd; subst. assert (dec [c] = c - 48) as Ec by (cbn; lia). rewrite Ec in H.
  assert (10 ^ N.of_nat k <= 10 ^ N.of_nat (length s)) by (apply N.pow_le_mono_r; lia).
  assert (1 * 10 ^ N.of_nat (length s) <= (c - 48) * 10 ^ N.of_nat (length s)) by (apply N.mul_le_mono_r; lia). lia.
Qed.
Lemma show_N_min n k : 10 ^ N.of_nat k <= n -> (k < length (show_N n))%nat.
Proof.
  intros H. destruct (show_N_numeral n) as (_ & Hd & Hv). apply dec_bound in Hd. rewrite Hv in Hd.
  assert (10 ^ N.of_nat k < 10 ^ N.of_nat (length (show_N n))) as C by lia.
  apply N.pow_lt_mono_r_iff in C; lia.
Qed.
Lemma pad_ok w n : numeral (pad w (show_N n)) n.
Proof.
  destruct (show_N_numeral n) as (Hne & Hd & Hv). unfold pad. split; [|split].
  - intros H. apply app_eq_nil in H as [_ H]. auto.
  - apply Forall_app. split; [apply zeros_digit|auto].
  - rewrite dec_cat, dec_zeros, Hv. lia.
Qed.
Lemma pad_length w n : n < 10 ^ N.of_nat w -> (1 <= w)%nat -> length (pad w (show_N n)) = w.
Proof.
  intros H Hw. unfold pad. rewrite app_length, repeat_length. apply Nat.sub_add. now apply show_N_length.
Qed.
Lemma numeral_zero s n : numeral s n -> 0 < N.of_nat (length s).
Proof. intros (H & _). destruct s; [congruence|]. cbn [length]. lia. Qed.

(** ** Integers *)
Lemma std_int_ok lo hi s z : sign_all_digits s = true ->
  std_int lo hi s = Ok z <-> int_text s z /\ (lo <= z <= hi)%Z.
Proof.
  intros Hs. destruct s as [|c r]; [discriminate|]. cbn [sign_all_digits] in Hs.
  apply andb_prop in Hs as [Hc Hr]. apply digit_forallb in Hr. unfold std_int.
  destruct (c =? 45) eqn:E.
  - apply N.eqb_eq in E. subst c. clear Hc. cbn [split_sign]. rewrite N.eqb_refl. split.
    + intros H. destruct r as [|x r]; [discriminate|]. rewrite dec_value_dec in H.
      destruct (_ && _)%bool eqn:B in H; [|discriminate]. assert (z = (- Z.of_N (dec (x :: r)))%Z) by congruence. subst z.
      split; [|lia]. exists (x :: r), (dec (x :: r)). split; [split; [discriminate|auto]|]. auto.
    + intros ((d & n & (Hne & Hd & Hv) & [[<- ->]|[H ->]]) & B).
      * exfalso. inversion Hd; subst. lia.
      * assert (r = d) by congruence. subst r. destruct d as [|x d]; [congruence|].
        rewrite dec_value_dec, Hv. replace (_ && _)%bool with true by lia. reflexivity.
  - cbn [orb] in Hc. apply is_digit_spec in Hc. assert (Hall : all_digit (c :: r)) by (constructor; auto).
    cbn [split_sign]. rewrite E. rewrite dec_value_dec. split.
    + intros H. destruct (_ && _)%bool eqn:B in H; [|discriminate].
      assert (z = Z.of_N (dec (c :: r))) by congruence. subst z. split; [|lia].
      exists (c :: r), (dec (c :: r)). split; [split; [discriminate|auto]|]. auto.
    + intros ((d & n & (Hne & Hd & Hv) & [[<- ->]|[H ->]]) & B).
      * rewrite Hv. replace (_ && _)%bool with true by lia. reflexivity.
      * exfalso. assert (c = 45) by congruence. lia.
Qed.
Lemma int_text_sign s z : int_text s z -> sign_all_digits s = true.
Proof.
  intros (d & n & (Hne & Hd & Hv) & [[-> ->]|[-> ->]]).
  - destruct d as [|c r]; [congruence|]. inversion Hd; subst. cbn [sign_all_digits].
    apply andb_true_intro. split; [|now apply digit_forallb]. apply orb_true_iff. right. now apply is_digit_spec.
  - cbn [sign_all_digits]. apply andb_true_intro. split; [reflexivity|]. now apply digit_forallb.
Qed.
Lemma parse_int_ok lo hi s z : parse_int lo hi s = Ok z <-> int_text s z /\ (lo <= z <= hi)%Z.
Proof.
  unfold parse_int. destruct (sign_all_digits s) eqn:E; [now apply std_int_ok|].
  split; [discriminate|]. intros [H _]. apply int_text_sign in H. congruence.
Qed.
Lemma std_int_no_panic lo hi s : std_int lo hi s <> Panic.
Proof.
  unfold std_int. destruct (split_sign s) as [b d].
  destruct d; [discriminate|]. destruct (_ && _)%bool; discriminate.
Qed.
Lemma parse_int_no_panic lo hi s : parse_int lo hi s <> Panic.
Proof. unfold parse_int. destruct (sign_all_digits s); [apply std_int_no_panic|discriminate]. Qed.
Lemma parse_u32_ok s n : parse_u32 s = Ok n <-> numeral s n /\ n <= 4294967295.
Proof.
  unfold parse_u32. destruct (forallb is_digit s) eqn:E.
  - apply digit_forallb in E. destruct s as [|c r].
    { cbn. split; [discriminate|]. intros ((H & _) & _). congruence. }
    assert (Hs : sign_all_digits (c :: r) = true).
    { inversion E; subst. cbn [sign_all_digits]. apply andb_true_intro. split; [|now apply digit_forallb].
      apply orb_true_iff. right. now apply is_digit_spec. }
    pose proof (fun z => std_int_ok 0 4294967295 (c :: r) z Hs) as S. split.
    + intros H. apply bind_ok in H as (z & Hz & H). apply S in Hz as ((d & m & Hd & [[-> ->]|[Hm ->]]) & B).
      * assert (n = m) by (rewrite N2Z.id in H; congruence). subst. split; [auto|lia].
      * exfalso. inversion E; subst. assert (c = 45) by congruence. lia.
    + intros [Hd B]. rewrite (proj2 (S (Z.of_N n))).
      * cbn [bind]. now rewrite N2Z.id.
      * split; [|lia]. exists (c :: r), n. auto.
  - split; [discriminate|]. intros ((_ & H & _) & _). apply digit_forallb in H. congruence.
Qed.
Lemma parse_u32_no_panic s : parse_u32 s <> Panic.
Proof.
  unfold parse_u32. destruct (forallb is_digit s); [|discriminate]. intros H.
  pose proof (std_int_no_panic 0 4294967295 s). destruct (std_int _ _ s); cbn in H; congruence.
Qed.
Lemma show_Z_text z : int_text (show_Z z) z.
Proof.
  exists (show_N (Z.abs_N z)), (Z.abs_N z). split; [apply show_N_numeral|]. unfold show_Z.
  destruct (z <? 0)%Z eqn:E; [right|left]; (split; [reflexivity|lia]).
Qed.

(** ** Tokens *)
Lemma take1_digits d r : d <> [] -> all_digit d -> head_not is_digit r -> take1 is_digit (d ++ r) = Ok (d, r).
Proof.
  intros Hne Hd Hr. unfold take1. rewrite span_app; auto using digit_Forall. destruct d; [congruence|reflexivity].
Qed.
Lemma take1_inv s d r : take1 is_digit s = Ok (d, r) -> s = d ++ r /\ d <> [] /\ all_digit d /\ head_not is_digit r.
Proof.
  unfold take1. destruct (span is_digit s) as [a b] eqn:E. apply span_spec in E as (-> & Ha & Hb).
  destruct a; [discriminate|]. intros H. inversion H; subst. repeat split; auto using Forall_digit. discriminate.
Qed.
Lemma datepart_ok d n r : numeral d n -> (Z.of_N n <= i64_max)%Z -> head_not is_digit r ->
  token_datepart (d ++ r) = Ok (n, r).
Proof.
  intros (Hne & Hd & Hv) Hn Hr. unfold token_datepart. rewrite take1_digits by auto. cbn [bind].
  rewrite dec_value_dec, Hv. destruct (_ <=? _)%Z eqn:E; [reflexivity|lia].
Qed.
Lemma datepart_inv s n r : token_datepart s = Ok (n, r) ->
  exists d, s = d ++ r /\ numeral d n /\ (Z.of_N n <= i64_max)%Z /\ head_not is_digit r.
Proof.
  unfold token_datepart. intros H. apply bind_ok in H as ([d r'] & E & H).
  apply take1_inv in E as (-> & Hne & Hd & Hr). rewrite dec_value_dec in H.
  destruct (_ <=? _)%Z eqn:B in H; [|discriminate]. inversion H; subst.
  exists d. repeat split; auto. lia.
Qed.
Lemma take1_no_panic p s : take1 p s <> Panic.
Proof. unfold take1. destruct (span p s) as [[|]]; discriminate. Qed.
Lemma datepart_no_panic s : token_datepart s <> Panic.
Proof.
  unfold token_datepart. pose proof (take1_no_panic is_digit s). destruct (take1 is_digit s) as [[a b]| |]; cbn; try congruence.
  destruct (_ <=? _)%Z; discriminate.
Qed.
Lemma firstn_repeat {A} (x : A) m k : (k <= m)%nat -> firstn k (repeat x m) = repeat x k.
Proof. revert k. induction m; intros k Hk; [replace k with O by lia; reflexivity|]. destruct k; [reflexivity|]. cbn. f_equal. apply IHm. lia. Qed.
Lemma nano_value d : all_digit d -> d <> [] -> fraction d (dec (firstn 9 (d ++ repeat 48 9))).
Proof.
  intros Hd Hne. split; [auto|]. split; [auto|]. rewrite firstn_app.
  destruct (Nat.leb (length d) 9) eqn:L.
  - apply Nat.leb_le in L. rewrite firstn_all2 by auto. rewrite firstn_repeat by lia.
    rewrite dec_cat, dec_zeros, repeat_length, N.add_0_r. f_equal. f_equal. unfold char, str in *. lia.
  - apply Nat.leb_gt in L. replace (9 - length d)%nat with O by (unfold char, str in *; lia). cbn [firstn repeat]. rewrite app_nil_r.
    rewrite <- (firstn_skipn 9 d) at 2. rewrite dec_cat, skipn_length.
    assert (Hs : all_digit (skipn 9 d)).
    { rewrite <- (firstn_skipn 9 d) in Hd. apply Forall_app in Hd. apply Hd. }
    apply dec_bound in Hs. rewrite skipn_length in Hs.
    replace (N.of_nat (length d) - 9) with (N.of_nat (length d - 9)) by (unfold char, str in *; lia).
    assert (10 ^ N.of_nat (length d - 9) <> 0) by (apply N.pow_nonzero; lia).
    rewrite N.div_add_l by auto. rewrite (N.div_small _ _ Hs). symmetry. apply N.add_0_r.
Qed.
Lemma fraction_unique d a b : fraction d a -> fraction d b -> a = b.
Proof. intros (_ & _ & Ha) (_ & _ & Hb). destruct (Nat.leb _ 9); congruence. Qed.
Lemma fraction_bound d n : fraction d n -> n < 1000000000.
Proof.
  intros (Hne & Hd & H). rewrite (fraction_unique d n (dec (firstn 9 (d ++ repeat 48 9)))); [|split; auto|now apply nano_value].
  assert (L : length (firstn 9 (d ++ repeat 48 9)) = 9%nat) by (rewrite firstn_length, app_length, repeat_length; unfold char in *; lia).
  assert (D : all_digit (firstn 9 (d ++ repeat 48 9))).
  { apply Forall_forall. intros c Hc. assert (In c (d ++ repeat 48 9)) as Hi.
    { rewrite <- (firstn_skipn 9 (d ++ repeat 48 9)). apply in_or_app. auto. }
    apply in_app_or in Hi as [Hi|Hi].
    - eapply Forall_forall in Hd; [|exact Hi]. exact Hd.
    - apply repeat_spec in Hi. lia. }
  apply dec_bound in D. rewrite L in D. exact D.
Qed.
Lemma nano_ok d n r : fraction d n -> head_not is_digit r -> token_nano (d ++ r) = Ok (n, r).
Proof.
  intros F Hr. pose proof F as (Hne & Hd & _). unfold token_nano. rewrite take1_digits by auto. cbn [bind].
  rewrite dec_value_dec. rewrite (fraction_unique _ _ _ F (nano_value d Hd Hne)). reflexivity.
Qed.
Lemma nano_inv s n r : token_nano s = Ok (n, r) -> exists d, s = d ++ r /\ fraction d n /\ head_not is_digit r.
Proof.
  unfold token_nano. intros H. apply bind_ok in H as ([d r'] & E & H).
  apply take1_inv in E as (-> & Hne & Hd & Hr). rewrite dec_value_dec in H.
  inversion H; subst. exists d. repeat split; auto; now apply nano_value.
Qed.
Lemma tag1_ok c r : tag1 c (c :: r) = Ok (tt, r).
Proof. cbn. now rewrite N.eqb_refl. Qed.
Lemma tag1_inv c s u r : tag1 c s = Ok (u, r) -> s = c :: r.
Proof. destruct s as [|x s]; [discriminate|]. cbn. destruct (x =? c) eqn:E; [|discriminate]. intros H. inversion H; subst. f_equal. lia. Qed.
Lemma tag1_no_panic c s : tag1 c s <> Panic.
Proof. destruct s as [|x s]; cbn; [discriminate|]. destruct (x =? c); discriminate. Qed.
Lemma opt_inv {A} (p : parser A) s o r : opt p s = Ok (o, r) ->
  match o with Some a => p s = Ok (a, r) | None => p s = Err /\ r = s end.
Proof. unfold opt. destruct (p s) as [[a q]| |]; intros H; inversion H; subst; auto. Qed.
Lemma opt_some {A} (p : parser A) s a r : p s = Ok (a, r) -> opt p s = Ok (Some a, r).
Proof. unfold opt. now intros ->. Qed.
Lemma opt_none {A} (p : parser A) s : p s = Err -> opt p s = Ok (None, s).
Proof. unfold opt. now intros ->. Qed.

(** optional fraction *)
Lemma opt_nano_ok o t r : opt_fraction o t -> head_not is_digit r -> head_not (N.eqb 46) r ->
  opt (preceded 46 token_nano) (t ++ r) = Ok (o, r).
Proof.
  intros H Hr H46. destruct o as [n|]; cbn in H.
  - destruct H as (f & F & ->). apply opt_some. unfold preceded. cbn [app]. rewrite tag1_ok. cbn [bind]. now apply nano_ok.
  - subst t. cbn [app]. apply opt_none. unfold preceded. destruct r as [|c r]; [reflexivity|]. cbn [head_not] in H46. unfold tag1.
    rewrite N.eqb_sym, H46. reflexivity.
Qed.
Lemma opt_nano_inv s o r : opt (preceded 46 token_nano) s = Ok (o, r) ->
  exists t, s = t ++ r /\ opt_fraction o t.
Proof.
  intros H. apply opt_inv in H. destruct o as [n|].
  - unfold preceded in H. apply bind_ok in H as ([u s1] & E & H). apply tag1_inv in E. subst s.
    apply nano_inv in H as (d & -> & F & _). exists (46 :: d). split; [reflexivity|]. exists d. auto.
  - destruct H as [_ ->]. exists []. split; [reflexivity|]. reflexivity.
Qed.

(** ** Durations *)
Definition not_comp (u : char) (t : str) : Prop :=
  head_not is_digit t \/ exists d c r, d <> [] /\ all_digit d /\ t = d ++ c :: r /\ c <> u /\ is_digit c = false.
Lemma terminated_ok u d n r : is_digit u = false -> numeral d n -> (Z.of_N n <= i64_max)%Z ->
  terminated token_datepart u (d ++ u :: r) = Ok (n, r).
Proof.
  intros Hu Hd Hn. unfold terminated. rewrite (datepart_ok d n) by auto. cbn [bind]. rewrite tag1_ok. reflexivity.
Qed.
Lemma datepart_err t : head_not is_digit t -> token_datepart t = Err.
Proof. intros H. destruct t as [|c t]; [reflexivity|]. cbn in H. unfold token_datepart, take1. cbn [span]. rewrite H. reflexivity. Qed.
Lemma terminated_err u t : not_comp u t -> terminated token_datepart u t = Err.
Proof.
  intros [H|(d & c & r & Hne & Hd & -> & Hc & Hu)]; unfold terminated.
  - now rewrite datepart_err.
  - unfold token_datepart. rewrite take1_digits by auto. cbn [bind]. destruct (_ <=? _)%Z; [|reflexivity]. cbn [bind].
    cbn. replace (c =? u) with false by (symmetry; now apply N.eqb_neq). reflexivity.
Qed.
Definition small_opt (o : option N) : Prop := (oget o <= i64_max)%Z.
Lemma comp_ok u o t r : is_digit u = false -> component u o t -> small_opt o -> (o = None -> not_comp u r) ->
  opt (terminated token_datepart u) (t ++ r) = Ok (o, r).
Proof.
  intros Hu Ht Hs Hr. destruct o as [n|]; cbn in Ht.
  - destruct Ht as (d & Hd & ->). apply opt_some. rewrite <- app_assoc. apply terminated_ok; auto.
  - subst t. apply opt_none, terminated_err. auto.
Qed.
Lemma comp_inv u s o r : opt (terminated token_datepart u) s = Ok (o, r) ->
  exists t, s = t ++ r /\ component u o t /\ small_opt o.
Proof.
  intros H. apply opt_inv in H. destruct o as [n|].
  - unfold terminated in H. apply bind_ok in H as ([m s1] & E & H). apply bind_ok in H as ([x s2] & E2 & H).
    inversion H; subst. apply tag1_inv in E2. subst s1. apply datepart_inv in E as (d & -> & Hd & Hn & _).
    exists (d ++ [u]). rewrite <- app_assoc. split; [reflexivity|]. split; [exists d; auto|exact Hn].
  - destruct H as [_ ->]. exists []. split; [reflexivity|]. split; [reflexivity|]. unfold small_opt, oget, i64_max. lia.
Qed.
Lemma terminated_no_panic u s : terminated token_datepart u s <> Panic.
Proof.
  unfold terminated. pose proof (datepart_no_panic s). destruct (token_datepart s) as [[a b]| |]; cbn [bind]; try congruence.
  pose proof (tag1_no_panic u b). destruct (tag1 u b) as [[x y]| |]; cbn [bind]; try congruence.
Qed.
Definition small_sec (o : option (N * option N)) : Prop :=
  match o with Some (n, _) => (Z.of_N n <= i64_max)%Z | None => True end.
Lemma seconds_ok o t : seconds_text o t -> small_sec o -> opt token_seconds t = Ok (o, []).
Proof.
  intros Ht Hs. destruct o as [[n f]|]; cbn in Ht.
  - destruct Ht as (d & ft & Hd & Hf & ->). apply opt_some. unfold token_seconds, terminated.
    assert (Hh : head_not is_digit (ft ++ [83])).
    { destruct f; cbn in Hf; [destruct Hf as (x & _ & ->)|subst ft]; reflexivity. }
    rewrite (datepart_ok d n) by auto. cbn [bind]. rewrite (opt_nano_ok f ft [83]) by (auto; reflexivity). reflexivity.
  - subst t. reflexivity.
Qed.
Lemma seconds_inv s o r : opt token_seconds s = Ok (o, r) -> exists t, s = t ++ r /\ seconds_text o t /\ small_sec o.
Proof.
  intros H. apply opt_inv in H. destruct o as [[n f]|].
  - unfold token_seconds, terminated in H. apply bind_ok in H as ([[n' f'] s1] & E & H).
    apply bind_ok in H as ([x s2] & E2 & H). assert (n' = n) by congruence. assert (f' = f) by congruence.
    assert (s2 = r) by congruence. subst. clear H. apply tag1_inv in E2. subst s1.
    apply bind_ok in E as ([n' q] & E & E'). apply bind_ok in E' as ([f' q'] & E' & E'').
    inversion E''; subst. clear E''.
    apply datepart_inv in E as (d & -> & Hd & Hn & _). apply opt_nano_inv in E' as (ft & -> & Hf).
    exists (d ++ ft ++ [83]). split; [rewrite <- !app_assoc; reflexivity|]. split; [exists d, ft; auto|exact Hn].
  - destruct H as [_ ->]. exists []. repeat split.
Qed.

(** The sum the parser forms. *)
Definition total (day h m : option N) (sec : option (N * option N)) : res Z :=
  let acc := add_part (add_part (add_part (Ok 0%Z) 86400 day) 3600 h) 60 m in
  match sec with
  | None => acc
  | Some (n, f) => let* a := add_part acc 1 (Some n) in
      match f with None => Ok a | Some nano => dur_add a (Z.of_N nano) end
  end.
Definition worth (day h m : option N) (sec : option (N * option N)) : Z :=
  (1000000000 * (86400 * oget day + 3600 * oget h + 60 * oget m
          + match sec with Some (n, _) => Z.of_N n | None => 0 end)
          + match sec with Some (_, f) => oget f | None => 0 end)%Z.
Definition duration_parts (s : str) day h m sec : Prop :=
  exists dt rest, component 68 day dt /\
    (rest = [] /\ h = None /\ m = None /\ sec = None \/
     exists ht mt st, component 72 h ht /\ component 77 m mt /\ seconds_text sec st
       /\ rest = 84 :: ht ++ mt ++ st) /\ s = 80 :: dt ++ rest.
Lemma duration_text_parts s ns : duration_text s ns <->
  exists day h m sec, duration_parts s day h m sec /\ ns = worth day h m sec.
Proof.
  split.
  - intros (day & h & m & sec & dt & rest & A & B & C & D). exists day, h, m, sec. split; [|exact D]. exists dt, rest. auto.
  - intros (day & h & m & sec & (dt & rest & A & B & C) & D). exists day, h, m, sec, dt, rest. auto.
Qed.
Lemma comp_head u o t : component u o t -> forall r, t = [] \/ exists d, d <> [] /\ all_digit d /\ t ++ r = d ++ u :: r.
Proof.
  intros H r. destruct o as [n|]; cbn in H.
  - destruct H as (d & (Hne & Hd & _) & ->). right. exists d. rewrite <- app_assoc. auto.
  - auto.
Qed.
Lemma sec_not_comp sec st u : seconds_text sec st -> u <> 83 -> u <> 46 -> not_comp u st.
Proof.
  intros H H1 H2. destruct sec as [[n f]|]; cbn in H; [|subst st; left; exact I].
  destruct H as (d & ft & (Hne & Hd & _) & Hf & ->). right. destruct f as [v|]; cbn in Hf.
  - destruct Hf as (x & _ & ->). exists d, 46, (x ++ [83]). auto 6.
  - subst ft. exists d, 83, []. auto 6.
Qed.
Lemma parse_duration_parts s day h m sec : duration_parts s day h m sec ->
  small_opt day -> small_opt h -> small_opt m -> small_sec sec ->
  parse_duration s = total day h m sec.
Proof.
  intros (dt & rest & Hd & Hr & ->) Sd Sh Sm Ss. unfold parse_duration. rewrite tag1_ok. cbn [bind].
  rewrite (comp_ok 68 day dt rest); [|reflexivity|auto|auto|].
  2:{ intros _. left. destruct Hr as [(-> & _)|(? & ? & ? & _ & _ & _ & ->)]; [exact I|reflexivity]. }
  cbn [bind]. destruct Hr as [(-> & -> & -> & ->)|(ht & mt & st & Hh & Hm & Hs & ->)].
  - change (opt token_time []) with (@Ok (option (option N * option N * option (N * option N)) * str) (None, [])).
    cbn [bind]. unfold total. destruct (add_part (Ok 0%Z) 86400 day); reflexivity.
  - assert (Et : opt token_time (84 :: ht ++ mt ++ st) = Ok (Some (h, m, sec), [])).
    { apply opt_some. unfold token_time. rewrite tag1_ok. cbn [bind].
      rewrite (comp_ok 72 h ht (mt ++ st)); [|reflexivity|auto|auto|].
      2:{ intros ->. destruct (comp_head _ _ _ Hm st) as [->|(d & Hne & Hd' & ->)].
          - apply (sec_not_comp sec); auto; discriminate.
          - right. exists d, 77, st. repeat split; auto. discriminate. }
      cbn [bind]. rewrite (comp_ok 77 m mt st); [|reflexivity|auto|auto|intros _; apply (sec_not_comp sec); auto; discriminate].
      cbn [bind]. rewrite (seconds_ok sec) by auto. reflexivity. }
    rewrite Et. cbn [bind]. unfold total. destruct sec as [[n f]|]; reflexivity.
Qed.
Lemma bind_np {A B} (x : res A) (f : A -> res B) : x <> Panic -> (forall a, f a <> Panic) -> bind x f <> Panic.
Proof. destruct x; cbn; auto; congruence. Qed.
Lemma opt_np {A} (p : parser A) s : p s <> Panic -> opt p s <> Panic.
Proof. unfold opt. destruct (p s) as [[]| |]; congruence. Qed.
Lemma nano_np s : preceded 46 token_nano s <> Panic.
Proof.
  apply bind_np; [apply tag1_no_panic|]. intros [u r]. apply bind_np; [apply take1_no_panic|]. intros [a b]. discriminate.
Qed.
Lemma seconds_np s : token_seconds s <> Panic.
Proof.
  apply bind_np.
  - apply bind_np; [apply datepart_no_panic|]. intros [n r]. apply bind_np; [apply opt_np, nano_np|]. intros [f q]. discriminate.
  - intros [[n f] r]. apply bind_np; [apply tag1_no_panic|]. intros [u q]. discriminate.
Qed.
Lemma parse_duration_inv s : parse_duration s <> Err ->
  exists day h m sec, duration_parts s day h m sec /\ small_opt day /\ small_opt h /\ small_opt m /\ small_sec sec.
Proof.
  intros H. unfold parse_duration in H.
  destruct (tag1 80 s) as [[u s1]| |] eqn:E1; cbn [bind] in H; try congruence; [|now apply tag1_no_panic in E1].
  apply tag1_inv in E1. subst s.
  destruct (opt (terminated token_datepart 68) s1) as [[day s2]| |] eqn:E2; cbn [bind] in H; try congruence.
  2:{ exfalso. unfold opt in E2. destruct (terminated token_datepart 68 s1) as [[]| |] eqn:T; try discriminate. now apply terminated_no_panic in T. }
  apply comp_inv in E2 as (dt & -> & Hd & Sd).
  destruct (opt token_time s2) as [[time s3]| |] eqn:E3; cbn [bind] in H; try congruence.
  - destruct s3; [|congruence]. apply opt_inv in E3. destruct time as [[[h m] sec]|].
    + unfold token_time in E3. apply bind_ok in E3 as ([u1 q1] & T1 & E3). apply tag1_inv in T1. subst s2.
      apply bind_ok in E3 as ([h' q2] & T2 & E3). apply bind_ok in E3 as ([m' q3] & T3 & E3). apply bind_ok in E3 as ([sec' q4] & T4 & E3).
      assert (h' = h) by congruence. assert (m' = m) by congruence. assert (sec' = sec) by congruence. assert (q4 = []) by congruence. subst.
      apply comp_inv in T2 as (ht & -> & Hh & Sh). apply comp_inv in T3 as (mt & -> & Hm & Sm). apply seconds_inv in T4 as (st & -> & Hs & Ss).
      exists day, h, m, sec. repeat split; auto. exists dt, (84 :: ht ++ mt ++ st). split; [auto|]. split; [right; exists ht, mt, st; auto|].
      rewrite !app_nil_r. reflexivity.
    + destruct E3 as [_ <-]. exists day, None, None, None. repeat split; auto; try (unfold small_opt, oget, i64_max; lia).
      exists dt, []. split; [auto|]. split; [left; auto|reflexivity].
  - exfalso. unfold opt, token_time in E3. destruct (tag1 84 s2) as [[u2 q]| |] eqn:T; try discriminate; [|now apply tag1_no_panic in T]. cbn [bind] in E3.
    assert (N1 : forall u x, opt (terminated token_datepart u) x <> Panic /\ opt (terminated token_datepart u) x <> Err).
    { intros u1 x. unfold opt. destruct (terminated token_datepart u1 x) as [[]| |] eqn:Q; split; try discriminate. now apply terminated_no_panic in Q. }
    destruct (N1 72 q) as [A B]. destruct (opt (terminated token_datepart 72) q) as [[h1 q1]| |]; cbn [bind] in E3; try congruence.
    destruct (N1 77 q1) as [A' B']. destruct (opt (terminated token_datepart 77) q1) as [[h2 q2]| |]; cbn [bind] in E3; try congruence.
    assert (N2 : opt token_seconds q2 <> Panic).
    { apply opt_np. apply seconds_np. }
    destruct (opt token_seconds q2) as [[]| |]; cbn [bind] in E3; congruence.
Qed.
Lemma oget_nonneg o : (0 <= oget o)%Z.
Proof. destruct o; cbn; lia. Qed.
Lemma add_part_ok a secs o : (0 <= a)%Z -> (0 < secs)%Z -> (a + 1000000000 * (secs * oget o) <= dur_max)%Z ->
  add_part (Ok a) secs o = Ok (a + 1000000000 * (secs * oget o))%Z.
Proof.
  intros Ha Hs Hr. destruct o as [n|]; cbn [add_part bind oget] in *; [|f_equal; lia].
  unfold try_unit, dur_add, dur_ok. set (v := (Z.of_N n * secs)%Z) in *. assert (0 <= v)%Z by (subst v; apply Z.mul_nonneg_nonneg; lia).
  assert (v = secs * Z.of_N n)%Z by (subst v; ring). unfold dur_max, i64_max in *.
  replace (_ && _)%bool with true by lia. cbn [bind]. replace (_ && _)%bool with true by lia. f_equal. lia.
Qed.
Lemma add_part_value x secs o b : add_part x secs o = Ok b -> exists a, x = Ok a /\ b = (a + 1000000000 * (secs * oget o))%Z.
Proof.
  intros H. apply bind_ok in H as (a & -> & H). exists a. split; [reflexivity|]. destruct o as [n|]; cbn [oget].
  - apply bind_ok in H as (d & E & H). unfold try_unit in E. destruct (_ && _)%bool in E; [|discriminate].
    unfold dur_add in H. destruct (dur_ok _) in H; [|discriminate]. assert (d = Z.of_N n * secs * 1000000000)%Z by congruence.
    assert (b = a + d)%Z by congruence. lia.
  - assert (b = a) by congruence. lia.
Qed.
Lemma total_value day h m sec v : total day h m sec = Ok v -> v = worth day h m sec.
Proof.
  unfold total, worth. destruct sec as [[n f]|]; intros H.
  - apply bind_ok in H as (a & E & H). apply add_part_value in E as (b & E & ->). apply add_part_value in E as (c & E & ->).
    apply add_part_value in E as (d & E & ->). apply add_part_value in E as (e & E & ->). assert (e = 0%Z) by congruence. subst e.
    destruct f as [x|].
    + unfold dur_add in H. destruct (dur_ok _) in H; [|discriminate]. assert (Q : v = (0 + 1000000000 * (86400 * oget day) + 1000000000 * (3600 * oget h) + 1000000000 * (60 * oget m) + 1000000000 * (1 * oget (Some n)) + Z.of_N x)%Z) by congruence. cbn [oget] in *. lia.
    + assert (Q : v = (0 + 1000000000 * (86400 * oget day) + 1000000000 * (3600 * oget h) + 1000000000 * (60 * oget m) + 1000000000 * (1 * oget (Some n)))%Z) by congruence. cbn [oget] in *. lia.
  - apply add_part_value in H as (c & E & ->).
    apply add_part_value in E as (d & E & ->). apply add_part_value in E as (e & E & ->). assert (e = 0%Z) by congruence. subst e. lia.
Qed.
Lemma total_in_range day h m sec v : total day h m sec = Ok v -> duration_range v.
Proof.
  assert (R : forall x secs o b, (forall a, x = Ok a -> duration_range a) -> add_part x secs o = Ok b -> duration_range b).
  { intros x secs o b Hx H. apply bind_ok in H as (a & E & H). destruct o as [n|].
    - apply bind_ok in H as (d & _ & H). unfold dur_add in H. destruct (dur_ok (a + d)) eqn:D; [|discriminate].
      assert (b = a + d)%Z by congruence. subst b. unfold dur_ok, dur_max, i64_max in D. unfold duration_range. lia.
    - assert (b = a) by congruence. subst. auto. }
  assert (R0 : forall a, Ok 0%Z = Ok a -> duration_range a) by (intros a E; assert (a = 0%Z) by congruence; subst; unfold duration_range; lia).
  unfold total. destruct sec as [[n f]|]; intros H.
  - apply bind_ok in H as (a & E & H). assert (Ha : duration_range a) by eauto 8. destruct f as [x|].
    + unfold dur_add in H. destruct (dur_ok _) eqn:D in H; [|discriminate]. assert (v = a + Z.of_N x)%Z by congruence. subst v.
      unfold dur_ok, dur_max, i64_max in D. unfold duration_range. lia.
    + assert (v = a) by congruence. subst. auto.
  - eauto 8.
Qed.
Lemma total_ok day h m sec : (worth day h m sec <= dur_max)%Z -> total day h m sec = Ok (worth day h m sec).
Proof.
  unfold total, worth. intros H. pose proof (oget_nonneg day). pose proof (oget_nonneg h). pose proof (oget_nonneg m).
  assert (Hs : (0 <= match sec with Some (n, _) => Z.of_N n | None => 0 end)%Z) by (destruct sec as [[]|]; lia).
  assert (Hf : (0 <= match sec with Some (_, f) => oget f | None => 0 end)%Z) by (destruct sec as [[? f]|]; [apply oget_nonneg|lia]).
  rewrite add_part_ok by lia. rewrite add_part_ok by lia. rewrite add_part_ok by lia.
  destruct sec as [[n f]|].
  - rewrite add_part_ok by (cbn [oget]; lia). cbn [bind oget]. destruct f as [x|]; [|f_equal; cbn [oget]; lia].
    cbn [oget] in *. unfold dur_add, dur_ok. replace (_ && _)%bool with true by (unfold dur_max, i64_max in *; lia). f_equal. lia.
  - f_equal. lia.
Qed.
Lemma worth_small day h m sec : (worth day h m sec <= dur_max)%Z ->
  small_opt day /\ small_opt h /\ small_opt m /\ small_sec sec.
Proof.
  unfold worth, small_opt, small_sec, dur_max, i64_max. intros H.
  pose proof (oget_nonneg day). pose proof (oget_nonneg h). pose proof (oget_nonneg m).
  destruct sec as [[n f]|]; [pose proof (oget_nonneg f)|]; repeat split; lia.
Qed.
Lemma parse_duration_iff s ns : parse_duration s = Ok ns <-> duration_text s ns /\ duration_range ns.
Proof.
  rewrite duration_text_parts. split.
  - intros H. destruct (parse_duration_inv s) as (day & h & m & sec & P & A & B & C & D); [congruence|].
    rewrite (parse_duration_parts s day h m sec) in H by auto. split.
    + exists day, h, m, sec. split; auto. now apply total_value.
    + eapply total_in_range; eauto.
  - intros ((day & h & m & sec & P & ->) & R).
    assert (W : (worth day h m sec <= dur_max)%Z) by (unfold duration_range, dur_max, i64_max in *; lia).
    destruct (worth_small _ _ _ _ W) as (A & B & C & D).
    rewrite (parse_duration_parts s day h m sec) by auto. now apply total_ok.
Qed.
Lemma parse_duration_panic s : parse_duration s = Panic -> exists ns, duration_text s ns /\ ~ duration_range ns.
Proof.
  intros H. destruct (parse_duration_inv s) as (day & h & m & sec & P & A & B & C & D); [congruence|].
  exists (worth day h m sec). split; [apply duration_text_parts; eauto 8|].
  intros R. rewrite (parse_duration_parts s day h m sec) in H by auto. rewrite total_ok in H; [discriminate|].
  unfold duration_range, dur_max, i64_max in *; lia.
Qed.
Lemma digits_no45 d : all_digit d -> ~ In 45 d.
Proof. intros H Hi. eapply Forall_forall in H; [|exact Hi]. cbv beta in H. lia. Qed.
Lemma duration_no45 s ns : duration_text s ns -> ~ In 45 s.
Proof.
  assert (C : forall u o t, u <> 45 -> component u o t -> ~ In 45 t).
  { intros u o t Hu H. destruct o as [n|]; cbn in H; [|subst; auto]. destruct H as (d & (_ & Hd & _) & ->).
    rewrite in_app_iff. intros [Hi|[Hi|[]]]; [now apply (digits_no45 d)|congruence]. }
  assert (S : forall o t, seconds_text o t -> ~ In 45 t).
  { intros [[n f]|] t H; cbn in H; [|subst; auto]. destruct H as (d & ft & (_ & Hd & _) & Hf & ->).
    rewrite !in_app_iff. intros [Hi|[Hi|[Hi|[]]]]; [now apply (digits_no45 d)| |discriminate].
    destruct f as [v|]; cbn in Hf; [|subst; auto]. destruct Hf as (x & (_ & Hx & _) & ->). destruct Hi as [Hi|Hi]; [discriminate|]. now apply (digits_no45 x). }
  intros (day & h & m & sec & dt & rest & A & B & -> & _) [Hi|Hi]; [discriminate|].
  apply in_app_iff in Hi as [Hi|Hi]; [revert Hi; apply (C 68 day dt); [discriminate|auto]|].
  destruct B as [(-> & _)|(ht & mt & st & Hh & Hm & Hs & ->)]; [auto|]. destruct Hi as [Hi|Hi]; [discriminate|].
  rewrite !in_app_iff in Hi. destruct Hi as [Hi|[Hi|Hi]].
  - revert Hi. apply (C 72 h ht); [discriminate|auto].
  - revert Hi. apply (C 77 m mt); [discriminate|auto].
  - apply (S _ _ Hs Hi).
Qed.
(** What the unpadded milliseconds are read as. *)
Definition read_ms (ms : Z) : Z := (if ms <? 10 then ms * 100000000 else if ms <? 100 then ms * 10000000 else ms * 1000000)%Z.
Lemma ms_fraction ms : ms < 1000 -> fraction (show_N ms) (Z.to_N (read_ms (Z.of_N ms))).
Proof.
  intros H. destruct (show_N_numeral ms) as (Hne & Hd & Hv). split; [auto|]. split; [auto|]. rewrite Hv.
  assert (L : exists k, length (show_N ms) = k /\ (k = 1%nat /\ ms < 10 \/ k = 2%nat /\ 10 <= ms < 100 \/ k = 3%nat /\ 100 <= ms)).
  { pose proof (show_N_length ms 3). pose proof (show_N_length ms 2). pose proof (show_N_length ms 1).
    pose proof (show_N_min ms 1). pose proof (show_N_min ms 2). pose proof (show_N_min ms 0).
    change (10 ^ N.of_nat 0) with 1 in *. change (10 ^ N.of_nat 1) with 10 in *. change (10 ^ N.of_nat 2) with 100 in *. change (10 ^ N.of_nat 3) with 1000 in *.
    assert (1 <= length (show_N ms))%nat by (destruct (show_N ms); [congruence|cbn; lia]).
    eexists. split; [reflexivity|]. lia. }
  destruct L as (k & -> & [(-> & B)|[(-> & B)|(-> & B)]]); cbn [Nat.leb]; unfold read_ms.
  - replace (Z.of_N ms <? 10)%Z with true by lia. change (10 ^ (9 - N.of_nat 1)) with 100000000. lia.
  - replace (Z.of_N ms <? 10)%Z with false by lia. replace (Z.of_N ms <? 100)%Z with true by lia. change (10 ^ (9 - N.of_nat 2)) with 10000000. lia.
  - replace (Z.of_N ms <? 10)%Z with false by lia. replace (Z.of_N ms <? 100)%Z with false by lia. change (10 ^ (9 - N.of_nat 3)) with 1000000. lia.
Qed.
Lemma show_Z_pos z : (0 <= z)%Z -> show_Z z = show_N (Z.to_N z).
Proof. intros H. unfold show_Z. replace (z <? 0)%Z with false by lia. cbn [app]. f_equal. lia. Qed.
Lemma format_parts ns : (0 <= ns)%Z ->
  duration_parts (format_duration2 ns) None (Some (Z.to_N (ns / 3600000000000))) (Some (Z.to_N (ns / 60000000000 mod 60)))
    (Some (Z.to_N (ns / 1000000000 mod 60), Some (Z.to_N (read_ms (ns / 1000000 mod 1000))))).
Proof.
  intros H. unfold format_duration2.
  assert (0 <= ns / 3600000000000)%Z by lia. assert (0 <= ns / 60000000000)%Z by lia.
  assert (0 <= ns / 1000000000)%Z by lia. assert (0 <= ns / 1000000)%Z by lia.
  rewrite !Z.quot_div_nonneg by lia. rewrite !Z.rem_mod_nonneg by lia. rewrite !show_Z_pos by lia.
  exists [], (84 :: (show_N (Z.to_N (ns / 3600000000000)) ++ [72]) ++ (show_N (Z.to_N (ns / 60000000000 mod 60)) ++ [77])
     ++ show_N (Z.to_N (ns / 1000000000 mod 60)) ++ (46 :: show_N (Z.to_N (ns / 1000000 mod 1000))) ++ [83]).
  split; [reflexivity|]. split.
  - right. eexists _, _, _. split; [|split; [|split; [|reflexivity]]].
    + cbn [component]. eexists. split; [apply show_N_numeral|reflexivity].
    + cbn [component]. eexists. split; [apply show_N_numeral|reflexivity].
    + cbn [seconds_text]. eexists _, _. split; [apply show_N_numeral|]. split; [|reflexivity].
      cbn [opt_fraction]. eexists. split; [|reflexivity].
      pose proof (ms_fraction (Z.to_N (ns / 1000000 mod 1000))) as F. rewrite Z2N.id in F by lia. apply F. lia.
  - unfold lit. cbn. rewrite <- !app_assoc. reflexivity.
Qed.
Lemma format_outcome ns : (0 <= ns)%Z -> duration_range ns ->
  let v := (ns / 1000000000 * 1000000000 + read_ms (ns / 1000000 mod 1000))%Z in
  parse_duration (format_duration2 ns) = if (v <=? dur_max)%Z then Ok v else Panic.
Proof.
  intros H R v. pose proof (format_parts ns H) as P.
  assert (0 <= read_ms (ns / 1000000 mod 1000))%Z.
  { unfold read_ms. destruct (_ <? 10)%Z; [lia|]. destruct (_ <? 100)%Z; lia. }
  assert (Hd : (ns / 3600000000000 = ns / 60000000000 / 60)%Z) by (rewrite Z.div_div by lia; reflexivity).
  assert (Hm : (ns / 60000000000 = ns / 1000000000 / 60)%Z) by (rewrite Z.div_div by lia; reflexivity).
  assert (E : (1000000000 * (3600 * (ns / 3600000000000) + 60 * (ns / 60000000000 mod 60) + ns / 1000000000 mod 60) = ns / 1000000000 * 1000000000)%Z) by lia.
  assert (0 <= ns / 3600000000000)%Z by lia. assert (0 <= ns / 60000000000 mod 60)%Z by lia. assert (0 <= ns / 1000000000 mod 60)%Z by lia.
  set (hh := (ns / 3600000000000)%Z) in *. set (mm := (ns / 60000000000 mod 60)%Z) in *. set (ss := (ns / 1000000000 mod 60)%Z) in *.
  assert (Q : (ns / 1000000000 * 1000000000 <= dur_max)%Z) by (unfold duration_range, dur_max, i64_max in *; lia).
  set (ms := read_ms (ns / 1000000 mod 1000)) in *. rewrite (parse_duration_parts _ _ _ _ _ P); [|unfold small_opt, small_sec, oget, dur_max, i64_max in *; lia..].
  destruct (v <=? dur_max)%Z eqn:V.
  - rewrite total_ok; unfold worth; cbn [oget]; rewrite !Z2N.id by lia; [f_equal|]; subst v; lia.
  - unfold total. rewrite (add_part_ok 0 86400 None) by (cbn [oget]; unfold dur_max, i64_max; lia).
    rewrite add_part_ok; cbn [oget]; rewrite ?Z2N.id by lia; try lia.
    rewrite add_part_ok; cbn [oget]; rewrite ?Z2N.id by lia; try lia.
    rewrite add_part_ok; cbn [oget]; rewrite ?Z2N.id by lia; try lia. cbn [bind].
    unfold dur_add, dur_ok. match goal with |- context [if ?b then _ else _] => replace b with false end; [reflexivity|].
    symmetry. rewrite ?Z2N.id by lia. apply andb_false_iff. right. subst v. lia.
Qed.
Lemma show_Z_neg z : (z < 0)%Z -> In 45 (show_Z z).
Proof. intros H. unfold show_Z. replace (z <? 0)%Z with true by lia. left. reflexivity. Qed.
Lemma format_negative ns : (ns <= -1000000)%Z -> In 45 (format_duration2 ns).
Proof.
  intros H. unfold format_duration2. rewrite !in_app_iff.
  assert (A : (Z.quot ns 3600000000000 < 0 \/ Z.rem (Z.quot ns 60000000000) 60 < 0 \/ Z.rem (Z.quot ns 1000000000) 60 < 0 \/ Z.rem (Z.quot ns 1000000) 1000 < 0)%Z).
  { set (p := (- ns)%Z). replace ns with (- p)%Z by (subst p; lia). assert (1000000 <= p)%Z by (subst p; lia). clearbody p. clear ns H.
    rewrite !Z.quot_opp_l by lia. rewrite !Z.rem_opp_l by lia. rewrite !Z.quot_div_nonneg by lia. rewrite !Z.rem_mod_nonneg by lia. lia. }
  destruct A as [A|[A|[A|A]]]; apply show_Z_neg in A; tauto.
Qed.
Lemma parse_negative s : In 45 s -> parse_duration s = Err.
Proof.
  intros H. destruct (parse_duration s) as [v| |] eqn:E; auto; exfalso.
  - apply parse_duration_iff in E as [E _]. now apply duration_no45 in E.
  - apply parse_duration_panic in E as (v & E & _). now apply duration_no45 in E.
Qed.

(** ** Dates *)
Lemma month_days_in y m : 1 <= m <= 12 -> month_days y m = days_in y m.
Proof.
  intros H. unfold month_days, leap_year.
  assert (m = 1 \/ m = 2 \/ m = 3 \/ m = 4 \/ m = 5 \/ m = 6 \/ m = 7 \/ m = 8 \/ m = 9 \/ m = 10 \/ m = 11 \/ m = 12) as C by lia.
  repeat destruct C as [->|C]; try subst m; try reflexivity.
  cbn [days_in N.eqb Pos.eqb orb].
  destruct (y mod 4 =? 0)%Z eqn:A, (y mod 100 =? 0)%Z eqn:B, (y mod 400 =? 0)%Z eqn:C; try reflexivity; lia.
Qed.
Lemma datetime_ok_valid d : datetime_ok d = true <-> valid_datetime d.
Proof.
  unfold datetime_ok, year_min, year_max. split.
  - intros H. assert (M : 1 <= dt_month d <= 12) by lia. rewrite month_days_in in H by auto. constructor; lia.
  - intros [H1 H2 H3 H4 H5 H6 H7]. rewrite month_days_in by auto. lia.
Qed.
Definition small_fields (f : fields) : Prop :=
  (-2147483648 <= f_year f <= 2147483647)%Z /\ f_month f < 4294967296 /\ f_day f < 4294967296
  /\ f_hour f < 4294967296 /\ f_minute f < 4294967296 /\ f_second f < 4294967296.
Definition resolve (y : Z) (mo d h mi s n : N) : datetime :=
  match to_datetime (as_i32 y) (as_u32 mo) (as_u32 d) (as_u32 (h / 12)) (as_u32 (h mod 12)) (as_u32 mi) (as_u32 s) (Some n) with
  | Some d => d | None => datetime0 end.
Definition clock_parts (t : str) (h m s : N) (f : option N) : Prop :=
  exists ht mt st ft, numeral ht h /\ numeral mt m /\ numeral st s /\ opt_fraction f ft
    /\ t = 84 :: ht ++ 58 :: mt ++ 58 :: st ++ ft.
Lemma clock_ok t h m s f r : clock_parts t h m s f ->
  (Z.of_N h <= i64_max)%Z -> (Z.of_N m <= i64_max)%Z -> (Z.of_N s <= i64_max)%Z ->
  head_not is_digit r -> head_not (N.eqb 46) r ->
  token_clock (t ++ r) = Ok ((h, m, s, f), r).
Proof.
  intros (ht & mt & st & ft & Hh & Hm & Hs & Hf & ->) Bh Bm Bs Hr H46. unfold token_clock. cbn [app]. rewrite tag1_ok. cbn [bind].
  rewrite <- app_assoc. rewrite (datepart_ok ht h) by (auto; reflexivity). cbn [bind app]. rewrite tag1_ok. cbn [bind].
  rewrite <- app_assoc. rewrite (datepart_ok mt m) by (auto; reflexivity). cbn [bind app]. rewrite tag1_ok. cbn [bind].
  rewrite <- app_assoc. rewrite (datepart_ok st s); [|auto|auto|].
  - cbn [bind]. rewrite (opt_nano_ok f ft r) by auto. reflexivity.
  - destruct f; cbn in Hf; [destruct Hf as (x & _ & ->); reflexivity|subst ft; exact Hr].
Qed.
Lemma clock_inv s0 h m s f r : token_clock s0 = Ok ((h, m, s, f), r) ->
  exists t, s0 = t ++ r /\ clock_parts t h m s f.
Proof.
  intros H. unfold token_clock in H.
  apply bind_ok in H as ([u1 s1] & E1 & H). apply tag1_inv in E1. subst s0.
  apply bind_ok in H as ([h' s2] & E2 & H). apply datepart_inv in E2 as (ht & -> & Hh & _).
  apply bind_ok in H as ([u3 s3] & E3 & H). apply tag1_inv in E3. subst s2.
  apply bind_ok in H as ([m' s4] & E4 & H). apply datepart_inv in E4 as (mt & -> & Hm & _).
  apply bind_ok in H as ([u5 s5] & E5 & H). apply tag1_inv in E5. subst s4.
  apply bind_ok in H as ([s' s6] & E6 & H). apply datepart_inv in E6 as (st & -> & Hs & _).
  apply bind_ok in H as ([f' s7] & E7 & H). apply opt_nano_inv in E7 as (ft & -> & Hf).
  inversion H; subst. exists (84 :: ht ++ 58 :: mt ++ 58 :: st ++ ft). split.
  - repeat (progress (cbn [app]; rewrite <- ?app_assoc)). reflexivity.
  - exists ht, mt, st, ft. auto 6.
Qed.
Lemma clock_text_parts h m s n t : clock_text h m s n t <->
  (t = [] /\ h = 0 /\ m = 0 /\ s = 0 /\ n = 0) \/ exists f, clock_parts t h m s f /\ n = match f with Some n => n | None => 0 end.
Proof.
  split; (intros [H|H]; [left; exact H|right]).
  - destruct H as (ht & mt & st & ft & f & A & B & C & D & E & F). exists f. split; auto. exists ht, mt, st, ft. auto 6.
  - destruct H as (f & (ht & mt & st & ft & A & B & C & D & F) & E). exists ht, mt, st, ft, f. auto 8.
Qed.
Lemma frac_bound t h m s f : clock_parts t h m s f -> match f with Some n => n | None => 0 end < 1000000000.
Proof.
  intros (_ & _ & _ & ft & _ & _ & _ & Hf & _). destruct f as [n|]; [|lia]. cbn in Hf.
  destruct Hf as (x & F & _). eapply fraction_bound; eauto.
Qed.
Lemma to_datetime_none y mo d a b mi s : to_datetime y mo d a b mi s None = to_datetime y mo d a b mi s (Some 0).
Proof. unfold to_datetime. change (0 <=? 999999999) with true. reflexivity. Qed.
Lemma as_u32_nano n : n < 1000000000 -> as_u32 n = n.
Proof. intros H. unfold as_u32. apply N.mod_small. lia. Qed.
Lemma parse_datetime_aux f (neg : bool) yt y mt dt ct zt :
  numeral yt y -> numeral mt (f_month f) -> numeral dt (f_day f) ->
  clock_text (f_hour f) (f_minute f) (f_second f) (f_nano f) ct ->
  f_year f = (if neg then - Z.of_N y else Z.of_N y)%Z -> small_fields f -> (zt = [90] \/ zt = []) ->
  parse_datetime ((if neg then [45] else []) ++ yt ++ 45 :: mt ++ 45 :: dt ++ ct ++ zt)
  = Ok (resolve (f_year f) (f_month f) (f_day f) (f_hour f) (f_minute f) (f_second f) (f_nano f)).
Proof.
  intros Hy Hm Hd Hc Ey (S1 & S2 & S3 & S4 & S5 & S6) Hz. unfold parse_datetime.
  assert (By : (Z.of_N y <= i64_max)%Z) by (unfold i64_max; destruct neg; lia).
  assert (E1 : opt (tag1 45) ((if neg then [45] else []) ++ yt ++ 45 :: mt ++ 45 :: dt ++ ct ++ zt)
    = Ok (if neg then Some tt else None, yt ++ 45 :: mt ++ 45 :: dt ++ ct ++ zt)).
  { destruct neg; cbn [app].
    - apply opt_some, tag1_ok.
    - apply opt_none. destruct Hy as (Hne & Hyd & _). destruct yt as [|c yt]; [congruence|]. inversion Hyd; subst.
      cbn [app]. unfold tag1. replace (c =? 45) with false by lia. reflexivity. }
  rewrite E1. cbn [bind]. rewrite (datepart_ok yt y) by (auto; reflexivity). cbn [bind]. rewrite tag1_ok. cbn [bind].
  rewrite (datepart_ok mt (f_month f)) by (auto; unfold i64_max; try lia; reflexivity). cbn [bind]. rewrite tag1_ok. cbn [bind].
  assert (Z1 : head_not is_digit zt) by (destruct Hz as [->| ->]; exact I || reflexivity).
  assert (Z2 : head_not (N.eqb 46) zt) by (destruct Hz as [->| ->]; exact I || reflexivity).
  rewrite (datepart_ok dt (f_day f)); [|auto|unfold i64_max; lia|].
  2:{ apply clock_text_parts in Hc as [(-> & _)|(fr & (? & ? & ? & ? & _ & _ & _ & _ & ->) & _)]; [exact Z1|reflexivity]. }
  cbn [bind].
  assert (Ez : exists o, opt (tag1 90) zt = Ok (o, [])) by (destruct Hz as [->| ->]; eexists; reflexivity).
  destruct Ez as (oz & Ez).
  assert (Yeq : as_i32 (match (if neg then Some tt else None) with Some _ => - Z.of_N y | None => Z.of_N y end) = as_i32 (f_year f)) by (rewrite Ey; destruct neg; reflexivity).
  apply clock_text_parts in Hc as [(-> & Eh & Em & Es & En)|(fr & Hc & En)].
  - cbn [app]. rewrite (opt_none token_clock zt) by (destruct Hz as [->| ->]; reflexivity).
    cbn [bind]. rewrite Ez. cbn [bind]. rewrite Yeq. unfold resolve. rewrite Eh, Em, Es, En, to_datetime_none. reflexivity.
  - rewrite (opt_some token_clock (ct ++ zt) (f_hour f, f_minute f, f_second f, fr) zt).
    2:{ apply clock_ok; auto; unfold i64_max; lia. }
    cbn [bind]. rewrite Ez. cbn [bind]. rewrite Yeq. unfold resolve. pose proof (frac_bound _ _ _ _ _ Hc) as B. rewrite En.
    destruct fr as [n|]; cbn [option_map]; [rewrite (as_u32_nano n) by exact B; reflexivity|]. now rewrite to_datetime_none.
Qed.
(** The parser on any text of the shape whose numbers fit. *)
Lemma parse_datetime_shape t f : datetime_shape t f -> small_fields f ->
  parse_datetime t = Ok (resolve (f_year f) (f_month f) (f_day f) (f_hour f) (f_minute f) (f_second f) (f_nano f)).
Proof.
  intros (neg & yt & y & mt & dt & ct & z & Hy & Hm & Hd & Hc & Ey & ->) S.
  apply (parse_datetime_aux f neg yt y); auto. destruct z; auto.
Qed.
Lemma parse_datetime_inv t d : parse_datetime t = Ok d -> exists f, datetime_shape t f.
Proof.
  intros H. unfold parse_datetime in H.
  apply bind_ok in H as ([minus s1] & E1 & H). apply opt_inv in E1.
  apply bind_ok in H as ([y s2] & E2 & H). apply datepart_inv in E2 as (yt & -> & Hy & _).
  apply bind_ok in H as ([u3 s3] & E3 & H). apply tag1_inv in E3. subst s2.
  apply bind_ok in H as ([m s4] & E4 & H). apply datepart_inv in E4 as (mt & -> & Hm & _).
  apply bind_ok in H as ([u5 s5] & E5 & H). apply tag1_inv in E5. subst s4.
  apply bind_ok in H as ([dd s6] & E6 & H). apply datepart_inv in E6 as (dt & -> & Hd & _).
  apply bind_ok in H as ([time s7] & E7 & H). apply opt_inv in E7.
  apply bind_ok in H as ([zz s8] & E8 & H). apply opt_inv in E8. destruct s8; [|discriminate].
  assert (Z : exists z : bool, s7 = if z then [90] else []).
  { destruct zz as [v|]; [exists true; now apply tag1_inv in E8|exists false; now destruct E8]. }
  destruct Z as (z & ->).
  assert (M : exists neg : bool, t = (if neg then [45] else []) ++ yt ++ 45 :: mt ++ 45 :: dt ++ s6).
  { destruct minus as [v|]; [exists true; now apply tag1_inv in E1|exists false; now destruct E1]. }
  destruct M as (neg & ->).
  destruct time as [[[[h mi] s] f]|].
  - apply clock_inv in E7 as (ct & -> & Hc).
    exists (Fields (if neg then - Z.of_N y else Z.of_N y)%Z m dd h mi s (match f with Some n => n | None => 0 end)).
    exists neg, yt, y, mt, dt, ct, z. cbn. repeat split; auto; try apply Hy; try apply Hm; try apply Hd.
    apply clock_text_parts. right. exists f. auto.
  - destruct E7 as [_ <-]. exists (Fields (if neg then - Z.of_N y else Z.of_N y)%Z m dd 0 0 0 0).
    exists neg, yt, y, mt, dt, [], z. cbn. repeat split; auto; try apply Hy; try apply Hm; try apply Hd. left. auto 6.
Qed.
Lemma as_i32_small y : (-2147483648 <= y <= 2147483647)%Z -> as_i32 y = y.
Proof. intros H. unfold as_i32. destruct (_ <? _)%Z eqn:E; lia. Qed.
Lemma resolve_spec f : small_fields f -> f_nano f < 1000000000 ->
  (forall d, denotes f d -> resolve (f_year f) (f_month f) (f_day f) (f_hour f) (f_minute f) (f_second f) (f_nano f) = d)
  /\ ((forall d, ~ denotes f d) -> resolve (f_year f) (f_month f) (f_day f) (f_hour f) (f_minute f) (f_second f) (f_nano f) = DateTime 1970 1 1 0 0 0 0).
Proof.
  destruct f as [y mo da h mi s n]. unfold small_fields, resolve. cbn [f_year f_month f_day f_hour f_minute f_second f_nano].
  intros (S1 & S2 & S3 & S4 & S5 & S6) Hn. rewrite as_i32_small by auto.
  assert (U : forall x, x < 4294967296 -> as_u32 x = x) by (intros; unfold as_u32; apply N.mod_small; auto).
  rewrite !U; [|lia..]. unfold to_datetime. split.
  - intros d (V & E1 & E2 & E3 & E4 & E5 & E6). cbn [f_year f_month f_day f_hour f_minute f_second f_nano] in *.
    pose proof V as [V1 V2 V3 V4 V5 V6 V7]. destruct d as [y' mo' da' h' mi' s' n'].
    cbn [dt_year dt_month dt_day dt_hour dt_minute dt_second dt_nano] in *. subst y' mo' da' h' mi'.
    replace (_ && _)%bool with true by lia. replace (h / 12 * 12 + h mod 12) with h by lia.
    destruct E6 as [(B & -> & -> & _)|(-> & -> & -> & _)].
    + replace (s =? 60) with false by lia. rewrite (proj2 (datetime_ok_valid _) V). reflexivity.
    + cbn [N.eqb Pos.eqb]. replace (1000000000 + n) with (n + 1000000000) by lia. rewrite (proj2 (datetime_ok_valid _) V). reflexivity.
  - intros C. destruct (_ && _)%bool eqn:E; [|reflexivity].
    replace (h / 12 * 12 + h mod 12) with h by lia.
    destruct (s =? 60) eqn:E60.
    + destruct (datetime_ok _) eqn:V; [|reflexivity]. apply datetime_ok_valid in V. exfalso. apply (C (DateTime y mo da h mi 59 (1000000000 + n))).
      split; [auto|]. cbn [f_year f_month f_day f_hour f_minute f_second f_nano dt_year dt_month dt_day dt_hour dt_minute dt_second dt_nano]. do 5 (split; [reflexivity|]). right. lia.
    + destruct (datetime_ok _) eqn:V; [|reflexivity]. apply datetime_ok_valid in V. exfalso. apply (C (DateTime y mo da h mi s n)).
      split; [auto|]. cbn [f_year f_month f_day f_hour f_minute f_second f_nano dt_year dt_month dt_day dt_hour dt_minute dt_second dt_nano]. do 5 (split; [reflexivity|]). left. lia.
Qed.
Lemma pad_fraction k n : (1 <= k <= 9)%nat -> n < 10 ^ N.of_nat k -> fraction (pad k (show_N n)) (n * 10 ^ (9 - N.of_nat k)).
Proof.
  intros Hk Hn. destruct (pad_ok k n) as (Hne & Hd & Hv). split; [auto|]. split; [auto|].
  rewrite pad_length by lia. replace (Nat.leb k 9) with true by (symmetry; apply Nat.leb_le; lia). now rewrite Hv.
Qed.
Lemma show_frac_ok n : n < 1000000000 -> exists f, opt_fraction f (show_frac n) /\ n = match f with Some v => v | None => 0 end.
Proof.
  intros H. unfold show_frac. destruct (n =? 0) eqn:E; [exists None; split; [reflexivity|lia]|].
  destruct (n mod 1000000 =? 0) eqn:E6.
  - exists (Some n). split; [|reflexivity]. exists (pad 3 (show_N (n / 1000000))). split; [|reflexivity].
    replace n with (n / 1000000 * 10 ^ (9 - N.of_nat 3)) at 2 by (change (10 ^ (9 - N.of_nat 3)) with 1000000; lia).
    apply pad_fraction; [lia|]. change (10 ^ N.of_nat 3) with 1000. lia.
  - destruct (n mod 1000 =? 0) eqn:E3.
    + exists (Some n). split; [|reflexivity]. exists (pad 6 (show_N (n / 1000))). split; [|reflexivity].
      replace n with (n / 1000 * 10 ^ (9 - N.of_nat 6)) at 2 by (change (10 ^ (9 - N.of_nat 6)) with 1000; lia).
      apply pad_fraction; [lia|]. change (10 ^ N.of_nat 6) with 1000000. lia.
    + exists (Some n). split; [|reflexivity]. exists (pad 9 (show_N n)). split; [|reflexivity].
      replace n with (n * 10 ^ (9 - N.of_nat 9)) at 2 by (change (10 ^ (9 - N.of_nat 9)) with 1; lia).
      apply pad_fraction; [lia|]. exact H.
Qed.
Definition printed (d : datetime) : fields :=
  Fields (dt_year d) (dt_month d) (dt_day d) (dt_hour d) (dt_minute d) (dt_second d + dt_nano d / 1000000000) (dt_nano d mod 1000000000).
Lemma format_shape d : (dt_year d <= 9999)%Z -> datetime_shape (format_datetime d) (printed d).
Proof.
  intros H. destruct (show_frac_ok (dt_nano d mod 1000000000)) as (f & Hf & Ef); [lia|].
  unfold format_datetime, show_year.
  exists (dt_year d <? 0)%Z, (pad 4 (show_N (Z.abs_N (dt_year d)))), (Z.abs_N (dt_year d)),
    (pad 2 (show_N (dt_month d))), (pad 2 (show_N (dt_day d))),
    (84 :: pad 2 (show_N (dt_hour d)) ++ 58 :: pad 2 (show_N (dt_minute d)) ++ 58
       :: pad 2 (show_N (dt_second d + dt_nano d / 1000000000)) ++ show_frac (dt_nano d mod 1000000000)), false.
  cbn [printed f_year f_month f_day f_hour f_minute f_second f_nano].
  split; [apply pad_ok|]. split; [apply pad_ok|]. split; [apply pad_ok|]. split.
  - right. eexists _, _, _, _, f. repeat (split; [apply pad_ok|]). split; [exact Hf|]. split; [exact Ef|reflexivity].
  - split; [destruct (_ <? _)%Z eqn:E; lia|]. rewrite app_nil_r. destruct (dt_year d <? 0)%Z eqn:E.
    + replace ((0 <=? dt_year d) && _)%Z with false by lia. reflexivity.
    + replace ((0 <=? dt_year d) && _)%Z with true by lia. replace (Z.to_N (dt_year d)) with (Z.abs_N (dt_year d)) by lia. reflexivity.
Qed.
Lemma printed_denotes d : valid_datetime d -> denotes (printed d) d /\ small_fields (printed d) /\ f_nano (printed d) < 1000000000.
Proof.
  intros V. pose proof V as [V1 V2 V3 V4 V5 V6 V7]. unfold printed, denotes, small_fields.
  cbn [f_year f_month f_day f_hour f_minute f_second f_nano].
  assert (D : dt_day d <= 31).
  { rewrite <- month_days_in in V3 by auto. unfold month_days in V3. destruct (_ || _)%bool in V3; [lia|]. destruct (_ =? 2) in V3; [destruct (leap_year _) in V3; lia|lia]. }
  split; [|lia]. split; [exact V|]. do 5 (split; [reflexivity|]). lia.
Qed.
Lemma format_big_year d : (9999 < dt_year d)%Z -> parse_datetime (format_datetime d) = Err.
Proof.
  intros H. unfold format_datetime, show_year. replace (_ && _)%bool with false by lia. replace (dt_year d <? 0)%Z with false by lia.
  cbn [app]. reflexivity.
Qed.

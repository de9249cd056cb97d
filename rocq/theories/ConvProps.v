(** C64: what becomes of a Rust value that is put into a cell value and taken out. *)
From Coq Require Import Lia ZArith.
From Verif Require Import Base Lib XmlModel CellModel CellIoModel NumSpec ConvModel.

(** ** Specification *)

(** Finite floats: up to 2^53 of a power of two between 2^-1074 and 2^971. [scaled] is the number times 2^1074. *)
Definition finite (f : f64) : Prop := match f with Fin _ m e => m <= 2^53 /\ (-1074 <= e <= 971)%Z | _ => False end.
Definition unit_ : Z := (2^1074)%Z.
Definition scaled (f : f64) : Z := match f with Fin s m e => (if s then - (Z.of_N m * 2^(e + 1074)) else Z.of_N m * 2^(e + 1074))%Z | _ => 0%Z end.
(** [f] is as near to [x] as a float can be, and of two equally near it is the one with an even last digit. *)
Definition nearest (x : Z) (f : f64) : Prop :=
  finite f /\ (forall g, finite g -> (Z.abs (scaled f - x * unit_) <= Z.abs (scaled g - x * unit_))%Z) /\
  (forall g, finite g -> Z.abs (scaled f - x * unit_) = Z.abs (scaled g - x * unit_) -> scaled g = scaled f \/ exists m e, scaled f = (m * 2^e)%Z /\ Z.even m = true /\ (2^52 <= Z.abs m)%Z).
Definition exact (x : Z) : Prop := exists m k, Z.abs x = (m * 2^k)%Z /\ (0 <= m <= 2^53 /\ 0 <= k)%Z.
Definition in_range (t : ity) (x : Z) : Prop := (least t <= x <= greatest t)%Z.

(** ** Rounding *)

Lemma pow_pos k : (0 < 2^Z.of_N k)%Z.
Proof. apply Z.pow_pos_nonneg; lia. Qed.
Lemma size_big n : 53 < N.size n -> (2^52 * 2^Z.of_N (N.size n - 53) <= Z.of_N n)%Z.
Proof.
  intros H. assert (n <> 0) as N0 by (intros ->; cbn in H; lia). rewrite N.size_log2 in * by exact N0.
  rewrite <- Z.pow_add_r by lia. replace (52 + Z.of_N (N.succ (N.log2 n) - 53))%Z with (Z.of_N (N.log2 n)) by lia.
  rewrite <- (N2Z.inj_pow 2). apply N2Z.inj_le. apply N.log2_spec. lia.
Qed.
Lemma size_small n : (Z.of_N n < 2^53 * 2^Z.of_N (N.size n - 53))%Z.
Proof.
  rewrite <- Z.pow_add_r by lia. apply Z.lt_le_trans with (2^Z.of_N (N.size n))%Z; [|apply Z.pow_le_mono_r; lia].
  rewrite <- (N2Z.inj_pow 2). apply N2Z.inj_lt. apply N.size_gt.
Qed.
(** The rounded number: within half a unit of the last place. *)
Lemma round_spec n m k : round53 n = (m, k) ->
  k = N.size n - 53 /\ (2 * Z.abs (Z.of_N m * 2^Z.of_N k - Z.of_N n) <= 2^Z.of_N k)%Z /\ (0 <= Z.of_N m <= 2^53)%Z /\
  (k = 0 -> m = n) /\ (k <> 0 -> (2^52 <= Z.of_N m)%Z) /\ ((2 * Z.abs (Z.of_N m * 2^Z.of_N k - Z.of_N n) = 2^Z.of_N k)%Z -> Z.even (Z.of_N m) = true).
Proof.
  unfold round53. set (k0 := N.size n - 53). intros H. apply pair_equal_spec in H as [M <-]. split; [reflexivity|].
  assert (P := pow_pos k0). set (p := (2^Z.of_N k0)%Z) in *.
  assert (Z.of_N (2^k0) = p) as E by (unfold p; rewrite N2Z.inj_pow; reflexivity).
  set (q := n / 2^k0) in *. set (r := n mod 2^k0) in *.
  assert (Z.of_N n = p * Z.of_N q + Z.of_N r)%Z as D.
  { rewrite <- E, <- N2Z.inj_mul, <- N2Z.inj_add. f_equal. apply N.div_mod. lia. }
  assert (0 <= Z.of_N r < p)%Z as R.
  { rewrite <- E. split; [lia|]. apply N2Z.inj_lt. apply N.mod_lt. lia. }
  assert (Z.of_N n < 2^53 * p)%Z as S by apply size_small.
  assert (N0 : Z.of_N (2^k0) = p) by exact E.
  assert (k0 <> 0 -> (2^52 * p <= Z.of_N n)%Z) as B0 by (intros K; apply size_big; unfold k0 in K; lia).
  assert (k0 = 0 -> p = 1%Z) as One by (intros K; unfold p; rewrite K; reflexivity).
  assert (O : forall a, Z.even (Z.of_N a) = negb (N.odd a)).
  { intros a. rewrite <- Z.negb_odd. f_equal. destruct a as [|[a|a|]]; reflexivity. }
  replace (2^53)%Z with (2 * 2^52)%Z in * by reflexivity. assert (0 < 2^52)%Z as H0 by reflexivity. revert H0 S B0. generalize (2^52)%Z. intros h H0 S B0.
  assert (Z.of_N q < 2 * h)%Z as Q by (clear - D R S P; nia).
  assert (k0 <> 0 -> (h <= Z.of_N q)%Z) as B by (intros K; specialize (B0 K); clear - D R P B0; nia).
  clear B0 S. clearbody p q r. assert (0 <= Z.of_N q)%Z as Q0 by lia.
  assert (forall d, Z.of_N m = (Z.of_N q + d)%Z -> (0 <= d <= 1)%Z -> (2 * Z.abs (p * d - Z.of_N r) <= p)%Z -> (k0 = 0 -> d = 0%Z) -> ((2 * Z.abs (p * d - Z.of_N r) = p)%Z -> Z.even (Z.of_N m) = true) ->
    (2 * Z.abs (Z.of_N m * p - Z.of_N n) <= p)%Z /\ (0 <= Z.of_N m <= 2 * h)%Z /\
    (k0 = 0 -> m = n) /\ (k0 <> 0 -> (h <= Z.of_N m)%Z) /\ ((2 * Z.abs (Z.of_N m * p - Z.of_N n) = p)%Z -> Z.even (Z.of_N m) = true)) as Main.
  { intros d Em D0 L K0 Ev. replace (Z.of_N m * p - Z.of_N n)%Z with (p * d - Z.of_N r)%Z by (rewrite Em, D; ring). split; [exact L|]. split; [lia|].
    split; [|split; [intros K; specialize (B K); lia|exact Ev]]. intros K. specialize (One K). specialize (K0 K). apply N2Z.inj. rewrite One in D, R. lia. }
  destruct ((2 * r) ?= 2^k0) eqn:C; [apply N.compare_eq in C|apply N.compare_lt_iff in C|apply N.compare_gt_iff in C].
  - assert (2 * Z.of_N r = p)%Z as C' by (rewrite <- E, <- C, N2Z.inj_mul; reflexivity). destruct (N.odd q) eqn:OQ; cbv iota in M; subst m.
    + apply (Main 1%Z); [lia|lia|lia|intros K; specialize (One K); lia|]. intros _. rewrite O, N.add_1_r, N.odd_succ, <- N.negb_odd, OQ. reflexivity.
    + apply (Main 0%Z); [lia|lia|lia|reflexivity|]. intros _. rewrite O, OQ. reflexivity.
  - assert (2 * Z.of_N r < p)%Z as C' by (rewrite <- E; apply N2Z.inj_lt in C; rewrite N2Z.inj_mul in C; exact C). cbv iota in M; subst m. apply (Main 0%Z); [lia|lia|lia|reflexivity|lia].
  - assert (p < 2 * Z.of_N r)%Z as C' by (rewrite <- E; apply N2Z.inj_lt in C; rewrite N2Z.inj_mul in C; exact C). cbv iota in M; subst m. apply (Main 1%Z); [lia|lia|lia|intros K; specialize (One K); lia|lia].
Qed.
Lemma unit_pos : (0 < unit_)%Z.
Proof. unfold unit_. apply Z.pow_pos_nonneg; lia. Qed.
Lemma scale e : (0 <= e)%Z -> (2^(e + 1074) = 2^e * unit_)%Z.
Proof. intros H. unfold unit_. apply Z.pow_add_r; lia. Qed.
(** No multiple of the unit of the last place is nearer. *)
Lemma grid (N0 w m d j : Z) : (0 < w)%Z -> (Z.abs (m * w - N0) = d)%Z -> (2 * d <= w)%Z -> (d <= Z.abs (j * w - N0))%Z /\ (d = Z.abs (j * w - N0) -> j = m \/ 2 * d = w)%Z.
Proof.
  intros W D L. destruct (Z.eq_dec j m) as [->|J]; [split; [lia|auto]|]. assert (w <= Z.abs (j * w - m * w))%Z as A.
  { rewrite <- Z.mul_sub_distr_r, Z.abs_mul, (Z.abs_eq w) by lia. nia. }
  split; [lia|]. intros E. right. lia.
Qed.
Lemma near_abs n m k y m' e : round53 n = (m, k) -> Z.abs y = (m' * 2^(e + 1074))%Z -> (0 <= m' <= 2^53)%Z -> (-1074 <= e)%Z ->
  (Z.abs (Z.of_N m * 2^Z.of_N k * unit_ - Z.of_N n * unit_) <= Z.abs (y - Z.of_N n * unit_))%Z /\
  (Z.abs (Z.of_N m * 2^Z.of_N k * unit_ - Z.of_N n * unit_) = Z.abs (y - Z.of_N n * unit_) ->
   y = Z.of_N m * 2^Z.of_N k * unit_ \/ (Z.even (Z.of_N m) = true /\ 2^52 <= Z.of_N m))%Z.
Proof.
  intros R Y M' E'. destruct (round_spec n m k R) as (Ek & L & M & K0 & KB & Ev). assert (U := unit_pos). assert (P := pow_pos k).
  set (p := (2^Z.of_N k)%Z) in *. set (w := (p * unit_)%Z). assert (0 < w)%Z as W by (unfold w; nia).
  set (n0 := (Z.of_N n * unit_)%Z). replace (Z.of_N m * p * unit_)%Z with (Z.of_N m * w)%Z by (unfold w; ring).
  assert (Z.abs (Z.of_N m * w - n0) = Z.abs (Z.of_N m * p - Z.of_N n) * unit_)%Z as D.
  { unfold w, n0. replace (Z.of_N m * (p * unit_) - Z.of_N n * unit_)%Z with ((Z.of_N m * p - Z.of_N n) * unit_)%Z by ring. rewrite Z.abs_mul, (Z.abs_eq unit_) by lia. reflexivity. }
  assert (2 * Z.abs (Z.of_N m * w - n0) <= w)%Z as L' by (rewrite D; unfold w; nia).
  assert (G := fun j => grid n0 w (Z.of_N m) _ j W eq_refl L').
  assert (2 * Z.abs (Z.of_N m * w - n0) = w -> Z.even (Z.of_N m) = true /\ 2^52 <= Z.of_N m)%Z as Tie.
  { intros T. rewrite D in T. unfold w in T. assert (2 * Z.abs (Z.of_N m * p - Z.of_N n) = p)%Z as T' by nia. split; [exact (Ev T')|].
    apply KB. intros K. specialize (K0 K). assert (p = 1)%Z as P1 by (unfold p; rewrite K; reflexivity). rewrite P1, K0 in T'. lia. }
  destruct (Z_lt_le_dec e (Z.of_N k)) as [Lt|Ge].
  - assert (k <> 0 \/ k = 0) as [K|K] by lia.
    + specialize (KB K). assert (2^52 * p <= Z.of_N n)%Z as B by (subst k; apply size_big; lia).
      assert (2 * 2^(e + 1074) <= w)%Z as S.
      { unfold w, p. rewrite <- scale by lia. rewrite <- Z.pow_succ_r by lia. apply Z.pow_le_mono_r; lia. }
      assert (Z.abs y <= 2^52 * w)%Z as YL.
      { rewrite Y. replace (2^53)%Z with (2 * 2^52)%Z in M' by reflexivity. assert (0 <= 2^(e + 1074))%Z by (apply Z.pow_nonneg; lia). clear - M' S H. revert M'. generalize (2^52)%Z. intros h M'. nia. }
      assert (2^52 * w <= n0)%Z as NL by (unfold w, n0; clear - B U; revert B; generalize (2^52)%Z; intros h B; nia).
      destruct (G (2^52)%Z) as (G1 & G2). split; [lia|]. intros T. assert (y = 2^52 * w)%Z as Y2 by lia. destruct G2 as [G2|G2]; [lia|left; rewrite Y2, <- G2; ring|right; exact (Tie G2)].
    + assert (Z.of_N m * w = n0)%Z as Z0 by (unfold w, n0, p; rewrite K, (K0 K); cbn; ring). rewrite Z0. split; [lia|]. intros T. left. lia.
  - assert (exists j, y = j * w)%Z as (j & ->).
    { assert (2^(e + 1074) = 2^(e - Z.of_N k) * w)%Z as S.
      { unfold w, p. rewrite Z.mul_assoc, <- Z.pow_add_r by lia. rewrite <- scale by lia. f_equal. lia. }
      destruct (Z.abs_spec y) as [(_ & A)|(_ & A)]; rewrite A in Y.
      - exists (m' * 2^(e - Z.of_N k))%Z. rewrite Y, S. ring.
      - exists (- (m' * 2^(e - Z.of_N k)))%Z. assert (y = - - y)%Z as -> by lia. rewrite Y, S. ring. }
    destruct (G j) as (G1 & G2). split; [exact G1|]. intros T. destruct (G2 T) as [->|T']; [left; ring|right; exact (Tie T')].
Qed.
(** The integer an f64 made from an integer stands for. *)
Definition rounded (x : Z) : Z := let (m, k) := round53 (Z.abs_N x) in (Z.sgn x * (Z.of_N m * 2^Z.of_N k))%Z.
Lemma round53_0 : round53 0 = (0, 0).
Proof. reflexivity. Qed.
Lemma rounded_opp x : rounded (- x) = (- rounded x)%Z.
Proof. unfold rounded. replace (Z.abs_N (- x)) with (Z.abs_N x) by (destruct x; reflexivity). destruct (round53 _). rewrite Z.sgn_opp. ring. Qed.
Lemma scaled_to x : scaled (to_f64 x) = (rounded x * unit_)%Z.
Proof.
  unfold rounded, to_f64. destruct (round53 (Z.abs_N x)) as [m k] eqn:R. cbn [scaled]. rewrite scale by lia. destruct x as [|x|x]; cbn [Z.ltb Z.compare Z.sgn]; try ring.
  cbn in R. rewrite round53_0 in R. injection R as <- <-. reflexivity.
Qed.
Lemma trunc_to x : let (m, k) := round53 (Z.abs_N x) in trunc (Z.ltb x 0) m (Z.of_N k) = rounded x.
Proof.
  unfold rounded. destruct (round53 (Z.abs_N x)) as [m k] eqn:R. unfold trunc. assert ((0 <=? Z.of_N k)%Z = true) as -> by (apply Z.leb_le; lia).
  destruct x as [|x|x]; cbn [Z.ltb Z.compare Z.sgn]; try ring. cbn in R. rewrite round53_0 in R. injection R as <- <-. reflexivity.
Qed.
Lemma int_to t x : to_int t (to_f64 x) = clamp t (rounded x).
Proof. unfold to_f64. assert (T := trunc_to x). destruct (round53 (Z.abs_N x)) as [m k]. cbn [to_int]. rewrite T. reflexivity. Qed.
Lemma finite_abs g : finite g -> exists m e, Z.abs (scaled g) = (m * 2^(e + 1074))%Z /\ (0 <= m <= 2^53)%Z /\ (-1074 <= e)%Z.
Proof.
  destruct g as [|s|s m e]; cbn [finite]; try contradiction. intros (M & E & _). exists (Z.of_N m), e. split; [|split; [|exact E]].
  - cbn [scaled]. assert (0 <= Z.of_N m * 2^(e + 1074))%Z by (apply Z.mul_nonneg_nonneg; [lia|apply Z.pow_nonneg; lia]). destruct s; lia.
  - split; [lia|]. apply N2Z.inj_le in M. exact M.
Qed.
Lemma rounded_near x y m' e : Z.abs y = (m' * 2^(e + 1074))%Z -> (0 <= m' <= 2^53)%Z -> (-1074 <= e)%Z ->
  (Z.abs (rounded x * unit_ - x * unit_) <= Z.abs (y - x * unit_))%Z /\
  (Z.abs (rounded x * unit_ - x * unit_) = Z.abs (y - x * unit_) ->
   y = rounded x * unit_ \/ exists m k, rounded x = m * 2^k /\ 0 <= k /\ Z.even m = true /\ 2^52 <= Z.abs m)%Z.
Proof.
  intros Y M' E'. unfold rounded. destruct (round53 (Z.abs_N x)) as [m k] eqn:R.
  assert (Z.of_N (Z.abs_N x) = Z.sgn x * x)%Z as A by (rewrite N2Z.inj_abs_N; destruct x; reflexivity).
  destruct (Z.eq_dec x 0) as [->|X].
  { cbn in R. rewrite round53_0 in R. injection R as <- <-. rewrite !Z.mul_0_l. split; [lia|]. intros T. left. lia. }
  assert (Z.sgn x = 1 \/ Z.sgn x = -1)%Z as S by (destruct x; [contradiction|auto|auto]).
  assert (Z.abs (Z.sgn x * y) = m' * 2^(e + 1074))%Z as Y' by (rewrite Z.abs_mul, Y; destruct S as [-> | ->]; cbn [Z.abs]; ring).
  destruct (near_abs _ m k _ m' e R Y' M' E') as (N1 & N2). rewrite A in N1, N2. remember (Z.of_N m * 2^Z.of_N k)%Z as v eqn:V.
  assert (forall z, Z.abs (Z.sgn x * z - Z.sgn x * x * unit_) = Z.abs (z - x * unit_))%Z as F.
  { intros z. replace (Z.sgn x * z - Z.sgn x * x * unit_)%Z with (Z.sgn x * (z - x * unit_))%Z by ring. rewrite Z.abs_mul. destruct S as [-> | ->]; cbn [Z.abs]; ring. }
  assert (v * unit_ = Z.sgn x * (Z.sgn x * v * unit_))%Z as EV by (destruct S as [-> | ->]; ring). rewrite EV, !F in N1, N2. split; [exact N1|]. intros T.
  destruct (N2 T) as [E|(E1 & E2)]; [left; destruct S as [S|S]; rewrite S in E |- *; lia|right].
  exists (Z.sgn x * Z.of_N m)%Z, (Z.of_N k). split; [rewrite V; ring|]. split; [lia|]. destruct S as [-> | ->].
  - rewrite Z.mul_1_l. split; [exact E1|lia].
  - replace (-1 * Z.of_N m)%Z with (- Z.of_N m)%Z by ring. rewrite Z.even_opp. split; [exact E1|lia].
Qed.
Lemma range_small t x : in_range t x -> (Z.abs x < 2^64)%Z.
Proof. unfold in_range. destruct t; cbn [least greatest]; intros H; lia. Qed.
Lemma finite_to t x : in_range t x -> finite (to_f64 x).
Proof.
  intros H. assert (S := range_small t x H). unfold to_f64. destruct (round53 (Z.abs_N x)) as [m k] eqn:R. destruct (round_spec _ _ _ R) as (K & _ & M & _).
  cbn [finite]. split; [apply N2Z.inj_le; exact (proj2 M)|]. split; [lia|].
  assert (Z.abs_N x < 2^64) as S' by (apply N2Z.inj_lt; rewrite N2Z.inj_abs_N; exact S).
  assert (N.size (Z.abs_N x) <= 64) as S2.
  { destruct (Z.abs_N x) as [|q] eqn:Q; [cbn; lia|]. rewrite N.size_log2 by discriminate. apply N.log2_lt_pow2 in S'; lia. }
  lia.
Qed.
(** The number made from an integer is the nearest float. *)
Theorem C64_nearest t x : in_range t x -> exists f, from (OfInt t x) = CNumber f /\ nearest x f.
Proof.
  intros H. exists (to_f64 x). split; [reflexivity|]. split; [exact (finite_to t x H)|]. rewrite scaled_to. split; intros g G; destruct (finite_abs g G) as (m & e & A & M & E).
  - exact (proj1 (rounded_near x _ m e A M E)).
  - intros T. destruct (proj2 (rounded_near x _ m e A M E) T) as [Q|(m' & k & Q & K & Q1 & Q2)]; [left; exact Q|right]. exists m', (k + 1074)%Z. rewrite scale, Q by exact K. split; [ring|auto].
Qed.
Lemma rounded_form x : exists m k, Z.abs (rounded x) = (m * 2^k)%Z /\ (0 <= m <= 2^53 /\ 0 <= k)%Z.
Proof.
  unfold rounded. destruct (round53 (Z.abs_N x)) as [m k] eqn:R. destruct (round_spec _ _ _ R) as (_ & _ & M & _). assert (P := pow_pos k).
  exists (if Z.eqb x 0 then 0%Z else Z.of_N m), (Z.of_N k). split; [|split; [destruct (Z.eqb x 0); lia|lia]]. destruct x; cbn [Z.eqb Z.sgn]; try (cbn; lia); rewrite Z.abs_mul; cbn [Z.abs]; nia.
Qed.
(** Rounding to one among the integers that are floats. *)
Lemma rounded_best x z : exact z -> (Z.abs (rounded x - x) <= Z.abs (z - x))%Z.
Proof.
  intros (m & k & A & M & K). destruct (rounded_near x (z * unit_) m k) as (H & _); [|exact M|lia|].
  - rewrite scale by exact K. rewrite Z.abs_mul, A, (Z.abs_eq unit_) by (apply Z.lt_le_incl, unit_pos). ring.
  - assert (U := unit_pos). rewrite <- !Z.mul_sub_distr_r, !Z.abs_mul, (Z.abs_eq unit_) in H by lia. nia.
Qed.
Lemma rounded_exact x : exact x -> rounded x = x.
Proof. intros H. assert (B := rounded_best x x H). lia. Qed.
Lemma exact_small x : (Z.abs x <= 2^53)%Z -> exact x.
Proof. intros H. exists (Z.abs x), 0%Z. rewrite Z.pow_0_r. lia. Qed.
Lemma exact_pow k : (0 <= k)%Z -> exact (2^k).
Proof. intros H. exists 1%Z, k. split; [rewrite Z.abs_eq by (apply Z.pow_nonneg; lia); ring|lia]. Qed.
Lemma exact_opp x : exact x -> exact (- x).
Proof. intros (m & k & A & B). exists m, k. rewrite Z.abs_opp. auto. Qed.
Lemma exact_least t : exact (least t).
Proof. destruct t; cbn [least]; try (apply exact_small; cbn; lia). apply exact_opp, exact_pow. lia. Qed.
Lemma rounded_mono x y : (x <= y)%Z -> (rounded x <= rounded y)%Z.
Proof.
  intros H. assert (A := rounded_best x (rounded y) (rounded_form y)). assert (B := rounded_best y (rounded x) (rounded_form x)).
  destruct (Z.eq_dec x y) as [->|N]; lia.
Qed.
Lemma clamp_mono t x y : (x <= y)%Z -> (clamp t x <= clamp t y)%Z.
Proof. unfold clamp. intros H. assert (least t <= greatest t)%Z by (destruct t; cbn; lia). repeat match goal with |- context [Z.ltb ?a ?b] => destruct (Z.ltb_spec a b) end; lia. Qed.
Lemma clamp_in t x : in_range t x -> clamp t x = x.
Proof. unfold clamp, in_range. intros H. repeat match goal with |- context [Z.ltb ?a ?b] => destruct (Z.ltb_spec a b) end; lia. Qed.
Lemma clamp_range t x : in_range t (clamp t x).
Proof. unfold clamp, in_range. assert (least t <= greatest t)%Z by (destruct t; cbn; lia). repeat match goal with |- context [Z.ltb ?a ?b] => destruct (Z.ltb_spec a b) end; lia. Qed.

(** ** Integers *)

(** An integer comes back if it is a float, and the greatest of each type does. *)
Theorem C64_exact t x : in_range t x -> (as_int_opt t (from (OfInt t x)) = Some x <-> exact x \/ x = greatest t).
Proof.
  intros R. cbn [from as_int_opt]. rewrite int_to. split.
  - intros H. injection H as H. assert (rounded (least t) <= rounded x)%Z as L by (apply rounded_mono; exact (proj1 R)). rewrite (rounded_exact _ (exact_least t)) in L.
    unfold clamp in H. assert (Z.ltb (rounded x) (least t) = false) as E by (apply Z.ltb_ge; exact L). rewrite E in H.
    destruct (Z.ltb_spec (greatest t) (rounded x)); [right; auto|left]. rewrite <- H. exact (rounded_form x).
  - intros [H| ->]; [rewrite rounded_exact, clamp_in by assumption; reflexivity|]. destruct t; vm_compute; reflexivity.
Qed.
(** So up to 2^53 and for all types of up to 32 bits. *)
Theorem C64_int t x : in_range t x -> (Z.abs x <= 2^53)%Z -> as_int_opt t (from (OfInt t x)) = Some x.
Proof. intros R H. apply C64_exact; [exact R|]. left. apply exact_small. exact H. Qed.
Theorem C64_int_small t x : in_range t x -> match t with I64 | U64 => False | _ => True end -> as_int_opt t (from (OfInt t x)) = Some x.
Proof. intros R H. apply C64_int; [exact R|]. unfold in_range in R. destruct t; try contradiction; cbn [least greatest] in R; lia. Qed.
(** The others come back nearly: with an error of less than the 2^53th part, in their order. *)
Theorem C64_near t x : in_range t x -> exists y, as_int_opt t (from (OfInt t x)) = Some y /\ in_range t y /\ (2^53 * Z.abs (y - x) <= Z.abs x)%Z.
Proof.
  intros R. exists (clamp t (rounded x)). cbn [from as_int_opt]. rewrite int_to. split; [reflexivity|]. split; [apply clamp_range|].
  assert (2^53 * Z.abs (rounded x - x) <= Z.abs x)%Z as B.
  { unfold rounded. destruct (round53 (Z.abs_N x)) as [m k] eqn:Q. destruct (round_spec _ _ _ Q) as (K & L & M & K0 & KB & _). assert (P := pow_pos k).
    assert (Z.of_N (Z.abs_N x) = Z.abs x) as A by apply N2Z.inj_abs_N. rewrite A in L.
    assert (Z.abs (Z.sgn x * (Z.of_N m * 2^Z.of_N k) - x) = Z.abs (Z.of_N m * 2^Z.of_N k - Z.abs x))%Z as ->.
    { destruct x as [|x|x]; cbn [Z.sgn]; [cbn in Q; rewrite round53_0 in Q; injection Q as <- <-; reflexivity| |]; lia. }
    assert (k = 0 \/ k <> 0) as [E|E] by lia.
    - rewrite E, (K0 E) , A. rewrite Z.mul_1_r, Z.sub_diag. cbn. lia.
    - assert (2^52 * 2^Z.of_N k <= Z.of_N (Z.abs_N x))%Z as S by (rewrite K; apply size_big; lia). rewrite A in S. replace (2^53)%Z with (2^52 * 2)%Z by reflexivity.
      assert (0 < 2^52)%Z as H0 by reflexivity. revert S H0. generalize (2^52)%Z. intros h S H0. nia. }
  unfold clamp. unfold in_range in R. assert (Z.abs (clamp t (rounded x) - x) <= Z.abs (rounded x - x))%Z as C.
  { unfold clamp. repeat match goal with |- context [Z.ltb ?a ?b] => destruct (Z.ltb_spec a b) end; lia. }
  unfold clamp in C. lia.
Qed.
Theorem C64_order t u x y : in_range t x -> in_range t y -> (x <= y)%Z -> exists x' y', as_int_opt u (from (OfInt t x)) = Some x' /\ as_int_opt u (from (OfInt t y)) = Some y' /\ (x' <= y')%Z.
Proof. intros _ _ H. exists (clamp u (rounded x)), (clamp u (rounded y)). cbn [from as_int_opt]. rewrite !int_to. repeat split. apply clamp_mono, rounded_mono, H. Qed.
(** As another type it comes back if it is one of that type too, else the nearest of that type does. *)
Theorem C64_other t u x : in_range t x -> (Z.abs x <= 2^53)%Z ->
  exists y, as_int_opt u (from (OfInt t x)) = Some y /\ in_range u y /\ (in_range u x -> y = x) /\ (x < least u -> y = least u)%Z /\ (greatest u < x -> y = greatest u)%Z.
Proof.
  intros R H. exists (clamp u x). cbn [from as_int_opt]. rewrite int_to, rounded_exact by (apply exact_small; exact H). split; [reflexivity|]. split; [apply clamp_range|].
  split; [apply clamp_in|]. assert (least u <= greatest u)%Z by (destruct u; cbn; lia). unfold clamp. split; intros; repeat match goal with |- context [Z.ltb ?a ?b] => destruct (Z.ltb_spec a b) end; lia.
Qed.

(** ** Floats as integers *)

(** Towards zero, and no further than the type reaches. *)
Theorem C64_cut t f : finite f -> exists y, as_int_opt t (from (OfFloat f)) = Some y /\
  (scaled f < least t * unit_ -> y = least t)%Z /\ (greatest t * unit_ < scaled f -> y = greatest t)%Z /\
  (least t * unit_ <= scaled f <= greatest t * unit_ -> Z.abs y * unit_ <= Z.abs (scaled f) < (Z.abs y + 1) * unit_ /\ 0 <= y * scaled f)%Z.
Proof.
  destruct f as [|s|s m e]; cbn [finite]; try contradiction. intros (M & E1 & E2). exists (clamp t (trunc s m e)). split; [reflexivity|].
  set (a := (if 0 <=? e then Z.of_N m * 2^e else Z.of_N m / 2^(- e))%Z). set (v := (Z.of_N m * 2^(e + 1074))%Z). assert (U := unit_pos).
  assert (0 <= a /\ a * unit_ <= v < (a + 1) * unit_)%Z as (A0 & A).
  { unfold a, v. destruct (Z.leb_spec 0 e) as [G|G].
    - rewrite scale by exact G. assert (0 <= 2^e)%Z by (apply Z.pow_nonneg; lia). split; [nia|]. rewrite Z.mul_assoc. nia.
    - assert (0 < 2^(- e))%Z as P by (apply Z.pow_pos_nonneg; lia). assert (unit_ = 2^(e + 1074) * 2^(- e))%Z as ->.
      { unfold unit_. rewrite <- Z.pow_add_r by lia. f_equal. lia. }
      assert (0 < 2^(e + 1074))%Z as P2 by (apply Z.pow_pos_nonneg; lia). assert (D := Z.div_mod (Z.of_N m) (2^(- e)) ltac:(lia)). assert (B := Z.mod_pos_bound (Z.of_N m) (2^(- e)) P).
      split; [apply Z.div_pos; lia|]. clear - D B P2. revert D B. generalize (Z.of_N m / 2^(- e))%Z (Z.of_N m mod 2^(- e))%Z. intros q r D B. revert D B P2. generalize (2^(- e))%Z (2^(e + 1074))%Z (Z.of_N m). intros u w n D B P2. nia. }
  change (scaled (Fin s m e)) with (if s then - v else v)%Z. change (trunc s m e) with (if s then - a else a)%Z. clearbody a v. revert U A. generalize unit_. intros u U A.
  assert (least t <= 0 <= greatest t)%Z as LG by (destruct t; cbn; lia). revert LG. unfold clamp. generalize (least t) (greatest t). intros l g LG.
  destruct s.
  - split; [|split].
    + intros H. assert (- a <= l)%Z by nia. repeat match goal with |- context [Z.ltb ?a ?b] => destruct (Z.ltb_spec a b) end; lia.
    + intros H. exfalso. nia.
    + intros (H1 & H2). assert (l <= - a)%Z by nia. repeat match goal with |- context [Z.ltb ?a ?b] => destruct (Z.ltb_spec a b) end; [lia|lia|].
      rewrite !Z.abs_opp, (Z.abs_eq a), (Z.abs_eq v) by nia. split; [exact A|nia].
  - split; [|split].
    + intros H. exfalso. nia.
    + intros H. assert (g <= a)%Z by nia. repeat match goal with |- context [Z.ltb ?a ?b] => destruct (Z.ltb_spec a b) end; lia.
    + intros (H1 & H2). assert (a <= g)%Z by nia. repeat match goal with |- context [Z.ltb ?a ?b] => destruct (Z.ltb_spec a b) end; [lia|lia|].
      rewrite (Z.abs_eq a), (Z.abs_eq v) by nia. split; [exact A|nia].
Qed.
(** The types go from [-2^(n-1)] to [2^(n-1)-1] and from 0 to [2^n-1], and an infinite number gives the ends. *)
Definition bits (t : ity) : Z := match t with I64 | U64 => 64 | I32 | U32 => 32 | I16 | U16 => 16 | I8 | U8 => 8 end%Z.
Definition signed (t : ity) : bool := match t with I64 | I32 | I16 | I8 => true | _ => false end.
Theorem C64_limits t :
  as_int_opt t (CNumber (Inf true)) = Some (if signed t then - 2^(bits t - 1) else 0)%Z /\
  as_int_opt t (CNumber (Inf false)) = Some (if signed t then 2^(bits t - 1) - 1 else 2^bits t - 1)%Z /\
  forall x, in_range t x <-> if signed t then (- 2^(bits t - 1) <= x < 2^(bits t - 1))%Z else (0 <= x < 2^bits t)%Z.
Proof. split; [now destruct t|]. split; [now destruct t|]. intros x. unfold in_range. destruct t; cbn [signed bits least greatest]; lia. Qed.
Example C64_limits_ex : as_int_opt U64 (CNumber (Inf false)) = Some 18446744073709551615%Z /\ as_int_opt I8 (CNumber (Inf true)) = Some (-128)%Z.
Proof. split; reflexivity. Qed.
Theorem C64_not_finite t : as_int_opt t (CNumber Nan) = Some 0%Z /\ as_int_opt t (CNumber (Inf true)) = Some (least t) /\ as_int_opt t (CNumber (Inf false)) = Some (greatest t).
Proof. repeat split. Qed.
(** Numbers, percentages and amounts are read in the same way. *)
Theorem C64_same t f c : as_int_opt t (new_percentage f) = as_int_opt t (CNumber f) /\ as_int_opt t (new_currency c f) = as_int_opt t (CNumber f) /\
  as_f64_opt (new_percentage f) = Some f /\ as_f64_opt (new_currency c f) = Some f /\ as_f64_opt (CNumber f) = Some f /\ currency (new_currency c f) = c /\
  currency (new_percentage f) = [] /\ currency (CNumber f) = [].
Proof. repeat split. Qed.

(** ** The other types *)

Definition midnight (d : date) : datetime := DateTime (da_year d) (da_month d) (da_day d) 0 0 0 0.
Theorem C64_others :
  (forall f, as_f64_opt (from (OfFloat f)) = Some f) /\
  (forall b d, as_bool_or (from (OfBool b)) d = b) /\
  (forall s d, as_str_opt (from (OfStr s)) = Some s /\ as_string_opt (from (OfStr s)) = Some s /\ as_cow_or (from (OfStr s)) d = s) /\
  (forall d, as_datetime_opt (from (OfDateTime d)) = Some d) /\
  (forall d, as_date_opt (from (OfDate d)) = Some d /\ as_datetime_opt (from (OfDate d)) = Some (midnight d)) /\
  (forall t, as_datetime_opt (from (OfTime t)) = Some (DateTime 1899 12 30 (ti_hour t) (ti_minute t) (ti_second t) (ti_nano t))) /\
  (forall n, as_timeduration_opt (from (OfDuration n)) = Some n) /\
  (forall s, from_opt (Some s) = from s) /\ from_opt None = CEmpty /\ from OfUnit = CEmpty.
Proof. repeat split. destruct d; reflexivity. Qed.
(** A date or a time that is one gives a date and time that is one. *)
Theorem C64_valid : (forall d, valid_datetime d -> valid_datetime (midnight (date_of d))) /\
  (forall t, ti_hour t <= 23 -> ti_minute t <= 59 -> ti_second t <= 59 -> ti_nano t < 1000000000 \/ ti_second t = 59 /\ ti_nano t < 2000000000 ->
   exists d, as_datetime_opt (from (OfTime t)) = Some d /\ valid_datetime d).
Proof.
  split.
  - intros d [Y M D _ _ _ _]. split; cbn; try assumption; lia.
  - intros t H M S N. eexists. split; [reflexivity|]. split; cbn; try assumption; lia.
Qed.
Ltac kinds v := destruct v; cbn; split; intros H; first [discriminate | solve [auto] | (exfalso; apply H; reflexivity) | (intuition discriminate)].
(** Each way of reading is for certain types of value, and those alone. *)
Theorem C64_kinds v :
  (forall t, as_int_opt t v <> None <-> value_type v = TyNumber \/ value_type v = TyPercent \/ value_type v = TyCurrency) /\
  (as_f64_opt v <> None <-> value_type v = TyNumber \/ value_type v = TyPercent \/ value_type v = TyCurrency) /\
  (as_str_opt v <> None <-> value_type v = TyText) /\ as_string_opt v = as_str_opt v /\
  (as_timeduration_opt v <> None <-> value_type v = TyDuration) /\
  (as_datetime_opt v <> None <-> value_type v = TyDateTime) /\ (as_date_opt v <> None <-> value_type v = TyDateTime) /\
  (currency v <> [] -> value_type v = TyCurrency) /\
  ((forall d, as_bool_or v d = d) <-> value_type v <> TyBool) /\ ((forall d, as_cow_or v d = d) <-> value_type v <> TyText /\ value_type v <> TyXml).
Proof.
  split; [intros t; kinds v|]. split; [kinds v|]. split; [kinds v|]. split; [destruct v; reflexivity|]. split; [kinds v|]. split; [kinds v|]. split; [kinds v|].
  split; [destruct v; cbn; intros H; try reflexivity; contradiction|]. split.
  - destruct v; cbn; split; intros H; try discriminate; try reflexivity; try contradiction. assert (H1 := H true). assert (H2 := H false). congruence.
  - destruct v as [| | | | |s|l| |]; cbn; split; intros H; try (split; discriminate); try reflexivity; try (destruct H; contradiction).
    + assert (H1 := H []). assert (H2 := H [0]). congruence.
    + assert (H1 := H []). assert (H2 := H [0]). congruence.
Qed.
(** What is not of the type gives the default. *)
Theorem C64_default v : (forall t d, as_int_opt t v = None -> as_int_or t v d = d /\ as_int_or_default t v = 0%Z) /\ (forall t d x, as_int_opt t v = Some x -> as_int_or t v d = x /\ as_int_or_default t v = x) /\
  (forall d, as_f64_opt v = None -> as_f64_or v d = d /\ as_f64_or_default v = Fin false 0 0) /\ (forall d x, as_f64_opt v = Some x -> as_f64_or v d = x /\ as_f64_or_default v = x) /\
  (forall d, as_str_opt v = None -> as_str_or v d = d /\ as_str_or_default v = [] /\ as_string_or_default v = []) /\
  (forall d x, as_str_opt v = Some x -> as_str_or v d = x /\ as_str_or_default v = x /\ as_string_or_default v = x) /\
  (forall d, as_timeduration_opt v = None -> as_timeduration_or v d = d /\ as_timeduration_or_default v = 0%Z) /\ (forall d x, as_timeduration_opt v = Some x -> as_timeduration_or v d = x /\ as_timeduration_or_default v = x) /\
  (forall d, as_datetime_opt v = None -> as_datetime_or v d = d /\ as_datetime_or_default v = DateTime 1970 1 1 0 0 0 0) /\ (forall d x, as_datetime_opt v = Some x -> as_datetime_or v d = x /\ as_datetime_or_default v = x) /\
  (forall d, as_date_opt v = None -> as_date_or v d = d /\ as_date_or_default v = Date 1970 1 1) /\ (forall d x, as_date_opt v = Some x -> as_date_or v d = x /\ as_date_or_default v = x).
Proof.
  unfold as_int_or, as_int_or_default, as_f64_or, as_f64_or_default, as_str_or, as_str_or_default, as_string_or_default, as_timeduration_or, as_timeduration_or_default, as_datetime_or, as_datetime_or_default, as_date_or, as_date_or_default.
  replace (as_string_opt v) with (as_str_opt v) by (destruct v; reflexivity).
  repeat match goal with |- _ /\ _ => split end; intros; match goal with H : _ = _ |- _ => rewrite H end; repeat split.
Qed.
(** The text of a cell with markup: that of its paragraphs, one on each line. *)
Fixpoint texts (x : xnode) : list str := match x with XText t => [t] | XTag _ _ c => flat_map texts c end.
Fixpoint lines (l : list str) : str := match l with [] => [] | [s] => s | s :: r => s ++ 10 :: lines r end.
Theorem C64_markup l d : as_cow_or (from (OfTags l)) d = lines (map (fun x => concat (texts x)) l) /\ as_str_opt (from (OfTags l)) = None.
Proof.
  assert (T : forall x, extract_text x = concat (texts x)).
  { fix T 1. intros [t|n a c]; cbn; [rewrite app_nil_r; reflexivity|]. induction c as [|x c IH]; cbn; [reflexivity|]. rewrite concat_app, T, IH. reflexivity. }
  split; [|reflexivity]. cbn [from as_cow_or].
  assert (A : forall l b nl, add_texts l nl b = b ++ (match l with [] => [] | _ => if nl then [10] else [] end) ++ lines (map (fun x => concat (texts x)) l)).
  { clear l. induction l as [|x l IH]; intros b nl; [cbn; rewrite !app_nil_r; reflexivity|]. cbn [add_texts]. rewrite IH, T. cbn [map lines]. unfold c_nl.
    destruct l as [|y l]; destruct nl; cbn [lines map app]; rewrite ?app_nil_r, <- ?app_assoc; reflexivity. }
  rewrite A. destruct l; reflexivity.
Qed.

(** ** What is not as one might think *)

(** From 2^53 on not all integers come back. *)
Theorem C64_large_refuted : exists x, in_range I64 x /\ in_range U64 x /\ as_int_opt I64 (from (OfInt I64 x)) = Some (x - 1)%Z /\ as_int_opt U64 (from (OfInt U64 x)) = Some (x - 1)%Z.
Proof. exists 9007199254740993%Z. unfold in_range. cbn [least greatest]. repeat split; vm_compute; congruence. Qed.
(** The default is not for numbers that are no integers of the type: these are cut silently. *)
Theorem C64_cut_refuted : exists f g h, finite f /\ finite g /\ finite h /\ (forall d, as_int_or U8 (CNumber f) d = 255)%Z /\ (forall d, as_int_or U8 (CNumber g) d = 0)%Z /\
  (forall d, as_int_or I64 (CNumber h) d = -2)%Z /\ (forall d, as_int_or I64 (CNumber Nan) d = 0)%Z /\ scaled f = (300 * unit_)%Z /\ scaled g = (-1 * unit_)%Z /\ (4 * scaled h = -11 * unit_)%Z.
Proof. exists (Fin false 300 0), (Fin true 1 0), (Fin true 11 (-2)). cbn [finite]. repeat split; try lia; vm_compute; reflexivity. Qed.
(** "line-breaks are kept as \n": not those inside a paragraph; and spaces and tabs that are tags are lost. *)
Theorem C64_line_break_refuted : exists p, p = [XTag (lit "text:p") [] [XText (lit "a"); XTag (lit "text:line-break") [] []; XText (lit "b"); XTag (lit "text:s") [] []; XText (lit "c")]] /\
  forall d, as_cow_or (CXml p) d = lit "abc".
Proof. eexists. split; [reflexivity|]. reflexivity. Qed.
(** A time does not come back as a duration, and it has a date. *)
Theorem C64_time_refuted : forall t, as_timeduration_opt (from (OfTime t)) = None /\ as_date_opt (from (OfTime t)) = Some (Date 1899 12 30).
Proof. split; reflexivity. Qed.
Example C64_ex : as_int_opt I64 (from (OfInt I64 (-9007199254740994))) = Some (-9007199254740994)%Z /\ as_int_opt U8 (from (OfInt I64 200)) = Some 200%Z /\
  as_int_opt I8 (from (OfInt I64 200)) = Some 127%Z /\ as_int_opt U64 (from (OfInt U64 (2^64 - 1))) = Some (2^64 - 1)%Z /\ as_int_opt U64 (from (OfInt U64 (2^64 - 1025))) = Some (2^64 - 2048)%Z /\
  as_date_opt (from (OfDate (Date 2024 2 29))) = Some (Date 2024 2 29) /\ as_cow_or (from (OfTags [XTag (lit "text:p") [] [XText (lit "a"); XTag (lit "text:span") [] [XText (lit "b")]]; XTag (lit "text:p") [] []])) [] = lit "ab" ++ [10].
Proof. repeat split. Qed.

Print Assumptions C64_nearest.
Print Assumptions C64_exact.
Print Assumptions C64_int.
Print Assumptions C64_int_small.
Print Assumptions C64_near.
Print Assumptions C64_order.
Print Assumptions C64_other.
Print Assumptions C64_cut.
Print Assumptions C64_limits.
Print Assumptions C64_not_finite.
Print Assumptions C64_same.
Print Assumptions C64_others.
Print Assumptions C64_valid.
Print Assumptions C64_kinds.
Print Assumptions C64_default.
Print Assumptions C64_markup.
Print Assumptions C64_large_refuted.
Print Assumptions C64_cut_refuted.
Print Assumptions C64_line_break_refuted.
Print Assumptions C64_time_refuted.

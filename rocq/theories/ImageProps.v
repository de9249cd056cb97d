(** C66: the data of an image as bytes. *)
From Coq Require Import Lia.
From Verif Require Import Base Lib NumModel XmlModel XmlSpec CellModel CellIoModel CellIoSpec CellIoProofs CellIoProps DrawModel DrawProofs DrawProps ImageModel.

(** ** Specification: RFC 4648 *)

Definition alphabet : str := lit "ABCDEFGHIJKLMNOPQRSTUVWXYZabcdefghijklmnopqrstuvwxyz0123456789+/".
Definition digit (v : N) (c : char) : Prop := nth_error alphabet (N.to_nat v) = Some c.
(** The number a list of digits to a base stands for. *)
Definition number (b : N) (l : list N) : N := fold_left (fun n d => n * b + d) l 0.
Definition bytes (l : list N) : Prop := Forall (fun b => b < 256) l.
(** The text has the bits of the bytes, six each, with up to five zeros at the end. *)
Definition base64 (l : list N) (t : str) : Prop :=
  bytes l /\ exists vs p, Forall2 digit vs t /\ 6 * N.of_nat (length vs) = 8 * N.of_nat (length l) + p /\ p < 6 /\ number 64 vs = number 256 l * 2^p.

(** ** Proofs *)

Lemma below_64 (P : N -> Prop) : Forall P (map N.of_nat (seq 0 64)) -> forall v, v < 64 -> P v.
Proof. intros F v H. rewrite Forall_forall in F. apply F. apply in_map_iff. exists (N.to_nat v). split; [apply N2Nat.id|]. apply in_seq. lia. Qed.
Lemma symbol_digit v : v < 64 -> digit v (symbol v).
Proof. apply (below_64 (fun v => digit v (symbol v))). repeat (constructor; [vm_compute; reflexivity|]). constructor. Qed.
Lemma digit_symbol v c : digit v c -> v < 64 /\ c = symbol v.
Proof.
  intros H. assert (N.to_nat v < length alphabet)%nat as L by (apply nth_error_Some; unfold digit in H; congruence). change (length alphabet) with 64%nat in L.
  assert (v < 64) as V by lia. split; [exact V|]. assert (D := symbol_digit v V). unfold digit in *. congruence.
Qed.
Lemma value_symbol v : v < 64 -> symbol_value (symbol v) = Ok v.
Proof. apply (below_64 (fun v => symbol_value (symbol v) = Ok v)). repeat (constructor; [vm_compute; reflexivity|]). constructor. Qed.
Lemma symbol_of c v : symbol_value c = Ok v -> v < 64 /\ c = symbol v.
Proof.
  unfold symbol_value, symbol. intros H. repeat match type of H with context [if ?b then _ else _] => destruct b eqn:? end; try discriminate H; injection H as <-;
  repeat match goal with X : _ && _ = true |- _ => apply andb_prop in X as [? ?] | X : (_ <=? _) = true |- _ => apply N.leb_le in X | X : (_ =? _) = true |- _ => apply N.eqb_eq in X end;
  (split; [lia|]); repeat match goal with |- context [if ?b then _ else _] => destruct b eqn:? end;
  repeat match goal with X : (_ <? _) = true |- _ => apply N.ltb_lt in X | X : (_ <? _) = false |- _ => apply N.ltb_ge in X | X : (_ =? _) = true |- _ => apply N.eqb_eq in X | X : (_ =? _) = false |- _ => apply N.eqb_neq in X end; lia.
Qed.
Lemma number_from b l : forall n, fold_left (fun n d => n * b + d) l n = n * b ^ N.of_nat (length l) + number b l.
Proof.
  unfold number. induction l as [|d l IH]; intros n; [cbn; lia|]. cbn [fold_left length]. rewrite IH, (IH (0 * b + d)), Nat2N.inj_succ, N.pow_succ_r'. ring.
Qed.
Lemma number_cons b d l : number b (d :: l) = d * b ^ N.of_nat (length l) + number b l.
Proof. unfold number at 1. cbn [fold_left]. rewrite number_from. f_equal; ring. Qed.
(** Groups of three bytes. *)
Lemma triples (P : list N -> Prop) : P [] -> (forall a, P [a]) -> (forall a b, P [a; b]) -> (forall a b c r, P r -> P (a :: b :: c :: r)) -> forall l, P l.
Proof.
  intros P0 P1 P2 P3. fix IH 1. intros [|a [|b [|c r]]]; [exact P0|apply P1|apply P2|apply P3, IH].
Qed.
Ltac cut n k := assert (n = k * (n / k) + n mod k) by (apply N.div_mod; discriminate); assert (n mod k < k) by (apply N.mod_lt; discriminate).
Lemma encode_spec l : bytes l -> base64 l (encode l).
Proof.
  intros B. split; [exact B|]. revert l B. refine (triples (fun l => bytes l -> exists vs p, Forall2 digit vs (encode l) /\ 6 * N.of_nat (length vs) = 8 * N.of_nat (length l) + p /\ p < 6 /\ number 64 vs = number 256 l * 2^p) _ _ _ _).
  - intros _. exists [], 0. repeat split; constructor.
  - intros a B. inversion B; subst. cut a 4. exists [a / 4; a mod 4 * 16], 4. cbn [encode]. split; [repeat constructor; apply symbol_digit; lia|]. split; [reflexivity|]. split; [reflexivity|].
    rewrite !number_cons. cbn [length N.of_nat]. change (number 64 []) with 0. change (number 256 []) with 0. change (64 ^ N.pos (Pos.of_succ_nat 0)) with 64. change (64 ^ 0) with 1. change (256 ^ 0) with 1. change (2 ^ 4) with 16. lia.
  - intros a b B. inversion B as [|? ? B1 B2]; inversion B2; subst. cut a 4. cut b 16. exists [a / 4; a mod 4 * 16 + b / 16; b mod 16 * 4], 2. cbn [encode]. split; [repeat constructor; apply symbol_digit; lia|]. split; [reflexivity|]. split; [reflexivity|].
    rewrite !number_cons. cbn [length]. change (number 64 []) with 0. change (number 256 []) with 0. change (64 ^ N.of_nat 2) with 4096. change (64 ^ N.of_nat 1) with 64. change (64 ^ N.of_nat 0) with 1. change (256 ^ N.of_nat 1) with 256. change (256 ^ N.of_nat 0) with 1. change (2 ^ 2) with 4. lia.
  - intros a b c r IH B. inversion B as [|? ? B1 B2]; inversion B2 as [|? ? B3 B4]; inversion B4; subst. destruct IH as (vs & p & D & L & P & E); [assumption|].
    cut a 4. cut b 16. cut c 64. exists (a / 4 :: a mod 4 * 16 + b / 16 :: b mod 16 * 4 + c / 64 :: c mod 64 :: vs), p. cbn [encode].
    split; [repeat (constructor; [apply symbol_digit; lia|]); exact D|]. cbn [length]. split; [lia|]. split; [exact P|].
    rewrite !number_cons. cbn [length]. rewrite E. assert (64 ^ N.of_nat (length vs) = 256 ^ N.of_nat (length r) * 2 ^ p) as W.
    { change 64 with (2 ^ 6). change 256 with (2 ^ 8). rewrite <- !N.pow_mul_r, <- N.pow_add_r. f_equal. lia. }
    rewrite !Nat2N.inj_succ, !N.pow_succ_r', W. set (x := 256 ^ N.of_nat (length r)). set (y := 2 ^ p).
    assert (a / 4 * (64 * (64 * 64)) + (a mod 4 * 16 + b / 16) * (64 * 64) + (b mod 16 * 4 + c / 64) * 64 + c mod 64 = a * (256 * 256) + b * 256 + c) as G by lia.
    transitivity ((a / 4 * (64 * (64 * 64)) + (a mod 4 * 16 + b / 16) * (64 * 64) + (b mod 16 * 4 + c / 64) * 64 + c mod 64) * (x * y) + number 256 r * y); [ring|]. rewrite G. ring.
Qed.
Lemma decode_encode l : bytes l -> decode (encode l) = Ok l.
Proof.
  revert l. refine (triples (fun l => bytes l -> decode (encode l) = Ok l) _ _ _ _); [reflexivity| | |].
  - intros a B. inversion B; subst. cut a 4. cbn [encode decode]. rewrite !value_symbol by lia. cbn [bind].
    replace (a mod 4 * 16 mod 16) with 0 by (symmetry; apply N.mod_mul; discriminate). cbn [N.eqb]. rewrite N.div_mul by discriminate. do 2 f_equal. lia.
  - intros a b B. inversion B as [|? ? B1 B2]; inversion B2; subst. cut a 4. cut b 16. cbn [encode decode]. rewrite !value_symbol by lia. cbn [bind].
    replace (b mod 16 * 4 mod 4) with 0 by (symmetry; apply N.mod_mul; discriminate). cbn [N.eqb]. rewrite N.div_mul by discriminate.
    assert (b / 16 < 16) by lia. rewrite (N.add_comm (a mod 4 * 16)), (N.div_add (b / 16)), (N.mod_add (b / 16)), (N.div_small (b / 16)), (N.mod_small (b / 16)) by lia. do 2 f_equal; [lia|]. f_equal. lia.
  - intros a b c r IH B. inversion B as [|? ? B1 B2]; inversion B2 as [|? ? B3 B4]; inversion B4; subst. cut a 4. cut b 16. cut c 64. cbn [encode decode]. rewrite !value_symbol by lia. cbn [bind].
    rewrite IH by assumption. cbn [bind]. assert (b / 16 < 16) by lia. rewrite (N.add_comm (a mod 4 * 16)), (N.div_add (b / 16)), (N.mod_add (b / 16)), (N.div_small (b / 16)), (N.mod_small (b / 16)) by lia.
    assert (c / 64 < 4) by lia. rewrite (N.add_comm (b mod 16 * 4)), (N.div_add (c / 64)), (N.mod_add (c / 64)), (N.div_small (c / 64)), (N.mod_small (c / 64)) by lia. do 2 f_equal; [lia|]. f_equal; [lia|]. f_equal. lia.
Qed.
Lemma numbers_inj b l : forall l', 0 < b -> Forall (fun d => d < b) l -> Forall (fun d => d < b) l' -> length l = length l' -> number b l = number b l' -> l = l'.
Proof.
  induction l as [|d l IH]; intros [|d' l'] B F F' L E; try discriminate L; [reflexivity|]. injection L as L. inversion F as [|? ? F1 F2]; inversion F' as [|? ? F3 F4]; subst.
  rewrite !number_cons, <- L in E. assert (forall m, Forall (fun d => d < b) m -> number b m < b ^ N.of_nat (length m)) as S.
  { clear - B. induction m as [|x m IHm]; intros H; [cbn; lia|]. inversion H; subst. rewrite number_cons. cbn [length]. rewrite Nat2N.inj_succ, N.pow_succ_r'. specialize (IHm H3). nia. }
  assert (S1 := S l F2). assert (S2 := S l' F4). rewrite <- L in S2. assert (d = d') as -> by nia. f_equal. apply IH; try assumption. lia.
Qed.
Lemma digits_small vs t : Forall2 digit vs t -> Forall (fun d => d < 64) vs /\ t = map symbol vs.
Proof. induction 1 as [|v c vs t D _ (I1 & I2)]; [split; constructor|]. destruct (digit_symbol v c D) as (V & ->). split; [constructor; assumption|cbn [map]; congruence]. Qed.
Lemma base64_unique l t : base64 l t -> t = encode l.
Proof.
  intros (B & vs & p & D & L & P & E). destruct (encode_spec l B) as (_ & us & q & D' & L' & P' & E'). destruct (digits_small _ _ D) as (S & ->). destruct (digits_small _ _ D') as (S' & ->).
  assert (p = q) as <- by lia. f_equal. apply (numbers_inj 64); try assumption; [reflexivity|lia|congruence].
Qed.
Ltac same := repeat match goal with |- _ :: _ = _ :: _ => apply f_equal2 | |- symbol _ = symbol _ => apply f_equal; lia | |- ?x = ?x => reflexivity end.
Lemma decode_bytes t : forall l, decode t = Ok l -> bytes l /\ t = encode l.
Proof.
  assert (Q : forall n t, (length t <= n)%nat -> forall l, decode t = Ok l -> bytes l /\ t = encode l); [|apply (Q (length t)); lia].
  clear t. induction n as [|n IH]; intros [|x [|y [|z [|w r]]]] N l H; cbn [length] in N; try lia; cbn [decode] in H; try discriminate H; try (injection H as <-; split; [constructor|reflexivity]).
  - apply bind_ok in H as (a & A & H). apply bind_ok in H as (b & B & H). apply symbol_of in A as (A & ->). apply symbol_of in B as (B & ->). destruct (N.eqb_spec (b mod 16) 0) as [Z|Z]; [|discriminate H].
    injection H as <-. cut b 16. split; [repeat constructor; lia|]. cbn [encode]. rewrite (N.add_comm (a * 4)), N.div_add, N.mod_add, (N.div_small (b / 16)), (N.mod_small (b / 16)) by lia. same.
  - apply bind_ok in H as (a & A & H). apply bind_ok in H as (b & B & H). apply bind_ok in H as (c & C & H). apply symbol_of in A as (A & ->). apply symbol_of in B as (B & ->). apply symbol_of in C as (C & ->).
    destruct (N.eqb_spec (c mod 4) 0) as [Z|Z]; [|discriminate H]. injection H as <-. cut b 16. cut c 4. split; [repeat constructor; lia|]. cbn [encode].
    rewrite (N.add_comm (a * 4)), N.div_add, N.mod_add, (N.div_small (b / 16)), (N.mod_small (b / 16)) by lia.
    rewrite (N.add_comm (b mod 16 * 16)), N.div_add, N.mod_add, (N.div_small (c / 4)), (N.mod_small (c / 4)) by lia. same.
  - apply bind_ok in H as (a & A & H). apply bind_ok in H as (b & B & H). apply bind_ok in H as (c & C & H). apply bind_ok in H as (d & D & H). apply bind_ok in H as (r' & R & H).
    apply symbol_of in A as (A & ->). apply symbol_of in B as (B & ->). apply symbol_of in C as (C & ->). apply symbol_of in D as (D & ->). apply IH in R as (R1 & ->); [|lia]. injection H as <-. cut b 16. cut c 4.
    split; [repeat (constructor; [lia|]); exact R1|]. cbn [encode].
    rewrite (N.add_comm (a * 4)), N.div_add, N.mod_add, (N.div_small (b / 16)), (N.mod_small (b / 16)) by lia.
    rewrite (N.add_comm (b mod 16 * 16)), N.div_add, N.mod_add, (N.div_small (c / 4)), (N.mod_small (c / 4)) by lia.
    rewrite (N.add_comm (c mod 4 * 64)), N.div_add, N.mod_add, (N.div_small d), (N.mod_small d) by lia.
    same.
Qed.

(** ** Theorems *)

(** The data is the base64 text of the bytes, and these are got back. *)
Theorem C66_set b i : bytes b -> exists t, get_binary_base64 (set_binary b i) = Some t /\ base64 b t /\ get_binary (set_binary b i) = Ok b.
Proof. intros B. exists (encode b). split; [reflexivity|]. split; [exact (encode_spec b B)|exact (decode_encode b B)]. Qed.
(** Exactly the base64 texts without padding can be read, and give their bytes. *)
Theorem C66_get t i b : get_binary (set_binary_base64 t i) = Ok b <-> base64 b t.
Proof.
  cbn [get_binary set_binary_base64 im_data]. split.
  - intros H. apply decode_bytes in H as (B & ->). exact (encode_spec b B).
  - intros H. rewrite (base64_unique b t H). apply decode_encode. exact (proj1 H).
Qed.
Theorem C66_one b b' t : base64 b t -> base64 b' t -> b = b'.
Proof. intros H H'. assert (E := proj2 (C66_get t (DImage [] None []) b) H). assert (E' := proj2 (C66_get t (DImage [] None []) b') H'). congruence. Qed.
(** Nothing else is changed, and without data there are no bytes. *)
Theorem C66_rest b t i : im_attrs (set_binary b i) = im_attrs i /\ im_text (set_binary b i) = im_text i /\ im_attrs (set_binary_base64 t i) = im_attrs i /\
  im_text (set_binary_base64 t i) = im_text i /\ get_binary_base64 (set_binary_base64 t i) = Some t /\ get_binary (clear_binary i) = Ok [] /\ get_binary_base64 (clear_binary i) = None /\
  im_attrs (clear_binary i) = im_attrs i /\ im_text (clear_binary i) = im_text i.
Proof. repeat split. Qed.
(** The data can be written, and after reading the bytes are there again. *)
Theorem C66_writable b : bytes b -> raw_text_ok (encode b).
Proof.
  intros B. destruct (encode_spec b B) as (_ & vs & _ & D & _). destruct (digits_small _ _ D) as (S & ->). apply Forall_map. eapply Forall_impl; [|exact S].
  apply below_64. repeat (constructor; [vm_compute; intros [E|[E|[]]]; discriminate E|]). constructor.
Qed.
Theorem C66_survives lb ign dflt ds c h k x f fs1 fs2 i is1 is2 b : writable (c_value c) -> extra_ok c -> 1 <= k <= u32_max -> c_extra c = Some x ->
  x_frames x = fs1 ++ f :: fs2 -> df_content f = is1 ++ set_binary b i :: is2 -> bytes b ->
  exists c' f' j, through_file lb ign dflt ds c h k = Ok (k, Some c') /\ nth_error (k_frames (cell_content c')) (length fs1) = Some f' /\
    nth_error (df_content f') (length is1) = Some j /\ get_binary j = Ok b.
Proof.
  intros W X K E F I B. destruct (C54_frames lb ign dflt ds c h k x W X K E) as (c' & H & S); [rewrite F; destruct fs1; discriminate|].
  assert (M : forall A (R : A -> A -> Prop) l1 y l2 l', Forall2 R (l1 ++ y :: l2) l' -> exists z, nth_error l' (length l1) = Some z /\ R y z).
  { clear. intros A R. induction l1 as [|a l1 IH]; intros y l2 l' H; inversion H; subst; [eexists; split; [reflexivity|assumption]|]. exact (IH _ _ _ H4). }
  rewrite F in S. apply M in S as (f' & N1 & (_ & _ & _ & S)). rewrite I in S. apply M in S as (j & N2 & (_ & S & _)). exists c', f', j. split; [exact H|]. split; [exact N1|]. split; [exact N2|].
  unfold get_binary. rewrite S. cbn [set_binary im_data]. apply decode_encode. exact B.
Qed.
(** What other programs write cannot be read: base64 with padding as ODF has it, or with line breaks. *)
Definition padded (n : nat) (t : str) : str := t ++ repeat 61 n.
Theorem C66_padding_refuted : (forall b n i, (0 < n)%nat -> get_binary (set_binary_base64 (padded n (encode b)) i) = Err) /\ (forall t1 t2 i c, ~ In c alphabet -> get_binary (set_binary_base64 (t1 ++ c :: t2) i) = Err).
Proof.
  assert (G : forall t c, In c t -> ~ In c alphabet -> decode t = Err).
  { intros t c I N. destruct (decode t) as [l| |] eqn:E; [|reflexivity|].
    - apply decode_bytes in E as (B & ->). destruct (encode_spec l B) as (_ & vs & _ & D & _). exfalso. clear - I N D. induction D as [|v d vs t D _ IH]; [destruct I|]. destruct I as [->|I]; [|exact (IH I)].
      apply N. unfold digit in D. apply nth_error_In in D. exact D.
    - exfalso. clear - E. assert (Q : forall n t, (length t <= n)%nat -> decode t <> Panic); [|exact (Q (length t) t (le_n _) E)]. clear. assert (S : forall c, symbol_value c <> Panic) by (intros c; unfold symbol_value; repeat match goal with |- context [if ?b then _ else _] => destruct b end; discriminate).
      induction n as [|n IH]; intros [|x [|y [|z [|w r]]]] N; cbn [length] in N; try lia; cbn [decode]; try discriminate; assert (S1 := S x); try (assert (S2 := S y)); try (assert (S3 := S z)); try (assert (S4 := S w));
        repeat match goal with |- context [bind (symbol_value ?c) _] => destruct (symbol_value c); cbn [bind]; try discriminate; try contradiction end; try (match goal with |- context [if ?b then _ else _] => destruct b end; discriminate).
      specialize (IH r ltac:(lia)). destruct (decode r); cbn [bind]; try discriminate. contradiction. }
  split.
  - intros b n i P. cbn [get_binary set_binary_base64 im_data]. apply (G _ 61).
    + unfold padded. apply in_or_app. right. destruct n; [lia|]. left. reflexivity.
    + vm_compute. intuition discriminate.
  - intros t1 t2 i c N. cbn [get_binary set_binary_base64 im_data]. apply (G _ c); [apply in_or_app; right; left; reflexivity|exact N].
Qed.
(** ODF has the data as xsd:base64Binary, the length of which without white space is a multiple of four: what is written is one only if the number of bytes is a multiple of three. *)
Theorem C66_odf_refuted : (forall b, bytes b -> (N.of_nat (length (encode b)) mod 4 = 0 <-> N.of_nat (length b) mod 3 = 0)) /\ exists b, bytes b /\ N.of_nat (length (encode b)) mod 4 <> 0.
Proof.
  split.
  - intros b B. destruct (encode_spec b B) as (_ & vs & p & D & L & P & _). assert (length (encode b) = length vs) as -> by (clear - D; induction D; [reflexivity|cbn [length]; congruence]). assert (N1 := N.div_mod (N.of_nat (length vs)) 4 ltac:(discriminate)). assert (N2 := N.div_mod (N.of_nat (length b)) 3 ltac:(discriminate)).
    assert (M1 := N.mod_lt (N.of_nat (length vs)) 4 ltac:(discriminate)). assert (M2 := N.mod_lt (N.of_nat (length b)) 3 ltac:(discriminate)). lia.
  - exists [97]. split; [repeat constructor|]. vm_compute. discriminate.
Qed.
Example C66_ex : encode [104; 101; 108; 108; 111] = lit "aGVsbG8" /\ decode (lit "aGVsbG8") = Ok [104; 101; 108; 108; 111] /\ decode (lit "aGVsbG8=") = Err /\ decode (lit "aGVsbG9") = Err /\ encode [255; 254; 0; 3] = lit "//4AAw".
Proof. repeat split. Qed.
Example C66_survives_ex : (let* p := back true (ex_cell None [DFrame None None [] [set_binary [104; 105; 0; 255] ex_image]]) in
  match snd p with [f] => match df_content f with [i] => get_binary i | _ => Err end | _ => Err end) = Ok [104; 105; 0; 255].
Proof. vm_compute. reflexivity. Qed.

Print Assumptions C66_set.
Print Assumptions C66_get.
Print Assumptions C66_one.
Print Assumptions C66_rest.
Print Assumptions C66_writable.
Print Assumptions C66_survives.
Print Assumptions C66_padding_refuted.
Print Assumptions C66_odf_refuted.

(** C40: condition texts are unambiguous. *)
From Verif Require Import Base Lib RefsSpec NumModel NumSpec NumProofs CondModel CondSpec.

Lemma read_doubled s rest : hd 0 rest <> 34 -> read_body (double_quotes s ++ 34 :: rest) = Some (s, rest).
Proof.
  intros H. induction s as [|c s IH]; cbn [double_quotes app read_body].
  - cbn [N.eqb Pos.eqb]. destruct rest as [|c2 rest]; [reflexivity|]. cbn [hd] in H. destruct (c2 =? 34) eqn:E; [lia|reflexivity].
  - destruct (c =? 34) eqn:E; cbn [app read_body].
    + change (34 =? 34) with true. cbn match. rewrite IH. f_equal. f_equal. f_equal. lia.
    + rewrite E, IH. reflexivity.
Qed.
(** A quoted text can be read back, whatever follows (unless it is a further quote). *)
Theorem C40_quote : forall s rest, hd 0 rest <> 34 -> read_quoted (quote s ++ rest) = Some (s, rest).
Proof. intros s rest H. unfold quote, read_quoted. cbn [app]. rewrite <- app_assoc. cbn [app]. now apply read_doubled. Qed.
Example C40_quote_ex : read_quoted (quote (lit "say ""hi"";") ++ lit ";x") = Some (lit "say ""hi"";", lit ";x").
Proof. reflexivity. Qed.

Lemma quote_inj a b : quote a = quote b -> a = b.
Proof. intros H. pose proof (C40_quote a []) as A. pose proof (C40_quote b []) as B. rewrite H in A. cbn [hd] in *. rewrite B in A by discriminate. specialize (A ltac:(discriminate)). congruence. Qed.
Lemma show_N_inj a b : show_N a = show_N b -> a = b.
Proof. intros H. destruct (show_N_numeral a) as (_ & _ & X), (show_N_numeral b) as (_ & _ & Y). congruence. Qed.
Lemma all_digit_head s : all_digit s -> forall c r, s = c :: r -> 48 <= c <= 57.
Proof. intros H c r ->. apply digit_forallb in H. cbn [forallb] in H. unfold is_digit in H. lia. Qed.
Lemma all_digit_in s : all_digit s -> forall c, In c s -> 48 <= c <= 57.
Proof. intros H c I. apply digit_forallb in H. rewrite forallb_forall in H. apply H in I. unfold is_digit in I. lia. Qed.
Lemma int_text_inj s a b : int_text s a -> int_text s b -> a = b.
Proof.
  intros (d & n & (D1 & D2 & D3) & [(-> & ->)|(-> & ->)]) (e & m & (E1 & E2 & E3) & [(X & ->)|(X & ->)]).
  - congruence.
  - apply all_digit_head with (c := 45) (r := e) in D2; [lia|exact X].
  - apply all_digit_head with (c := 45) (r := d) in E2; [lia|symmetry; exact X].
  - injection X as X. congruence.
Qed.
Lemma int_chars s z : int_text s z -> s <> [] /\ forall c, In c s -> c = 45 \/ 48 <= c <= 57.
Proof.
  intros (d & n & (D1 & D2 & _) & [(-> & _)|(-> & _)]); (split; [congruence || discriminate|]); intros c I.
  - right. eapply all_digit_in; eauto.
  - destruct I as [I|I]; [left; congruence|right; eapply all_digit_in; eauto].
Qed.
Lemma bare_chars v : operand_ok v -> (exists s, v = OText s) \/ forall c, In c (operand_text v) -> float_char c \/ In c (lit "truefalse").
Proof.
  intros H. destruct v as [s|z|b|t]; [left; eauto|right|right|right]; intros c I; cbn [operand_text operand_ok] in *.
  - left. destruct (int_chars _ _ (show_Z_text z)) as (_ & K). apply K in I. unfold float_char. destruct I as [->|I]; [right; cbn; tauto|left; exact I].
  - right. destruct b; cbn in *; tauto.
  - left. rewrite Forall_forall in H. now apply H.
Qed.
Lemma bare_no v k : operand_ok v -> (match v with OText _ => False | _ => True end) -> k = 34 \/ k = 61 -> ~ In k (operand_text v).
Proof.
  intros H N K I. destruct (bare_chars v H) as [(s & ->)|B]; [exact N|]. apply B in I. unfold float_char in I. cbn in I.
  destruct K as [-> | ->]; repeat (destruct I as [I|I]; try lia).
Qed.
Lemma operand_head v r : operand_ok v -> operand_text v <> 61 :: r.
Proof.
  intros H E. destruct v as [s| | |]; [discriminate| | |]; (eapply bare_no; [exact H|exact I|right; reflexivity|rewrite E; left; reflexivity]).
Qed.
Lemma bool_not_float (b : bool) t : Forall float_char t -> (if b then lit "true" else lit "false") <> t.
Proof.
  intros H E. subst t. destruct b; inversion H as [|? ? A B]; subst; clear H.
  - unfold float_char in A. cbn in A. repeat (destruct A as [A|A]; try lia).
  - inversion B as [|? ? C D]; subst. inversion D as [|? ? E F]; subst. unfold float_char in E. cbn in E. repeat (destruct E as [E|E]; try lia).
Qed.
Lemma operand_inj a b : operand_ok a -> operand_ok b -> operand_text a = operand_text b -> same_operand a b.
Proof.
  intros Ha Hb E.
  assert (Q : forall x y, operand_ok y -> operand_text (OText x) = operand_text y -> exists s, y = OText s).
  { intros x y Hy Ey. destruct (bare_chars y Hy) as [X|X]; [exact X|]. exfalso. specialize (X 34). rewrite <- Ey in X. cbn in X. destruct X as [X|X]; [now left|..]; unfold float_char in X; cbn in X; repeat (destruct X as [X|X]; try lia). }
  assert (IB : forall z b, show_Z z <> (if b : bool then lit "true" else lit "false")).
  { intros z bb X. destruct (int_chars _ _ (show_Z_text z)) as (_ & K). rewrite X in K. destruct bb; cbn in K; [specialize (K 116)|specialize (K 102)]; destruct K; try lia; now left. }
  destruct a as [s|z|x|t]; destruct b as [s'|z'|x'|t']; cbn [same_operand];
    try (match goal with |- False => first [ destruct (Q _ _ Hb E); discriminate | destruct (Q _ _ Ha (eq_sym E)); discriminate ] end);
    cbn [operand_text operand_ok] in *.
  - now apply quote_inj.
  - eapply int_text_inj; [apply show_Z_text|]. rewrite E. apply show_Z_text.
  - now apply (IB z x').
  - rewrite <- E. apply show_Z_text.
  - symmetry in E. now apply (IB z' x).
  - destruct x, x'; (reflexivity || discriminate).
  - now apply (bool_not_float x t').
  - rewrite E. apply show_Z_text.
  - symmetry in E. now apply (bool_not_float x' t).
  - exact E.
Qed.
Lemma op_inj o o' t t' : (forall r, t <> 61 :: r) -> (forall r, t' <> 61 :: r) -> op_text o ++ t = op_text o' ++ t' -> o = o' /\ t = t'.
Proof.
  intros H H' E. destruct o, o'; cbn in E; try discriminate; injection E as E; try (split; [reflexivity|exact E]); exfalso; first [now apply (H t')|now apply (H' t)|now apply (H _ E)|now apply (H' _ (eq_sym E))].
Qed.

(** The operands of a choice list can be read from the text; numbers are read as texts. *)
Lemma list_item_text v : operand_ok v -> list_item v = quote (plain v).
Proof.
  intros H. destruct v as [s|z|b|t]; [reflexivity| | |];
  (match goal with |- list_item ?v = _ => assert (N : ~ In 34 (operand_text v)) by (apply bare_no; [exact H|exact I|now left]) end;
   unfold list_item, plain, quote; set (x := operand_text _) in *; clearbody x; clear H;
   assert (D : double_quotes x = x) by (induction x as [|c x IH]; cbn [double_quotes]; [reflexivity|]; destruct (c =? 34) eqn:E; [exfalso; apply N; left; lia|rewrite IH by (intros I; apply N; now right); reflexivity]);
   rewrite D; destruct x as [|c x]; [reflexivity|]; destruct (N.eq_dec c 34) as [->|Nc]; [exfalso; apply N; now left|]; destruct c as [|p]; [reflexivity|]; do 6 (destruct p as [p|p|]; try reflexivity); exfalso; now apply Nc).
Qed.
Lemma quote_len s : (2 <= length (quote s))%nat.
Proof. unfold quote. cbn [length]. rewrite app_length. cbn [length]. lia. Qed.
Lemma read_items_ok : forall l n v, Forall operand_ok (v :: l) -> (length l < n)%nat ->
  read_items n (list_item v ++ list_items true l ++ lit ")") = Some (map plain (v :: l)).
Proof.
  induction l as [|w l IH]; intros n v F L; destruct n as [|n]; try (cbn in L; lia); inversion F as [|? ? Fv Fl]; subst; cbn [read_items list_items app].
  - rewrite list_item_text by exact Fv. change (lit ")") with [41]. rewrite C40_quote by discriminate. reflexivity.
  - rewrite (list_item_text v) by exact Fv. rewrite C40_quote by discriminate. cbn [app].
    rewrite <- app_assoc. rewrite IH; [reflexivity|exact Fl|]. cbn [length] in L. lia.
Qed.
Lemma list_items_len : forall l, (length l <= length (list_items true l))%nat.
Proof. induction l as [|v l IH]; cbn [list_items length app]; [lia|]. rewrite app_length. lia. Qed.
Theorem C40_list : forall l, Forall operand_ok l -> read_list (cond_text (CInList l)) = Some (map plain l).
Proof.
  intros l F. unfold read_list, cond_text. 
  assert (D : forall p s, drop_prefix p (p ++ s) = Some s) by (clear; induction p as [|a p IH]; intros s; cbn [drop_prefix app]; [reflexivity|]; now rewrite N.eqb_refl).
  rewrite D. destruct l as [|v l]; [reflexivity|]. cbn [list_items app]. rewrite <- app_assoc.
  set (k := list_item v ++ list_items true l ++ lit ")").
  assert (K : k <> [41]). { unfold k. inversion F; subst. rewrite list_item_text by assumption. discriminate. }
  assert (R : read_items (length k) k = Some (map plain (v :: l))).
  { apply read_items_ok; [exact F|]. unfold k. rewrite !app_length. pose proof (list_items_len l). cbn [length lit]. lia. }
  destruct k as [|c [|c2 k]]; [discriminate R| |]; [|destruct c as [|p]; [exact R|]; do 6 (destruct p as [p|p|]; try exact R)].
  destruct c as [|p]; [exact R|]; do 6 (destruct p as [p|p|]; try exact R). exfalso. now apply K.
Qed.
Example C40_list_ex : cond_text (CInList [OText (lit "a;""b"); OInt (-5); OBool true; OText []]) = lit "cell-content-is-in-list(""a;""""b"";""-5"";""true"";"""")"
  /\ read_list (cond_text (CInList [OText (lit "a;""b"); OInt (-5); OBool true; OText []])) = Some [lit "a;""b"; lit "-5"; lit "true"; []].
Proof. split; vm_compute; reflexivity. Qed.

Lemma digits_comma a : forall b r r', (forall c, In c a -> c <> 44) -> (forall c, In c b -> c <> 44) -> a ++ 44 :: r = b ++ 44 :: r' -> a = b /\ r = r'.
Proof.
  induction a as [|x a IH]; intros [|y b] r r' Ha Hb E; cbn [app] in E.
  - injection E as E. auto.
  - injection E as E1 E2. exfalso. apply (Hb y); [now left|congruence].
  - injection E as E1 E2. exfalso. apply (Ha x); [now left|congruence].
  - injection E as E1 E2. subst y. destruct (IH b r r') as (A & B); auto; [intros; apply Ha; now right|intros; apply Hb; now right|]. subst. auto.
Qed.
Lemma show_no_comma n c : In c (show_N n) -> c <> 44.
Proof. destruct (show_N_numeral n) as (_ & D & _). intros I. eapply all_digit_in in I; [|exact D]. lia. Qed.
Lemma show_no_eq n r : show_N n <> 61 :: r.
Proof. destruct (show_N_numeral n) as (_ & D & _). intros E. rewrite E in D. apply all_digit_head with (c := 61) (r := r) in D; [lia|reflexivity]. Qed.

(** Two calls that give the same text are calls of the same function with the same operands. *)
Theorem C40_injective : forall a b, cond_ok a -> cond_ok b -> cond_text a = cond_text b -> same_cond a b.
Proof.
  induction a as [o v|o n|i x y|l|r|k c IH|f]; intros b Ha Hb E; destruct b as [o' v'|o' n'|i' x' y'|l'|r'|k' c'|f'];
    cbn [same_cond cond_ok] in *;
    try (match goal with |- False => revert E; cbn [cond_text]; try destruct o; try destruct o'; try destruct i; try destruct i'; try destruct k; try destruct k'; cbn [kind_text op_text]; cbn; discriminate end).
  - cbn [cond_text] in E. apply app_inv_head in E. apply op_inj in E as (-> & E); [|intros; now apply operand_head..]. split; [reflexivity|now apply operand_inj].
  - cbn [cond_text] in E. apply app_inv_head in E. apply op_inj in E as (-> & E); [|intros; apply show_no_eq..]. split; [reflexivity|now apply show_N_inj].
  - cbn [cond_text] in E. assert (EI : i = i') by (destruct i, i'; try reflexivity; cbn in E; discriminate). subst i'. split; [reflexivity|].
    apply app_inv_head in E. change (lit ", ") with [44; 32] in E. cbn [app] in E. apply digits_comma in E as (E1 & E2); [|intros c; apply show_no_comma..].
    injection E2 as E2. apply app_inv_tail in E2. split; now apply show_N_inj.
  - pose proof (C40_list l Ha) as A. pose proof (C40_list l' Hb) as B. rewrite E in A. congruence.
  - (* a list and a range *) cbn [cond_text] in E. apply app_inv_head in E. destruct l as [|v l]; cbn [list_items app] in E; [discriminate|]. inversion Ha; subst. rewrite list_item_text in E by assumption. discriminate.
  - cbn [cond_text] in E. apply app_inv_head in E. destruct l' as [|v l']; cbn [list_items app] in E; [discriminate|]. inversion Hb; subst. rewrite list_item_text in E by assumption. discriminate.
  - cbn [cond_text] in E. apply app_inv_head in E. apply app_inv_tail in E. apply app_inv_head in E. now apply app_inv_tail in E.
  - cbn [cond_text] in E. assert (EK : k = k') by (destruct k, k'; try reflexivity; cbn in E; discriminate). subst k'. split; [reflexivity|]. apply app_inv_head in E. apply app_inv_head in E. now apply IH.
  - cbn [cond_text] in E. apply app_inv_head in E. now apply app_inv_tail in E.
Qed.
Theorem C40_value_injective : forall o v o' v', operand_ok v -> operand_ok v' -> value_cond_text o v = value_cond_text o' v' -> o = o' /\ same_operand v v'.
Proof.
  intros o v o' v' H H' E. apply app_inv_head in E. apply op_inj in E as (-> & E); [|intros; now apply operand_head..]. split; [reflexivity|now apply operand_inj].
Qed.
Example C40_ex : cond_ok (CIs KDate (CCmp CLe (OText (lit "x""y")))) /\ cond_text (CIs KDate (CCmp CLe (OText (lit "x""y")))) = lit "cell-content-is-date() and cell-content()<=""x""""y"""
  /\ value_cond_text CNe (OFloat (lit "1.5")) = lit "value()!=1.5" /\ operand_ok (OFloat (lit "1.5"))
  /\ cond_text (CLenBetween false 5 17) = lit "cell-content-text-length-is-not-between(5, 17)".
Proof. split; [exact I|]. split; [vm_compute; reflexivity|]. split; [vm_compute; reflexivity|]. split; [|vm_compute; reflexivity]. cbn. repeat constructor; unfold float_char; cbn; lia. Qed.
(** In a list a number cannot be told from its text. *)
Theorem C40_list_number_refuted : exists a b, a <> b /\ cond_ok a /\ cond_ok b /\ cond_text a = cond_text b.
Proof. exists (CInList [OInt 1]), (CInList [OText (lit "1")]). repeat split; try (repeat constructor). discriminate. Qed.

Print Assumptions C40_quote.
Print Assumptions C40_list.
Print Assumptions C40_injective.
Print Assumptions C40_value_injective.
Print Assumptions C40_list_number_refuted.

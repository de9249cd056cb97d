(** More lemmas for SetProps, on the values. *)
From Verif Require Import Base NumModel RefsSpec RefsModel EnumModel BookModel StyleModel FmtModel SetModel FmtSpec SetSpec Lib NumProofs FmtProofs SetProofs.
From Coq Require Import Lia.


(** ** Values *)

Lemma in_put k v a p : In p (put_attr k v a) -> p = (k, v) \/ In p a.
Proof.
  induction a as [|(k', v') r IH]; cbn [put_attr In]; intros H.
  - destruct H as [<-|[]]. auto.
  - destruct (str_eqb k' k); destruct H as [<-|H]; auto. destruct (IH H); auto.
Qed.
Lemma in_del k a p : In p (del_attr k a) -> In p a.
Proof.
  induction a as [|(k', v') r IH]; cbn [del_attr In]; intros H; [destruct H|].
  destruct (str_eqb k' k); [auto|]. destruct H as [<-|H]; auto.
Qed.
Lemma one_in a l v : In a l -> is_a a v = true -> one l v.
Proof. intros I H. apply existsb_exists. exists a. auto. Qed.
Lemma ending_ok units check u r : In u units -> check r = true -> ending units check (r ++ lit u) = true.
Proof.
  intros I H. apply existsb_exists. exists u. split; [exact I|]. cbv zeta. rewrite app_length.
  replace (length r + length (lit u) - length (lit u))%nat with (length r) by lia.
  rewrite skipn_app, firstn_app, Nat.sub_diag, skipn_all, firstn_all. cbn [skipn firstn app]. rewrite app_nil_r, str_eqb_refl. exact H.
Qed.
Lemma digits_shown n : some_digits (show_N n) = true.
Proof.
  destruct (show_N_numeral n) as (N & D & _). unfold some_digits. apply andb_true_iff. split.
  - destruct (show_N n) as [|c r]; [|reflexivity]. exfalso. apply N. reflexivity.
  - apply forallb_forall. intros c I. unfold all_digit in D. rewrite Forall_forall in D. specialize (D c I). cbn beta in D. unfold is_digit. lia.
Qed.
Lemma dec_zero s : forallb is_digit s = true -> nonzero s = false -> dec s = 0.
Proof.
  unfold dec. assert (forall v, v = 0 -> forallb is_digit s = true -> nonzero s = false -> fold_left (fun v c => v * 10 + (c - 48)) s v = 0) as G; [|intros; apply G; auto].
  induction s as [|c r IH]; intros v -> D Z; [reflexivity|]. cbn [forallb] in D. unfold nonzero in Z. cbn [existsb] in Z.
  apply andb_true_iff in D as (D1 & D2). apply orb_false_iff in Z as (Z1 & Z2). cbn [fold_left]. apply IH; [unfold is_digit in D1; lia|exact D2|exact Z2].
Qed.
Lemma nonzero_shown n : 1 <= n -> nonzero (show_N n) = true.
Proof.
  intros H. destruct (nonzero (show_N n)) eqn:E; [reflexivity|]. destruct (show_N_numeral n) as (_ & _ & V). assert (D := digits_shown n).
  apply andb_true_iff in D as (_ & D). rewrite (dec_zero _ D E) in V. lia.
Qed.
Lemma nat_shown n : is_a NonNegInt (show_N n) = true.
Proof. apply digits_shown. Qed.
Lemma pos_shown n : 1 <= n -> is_a PosInt (show_N n) = true.
Proof. intros H. cbn [is_a]. rewrite digits_shown, nonzero_shown by exact H. reflexivity. Qed.
Lemma unit_listed u : u <> Em -> exists n, In n length_units /\ show_unit u = lit n.
Proof.
  destruct u; intros H; [exists "cm"%string|exists "mm"%string|exists "in"%string|exists "pt"%string|exists "pc"%string|congruence];
    (split; [cbn [In length_units]; auto 10|reflexivity]).
Qed.
Lemma length_shown l : sound_length l -> is_a Length (show_length l) = true.
Proof.
  destruct l as [|v u]; [intros []|]. intros ((S & _) & U). destruct (unit_listed u U) as (n & I & E). cbn [show_length is_a]. rewrite E.
  apply ending_ok; assumption.
Qed.
Lemma zeros_nonzero r : nonzero r = true -> forallb (fun d => (d =? 48) || (d =? 46)) r = false.
Proof.
  intros H. apply existsb_exists in H as (c & I & E). destruct (forallb (fun d => (d =? 48) || (d =? 46)) r) eqn:F; [|reflexivity]. rewrite forallb_forall in F. specialize (F c I). lia.
Qed.
Lemma nonneg_shown l : sound_length l -> pos_length l = true -> is_a NonNegLength (show_length l) = true.
Proof.
  destruct l as [|v u]; [intros []|]. intros ((S & c & r & -> & M) & U) P. destruct (unit_listed u U) as (n & I & E). cbn [show_length is_a]. rewrite E.
  apply ending_ok; [exact I|]. cbn [signed] in S. cbn [pos_length pos_float] in P. destruct (c =? 45) eqn:C; [|exact S].
  apply N.eqb_eq in C. rewrite (zeros_nonzero r (M C)) in P. discriminate P.
Qed.
Lemma positive_shown l : sound_length l -> positive_length l -> is_a PosLength (show_length l) = true.
Proof.
  destruct l as [|v u]; [intros []|]. intros (_ & U) (A & B). destruct (unit_listed u U) as (n & I & E). cbn [show_length is_a]. rewrite E.
  apply ending_ok; [exact I|]. rewrite A, B. reflexivity.
Qed.
Lemma percent_shown v : sound_number v -> is_a PercentText (v ++ lit "%") = true.
Proof. intros (S & _). exact (ending_ok ["%"%string] signed "%"%string v (or_introl eq_refl) S). Qed.
Lemma angle_shown u v : In u ["deg"; "grad"; "rad"]%string -> sound_number v -> is_a AngleText (v ++ lit u) = true.
Proof. intros I (S & _). exact (ending_ok _ signed u v I S). Qed.
Lemma hex_digit n : n < 16 -> is_hex (hexdigit n) = true.
Proof. intros H. unfold is_hex, hexdigit, is_digit. destruct (n <? 10) eqn:E; lia. Qed.
Lemma color_shown c : byte_color c -> is_a Color (color_string c) = true.
Proof.
  destruct c as [r g b]. intros (R & G & B). cbn [c_r c_g c_b] in *. unfold color_string, hex2. cbn [c_r c_g c_b].
  change (lit "#") with [35]. cbn [app is_a]. cbn [forallb length].
  rewrite !hex_digit; [reflexivity|..]; first [apply N.div_lt_upper_bound; lia|apply N.mod_lt; lia].
Qed.
Lemma words_spaced (l : list str) : Forall (fun w => w <> [] /\ ~ In 32 w) l -> words (spaced l) = l.
Proof.
  induction l as [|w r IH]; intros H; [reflexivity|]. inversion H as [|? ? (N & B) H2]; subst. cbn [spaced flat_map]. fold (spaced r).
  assert (forall w', w' <> [] -> ~ In 32 w' -> words (w' ++ 32 :: spaced r) = w' :: words (spaced r)) as G.
  - induction w' as [|c q IHq]; intros N' B'; [congruence|]. cbn [app words].
    assert (c =? 32 = false) as -> by (apply N.eqb_neq; intros ->; apply B'; left; reflexivity).
    destruct q as [|d q].
    + cbn [app]. rewrite N.eqb_refl. cbn [words]. rewrite N.eqb_refl. reflexivity.
    + rewrite IHq; [|discriminate|intros I; apply B'; right; exact I]. cbn [app].
      assert (d =? 32 = false) as -> by (apply N.eqb_neq; intros ->; apply B'; right; left; reflexivity). reflexivity.
  - rewrite <- app_assoc. cbn [app]. rewrite G by assumption. f_equal. apply IH. exact H2.
Qed.
Lemma allow sl k v t : lookup k = Some t -> has_type t v -> here sl k v -> allowed sl k v.
Proof. intros E T H. unfold allowed. rewrite E. auto. Qed.

(** The slots that align vertically. *)
Lemma only_slots : forallb (fun h => forallb (fun sl => (negb (offeredb m_style_vertical_align (offers h sl)) || (slot_code sl =? 1)) &&
  (negb (offeredb m_style_vertical_align_para (offers h sl)) || (slot_code sl =? 5)))
  all_slots) all_holders = true.
Proof. vm_compute. reflexivity. Qed.
Lemma cell_slot h sl : In m_style_vertical_align (offers h sl) -> sl = Cell_props.
Proof.
  intros O. assert (A := only_slots). rewrite forallb_forall in A. specialize (A h (every_holder h)). rewrite forallb_forall in A.
  specialize (A sl (every_slot sl)). apply andb_true_iff in A as (A & _). rewrite (in_offeredb _ _ O) in A. apply N.eqb_eq in A.
  exact (slot_code_inj sl Cell_props A).
Qed.
Lemma para_slot h sl : In m_style_vertical_align_para (offers h sl) -> sl = Para_props.
Proof.
  intros O. assert (A := only_slots). rewrite forallb_forall in A. specialize (A h (every_holder h)). rewrite forallb_forall in A.
  specialize (A sl (every_slot sl)). apply andb_true_iff in A as (_ & A). rewrite (in_offeredb _ _ O) in A. apply N.eqb_eq in A.
  exact (slot_code_inj sl Para_props A).
Qed.
Ltac is_word := vm_compute; reflexivity.
Ltac pick a tac := apply (one_in a); [solve [cbn [In]; auto 20] | tac].
Ltac one_tac :=
  match goal with
  | |- one _ (show_length _) => first [ pick PosLength ltac:(apply positive_shown; assumption)
      | pick NonNegLength ltac:(apply nonneg_shown; assumption) | pick Length ltac:(apply length_shown; assumption) ]
  | |- one _ (show_N _) => first [ pick PosInt ltac:(apply pos_shown; assumption) | pick NonNegInt ltac:(apply nat_shown) ]
  | |- one _ (color_string _) => pick Color ltac:(apply color_shown; assumption)
  | |- one _ (_ ++ lit _) => first [ pick PercentText ltac:(apply percent_shown; assumption)
      | pick AngleText ltac:(apply angle_shown; [cbn [In]; auto|assumption]) ]
  | |- one _ [_] => pick OneChar ltac:(reflexivity)
  | |- one _ _ => first [ pick Code ltac:(assumption) | is_word ]
  end.
Ltac row_tac :=
  first [ one_tac
        | eexists; eexists; split; [reflexivity | split; [one_tac | row_tac]]
        | eexists; eexists; split; [rewrite <- app_assoc; reflexivity | split; [one_tac | row_tac]] ].
Ltac fit_tac := first [ left; cbn [row]; row_tac | right; fit_tac ].
Ltac here_tac := let HK := fresh in (split; [intros HK | intros HK _]); exfalso; vm_compute in HK; discriminate HK.
Ltac destr_args :=
  repeat match goal with
  | x : Angle |- _ => destruct x | x : Percent |- _ => destruct x | x : LengthPercent |- _ => destruct x
  | x : FontFamilyGeneric |- _ => destruct x | x : FontPitch |- _ => destruct x | x : TabStopType |- _ => destruct x
  | x : FontStretch |- _ => destruct x | x : Border |- _ => destruct x | x : PageBreak |- _ => destruct x | x : FontSize |- _ => destruct x
  | x : FontStyle |- _ => destruct x | x : FontVariant |- _ => destruct x | x : FontWeight |- _ => destruct x | x : Hyphenation |- _ => destruct x
  | x : HyphenationLadderCount |- _ => destruct x | x : TextKeep |- _ => destruct x | x : LetterSpacing |- _ => destruct x
  | x : LineHeight |- _ => destruct x | x : Margin |- _ => destruct x | x : TextAlign |- _ => destruct x | x : TextAlignLast |- _ => destruct x
  | x : Indent |- _ => destruct x | x : TextTransform |- _ => destruct x | x : WrapOption |- _ => destruct x | x : CellProtect |- _ => destruct x
  | x : WritingDirection |- _ => destruct x | x : TextRelief |- _ => destruct x | x : GlyphOrientation |- _ => destruct x
  | x : LineBreak |- _ => destruct x | x : PageNumber |- _ => destruct x | x : PrintOrder |- _ => destruct x | x : PrintOrientation |- _ => destruct x
  | x : PunctuationWrap |- _ => destruct x | x : RelativeScale |- _ => destruct x | x : RotationAlign |- _ => destruct x
  | x : PrintCentering |- _ => destruct x | x : TextAlignSource |- _ => destruct x | x : TextAutoSpace |- _ => destruct x
  | x : TextCombine |- _ => destruct x | x : TextEmphasize |- _ => destruct x | x : TextEmphasizePosition |- _ => destruct x
  | x : LineMode |- _ => destruct x | x : LineStyle |- _ => destruct x | x : LineType |- _ => destruct x | x : LineWidth |- _ => destruct x
  | x : TextPosition |- _ => destruct x | x : RotationScale |- _ => destruct x | x : ParaAlignVertical |- _ => destruct x
  | x : CellAlignVertical |- _ => destruct x | x : WritingMode |- _ => destruct x | x : TableAlign |- _ => destruct x
  | x : TableBorderModel |- _ => destruct x | x : TextCondition |- _ => destruct x | x : TextDisplay |- _ => destruct x
  | x : option _ |- _ => destruct x | x : bool |- _ => destruct x | x : xactuate |- _ => destruct x | x : xshow |- _ => destruct x
  | x : xtype |- _ => destruct x | x : translit |- _ => destruct x | x : fmtsource |- _ => destruct x
  end.
Ltac split_all :=
  repeat match goal with
  | H : Forall _ (_ :: _) |- _ => apply Forall_cons_iff in H; destruct H
  | H : Forall _ [] |- _ => clear H
  | H : _ /\ _ |- _ => destruct H
  end.
Ltac unshow := unfold border_string, border_line_width_string, shadow_string, text_position; change (lit " ") with [32];
  cbn [show_Angle show_Percent show_LengthPercent show_FontSize show_LetterSpacing show_LineHeight show_Margin show_Indent show_PageNumber
       show_HyphenationLadderCount show_LineWidth show_RelativeScale show_TextPosition app].

Lemma hundred_shown v : whole v -> (length v <= 2)%nat \/ v = lit "100" -> is_a Percent100 (v ++ lit "%") = true.
Proof.
  intros W B. apply (ending_ok ["%"%string] _ "%"%string v (or_introl eq_refl)). unfold whole in W. rewrite W. cbn [andb]. apply orb_true_iff.
  destruct B as [B|B]; [left; apply Nat.leb_le; exact B|right; subst v; reflexivity].
Qed.
Lemma relative_shown v : whole v -> is_a RelLength (v ++ lit "*") = true.
Proof. intros W. exact (ending_ok ["*"%string] some_digits "*"%string v (or_introl eq_refl) W). Qed.
Lemma print_words l : Forall (fun w => In w (map lit ["headers"; "grid"; "annotations"; "objects"; "charts"; "drawings"; "formulas"; "zero-values"]%string))
  (words (spaced (map show_PrintContent l))).
Proof.
  rewrite words_spaced.
  - apply Forall_forall. intros w I. apply in_map_iff in I as (x & <- & _). destruct x; vm_compute; auto 10.
  - apply Forall_forall. intros w I. apply in_map_iff in I as (x & <- & _). split; [destruct x; discriminate|].
    intros J. assert (forallb (fun c => negb (c =? 32)) (show_PrintContent x) = true) as F by (destruct x; vm_compute; reflexivity).
    rewrite forallb_forall in F. specialize (F 32 J). discriminate F.
Qed.
Lemma put_values sl k v a a' p : put k v a = Ok a' -> allowed sl k v -> In p a' -> In p a \/ allowed sl (fst p) (snd p).
Proof. intros E A I. apply ok_inj in E. subst a'. apply in_put in I as [->|I]; [right; exact A|left; exact I]. Qed.
Lemma locale_values sl kl kc ks l a p : (forall c, code c -> allowed sl kl c) -> (forall c, code c -> allowed sl kc c) -> (forall c, code c -> allowed sl ks c) ->
  sound_locale l -> In p (put_locale kl kc ks l a) -> In p a \/ allowed sl (fst p) (snd p).
Proof.
  intros A1 A2 A3 (L & S & R) I. unfold put_locale in I. destruct (negb (locale_eqb l unknown)).
  - destruct (lo_script l) as [s|]; [apply in_put in I as [->|I]; [right; apply A3; apply S; reflexivity|]|apply in_del in I];
      (destruct (lo_region l) as [r|]; [apply in_put in I as [->|I]; [right; apply A2; apply R; reflexivity|]|apply in_del in I]);
      apply in_put in I as [->|I]; try (right; apply A1; exact L); left; exact I.
  - left. apply in_del, in_del, in_del in I. exact I.
Qed.
Lemma locale2_values sl kl kc l a p : (forall c, code c -> allowed sl kl c) -> (forall c, code c -> allowed sl kc c) ->
  sound_locale l -> In p (put_locale2 kl kc l a) -> In p a \/ allowed sl (fst p) (snd p).
Proof.
  intros A1 A2 (L & S & R) I. unfold put_locale2 in I. destruct (negb (locale_eqb l unknown)).
  - destruct (lo_region l) as [r|]; [apply in_put in I as [->|I]; [right; apply A2; apply R; reflexivity|]|apply in_del in I];
      apply in_put in I as [->|I]; try (right; apply A1; exact L); left; exact I.
  - left. apply in_del, in_del in I. exact I.
Qed.
Lemma font_values sl k1 k2 k3 s b i a a' p : (pos_FontSize s = true -> allowed sl k1 (show_FontSize s)) -> allowed sl k2 (lit "bold") -> allowed sl k3 (lit "italic") ->
  font_attr k1 k2 k3 s b i a = Ok a' -> In p a' -> In p a \/ allowed sl (fst p) (snd p).
Proof.
  intros A1 A2 A3 E I. unfold font_attr, put in E. destruct (pos_FontSize s) eqn:P; [|discriminate E]. specialize (A1 eq_refl). cbn [bind] in E.
  destruct b, i; cbn [bind show_FontWeight] in E; apply ok_inj in E; subst a';
    repeat (apply in_put in I as [->|I]; [right; assumption|]); left; exact I.
Qed.
Ltac fit2_tac := first
  [ fit_tac
  | right; left; exists (lit "protected"), (lit "formula-hidden"); vm_compute; auto; fail
  | match goal with H : [?v] = [lit "0"] |- _ => injection H as ->; left; vm_compute; reflexivity end
  | left; apply (one_in Percent100); [left; reflexivity|apply hundred_shown; assumption]
  | left; apply (one_in RelLength); [left; reflexivity|apply relative_shown; assumption]
  | apply print_words ].
Ltac here2_tac O := first
  [ here_tac
  | apply cell_slot in O; subst; split; [intros _; vm_compute; auto 10 | intros _ Q; discriminate Q]
  | apply para_slot in O; subst; split; [intros _; vm_compute; auto 10 | intros _ Q; discriminate Q]
  | split; [let H := fresh in intros H; vm_compute in H; discriminate H|];
    let Q := fresh in intros _ Q;
    match goal with S : _ -> False |- _ => destruct (S Q) | |- _ => apply percent_shown; assumption end ].
Ltac allow_tac O :=
  destr_args;
  cbn [lengths numbers colors percent angle opt_list flat_map app pos_FontSize pos_LineHeight pos_Margin] in *; split_all; unshow; try contradiction;
  (eapply allow; [vm_compute; reflexivity | cbn [has_type]; first [exact Logic.I | fit2_tac] | here2_tac O]).
Ltac code_tac := let c := fresh in let H := fresh in intros c H;
  (eapply allow; [vm_compute; reflexivity | left; apply (one_in Code); [left; reflexivity|exact H] | here_tac]).
Ltac put_tac O E I := apply (put_values _ _ _ _ _ _ E); [allow_tac O|exact I].
Lemma run_values h sl s a a' p : In (macro_of s) (offers h sl) -> sound sl s -> run s a = Ok a' -> In p a' -> In p a \/ allowed sl (fst p) (snd p).
Proof.
  intros O S E I. unfold sound in S. destruct s; cbn [run] in E; cbn [macro_of] in O.
  all: try (match type of E with put _ _ _ = _ => idtac end; put_tac O E I).
  all: try (match type of E with (if ?b then _ else _) = _ => destruct b eqn:P; [put_tac O E I|discriminate E] end).
  all: try (match type of E with Ok (put_locale _ _ _ _ _) = _ => idtac end; apply ok_inj in E; subst a'; destruct S as (_ & _ & _ & S);
            revert S I; apply locale_values; code_tac).
  all: try (match type of E with Ok (put_locale2 _ _ _ _) = _ => idtac end; apply ok_inj in E; subst a'; destruct S as (_ & _ & _ & S);
            revert S I; apply locale2_values; code_tac).
  all: try (revert E I; apply font_values; [intros P; allow_tac O| |];
            (eapply allow; [vm_compute; reflexivity | left; vm_compute; reflexivity | here_tac])).
  - cbn [lengths numbers colors] in S. destruct S as (S & _ & _ & S'). inversion S as [|? ? S1 _]; subst. inversion S' as [|? ? S2 _]; subst.
    destruct width as [|v u]; [destruct S1|]. apply (put_values _ _ _ _ _ _ E); [|exact I].
    eapply allow; [vm_compute; reflexivity | left; cbn [row]; one_tac | here_tac].
  - apply bind_ok in E as (v & _ & E). apply (put_values _ _ _ _ _ _ E); [|exact I]. eapply allow; [vm_compute; reflexivity | exact Logic.I | here_tac].
  - destruct S as (_ & _ & _ & S). subst ty. apply (put_values _ _ _ _ _ _ E); [|exact I].
    eapply allow; [vm_compute; reflexivity | left; vm_compute; reflexivity | here_tac].
Qed.

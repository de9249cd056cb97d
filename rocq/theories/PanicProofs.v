(** Lemmas about readers that do not panic. *)
From Verif Require Import Base Lib OMap NumModel NumSpec NumProofs NumProps RefsModel RefsSpec RefsProofs XmlModel XmlSpec XmlProofs EnumModel.
From Verif Require Import CellModel CellIoModel HeaderModel TableModel CloneModel BookModel BookProps ScriptModel ValidModel StyleModel MetaModel ConfigModel ConfigShape WorkModel.
From Verif Require Import TermSpec TermProofs PanicSpec.
Import NumModel.

(** ** No panic, and something about the result *)

Definition np {A} (x : res A) (Q : A -> Prop) : Prop := match x with Ok a => Q a | Err => True | Panic => False end.
Lemma np_bind {A B} (x : res A) (f : A -> res B) Q : np x (fun a => np (f a) Q) -> np (bind x f) Q.
Proof. destruct x; cbn; auto. Qed.
Lemma np_bind' {A B} (x : res A) (f : A -> res B) P Q : np x P -> (forall a, x = Ok a -> P a -> np (f a) Q) -> np (bind x f) Q.
Proof. destruct x; cbn; auto. Qed.
Lemma np_imp {A} (x : res A) (P Q : A -> Prop) : np x P -> (forall a, x = Ok a -> P a -> Q a) -> np x Q.
Proof. destruct x; cbn; auto. Qed.
Lemma np_of {A} (x : res A) : x <> Panic -> np x (fun _ => True).
Proof. destruct x; cbn; auto. Qed.
Lemma np_not {A} (x : res A) Q : np x Q -> x <> Panic.
Proof. destruct x; cbn; [discriminate|discriminate|contradiction]. Qed.

(** ** Runs *)

Lemma runs_weaken p k s : forall m n, (m <= n)%nat -> runs_le p k m s -> runs_le p k n s.
Proof.
  induction s as [|c s IH]; intros m n L H; [exact I|]. cbn [runs_le] in *. destruct (p c); [|exact H].
  destruct m as [|m]; [contradiction|]. destruct n as [|n]; [lia|]. apply (IH m); [lia|exact H].
Qed.
Lemma runs_infix p k s : forall m a b c, (m <= k)%nat -> runs_le p k m s -> s = a ++ b ++ c -> forallb p b = true -> (length b <= k)%nat.
Proof.
  assert (P : forall b m c, runs_le p k m (b ++ c) -> forallb p b = true -> (length b <= m)%nat).
  { induction b as [|x b IH]; intros m c H F; [cbn; lia|]. cbn [app runs_le forallb length] in *. apply andb_true_iff in F as (F1 & F2). rewrite F1 in H.
    destruct m as [|m]; [contradiction|]. specialize (IH m c H F2). lia. }
  induction s as [|x s IH]; intros m a b c L H E F.
  - destruct a, b; try discriminate. cbn. lia.
  - destruct a as [|y a]; cbn [app] in E.
    + rewrite E in H. specialize (P b m c H F). lia.
    + injection E as <- E. cbn [runs_le] in H. destruct (p x).
      * destruct m as [|m]; [contradiction|]. apply (IH m a b c); auto; lia.
      * apply (IH k a b c); auto.
Qed.
Lemma runs_escape k s : forall m, runs_le digit k m s -> runs_le digit k m (escape s).
Proof.
  induction s as [|c s IH]; intros m H; [exact I|]. unfold escape. cbn [flat_map]. fold (escape s). unfold escape_char.
  assert (Q : forall c' l, (c =? c') = true -> digit c' = false -> l <> [] -> forallb (fun x => negb (digit x)) l = true -> runs_le digit k m (l ++ escape s)).
  { intros c' l E D Nl Fl. apply N.eqb_eq in E as ->. cbn [runs_le] in H. rewrite D in H. apply IH in H. clear IH D.
    revert m. induction l as [|y l IHl]; intros m; [congruence|]. cbn [forallb] in Fl. apply andb_true_iff in Fl as (F1 & F2). cbn [app runs_le].
    destruct (digit y); [discriminate|]. destruct l as [|z l]; [exact H|]. apply IHl; [discriminate|exact F2]. }
  destruct (c =? c_quot) eqn:E1; [apply (Q c_quot); auto; discriminate|].
  destruct (c =? c_apos) eqn:E2; [apply (Q c_apos); auto; discriminate|].
  destruct (c =? c_amp) eqn:E3; [apply (Q c_amp); auto; discriminate|].
  destruct (c =? c_lt) eqn:E4; [apply (Q c_lt); auto; discriminate|].
  destruct (c =? c_gt) eqn:E5; [apply (Q c_gt); auto; discriminate|].
  cbn [app]. cbn [runs_le] in *. destruct (digit c); [|now apply IH]. destruct m; [contradiction|]. now apply IH.
Qed.
Lemma all_digit_b b : all_digit b -> forallb digit b = true.
Proof. intros H. apply forallb_forall. intros x I. eapply Forall_forall in H; [|exact I]. unfold digit. cbv beta in H. lia. Qed.
Lemma small_numeral a b c n : small_numbers (a ++ b ++ c) -> numeral b n -> (Z.of_N n < 100000000000)%Z.
Proof.
  intros H (_ & D & <-). pose proof (runs_infix digit 11 _ 11 a b c (le_n _) H eq_refl (all_digit_b b D)) as L.
  pose proof (dec_bound b D) as B. assert (10 ^ N.of_nat (length b) <= 10 ^ 11) by (apply N.pow_le_mono_r; lia). change (10 ^ 11) with 100000000000 in *. lia.
Qed.
Lemma duration_np s : small_numbers s -> parse_duration s <> Panic.
Proof.
  intros H P. destruct (parse_duration_inv s) as (day & h & m & sec & (dt & rest & D & R & ->) & A & B & C & E); [congruence|].
  assert (S : forall a u o t c, 80 :: dt ++ rest = a ++ t ++ c -> component u o t -> (0 <= oget o < 100000000000)%Z).
  { intros a u o t c X Co. destruct o as [n|]; cbn [oget]; [|lia]. destruct Co as (d & Nd & ->). rewrite X in H. rewrite <- app_assoc in H. pose proof (small_numeral _ _ _ _ H Nd). lia. }
  assert (D1 : (0 <= oget day < 100000000000)%Z) by (apply (S [80] 68 day dt rest); [reflexivity|exact D]).
  assert (Q : (worth day h m sec <= dur_max)%Z).
  { unfold worth, dur_max, i64_max. destruct R as [(-> & -> & -> & ->)|(ht & mt & st & Ch & Cm & Cs & ->)]; [cbn [oget]; lia|].
    assert (D2 : (0 <= oget h < 100000000000)%Z) by (apply (S (80 :: dt ++ [84]) 72 h ht (mt ++ st)); [cbn; now rewrite <- !app_assoc|exact Ch]).
    assert (D3 : (0 <= oget m < 100000000000)%Z) by (apply (S (80 :: dt ++ 84 :: ht) 77 m mt st); [cbn; now rewrite <- !app_assoc|exact Cm]).
    destruct sec as [(n & f)|]; [|lia]. destruct Cs as (d & ft & Nd & Of & ->).
    assert (Z.of_N n < 100000000000)%Z by (apply (small_numeral (80 :: dt ++ 84 :: ht ++ mt) d (ft ++ [83])); [cbn in *; rewrite <- !app_assoc; cbn; rewrite <- !app_assoc; exact H|exact Nd]).
    assert (0 <= oget f < 1000000000)%Z. { destruct f as [x|]; cbn [oget]; [|lia]. destruct Of as (ff & F & _). apply fraction_bound in F. lia. }
    lia. }
  rewrite (parse_duration_parts _ day h m sec) in P; [|exists dt, rest; auto|auto|auto|auto|auto]. rewrite total_ok in P; [discriminate|exact Q].
Qed.
Lemma duration_raw_np s : small_numbers s -> parse_duration (raw s) <> Panic.
Proof. intros H. apply duration_np, runs_escape, H. Qed.
Lemma raw_u32 v n : parse_u32 (raw v) = Ok n -> parse_u32 v = Ok n.
Proof.
  unfold raw. assert (E : forallb Base.is_digit (escape v) = true -> escape v = v).
  { induction v as [|c v IH]; intros F; [reflexivity|]. unfold escape in *. cbn [flat_map] in *. rewrite forallb_app in F. apply andb_true_iff in F as (F1 & F2). rewrite (IH F2).
    unfold escape_char in *. destruct (c =? c_quot); [discriminate F1|]. destruct (c =? c_apos); [discriminate F1|]. destruct (c =? c_amp); [discriminate F1|]. destruct (c =? c_lt); [discriminate F1|]. destruct (c =? c_gt); [discriminate F1|]. reflexivity. }
  unfold parse_u32 at 1. destruct (forallb _ (escape v)) eqn:F; [|discriminate]. pose proof (E eq_refl) as Q. rewrite Q in *. intros H. unfold parse_u32. now rewrite F.
Qed.

(** ** References *)

Lemma small_letter_runs s : small_columns s -> letter_runs_le 6 s.
Proof.
  intros H a b c E F. apply (runs_infix upper 6 s 6 a b c (le_n _) H E). apply forallb_forall. intros x I. eapply Forall_forall in F; [|exact I]. unfold upper. cbv beta in F. lia.
Qed.
Lemma cellref_np s : small_columns s -> parse_cellref s <> Panic.
Proof. intros H. apply parse_cellref_no_panic, small_letter_runs, H. Qed.
Lemma col_np a s : letter_runs_le 6 (a ++ s) -> parse_col s <> Panic.
Proof.
  intros H P. apply parse_col_panic in P as (x & b & c & -> & Hb & Hv).
  specialize (H (a ++ x) b c). rewrite <- app_assoc in H. specialize (H eq_refl Hb). pose proof (bij26_cap b Hb) as Hcap.
  assert (Hm : forall i j, (i <= j)%nat -> cap i <= cap j). { clear. induction 1; cbn [cap]; lia. }
  pose proof (Hm _ _ H) as H6. change (cap 6) with 321272406 in H6. unfold u32_max in *. lia.
Qed.
Lemma parse_col_suffix s x r : parse_col s = Ok (x, r) -> exists p, s = p ++ r.
Proof. destruct x as [a c]. intros H. apply parse_col_sound in H as (n & -> & _). exists (mark a ++ n). now rewrite <- app_assoc. Qed.
Lemma parse_row_suffix s x r : parse_row s = Ok (x, r) -> exists p, s = p ++ r.
Proof. destruct x as [a c]. intros H. apply parse_row_sound in H as (n & -> & _). exists (mark a ++ n). now rewrite <- app_assoc. Qed.
Lemma range_np a s : letter_runs_le 6 (a ++ s) -> np (parse_cell_range s) (fun p => exists q, s = q ++ snd p).
Proof.
  intros H. unfold parse_cell_range.
  eapply np_bind'; [apply np_of, parse_iri_no_panic|]. intros [i s1] E _. apply parse_iri_suffix in E as (p1 & ->).
  eapply np_bind'; [apply np_of, parse_sheet_no_panic|]. intros [t s2] E _. apply parse_sheet_suffix in E as (p2 & ->).
  eapply np_bind'; [apply np_of, (col_np (a ++ p1 ++ p2 ++ [46])); rewrite <- !app_assoc in *; exact H|]. intros [[? ?] s3] E _. apply parse_col_suffix in E as (p3 & ->).
  eapply np_bind'; [apply np_of, parse_row_no_panic|]. intros [[? ?] s4] E _. apply parse_row_suffix in E as (p4 & ->).
  eapply np_bind'; [apply np_of, tag1_no_panic|]. intros [u s5] E _. apply RefsProofs.tag1_inv in E as ->.
  eapply np_bind'; [apply np_of, parse_sheet_no_panic|]. intros [t' s6] E _. apply parse_sheet_suffix in E as (p6 & ->).
  eapply np_bind'; [apply np_of, (col_np (a ++ p1 ++ p2 ++ [46] ++ p3 ++ p4 ++ 58 :: p6 ++ [46])); rewrite <- !app_assoc in *; cbn in *; rewrite <- !app_assoc in *; exact H|]. intros [[? ?] s7] E _. apply parse_col_suffix in E as (p7 & ->).
  eapply np_bind'; [apply np_of, parse_row_no_panic|]. intros [[? ?] s8] E _. apply parse_row_suffix in E as (p8 & ->).
  cbn [np snd]. exists (p1 ++ p2 ++ [46] ++ p3 ++ p4 ++ 58 :: p6 ++ [46] ++ p7 ++ p8). do 8 (rewrite <- ?app_assoc; cbn [app]). reflexivity.
Qed.
Lemma take1_suffix p s x r : take1 p s = Ok (x, r) -> exists q, s = q ++ r.
Proof. unfold take1. destruct (span p s) as [[|c l] y] eqn:E; [discriminate|]. intros H. injection H as <- <-. apply span_spec in E as (-> & _). eauto. Qed.
Lemma sep_tail_np n : forall a s, letter_runs_le 6 (a ++ s) -> sep_tail n s <> Panic.
Proof.
  induction n as [|n IH]; intros a s H; [discriminate|]. cbn [sep_tail]. destruct (take1 is_multispace s) as [[x s1]| |] eqn:E; try discriminate.
  apply take1_suffix in E as (q & ->). rewrite app_assoc in H. pose proof (range_np _ _ H) as R. destruct (parse_cell_range s1) as [[v s2]| |]; [|discriminate|contradiction].
  destruct R as (q2 & R). cbn [snd] in R. subst s1. rewrite app_assoc in H. specialize (IH _ _ H). destruct (sep_tail n s2) as [[? ?]| |]; cbn; congruence.
Qed.
Lemma cellranges_np s : small_columns s -> parse_cellranges s <> Panic.
Proof.
  intros H. apply small_letter_runs in H. unfold parse_cellranges, parse_cell_range_list. pose proof (range_np [] s H) as R. destruct (parse_cell_range s) as [[v s2]| |]; [|discriminate|contradiction].
  destruct R as (q & ->). cbn [snd] in *. pose proof (sep_tail_np (S (length s2)) q s2 H) as T. destruct (sep_tail _ s2) as [[? ?]| |]; cbn; congruence.
Qed.
Lemma split_np s : forall n, (exists p q, s = p ++ q /\ utf8_size p = N.of_nat n) -> split_bytes n s <> Panic.
Proof.
  induction s as [|c s IH]; intros n (p & q & E & Z).
  - destruct n; [discriminate|]. destruct p; [cbn in Z; lia|discriminate].
  - destruct n as [|n]; [discriminate|]. cbn [split_bytes]. destruct p as [|d p]; [cbn in Z; lia|]. cbn [app] in E. injection E as <- E.
    unfold utf8_size in Z. cbn [fold_right] in Z. fold (utf8_size p) in Z.
    assert (U : N.of_nat (utf8_len c) = utf8_bytes c). { unfold utf8_len, utf8_bytes. destruct (c <? 128); [reflexivity|]. destruct (c <? 2048); [reflexivity|]. destruct (c <? 65536); reflexivity. }
    destruct (utf8_len c <=? S n)%nat eqn:L; [|apply Nat.leb_gt in L; lia]. apply Nat.leb_le in L. apply IH. exists p, q. split; [exact E|]. lia.
Qed.

(** ** Simple values *)

Lemma bool_np s : parse_bool s <> Panic.
Proof. unfold parse_bool. destruct (str_eqb s _); [discriminate|]. destruct (str_eqb s _); discriminate. Qed.
Lemma f64_np s : parse_f64 s <> Panic.
Proof. unfold parse_f64. destruct (float_text s); discriminate. Qed.
Lemma arms_np {A} (l : list (str * A)) s : arms l s <> Panic.
Proof. induction l as [|[k v] l IH]; [discriminate|]. cbn [arms]. destruct (str_eqb _ _); [discriminate|exact IH]. Qed.
Lemma u32_np s : parse_u32 s <> Panic. Proof. apply C28_no_panic. Qed.
Lemma i32_np s : parse_i32 s <> Panic. Proof. apply C28_no_panic. Qed.

(** ** Events that can be read *)

Definition nestable (evs : list event) : Prop := exists st, nested st evs = true.
Definition fine (evs : list event) : Prop := nestable evs /\ tags_calm evs.
Lemma nestable_tail e r : nestable (e :: r) -> nestable r.
Proof. intros (st & N). apply nested_cons in N as (N & _). eexists. exact N. Qed.
Lemma fine_tail e r : fine (e :: r) -> fine r.
Proof. intros (N & T). split; [eapply nestable_tail, N|]. now inversion T. Qed.
Lemma fine_sfx r evs : fine evs -> sfx r evs -> fine r.
Proof. intros F (p & ->). induction p as [|e p IH]; [exact F|]. apply IH. eapply fine_tail, F. Qed.
Definition cost (evs : list event) : N := PanicSpec.total size_of evs.
Lemma cost_cons e r : cost (e :: r) = size_of e + cost r. Proof. reflexivity. Qed.
Lemma total_sfx f r evs : sfx r evs -> PanicSpec.total f r <= PanicSpec.total f evs.
Proof. intros (p & ->). induction p as [|e p IH]; [apply N.le_refl|]. unfold PanicSpec.total in *. cbn [app fold_right]. lia. Qed.
Lemma cost_sfx r evs : sfx r evs -> cost r <= cost evs. Proof. apply total_sfx. Qed.
Lemma fine_tag e r n a b : fine (e :: r) -> on_tag e = Some (n, a, b) ->
  Forall attr_calm a /\ (b = true -> n <> t_script) /\ (b = false -> e = EStart n a /\ exists st, nested (n :: st) r = true) /\ size_of e = 1 + N.of_nat (length a).
Proof.
  intros ((st & N) & T) H. inversion T as [|? ? C _]; subst. destruct e; try discriminate H; injection H as <- <- <-; cbn in C.
  - split; [apply C|]. split; [discriminate|]. split; [|reflexivity]. intros _. split; [reflexivity|]. exists st. exact N.
  - split; [apply C|]. split; [intros _; apply C|]. split; [discriminate|reflexivity].
Qed.

(** ** Loops *)

Lemma reading_np {S} stop (step : S -> event -> list event -> res (S * list event)) (I : S -> list event -> Prop) :
  (forall s e r, I s (e :: r) -> I s r) ->
  (forall s e r, I s (e :: r) -> np (step s e r) (fun p => I (fst p) (snd p))) ->
  forall n s evs, I s evs -> np (reading n stop step s evs) (fun p => I (snd (fst p)) (snd p)).
Proof.
  intros T K. induction n as [|n IH]; intros s evs H; [destruct evs; [exact H|exact Logic.I]|]. destruct evs as [|e r]; [exact H|]. cbn [reading].
  destruct (match e, stop with EEnd t, Some q => str_eqb t q | _, _ => false end); [apply T in H; exact H|].
  eapply np_bind'; [apply K, H|]. intros (s' & r') _ H'. apply IH, H'.
Qed.
Lemma reading_fine {S} stop (step : S -> event -> list event -> res (S * list event)) : shrinks step ->
  (forall s e r, fine (e :: r) -> step s e r <> Panic) -> forall n s evs, fine evs -> reading n stop step s evs <> Panic.
Proof.
  intros Sh K n s evs F. eapply np_not, (reading_np stop step (fun _ evs => fine evs)); [intros ? ? ?; apply fine_tail| |exact F].
  intros s1 e r H. eapply np_imp; [apply np_of, K, H|]. intros (s2 & r2) E _. apply Sh in E. eapply fine_sfx; [|exact E]. eapply fine_tail, H.
Qed.

(** ** Trees *)

Lemma xml_loop_np super evs : forall st tau o, nested (tau ++ super :: o) evs = true -> length st = S (length tau) -> read_xml_loop super st evs <> Panic.
Proof.
  induction evs as [|e evs IH]; intros st tau o N L; (destruct st as [|f st]; [discriminate L|]); [discriminate|]. cbn [length] in L. injection L as L.
  destruct e; cbn [read_xml_loop].
  - apply (IH _ (n :: tau) o); [exact N|cbn; lia].
  - cbn [top_add bind]. apply (IH _ tau o); [exact N|cbn; lia].
  - destruct (str_eqb n super) eqn:Q; [discriminate|]. destruct tau as [|t tau]; cbn [app nested] in N.
    + apply andb_true_iff in N as (N & _). congruence.
    + apply andb_true_iff in N as (_ & N). destruct st as [|g st]; [discriminate L|]. cbn [top_add bind]. apply (IH _ tau o); [exact N|cbn in *; lia].
  - cbn [top_add bind]. apply (IH _ tau o); [exact N|cbn; lia].
  - apply bind_np; [apply entity_np|]. intros v. cbn [top_add bind]. apply (IH _ tau o); [exact N|cbn; lia].
  - apply (IH _ tau o); [exact N|cbn; lia].
Qed.
Lemma xml_np e r n a b : fine (e :: r) -> on_tag e = Some (n, a, b) -> read_xml n a b r <> Panic.
Proof.
  intros F H. destruct (fine_tag _ _ _ _ _ F H) as (_ & _ & N & _). unfold read_xml. destruct b; [discriminate|]. destruct (N eq_refl) as (_ & st & X). now apply (xml_loop_np n r _ [] st).
Qed.
Lemma para_step_np super a pc st e : para_step super a pc st e <> Panic.
Proof.
  destruct e; cbn [para_step]; try discriminate.
  - destruct (str_eqb n super); [destruct st; discriminate|]. destruct pc; try discriminate. destruct st; discriminate.
  - apply bind_np; [apply entity_np|]. discriminate.
Qed.
Lemma para_np super a evs : forall pc st, para_loop super a pc st evs <> Panic.
Proof.
  induction evs as [|e evs IH]; intros pc st; [discriminate|]. cbn [para_loop]. apply bind_np; [apply para_step_np|]. intros [(pc' & st')|t]; [apply IH|discriminate].
Qed.
Lemma text_np n a b evs : read_text_or_tag n a b evs <> Panic.
Proof. unfold read_text_or_tag. destruct b; [discriminate|apply para_np]. Qed.

(** ** Automatic names *)

Definition room {A} (b : book A) (n : N) : Prop :=
  (forall f, N.of_nat (length (bk_styles b f)) + n <= u32_max)
  /\ forall f c, am_get (prefix f) (bk_auto b) = Some c -> forall i, i <= c -> In (prefix f ++ show_N i) (map fst (bk_styles b f)).
Lemma room_le {A} (b : book A) m n : room b n -> m <= n -> room b m.
Proof. intros (L & P) H. split; [|exact P]. intros f. specialize (L f). lia. Qed.
Lemma names_bound (p : str) l c : (forall i, i < c -> In (p ++ show_N i) l) -> c <= N.of_nat (length l).
Proof.
  intros H. set (names := map (fun i => p ++ show_N (N.of_nat i)) (seq 0 (N.to_nat c))).
  assert (D : NoDup names).
  { apply FinFun.Injective_map_NoDup; [|apply seq_NoDup]. intros x y E. apply app_inv_head, show_inj in E. lia. }
  assert (Inc : incl names l). { intros x I. apply in_map_iff in I as (i & <- & I). apply in_seq in I. apply H. lia. }
  pose proof (NoDup_incl_length D Inc) as L. unfold names in L. rewrite map_length, seq_length in L. lia.
Qed.
Lemma has_in {V} k (m : amap V) : am_has k m = true -> In k (map fst m).
Proof.
  unfold am_has. induction m as [|[a v] m IH]; [discriminate|]. cbn [am_get map fst]. destruct (str_eqb a k) eqn:Q; [apply str_eqb_eq in Q; now left|]. intros H. right. now apply IH.
Qed.
Lemma put_keys {V} k (v : V) m x : In x (map fst m) -> In x (map fst (am_put k v m)).
Proof.
  intros I. unfold am_put. cbn [map fst]. destruct (str_eqb x k) eqn:Q; [apply str_eqb_eq in Q; now left|]. right.
  apply in_map_iff in I as ([a w] & E & I). cbn in E. subst a. apply in_map_iff. exists (x, w). split; [reflexivity|]. unfold am_del. apply filter_In. split; [exact I|]. cbn [fst]. now rewrite Q.
Qed.
Lemma filter_le {A} (f : A -> bool) l : (length (filter f l) <= length l)%nat.
Proof. induction l as [|x l IH]; [cbn; lia|]. cbn [filter]. destruct (f x); cbn [length]; lia. Qed.
Lemma put_length {V} k (v : V) m : (length (am_put k v m) <= S (length m))%nat.
Proof. unfold am_put, am_del. cbn [length]. pose proof (filter_le (fun kv : str * V => negb (str_eqb (fst kv) k)) m). lia. Qed.
Lemma auto_loop_np {V} n p (m : amap V) : N.of_nat (length m) < u32_max -> forall cnt, (forall i, i < cnt -> In (p ++ show_N i) (map fst m)) ->
  np (auto_loop n p cnt m) (fun c => forall i, i < c -> In (p ++ show_N i) (map fst m)).
Proof.
  intros L. induction n as [|n IH]; intros cnt H; [exact I|]. cbn [auto_loop]. destruct (am_has _ m) eqn:Q; [|exact H].
  apply has_in in Q. assert (H' : forall i, i < cnt + 1 -> In (p ++ show_N i) (map fst m)).
  { intros i Li. destruct (N.eq_dec i cnt) as [->|Ne]; [exact Q|]. apply H. lia. }
  pose proof (names_bound p (map fst m) (cnt + 1) H') as B. rewrite map_length in B.
  unfold add32. destruct (cnt + 1 <=? u32_max) eqn:E; [|lia]. cbn [bind]. apply IH, H'.
Qed.
Lemma prefix_inj f g : prefix f = prefix g -> f = g.
Proof. destruct f, g; intros H; try reflexivity; vm_compute in H; discriminate. Qed.
Lemma family_eqb_eq f g : family_eqb f g = true -> f = g.
Proof. destruct f, g; intros H; reflexivity || discriminate. Qed.
Lemma family_eqb_refl f : family_eqb f f = true. Proof. now destruct f. Qed.
Lemma am_get_put {V} k k' (v : V) m : am_get k (am_put k' v m) = if str_eqb k' k then Some v else am_get k m.
Proof.
  unfold am_put. cbn [am_get]. destruct (str_eqb k' k) eqn:Q; [reflexivity|]. unfold am_del. induction m as [|[a w] m IH]; [reflexivity|]. cbn [filter fst]. destruct (str_eqb a k') eqn:E; cbn [negb am_get].
  - apply str_eqb_eq in E as ->. now rewrite Q, IH.
  - now rewrite IH.
Qed.
Lemma add_style_np {A} f (s : named A) b n : room b (n + 1) -> np (add_style f s b) (fun p => room (fst p) n).
Proof.
  intros (L & P). unfold add_style.
  assert (R : forall nm auto, (forall c, am_get (prefix f) auto = Some c -> forall i, i <= c -> In (prefix f ++ show_N i) (nm :: map fst (bk_styles b f))) ->
      (forall g, g <> f -> am_get (prefix g) auto = am_get (prefix g) (bk_auto b)) ->
      room (Book auto (BookModel.put_styles f (am_put nm (Named nm (nm_body s)) (bk_styles b f)) (bk_styles b))) n).
  { intros nm auto H1 H2. split; cbn [bk_styles bk_auto]; unfold BookModel.put_styles.
    - intros g. specialize (L g). destruct (family_eqb f g) eqn:Q; [apply family_eqb_eq in Q as <-; pose proof (put_length nm (Named nm (nm_body s)) (bk_styles b f)); lia|lia].
    - intros g c Hc i Hi. destruct (family_eqb f g) eqn:Q.
      + apply family_eqb_eq in Q as <-. destruct (H1 c Hc i Hi) as [<-|I]; [now left|now apply put_keys].
      + apply (P g c); [|exact Hi]. rewrite <- H2; [exact Hc|]. intros ->. now rewrite family_eqb_refl in Q. }
  destruct (nm_name s) as [|x nm].
  - apply np_bind. unfold auto_name.
    assert (B : N.of_nat (length (bk_styles b f)) < u32_max) by (specialize (L f); lia).
    assert (C0 : np (match am_get (prefix f) (bk_auto b) with Some n => add32 n 1 | None => Ok 0 end) (fun c => forall i, i < c -> In (prefix f ++ show_N i) (map fst (bk_styles b f)))).
    { destruct (am_get (prefix f) (bk_auto b)) as [c|] eqn:G; [|intros i Hi; lia]. specialize (P f c G).
      assert (H' : forall i, i < c + 1 -> In (prefix f ++ show_N i) (map fst (bk_styles b f))) by (intros i Hi; apply P; lia).
      pose proof (names_bound _ _ _ H') as K. rewrite map_length in K. unfold add32. destruct (c + 1 <=? u32_max) eqn:E; [exact H'|lia]. }
    eapply np_bind'; [exact C0|]. intros c0 _ H0. eapply np_bind'; [apply auto_loop_np; [exact B|exact H0]|]. intros c _ Hc. cbn [np fst].
    apply R.
    + intros c' E. rewrite am_get_put, str_eqb_refl in E. injection E as <-. intros i Hi. destruct (N.eq_dec i c) as [->|Ne]; [now left|]. right. apply Hc. lia.
    + intros g Ng. rewrite am_get_put. destruct (str_eqb (prefix f) (prefix g)) eqn:Q; [|reflexivity]. apply str_eqb_eq, prefix_inj in Q. congruence.
  - cbn [bind np fst]. apply R; [|reflexivity]. intros c Hc i Hi. right. now apply (P f c).
Qed.

(** ** Styles *)

Definition sroom (b : stylebook) (n : N) : Prop := room (sk_book b) n.
Lemma add_item_np f s b n : sroom b (n + 1) -> np (add_item f s b) (fun b' => sroom b' n).
Proof. intros R. unfold add_item. eapply np_bind'; [apply add_style_np, R|]. intros (bk & nm) _ H. exact H. Qed.
Lemma np_rest {S} (step : S -> event -> list event -> res (S * list event)) s e r : shrinks step -> fine (e :: r) -> step s e r <> Panic -> np (step s e r) (fun p => fine (snd p)).
Proof. intros Sh F H. eapply np_imp; [apply np_of, H|]. intros (s' & r') E _. apply Sh in E. eapply fine_sfx; [eapply fine_tail, F|exact E]. Qed.
Lemma font_np s e r : font_step s e r <> Panic.
Proof. unfold font_step. destruct (on_tag e) as [((n & a) & b)|]; [|discriminate]. destruct (str_eqb n t_font); [|discriminate]. destruct (copy_style_attr a). discriminate. Qed.
Lemma smap_np m a : Forall attr_calm a -> read_smap m a <> Panic.
Proof.
  revert m. induction a as [|[k v] a IH]; intros m H; [discriminate|]. inversion H as [|? ? (_ & C & _) H']; subst. cbn [fst snd] in C. cbn [read_smap]. apply bind_np; [|intros m'; now apply IH].
  unfold smap_attr. destruct m as [c s b]. destruct (str_eqb k (lit "style:condition")); [discriminate|]. destruct (str_eqb k (lit "style:apply-style-name")); [discriminate|].
  destruct (str_eqb k (lit "style:base-cell-address")) eqn:Q; [|discriminate]. apply str_eqb_eq in Q. apply bind_np; [|discriminate]. apply cellref_np, C. now right; left.
Qed.
Lemma style_step_np f s e r : fine (e :: r) -> style_step f s e r <> Panic.
Proof.
  intros F. unfold style_step. destruct (on_tag e) as [((n & a) & b)|] eqn:T; [|discriminate]. destruct (fine_tag _ _ _ _ _ F T) as (A & _). destruct f; try discriminate.
  destruct (str_eqb n (main_tag FCell)); [discriminate|]. destruct (str_eqb n t_text); [discriminate|]. destruct (str_eqb n t_para); [discriminate|]. destruct (str_eqb n t_map); [|discriminate].
  apply bind_np; [now apply smap_np|discriminate].
Qed.
Lemma read_style_np f o u tag a empty b evs n : fine evs -> sroom b (n + 1 + cost evs) -> np (read_style f o u tag a empty b evs) (fun p => sroom (fst p) (n + cost (snd p))).
Proof.
  intros F R. unfold read_style. destruct (copy_style_attr a) as [nm at']. destruct empty.
  - eapply np_bind'; [apply (add_item_np _ _ _ (n + cost evs)); eapply room_le; [exact R|lia]|]. intros b' _ H. exact H.
  - eapply np_bind'; [apply np_of, (reading_fine _ _ (style_shrinks f)); [apply style_step_np|exact F]|]. intros (p & r) E _. apply reading_sfx in E; [|apply style_shrinks]. apply cost_sfx in E.
    destruct (fst p); [|change (sroom b (n + cost r)); eapply room_le; [exact R|lia]].
    eapply np_bind'; [apply (add_item_np _ _ _ (n + cost r)); eapply room_le; [exact R|lia]|]. intros b' _ H. exact H.
Qed.
Lemma read_style_style_np o u tag a empty todo : forall b evs n, fine evs -> sroom b (n + N.of_nat (length todo) + cost evs) ->
  np (read_style_style todo o u tag a empty b evs) (fun p => sroom (fst p) (n + cost (snd p))).
Proof.
  induction todo as [|[k v] todo IH]; intros b evs n F R; [change (sroom b (n + cost evs)); change (N.of_nat (length (@nil (str * str)))) with 0 in R; eapply room_le; [exact R|lia]|]. cbn [read_style_style].
  replace (N.of_nat (length ((k, v) :: todo))) with (1 + N.of_nat (length todo)) in R by (cbn [length]; lia).
  destruct (str_eqb k k_family); [|apply IH; [exact F|eapply room_le; [exact R|lia]]]. destruct (family_of (raw v)) as [f|]; [|exact I].
  eapply np_bind'; [apply (read_style_np _ _ _ _ _ _ _ _ (n + N.of_nat (length todo)) F); eapply room_le; [exact R|lia]|]. intros (b' & r) E H. apply style_sfx in E. apply IH; [eapply fine_sfx; eauto|exact H].
Qed.
Lemma position_np p a : position_attrs p a <> Panic.
Proof. revert p. induction a as [|[k v] a IH]; intros p; [discriminate|]. cbn [position_attrs]. destruct (str_eqb k _); [apply bind_np; [apply i32_np|intros z; apply IH]|apply IH]. Qed.
Lemma part_step_np ty s e r : (match ty with PTextPart | PCurrency | PFill => text_step | PNumber => number_step | _ => skip_step end) s e r <> Panic.
Proof.
  assert (T : text_step s e r <> Panic) by (destruct e; cbn [text_step]; try discriminate; apply bind_np; [apply entity_np|discriminate]).
  assert (U : number_step s e r <> Panic) by (destruct e; cbn [number_step]; try discriminate; destruct (str_eqb n t_embedded); try discriminate; apply bind_np; [apply position_np|discriminate|apply position_np|discriminate]).
  destruct ty; try exact T; try exact U; discriminate.
Qed.
Lemma part_np ty tag a empty evs : fine evs -> read_part ty tag a empty evs <> Panic.
Proof.
  intros F. unfold read_part. destruct empty; [discriminate|]. apply bind_np; [apply reading_fine; [apply part_shrinks|intros s e r _; apply part_step_np|exact F]|]. intros (p & r). discriminate.
Qed.
Lemma format_step_np s e r : fine (e :: r) -> format_step s e r <> Panic.
Proof.
  intros F. unfold format_step. destruct (on_tag e) as [((n & a) & b)|]; [|discriminate]. destruct (part_of n) as [ty|].
  - apply bind_np; [apply part_np; eapply fine_tail, F|]. intros (p & r'). discriminate.
  - destruct s. destruct (str_eqb n t_map); [discriminate|]. destruct (str_eqb n t_text); discriminate.
Qed.
Lemma read_format_np f o u tag a b evs n : fine evs -> sroom b (n + 1 + cost evs) -> np (read_format f o u tag a b evs) (fun p => sroom (fst p) (n + cost (snd p))).
Proof.
  intros F R. unfold read_format. destruct (copy_style_attr a) as [nm at'].
  eapply np_bind'; [apply np_of, (reading_fine _ _ format_shrinks); [apply format_step_np|exact F]|]. intros (p & r) E _. apply reading_sfx in E; [|apply format_shrinks]. apply cost_sfx in E.
  eapply np_bind'; [apply (add_item_np _ _ _ (n + cost r)); eapply room_le; [exact R|lia]|]. intros b' _ H. exact H.
Qed.
Lemma page_step_np s e r : page_step s e r <> Panic.
Proof.
  unfold page_step. destruct s as ((p & hd) & ft). destruct p. destruct e; try discriminate;
    repeat match goal with |- context [if ?b then _ else _] => destruct b end; discriminate.
Qed.
Lemma read_page_np a b evs n : fine evs -> sroom b (n + 1 + cost evs) -> np (read_page a b evs) (fun p => sroom (fst p) (n + cost (snd p))).
Proof.
  intros F R. unfold read_page. destruct (fold_left page_attr a _) as [nm p0].
  eapply np_bind'; [apply np_of, (reading_fine _ _ page_shrinks); [intros; apply page_step_np|exact F]|]. intros (p & r) E _. apply reading_sfx in E; [|apply page_shrinks]. apply cost_sfx in E.
  eapply np_bind'; [apply (add_item_np _ _ _ (n + cost r)); eapply room_le; [exact R|lia]|]. intros b' _ H. exact H.
Qed.
Lemma into_vec_np l : into_vec l <> Panic.
Proof. induction l as [|[t|n a c] l IH]; [discriminate| |]; cbn [into_vec]; [destruct (forallb is_blank t); [exact IH|discriminate]|apply bind_np; [exact IH|discriminate]]. Qed.
Lemma hf_step_np s e r : fine (e :: r) -> hf_step s e r <> Panic.
Proof.
  intros F. unfold hf_step. destruct (on_tag e) as [((n & a) & b)|] eqn:T; [|discriminate]. destruct s as [[d le ce ri co] tc].
  assert (X : forall g : list xnode -> hfoot * tcontent, (let* (x, r') := read_xml n a b r in let* v := into_vec (children x) in Ok (g v, r')) <> Panic).
  { intros g. apply bind_np; [eapply xml_np; eassumption|]. intros (x & r'). apply bind_np; [apply into_vec_np|discriminate]. }
  destruct (str_eqb n t_left); [apply (X (fun v => (HF d v ce ri co, tc)))|]. destruct (str_eqb n t_center); [apply (X (fun v => (HF d le v ri co, tc)))|]. destruct (str_eqb n t_right); [apply (X (fun v => (HF d le ce v co, tc)))|].
  destruct (str_eqb n t_p || str_eqb n t_h); [|discriminate]. apply bind_np; [apply text_np|]. intros (t & r'). discriminate.
Qed.
Lemma hf_attrs_np h a : hf_attrs h a <> Panic.
Proof. revert h. induction a as [|[k v] a IH]; intros h; [discriminate|]. cbn [hf_attrs]. destruct (str_eqb k _); [apply bind_np; [apply bool_np|intros d; apply IH]|apply IH]. Qed.
Lemma read_hf_np tag a evs : fine evs -> read_hf tag a evs <> Panic.
Proof.
  intros F. unfold read_hf. apply bind_np; [apply hf_attrs_np|]. intros h0. apply bind_np; [apply (reading_fine _ _ hf_shrinks); [apply hf_step_np|exact F]|]. intros (p & r). destruct (snd p) as [[d le ce ri co] tc]. discriminate.
Qed.
Lemma master_step_np s e r : fine (e :: r) -> master_step s e r <> Panic.
Proof.
  intros F. destruct e; cbn [master_step]; try discriminate. destruct (hslot_of n) as [h|]; [|discriminate]. apply bind_np; [apply read_hf_np; eapply fine_tail, F|]. intros (x & r'). discriminate.
Qed.
Lemma read_master_np a b evs n : fine evs -> sroom b (n + 1 + cost evs) -> np (read_master a b evs) (fun p => sroom (fst p) (n + cost (snd p))).
Proof.
  intros F R. unfold read_master. destruct (fold_left master_attr a _) as [nm m0].
  eapply np_bind'; [apply np_of, (reading_fine _ _ master_shrinks); [apply master_step_np|exact F]|]. intros (p & r) E _. apply reading_sfx in E; [|apply master_shrinks]. apply cost_sfx in E.
  eapply np_bind'; [apply (add_item_np _ _ _ (n + cost r)); eapply room_le; [exact R|lia]|]. intros b' _ H. exact H.
Qed.

(** The state of the loops over styles; [n] is what is to be read later. *)
Definition SI (n : N) (b : stylebook) (evs : list event) : Prop := fine evs /\ sroom b (n + cost evs).
Lemma SI_tail n b e r : SI n b (e :: r) -> SI n b r.
Proof. intros (F & R). split; [eapply fine_tail, F|]. rewrite cost_cons in R. eapply room_le; [exact R|lia]. Qed.
Lemma SI_step {S} n (step : stylebook -> event -> list event -> res (stylebook * list event)) b e r (Q : S -> Prop) : shrinks step -> SI n b (e :: r) ->
  np (step b e r) (fun p => sroom (fst p) (n + cost (snd p))) -> np (step b e r) (fun p => SI n (fst p) (snd p)).
Proof. intros Sh (F & _) H. eapply np_imp; [exact H|]. intros (b' & r') E R. apply Sh in E. split; [|exact R]. eapply fine_sfx; [eapply fine_tail, F|exact E]. Qed.
Lemma styles_step_np n o b e r : SI n b (e :: r) -> np (styles_step o b e r) (fun p => SI n (fst p) (snd p)).
Proof.
  intros H. apply (SI_step (S := unit) n (styles_step o) b e r (fun _ => True) (styles_shrinks o) H). pose proof (SI_tail _ _ _ _ H) as (F' & R'). destruct H as (F & R). unfold styles_step. destruct (on_tag e) as [((t & a) & b0)|] eqn:T; [|exact R'].
  destruct (fine_tag _ _ _ _ _ F T) as (_ & _ & _ & Z). rewrite cost_cons, Z in R.
  destruct (str_eqb t t_style); [apply read_style_style_np; [exact F'|eapply room_le; [exact R|lia]]|]. destruct (str_eqb t t_default); [apply read_style_style_np; [exact F'|eapply room_le; [exact R|lia]]|].
  destruct (format_of t); [|exact R']. apply read_format_np; [exact F'|eapply room_le; [exact R|lia]].
Qed.
Lemma automatic_step_np n o b e r : SI n b (e :: r) -> np (automatic_step o b e r) (fun p => SI n (fst p) (snd p)).
Proof.
  intros H. apply (SI_step (S := unit) n (automatic_step o) b e r (fun _ => True) (automatic_shrinks o) H). pose proof (SI_tail _ _ _ _ H) as (F' & R'). destruct H as (F & R). unfold automatic_step. destruct (on_tag e) as [((t & a) & b0)|] eqn:T; [|exact R'].
  destruct (fine_tag _ _ _ _ _ F T) as (_ & _ & _ & Z). rewrite cost_cons, Z in R.
  destruct (str_eqb t t_style); [apply read_style_style_np; [exact F'|eapply room_le; [exact R|lia]]|]. destruct (str_eqb t t_page); [apply read_page_np; [exact F'|eapply room_le; [exact R|lia]]|].
  destruct (format_of t); [|exact R']. apply read_format_np; [exact F'|eapply room_le; [exact R|lia]].
Qed.
Lemma masters_step_np n b e r : SI n b (e :: r) -> np (masters_step b e r) (fun p => SI n (fst p) (snd p)).
Proof.
  intros H. apply (SI_step (S := unit) n masters_step b e r (fun _ => True) masters_shrinks H). pose proof (SI_tail _ _ _ _ H) as (F' & R'). destruct H as (F & R). unfold masters_step. destruct (on_tag e) as [((t & a) & b0)|] eqn:T; [|exact R'].
  destruct (fine_tag _ _ _ _ _ F T) as (_ & _ & _ & Z). rewrite cost_cons, Z in R.
  destruct (str_eqb t t_master); [|exact R']. apply read_master_np; [exact F'|eapply room_le; [exact R|lia]].
Qed.
Lemma fonts_np o n b evs : SI n b evs -> np (read_fonts o b evs) (fun p => SI n (fst p) (snd p)).
Proof.
  intros H. unfold read_fonts. eapply np_bind'; [apply (reading_np _ _ (fun s r => SI n (fst s) r)); [intros s e r; apply SI_tail| |exact H]|].
  - intros s e r K. eapply np_imp; [apply np_of, font_np|]. intros (s' & r') E _. cbn [fst snd]. apply SI_tail in K. unfold font_step in E. destruct (on_tag e) as [((t & a) & b0)|]; [|injection E as <- <-; exact K].
    destruct (str_eqb t t_font); [|injection E as <- <-; exact K]. destruct (copy_style_attr a). injection E as <- <-. exact K.
  - intros (p & r) _ K. exact K.
Qed.
Lemma doc_step_np n o b e r : SI n b (e :: r) -> np (doc_step o b e r) (fun p => SI n (fst p) (snd p)).
Proof.
  intros H. apply SI_tail in H. unfold doc_step. destruct e; try exact H.
  destruct (str_eqb n0 t_fonts); [now apply fonts_np|].
  destruct (str_eqb n0 t_office_styles); [eapply np_bind'; [apply (reading_np _ _ (SI n)); [apply SI_tail|apply styles_step_np|exact H]|intros (p & r') _ K; exact K]|].
  destruct (str_eqb n0 t_automatic); [eapply np_bind'; [apply (reading_np _ _ (SI n)); [apply SI_tail|apply automatic_step_np|exact H]|intros (p & r') _ K; exact K]|].
  destruct (str_eqb n0 t_masters); [eapply np_bind'; [apply (reading_np _ _ (SI n)); [apply SI_tail|apply masters_step_np|exact H]|intros (p & r') _ K; exact K]|]. exact H.
Qed.

(** C39: content validations. *)
From Verif Require Import Base Lib NumModel NumSpec EnumModel RefsModel RefsSpec XmlModel XmlSpec XmlProofs CellModel CellIoModel CellIoProofs BookModel BookProps ScriptModel ScriptProofs ValidModel ValidProofs.

(** Exactly what reading does with what was written, whatever is in the workbook: for every validation it adds two, one of the same name without
    the messages, and one without a name that has nothing but the messages. *)
Theorem C39_exact vs cs : Forall valid_ok vs -> vs <> [] -> write_validations vs = Ok cs ->
  exists evs ws, read_events (render false cs) = Ok evs /\ Forall2 left_over vs ws /\ forall bk bk', add_all vs ws bk = Ok bk' -> read_body evs bk = Ok bk'.
Proof.
  intros V NE H. unfold write_validations in H. destruct vs as [|v vs]; [congruence|]. set (l := v :: vs) in *.
  destruct (valids_calls l) as [cv| |] eqn:E; try discriminate. cbn [bind] in H. injection H as <-.
  destruct (valids_read l cv V E [CEnd t_valids]) as (ws & L & R). destruct (valids_good l cv V E) as (S & N).
  exists (events_of false (CElem t_valids :: cv ++ [CEnd t_valids])), ws. split; [|split; [exact L|]].
  - apply read_events_render.
    + apply sn_elem; [name_lit|]. apply S. intros q. apply sn_end; [name_lit|constructor].
    + cbn [calls_nested]. apply N. cbn. auto.
  - intros bk bk' A. unfold events_of. cbn [asked finish app]. rewrite asked_flush.
    2: { unfold l in E. cbn [valids_calls] in E. unfold valid_calls in E. destruct (fmt_cell_ref (vb_base (nm_body v))); try discriminate. cbn [bind] in E.
         destruct (valids_calls vs); try discriminate. cbn [bind] in E. injection E as <-. exact I. }
    cbn [finish app]. unfold coalesce. rewrite coalesce_cons by exact I. cbn [emit_text app read_body]. rewrite str_eqb_refl.
    fold (coalesce (asked esc_split false None (cv ++ [CEnd t_valids]))).
    rewrite (R bk bk' (Ok (bk', [])) A); [reflexivity| |reflexivity].
    intros n Ln. cbn [asked finish app] in *. unfold coalesce in *. rewrite coalesce_cons in * by exact I. cbn [emit_text app length] in *. destruct n as [|n]; [inversion Ln|].
    cbn [read_valids]. replace (str_eqb t_valids t_valid) with false by reflexivity. rewrite str_eqb_refl. reflexivity.
Qed.

Lemma Forall2_length {A B} (R : A -> B -> Prop) l l' : Forall2 R l l' -> length l = length l'.
Proof. induction 1; cbn [length]; congruence. Qed.
(** Names that the workbook does not give away itself. *)
Definition own_name (v : validation) : Prop := forall d n, numeral d n -> nm_name v <> lit "val" ++ d.

Lemma add_all_ok vs : forall ws bk L, length ws = length vs -> known bk L -> N.of_nat (length L) + 2 * N.of_nat (length vs) <= u32_max ->
  Forall (fun v => nm_name v <> []) vs -> NoDup (map nm_name vs) ->
  exists bk', add_all vs ws bk = Ok bk'
    /\ (forall k, ~ In k (map nm_name vs) -> style FValidation k bk <> None -> style FValidation k bk' = style FValidation k bk)
    /\ (forall v, In v vs -> style FValidation (nm_name v) bk' = Some (Named (nm_name v) (no_messages (nm_body v))))
    /\ (forall ks, NoDup ks -> (forall k, style FValidation k bk <> None <-> In k ks) -> Forall own_name vs -> (forall v, In v vs -> ~ In (nm_name v) ks) ->
          exists ks', NoDup ks' /\ length ks' = (length ks + 2 * length vs)%nat /\ forall k, style FValidation k bk' <> None <-> In k ks').
Proof.
  induction vs as [|v vs IH]; intros ws bk L Lw K Hu NE ND.
  - exists bk. split; [reflexivity|]. split; [auto|]. split; [contradiction|]. intros ks N H _ _. exists ks. split; [exact N|]. split; [cbn; lia|exact H].
  - destruct ws as [|w ws]; [discriminate|]. cbn [length] in Hu. inversion NE; subst. cbn [map] in ND. apply NoDup_cons_iff in ND as [Nv ND]. cbn [add_all].
    destruct (add_known FValidation (Named (nm_name v) (no_messages (nm_body v))) bk L K) as (b1 & r1 & A1 & K1 & _); [lia|]. rewrite A1. cbn [bind].
    destruct (add_known FValidation (Named [] w) b1 _ K1) as (b2 & r2 & A2 & K2 & _); [cbn [length]; lia|]. rewrite A2. cbn [bind].
    apply C32_add in A1 as (_ & N1 & _ & S1 & O1). cbn [nm_name nm_body] in *. rewrite (N1 H1) in *. clear r1 N1.
    apply C32_add in A2 as (F2 & _ & _ & S2 & O2). cbn [nm_name nm_body] in *. destruct (F2 eq_refl) as (U2 & d & n & D & Er). clear F2.
    destruct (IH ws b2 _ ltac:(cbn [length] in Lw; lia) K2) as (bk' & A & P & Q & R); [cbn [length]; lia|exact H2|exact ND|]. exists bk'. split; [exact A|].
    assert (O : forall k, k <> nm_name v -> style FValidation k bk <> None -> style FValidation k b2 = style FValidation k bk).
    { intros k Nk Hk. rewrite O2; [apply O1; tauto|]. intros (_ & ->). rewrite O1 in U2 by tauto. congruence. }
    assert (Rv : r2 <> nm_name v) by (intros ->; congruence).
    split; [|split].
    + intros k Nk Hk. cbn [map In] in Nk. rewrite P; [apply O; [intros ->; tauto|exact Hk]|tauto|]. rewrite O; [exact Hk|intros ->; tauto|exact Hk].
    + intros x [<-|I]; [|now apply Q]. rewrite P; [|exact Nv|]; (rewrite O2 by (intros (_ & E); congruence)); [exact S1|congruence].
    + intros ks Nks Hks OW Fr. apply Forall_cons_iff in OW as [OWv OWs].
      destruct (R (r2 :: nm_name v :: ks)) as (ks' & N' & L' & H').
      * assert (Fv : ~ In (nm_name v) ks) by (apply Fr; now left). constructor; [|constructor; [exact Fv|exact Nks]]. intros [E|I]; [congruence|].
        apply Hks in I. rewrite <- O1 in I by (intros (_ & E); congruence). congruence.
      * intros k. destruct (str_eq_dec k r2) as [->|N2]; [rewrite S2; split; [now left|discriminate]|]. rewrite O2 by tauto.
        destruct (str_eq_dec k (nm_name v)) as [->|N3]; [rewrite S1; split; [intros _; right; now left|discriminate]|]. rewrite O1 by tauto. rewrite Hks. cbn [In]. intuition congruence.
      * assumption.
      * intros x Ix [E|[E|I]].
        -- apply (proj1 (Forall_forall _ _) OWs x Ix d n D). rewrite <- E. exact Er.
        -- apply Nv. rewrite E. now apply in_map.
        -- apply (Fr x); [now right|exact I].
      * exists ks'. split; [exact N'|]. split; [cbn [length] in *; lia|exact H'].
Qed.

(** What survives: each validation is found under its name with its condition, base cell and flags, but without its messages. *)
Theorem C39_survives_partial vs cs bk L : Forall valid_ok vs -> Forall (fun v => nm_name v <> []) vs -> NoDup (map nm_name vs) -> vs <> [] -> write_validations vs = Ok cs ->
  known bk L -> N.of_nat (length L) + 2 * N.of_nat (length vs) <= u32_max ->
  exists evs bk', read_events (render false cs) = Ok evs /\ read_body evs bk = Ok bk'
    /\ forall v, In v vs -> style FValidation (nm_name v) bk' = Some (Named (nm_name v) (no_messages (nm_body v))).
Proof.
  intros V NE ND N W K Hu. destruct (C39_exact vs cs V N W) as (evs & ws & E & F & R). exists evs.
  destruct (add_all_ok vs ws bk L (eq_sym (Forall2_length _ _ _ F)) K Hu NE ND) as (bk' & A & _ & Q & _). exists bk'. split; [exact E|]. split; [now apply R|exact Q].
Qed.
(** The number of validations doubles, unless a name looks like an automatic one. *)
Theorem C39_number vs cs : Forall valid_ok vs -> Forall (fun v => nm_name v <> []) vs -> NoDup (map nm_name vs) -> vs <> [] -> write_validations vs = Ok cs -> Forall own_name vs ->
  2 * N.of_nat (length vs) <= u32_max ->
  exists evs bk' ks, read_events (render false cs) = Ok evs /\ read_body evs book0 = Ok bk'
    /\ NoDup ks /\ length ks = (2 * length vs)%nat /\ forall k, style FValidation k bk' <> None <-> In k ks.
Proof.
  intros V NE ND N W O Hu. destruct (C39_exact vs cs V N W) as (evs & ws & E & F & R).
  destruct (add_all_ok vs ws book0 [] (eq_sym (Forall2_length _ _ _ F))) as (bk' & A & _ & _ & Q); [split; [intros f k []|discriminate]|exact Hu|exact NE|exact ND|].
  destruct (Q []) as (ks & Nk & Lk & Hk); [constructor|intros k; cbn; split; [congruence|contradiction]|exact O|intros v _ []|].
  exists evs, bk', ks. split; [exact E|]. split; [now apply R|]. split; [exact Nk|]. split; [exact Lk|exact Hk].
Qed.
(** Writing never fails. *)
Theorem C39_written vs : Forall (fun v => cellref_u32 (vb_base (nm_body v))) vs -> exists cs, write_validations vs = Ok cs.
Proof.
  intros H. assert (X : exists cv, valids_calls vs = Ok cv).
  { induction H as [|v vs Hv _ (cv & IH)]; [eexists; reflexivity|]. cbn [valids_calls]. unfold valid_calls. destruct (RefsProofs.cellref_text_ok _ Hv) as (base & F & _).
    rewrite F. cbn [bind]. rewrite IH. eexists. reflexivity. }
  destruct X as (cv & E). unfold write_validations. destruct vs; [eexists; reflexivity|]. rewrite E. eexists. reflexivity.
Qed.

(** ** What is wrong *)

Definition ex_valid (l : vdisplay) : validation :=
  Named (lit "v<1>") (VBody (lit "cell-content-is-in-list(""a"";""b & c"")") (mkCellRef None (Some (lit "S1")) true 4 false 2) false l
    (Some (Msg true MWarning (Some (lit "Oh & no")) (Some (XTag (lit "text:p") [] [XText (lit "not <that>")]))))
    (Some (Msg false tt None None))).
Definition plain_valid (n : str) : validation := Named n (VBody (lit "cell-content()=1") ref0 true Unsorted None None).

Definition read_back (vs : list validation) : res (book vbody) := let* cs := write_validations vs in let* evs := read_events (render false cs) in read_body evs book0.
Definition all_valids (b : book vbody) : list validation := map snd (bk_styles b FValidation).
(** The messages are lost and the number of validations is another. *)
Theorem C39_messages_refuted : exists v b, read_back [v] = Ok b /\ vb_err (nm_body v) <> Some error0 /\ length (all_valids b) = 2%nat
  /\ option_map (fun w => (vb_err (nm_body w), vb_help (nm_body w))) (style FValidation (nm_name v) b) = Some (Some error0, None).
Proof. exists (ex_valid Unsorted). eexists. split; [vm_compute; reflexivity|]. split; [discriminate|]. split; vm_compute; reflexivity. Qed.
(** A validation that shows no list makes the file unreadable. *)
Theorem C39_display_refuted : exists v, read_back [v] = Err /\ read_back [ex_valid SortAscending] <> Err /\ v = ex_valid NoDisplay.
Proof. eexists. split; [|split; [|reflexivity]]; vm_compute; congruence. Qed.
(** A text of a message makes the file unreadable when it is written the second time. *)
Theorem C39_twice_refuted : exists v b, read_back [v] = Ok b /\ read_back (all_valids b) = Err.
Proof. exists (ex_valid Unsorted). eexists. split; [vm_compute; reflexivity|]. vm_compute. reflexivity. Qed.
(** A validation as an empty element is not read at all. *)
Theorem C39_empty_refuted : exists evs b, read_events (lit "<table:content-validations><table:content-validation table:name=""a""/></table:content-validations>") = Ok evs
  /\ read_body evs book0 = Ok b /\ all_valids b = [].
Proof. eexists. eexists. split; [vm_compute; reflexivity|]. split; [vm_compute; reflexivity|]. reflexivity. Qed.
(** The number of bytes of a character in UTF-8: one per started group of bits, see RFC 3629. *)
Inductive takes : char -> nat -> Prop :=
| takes_1 c : c < 128 -> takes c 1
| takes_2 c : 128 <= c < 2048 -> takes c 2
| takes_3 c : 2048 <= c < 65536 -> takes c 3
| takes_4 c : 65536 <= c -> takes c 4.
Inductive bytes : str -> nat -> Prop :=
| bytes_nil : bytes [] 0
| bytes_cons c s k n : takes c k -> bytes s n -> bytes (c :: s) (k + n).
Lemma takes_fun c k : takes c k -> utf8_len c = k.
Proof.
  intros T. unfold utf8_len. inversion T; subst.
  - destruct (c <? 128) eqn:E; [reflexivity|lia].
  - destruct (c <? 128) eqn:E; [lia|]. destruct (c <? 2048) eqn:E1; [reflexivity|lia].
  - destruct (c <? 128) eqn:E; [lia|]. destruct (c <? 2048) eqn:E1; [lia|]. destruct (c <? 65536) eqn:E2; [reflexivity|lia].
  - destruct (c <? 128) eqn:E; [lia|]. destruct (c <? 2048) eqn:E1; [lia|]. destruct (c <? 65536) eqn:E2; [lia|reflexivity].
Qed.
Lemma takes_len c : takes c (utf8_len c).
Proof.
  unfold utf8_len. destruct (c <? 128) eqn:E; [constructor; lia|]. destruct (c <? 2048) eqn:E1; [constructor; lia|].
  destruct (c <? 65536) eqn:E2; constructor; lia.
Qed.
(** Exactly the first three bytes of a condition are cut off; if no character ends there, the reader panics. *)
Theorem C39_prefix : forall n s, (forall r, split_bytes n s = Ok r <-> exists p, s = p ++ r /\ bytes p n)
  /\ ((forall r, split_bytes n s <> Ok r) -> split_bytes n s = Panic).
Proof.
  intros n s. revert n. induction s as [|c s IH]; intros n.
  - split.
    + intros r. destruct n; cbn; split.
      * intros H. injection H as <-. exists []. split; [reflexivity|constructor].
      * intros (p & E & _). symmetry in E. apply app_eq_nil in E as (-> & ->). reflexivity.
      * discriminate.
      * intros (p & E & B). symmetry in E. apply app_eq_nil in E as (-> & ->). inversion B.
    + destruct n; cbn; [intros H; now elim (H [])|reflexivity].
  - pose proof (takes_len c) as T. assert (P : (1 <= utf8_len c)%nat) by (inversion T; lia). destruct n as [|n].
    + cbn. split; [|intros H; now elim (H (c :: s))]. intros r. split.
      * intros H. injection H as <-. exists []. split; [reflexivity|constructor].
      * intros (p & E & B). destruct p as [|d p]; [cbn in E; now rewrite E|]. inversion B as [|? ? k m T' B' E1 E2]. subst. inversion T'; lia.
    + cbn [split_bytes]. destruct (utf8_len c <=? S n)%nat eqn:L.
      * apply Nat.leb_le in L. destruct (IH (S n - utf8_len c)%nat) as (A & B). split; [|exact B]. intros r. rewrite A. split.
        -- intros (p & -> & Bp). exists (c :: p). split; [reflexivity|]. replace (S n) with (utf8_len c + (S n - utf8_len c))%nat by lia. now constructor.
        -- intros (p & E & Bp). destruct p as [|d p]; [inversion Bp|]. injection E as -> ->. exists p. split; [reflexivity|].
           inversion Bp as [|? ? k m T' B' E1 E2]. subst. apply takes_fun in T'. replace (k + m - utf8_len d)%nat with m by lia. exact B'.
      * apply Nat.leb_gt in L. split; [|reflexivity]. intros r. split; [discriminate|]. intros (p & E & Bp). destruct p as [|d p]; [inversion Bp|]. injection E as -> ->.
        inversion Bp as [|? ? k m T' B' E1 E2]. subst. apply takes_fun in T'. lia.
Qed.
Example C39_prefix_ex : split_bytes 3 (lit "of:x") = Ok (lit "x") /\ split_bytes 3 [97; 228; 98] = Ok [98] /\ split_bytes 3 [97; 98; 228; 98] = Panic.
Proof. vm_compute. auto. Qed.
(** A condition of fewer than three bytes makes the reader panic. *)
Theorem C39_panic_refuted : exists evs, read_events (lit "<table:content-validations><table:content-validation table:condition=""1""></table:content-validation></table:content-validations>") = Ok evs
  /\ read_body evs book0 = Panic.
Proof. eexists. split; [vm_compute; reflexivity|]. vm_compute. reflexivity. Qed.

(** Three validations, one named like an automatic one: five come back. *)
Example C39_ex : exists b, read_back [ex_valid SortAscending; plain_valid (lit "b"); plain_valid (lit "val1")] = Ok b
  /\ map nm_name (all_valids b) = [lit "val2"; lit "val1"; lit "b"; lit "val0"; lit "v<1>"]
  /\ map (fun v => is_some (vb_err (nm_body v))) (all_valids b) = [true; true; true; true; true]
  /\ style FValidation (lit "v<1>") b = Some (Named (lit "v<1>") (no_messages (nm_body (ex_valid SortAscending)))).
Proof. eexists. split; [vm_compute; reflexivity|]. split; [|split]; vm_compute; reflexivity. Qed.

Print Assumptions C39_exact.
Print Assumptions C39_survives_partial.
Print Assumptions C39_number.
Print Assumptions C39_written.
Print Assumptions C39_messages_refuted.
Print Assumptions C39_display_refuted.
Print Assumptions C39_twice_refuted.
Print Assumptions C39_empty_refuted.
Print Assumptions C39_prefix.
Print Assumptions C39_panic_refuted.

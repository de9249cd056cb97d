(** C51: a workbook as a whole survives writing and reading. *)
From Verif Require Import Base Lib OMap NumModel EnumModel RefsModel XmlModel XmlSpec XmlProofs CellModel CellIoModel CellIoProofs HeaderModel TableModel.
From Verif Require Import BookModel BookProps NumSpec NumProofs CellIoSpec ScriptModel ScriptProofs ValidModel ValidProofs ValidProps ValidFlat.
From Verif Require Import MetaModel MetaProofs ConfigModel ConfigSpec ConfigProofs ConfigIo FlowProofs StyleModel StyleSpec StyleProofs StyleDocProofs.
From Verif Require Import TableSpec TableWhole TableProps CloneModel CloneProps WorkModel WorkSpec WorkFlow ExtraProofs WorkProofs TreeProofs.
From Verif Require ViewProps StyleProps TermProofs.
From Coq Require Import Permutation.

(** ** Parts *)

Fixpoint distinct (l : list str) : bool := match l with [] => true | k :: r => negb (existsb (str_eqb k) r) && distinct r end.
Lemma distinct_nodup l : distinct l = true -> NoDup l.
Proof.
  induction l as [|k l IH]; intros H; constructor; cbn [distinct] in H; apply andb_true_iff in H as (A & B); auto. intros I. apply negb_true_iff in A.
  assert (existsb (str_eqb k) l = true) by (apply existsb_exists; exists k; split; [exact I|apply str_eqb_refl]). congruence.
Qed.
Definition plain_name (n : str) : bool :=
  negb (is_nil n) && forallb (fun c => negb (existsb (N.eqb c) [c_quot; c_apos; c_amp; c_lt; c_gt; c_slash; c_eq; c_bslash; 32; 9; 10; 13; 33; 63])) n.
Lemma ns_table (m : amap str) : forallb plain_name (map fst m) && forallb (fun kv => starts_with (lit "xmlns:") (fst kv)) m && distinct (map fst m) = true -> ns_ok m.
Proof.
  intros H. apply andb_true_iff in H as (H & D). apply andb_true_iff in H as (A & B). split; [now apply distinct_nodup|]. apply Forall_forall. intros x I. rewrite forallb_forall in A, B.
  split; [apply name_ok_b, A, in_map, I|now apply B].
Qed.
Lemma ns_tables_ok : ns_ok ns_fods /\ ns_ok ns_meta /\ ns_ok ns_settings /\ ns_ok ns_styles /\ ns_ok ns_content.
Proof. split; [|split; [|split; [|split]]]; apply ns_table; vm_compute; reflexivity. Qed.
Lemma ns_read added m l w file : ns_ok added -> ns_ok m -> Permutation l (put_all added m) -> ns_ok l /\ ns_after added m (ns_of file (with_ns file l w)).
Proof.
  intros A M P. pose proof (put_all_ok _ _ A M) as O. pose proof (perm_ok _ _ P O) as N. split; [exact N|]. intros k. destruct w as [? ns ? ? ? ? ? ? ? ?]. unfold ns_of, with_ns. cbn [put_ns wb_ns].
  rewrite am_get_put, str_eqb_refl. rewrite put_all_get by apply N. cbn [am_get]. rewrite (perm_get _ _ k P) by apply O. rewrite put_all_get by apply A. destruct (am_get k added); [reflexivity|]. now destruct (am_get k m).
Qed.
Lemma valids_return lb w : Forall valid_ok (all_valids w) /\ Forall (fun v => nm_name v <> []) (all_valids w) /\ NoDup (map nm_name (all_valids w)) /\ 2 * N.of_nat (length (all_valids w)) <= u32_max ->
  forall cs, write_validations (all_valids w) = Ok cs -> exists bk', valids_back lb (all_valids w) book0 bk'
  /\ forall v, In v (all_valids w) -> style FValidation (nm_name v) bk' = Some (Named (nm_name v) (no_messages (nm_body v))).
Proof.
  intros (V & NE & ND & L) cs W. destruct (all_valids w) as [|v vs] eqn:E.
  - exists book0. split; [|intros v []]. destruct lb; eexists _, _; (split; [reflexivity|]; split; [vm_compute; reflexivity|reflexivity]).
  - destruct (valids_there lb (v :: vs) cs V ltac:(discriminate) W) as (ws & F & H).
    destruct (add_all_ok (v :: vs) ws book0 [] (eq_sym (Forall2_length _ _ _ F))) as (bk' & A & _ & Q & _); [split; [intros f k []|discriminate]|exact L|exact NE|exact ND|].
    exists bk'. split; [now apply H|exact Q].
Qed.
(** A sheet after reading and the calculations after it. *)
Lemma calc_one lb ign rep ds sh t : sheet_fine sh -> few_repeats rep sh -> table_through lb ign ds (bare sh) = Ok t -> exists sh', calculations rep t = Ok sh'.
Proof.
  intros (O & Hh & Hg & _) Fr T. pose proof T as T0. unfold table_through in T0. apply bind_ok in T0 as (cs & W & _). destruct rep.
  - destruct (table_back lb ign ds (bare sh) cs (fun _ => True) (fun _ _ => True) W O Hh Hg I (fun _ _ _ => I) (fun _ _ _ _ => I)) as (t' & hs & T' & _ & _ & _ & _ & _ & D & _).
    assert (t' = t) by congruence. subst t'. destruct (dedup_total _ D) as (cols & E). unfold calculations. rewrite E. eexists. reflexivity.
  - destruct Fr as [Fr|Fr]; [discriminate|]. destruct (C41_through lb ign ds (bare sh) cs W O Hh Hg Fr) as (sh' & E & _). rewrite T in E. exists sh'. exact E.
Qed.
Lemma calc_extra rep t x : calculations rep t = Ok x -> tb_extra x = tb_extra t.
Proof.
  unfold calculations. destruct (dedup_colheader (tb_cols t)) as [cs| |]; try discriminate. cbn [bind]. destruct rep; [intros H; injection H as <-; destruct t; reflexivity|].
  unfold calc_cloned. destruct (collect _ _); try discriminate. cbn [bind]. destruct (cells_right _) as [[[y d] k]| |]; try discriminate. cbn [bind]. intros H. injection H as <-. destruct t. reflexivity.
Qed.
(** A sheet comes back as the sheet without other elements does, and with those of them that stay in it. *)
Definition sheet_back (lb ign rep : bool) (ds : vtype -> option str) (sh sh' : sheet) : Prop :=
  (let* t := table_through lb ign ds (bare sh) in calculations rep t) = Ok (bare sh')
  /\ map norm (tb_extra sh') = map (fun x => norm (broken lb x)) (filter stays (tb_extra sh)).
Lemma calc_all lb ign rep ds l ts : Forall sheet_fine l -> Forall (few_repeats rep) l -> Forall2 (through lb ign ds) l ts ->
  exists l', calc_sheets rep ts = Ok l' /\ Forall2 (sheet_back lb ign rep ds) l l'.
Proof.
  intros F G H. induction H as [|sh t l ts (H & X) _ IH]; [exists []; split; [reflexivity|constructor]|]. inversion F; subst. inversion G; subst. destruct (IH H3 H5) as (l' & E & B).
  destruct (calc_one lb ign rep ds sh (bare t) H2 H4 H) as (sh' & C). exists (more (tb_extra t) sh' :: l'). cbn [calc_sheets].
  assert (Et : t = more (tb_extra t) (bare t)) by (destruct t; cbn; unfold more; cbn; now rewrite app_nil_r). pose proof (calc_more (tb_extra t) rep (bare t)) as Cm. rewrite <- Et, C in Cm. cbn [lift] in Cm.
  rewrite Cm. cbn [bind]. rewrite E. split; [reflexivity|]. constructor; [|exact B]. pose proof (calc_extra _ _ _ C) as Z. cbn in Z. split.
  - rewrite H. cbn [bind]. rewrite C. destruct sh'. cbn in Z. subst. reflexivity.
  - unfold more. cbn [tb_extra]. rewrite Z, app_nil_r. exact X.
Qed.
Lemma norm_plain l : map (fun x => norm (broken false x)) l = map norm l.
Proof. apply map_ext. intros x. apply broken_norm. Qed.

(** ** A package *)

(** The elements at the top of the body: those of the workbook that are known, and in between those of the sheets that are written behind them. *)
Definition written_extras (w : workbook) : list xnode :=
  filter (named_in prelude_tags) (wb_extra w) ++ flat_map (fun sh => filter leaves (tb_extra sh)) (wb_sheets w) ++ filter (named_in epilogue_tags) (wb_extra w).
(** The files can be read, with every reading option; each part comes back as its own property says. The namespaces are in any order. *)
Theorem C51_ods : forall w lm lse lst lc f, work_ok false w ->
  (forall file, In file [lit "meta.xml"; lit "settings.xml"; lit "styles.xml"; lit "content.xml"] -> ns_ok (ns_of file w)) ->
  Permutation lm (put_all ns_meta (ns_of (lit "meta.xml") w)) -> Permutation lse (put_all ns_settings (ns_of (lit "settings.xml") w)) ->
  Permutation lst (put_all ns_styles (ns_of (lit "styles.xml") w)) -> Permutation lc (put_all ns_content (ns_of (lit "content.xml") w)) ->
  write_ods w lm lse lst lc = Ok f ->
  forall ign rep c0, Forall (few_repeats rep) (wb_sheets w) -> exists w', read_ods ign rep c0 f = Ok w'
  /\ Forall2 (sheet_back false ign rep (wb_defaults w)) (wb_sheets w) (wb_sheets w')
  /\ wb_version w' = wb_version w
  /\ ns_after ns_meta (ns_of (lit "meta.xml") w) (ns_of (lit "meta.xml") w') /\ ns_after ns_settings (ns_of (lit "settings.xml") w) (ns_of (lit "settings.xml") w')
  /\ ns_after ns_styles (ns_of (lit "styles.xml") w) (ns_of (lit "styles.xml") w') /\ ns_after ns_content (ns_of (lit "content.xml") w) (ns_of (lit "content.xml") w')
  /\ wb_meta w' = meta_back (wb_meta w) /\ sound (wb_config w') /\ plain (wb_config w') = strip (plain (wb_config w)) /\ wb_scripts w' = ([], [])
  /\ styles_after (wb_styles w) (wb_styles w')
  /\ (forall v, In v (all_valids w) -> style FValidation (nm_name v) (wb_valids w') = Some (Named (nm_name v) (no_messages (nm_body v))))
  /\ map norm (wb_extra w') = map norm (written_extras w).
Proof.
  intros w lm lse lst lc f (Hm & Hs & Hc & Hsc & Hb & Hsm & Hv & Hsh & Hx) Hns Pm Pse Pst Pc W ign rep c0 Fr. destruct ns_tables_ok as (_ & Nm & Nse & Nst & Nc).
  pose proof (fun w0 => ns_read _ _ _ w0 (lit "meta.xml") Nm (Hns (lit "meta.xml") ltac:(cbn; tauto)) Pm) as Am. pose proof (fun w0 => ns_read _ _ _ w0 (lit "settings.xml") Nse (Hns (lit "settings.xml") ltac:(cbn; tauto)) Pse) as Ase.
  pose proof (fun w0 => ns_read _ _ _ w0 (lit "styles.xml") Nst (Hns (lit "styles.xml") ltac:(cbn; tauto)) Pst) as Ast. pose proof (fun w0 => ns_read _ _ _ w0 (lit "content.xml") Nc (Hns (lit "content.xml") ltac:(cbn; tauto)) Pc) as Ac.
  unfold write_ods in W. apply bind_ok in W as (u & _ & W). apply bind_ok in W as (cse & Ese & W). apply bind_ok in W as (cst & Est & W). apply bind_ok in W as (cc & Ec & W).
  unfold styles_calls, styles_doc in Est. apply bind_ok in Est as (s1 & E1 & Est). apply bind_ok in Est as (s2 & E2 & Est). apply bind_ok in Est as (s3 & E3 & Est).
  unfold content_calls in Ec. apply bind_ok in Ec as (cb & Eb & Ec). unfold content_doc in Ec. apply bind_ok in Ec as (s4 & E4 & Ec).
  destruct (styles_both (wb_styles w) Hb Hsm s1 s2 s3 s4 E1 E2 E3 E4) as (b1 & b2 & H1 & H2 & _ & Sa).
  pose proof Eb as Eb0. unfold write_body in Eb0. apply bind_ok in Eb0 as (cv & Ev & _). destruct (valids_return false w Hv cv Ev) as (bk' & Vb & Vq).
  destruct (settings_file w lse (proj1 (Ase w)) Hs Hc) as (cs' & c' & Ew & Sc' & Pc' & Rs). assert (cs' = cse) by congruence. subst cs'.
  set (w1 := put_meta (meta_back (wb_meta w)) (with_ns (lit "meta.xml") lm (work0 c0))). set (w2 := put_config c' (with_ns (lit "settings.xml") lse w1)).
  set (w3 := put_styles b1 (with_ns (lit "styles.xml") lst w2)).
  destruct (content_xml w lc (write_fonts (wb_styles w) OContent ++ s4) cb ign w3 b2 bk' (proj1 (Ac w)) Hsc H2 Hsh Hx (proj1 Hv) Vb Eb eq_refl) as (l' & ts & T & Mx & Rc).
  destruct (calc_all _ _ _ _ _ _ Hsh Fr T) as (l2 & Ecal & Bk).
  eexists. split.
  { match type of W with Ok ?x = Ok _ => assert (E : f = x) by congruence; clear W; subst f end. unfold read_ods. cbn [fl_meta fl_settings fl_styles fl_content].
    rewrite (meta_file false w lm (work0 c0) (proj1 (Am w)) Hm eq_refl). cbn [bind]. fold w1. rewrite (Rs w1). cbn [bind]. fold w2.
    match type of Est with Ok ?x = Ok _ => assert (E : cst = x) by congruence; clear Est; subst cst end.
    replace (write_fonts (wb_styles w) OStyles ++ s1 ++ s2 ++ s3 ++ [CEnd (lit "office:document-styles")]) with ((write_fonts (wb_styles w) OStyles ++ s1 ++ s2 ++ s3) ++ [CEnd (lit "office:document-styles")]) by (rewrite <- !app_assoc; reflexivity).
    rewrite (styles_xml w lst _ b1 w2 (proj1 (Ast w)) H1). cbn [bind]. fold w3.
    match type of Ec with Ok ?x = Ok _ => assert (E : cc = x) by congruence; clear Ec; subst cc end.
    replace (scripts_calls w ++ write_fonts (wb_styles w) OContent ++ s4 ++ cb ++ [CEnd (lit "office:document-content")])
      with ((scripts_calls w ++ (write_fonts (wb_styles w) OContent ++ s4) ++ cb) ++ [CEnd (lit "office:document-content")]) by (rewrite <- !app_assoc; reflexivity).
    rewrite Rc. cbn [bind]. unfold calc_book. replace (wb_sheets (body_into bk' l' ts (put_styles b2 (put_version (wb_version w) (with_ns (lit "content.xml") lc w3))))) with l' by reflexivity.
    rewrite Ecal. reflexivity. }
  split; [exact Bk|]. split; [reflexivity|].
  split. { intros k. rewrite <- (proj2 (Am (work0 c0))). reflexivity. } split. { intros k. rewrite <- (proj2 (Ase (work0 c0))). reflexivity. }
  split. { intros k. rewrite <- (proj2 (Ast (work0 c0))). reflexivity. } split. { intros k. rewrite <- (proj2 (Ac (work0 c0))). reflexivity. }
  split; [reflexivity|]. split; [exact Sc'|]. split; [exact Pc'|]. split; [reflexivity|]. split; [exact Sa|]. split; [exact Vq|]. rewrite <- (norm_plain (written_extras w)). exact Mx.
Qed.

(** Reading only content.xml gives the same sheets. *)
Theorem C51_ods_only : forall w lm lse lst lc f, work_ok false w -> ns_ok (ns_of (lit "content.xml") w) ->
  Permutation lc (put_all ns_content (ns_of (lit "content.xml") w)) -> write_ods w lm lse lst lc = Ok f ->
  forall ign rep c0, Forall (few_repeats rep) (wb_sheets w) -> exists w', read_ods_only ign rep c0 f = Ok w'
  /\ Forall2 (sheet_back false ign rep (wb_defaults w)) (wb_sheets w) (wb_sheets w') /\ wb_version w' = wb_version w /\ wb_config w' = c0 /\ wb_meta w' = meta0
  /\ (forall v, In v (all_valids w) -> style FValidation (nm_name v) (wb_valids w') = Some (Named (nm_name v) (no_messages (nm_body v))))
  /\ map norm (wb_extra w') = map norm (written_extras w).
Proof.
  intros w lm lse lst lc f (Hm & Hs & Hc & Hsc & Hb & Hsm & Hv & Hsh & Hx) Hns Pc W ign rep c0 Fr. destruct ns_tables_ok as (_ & _ & _ & _ & Nc).
  pose proof (ns_read _ _ _ (work0 c0) (lit "content.xml") Nc Hns Pc) as (Ac & _).
  unfold write_ods in W. apply bind_ok in W as (u & _ & W). apply bind_ok in W as (cse & _ & W). apply bind_ok in W as (cst & Est & W). apply bind_ok in W as (cc & Ec & W).
  unfold styles_calls, styles_doc in Est. apply bind_ok in Est as (s1 & E1 & Est). apply bind_ok in Est as (s2 & E2 & Est). apply bind_ok in Est as (s3 & E3 & Est).
  unfold content_calls in Ec. apply bind_ok in Ec as (cb & Eb & Ec). unfold content_doc in Ec. apply bind_ok in Ec as (s4 & E4 & Ec).
  destruct (styles_both (wb_styles w) Hb Hsm s1 s2 s3 s4 E1 E2 E3 E4) as (_ & _ & _ & _ & (b2 & H2) & _).
  pose proof Eb as Eb0. unfold write_body in Eb0. apply bind_ok in Eb0 as (cv & Ev & _). destruct (valids_return false w Hv cv Ev) as (bk' & Vb & Vq).
  destruct (content_xml w lc (write_fonts (wb_styles w) OContent ++ s4) cb ign (work0 c0) b2 bk' Ac Hsc H2 Hsh Hx (proj1 Hv) Vb Eb eq_refl) as (l' & ts & T & Mx & Rc).
  destruct (calc_all _ _ _ _ _ _ Hsh Fr T) as (l2 & Ecal & Bk).
  eexists. split.
  { match type of W with Ok ?x = Ok _ => assert (E : f = x) by congruence; clear W; subst f end. unfold read_ods_only. cbn [fl_content].
    match type of Ec with Ok ?x = Ok _ => assert (E : cc = x) by congruence; clear Ec; subst cc end.
    replace (scripts_calls w ++ write_fonts (wb_styles w) OContent ++ s4 ++ cb ++ [CEnd (lit "office:document-content")])
      with ((scripts_calls w ++ (write_fonts (wb_styles w) OContent ++ s4) ++ cb) ++ [CEnd (lit "office:document-content")]) by (rewrite <- !app_assoc; reflexivity).
    rewrite Rc. cbn [bind]. unfold calc_book. replace (wb_sheets (body_into bk' l' ts (put_styles b2 (put_version (wb_version w) (with_ns (lit "content.xml") lc (work0 c0)))))) with l' by reflexivity.
    rewrite Ecal. reflexivity. }
  split; [exact Bk|]. split; [reflexivity|]. split; [reflexivity|]. split; [reflexivity|]. split; [exact Vq|]. rewrite <- (norm_plain (written_extras w)). exact Mx.
Qed.

(** ** A flat file *)

(** The namespaces are those of meta.xml, and are read as those of fods.xml. There are line breaks between the elements, so
    they are in the trees that are kept, too. *)
Theorem C51_fods : forall w l text, work_ok true w -> ns_ok (ns_of (lit "meta.xml") w) ->
  Permutation l (put_all ns_fods (ns_of (lit "meta.xml") w)) -> write_fods w l = Ok text ->
  forall ign rep c0, Forall (few_repeats rep) (wb_sheets w) -> exists w', read_fods ign rep c0 text = Ok w'
  /\ Forall2 (sheet_back true ign rep (wb_defaults w)) (wb_sheets w) (wb_sheets w')
  /\ wb_version w' = wb_version w /\ ns_after ns_fods (ns_of (lit "meta.xml") w) (ns_of (lit "fods.xml") w')
  /\ wb_meta w' = meta_back (wb_meta w) /\ sound (wb_config w') /\ plain (wb_config w') = strip (plain (wb_config w)) /\ wb_scripts w' = ([], [])
  /\ flat_styles_after (wb_styles w) (wb_styles w')
  /\ (forall v, In v (all_valids w) -> style FValidation (nm_name v) (wb_valids w') = Some (Named (nm_name v) (no_messages (nm_body v))))
  /\ map norm (wb_extra w') = map (fun x => norm (broken true x)) (written_extras w)
  /\ (one_body text -> exists w2, read_fods_only ign rep c0 text = Ok w2 /\ wb_sheets w2 = wb_sheets w' /\ wb_extra w2 = wb_extra w').
Proof.
  intros w l text (Hm & Hs & Hc & Hsc & Hb & Hsm & Hv & Hsh & Hx) Hns P W ign rep c0 Fr. destruct ns_tables_ok as (Nf & _).
  pose proof (put_all_ok _ _ Nf Hns) as O. pose proof (perm_ok _ _ P O) as N.
  unfold write_fods in W. apply bind_ok in W as (u & _ & W). apply bind_ok in W as (cf & Ef & W).
  unfold fods_calls in Ef. apply bind_ok in Ef as (cse & Es & Ef). apply bind_ok in Ef as (cb & Eb & Ef). unfold fods_doc in Ef. cbv zeta in Ef.
  apply bind_ok in Ef as (s1 & E1 & Ef). apply bind_ok in Ef as (s2 & E2 & Ef). apply bind_ok in Ef as (s3 & E3 & Ef).
  destruct (styles_flat (wb_styles w) Hb Hsm s1 s2 s3 E1 E2 E3) as (b & H & Sa).
  pose proof Eb as Eb0. unfold write_body in Eb0. apply bind_ok in Eb0 as (cv & Ev & _). destruct (valids_return true w Hv cv Ev) as (bk' & Vb & Vq).
  destruct (fods_xml w l _ cb cse ign c0 b bk' N Hm Hs Hc Es Hsc H Hsh Hx (proj1 Hv) Vb Eb) as (l' & ts & c' & T & Mx & Sc' & Pc' & R).
  destruct (calc_all _ _ _ _ _ _ Hsh Fr T) as (l2 & Ecal & Bk).
  destruct (R text) as (R1 & R2).
  { match type of W with Ok ?x = Ok _ => assert (E : text = x) by congruence; clear W; subst text end. match type of Ef with Ok ?x = Ok _ => assert (E : cf = x) by congruence; clear Ef; subst cf end.
    do 4 f_equal. rewrite <- !app_assoc. reflexivity. }
  eexists. split. { unfold read_fods. rewrite R1. cbn [bind]. unfold calc_book. match goal with |- context [calc_sheets rep ?x] => change x with l' end. rewrite Ecal. reflexivity. }
  split; [exact Bk|]. split; [reflexivity|].
  split. { intros k. transitivity (am_get k (put_all l [])); [reflexivity|]. rewrite put_all_get by apply N. cbn [am_get]. rewrite (perm_get _ _ k P) by apply O. rewrite put_all_get by apply Nf.
    destruct (am_get k ns_fods); [reflexivity|]. now destruct (am_get k (ns_of (lit "meta.xml") w)). }
  split; [reflexivity|]. split; [exact Sc'|]. split; [exact Pc'|]. split; [reflexivity|]. split; [exact Sa|]. split; [exact Vq|]. split; [exact Mx|].
  intros One. eexists. split. { unfold read_fods_only. rewrite (R2 One). cbn [bind]. unfold calc_book. match goal with |- context [calc_sheets rep ?x] => change x with l' end. rewrite Ecal. reflexivity. }
  split; reflexivity.
Qed.

(** The scripts of a file, which no workbook that was written has: they are read as C38 has it, and what is behind them is what its reader goes on
    with. *)
Lemma scripts_same n : forall b evs t b' r', reading n (Some t_scripts) scripts_step b evs = Ok (t, b', r') -> (length evs <= n)%nat ->
  exists m, read_scripts n true evs b = read_scripts m (negb t) r' b' /\ (length r' <= m)%nat.
Proof.
  induction n as [|n IH]; intros b [|e evs] t b' r' H L; try (cbn [length] in L; lia); try (cbn in H; injection H as <- <- <-; exists O; split; [reflexivity|apply le_n]).
  - cbn [reading] in H. cbn [length] in L. destruct (match e with EEnd t0 => str_eqb t0 t_scripts | _ => false end) eqn:Q.
    + injection H as <- <- <-. destruct e; try discriminate. cbn [read_scripts]. rewrite Q. exists n. split; [reflexivity|lia].
    + apply bind_ok in H as ((b1 & r1) & E & H).
      assert (G : (length r1 <= length evs)%nat -> exists m, read_scripts n true r1 b1 = read_scripts m (negb t) r' b' /\ (length r' <= m)%nat) by (intros X; apply IH; [exact H|lia]).
      assert (F : forall k a, (if str_eqb k t_script then let* (x, r') := read_xml k a false evs in Ok ((fst b ++ [script_of x], snd b), r')
                    else if str_eqb k t_listener then let* l := listener_attrs a listener0 in Ok ((fst b, am_put (li_event l) l (snd b)), evs) else Ok (b, evs)) = Ok (b1, r1) ->
                  exists m, (if str_eqb k t_script then let* (x, r') := read_xml k a false evs in read_scripts n true r' (fst b ++ [script_of x], snd b)
                    else if str_eqb k t_listener then let* l := listener_attrs a listener0 in read_scripts n true evs (fst b, am_put (li_event l) l (snd b)) else read_scripts n true evs b)
                    = read_scripts m (negb t) r' b' /\ (length r' <= m)%nat).
      { clear E. intros k a E. destruct (str_eqb k t_script).
        - apply bind_ok in E as ((x & r2) & E2 & E). injection E as <- <-. rewrite E2. cbn [bind]. apply G. apply TermProofs.xml_sfx in E2 as (p & ->). rewrite app_length. lia.
        - destruct (str_eqb k t_listener).
          + apply bind_ok in E as (l & E2 & E). injection E as <- <-. rewrite E2. cbn [bind]. now apply G.
          + injection E as <- <-. now apply G. }
      destruct e as [k a|k a|k|k|k|k]; cbn [read_scripts scripts_step on_tag] in *; try (now apply F); injection E as <- <-; try (now apply G). rewrite Q. now apply G.
Qed.
Theorem C51_scripts b r t b' r' : reading (length r) (Some t_scripts) scripts_step b r = Ok (t, b', r') ->
  exists m, read_scripts (length r) true r b = read_scripts m (negb t) r' b' /\ (length r' <= m)%nat.
Proof. intros H. eapply scripts_same; [exact H|lia]. Qed.

(** ** Examples *)

Definition ex_extras : list xnode :=
  [XTag (lit "table:named-expressions") [(lit "x", lit "a<b")] [XTag (lit "table:named-range") [(lit "table:name", lit "n")] []; XText (lit "R&D")];
   XTag (lit "table:calculation-settings") [(lit "table:case-sensitive", lit "false")] []; XTag (lit "table:shapes") [] []].
Definition ex_user : meta := Meta (lit "spreadsheet-ods 1.0") (lit "A<B & ""C""") [] (lit "s'") [] (lit "me") [] [] (Some (DateTime 2024 2 29 13 5 9 0)) None None
    (lit "de") 4294967295 3725250000000 template0 reload0 links0 stats0 [(lit "k 1", MBool true); ([], MString (lit "text"))].
Definition the {A} (d : A) (r : res A) : A := match r with Ok x => x | _ => d end.
Definition ex_config : citem := the config0 ViewModel.default_settings.
Definition ex_work (sh : list sheet) (vs : list validation) : workbook :=
  Work (lit "1.3") [(lit "content.xml", [(lit "xmlns:my", lit "http://example.org/a&b")])] ex_user ex_config ([], []) no_styles StyleProps.ex_book
    (Book [] (fun f => match f with FValidation => map (fun v => (nm_name v, v)) vs | _ => [] end)) sh ex_extras.
Definition ex_files (w : workbook) : res files :=
  write_ods w (put_all ns_meta (ns_of (lit "meta.xml") w)) (put_all ns_settings (ns_of (lit "settings.xml") w)) (put_all ns_styles (ns_of (lit "styles.xml") w)) (put_all ns_content (ns_of (lit "content.xml") w)).
Lemma ex_config_ok : sound ex_config /\ settings_ok (plain ex_config).
Proof.
  split. { destruct (ViewProps.C36_new []) as (c & E & S & _). unfold ex_config. rewrite E. exact S. }
  vm_compute. eexists. split; [reflexivity|]. split; [|repeat constructor; eexists; reflexivity]. repeat split; try discriminate. constructor.
Qed.
Lemma raw_ok (t : str) : forallb (fun c => negb (existsb (N.eqb c) [c_amp; c_lt])) t = true -> raw_text_ok t.
Proof.
  intros H. rewrite forallb_forall in H. apply Forall_forall. intros c Hc N. apply H in Hc. apply negb_true_iff in Hc. rewrite <- not_true_iff_false in Hc. apply Hc. apply existsb_exists. exists c. split; [assumption|apply N.eqb_refl].
Qed.
Lemma raw_v_ok (t : str) : forallb (fun c => negb (existsb (N.eqb c) [c_quot; c_amp; c_lt])) t = true -> raw_value_ok t.
Proof.
  intros H. rewrite forallb_forall in H. apply Forall_forall. intros c Hc N. apply H in Hc. apply negb_true_iff in Hc. rewrite <- not_true_iff_false in Hc. apply Hc. apply existsb_exists. exists c. split; [assumption|apply N.eqb_refl].
Qed.
Lemma ex_work_ok : work_ok false (ex_work [ex_sheet] [ex_valid SortAscending; plain_valid (lit "b")]).
Proof.
  split.
  { cbn [ex_work wb_meta]. unfold ex_user, meta_ok. cbn [m_generator m_created m_date m_print m_cycles m_duration m_user opt_date_ok].
    split; [apply raw_ok; vm_compute; reflexivity|]. split; [split; [apply datetime_ok_valid; vm_compute; reflexivity|cbn; lia]|]. split; [exact I|]. split; [exact I|]. split; [vm_compute; discriminate|]. split; [right; lia|].
    split; [vm_compute; repeat split; try discriminate; right; discriminate|].
    apply Forall_cons; [|apply Forall_cons; [|constructor]]; (split; [apply raw_v_ok; vm_compute; reflexivity|exact I]). }
  split; [apply ex_config_ok|]. split; [apply ex_config_ok|]. split; [reflexivity|]. split; [apply StyleProps.C45_ex_ok|]. split; [apply StyleProps.C45_ex_ok|].
  split.
  { change (all_valids (ex_work [ex_sheet] [ex_valid SortAscending; plain_valid (lit "b")])) with [ex_valid SortAscending; plain_valid (lit "b")].
    split; [|split; [|split; [|vm_compute; discriminate]]].
    - assert (A : valid_ok (ex_valid SortAscending)).
      { split; [vm_compute; repeat split; discriminate|]. split; [split; [intros n E; cbn [nm_body vb_base ex_valid cr_table] in E; injection E as <-; right; split; [discriminate|repeat constructor; vm_compute; intuition discriminate]|split; vm_compute; reflexivity]|]. split; [discriminate|]. cbn [nm_body ex_valid vb_err vb_help]. split; intros m E.
        - assert (X : m = Msg true MWarning (Some (lit "Oh & no")) (Some (XTag (lit "text:p") [] [XText (lit "not <that>")]))) by congruence. subst m. unfold text_ok. cbn [m_text].
          split; [exact I|]. split; [split; [right; vm_compute; discriminate|split; exact I]|]. split; [name_lit|]. split; [constructor|split; exact I].
        - assert (X : m = Msg false tt None None) by congruence. subst m. exact I. }
      assert (B : valid_ok (plain_valid (lit "b"))).
      { split; [vm_compute; repeat split; discriminate|]. split; [split; [intros n E; discriminate|split; vm_compute; reflexivity]|]. split; [discriminate|]. cbn [nm_body plain_valid vb_err vb_help]. split; intros m E; discriminate. }
      constructor; [exact A|]. constructor; [exact B|constructor].
    - constructor; [discriminate|]. constructor; [discriminate|constructor].
    - apply distinct_nodup. vm_compute. reflexivity. }
  split. { constructor; [|constructor]. split; [exact ex_ok|]. split; [exact ex_header_rows|]. split; [exact ex_col_groups|constructor]. }
  apply Forall_cons; [|apply Forall_cons; [|apply Forall_cons; [|constructor]]].
  - split; [|constructor; [split; [left; reflexivity|exact I]|constructor; [exact I|constructor]]].
    split; [name_lit|]. split; [constructor; [name_lit|constructor]|]. split; [|split; exact I]. split; [name_lit|]. split; [constructor; [name_lit|constructor]|exact I].
  - split; [|constructor]. split; [name_lit|]. split; [constructor; [name_lit|constructor]|exact I].
  - split; [|constructor]. split; [name_lit|]. split; [constructor|exact I].
Qed.

Lemma ex_ns_ok sh vs : forall file, In file [lit "meta.xml"; lit "settings.xml"; lit "styles.xml"; lit "content.xml"] -> ns_ok (ns_of file (ex_work sh vs)).
Proof. intros file I. cbn [In] in I. repeat (destruct I as [<-|I]; [apply ns_table; vm_compute; reflexivity|]). contradiction. Qed.
Definition ex_full : workbook := ex_work [ex_sheet] [ex_valid SortAscending; plain_valid (lit "b")].
Definition again (ign rep : bool) (w : workbook) : res workbook := let* f := ex_files w in read_ods ign rep config0 f.
(** The theorem and its instance: everything is there again. *)
Example C51_ex : work_ok false ex_full /\ (let* w' := again false true ex_full in
    Ok (map tb_name (wb_sheets w'), map tb_cells (wb_sheets w'), wb_meta w', wb_version w', am_get (lit "xmlns:my") (ns_of (lit "content.xml") w'), map tag_name (wb_extra w'),
        map fst (bk_styles (wb_valids w') FValidation), ci_get_value [lit "ooo:view-settings"; lit "Views"; lit "0"; lit "ZoomValue"] (wb_config w')))
  = Ok ([lit "S<1>"], [TableProps.ex_cells], ex_user, lit "1.3", Some (lit "http://example.org/a&b"), [lit "table:calculation-settings"; lit "table:named-expressions"],
        [lit "val1"; lit "b"; lit "val0"; lit "v<1>"], Some (VInt 100)).
Proof. split; [exact ex_work_ok|]. vm_compute. reflexivity. Qed.
Definition ex_flat (w : workbook) : res str := write_fods w (put_all ns_fods (ns_of (lit "meta.xml") w)).
Definition flat_again (ign rep : bool) (w : workbook) : res workbook := let* t := ex_flat w in read_fods ign rep config0 t.
Example C51_fods_ex : (let* t := ex_flat ex_full in let* w' := read_fods false true config0 t in let* w2 := read_fods_only false true config0 t in
    Ok (map tb_cells (wb_sheets w'), map tb_cells (wb_sheets w2), wb_meta w', wb_meta w2, map fst (wb_ns w'), map tag_name (wb_extra w'), map fst (bk_styles (wb_valids w') FValidation)))
  = Ok ([TableProps.ex_cells], [TableProps.ex_cells], ex_user, meta0, [lit "fods.xml"], [lit "table:calculation-settings"; lit "table:named-expressions"], [lit "val1"; lit "b"; lit "val0"; lit "v<1>"]).
Proof. vm_compute. reflexivity. Qed.

(** Scripts and listeners of a file that another program wrote, with a sheet behind them. *)
Example C51_scripts_ex : (let* w := read_fods false true config0 (lit "<office:document><office:scripts><office:script script:language='b'>x</office:script><office:event-listeners>"
      ++ lit "<script:event-listener script:event-name='dom:load' xlink:href='h'/></office:event-listeners></office:scripts><office:body><office:spreadsheet><table:table table:name='S'></table:table></office:spreadsheet></office:body></office:document>") in
    Ok (wb_scripts w, map tb_name (wb_sheets w)))
  = Ok (([Script (lit "b") [XText (lit "x")]], [(lit "dom:load", Listener (lit "dom:load") [] [] OnLoad (lit "h") XSimple)]), [lit "S"]).
Proof. vm_compute. reflexivity. Qed.

(** ** What is wrong *)

(** A script makes the file unreadable (C38). *)
Theorem C51_script_refuted : exists w, fst (wb_scripts w) <> [] /\ work_ok false (put_scripts ([], []) w) /\ (exists f, ex_files w = Ok f) /\ forall ign rep, again ign rep w = Err.
Proof.
  exists (put_scripts ([Script (lit "ooo:Basic") [XText (lit "Sub Main")]], []) ex_full). split; [discriminate|]. split; [exact ex_work_ok|]. split; [eexists; vm_compute; reflexivity|]. intros [] []; vm_compute; reflexivity.
Qed.
(** An element at the top of the body that the writer does not know is lost. *)
Theorem C51_unknown_refuted : exists w, work_ok false w /\ In (XTag (lit "table:shapes") [] []) (wb_extra w)
  /\ (let* w' := again false true w in Ok (map tag_name (wb_extra w'))) = Ok [lit "table:calculation-settings"; lit "table:named-expressions"].
Proof. exists ex_full. split; [exact ex_work_ok|]. split; [right; right; left; reflexivity|]. vm_compute. reflexivity. Qed.
(** A workbook without sheets cannot be written. *)
Theorem C51_no_sheets : forall w lm lse lst lc l, wb_sheets w = [] -> write_ods w lm lse lst lc = Err /\ write_fods w l = Err.
Proof. intros w lm lse lst lc l E. unfold write_ods, write_fods, writable_book. rewrite E. split; reflexivity. Qed.
(** The namespaces of a flat file are read as those of fods.xml but written from those of meta.xml: what the file declares is lost when it is
    written again, and the elements that are kept use prefixes without a declaration. *)
Theorem C51_fods_ns_refuted : exists w, wb_sheets w <> [] /\ (let* w1 := flat_again false true w in let* w2 := flat_again false true w1 in
    Ok (am_get (lit "xmlns:my") (ns_of (lit "fods.xml") w1), am_get (lit "xmlns:my") (ns_of (lit "fods.xml") w2), wb_extra w2))
  = Ok (Some (lit "urn:my"), None, [XTag (lit "table:database-ranges") [(lit "my:a", lit "1")] []]).
Proof.
  exists (put_extra [XTag (lit "table:database-ranges") [(lit "my:a", lit "1")] []] (put_ns [(lit "meta.xml", [(lit "xmlns:my", lit "urn:my")])] (ex_work [ex_sheet] []))).
  split; [discriminate|]. vm_compute. reflexivity.
Qed.

Print Assumptions C51_ods.
Print Assumptions C51_ods_only.
Print Assumptions C51_fods.
Print Assumptions C51_scripts.
Print Assumptions C51_script_refuted.
Print Assumptions C51_unknown_refuted.
Print Assumptions C51_no_sheets.
Print Assumptions C51_fods_ns_refuted.

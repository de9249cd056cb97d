(** C82: the order of hash maps changes nothing that is read. *)
From Coq Require Import Permutation.
From Verif Require Import Base Lib BookModel XmlModel XmlSpec HeaderModel TableModel TableSpec CloneModel StyleModel StyleSpec StyleDocProofs ValidModel ValidProofs MetaModel MetaProofs ConfigModel ConfigSpec ConfigIo.
From Verif Require Import WorkModel WorkSpec WorkProofs WorkProps FitSpec FitWork HashSpec.

(** ** The conditions do not depend on the order *)

Lemma perm_in {A} (l m : list A) x : Permutation l m -> In x l <-> In x m.
Proof. intros P. split; apply Permutation_in; [exact P|now apply Permutation_sym]. Qed.
Lemma perm_nodup {A} (l m : list (str * A)) : Permutation l m -> NoDup (map fst l) -> NoDup (map fst m).
Proof. intros P. apply Permutation_NoDup. now apply Permutation_map. Qed.
Lemma reordered_sym w1 w2 : reordered w1 w2 -> reordered w2 w1.
Proof. intros []. constructor; auto using Permutation_sym. Qed.
Lemma reordered_entry w1 w2 f s : reordered w1 w2 -> entry (wb_styles w1) f s <-> entry (wb_styles w2) f s.
Proof. intros R. unfold entry. apply perm_in, Permutation_map, (ro_styles _ _ R). Qed.
Lemma reordered_book lb w1 w2 : reordered w1 w2 -> book_ok lb (wb_styles w1) -> book_ok lb (wb_styles w2).
Proof.
  intros R (A & B & C & D). split; [|split; [|split]].
  - intros f N. exact (perm_nodup _ _ (ro_styles _ _ R f) (A f N)).
  - intros f k s N I. apply (B f k s N). now apply (perm_in _ _ _ (ro_styles _ _ R f)).
  - exact (perm_nodup _ _ (ro_fonts _ _ R) C).
  - intros k ft I. apply (D k ft). now apply (perm_in _ _ _ (ro_fonts _ _ R)).
Qed.
Lemma perm_flat {A B} (f g : A -> list B) l : (forall x, Permutation (f x) (g x)) -> Permutation (flat_map f l) (flat_map g l).
Proof. intros H. induction l; cbn [flat_map]; [constructor|]. now apply Permutation_app. Qed.
Lemma perm_forall {A} (P : A -> Prop) l m : Permutation l m -> Forall P l -> Forall P m.
Proof. intros Q F. rewrite Forall_forall in *. intros x I. apply F. now apply (perm_in _ _ _ Q). Qed.
Lemma reordered_ok lb w1 w2 : reordered w1 w2 -> work_ok lb w1 -> work_ok lb w2.
Proof.
  intros R (Hm & Hs & Hc & Hsc & Hb & Hsm & (V1 & V2 & V3 & V4) & Hsh & Hx).
  assert (Pv : Permutation (all_valids w1) (all_valids w2)) by (unfold all_valids; apply Permutation_map, (ro_valids _ _ R)).
  split; [rewrite <- (ro_meta _ _ R); exact Hm|]. split; [rewrite <- (ro_config _ _ R); exact Hs|]. split; [rewrite <- (ro_config _ _ R); exact Hc|].
  split; [rewrite <- (ro_scripts _ _ R); exact Hsc|]. split; [exact (reordered_book lb _ _ R Hb)|].
  split; [unfold small in *; rewrite <- (Permutation_length (perm_flat (fun f => bk_styles (sk_book (wb_styles w1)) f) (fun f => bk_styles (sk_book (wb_styles w2)) f) kinds (ro_styles _ _ R))); exact Hsm|].
  split; [|split; [rewrite <- (ro_sheets _ _ R); exact Hsh|rewrite <- (ro_extra _ _ R); exact Hx]].
  split; [exact (perm_forall _ _ _ Pv V1)|]. split; [exact (perm_forall _ _ _ Pv V2)|].
  split; [exact (Permutation_NoDup (Permutation_map nm_name Pv) V3)|]. rewrite <- (Permutation_length Pv). exact V4.
Qed.
Lemma reordered_ns w1 w2 file : reordered w1 w2 -> ns_ok (ns_of file w1) -> ns_ok (ns_of file w2).
Proof. intros R. apply perm_ok, Permutation_sym, (ro_ns _ _ R). Qed.
Lemma ns_alike w1 w2 file added m1 m2 : reordered w1 w2 -> ns_ok (ns_of file w1) -> ns_after added (ns_of file w1) m1 -> ns_after added (ns_of file w2) m2 ->
  forall k, am_get k m1 = am_get k m2.
Proof.
  intros R O A B k. rewrite A, B. destruct (am_get k added); [reflexivity|]. apply perm_get; [exact (ro_ns _ _ R file)|exact (proj1 (reordered_ns _ _ _ R O))].
Qed.

(** ** What is read *)

Lemma hf_unique h h1 h2 : hf_same h h1 -> hf_same h h2 -> hf_alike h1 h2.
Proof.
  unfold hf_same. match goal with |- context[if ?c then _ else _] => destruct c end; [intros -> ->; repeat split|]. intros (A1 & A2 & A3 & A4 & A5) (B1 & B2 & B3 & B4 & B5). repeat split; congruence.
Qed.
Lemma body_unique f o u x y1 y2 : same_as f o u x y1 -> same_as f o u x y2 -> body_alike y1 y2.
Proof.
  destruct x as [o' u' b|o' u' b|b|b]; cbn [same_as]; try (intros -> ->; reflexivity).
  intros (b1 & -> & A1 & A2 & A3 & A4) (b2 & -> & B1 & B2 & B3 & B4). cbn [body_alike]. split; [congruence|]. split; [congruence|]. split; [congruence|].
  intros s. exact (hf_unique _ _ _ (A4 s) (B4 s)).
Qed.
Lemma alike_sym o1 o2 : found_alike o1 o2 -> found_alike o2 o1.
Proof.
  destruct o1 as [s1|], o2 as [s2|]; cbn; auto. intros (A & B). split; [now symmetry|]. destruct (nm_body s1), (nm_body s2); cbn in *; auto; try contradiction; try (now symmetry).
  destruct B as (B1 & B2 & B3 & B4). repeat (split; [now symmetry|]). intros s. destruct (B4 s) as (C1 & C2 & C3 & C4 & C5). repeat split; now symmetry.
Qed.
(** What is found in the one is found in the other. *)
Lemma found_there W og b1 b2 b1' b2' f k s' : (forall s, entry b1 f s <-> entry b2 f s) -> survives W og b1 b1' -> survives W og b2 b2' -> In f kinds ->
  (no_defaults f b1 \/ ~ numbered f k) -> found b1' f k = Some s' -> found_alike (Some s') (found b2' f k).
Proof.
  intros E (_ & _ & A3) (B1 & _ & _) I N H. destruct (A3 f k s' H) as (s & _ & En & Ws & Nm & Sm & D).
  assert (F : is_default (nm_body s) = false). { destruct N as [N|N]; [exact (N s En)|]. destruct (is_default (nm_body s)); [contradiction|reflexivity]. }
  rewrite F in D. destruct (B1 f s I (proj1 (E s) En) Ws F) as (y & G & Sy). rewrite D in G. rewrite G. cbn [found_alike nm_name nm_body]. split; [exact Nm|].
  exact (body_unique _ _ _ _ _ _ Sm Sy).
Qed.
Lemma survives_alike W og w1 w2 b1' b2' : reordered w1 w2 -> survives W og (wb_styles w1) b1' -> survives W og (wb_styles w2) b2' -> styles_alike (wb_styles w1) b1' b2'.
Proof.
  intros R S1 S2 f k I N. assert (E : forall s, entry (wb_styles w1) f s <-> entry (wb_styles w2) f s) by (intros s; now apply reordered_entry).
  destruct (found b1' f k) as [s1|] eqn:F1; [exact (found_there _ _ _ _ _ _ _ _ _ E S1 S2 I N F1)|].
  destruct (found b2' f k) as [s2|] eqn:F2; [|exact Logic.I]. assert (N' : no_defaults f (wb_styles w2) \/ ~ numbered f k).
  { destruct N as [N|N]; [left|right; exact N]. intros s En. apply N. now apply E. }
  pose proof (found_there _ _ _ _ _ _ _ _ _ (fun s => iff_sym (E s)) S2 S1 I N' F2) as X. rewrite F1 in X. exact X.
Qed.
Lemma fonts_package w1 w2 b1' b2' : reordered w1 w2 -> book_ok false (wb_styles w1) -> styles_after (wb_styles w1) b1' -> styles_after (wb_styles w2) b2' ->
  fonts_alike (one_font (wb_styles w1)) b1' b2'.
Proof.
  intros R O (_ & A & A') (_ & B & B') k. pose proof (reordered_book _ _ _ R O) as O2.
  assert (X : forall ft, In (k, ft) (sk_fonts (wb_styles w1)) -> exists o1 o2, am_get k (sk_fonts b1') = Some (Font k o1 (ft_attr ft)) /\ am_get k (sk_fonts b2') = Some (Font k o2 (ft_attr ft))
    /\ (o1 = OStyles <-> first_font (wb_styles w1) ft) /\ (o2 = OStyles <-> first_font (wb_styles w2) ft)).
  { intros ft I. destruct (A k ft I) as (o1 & G1 & C1). destruct (B k ft) as (o2 & G2 & C2); [now apply (perm_in _ _ _ (ro_fonts _ _ R))|]. eauto 8. }
  destruct (am_get k (sk_fonts b1')) as [x|] eqn:E1.
  - destruct (A' k x E1) as (ft & I). destruct (X ft I) as (o1 & o2 & G1 & G2 & C1 & C2). rewrite G2. injection G1 as ->. cbn [ft_name ft_attr ft_origin]. split; [reflexivity|]. split; [reflexivity|]. intros One.
    assert (Z : forall b, (exists p q, Permutation p q /\ p = sk_fonts (wb_styles w1) /\ q = sk_fonts b) -> first_font b ft <-> ft_origin ft = OStyles).
    { intros b (p & q & P & -> & ->). rewrite first_font_hd. unfold fonts_of. assert (Ib : In ft (map snd (sk_fonts b))) by (apply in_map_iff; exists (k, ft); split; [reflexivity|now apply (perm_in _ _ _ P)]).
      split.
      - intros (r & H). assert (J : In ft (filter (fun x => origin_eqb (ft_origin x) OStyles) (map snd (sk_fonts b)))) by (rewrite H; left; reflexivity).
        apply filter_In in J as (_ & J). destruct (ft_origin ft); [discriminate|reflexivity].
      - intros Fo. assert (J : In ft (filter (fun x => origin_eqb (ft_origin x) OStyles) (map snd (sk_fonts b)))) by (apply filter_In; rewrite Fo; split; [exact Ib|reflexivity]).
        destruct (filter _ _) as [|y r] eqn:H; [destruct J|]. exists r. f_equal.
        assert (Jy : In y (filter (fun x => origin_eqb (ft_origin x) OStyles) (map snd (sk_fonts b)))) by (rewrite H; left; reflexivity).
        apply filter_In in Jy as (Jy & Oy). apply in_map_iff in Jy as ((k2 & y') & Ey & Jy). cbn in Ey. subst y'. apply (perm_in _ _ _ (Permutation_sym P)) in Jy.
        assert (k = k2). { apply (One k ft k2 y); auto. destruct (ft_origin y); [discriminate|reflexivity]. } subst k2.
        destruct O as (_ & _ & Nd & _). pose proof (in_am_get _ _ _ Nd I) as U1. pose proof (in_am_get _ _ _ Nd Jy) as U2. congruence. }
    rewrite (Z (wb_styles w1)) in C1 by (exists (sk_fonts (wb_styles w1)), (sk_fonts (wb_styles w1)); auto).
    rewrite (Z (wb_styles w2)) in C2 by (exists (sk_fonts (wb_styles w1)), (sk_fonts (wb_styles w2)); repeat split; exact (ro_fonts _ _ R)).
    destruct o1, o2; try reflexivity; exfalso.
    + assert (OContent = OStyles) by (apply C1; now apply C2). discriminate.
    + assert (OContent = OStyles) by (apply C2; now apply C1). discriminate.
  - destruct (am_get k (sk_fonts b2')) as [y|] eqn:E2; [|exact Logic.I]. destruct (B' k y E2) as (ft & I). apply (perm_in _ _ _ (Permutation_sym (ro_fonts _ _ R))) in I.
    destruct (X ft I) as (o1 & o2 & G1 & _). discriminate.
Qed.
Lemma fonts_flat w1 w2 b1' b2' : reordered w1 w2 -> flat_styles_after (wb_styles w1) b1' -> flat_styles_after (wb_styles w2) b2' -> fonts_alike True b1' b2'.
Proof.
  intros R (_ & A & A') (_ & B & B') k.
  assert (X : forall ft, In (k, ft) (sk_fonts (wb_styles w1)) -> am_get k (sk_fonts b1') = am_get k (sk_fonts b2')).
  { intros ft I. rewrite (A k ft I), (B k ft); [reflexivity|]. now apply (perm_in _ _ _ (ro_fonts _ _ R)). }
  destruct (am_get k (sk_fonts b1')) as [x|] eqn:E1.
  - destruct (A' k x E1) as (ft & I). pose proof (X ft I) as Y. rewrite <- Y. auto.
  - destruct (am_get k (sk_fonts b2')) as [y|] eqn:E2; [|exact Logic.I]. destruct (B' k y E2) as (ft & I). apply (perm_in _ _ _ (Permutation_sym (ro_fonts _ _ R))) in I.
    pose proof (X ft I). congruence.
Qed.
Lemma back_alike lb ign rep ds l l1 l2 : Forall2 (sheet_back lb ign rep ds) l l1 -> Forall2 (sheet_back lb ign rep ds) l l2 -> Forall2 sheets_alike l1 l2.
Proof.
  intros A. revert l2. induction A as [|s s1 l l1 (A1 & A2) _ IH]; intros l2 B; inversion B as [|? s2 ? r2 (B1 & B2) B3]; subst; constructor; [|now apply IH].
  split; [rewrite A1 in B1; congruence|congruence].
Qed.
Lemma extras_reordered w1 w2 : reordered w1 w2 -> written_extras w1 = written_extras w2.
Proof. intros R. unfold written_extras. now rewrite (ro_extra _ _ R), (ro_sheets _ _ R). Qed.
Lemma valids_alike w1 w2 v1 v2 : reordered w1 w2 ->
  (forall v, In v (all_valids w1) -> style FValidation (nm_name v) v1 = Some (Named (nm_name v) (no_messages (nm_body v)))) ->
  (forall v, In v (all_valids w2) -> style FValidation (nm_name v) v2 = Some (Named (nm_name v) (no_messages (nm_body v)))) ->
  forall v, In v (all_valids w1) -> exists v', style FValidation (nm_name v) v1 = Some v' /\ style FValidation (nm_name v) v2 = Some v'.
Proof.
  intros R A B v I. exists (Named (nm_name v) (no_messages (nm_body v))). split; [now apply A|]. apply B. unfold all_valids in *.
  now apply (perm_in _ _ _ (Permutation_map snd (ro_valids _ _ R FValidation))).
Qed.

(** ** Writing *)

(** Written in the one order means written in the other. *)
Lemma body_reordered w1 w2 c : reordered w1 w2 -> Forall valid_ok (all_valids w2) -> write_body w1 = Ok c -> exists c', write_body w2 = Ok c'.
Proof.
  intros R V H. unfold write_body in *. fold (all_valids w2). destruct (valids_total _ V) as (v & ->). apply bind_ok in H as (v0 & _ & H). apply bind_ok in H as (s & E & _).
  rewrite <- (ro_defaults _ _ R), <- (ro_sheets _ _ R). cbn [bind]. rewrite E. cbn [bind]. eauto.
Qed.
Lemma ods_reordered w1 w2 lm lse lst lc f lm2 lse2 lst2 lc2 : reordered w1 w2 -> work_ok false w1 -> write_ods w1 lm lse lst lc = Ok f -> exists f', write_ods w2 lm2 lse2 lst2 lc2 = Ok f'.
Proof.
  intros R O H. pose proof (reordered_ok _ _ _ R O) as (_ & Hs & Hc & _ & Hb & _ & Hv & _). pose proof (book_total _ _ Hb) as B. unfold write_ods, writable_book in *. rewrite (ro_sheets _ _ R) in H.
  destruct (wb_sheets w2) as [|s0 l0]; [discriminate|]. cbn [bind] in *. apply bind_ok in H as (se & _ & H). apply bind_ok in H as (st & _ & H). apply bind_ok in H as (c & Ec & _).
  unfold content_calls in Ec. apply bind_ok in Ec as (cb & Eb & _). destruct (body_reordered _ _ _ R (proj1 Hv) Eb) as (cb' & Eb').
  unfold settings_calls. destruct (ods_settings_total (root_attrs w2 lse2) _ Hs Hc) as (a & ->). cbn [bind].
  unfold styles_calls, styles_doc. destruct (office_total _ OStyles B) as (b1 & ->). destruct (automatic_total _ OStyles B) as (b2 & ->). destruct (masters_total _ B) as (b3 & ->). cbn [bind].
  unfold content_calls, content_doc. rewrite Eb'. destruct (automatic_total _ OContent B) as (b4 & ->). cbn [bind]. eauto.
Qed.
Lemma fods_reordered w1 w2 l1 l2 t : reordered w1 w2 -> work_ok true w1 -> write_fods w1 l1 = Ok t -> exists t', write_fods w2 l2 = Ok t'.
Proof.
  intros R O H. pose proof (reordered_ok _ _ _ R O) as (_ & Hs & Hc & _ & Hb & _ & Hv & _). pose proof (convert_total _ _ Hb) as B. unfold write_fods, writable_book in *. rewrite (ro_sheets _ _ R) in H.
  destruct (wb_sheets w2) as [|s0 l0]; [discriminate|]. cbn [bind] in *. apply bind_ok in H as (c & Ec & _). unfold fods_calls in Ec. apply bind_ok in Ec as (s & _ & Ec). apply bind_ok in Ec as (cb & Eb & _).
  destruct (body_reordered _ _ _ R (proj1 Hv) Eb) as (cb' & Eb'). unfold fods_calls. destruct (settings_total _ Hs Hc) as (a & ->). cbn [bind]. rewrite Eb'. cbn [bind]. unfold fods_doc. cbv zeta.
  destruct (office_total _ OContent B) as (b1 & ->). destruct (automatic_total _ OContent B) as (b2 & ->). destruct (masters_total _ B) as (b3 & ->). cbn [bind]. eauto.
Qed.

(** ** The property *)

Definition package_files : list str := [lit "meta.xml"; lit "settings.xml"; lit "styles.xml"; lit "content.xml"].
(** A package is written of a workbook in one run of a program; then it is written in another run, too, where the hash maps are in another order, and
    what is read of the one and of the other is the same. *)
Theorem C82_ods : forall w1 w2 lm1 lse1 lst1 lc1 lm2 lse2 lst2 lc2 f1, reordered w1 w2 -> work_ok false w1 ->
  (forall file, In file package_files -> ns_ok (ns_of file w1)) ->
  Permutation lm1 (put_all ns_meta (ns_of (lit "meta.xml") w1)) -> Permutation lse1 (put_all ns_settings (ns_of (lit "settings.xml") w1)) ->
  Permutation lst1 (put_all ns_styles (ns_of (lit "styles.xml") w1)) -> Permutation lc1 (put_all ns_content (ns_of (lit "content.xml") w1)) ->
  Permutation lm2 (put_all ns_meta (ns_of (lit "meta.xml") w2)) -> Permutation lse2 (put_all ns_settings (ns_of (lit "settings.xml") w2)) ->
  Permutation lst2 (put_all ns_styles (ns_of (lit "styles.xml") w2)) -> Permutation lc2 (put_all ns_content (ns_of (lit "content.xml") w2)) ->
  write_ods w1 lm1 lse1 lst1 lc1 = Ok f1 ->
  exists f2, write_ods w2 lm2 lse2 lst2 lc2 = Ok f2
  /\ forall ign rep c0, Forall (few_repeats rep) (wb_sheets w1) ->
     exists w1' w2', read_ods ign rep c0 f1 = Ok w1' /\ read_ods ign rep c0 f2 = Ok w2' /\ read_alike package_files w1 w1' w2'.
Proof.
  intros w1 w2 lm1 lse1 lst1 lc1 lm2 lse2 lst2 lc2 f1 R O N P1 P2 P3 P4 Q1 Q2 Q3 Q4 W1.
  destruct (ods_reordered _ _ _ _ _ _ _ lm2 lse2 lst2 lc2 R O W1) as (f2 & W2). exists f2. split; [exact W2|]. intros ign rep c0 Fr.
  pose proof (reordered_ok _ _ _ R O) as O2. assert (N2 : forall file, In file package_files -> ns_ok (ns_of file w2)) by (intros file I; exact (reordered_ns _ _ _ R (N file I))).
  destruct (C51_ods w1 lm1 lse1 lst1 lc1 f1 O N P1 P2 P3 P4 W1 ign rep c0 Fr) as (w1' & R1 & A1 & A2 & A3 & A4 & A5 & A6 & A7 & _ & A8 & A9 & A10 & A11 & A12).
  rewrite (ro_sheets _ _ R) in Fr.
  destruct (C51_ods w2 lm2 lse2 lst2 lc2 f2 O2 N2 Q1 Q2 Q3 Q4 W2 ign rep c0 Fr) as (w2' & R2 & B1 & B2 & B3 & B4 & B5 & B6 & B7 & _ & B8 & B9 & B10 & B11 & B12).
  exists w1', w2'. split; [exact R1|]. split; [exact R2|]. constructor.
  - rewrite A2, B2. apply R.
  - rewrite A7, B7. now rewrite (ro_meta _ _ R).
  - rewrite A8, B8. now rewrite (ro_config _ _ R).
  - congruence.
  - exact (survives_alike _ _ _ _ _ _ R (proj1 A10) (proj1 B10)).
  - apply (fonts_package _ _ _ _ R); auto. apply O.
  - exact (valids_alike _ _ _ _ R A11 B11).
  - rewrite <- (ro_sheets _ _ R), <- (ro_defaults _ _ R) in B1. exact (back_alike _ _ _ _ _ _ _ A1 B1).
  - rewrite A12, B12. now rewrite (extras_reordered _ _ R).
  - intros file k I. unfold package_files in I. cbn [In] in I.
    destruct I as [<-|[<-|[<-|[<-|[]]]]]; [apply (ns_alike w1 w2 (lit "meta.xml") ns_meta)|apply (ns_alike w1 w2 (lit "settings.xml") ns_settings)
      |apply (ns_alike w1 w2 (lit "styles.xml") ns_styles)|apply (ns_alike w1 w2 (lit "content.xml") ns_content)]; auto; apply N; cbn; tauto.
Qed.
(** The same for a flat file, where the fonts, too, do not depend on the order. *)
Theorem C82_fods : forall w1 w2 l1 l2 t1, reordered w1 w2 -> work_ok true w1 -> ns_ok (ns_of (lit "meta.xml") w1) ->
  Permutation l1 (put_all ns_fods (ns_of (lit "meta.xml") w1)) -> Permutation l2 (put_all ns_fods (ns_of (lit "meta.xml") w2)) -> write_fods w1 l1 = Ok t1 ->
  exists t2, write_fods w2 l2 = Ok t2
  /\ forall ign rep c0, Forall (few_repeats rep) (wb_sheets w1) ->
     exists w1' w2', read_fods ign rep c0 t1 = Ok w1' /\ read_fods ign rep c0 t2 = Ok w2' /\ read_alike [lit "fods.xml"] w1 w1' w2' /\ fonts_alike True (wb_styles w1') (wb_styles w2').
Proof.
  intros w1 w2 l1 l2 t1 R O N P Q W1. destruct (fods_reordered _ _ _ l2 _ R O W1) as (t2 & W2). exists t2. split; [exact W2|]. intros ign rep c0 Fr.
  destruct (C51_fods w1 l1 t1 O N P W1 ign rep c0 Fr) as (w1' & R1 & A1 & A2 & A3 & A7 & _ & A8 & A9 & A10 & A11 & A12 & _).
  rewrite (ro_sheets _ _ R) in Fr.
  destruct (C51_fods w2 l2 t2 (reordered_ok _ _ _ R O) (reordered_ns _ _ _ R N) Q W2 ign rep c0 Fr) as (w2' & R2 & B1 & B2 & B3 & B7 & _ & B8 & B9 & B10 & B11 & B12 & _).
  pose proof (fonts_flat _ _ _ _ R A10 B10) as Ff. exists w1', w2'. split; [exact R1|]. split; [exact R2|]. split; [|exact Ff]. constructor.
  - rewrite A2, B2. apply R.
  - rewrite A7, B7. now rewrite (ro_meta _ _ R).
  - rewrite A8, B8. now rewrite (ro_config _ _ R).
  - congruence.
  - exact (survives_alike _ _ _ _ _ _ R (proj1 A10) (proj1 B10)).
  - intros k. specialize (Ff k). destruct (am_get k (sk_fonts (wb_styles w1'))), (am_get k (sk_fonts (wb_styles w2'))); auto. destruct Ff as (X & Y & Z). repeat split; auto.
  - exact (valids_alike _ _ _ _ R A11 B11).
  - rewrite <- (ro_sheets _ _ R), <- (ro_defaults _ _ R) in B1. exact (back_alike _ _ _ _ _ _ _ A1 B1).
  - rewrite A12, B12. now rewrite (extras_reordered _ _ R).
  - intros file k [<-|[]]. exact (ns_alike w1 w2 (lit "meta.xml") ns_fods _ _ R N A3 B3 k).
Qed.

(** ** Examples *)

(** Every hash map the other way round. *)
Definition flip_book {A} (b : book A) : book A := Book (bk_auto b) (fun f => rev (bk_styles b f)).
Definition flip (w : workbook) : workbook :=
  Work (wb_version w) (map (fun kv => (fst kv, rev (snd kv))) (wb_ns w)) (wb_meta w) (wb_config w) (fst (wb_scripts w), rev (snd (wb_scripts w))) (wb_defaults w)
    (SBook (rev (sk_fonts (wb_styles w))) (flip_book (sk_book (wb_styles w)))) (flip_book (wb_valids w)) (wb_sheets w) (wb_extra w).
Lemma get_flip file (m : amap (amap str)) : am_get file (map (fun kv => (fst kv, rev (snd kv))) m) = match am_get file m with Some x => Some (rev x) | None => None end.
Proof. induction m as [|(k & x) m IH]; [reflexivity|]. cbn [map am_get fst snd]. destruct (str_eqb k file); [reflexivity|exact IH]. Qed.
Lemma flip_reordered w : reordered w (flip w).
Proof.
  constructor; try reflexivity; try (intros; apply Permutation_rev).
  intros file. unfold ns_of, flip. cbn [wb_ns]. rewrite get_flip. destruct (am_get file (wb_ns w)); [apply Permutation_rev|constructor].
Qed.
Definition ex_facts (w : workbook) :=
  (map tb_cells (wb_sheets w), map (fun k => found (wb_styles w) FCell k) [lit "Heading"; lit "x1"; lit "Default"], map (fun k => found (wb_styles w) FmtNumber k) [lit "N1"; lit "N2"; lit "N3"],
   map (fun k => am_get k (sk_fonts (wb_styles w))) [lit "Arial"; lit "Sans"; lit "x"], map (fun k => style FValidation k (wb_valids w)) [lit "b"; lit "v<1>"],
   am_get (lit "xmlns:my") (ns_of (lit "content.xml") w), map tag_name (wb_extra w)).
(** Two runs of a program: content.xml is not the same text, what is read is. *)
Example C82_ex : reordered ex_full (flip ex_full) /\ work_ok false ex_full /\ one_font (wb_styles ex_full)
  /\ (let* f := ex_files ex_full in let* g := ex_files (flip ex_full) in Ok (str_eqb (fl_content f) (fl_content g))) = Ok false
  /\ (let* w := again false true ex_full in Ok (ex_facts w)) = (let* w := again false true (flip ex_full) in Ok (ex_facts w))
  /\ (let* w := again false true (flip ex_full) in Ok (found (wb_styles w) FCell (lit "Heading"), am_get (lit "xmlns:my") (ns_of (lit "content.xml") w)))
     = Ok (Some (Named (lit "Heading") (BStyle OStyles UNamed (style_read FCell StyleProps.plain_style))), Some (lit "http://example.org/a&b")).
Proof.
  split; [apply flip_reordered|]. split; [exact ex_work_ok|]. split.
  { intros k1 x1 k2 x2 I1 I2. change (sk_fonts (wb_styles ex_full)) with StyleProps.ex_fonts in *. unfold StyleProps.ex_fonts in *. cbn [In] in *.
    destruct I1 as [I1|[I1|[]]], I2 as [I2|[I2|[]]]; injection I1 as <- <-; injection I2 as <- <-; cbn [ft_origin]; intros; try reflexivity; discriminate. }
  split; [vm_compute; reflexivity|]. split; vm_compute; reflexivity.
Qed.

(** ** What depends on the order *)

(** The files themselves: the same workbook is not always the same file. *)
Theorem C82_text_refuted : exists w1 w2, reordered w1 w2 /\ work_ok false w1
  /\ (let* f := ex_files w1 in let* g := ex_files w2 in Ok (str_eqb (fl_content f) (fl_content g))) = Ok false.
Proof. exists ex_full, (flip ex_full). split; [apply flip_reordered|]. split; [exact ex_work_ok|]. vm_compute. reflexivity. Qed.
Lemma with_styles w st : work_ok false w -> book_ok false st -> small st -> work_ok false (put_styles st w).
Proof.
  destruct w. intros (H1 & H2 & H3 & H4 & _ & _ & H7 & H8 & H9) B S. exact (conj H1 (conj H2 (conj H3 (conj H4 (conj B (conj S (conj H7 (conj H8 H9)))))))).
Qed.
(** Of two fonts with the origin styles the one keeps it in one run, the other in another run. *)
Theorem C82_fonts_refuted : exists w1 w2, reordered w1 w2 /\ work_ok false w1
  /\ (let* w := again false true w1 in Ok (map (fun k => am_get k (sk_fonts (wb_styles w))) [lit "Arial"; lit "Sans"]))
     = Ok [Some (Font (lit "Arial") OStyles []); Some (Font (lit "Sans") OContent [])]
  /\ (let* w := again false true w2 in Ok (map (fun k => am_get k (sk_fonts (wb_styles w))) [lit "Arial"; lit "Sans"]))
     = Ok [Some (Font (lit "Arial") OContent []); Some (Font (lit "Sans") OStyles [])].
Proof.
  exists (put_styles StyleProps.two_fonts ex_full), (flip (put_styles StyleProps.two_fonts ex_full)). split; [apply flip_reordered|]. split.
  { apply with_styles; [exact ex_work_ok| |vm_compute; reflexivity]. split; [intros f _; constructor|]. split; [intros f k s _ []|]. split; [apply distinct_nodup; vm_compute; reflexivity|].
    intros k ft I. unfold StyleProps.two_fonts in I. cbn [sk_fonts In] in I. destruct I as [I|[I|[]]]; injection I as <- <-; cbn [ft_name ft_attr]; (split; [reflexivity|]; split; [constructor|intros []]). }
  split; vm_compute; reflexivity.
Qed.
(** Two default styles of a family, which only one of them should be, get their names by the order. *)
Definition no_props : sbody := SBody [] [] [] [] None None.
Definition two_defaults : stylebook := SBook [] (Book [] (fun f => match f with FCell =>
  [(lit "a", Named (lit "a") (BStyle OStyles UDefault StyleProps.plain_style)); (lit "b", Named (lit "b") (BStyle OStyles UDefault no_props))] | _ => [] end)).
Theorem C82_default_refuted : exists w1 w2, reordered w1 w2 /\ work_ok false w1
  /\ (let* w := again false true w1 in Ok (found (wb_styles w) FCell (lit "ce0"))) = Ok (Some (Named (lit "ce0") (BStyle OStyles UDefault (style_read FCell StyleProps.plain_style))))
  /\ (let* w := again false true w2 in Ok (found (wb_styles w) FCell (lit "ce0"))) = Ok (Some (Named (lit "ce0") (BStyle OStyles UDefault (style_read FCell no_props)))).
Proof.
  exists (put_styles two_defaults ex_full), (flip (put_styles two_defaults ex_full)). split; [apply flip_reordered|]. split.
  { apply with_styles; [exact ex_work_ok| |vm_compute; reflexivity]. split; [intros f _; apply distinct_nodup; destruct f; reflexivity|].
    split; [|split; [constructor|intros k ft []]].
    intros f k s _ I. destruct f; unfold two_defaults in I; cbn [sk_book bk_styles In] in I; try contradiction. destruct I as [I|[I|[]]]; injection I as <- <-; (split; [discriminate|]; split; [reflexivity|]); cbn [nm_body body_ok].
    - apply StyleProps.plain_ok; [cbn; tauto|reflexivity].
    - split; [cbn; tauto|]. cbn [sb_attr sb_main sb_para sb_text sb_tabs sb_maps no_props]. split; [constructor|]. split; [constructor|]. split; [constructor|]. split; [constructor|]. split; [intros ts E; discriminate|]. split; [intros ts E; discriminate|]. repeat split. }
  split; vm_compute; reflexivity.
Qed.

Print Assumptions C82_ods.
Print Assumptions C82_fods.
Print Assumptions C82_text_refuted.
Print Assumptions C82_fonts_refuted.
Print Assumptions C82_default_refuted.

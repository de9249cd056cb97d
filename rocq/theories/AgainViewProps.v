(** C83, the views: the settings a save has written are written again. *)
From Verif Require Import Base Lib BookModel CellModel NumModel EnumModel XmlModel XmlSpec ConfigModel ConfigSpec ConfigProofs ConfigProps ViewModel ViewProofs ViewProps.

(** Everything that is put into the settings, with its path. *)
Definition code_name : str := lit "CodeName".
Definition sheet_written (s : str * sheetcfg) : list (list str * cvalue) :=
  map (fun nv => (path (p_table (fst s)) ++ [fst nv], snd nv)) (sheet_values (snd s)) ++ [(path (p_script (fst s)) ++ [code_name], VString (fst s))].
Definition written (b : bookcfg) (sheets : list (str * sheetcfg)) : list (list str * cvalue) :=
  map (fun nv => (path p_view ++ [fst nv], snd nv)) (book_values b) ++ flat_map sheet_written sheets.

Lemma book_assoc b nv : In nv (book_values b) -> assoc (fst nv) (rev (book_values b)) = Some (snd nv).
Proof. intros I. cbn [book_values In] in I. repeat (destruct I as [<-|I]; [reflexivity|]). contradiction. Qed.
Lemma sheet_assoc s nv : In nv (sheet_values s) -> assoc (fst nv) (rev (sheet_values s)) = Some (snd nv).
Proof. intros I. cbn [sheet_values In] in I. repeat (destruct I as [<-|I]; [reflexivity|]). contradiction. Qed.
Lemma leaf_below p t v x r : leaf_at p t = Some v -> leaf_at (p ++ x :: r) t = None.
Proof.
  revert t. induction p as [|a p IH]; intros [w|k l]; unfold leaf_at; cbn [app look]; intros H; try discriminate H; try reflexivity.
  destruct (assoc a l) as [t|]; [exact (IH t H)|discriminate H].
Qed.
Lemma prefix_dec (p q : list str) : {prefix_of p q} + {~ prefix_of p q}.
Proof.
  revert q. induction p as [|a p IH]; intros q; [left; exists q; reflexivity|]. destruct q as [|b q]; [right; intros (r & E); discriminate E|].
  destruct (list_eq_dec N.eq_dec a b) as [->|D]; [|right; intros (r & E); injection E as E _; congruence].
  destruct (IH q) as [H|H]; [left; destruct H as (r & ->); exists r; reflexivity|right; intros (r & E); injection E as E; apply H; exists r; exact E].
Qed.
Lemma script_table a b n : a <> b -> ~ prefix_of (path (p_script a) ++ [n]) (path (p_script b) ++ [code_name]).
Proof. intros D. unfold prefix_of, p_script. cbn [path map fst app]. intros (r & E). injection E as E. congruence. Qed.
Lemma table_script a n q : ~ prefix_of (path (p_table a) ++ [n]) (lit "ooo:configuration-settings" :: q).
Proof. unfold prefix_of, p_table, p_view. cbn [path map fst app]. intros (x & E). injection E as E _. vm_compute in E. discriminate. Qed.

(** The name of a sheet among the scripts. *)
Lemma sheets_code names l : forall c c', sound c -> ready names (plain c) -> (forall s, In s l -> In (fst s) names) ->
  Forall (fun s => Forall (fun nv => value_ok (snd nv)) (sheet_values (snd s))) l -> calc_sheets l c = Ok c' ->
  forall a, In a (map fst l) -> leaf_at (path (p_script a) ++ [code_name]) (plain c') = Some (VString a).
Proof.
  induction l as [|[a s] l IH]; intros c c' S R In_l V E b Ib; [destruct Ib|].
  inversion V as [|? ? V1 V2]; subst. cbn [snd] in V1. assert (Ia : In a names) by (apply (In_l (a, s)); now left).
  assert (Fa : fits (p_table a) (plain c)). { destruct R as (_ & _ & H). rewrite Forall_forall in H. apply (H a Ia). }
  destruct (path_edit _ _ (p_table a) (insert_all_acts (sheet_values s)) c S Fa) as (c1 & E1 & S1 & P1).
  assert (R1 : ready names (plain c1)). { rewrite P1. now apply table_ready. }
  assert (Fs : fits (p_script a) (plain c1)). { destruct R1 as (_ & _ & H). rewrite Forall_forall in H. apply (H a Ia). }
  destruct (path_edit _ _ (p_script a) (insert_all_acts [(lit "CodeName", VString a)]) c1 S1 Fs) as (c2 & E2 & S2 & P2).
  assert (R2 : ready names (plain c2)). { rewrite P2. now apply script_ready. }
  cbn [calc_sheets] in E. rewrite E1 in E. cbn [bind] in E. rewrite E2 in E. cbn [bind] in E.
  assert (In_r : forall s0, In s0 l -> In (fst s0) names) by (intros x Ix; apply In_l; now right).
  destruct (in_dec (list_eq_dec N.eq_dec) b (map fst l)) as [I|I]; [exact (IH c2 c' S2 R2 In_r V2 E b I)|].
  destruct Ib as [<-|Ib]; [|contradiction]. cbn [fst] in *. destruct (sheets_done names l c2 S2 R2 In_r V2) as (c3 & E3 & _ & _ & U & _).
  assert (c3 = c') as -> by congruence. rewrite U.
  - rewrite P2. apply edit_value; [exact Fs|reflexivity].
  - intros d Id. split; [intros n _; apply table_script|]. apply script_table. intros ->. exact (I Id).
Qed.

Lemma calc_more b sheets c : sound c -> ready (map fst sheets) (plain c) -> NoDup (map fst sheets) -> Forall (fun s => cfg_ok (snd s)) sheets -> (bc_active b <> [] \/ sheets <> []) ->
  exists c', calc_config b sheets c = Ok (shown b sheets, c') /\ sound c' /\ ready (map fst sheets) (plain c')
  /\ (forall q, (forall p v, In (p, v) (written (shown b sheets) sheets) -> ~ prefix_of p q) -> leaf_at q (plain c') = leaf_at q (plain c))
  /\ (forall p v, In (p, v) (written (shown b sheets) sheets) -> leaf_at p (plain c') = Some v).
Proof.
  intros S R D O H. unfold calc_config.
  assert (E : match bc_active b, sheets with [], [] => Panic | [], (name, _) :: _ => Ok (BookCfg name (bc_grid b) (bc_breaks b) (bc_tabs b)) | _, _ => Ok b end = Ok (shown b sheets)).
  { unfold shown. destruct (bc_active b) eqn:A, sheets as [|[nm sc] r]; try reflexivity. destruct H; congruence. }
  rewrite E. clear E. cbn [bind]. set (b1 := shown b sheets).
  destruct (path_edit _ _ p_view (insert_all_acts (book_values b1)) c S (proj1 (proj2 R))) as (c1 & E1 & S1 & P1). rewrite E1. cbn [bind].
  assert (R1 : ready (map fst sheets) (plain c1)). { rewrite P1. apply view_ready; [exact R|exact I]. }
  assert (In_s : forall s, In s sheets -> In (fst s) (map fst sheets)) by (intros s Is; now apply in_map).
  assert (V : Forall (fun s => Forall (fun nv => value_ok (snd nv)) (sheet_values (snd s))) sheets). { rewrite Forall_forall in *. intros s Is. now apply sheet_values_ok, O. }
  destruct (sheets_done (map fst sheets) sheets c1 S1 R1 In_s V) as (c' & E & S' & R' & U & W).
  pose proof (sheets_code (map fst sheets) sheets c1 c' S1 R1 In_s V E) as K.
  exists c'. rewrite E. cbn [bind]. split; [reflexivity|]. split; [exact S'|]. split; [exact R'|]. split.
  - intros q Hq. rewrite U.
    + rewrite P1. apply edit_other; [apply R|]. intros n In_n. apply in_map_iff in In_n as (nv & <- & In_n). apply (Hq _ (snd nv)). unfold written. apply in_or_app. left.
      apply in_map_iff. exists nv. split; [reflexivity|exact In_n].
    + intros a Ia. apply in_map_iff in Ia as ([a' s] & <- & Is). cbn [fst]. split.
      * intros n In_n. change sheet_names with (map fst (sheet_values s)) in In_n. apply in_map_iff in In_n as (nv & <- & In_n). apply (Hq _ (snd nv)). unfold written. apply in_or_app. right.
        apply in_flat_map. exists (a', s). split; [exact Is|]. unfold sheet_written. apply in_or_app. left. cbn [fst snd]. apply in_map_iff. exists nv. split; [reflexivity|exact In_n].
      * apply (Hq _ (VString a')). unfold written. apply in_or_app. right. apply in_flat_map. exists (a', s). split; [exact Is|]. apply in_or_app. right. left. reflexivity.
  - intros p v I. unfold written in I. apply in_app_or in I as [I|I].
    + apply in_map_iff in I as (nv & I & In_n). pose proof (f_equal fst I) as Ep; pose proof (f_equal snd I) as Ev; cbn [fst snd] in Ep, Ev; subst p v; clear I. rewrite (U _ (view_untouched _ _)), P1. apply edit_value; [apply R|exact (book_assoc b1 nv In_n)].
    + apply in_flat_map in I as ([a s] & Is & I). unfold sheet_written in I. cbn [fst snd] in I. apply in_app_or in I as [I|I].
      * apply in_map_iff in I as (nv & I & In_n). pose proof (f_equal fst I) as Ep; pose proof (f_equal snd I) as Ev; cbn [fst snd] in Ep, Ev; subst p v; clear I. exact (W D a s _ _ Is (sheet_assoc s nv In_n)).
      * destruct I as [I|[]]. pose proof (f_equal fst I) as Ep; pose proof (f_equal snd I) as Ev; cbn [fst snd] in Ep, Ev; subst p v; clear I. apply K. exact (in_map fst _ _ Is).
Qed.

Lemma shown_twice b sheets : shown (shown b sheets) sheets = shown b sheets.
Proof. destruct b as [[|x t] g k v], sheets as [|[[|y n] d] r]; reflexivity. Qed.
Lemma shown_some b sheets : bc_active b <> [] \/ sheets <> [] -> bc_active (shown b sheets) <> [] \/ sheets <> [].
Proof. intros [N|N]; [|right; exact N]. left. destruct b as [[|x t] g k v]; [contradiction|]. discriminate. Qed.

(** The second pass leaves every value of the settings and the options of the workbook as they are. *)
Theorem C83_views : forall b sheets c b1 c1, sound c -> ready (map fst sheets) (plain c) -> NoDup (map fst sheets) -> Forall (fun s => cfg_ok (snd s)) sheets ->
  calc_config b sheets c = Ok (b1, c1) ->
  exists c2, calc_config b1 sheets c1 = Ok (b1, c2) /\ forall q, ci_get_value q c2 = ci_get_value q c1.
Proof.
  intros b sheets c b1 c1 S R D O H.
  assert (N : bc_active b <> [] \/ sheets <> []). { unfold calc_config in H. destruct (bc_active b); [|left; discriminate]. destruct sheets; [discriminate H|right; discriminate]. }
  destruct (calc_more b sheets c S R D O N) as (c1' & E & S1 & R1 & _ & W1). rewrite E in H. injection H as <- <-. set (b1 := shown b sheets) in *.
  pose proof (shown_twice b sheets) as Z. fold b1 in Z. pose proof (shown_some b sheets N) as N1. fold b1 in N1.
  destruct (calc_more b1 sheets c1' S1 R1 D O N1) as (c2 & E2 & S2 & _ & U2 & W2). rewrite Z in *. exists c2. split; [exact E2|]. intros q. rewrite !value_leaf by assumption.
  destruct (Exists_dec (fun pv => prefix_of (fst pv) q) (written b1 sheets) (fun pv => prefix_dec (fst pv) q)) as [X|X].
  - apply Exists_exists in X as ([p v] & I & (r & P)). cbn [fst] in P. subst q. destruct r as [|x r]; [rewrite app_nil_r, (W1 p v I), (W2 p v I); reflexivity|].
    rewrite (leaf_below _ _ _ x r (W1 p v I)), (leaf_below _ _ _ x r (W2 p v I)). reflexivity.
  - apply U2. intros p v I P. apply X. apply Exists_exists. exists (p, v). split; [exact I|exact P].
Qed.
Definition two_sheets : list (str * sheetcfg) := [(lit "a", ex_cfg); (lit "b", sheetcfg0)].
Definition seen (c : citem) : list (option cvalue) :=
  map (fun q => ci_get_value q c) [path p_view ++ [lit "ActiveTable"]; path (p_table (lit "a")) ++ [lit "ZoomValue"]; path (p_script (lit "b")) ++ [code_name]; path p_view ++ [lit "ViewId"]].
Example C83_views_ex :
  (let* c := default_settings in let* (b1, c1) := calc_config bookcfg0 two_sheets c in let* (b2, c2) := calc_config b1 two_sheets c1 in Ok (bc_active b1, seen c1, bc_active b2, seen c2))
  = (let l := [Some (VString (lit "a")); Some (VInt 250); Some (VString (lit "b")); Some (VString (lit "view1"))] in Ok (lit "a", l, lit "a", l)).
Proof. vm_compute. reflexivity. Qed.

Print Assumptions C83_views.

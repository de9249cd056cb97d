(** C37: document metadata. *)
From Verif Require Import Base Lib CellModel NumModel NumSpec EnumModel XmlModel XmlSpec XmlProofs CellIoSpec CellIoProofs MetaModel MetaProofs.

(** What is read from what was written: the fields with a text are the same, whatever characters they have, and so are the user defined
    values except for strings. Missing: everything else, see below. *)
Theorem C37_survives_partial ns m : Forall (fun kv => name_ok (fst kv)) ns -> meta_ok m -> forall lb,
  exists evs, read_events (render lb (write_ods_meta ns m)) = Ok evs /\ read_meta evs = Ok (meta_back m).
Proof. intros N H lb. exists (events_of lb (write_ods_meta ns m)). now apply meta_read. Qed.

(** Metadata that survive as they are. *)
Lemma pieces_plain s : no_specials s -> pieces s = [s].
Proof.
  induction 1 as [|c s C _ IH]; [reflexivity|]. cbn [pieces]. rewrite IH. destruct (char_cases c) as [n E _ S|E _ _]; [contradiction|]. now rewrite E.
Qed.
Lemma last_plain s : no_specials s -> last_piece s = s.
Proof. intros H. unfold last_piece. rewrite pieces_plain by exact H. now destruct s. Qed.
Definition user_plain (u : str * mvalue) : Prop := match snd u with MString s => last_piece s = s | _ => True end.
Theorem C37_exact m : meta_back m = m <-> m_template m = template0 /\ m_reload m = reload0 /\ m_links m = links0 /\ m_stats m = stats0 /\ Forall user_plain (m_user m).
Proof.
  destruct m as [ge ti de su ke ini cr pr cd da pd la cy du te re li st us]. unfold meta_back.
  cbn [m_generator m_title m_description m_subject m_keyword m_initial m_creator m_printed m_created m_date m_print m_language m_cycles m_duration m_template m_reload m_links m_stats m_user].
  assert (U : map (fun u : str * mvalue => (fst u, value_back (snd u))) us = us <-> Forall user_plain us).
  { clear. induction us as [|[n v] us IH]; [split; constructor|]. cbn [map fst snd]. split.
    - intros E. injection E as Ev El. constructor; [|now apply IH]. unfold user_plain. cbn [snd]. destruct v; try exact I. cbn [value_back] in Ev. now injection Ev.
    - intros F. inversion F as [|x l Fv Fl]; subst. f_equal; [|now apply IH]. f_equal. unfold user_plain in Fv. cbn [snd] in Fv. destruct v; try reflexivity. cbn. now rewrite Fv. }
  split.
  - intros E. inversion E as [[E1 E2 E3 E4 E5]]. rewrite E5. repeat split; try reflexivity. now apply U.
  - intros (-> & -> & -> & -> & F). apply U in F. now rewrite F.
Qed.
(** In particular strings without the five special characters. *)
Theorem C37_plain_string n s : no_specials s -> user_plain (n, MString s).
Proof. apply last_plain. Qed.

(** ** The counts *)

Fixpoint total (l : list N) : N := match l with [] => 0 | n :: r => n + total r end.
Lemma sum32_total l : forall acc, acc <= u32_max -> sum32 acc l = if acc + total l <=? u32_max then Ok (acc + total l) else Panic.
Proof.
  induction l as [|n l IH]; intros acc H; cbn [sum32 total]; [rewrite N.add_0_r; now replace (acc <=? u32_max) with true by (symmetry; now apply N.leb_le)|].
  unfold add32. destruct (N.leb_spec (acc + n) u32_max) as [L|L]; cbn [bind].
  - rewrite IH by exact L. now rewrite N.add_assoc.
  - replace (acc + (n + total l) <=? u32_max) with false; [reflexivity|]. symmetry. apply N.leb_gt. lia.
Qed.
(** Writing sets the generator, the number of sheets and the number of cells; the rest is the same. *)
Theorem C37_counts version cells m : Forall (fun n => n <= u32_max) cells -> N.of_nat (length cells) <= u32_max ->
  (total cells <= u32_max -> exists m', calc_metadata version cells m = Ok m'
    /\ m_generator m' = lit "spreadsheet-ods " ++ version /\ ms_tables (m_stats m') = N.of_nat (length cells) /\ ms_cells (m_stats m') = total cells
    /\ m_user m' = m_user m /\ (forall f, f <> FGenerator -> field_calls m' f = field_calls m f)
    /\ m_template m' = m_template m /\ m_reload m' = m_reload m /\ m_links m' = m_links m)
  /\ (u32_max < total cells -> calc_metadata version cells m = Panic).
Proof.
  intros B L. assert (M : map as_u32 cells = cells).
  { clear L. induction B as [|n l H _ IH]; [reflexivity|]. cbn [map]. rewrite IH. f_equal. unfold as_u32. apply N.mod_small. unfold u32_max in H. lia. }
  unfold calc_metadata. rewrite M, sum32_total by discriminate. rewrite N.add_0_l. destruct (N.leb_spec (total cells) u32_max) as [T|T]; split; intros T'; try lia; [|reflexivity].
  cbn [bind]. eexists. split; [reflexivity|]. cbn [m_generator m_stats ms_tables ms_cells m_user m_template m_reload m_links].
  repeat split; [unfold as_u32; apply N.mod_small; unfold u32_max in L; lia|]. intros f F. destruct f; try reflexivity. contradiction.
Qed.

(** ** What does not survive *)

Definition back (m : meta) : res meta := let* evs := read_events (render false (write_ods_meta [] m)) in read_meta evs.
Theorem C37_elements_refuted :
  (exists t, meta_ok (set_template t meta0) /\ t <> template0 /\ back (set_template t meta0) = Ok meta0)
  /\ (exists t, meta_ok (set_reload t meta0) /\ t <> reload0 /\ back (set_reload t meta0) = Ok meta0)
  /\ (exists t, meta_ok (set_links t meta0) /\ t <> links0 /\ back (set_links t meta0) = Ok meta0)
  /\ (exists t, meta_ok (set_stats t meta0) /\ t <> stats0 /\ back (set_stats t meta0) = Ok meta0).
Proof.
  assert (O : forall m, m_generator m = [] -> m_created m = None -> m_date m = None -> m_print m = None -> m_cycles m = 0 -> m_duration m = 0%Z -> m_user m = [] -> meta_ok m).
  { intros m E1 E2 E3 E4 E5 E6 E7. unfold meta_ok, opt_date_ok. rewrite E1, E2, E3, E4, E5, E6, E7. unfold raw_text_ok, duration_exact, duration_range. change (0 mod 1000000)%Z with 0%Z.
    change (0 / 1000000 mod 1000)%Z with 0%Z. repeat split; try lia; try constructor; discriminate. }
  split; [|split; [|split]].
  - exists (MTemplate None None (Some (lit "t.ott")) None None). split; [apply O; reflexivity|]. split; [discriminate|]. vm_compute. reflexivity.
  - exists (MReload (Some 60000000000%Z) None None None None). split; [apply O; reflexivity|]. split; [discriminate|]. vm_compute. reflexivity.
  - exists (MLinks (Some (lit "_blank")) None). split; [apply O; reflexivity|]. split; [discriminate|]. vm_compute. reflexivity.
  - exists (MStats 7 0 0 2). split; [apply O; reflexivity|]. split; [discriminate|]. vm_compute. reflexivity.
Qed.
(** A user defined string is cut to its last piece between special characters. *)
Theorem C37_user_string_refuted : exists m m', meta_ok m /\ back m = Ok m' /\ m_user m = [(lit "k", MString (lit "R&D dept"))] /\ m_user m' = [(lit "k", MString (lit "D dept"))].
Proof.
  exists (add_user (lit "k", MString (lit "R&D dept")) meta0). eexists. split; [|split; [vm_compute; reflexivity|split; reflexivity]].
  unfold meta_ok, opt_date_ok, meta0. cbn [add_user m_generator m_created m_date m_print m_cycles m_duration m_user app]. unfold raw_text_ok, duration_exact, duration_range.
  change (0 mod 1000000)%Z with 0%Z. change (0 / 1000000 mod 1000)%Z with 0%Z.
  repeat split; try lia; try constructor; try constructor; try exact I; try discriminate. cbn [fst]. chk.
Qed.
(** The name of a user defined value is not escaped: a quote or an ampersand makes another document of it, or none. *)
Theorem C37_user_name_refuted :
  back (add_user (lit "R&D", MString (lit "x")) meta0) = Err
  /\ back (add_user (lit "a"" meta:value-type=""boolean", MString (lit "true")) meta0) = Ok (add_user (lit "a", MBool true) meta0)
  /\ back (add_user (lit "a""b", MString (lit "x")) meta0) = Err.
Proof. split; [|split]; vm_compute; reflexivity. Qed.
(** Nor is the generator, though [calc_metadata] overwrites it. *)
Theorem C37_generator_refuted : exists g, back (Meta g [] [] [] [] [] [] [] None None None [] 0 0 template0 reload0 links0 stats0 []) <> Ok (Meta g [] [] [] [] [] [] [] None None None [] 0 0 template0 reload0 links0 stats0 []).
Proof. exists (lit "<b>"). vm_compute. discriminate. Qed.
(** An editing duration of less than a second is lost, and one of milliseconds becomes another. *)
Theorem C37_duration_refuted :
  let m d := Meta [] [] [] [] [] [] [] [] None None None [] 0 d template0 reload0 links0 stats0 [] in
  back (m 500000000%Z) = Ok (m 0%Z) /\ back (m 1005000000%Z) = Ok (m 1500000000%Z).
Proof. split; vm_compute; reflexivity. Qed.
(** Texts in a file with which the reader panics: a duration too long to represent. *)
Theorem C37_panic_refuted : exists cs evs, read_events (render false cs) = Ok evs /\ read_meta evs = Panic.
Proof.
  exists [CElem t_meta; CElemText (field_tag FDuration) (lit "P106751991167DT24H"); CEnd t_meta]. eexists. split; [vm_compute; reflexivity|]. vm_compute. reflexivity.
Qed.

Example C37_ex :
  let m := Meta (lit "spreadsheet-ods 1.0") (lit "A<B & ""C""") [] (lit "s'") [] (lit "me") [] [] (Some (DateTime 2024 2 29 13 5 9 0)) None (Some (DateTime 1999 12 31 0 0 0 0))
    (lit "de") 4294967295 3725250000000 template0 reload0 links0 stats0
    [(lit "k 1", MBool true); (lit "k>2", MFloat (lit "-1.5")); ([], MString (lit "text")); (lit "d", MDate (DateTime 2020 1 1 0 0 0 0)); (lit "t", MTime 1000000000)] in
  back m = Ok m /\ meta_back m = m.
Proof. split; vm_compute; reflexivity. Qed.

Print Assumptions C37_survives_partial.
Print Assumptions C37_exact.
Print Assumptions C37_plain_string.
Print Assumptions C37_counts.
Print Assumptions C37_elements_refuted.
Print Assumptions C37_user_string_refuted.
Print Assumptions C37_user_name_refuted.
Print Assumptions C37_generator_refuted.
Print Assumptions C37_duration_refuted.
Print Assumptions C37_panic_refuted.

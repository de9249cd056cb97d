(** C44: the package lists what it contains, and files of the user survive. *)
From Verif Require Import Base Lib XmlModel XmlSpec XmlProofs BookModel BookProps PkgModel PkgSpec PkgProofs.

(** What is added to the manifest before writing. *)
Theorem C44_completed : forall v m, keyed m -> keyed (create_manifest v m)
  /\ (forall path e, am_get path m = Some e -> am_get path (create_manifest v m) = Some e)
  /\ (forall path, In path (map fst (create_manifest v m)) <-> In path (map fst m) \/ In path standard_parts \/ path = lit "manifest.rdf")
  /\ create_manifest v (create_manifest v m) = create_manifest v m.
Proof.
  intros v m K. split; [now apply create_keyed|].
  rewrite !create_fold. split; [intros path e; apply missing_keeps|]. split.
  - intros path. rewrite <- !am_has_spec, missing_all, orb_true_iff. apply or_iff_compat_l. cbn [defaults existsb en_path plain_entry rdf_entry standard_parts In].
    rewrite !orb_true_iff, !str_eqb_eq. unfold p_root, p_rdf, p_styles, p_meta, p_content, p_settings. split; intros H; decompose [or] H; try discriminate; try contradiction; auto 10.
  - apply missing_same. intros e I. rewrite missing_all, orb_true_iff. right. apply existsb_exists. exists e. split; [exact I|apply str_eqb_refl].
Qed.

(** A package is written unless the user has an entry for one of the parts that are not listed. *)
Theorem C44_writes : forall v p m, keyed m ->
  ((exists r, write_ods v p m = Ok r) <-> forall path, In path (map fst m) -> ~ In path frame_parts).
Proof.
  intros v p m K. destruct (C44_completed v m K) as (K' & _ & I & _). rewrite write_ods_eq. cbv zeta. set (c := create_manifest v m) in *. split.
  - intros ((z & c') & H) path J F. apply bind_ok in H as (z' & H & _). assert (J' : In path (map fst c)) by (apply I; now left).
    apply (keyed_in c path K') in J'. apply in_map_iff in J' as (e & E & J'). apply (write_extra_only _ _ _ H e J').
    + apply own_no. rewrite E. cbn [frame_parts standard_parts In] in F |- *. intros X. destruct F as [<-|[<-|[<-|[]]]]; decompose [or] X; try contradiction; discriminate.
    + rewrite E. apply frame_zip_in. now left.
  - intros H. rewrite write_extra_ok; [cbn [bind]; eauto|rewrite keyed_paths by exact K'; apply K'|].
    intros e J O. rewrite frame_zip_in. intros [F|(S & _)]; [|apply own_no in O; contradiction].
    assert (J' : In (en_path e) (map fst c)) by (apply keyed_in; [exact K'|now apply in_map]). apply I in J' as [J'|[J'|J']].
    + now apply (H _ J').
    + apply own_no in O. contradiction.
    + rewrite J' in F. cbn [frame_parts In] in F. decompose [or] F; try contradiction; discriminate.
Qed.

Lemma written v p m z c : keyed m -> write_ods v p m = Ok (z, c) -> c = create_manifest v m /\ keyed c
  /\ (forall e, In e (map snd c) -> ~ In (en_path e) frame_parts)
  /\ z = frame_zip (render false (manifest_calls v c)) p ++ extra_parts (map snd c).
Proof.
  intros K H. pose proof (proj1 (C44_writes v p m K) (ex_intro _ _ H)) as F. destruct (C44_completed v m K) as (K' & _ & I & _).
  rewrite write_ods_eq in H. cbv zeta in H. apply bind_ok in H as (z' & H & E). injection E as <- <-. set (c := create_manifest v m) in *.
  split; [reflexivity|]. split; [exact K'|].
  assert (N : forall e, In e (map snd c) -> ~ In (en_path e) frame_parts).
  { intros e J X. assert (J' : In (en_path e) (map fst c)) by (apply keyed_in; [exact K'|now apply in_map]). apply I in J' as [J'|[J'|J']].
    - now apply (F _ J').
    - cbn [frame_parts standard_parts In] in X, J'. destruct X as [X|[X|[X|[]]]]; rewrite <- X in J'; decompose [or] J'; try contradiction; discriminate.
    - rewrite J' in X. cbn [frame_parts In] in X. decompose [or] X; try contradiction; discriminate. }
  split; [exact N|]. rewrite write_extra_ok in H; [now injection H as <-|rewrite keyed_paths by exact K'; apply K'|].
  intros e J O. rewrite frame_zip_in. intros [X|(X & _)]; [now apply (N e J)|apply own_no in O; contradiction].
Qed.
Lemma extra_names l : map fst (extra_parts l) = map en_path (filter (fun e => negb (is_own (en_path e))) l).
Proof. unfold extra_parts. rewrite map_map. reflexivity. Qed.
Lemma extra_in l path : In path (map fst (extra_parts l)) <-> In path (map en_path l) /\ ~ In path standard_parts.
Proof.
  rewrite extra_names, !in_map_iff. split.
  - intros (e & <- & I). apply filter_In in I as (I & O). split; [eauto|]. apply own_no. now apply negb_true_iff.
  - intros ((e & <- & I) & O). exists e. split; [reflexivity|]. apply filter_In. split; [exact I|]. apply negb_true_iff. now apply own_no.
Qed.
Lemma nodup_filter {A B} (f : A -> B) (t : A -> bool) l : NoDup (map f l) -> NoDup (map f (filter t l)).
Proof.
  induction l as [|x l IH]; intros D; [exact D|]. cbn [map filter] in *. inversion D as [|? ? N D']. subst. destruct (t x); [|auto]. cbn [map]. constructor; [|auto].
  intros I. apply N. apply in_map_iff in I as (y & E & I). apply filter_In in I as (I & _). rewrite <- E. now apply in_map.
Qed.
Lemma nodup_app {A} (a b : list A) : NoDup a -> NoDup b -> (forall x, In x a -> ~ In x b) -> NoDup (a ++ b).
Proof.
  intros Da Db H. induction Da as [|x a N Da IH]; [exact Db|]. cbn [app]. constructor; [|apply IH; intros y I; apply H; now right].
  intros I. apply in_app_iff in I as [I|I]; [contradiction|]. apply (H x); [now left|exact I].
Qed.

(** The manifest lists the root and each part that is written exactly once, and nothing else. *)
Theorem C44_lists : forall v p m z c, keyed m -> write_ods v p m = Ok (z, c) ->
  NoDup (map fst z) /\ (exists z', z = (lit "mimetype", lit "application/vnd.oasis.opendocument.spreadsheet") :: z')
  /\ exists t evs, am_get (lit "META-INF/manifest.xml") z = Some t /\ read_events t = Ok evs
     /\ NoDup (listed evs) /\ (forall path, In path standard_parts -> In path (listed evs))
     /\ (forall path, In path (listed evs) <-> path = lit "/" \/ (In path (map fst z) /\ ~ In path frame_parts)).
Proof.
  intros v p m z c K H. destruct (written v p m z c K H) as (Ec & K' & N & ->). split; [|split].
  - rewrite map_app. apply nodup_app.
    + cbn [frame_zip map fst]. repeat (constructor; [cbn [In]; intros X; decompose [or] X; try contradiction; discriminate|]). constructor.
    + rewrite extra_names. apply nodup_filter. rewrite keyed_paths by exact K'. apply K'.
    + intros path I J. apply extra_in in J as (J & O). apply frame_zip_in in I as [I|(I & _)]; [|contradiction].
      apply in_map_iff in J as (e & <- & J). now apply (N e J).
  - eexists. reflexivity.
  - eexists. eexists. split; [rewrite am_get_app; reflexivity|]. split; [apply manifest_read|]. rewrite listed_events. split; [rewrite keyed_paths by exact K'; apply K'|].
    assert (S : forall path, In path standard_parts -> In path (map en_path (map snd c))).
    { intros path I. apply keyed_in; [exact K'|]. subst c. apply (C44_completed v m K). now right; left. }
    split; [exact S|]. intros path. rewrite map_app, in_app_iff, extra_in, frame_zip_in. split.
    + intros I. destruct (in_dec (list_eq_dec N.eq_dec) path standard_parts) as [J|J].
      * destruct (list_eq_dec N.eq_dec path (lit "/")) as [->|X]; [now left|]. right. split; [left; right; split; [exact J|exact X]|].
        intros F. apply in_map_iff in I as (e & <- & I). now apply (N e I).
      * right. split; [right; auto|]. intros F. apply in_map_iff in I as (e & <- & I). now apply (N e I).
    + intros [->|([[F|(I & _)]|(I & _)] & X)]; [apply S; now left|contradiction|now apply S|exact I].
Qed.

(** A file of the user is written under its path. *)
Theorem C44_files : forall v p m z c path e, keyed m -> write_ods v p m = Ok (z, c) -> am_get path m = Some e -> user_file path ->
  am_get path z = Some (match en_data e with Some d => d | None => [] end).
Proof.
  intros v p m z c path e K H G (U1 & U2 & U3). destruct (written v p m z c K H) as (Ec & K' & N & ->). rewrite am_get_app.
  rewrite am_get_none by (rewrite frame_zip_in; tauto). assert (G' : am_get path c = Some e) by (subst c; now apply C44_completed).
  apply am_get_entry in G'. pose proof (proj2 K' _ _ G') as Ep. apply am_get_of.
  - rewrite extra_names. apply nodup_filter. rewrite keyed_paths by exact K'. apply K'.
  - unfold extra_parts. apply in_map_iff. exists e. split.
    + unfold bytes_of. replace (is_dir e) with false; [now rewrite Ep|]. symmetry. unfold is_dir. rewrite <- Ep. destruct (ends_slash path) eqn:E; [|reflexivity].
      apply slash_spec in E. contradiction.
    + apply filter_In. split; [apply in_map_iff; exists (path, e); auto|]. apply negb_true_iff, own_no. now rewrite <- Ep.
Qed.

(** What is read: the manifest that was written. Files have their data; the parts of the library and directories have none. *)
Theorem C44_survives : forall v p m z c, keyed m -> write_ods v p m = Ok (z, c) -> exists r, read_package z = Ok r /\ keyed r
  /\ (forall path, In path (map fst r) <-> In path (map fst c))
  /\ (forall path e, am_get path c = Some e -> exists e', am_get path r = Some e' /\ en_path e' = path /\ en_version e' = en_version e /\ en_type e' = en_type e
       /\ (user_file path -> en_data e' = Some (match en_data e with Some d => d | None => [] end))
       /\ (~ user_file path -> en_data e' = None)).
Proof.
  intros v p m z c K H. destruct (written v p m z c K H) as (Ec & K' & N & Ez). pose proof K' as (D & Kp).
  unfold read_package. assert (Em : am_get p_manifest z = Some (render false (manifest_calls v c))) by (rewrite Ez, am_get_app; reflexivity).
  rewrite Em, manifest_read. cbn [bind]. rewrite read_manifest_eq by exact N.
  assert (Kn : keyed []) by (split; [constructor|contradiction]).
  assert (Dp : NoDup (map en_path (map snd c))) by (rewrite keyed_paths by exact K'; exact D).
  destruct (put_entries (map snd c) [] Kn Dp) as (Kr & G1 & G2). set (q := fold_left _ _ _) in *.
  assert (Q : forall k e, In (k, e) q -> exists e0, In e0 (map snd c) /\ e = strip e0 /\ k = en_path e0).
  { intros k e I. pose proof (am_get_of k e q (proj1 Kr) I) as G. destruct (in_dec (list_eq_dec N.eq_dec) k (map en_path (map snd c))) as [J|J].
    - apply in_map_iff in J as (e0 & <- & J). exists e0. split; [exact J|]. rewrite (G1 _ J) in G. injection G as <-. auto.
    - rewrite (G2 _ J) in G. discriminate. }
  assert (Zd : forall e, In e (map snd c) -> user_file (en_path e) -> am_get (en_path e) z = Some (match en_data e with Some d => d | None => [] end)).
  { intros e I U. destruct U as (U1 & U2 & U3). rewrite Ez, am_get_app, am_get_none by (rewrite frame_zip_in; tauto). apply am_get_of.
    - rewrite extra_names. apply nodup_filter. exact Dp.
    - unfold extra_parts. apply in_map_iff. exists e. split.
      + unfold bytes_of. replace (is_dir e) with false; [reflexivity|]. symmetry. unfold is_dir. destruct (ends_slash (en_path e)) eqn:E; [|reflexivity]. apply slash_spec in E. contradiction.
      + apply filter_In. split; [exact I|]. apply negb_true_iff, own_no. exact U1. }
  assert (Uf : forall e, In e (map snd c) -> (is_dir e || is_own (en_path e) = false <-> user_file (en_path e))).
  { intros e I. rewrite orb_false_iff, own_no. unfold user_file, is_dir. rewrite <- slash_spec. destruct (ends_slash (en_path e)); pose proof (N e I); intuition congruence. }
  destruct (read_extras_ok z q) as (r & E & Ek & F).
  { intros k e I B O. destruct (Q k e I) as (e0 & J & -> & ->). cbn [strip en_path] in *. rewrite (Zd e0 J); [discriminate|]. apply Uf; [exact J|].
    apply orb_false_iff. split; [exact B|exact O]. }
  exists r. split; [exact E|].
  assert (Dr : NoDup (map fst r)) by (rewrite Ek; apply Kr).
  assert (Kr' : keyed r).
  { split; [exact Dr|]. intros k e I. clear -F I Kr. destruct Kr as (_ & Kr). induction F as [|(a, x) (b, y) q r (E1 & E2 & _) _ IH]; [contradiction|]. cbn [fst snd] in *. destruct I as [I|I].
    - injection I as <- <-. rewrite <- E1, <- E2. apply (Kr a x). now left.
    - apply IH; [intros k' e' J; apply Kr; now right|exact I]. }
  split; [exact Kr'|]. split.
  - intros path. rewrite Ek. split; intros I.
    + apply in_map_iff in I as ((k & e) & <- & I). destruct (Q k e I) as (e0 & J & -> & ->). cbn [fst]. apply keyed_in; [exact K'|]. now apply in_map.
    + apply (keyed_in c path K') in I. apply in_map_iff in I as (e0 & <- & I). specialize (G1 _ I). now apply am_get_in in G1.
  - intros path e G. apply am_get_entry in G. pose proof (Kp _ _ G) as Ep. subst path. assert (I : In e (map snd c)) by (apply in_map_iff; exists (en_path e, e); auto).
    specialize (G1 _ I). apply am_get_entry in G1.
    assert (X : exists y, In (en_path e, y) r /\ en_path y = en_path e /\ en_version y = en_version e /\ en_type y = en_type e
      /\ en_data y = if is_dir (strip e) || is_own (en_path (strip e)) then None else am_get (en_path e) z).
    { clear -F G1. induction F as [|(a, x) (b, y) q r (E1 & E2 & E3 & E4 & E5) _ IH]; [contradiction|]. cbn [fst snd] in *. destruct G1 as [G1|G1].
      - injection G1 as -> ->. exists y. subst b. cbn [strip en_path en_version en_type en_data] in *. repeat split; auto. now left.
      - destruct (IH G1) as (y' & J & R). exists y'. split; [now right|exact R]. }
    destruct X as (y & J & Y1 & Y2 & Y3 & Y4). exists y. split; [now apply am_get_of|]. split; [exact Y1|]. split; [exact Y2|]. split; [exact Y3|].
    change (is_dir (strip e)) with (is_dir e) in Y4. cbn [strip en_path] in Y4. split; intros U.
    + rewrite (proj2 (Uf e I) U) in Y4. rewrite Y4. now apply Zd.
    + destruct (is_dir e || is_own (en_path e)) eqn:B; [exact Y4|]. exfalso. apply U. now apply (Uf e I).
Qed.

(** ** Examples *)

Definition ex_parts : parts := Parts (lit "<m/>") (lit "<s/>") (lit "<t/>") (lit "<c/>").
Definition picture : entry := Entry (lit "Pictures/a&b.png") None (lit "image/png") (Some [137; 80]).
Definition pictures : entry := Entry (lit "Pictures/") None [] None.
Definition ex_manifest : manifest := [(en_path picture, picture); (en_path pictures, pictures)].
Example C44_ex : keyed ex_manifest /\ exists z c r, write_ods (lit "1.3") ex_parts ex_manifest = Ok (z, c)
  /\ map fst z = [lit "mimetype"; lit "META-INF/"; lit "META-INF/manifest.xml"; lit "meta.xml"; lit "settings.xml"; lit "styles.xml"; lit "content.xml";
       lit "manifest.rdf"; lit "Pictures/a&b.png"; lit "Pictures/"]
  /\ am_get (lit "Pictures/a&b.png") z = Some [137; 80]
  /\ read_package z = Ok r /\ am_get (lit "Pictures/a&b.png") r = Some picture /\ am_get (lit "Pictures/") r = Some pictures
  /\ am_get (lit "/") r = Some (Entry (lit "/") (Some (lit "1.3")) (lit "application/vnd.oasis.opendocument.spreadsheet") None).
Proof.
  split; [split; [repeat constructor; cbn; intros H; decompose [or] H; try contradiction; discriminate|intros k e [I|[I|[]]]; injection I as <- <-; reflexivity]|].
  eexists. eexists. eexists. split; [vm_compute; reflexivity|]. split; [vm_compute; reflexivity|]. split; [vm_compute; reflexivity|]. split; [vm_compute; reflexivity|].
  split; [vm_compute; reflexivity|]. split; vm_compute; reflexivity.
Qed.

Lemma keyed_one e : keyed [(en_path e, e)].
Proof. split; [cbn; repeat constructor; intros []|intros k e' [I|[]]; now injection I as <- <-]. Qed.
(** Data of an entry for one of the parts the library writes is not written. *)
Theorem C44_own_data_refuted : exists m e z c r, keyed m /\ am_get (lit "meta.xml") m = Some e /\ en_data e = Some (lit "mine") /\ write_ods (lit "1.3") ex_parts m = Ok (z, c)
  /\ am_get (lit "meta.xml") z = Some (pt_meta ex_parts) /\ read_package z = Ok r /\ am_get (lit "meta.xml") r = Some (Entry (lit "meta.xml") None (lit "text/xml") None).
Proof.
  exists [(lit "meta.xml", Entry (lit "meta.xml") None (lit "text/xml") (Some (lit "mine")))]. eexists. eexists. eexists. eexists.
  split; [apply (keyed_one (Entry (lit "meta.xml") None (lit "text/xml") (Some (lit "mine"))))|].
  split; [vm_compute; reflexivity|]. split; [reflexivity|]. split; [vm_compute; reflexivity|]. split; [vm_compute; reflexivity|]. split; vm_compute; reflexivity.
Qed.
(** An entry without data is read as one with no bytes, data of a directory is lost. *)
Theorem C44_no_data_refuted : exists m z c r, keyed m /\ write_ods (lit "1.3") ex_parts m = Ok (z, c) /\ read_package z = Ok r
  /\ option_map en_data (am_get (lit "a.bin") m) = Some None /\ option_map en_data (am_get (lit "a.bin") r) = Some (Some []).
Proof.
  exists [(lit "a.bin", plain_entry (lit "a.bin") [])]. eexists. eexists. eexists. split; [apply (keyed_one (plain_entry (lit "a.bin") []))|].
  split; [vm_compute; reflexivity|]. split; [vm_compute; reflexivity|]. split; vm_compute; reflexivity.
Qed.
Theorem C44_dir_data_refuted : exists m z c r, keyed m /\ write_ods (lit "1.3") ex_parts m = Ok (z, c) /\ read_package z = Ok r
  /\ option_map en_data (am_get (lit "d/") m) = Some (Some (lit "x")) /\ option_map en_data (am_get (lit "d/") r) = Some None.
Proof.
  exists [(lit "d/", Entry (lit "d/") None [] (Some (lit "x")))]. eexists. eexists. eexists. split; [apply (keyed_one (Entry (lit "d/") None [] (Some (lit "x"))))|].
  split; [vm_compute; reflexivity|]. split; [vm_compute; reflexivity|]. split; vm_compute; reflexivity.
Qed.
(** A package that lists the directory META-INF/ is read, but the workbook cannot be written. *)
Theorem C44_meta_inf_refuted : exists z r, am_has (lit "META-INF/") z = true /\ read_package z = Ok r /\ keyed r /\ forall v p, write_ods v p r = Err.
Proof.
  exists [(lit "META-INF/", []); (lit "META-INF/manifest.xml", lit "<manifest:manifest><manifest:file-entry manifest:full-path=""META-INF/"" manifest:media-type=""""/></manifest:manifest>")].
  exists [(lit "META-INF/", plain_entry (lit "META-INF/") [])]. split; [reflexivity|]. split; [vm_compute; reflexivity|]. split; [apply (keyed_one (plain_entry (lit "META-INF/") []))|].
  intros v p. rewrite write_ods_eq. cbv zeta. generalize (render false (manifest_calls v (create_manifest v [(lit "META-INF/", plain_entry (lit "META-INF/") [])]))). intros t. reflexivity.
Qed.
(** The version of the root entry is the one the package had, even if the workbook has another. *)
Theorem C44_version_refuted : exists z c z2 c2 r, write_ods (lit "1.2") ex_parts [] = Ok (z, c) /\ write_ods (lit "1.3") ex_parts c = Ok (z2, c2)
  /\ read_package z2 = Ok r /\ option_map en_version (am_get (lit "/") r) = Some (Some (lit "1.2")).
Proof. eexists. eexists. eexists. eexists. eexists. split; [vm_compute; reflexivity|]. split; [vm_compute; reflexivity|]. split; vm_compute; reflexivity. Qed.
(** If an entry is renamed in place, its path can collide with another. *)
Theorem C44_renamed_refuted : exists m, NoDup (map fst m) /\ (forall k e, In (k, e) m -> ~ In (en_path e) frame_parts) /\ forall v p, write_ods v p m = Err.
Proof.
  exists [(lit "a", plain_entry (lit "a") []); (lit "b", plain_entry (lit "a") [])].
  split; [repeat constructor; cbn; intros H; decompose [or] H; try contradiction; discriminate|].
  split; [intros k e [I|[I|[]]]; injection I as <- <-; cbn; intros H; decompose [or] H; try contradiction; discriminate|].
  intros v p. rewrite write_ods_eq. cbv zeta. generalize (render false (manifest_calls v (create_manifest v [(lit "a", plain_entry (lit "a") []); (lit "b", plain_entry (lit "a") [])]))). intros t. reflexivity.
Qed.

Print Assumptions C44_completed.
Print Assumptions C44_writes.
Print Assumptions C44_lists.
Print Assumptions C44_files.
Print Assumptions C44_survives.
Print Assumptions C44_own_data_refuted.
Print Assumptions C44_no_data_refuted.
Print Assumptions C44_dir_data_refuted.
Print Assumptions C44_meta_inf_refuted.
Print Assumptions C44_version_refuted.
Print Assumptions C44_renamed_refuted.

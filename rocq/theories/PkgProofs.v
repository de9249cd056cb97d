(** Lemmas about packages. *)
From Verif Require Import Base Lib XmlModel XmlSpec XmlProofs CellIoModel CellIoProofs BookModel BookProps PkgModel PkgSpec.

(** ** Maps *)
Section Amap.
  Context {V : Type}.
  Implicit Types (m : amap V) (k : str).
  Lemma am_get_none k m : ~ In k (map fst m) -> am_get k m = None.
  Proof. intros H. destruct (am_get k m) eqn:E; [|reflexivity]. exfalso. apply H. now apply am_get_in in E. Qed.
  Lemma am_get_entry k v m : am_get k m = Some v -> In (k, v) m.
  Proof.
    induction m as [|[a x] m IH]; cbn [am_get]; [discriminate|]. destruct (str_eqb a k) eqn:E; [|intros H; right; auto].
    apply str_eqb_eq in E. subst a. intros H. injection H as <-. now left.
  Qed.
  Lemma am_get_of k v m : NoDup (map fst m) -> In (k, v) m -> am_get k m = Some v.
  Proof.
    induction m as [|[a x] m IH]; cbn [am_get map fst]; [contradiction|]. intros D I. inversion D as [|? ? N D']. subst.
    destruct I as [I|I]; [injection I as -> ->; now rewrite str_eqb_refl|]. destruct (str_eqb a k) eqn:E; [|auto].
    apply str_eqb_eq in E. subst a. exfalso. apply N. apply in_map_iff. exists (k, v). auto.
  Qed.
  Lemma am_has_spec k m : am_has k m = true <-> In k (map fst m).
  Proof.
    unfold am_has. split.
    - destruct (am_get k m) eqn:E; [intros _; now apply am_get_in in E|discriminate].
    - intros I. destruct (am_get k m) eqn:E; [reflexivity|]. exfalso. induction m as [|[a x] m IH]; [exact I|]. cbn [am_get] in E.
      destruct (str_eqb a k) eqn:E1; [discriminate|]. destruct I as [I|I]; [cbn in I; subst a; rewrite str_eqb_refl in E1; discriminate|auto].
  Qed.
  Lemma am_has_no k m : am_has k m = false <-> ~ In k (map fst m).
  Proof. rewrite <- am_has_spec. destruct (am_has k m); split; intros H; congruence. Qed.
  Lemma am_get_app k m m' : am_get k (m ++ m') = match am_get k m with Some v => Some v | None => am_get k m' end.
  Proof. induction m as [|[a x] m IH]; cbn [am_get app]; [reflexivity|]. destruct (str_eqb a k); [reflexivity|exact IH]. Qed.
  Lemma del_not_in k m : ~ In k (map fst (am_del k m)).
  Proof. intros I. apply in_map_iff in I as ((a & x) & E & I). cbn in E. subst a. apply filter_In in I as (_ & I). cbn in I. rewrite str_eqb_refl in I. discriminate. Qed.
  Lemma del_nodup k m : NoDup (map fst m) -> NoDup (map fst (am_del k m)).
  Proof.
    intros D. induction m as [|[a x] m IH]; [exact D|]. cbn [map fst] in D. inversion D as [|? ? N D']. subst. cbn [am_del filter fst].
    destruct (str_eqb a k); cbn [negb]; fold (am_del k m); [auto|]. cbn [map fst]. constructor; [|auto]. intros I. apply N. now apply in_del in I.
  Qed.
  Lemma put_nodup k v m : NoDup (map fst m) -> NoDup (map fst (am_put k v m)).
  Proof. intros D. unfold am_put. cbn [map fst]. constructor; [apply del_not_in|now apply del_nodup]. Qed.
End Amap.

Lemma keyed_put e m : keyed m -> keyed (add_manifest e m).
Proof.
  intros (D & K). split; [now apply put_nodup|]. intros k e' [I|I]; [injection I as <- <-; reflexivity|]. apply filter_In in I as (I & _). eauto.
Qed.
Lemma keyed_missing e m : keyed m -> keyed (add_missing e m).
Proof. intros K. unfold add_missing. destruct (am_has _ m); [exact K|now apply keyed_put]. Qed.
Lemma missing_get e m k : am_get k (add_missing e m) = match am_get k m with Some x => Some x | None => if str_eqb (en_path e) k then Some e else None end.
Proof.
  unfold add_missing, am_has. destruct (am_get (en_path e) m) eqn:E.
  - destruct (am_get k m) eqn:E1; [reflexivity|]. destruct (str_eqb (en_path e) k) eqn:E2; [|reflexivity]. apply str_eqb_eq in E2. subst k. congruence.
  - unfold add_manifest. rewrite am_get_put. destruct (str_eqb (en_path e) k) eqn:E2; [|destruct (am_get k m); reflexivity].
    apply str_eqb_eq in E2. subst k. now rewrite E.
Qed.
Lemma create_keyed v m : keyed m -> keyed (create_manifest v m).
Proof. intros K. unfold create_manifest. now repeat apply keyed_missing. Qed.
Definition defaults (v : str) : list entry :=
  [Entry p_root (Some v) ods_type None; rdf_entry; plain_entry p_styles (lit "text/xml"); plain_entry p_meta (lit "text/xml");
   plain_entry p_content (lit "text/xml"); plain_entry p_settings (lit "text/xml")].
Lemma create_fold v m : create_manifest v m = fold_left (fun m e => add_missing e m) (defaults v) m.
Proof. reflexivity. Qed.
Lemma missing_has e m k : am_has k (add_missing e m) = am_has k m || str_eqb (en_path e) k.
Proof. unfold am_has. rewrite missing_get. destruct (am_get k m); [reflexivity|]. destruct (str_eqb (en_path e) k); reflexivity. Qed.
Lemma missing_all l : forall m k, am_has k (fold_left (fun m e => add_missing e m) l m) = am_has k m || existsb (fun e => str_eqb (en_path e) k) l.
Proof. induction l as [|e l IH]; intros m k; cbn [fold_left existsb]; [now rewrite orb_false_r|]. rewrite IH, missing_has. now rewrite orb_assoc. Qed.
Lemma missing_same l : forall m, (forall e, In e l -> am_has (en_path e) m = true) -> fold_left (fun m e => add_missing e m) l m = m.
Proof.
  induction l as [|e l IH]; intros m H; [reflexivity|]. cbn [fold_left]. replace (add_missing e m) with m; [apply IH; intros e' I; apply H; now right|].
  unfold add_missing. rewrite (H e) by now left. reflexivity.
Qed.
Lemma missing_keeps l : forall m k e, am_get k m = Some e -> am_get k (fold_left (fun m e => add_missing e m) l m) = Some e.
Proof. induction l as [|x l IH]; intros m k e H; [exact H|]. cbn [fold_left]. apply IH. rewrite missing_get, H. reflexivity. Qed.
Lemma keyed_in m k : keyed m -> In k (map fst m) <-> In k (map en_path (map snd m)).
Proof.
  intros (_ & K). rewrite map_map, !in_map_iff. split; intros ((a & e) & E & I); exists (a, e); (split; [|exact I]); cbn in *; rewrite <- (K _ _ I) in *; assumption.
Qed.
Lemma keyed_paths m : keyed m -> map en_path (map snd m) = map fst m.
Proof. intros (_ & K). rewrite map_map. apply map_ext_in. intros (a, e) I. symmetry. apply (K _ _ I). Qed.

(** ** The archive *)

Definition bytes_of (e : entry) : str := if is_dir e then [] else match en_data e with Some d => d | None => [] end.
Definition extra_parts (l : list entry) : zip := map (fun e => (en_path e, bytes_of e)) (filter (fun e => negb (is_own (en_path e))) l).
Lemma zip_add_ok n d z : ~ In n (map fst z) -> zip_add n d z = Ok (z ++ [(n, d)]).
Proof. intros H. unfold zip_add. now rewrite (proj2 (am_has_no n z) H). Qed.
Lemma extra_one e z : is_own (en_path e) = false -> ~ In (en_path e) (map fst z) ->
  (if is_dir e then zip_dir (en_path e) z else zip_add (en_path e) (match en_data e with Some d => d | None => [] end) z) = Ok (z ++ [(en_path e, bytes_of e)]).
Proof.
  intros O N. unfold bytes_of. destruct (is_dir e) eqn:D; [|now apply zip_add_ok]. unfold zip_dir. unfold is_dir, ends_slash in D. rewrite D. now apply zip_add_ok.
Qed.
Lemma write_extra_ok l : forall z, NoDup (map en_path l) -> (forall e, In e l -> is_own (en_path e) = false -> ~ In (en_path e) (map fst z)) ->
  write_extra l z = Ok (z ++ extra_parts l).
Proof.
  induction l as [|e l IH]; intros z D N; [now rewrite app_nil_r|]. cbn [map] in D. inversion D as [|? ? X D']. subst. cbn [write_extra]. unfold extra_parts. cbn [filter].
  destruct (is_own (en_path e)) eqn:O; cbn [negb map].
  - cbn [bind]. apply IH; [exact D'|]. intros e' I. apply N. now right.
  - rewrite extra_one by first [exact O|apply N; [now left|exact O]]. cbn [bind]. rewrite IH; [now rewrite <- app_assoc|exact D'|].
    intros e' I O'. rewrite map_app, in_app_iff. cbn [map fst In]. intros [I'|[I'|[]]]; [apply (N e'); auto; now right|]. apply X. rewrite I'. now apply in_map.
Qed.
Lemma zip_add_grows n d z z' : zip_add n d z = Ok z' -> incl (map fst z) (map fst z').
Proof. unfold zip_add. destruct (am_has n z); [discriminate|]. intros H. injection H as <-. rewrite map_app. apply incl_appl, incl_refl. Qed.
Lemma extra_step_grows e z z' :
  (if is_own (en_path e) then Ok z else if is_dir e then zip_dir (en_path e) z else zip_add (en_path e) (match en_data e with Some d => d | None => [] end) z) = Ok z' ->
  incl (map fst z) (map fst z').
Proof.
  destruct (is_own (en_path e)); [intros H; injection H as <-; apply incl_refl|]. destruct (is_dir e); [|apply zip_add_grows]. unfold zip_dir. apply zip_add_grows.
Qed.
Lemma write_extra_only l : forall z z', write_extra l z = Ok z' -> forall e, In e l -> is_own (en_path e) = false -> ~ In (en_path e) (map fst z).
Proof.
  induction l as [|e l IH]; intros z z' H e' I O; [contradiction|]. cbn [write_extra] in H.
  apply bind_ok in H as (z1 & H1 & H). destruct I as [->|I].
  - rewrite O in H1. intros X. unfold zip_dir, zip_add in H1. apply am_has_spec in X.
    destruct (is_dir e') eqn:D; [unfold is_dir, ends_slash in D; rewrite D in H1; cbn [orb] in H1|]; rewrite X in H1; discriminate.
  - intros X. apply (IH _ _ H e' I O). apply (extra_step_grows _ _ _ H1). exact X.
Qed.

Lemma own_spec p : is_own p = true <-> In p standard_parts.
Proof.
  unfold is_own. rewrite existsb_exists. split.
  - intros (x & I & E). apply str_eqb_eq in E. subst x. cbn in I |- *. tauto.
  - intros I. exists p. split; [cbn in I |- *; tauto|apply str_eqb_refl].
Qed.
Lemma own_no p : is_own p = false <-> ~ In p standard_parts.
Proof. rewrite <- own_spec. destruct (is_own p); split; intros H; congruence. Qed.
Lemma slash_spec s : ends_slash s = true <-> exists d, s = d ++ lit "/".
Proof.
  unfold ends_slash. rewrite N.eqb_eq. split.
  - intros H. destruct s as [|c s] using rev_ind; [discriminate H|]. rewrite last_snoc in H. exists s. now subst c.
  - intros (d & ->). apply last_snoc.
Qed.

Definition frame_zip (t : str) (p : parts) : zip :=
  [(p_mime, ods_type); (lit "META-INF/", []); (p_manifest, t); (p_meta, pt_meta p); (p_settings, pt_settings p); (p_styles, pt_styles p); (p_content, pt_content p)].
Lemma write_ods_eq v p m : write_ods v p m =
  (let m := create_manifest v m in let* z := write_extra (map snd m) (frame_zip (render false (manifest_calls v m)) p) in Ok (z, m)).
Proof. unfold write_ods. generalize (render false (manifest_calls v (create_manifest v m))). intros t. reflexivity. Qed.
Lemma frame_zip_in t p path : In path (map fst (frame_zip t p)) <-> In path frame_parts \/ (In path standard_parts /\ path <> p_root).
Proof.
  cbn [frame_zip map fst In frame_parts standard_parts].
  assert (D : p_root <> lit "settings.xml" /\ p_root <> lit "styles.xml" /\ p_root <> lit "content.xml" /\ p_root <> lit "meta.xml") by (repeat split; discriminate).
  change p_root with (lit "/") in *. destruct D as (D1 & D2 & D3 & D4). unfold p_mime, p_manifest, p_meta, p_settings, p_styles, p_content.
  split.
  - intros [<-|[<-|[<-|[<-|[<-|[<-|[<-|[]]]]]]]]; try tauto; right; (split; [tauto|auto]).
  - intros [H|(H & N)]; [tauto|]. destruct H as [H|H]; [now symmetry in H|]. tauto.
Qed.

(** ** The manifest document *)

Definition entry_attrs (e : entry) : list (str * str) :=
  (lit "manifest:full-path", en_path e) :: match en_version e with Some v => [(lit "manifest:version", v)] | None => [] end ++ [(lit "manifest:media-type", en_type e)].
Definition manifest_head (v : str) : list event :=
  [EOther (lit "?xml version=""1.0"" encoding=""" ++ lit "UTF-8" ++ lit """ ?"); EText [c_nl];
   EStart (lit "manifest:manifest") [(lit "xmlns:manifest", lit "urn:oasis:names:tc:opendocument:xmlns:manifest:1.0"); (lit "manifest:version", v)]].
Definition manifest_events (v : str) (l : list entry) : list event :=
  manifest_head v ++ map (fun e => EEmpty (lit "manifest:file-entry") (entry_attrs e)) l ++ [EEnd (lit "manifest:manifest")].

Lemma entries_sensible l : forall q, sensible q (flat_map entry_calls l ++ [CEnd (lit "manifest:manifest")]).
Proof.
  induction l as [|e l IH]; intros q; [apply sn_end; [name_lit|constructor]|]. cbn [flat_map]. rewrite <- app_assoc. unfold entry_calls. cbn [app].
  apply sn_empty; [name_lit|]. apply sn_attr_esc; [name_lit|]. destruct (en_version e); cbn [app]; repeat (apply sn_attr_esc; [name_lit|]); apply IH.
Qed.
Lemma flat_snd (m : manifest) : flat_map (fun kv => entry_calls (snd kv)) m = flat_map entry_calls (map snd m).
Proof. induction m as [|kv m IH]; [reflexivity|]. cbn [flat_map map]. now rewrite IH. Qed.
Lemma raw_lit s : forallb (fun c => negb ((c =? c_quot) || (c =? c_amp) || (c =? c_lt))) s = true -> raw_value_ok s.
Proof.
  intros H. unfold raw_value_ok. apply Forall_forall. intros c I. rewrite forallb_forall in H. specialize (H c I). cbn [In]. lia.
Qed.
Lemma manifest_sensible v m : sensible false (manifest_calls v m).
Proof.
  unfold manifest_calls. cbn [app]. rewrite flat_snd. apply sn_dtd; [|apply sn_elem; [name_lit|apply sn_attr; [name_lit| |apply sn_attr_esc; [name_lit|apply entries_sensible]]]].
  - unfold enc_ok. repeat (apply Forall_cons; [cbn; unfold c_quot, c_apos, c_gt; lia|]). apply Forall_nil.
  - apply raw_lit. vm_compute. reflexivity.
Qed.
Lemma manifest_nested v m : calls_nested [] (manifest_calls v m).
Proof.
  unfold manifest_calls. cbn [app calls_nested]. rewrite flat_snd. induction (map snd m) as [|e l IH]; [split; reflexivity|].
  cbn [flat_map]. rewrite <- app_assoc. unfold entry_calls. destruct (en_version e); cbn [app calls_nested]; exact IH.
Qed.
Definition head_attrs (v : str) : list (str * str) :=
  [(lit "xmlns:manifest", lit "urn:oasis:names:tc:opendocument:xmlns:manifest:1.0"); (lit "manifest:version", v)].
Definition flush (l : option entry) : pending := match l with Some e => Some (lit "manifest:file-entry", entry_attrs e, true) | None => None end.
Lemma asked_entries l : forall e, coalesce (asked esc_split false (Some (lit "manifest:file-entry", entry_attrs e, true)) (flat_map entry_calls l ++ [CEnd (lit "manifest:manifest")]))
  = map (fun e => EEmpty (lit "manifest:file-entry") (entry_attrs e)) (e :: l) ++ [EEnd (lit "manifest:manifest")].
Proof.
  induction l as [|e' l IH]; intros e; [reflexivity|]. cbn [flat_map]. rewrite <- app_assoc. unfold entry_calls at 1.
  cbn [app asked finish]. unfold coalesce. rewrite coalesce_cons by exact I. cbn [emit_text app]. cbn [coalesce_from app nl]. fold (coalesce_from []).
  transitivity (EEmpty (lit "manifest:file-entry") (entry_attrs e) :: coalesce (asked esc_split false (Some (lit "manifest:file-entry", entry_attrs e', true)) (flat_map entry_calls l ++ [CEnd (lit "manifest:manifest")]))).
  - unfold entry_attrs. destruct (en_version e), (en_version e'); reflexivity.
  - rewrite IH. reflexivity.
Qed.
Lemma manifest_events_eq v m : events_of false (manifest_calls v m) = manifest_events v (map snd m).
Proof.
  unfold events_of, manifest_calls. rewrite flat_snd. unfold manifest_events, manifest_head. cbn [app asked with_attr]. fold (head_attrs v).
  unfold coalesce. rewrite coalesce_cons by exact I. cbn [emit_text app]. f_equal. cbn [coalesce_from app nl].
  destruct (map snd m) as [|e l]; [reflexivity|]. cbn [flat_map]. rewrite <- app_assoc. unfold entry_calls at 1. cbn [app asked finish with_attr].
  rewrite coalesce_cons by exact I. cbn [emit_text app]. f_equal. f_equal. etransitivity; [|apply asked_entries]. unfold coalesce, entry_attrs. destruct (en_version e); reflexivity.
Qed.
Lemma manifest_read v m : read_events (render false (manifest_calls v m)) = Ok (manifest_events v (map snd m)).
Proof. rewrite read_events_render by (apply manifest_sensible || apply manifest_nested). now rewrite manifest_events_eq. Qed.

Lemma listed_app a b : listed (a ++ b) = listed a ++ listed b.
Proof. apply flat_map_app. Qed.
Lemma listed_events v l : listed (manifest_events v l) = map en_path l.
Proof.
  unfold manifest_events. rewrite !listed_app. change (listed (manifest_head v)) with (@nil str). change (listed [EEnd (lit "manifest:manifest")]) with (@nil str).
  rewrite app_nil_r. cbn [app]. induction l as [|e l IH]; [reflexivity|]. cbn [map]. rewrite <- IH. unfold listed at 1. cbn [flat_map].
  change (str_eqb (lit "manifest:file-entry") (lit "manifest:file-entry")) with true. cbv iota. unfold entry_attrs. destruct (en_version e); reflexivity.
Qed.

(** ** Reading *)

Definition strip (e : entry) : entry := Entry (en_path e) (en_version e) (en_type e) None.
Lemma entry_attrs_read e : fold_left entry_attr (entry_attrs e) entry0 = strip e.
Proof. unfold entry_attrs, strip. destruct (en_version e); reflexivity. Qed.
Lemma read_manifest_eq v l : (forall e, In e l -> ~ In (en_path e) frame_parts) ->
  read_manifest (manifest_events v l) = fold_left (fun m e => add_manifest (strip e) m) l [].
Proof.
  intros H. unfold read_manifest, manifest_events. rewrite !fold_left_app. change (fold_left read_event (manifest_head v) []) with (@nil (str * entry)).
  cbn [fold_left]. generalize (@nil (str * entry)). revert H. induction l as [|e l IH]; intros H m; [reflexivity|]. cbn [map fold_left].
  replace (read_event m (EEmpty (lit "manifest:file-entry") (entry_attrs e))) with (add_manifest (strip e) m).
  { change (read_event (fold_left read_event (map (fun e => EEmpty (lit "manifest:file-entry") (entry_attrs e)) l) (add_manifest (strip e) m)) (EEnd (lit "manifest:manifest")))
      with (fold_left read_event (map (fun e => EEmpty (lit "manifest:file-entry") (entry_attrs e)) l) (add_manifest (strip e) m)) in IH |- *.
    apply IH. intros e' I. apply H. now right. }
  unfold read_event. change (str_eqb (lit "manifest:file-entry") (lit "manifest:file-entry")) with true. cbv iota. rewrite entry_attrs_read. cbn [strip en_path].
  assert (N : ~ In (en_path e) frame_parts) by (apply H; now left). cbn [frame_parts In] in N.
  rewrite (proj2 (str_eqb_neq (en_path e) p_mime)) by (intros E; apply N; left; symmetry; exact E).
  rewrite (proj2 (str_eqb_neq (en_path e) p_manifest)) by (intros E; apply N; right; right; left; symmetry; exact E). reflexivity.
Qed.
Lemma put_entries l : forall m, keyed m -> NoDup (map en_path l) ->
  keyed (fold_left (fun m e => add_manifest (strip e) m) l m)
  /\ (forall e, In e l -> am_get (en_path e) (fold_left (fun m e => add_manifest (strip e) m) l m) = Some (strip e))
  /\ (forall k, ~ In k (map en_path l) -> am_get k (fold_left (fun m e => add_manifest (strip e) m) l m) = am_get k m).
Proof.
  induction l as [|e l IH]; intros m K D; [split; [exact K|split; [contradiction|reflexivity]]|]. cbn [map] in D. inversion D as [|? ? N D']. subst. cbn [fold_left].
  destruct (IH (add_manifest (strip e) m) (keyed_put _ _ K) D') as (A & B & C). split; [exact A|]. split.
  - intros e' [->|I]; [|now apply B]. rewrite C by exact N. unfold add_manifest. rewrite am_get_put. cbn [strip en_path]. now rewrite str_eqb_refl.
  - intros k I. cbn [map In] in I. rewrite C by tauto. unfold add_manifest. rewrite am_get_put. cbn [strip en_path].
    rewrite (proj2 (str_eqb_neq (en_path e) k)) by tauto. reflexivity.
Qed.
Lemma read_extras_ok z m : (forall k e, In (k, e) m -> is_dir e = false -> is_own (en_path e) = false -> am_get (en_path e) z <> None) ->
  exists r, read_extras z m = Ok r /\ map fst r = map fst m
    /\ Forall2 (fun x y => fst x = fst y /\ en_path (snd x) = en_path (snd y) /\ en_version (snd x) = en_version (snd y) /\ en_type (snd x) = en_type (snd y)
         /\ en_data (snd y) = if is_dir (snd x) || is_own (en_path (snd x)) then en_data (snd x) else am_get (en_path (snd x)) z) m r.
Proof.
  induction m as [|(k, e) m IH]; intros H; [exists []; repeat split; constructor|]. destruct IH as (r & E & K & F); [intros; apply (H k0); auto; now right|].
  cbn [read_extras]. destruct (is_dir e || is_own (en_path e)) eqn:B.
  - cbn [bind]. rewrite E. cbn [bind]. eexists. split; [reflexivity|]. cbn [map fst]. split; [now rewrite K|]. constructor; [|exact F]. cbn [fst snd en_path en_version en_type en_data]. rewrite B. auto.
  - apply orb_false_iff in B as (B1 & B2). destruct (am_get (en_path e) z) as [d|] eqn:G; [|exfalso; now apply (H k e (or_introl eq_refl) B1 B2)].
    cbn [bind]. rewrite E. cbn [bind]. eexists. split; [reflexivity|]. cbn [map fst]. split; [now rewrite K|]. constructor; [|exact F]. cbn [fst snd en_path en_version en_type en_data]. rewrite B1, B2, G. auto.
Qed.

(** C34 and C35: the settings tree. *)
From Verif Require Import Base Lib BookModel BookProps CellModel NumModel NumSpec NumProofs NumProps XmlModel XmlSpec XmlProofs CellIoSpec
  ConfigModel ConfigSpec ConfigProofs ConfigIo ConfigShape.

(** ** C34 Lookup *)

(** One map: an insertion succeeds, is found again, leaves the other keys alone, keeps the place of an old key and puts a new key last. *)
Theorem C34_map {T} (k : str) (x : T) (m : cmap T) : map_ok m ->
  exists m', cm_insert k x m = Ok m' /\ map_ok m' /\ cm_get k m' = Some x
  /\ (forall j, j <> k -> cm_get j m' = cm_get j m)
  /\ keys (cm_vals m') = (if existsb (str_eqb k) (keys (cm_vals m)) then keys (cm_vals m) else keys (cm_vals m) ++ [k]).
Proof.
  intros M. destruct (insert_ok k x m M) as (m' & I & M' & V). exists m'. split; [exact I|]. split; [exact M'|].
  rewrite (get_assoc k m' M'), V, assoc_assoc_put, str_eqb_refl. split; [reflexivity|]. split.
  - intros j J. rewrite (get_assoc j m' M'), (get_assoc j m M), V, assoc_assoc_put. destruct (str_eqb k j) eqn:E; [apply str_eqb_eq in E; congruence|reflexivity].
  - destruct (existsb (str_eqb k) (keys (cm_vals m))) eqn:E.
    + apply put_keys. intros N. apply assoc_in in N. apply existsb_exists in E as (y & Iy & Ey). apply str_eqb_eq in Ey. now subst y.
    + rewrite put_fresh; [unfold keys; now rewrite map_app|]. apply assoc_in. intros I'. rewrite <- not_true_iff_false in E. apply E. apply existsb_exists. exists k. split; [exact I'|apply str_eqb_refl].
Qed.
(** Maps made with the operations of the type are good. *)
Theorem C34_maps {T} (ops : list (str * T)) : exists m, fold_left (fun r o => let* m := r in cm_insert (fst o) (snd o) m) ops (Ok cm_new) = Ok m /\ map_ok m.
Proof.
  assert (H : forall ops (m : cmap T), map_ok m -> exists m', fold_left (fun r o => let* m := r in cm_insert (fst o) (snd o) m) ops (Ok m) = Ok m' /\ map_ok m').
  { clear. induction ops as [|[k x] ops IH]; intros m M; [now exists m|]. cbn [fold_left fst snd bind]. destruct (insert_ok k x m M) as (m' & -> & M' & _). now apply IH. }
  apply H, new_ok.
Qed.
(** Insertion of [x] as [n] at the end of a path. It panics exactly when something on the path has another type; otherwise everything
    below the new item is found, no other value changes, and every map keeps the order of its keys with new keys last. *)
Theorem C34_path (p : list (str * ctype)) (n : str) (x c : citem) : sound c -> sound x ->
  (~ fits p (plain c) -> ci_path p (ci_insert n x) c = Panic) /\
  (fits p (plain c) -> exists c', ci_path p (ci_insert n x) c = Ok c' /\ sound c' /\ plain c' = put_at p n (plain x) (plain c)
    /\ (forall q, option_map plain (ci_get (map fst p ++ n :: q) c') = option_map plain (ci_get q x))
    /\ (forall q, ci_get_value (map fst p ++ n :: q) c' = ci_get_value q x)
    /\ (forall q, ~ prefix_of (map fst p ++ [n]) q -> ci_get_value q c' = ci_get_value q c)).
Proof.
  intros S X. split; [now apply path_panics|]. intros F. destruct (path_plain n x p X c S F) as (c' & P & S' & E).
  exists c'. split; [exact P|]. split; [exact S'|]. split; [exact E|].
  assert (G : forall q, option_map plain (ci_get (map fst p ++ n :: q) c') = option_map plain (ci_get q x)).
  { intros q. rewrite !get_look by assumption. rewrite E. now apply look_put_at. }
  split; [exact G|]. split.
  - intros q. rewrite !value_leaf by assumption. unfold leaf_at. rewrite E, look_put_at by assumption. reflexivity.
  - intros q N. rewrite !value_leaf by assumption. rewrite E. now apply leaf_other.
Qed.
(** Lookup follows the pairs as the user sees them, and what is found is again a good tree. *)
Theorem C34_lookup (q : list str) (c : citem) : sound c ->
  option_map plain (ci_get q c) = look q (plain c) /\ (forall y, ci_get q c = Some y -> sound y).
Proof. intros S. split; [now apply get_look|intros y; now apply get_sound]. Qed.

Definition ex_path : list (str * ctype) := [(lit "ooo:view-settings", Some KSet); (lit "Views", Some KVec); (lit "0", Some KEntry)].
Definition ex_tree : res citem :=
  let* a := ci_path ex_path (ci_insert (lit "ZoomValue") (CVal (VInt 100))) config0 in
  let* b := ci_path ex_path (ci_insert (lit "ActiveTable") (CVal (VString (lit "a<b")))) a in
  ci_path ex_path (ci_insert (lit "ZoomValue") (CVal (VInt 60))) b.
Example C34_ex : exists c, ex_tree = Ok c
  /\ plain c = Node KSet [(lit "ooo:view-settings", Node KSet [(lit "Views", Node KVec [(lit "0", Node KEntry
      [(lit "ZoomValue", Leaf (VInt 60)); (lit "ActiveTable", Leaf (VString (lit "a<b")))])])])]
  /\ ci_get_value [lit "ooo:view-settings"; lit "Views"; lit "0"; lit "ZoomValue"] c = Some (VInt 60)
  /\ ci_path [(lit "ooo:view-settings", Some KSet); (lit "Views", Some KMap)] (ci_insert (lit "x") (CVal (VInt 1))) c = Panic.
Proof. eexists. split; [vm_compute; reflexivity|]. vm_compute. repeat split. Qed.

(** ** C35 Settings survive *)

(** Everything but empty texts is read back, in the same order, whatever the line breaks. [ns] are the namespaces of the document. *)
Theorem C35_survives (ns : list (str * str)) (c : citem) : Forall (fun kv => name_ok (fst kv)) ns -> sound c -> settings_ok (plain c) ->
  exists cs, write_ods_settings ns c = Ok cs /\ forall lb, exists evs c', read_events (render lb cs) = Ok evs
  /\ read_settings evs = Ok (Some c') /\ sound c' /\ plain c' = strip (plain c) /\ (no_blank (plain c) -> plain c' = plain c)
  /\ forall q, ci_get_value q c' = match ci_get_value q c with Some (VString []) | Some (VBase64 []) => None | r => r end.
Proof.
  intros N S O. destruct (settings_back ns c N S O) as (cs & W & H1 & H2 & R). exists cs. split; [exact W|]. intros lb. destruct (R lb) as (c' & R1 & R2 & R3).
  exists (events_of lb cs), c'. split; [now apply read_events_render|]. split; [exact R1|]. split; [exact R2|]. split; [exact R3|]. split.
  2:{ intros q. rewrite value_leaf, R3, strip_values; try assumption.
      - destruct (ci_get_value q c) as [[[|]| | | | | | |[|]]|]; reflexivity.
      - intros v ->. destruct O as (l & E & _). discriminate E. }
  intros B. rewrite R3.
  clear - B. revert B. generalize (plain c). induction t as [v|k l IH] using tree_rect'; [reflexivity|]. intros B. apply no_blank_node in B. cbn [strip]. f_equal.
  induction IH as [|[a t] l H _ IHl]; [reflexivity|]. inversion B as [|? ? (B1 & B2) B3]; subst. cbn [flat_map fst snd] in *. rewrite B1, (H B2), (IHl B3). reflexivity.
Qed.
(** Reading never panics; whatever it gives can be written again, without a panic. *)
Theorem C35_read (evs : list event) : match read_settings evs with
  | Ok (Some c) => sound c /\ settings_shape (plain c) /\ forall ns, exists cs, write_ods_settings ns c = Ok cs
  | Ok None | Err => True
  | Panic => False
  end.
Proof.
  unfold read_settings. pose proof (run_shape evs (COutside None) I) as H. destruct (crun evs (COutside None)) as [[[c|]|c i st]| |]; cbn [bind]; try exact I; [|exact H].
  destruct H as (S & H). split; [exact S|]. split; [exact H|]. intros ns. now apply settings_written.
Qed.

(** What does not survive. The first is in every new workbook: its printer name is the empty text. *)
Definition back (c : citem) : res (option tree) :=
  let* cs := write_ods_settings [] c in let* evs := read_events (render false cs) in let* o := read_settings evs in Ok (option_map plain o).
Definition at_conf (p : list (str * ctype)) (n : str) (v : cvalue) : res citem := ci_path ((lit "ooo:configuration-settings", Some KSet) :: p) (ci_insert n (CVal v)) config0.
Theorem C35_empty_refuted : exists c, at_conf [] (lit "PrinterName") (VString []) = Ok c /\ settings_ok (plain c)
  /\ back c = Ok (Some (Node KSet [(lit "ooo:configuration-settings", Node KSet [])])).
Proof.
  eexists. split; [vm_compute; reflexivity|]. split; [|vm_compute; reflexivity].
  eexists. split; [reflexivity|]. split; [|repeat constructor; eexists; reflexivity]. cbn. repeat split; discriminate.
Qed.
(** A value directly in a map is written and not read. *)
Theorem C35_map_value_refuted : exists c, at_conf [(lit "M", Some KMap)] (lit "a") (VInt 1) = Ok c
  /\ back c = Ok (Some (Node KSet [(lit "ooo:configuration-settings", Node KSet [(lit "M", Node KMap [])])])).
Proof. eexists. split; [vm_compute; reflexivity|]. vm_compute. reflexivity. Qed.
(** An indexed map is written up to its first gap. *)
Theorem C35_gap_refuted : exists c, at_conf [(lit "V", Some KVec); (lit "1", Some KEntry)] (lit "a") (VInt 1) = Ok c
  /\ back c = Ok (Some (Node KSet [(lit "ooo:configuration-settings", Node KSet [(lit "V", Node KVec [])])])).
Proof. eexists. split; [vm_compute; reflexivity|]. vm_compute. reflexivity. Qed.
(** An entry outside a map, and a value at the top, are a panic when the file is written. *)
Theorem C35_panic_refuted : (exists c, at_conf [(lit "E", Some KEntry)] (lit "a") (VInt 1) = Ok c /\ back c = Panic)
  /\ exists c, ci_insert (lit "a") (CVal (VInt 1)) config0 = Ok c /\ back c = Panic.
Proof. split; eexists; (split; [vm_compute; reflexivity|]); vm_compute; reflexivity. Qed.

Example C35_ex : exists c, (let* a := ex_tree in
    let* b := ci_path [(lit "ooo:view-settings", Some KSet); (lit "Tables", Some KMap); (lit "a""&b", Some KEntry)] (ci_insert (lit "d") (CVal (VDouble (lit "-1.5")))) a in
    ci_path [(lit "ooo:view-settings", Some KSet)] (ci_insert (lit "ok") (CVal (VBool true))) b) = Ok c
  /\ back c = Ok (Some (plain c))
  /\ ci_get_value [lit "ooo:view-settings"; lit "Tables"; lit "a""&b"; lit "d"] c = Some (VDouble (lit "-1.5")).
Proof. eexists. split; [vm_compute; reflexivity|]. split; vm_compute; reflexivity. Qed.

Print Assumptions C34_map.
Print Assumptions C34_maps.
Print Assumptions C34_path.
Print Assumptions C34_lookup.
Print Assumptions C34_ex.
Print Assumptions C35_survives.
Print Assumptions C35_read.
Print Assumptions C35_empty_refuted.
Print Assumptions C35_map_value_refuted.
Print Assumptions C35_gap_refuted.
Print Assumptions C35_panic_refuted.
Print Assumptions C35_ex.

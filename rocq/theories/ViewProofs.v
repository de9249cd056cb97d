(** Proofs about edits of the settings tree through a path. *)
From Verif Require Import Base Lib BookModel BookProps CellModel NumModel EnumModel ConfigModel ConfigSpec ConfigProofs ViewModel.

(** ** Any edit at the end of a path *)

Definition keeps (g : tree -> tree) : Prop := forall k l, exists l', g (Node k l) = Node k l'.
Definition acts (f : citem -> res citem) (g : tree -> tree) : Prop :=
  forall k m, sound (CBranch k m) -> exists i', f (CBranch k m) = Ok i' /\ sound i' /\ plain i' = g (plain (CBranch k m)).
Definition fresh_of (ty : ctype) : tree := Node (match ty with Some k => k | None => KSet end) [].
Fixpoint edit_at (p : list (str * ctype)) (g : tree -> tree) (t : tree) : tree :=
  match t, p with
  | Leaf _, _ => t
  | Node k l, [] => g t
  | Node k l, (a, ty) :: r => Node k (assoc_put a (edit_at r g (match assoc a l with Some u => u | None => fresh_of ty end)) l)
  end.
Lemma path_edit f g p : acts f g -> forall i, sound i -> fits p (plain i) ->
  exists i', ci_path p f i = Ok i' /\ sound i' /\ plain i' = edit_at p g (plain i).
Proof.
  intros A. induction p as [|[a ty] p IH]; intros i S Fi.
  - destruct i as [v|k m]; [contradiction|]. cbn [ci_path]. destruct (A k m S) as (i' & A1 & A2 & A3). exists i'. rewrite A3, plain_branch. auto.
  - destruct i as [v|k m]; [contradiction|]. rewrite plain_branch in Fi |- *. cbn [fits edit_at ci_path] in *.
    destruct ty as [c|]; [|contradiction]. apply sound_map in S as (M & F). rewrite assoc_map in Fi |- *.
    pose proof (update_ok a (ci_new (Some c)) (fun y => if has_type (Some c) y then ci_path p f y else Panic) m M) as U.
    assert (G : exists u0 y, (match assoc a (cm_vals m) with Some u => u0 = u | None => u0 = CBranch c cm_new end) /\ sound u0 /\ has_type (Some c) u0 = true
      /\ ci_path p f u0 = Ok y /\ sound y /\ plain y = edit_at p g (plain u0)).
    { destruct (assoc a (cm_vals m)) as [u|] eqn:As.
      - cbn [option_map] in Fi. destruct u as [v|c' m']; [contradiction|]. rewrite plain_branch in Fi. destruct Fi as (-> & Fi).
        assert (Su : sound (CBranch c m')). { apply assoc_member in As. rewrite Forall_forall in F. apply (F _ As). }
        destruct (IH (CBranch c m') Su) as (y & Y1 & Y2 & Y3); [now rewrite plain_branch|]. exists (CBranch c m'), y. exact (conj eq_refl (conj Su (conj (proj2 (kind_eqb_eq c c) eq_refl) (conj Y1 (conj Y2 Y3))))).
      - cbn [option_map] in Fi. assert (Su : sound (CBranch c cm_new)). { apply sound_map. split; [apply new_ok|constructor]. }
        destruct (IH (CBranch c cm_new) Su) as (y & Y1 & Y2 & Y3); [rewrite plain_branch; now apply fits_fresh|].
        exists (CBranch c cm_new), y. exact (conj eq_refl (conj Su (conj (proj2 (kind_eqb_eq c c) eq_refl) (conj Y1 (conj Y2 Y3))))). }
    destruct G as (u0 & y & G0 & G1 & G2 & G3 & G4 & G5).
    assert (R : exists m', cm_update a (ci_new (Some c)) (fun y => if has_type (Some c) y then ci_path p f y else Panic) m = Ok m'
      /\ map_ok m' /\ cm_vals m' = assoc_put a y (cm_vals m)).
    { destruct (assoc a (cm_vals m)) as [u|]; subst u0; [apply U|apply (U (CBranch c cm_new)); [reflexivity|]]; now rewrite G2, G3. }
    destruct R as (m' & R1 & R2 & R3). rewrite R1. cbn [bind]. eexists. split; [reflexivity|]. split.
    + apply sound_map. split; [assumption|]. rewrite R3. now apply forall_put.
    + rewrite plain_branch, R3, put_map, G5. do 3 f_equal. destruct (assoc a (cm_vals m)) as [u|]; cbn [option_map]; now subst u0.
Qed.
Lemma keeps_edit p g : keeps g -> keeps (edit_at p g).
Proof. intros K. destruct p as [|[a ty] p]; intros k l; cbn [edit_at]; [apply K|eauto]. Qed.

(** What stands at the end of the path before the edit. *)
Fixpoint base (p : list (str * ctype)) (t : tree) : tree :=
  match t, p with
  | Leaf _, _ => t
  | Node _ _, [] => t
  | Node _ l, (a, ty) :: r => base r (match assoc a l with Some u => u | None => fresh_of ty end)
  end.
Lemma look_edit p g q : forall t, fits p t -> look (path p ++ q) (edit_at p g t) = look q (g (base p t)).
Proof.
  induction p as [|[a ty] p IH]; intros [v|k l] F; try contradiction; cbn [edit_at base path map fst app look]; [reflexivity|].
  rewrite assoc_assoc_put, str_eqb_refl. cbn [fits] in F. destruct ty as [c|]; [|contradiction]. destruct (assoc a l) as [[w|c' m]|]; [contradiction| |].
  - apply IH. apply F.
  - apply IH. now apply fits_fresh.
Qed.
Lemma leaf_elsewhere p g q : forall t, fits p t -> ~ prefix_of (path p) q -> leaf_at q (edit_at p g t) = leaf_at q t.
Proof.
  revert q. induction p as [|[a ty] p IH]; intros q [v|k l] F N; try contradiction.
  - destruct N. now exists q.
  - destruct q as [|b q]; cbn [edit_at]; [reflexivity|]. unfold leaf_at. cbn [look]. rewrite assoc_assoc_put. destruct (str_eqb a b) eqn:E; [|reflexivity].
    apply str_eqb_eq in E. subst b. assert (N' : ~ prefix_of (path p) q). { intros (r & ->). apply N. now exists r. }
    cbn [fits] in F. destruct ty as [c|]; [|contradiction]. destruct (assoc a l) as [[w|c' m]|]; [contradiction| |].
    + apply (IH q (Node c' m)); [apply F|assumption].
    + specialize (IH q (Node c []) (fits_fresh p F c) N'). unfold leaf_at in IH. unfold fresh_of. rewrite IH. apply leaf_empty.
Qed.
(** Paths that share names share the types. *)
Fixpoint agree (p q : list (str * ctype)) : Prop :=
  match p, q with (a, x) :: p', (b, y) :: q' => a = b -> x = y /\ agree p' q' | _, _ => True end.
Lemma agree_sym p : forall q, agree p q -> agree q p.
Proof. induction p as [|[a x] p IH]; intros [|[b y] q]; cbn; auto. intros H E. destruct (H (eq_sym E)) as (-> & A). auto. Qed.
Lemma fits_edit g p' : keeps g -> forall p t, agree p p' -> fits p t -> fits p' t ->
  (forall r, p = p' ++ r -> forall u, fits r u -> fits r (g u)) -> fits p (edit_at p' g t).
Proof.
  intros K. induction p' as [|[a' ty'] p' IH]; intros p [v|k l] A F F' H; try contradiction.
  - cbn [edit_at]. apply (H p eq_refl _ F).
  - cbn [edit_at]. destruct p as [|[a ty] p]; [exact I|]. cbn [fits agree] in *. destruct ty as [c|]; [|contradiction]. destruct ty' as [c'|]; [|contradiction].
    rewrite assoc_assoc_put. destruct (str_eqb a' a) eqn:E; [|exact F]. apply str_eqb_eq in E. subst a'. destruct (A eq_refl) as (Ec & A'). injection Ec as <-.
    assert (H' : forall r, p = p' ++ r -> forall u, fits r u -> fits r (g u)). { intros r ->. now apply H. }
    destruct (assoc a l) as [[w|k' m]|]; [contradiction| |].
    + destruct F as (<- & F). destruct F' as (_ & F'). specialize (IH p (Node k' m) A' F F' H'). destruct (keeps_edit p' g K k' m) as (m' & E). rewrite E in *. auto.
    + specialize (IH p (Node c []) A' (fits_fresh p F c) (fits_fresh p' F' c) H'). unfold fresh_of. destruct (keeps_edit p' g K c []) as (m' & E). rewrite E in *. auto.
Qed.

(** ** Edits keep the shape the file needs *)

Fixpoint path_ok (k : ckind) (p : list (str * ctype)) : Prop :=
  match p with
  | [] => True
  | (a, Some c) :: r => child_ok k (Node c []) /\ (k = KVec -> a = show_N 0) /\ path_ok c r
  | (_, None) :: _ => False
  end.
Lemma child_kind_only k c l l' : child_ok k (Node c l) -> child_ok k (Node c l').
Proof. destruct k, c; cbn; auto. Qed.
Lemma first_key l (x : tree) : map fst l = map show_N (map N.of_nat (seq 0 (length l))) ->
  map fst (assoc_put (show_N 0) x l) = map show_N (map N.of_nat (seq 0 (length (assoc_put (show_N 0) x l)))).
Proof.
  destruct l as [|[a y] l]; [reflexivity|]. cbn [length seq map fst assoc_put]. intros H. injection H as -> H. change (N.of_nat 0) with 0. rewrite str_eqb_refl. cbn [length seq map fst]. now rewrite H.
Qed.
Fixpoint end_kind (k : ckind) (p : list (str * ctype)) : ckind :=
  match p with (_, Some c) :: r => end_kind c r | _ => k end.
Lemma tree_edit V g : keeps g -> forall p k l, fits p (Node k l) -> path_ok k p -> tree_with V (Node k l) ->
  (forall t, tree_with V t -> match t with Node c _ => c = end_kind k p | Leaf _ => False end -> tree_with V (g t)) ->
  tree_with V (edit_at p g (Node k l)).
Proof.
  intros K. induction p as [|[a ty] p IH]; intros k l F P T H.
  - cbn [edit_at]. apply H; [exact T|reflexivity].
  - cbn [edit_at fits path_ok] in *. destruct ty as [c|]; [|contradiction]. destruct P as (P1 & P2 & P3).
    pose proof T as T'. apply tree_with_node in T' as (V1 & C1).
    assert (Sub : exists u m, match assoc a l with Some u => u | None => fresh_of (Some c) end = u /\ u = Node c m /\ fits p u /\ tree_with V u).
    { destruct (assoc a l) as [[w|k' m]|] eqn:E; [contradiction| |].
      - destruct F as (-> & F). eexists _, m. split; [reflexivity|]. split; [reflexivity|]. split; [exact F|]. apply assoc_member in E. rewrite Forall_forall in C1. apply (C1 _ E).
      - eexists _, []. split; [reflexivity|]. split; [reflexivity|]. split; [now apply fits_fresh|]. cbn. auto. }
    destruct Sub as (u & m & -> & -> & F' & Tu).
    assert (Te : tree_with V (edit_at p g (Node c m))). { apply IH; auto. }
    destruct (keeps_edit p g K c m) as (m' & E). apply tree_with_node. split.
    + intros Ek. rewrite (P2 Ek). now apply first_key, V1.
    + rewrite E in *. apply (forall_put (fun t => child_ok k t /\ tree_with V t)); [|exact C1]. split; [|exact Te]. eapply child_kind_only; exact P1.
Qed.

(** ** Several insertions of values *)

Fixpoint put_all (l : list (str * cvalue)) (t : tree) : tree :=
  match l with [] => t | (n, v) :: r => put_all r (put_at [] n (Leaf v) t) end.
Lemma insert_all_acts l : acts (insert_all l) (put_all l).
Proof.
  induction l as [|[n v] l IH]; intros k m S; cbn [insert_all put_all]; [now exists (CBranch k m)|].
  destruct (insert_plain n (CVal v) (CBranch k m) S I) as (i' & E & S' & P). rewrite E. cbn [bind].
  destruct i' as [w|k' m']; [rewrite plain_branch in P; discriminate|]. destruct (IH k' m' S') as (j & J1 & J2 & J3). exists j. split; [exact J1|]. split; [exact J2|]. rewrite J3, P. reflexivity.
Qed.
Lemma put_all_node l : keeps (put_all l).
Proof. induction l as [|[n v] l IH]; intros k m; cbn [put_all put_at]; [eauto|apply IH]. Qed.
Lemma put_all_get l : forall k m n, look [n] (put_all l (Node k m)) = match assoc n (rev l) with Some v => Some (Leaf v) | None => assoc n m end.
Proof.
  induction l as [|[a v] l IH]; intros k m n.
  - cbn. now destruct (assoc n m).
  - cbn [put_all put_at rev]. rewrite IH. assert (E : assoc n (rev l ++ [(a, v)]) = match assoc n (rev l) with Some x => Some x | None => if str_eqb a n then Some v else None end).
    { generalize (rev l). clear. intros l. induction l as [|[b w] l IH]; cbn [app assoc]; [reflexivity|]. destruct (str_eqb b n); auto. }
    rewrite E, assoc_assoc_put. destruct (assoc n (rev l)); [reflexivity|]. destruct (str_eqb a n); reflexivity.
Qed.
Lemma put_all_tree V l c t : (c = KSet \/ c = KEntry) -> Forall (fun nv => V (snd nv)) l -> (exists m, t = Node c m) -> tree_with V t -> tree_with V (put_all l t).
Proof.
  intros Hc H. revert t. induction H as [|[n v] l Hv _ IH]; intros t (m & ->) T; [exact T|]. cbn [put_all put_at]. apply IH; [eauto|].
  apply tree_with_node in T as (T1 & T2). apply tree_with_node. split; [destruct Hc; subst; discriminate|].
  apply (forall_put (fun t => child_ok c t /\ tree_with V t)); [|exact T2]. split; [destruct Hc; subst; exact I|exact Hv].
Qed.
Lemma put_all_fits l a ty r t : ~ In a (map fst l) -> fits ((a, ty) :: r) t -> fits ((a, ty) :: r) (put_all l t).
Proof.
  revert t. induction l as [|[n v] l IH]; intros t N F; [exact F|]. cbn [put_all]. apply IH; [intros X; apply N; now right|].
  destruct t as [w|k m]; [contradiction|]. cbn [put_at fits] in *. destruct ty as [c|]; [|contradiction]. rewrite assoc_assoc_put.
  destruct (str_eqb n a) eqn:E; [apply str_eqb_eq in E; destruct N; now left|exact F].
Qed.

Lemma settings_edit V g p a : keeps g -> forall t, fits ((a, Some KSet) :: p) t -> path_ok KSet p -> settings_with V t ->
  (forall t, tree_with V t -> match t with Node c _ => c = end_kind KSet p | Leaf _ => False end -> tree_with V (g t)) ->
  settings_with V (edit_at ((a, Some KSet) :: p) g t).
Proof.
  intros K t F P (l & -> & T & S) H. eexists. split; [cbn [edit_at]; reflexivity|]. split.
  - apply (tree_edit V g K ((a, Some KSet) :: p) KSet l); auto. cbn [path_ok]. split; [exact I|]. split; [discriminate|exact P].
  - apply (forall_put (fun t => exists m, t = Node KSet m)); [|exact S]. cbn [fits] in F.
    assert (X : exists m, match assoc a l with Some u => u | None => fresh_of (Some KSet) end = Node KSet m).
    { destruct (assoc a l) as [[w|k m]|]; [contradiction| |exists []; reflexivity]. destruct F as (-> & _). eauto. }
    destruct X as (m & ->). apply keeps_edit, K.
Qed.

(** ** The paths of the view options *)

Definition ready (names : list str) (t : tree) : Prop :=
  settings_ok t /\ fits p_view t /\ Forall (fun n => fits (p_table n) t /\ fits (p_script n) t) names.
Ltac differ := let H := fresh in intros H; vm_compute in H; discriminate H.
Lemma agree_vt n : agree (p_view) (p_table n).
Proof. unfold p_table. cbn [p_view app agree]. auto. Qed.
Lemma agree_refl p : agree p p.
Proof. induction p as [|[a x] p IH]; cbn; auto. Qed.
Lemma agree_app p q r : agree q r -> agree (p ++ q) (p ++ r).
Proof. intros H. induction p as [|[a x] p IH]; cbn; auto. Qed.
Lemma agree_tt a b : agree (p_table a) (p_table b).
Proof. apply agree_app. cbn. auto. Qed.
Lemma agree_ss a b : agree (p_script a) (p_script b).
Proof. unfold p_script. cbn. auto. Qed.
Lemma view_script : lit "ooo:view-settings" <> lit "ooo:configuration-settings".
Proof. differ. Qed.
Lemma agree_vs p n : agree ((lit "ooo:view-settings", Some KSet) :: p) (p_script n).
Proof. unfold p_script. cbn [agree]. intros H. now apply view_script in H. Qed.
Lemma agree_sv p n : agree (p_script n) ((lit "ooo:view-settings", Some KSet) :: p).
Proof. apply agree_sym, agree_vs. Qed.
Lemma fits_nil_all l t : fits [] t -> fits [] (put_all l t).
Proof. destruct t as [v|k m]; [contradiction|]. destruct (put_all_node l k m) as (m' & ->). auto. Qed.
Lemma no_self {A} (l r : list A) : l = l ++ r -> r = [].
Proof. intros H. rewrite <- (app_nil_r l) in H at 1. now apply app_inv_head in H. Qed.

Lemma view_ready names b t : ready names t -> value_ok (VString (bc_active b)) -> ready names (edit_at p_view (put_all (book_values b)) t).
Proof.
  intros (S & F & H) V. pose proof (put_all_node (book_values b)) as K. split; [|split].
  - apply (settings_edit value_ok); auto; [cbn; repeat split; auto; discriminate|]. intros u T E. destruct u as [w|c m]; [contradiction|]. cbn in E. subst c.
    apply (put_all_tree _ _ KEntry); eauto. repeat constructor.
  - apply fits_edit; auto; [apply agree_refl|]. intros r E. apply no_self in E. subst r. apply fits_nil_all.
  - rewrite Forall_forall in *. intros n I. destruct (H n I) as (T & Sc). split.
    + apply fits_edit; auto; [apply agree_sym, agree_vt|]. intros r E. unfold p_table in E. apply app_inv_head in E. subst r. intros u. apply put_all_fits. vm_compute. intuition discriminate.
    + apply fits_edit; auto; [apply agree_sv|]. intros r E. exfalso. unfold p_script, p_view in E. cbn [app] in E. injection E as E _. vm_compute in E. discriminate.
Qed.
Lemma table_ready names a s t : ready names t -> In a names -> Forall (fun nv => value_ok (snd nv)) (sheet_values s) -> ready names (edit_at (p_table a) (put_all (sheet_values s)) t).
Proof.
  intros (S & F & H) Ia V. pose proof (put_all_node (sheet_values s)) as K. pose proof (proj1 (Forall_forall _ _) H a Ia) as (Fa & _). split; [|split].
  - apply (settings_edit value_ok); auto; [cbn; repeat split; auto; discriminate|]. intros u T E. destruct u as [w|c m]; [contradiction|]. cbn in E. subst c.
    apply (put_all_tree _ _ KEntry); eauto.
  - apply fits_edit; auto; [apply agree_vt|]. intros r E. exfalso. apply (f_equal (@length _)) in E. unfold p_table in E. rewrite !app_length in E. cbn [length] in E. lia.
  - rewrite Forall_forall in *. intros n I. destruct (H n I) as (T & Sc). split.
    + apply fits_edit; auto; [apply agree_tt|]. intros r E. assert (r = []). { apply (f_equal (@length _)) in E. unfold p_table in E. rewrite !app_length in E. cbn [length] in E. destruct r; [reflexivity|cbn in E; lia]. }
      subst r. apply fits_nil_all.
    + apply fits_edit; auto; [apply agree_sv|]. intros r E. exfalso. unfold p_script, p_table, p_view in E. cbn [app] in E. injection E as E _. vm_compute in E. discriminate.
Qed.
Lemma script_ready names a t : ready names t -> In a names -> ready names (edit_at (p_script a) (put_all [(lit "CodeName", VString a)]) t).
Proof.
  intros (S & F & H) Ia. pose proof (put_all_node [(lit "CodeName", VString a)]) as K. pose proof (proj1 (Forall_forall _ _) H a Ia) as (_ & Fa). split; [|split].
  - apply (settings_edit value_ok); auto; [cbn; repeat split; auto; discriminate|]. intros u T E. destruct u as [w|c m]; [contradiction|]. cbn in E. subst c.
    apply (put_all_tree _ _ KEntry); eauto. repeat constructor.
  - apply fits_edit; auto; [apply agree_vs|]. intros r E. exfalso. unfold p_script, p_view in E. cbn [app] in E. injection E as E _. vm_compute in E. discriminate.
  - rewrite Forall_forall in *. intros n I. destruct (H n I) as (T & Sc). split.
    + apply fits_edit; auto; [apply agree_vs|]. intros r E. exfalso. unfold p_script, p_table, p_view in E. cbn [app] in E. injection E as E _. vm_compute in E. discriminate.
    + apply fits_edit; auto; [apply agree_ss|]. intros r E. assert (r = []). { apply (f_equal (@length _)) in E. unfold p_script in E. cbn [app length] in E. destruct r; [reflexivity|cbn in E; lia]. }
      subst r. apply fits_nil_all.
Qed.

(** ** All the edits *)

Lemma base_node p : forall t, fits p t -> exists k m, base p t = Node k m.
Proof.
  induction p as [|[a ty] p IH]; intros [v|k l] F; try contradiction; cbn [base]; [eauto|]. cbn [fits] in F. destruct ty as [c|]; [|contradiction].
  destruct (assoc a l) as [[w|k' m]|]; [contradiction| |]; apply IH; [apply F|now apply fits_fresh].
Qed.
Lemma edit_value p l t n v : fits p t -> assoc n (rev l) = Some v -> leaf_at (path p ++ [n]) (edit_at p (put_all l) t) = Some v.
Proof.
  intros F A. unfold leaf_at. rewrite look_edit by assumption. destruct (base_node p t F) as (k & m & ->). now rewrite put_all_get, A.
Qed.
Lemma put_all_other l q : forall t, (forall n, In n (map fst l) -> ~ prefix_of [n] q) -> leaf_at q (put_all l t) = leaf_at q t.
Proof.
  induction l as [|[a v] l IH]; intros t H; [reflexivity|]. cbn [put_all]. rewrite IH by (intros n I; apply H; now right).
  destruct t as [w|k m]; [reflexivity|]. apply (leaf_other [] a (Leaf v) (Node k m) q I). apply (H a). now left.
Qed.
Lemma edit_other l p : forall t q, fits p t -> (forall n, In n (map fst l) -> ~ prefix_of (path p ++ [n]) q) ->
  leaf_at q (edit_at p (put_all l) t) = leaf_at q t.
Proof.
  induction p as [|[a ty] p IH]; intros [v|k m] q F N; try contradiction.
  - cbn [edit_at]. now apply put_all_other.
  - destruct q as [|b q]; cbn [edit_at]; [reflexivity|]. unfold leaf_at. cbn [look]. rewrite assoc_assoc_put. destruct (str_eqb a b) eqn:E; [|reflexivity].
    apply str_eqb_eq in E. subst b.
    assert (N' : forall n, In n (map fst l) -> ~ prefix_of (path p ++ [n]) q). { intros n I (r & ->). apply (N n I). now exists r. }
    cbn [fits] in F. destruct ty as [c|]; [|contradiction]. destruct (assoc a m) as [[w|c' m']|]; [contradiction| |].
    + apply (IH (Node c' m') q); [apply F|assumption].
    + specialize (IH (Node c []) q (fits_fresh p F c) N'). unfold leaf_at in IH. unfold fresh_of. rewrite IH. apply leaf_empty.
Qed.
Definition sheet_names : list str := map fst (sheet_values sheetcfg0).
Definition untouched (names : list str) (q : list str) : Prop := forall b, In b names ->
  (forall n, In n sheet_names -> ~ prefix_of (path (p_table b) ++ [n]) q) /\ ~ prefix_of (path (p_script b) ++ [lit "CodeName"]) q.
Lemma script_view b r q : ~ prefix_of (path (p_script b) ++ r) (lit "ooo:view-settings" :: q).
Proof. unfold prefix_of, p_script. cbn [path map fst app]. intros (x & E). injection E as E _. vm_compute in E. discriminate. Qed.
Lemma table_untouched names a n : ~ In a names -> untouched names (path (p_table a) ++ [n]).
Proof.
  intros D b Ib. split; [|apply script_view]. intros m _. unfold prefix_of, p_table, p_view. cbn [path map fst app]. intros (r & E). injection E as E. congruence.
Qed.
Lemma view_untouched names n : untouched names (path p_view ++ [n]).
Proof.
  intros b _. split; [|apply script_view]. intros m _. unfold prefix_of, p_table, p_view. cbn [path map fst app]. intros (r & E). injection E as _ E. discriminate.
Qed.
Lemma sheets_done names l : forall c, sound c -> ready names (plain c) -> (forall s, In s l -> In (fst s) names) ->
  Forall (fun s => Forall (fun nv => value_ok (snd nv)) (sheet_values (snd s))) l ->
  exists c', calc_sheets l c = Ok c' /\ sound c' /\ ready names (plain c')
  /\ (forall q, untouched (map fst l) q -> leaf_at q (plain c') = leaf_at q (plain c))
  /\ (NoDup (map fst l) -> forall a s n v, In (a, s) l -> assoc n (rev (sheet_values s)) = Some v -> leaf_at (path (p_table a) ++ [n]) (plain c') = Some v).
Proof.
  induction l as [|[a s] l IH]; intros c S R In_l V.
  - exists c. split; [reflexivity|]. split; [exact S|]. split; [exact R|]. split; [reflexivity|]. intros _ ? ? ? ? [].
  - inversion V as [|? ? V1 V2]; subst. cbn [snd] in V1. assert (Ia : In a names) by (apply (In_l (a, s)); now left).
    assert (Fa : fits (p_table a) (plain c)). { destruct R as (_ & _ & H). rewrite Forall_forall in H. apply (H a Ia). }
    destruct (path_edit _ _ (p_table a) (insert_all_acts (sheet_values s)) c S Fa) as (c1 & E1 & S1 & P1).
    assert (R1 : ready names (plain c1)). { rewrite P1. now apply table_ready. }
    assert (Fs : fits (p_script a) (plain c1)). { destruct R1 as (_ & _ & H). rewrite Forall_forall in H. apply (H a Ia). }
    destruct (path_edit _ _ (p_script a) (insert_all_acts [(lit "CodeName", VString a)]) c1 S1 Fs) as (c2 & E2 & S2 & P2).
    assert (R2 : ready names (plain c2)). { rewrite P2. now apply script_ready. }
    destruct (IH c2 S2 R2) as (c' & E & S' & R' & U & W); [intros x Ix; apply In_l; now right|exact V2|].
    exists c'. cbn [calc_sheets]. rewrite E1. cbn [bind]. rewrite E2. cbn [bind]. split; [exact E|]. split; [exact S'|]. split; [exact R'|]. split.
    + intros q Hq. rewrite U; [|intros b Ib; apply Hq; now right]. destruct (Hq a (or_introl eq_refl)) as (H1 & H2).
      rewrite P2, edit_other; [rewrite P1; apply edit_other; [exact Fa|exact H1]|exact Fs|]. intros n [<-|[]]. exact H2.
    + intros D a0 s0 n v I A. cbn [map fst] in D. inversion D as [|? ? N D']; subst. destruct I as [I|I]; [|now apply (W D' a0 s0)].
      injection I as <- <-. rewrite U.
      * rewrite P2, edit_other; [rewrite P1; now apply edit_value|exact Fs|]. intros n' _. apply script_view.
      * now apply table_untouched.
Qed.

(** ** What is read *)

Lemma value_split p q : forall c, ci_get_value (p ++ q) c = match ci_get p c with Some cc => ci_get_value q cc | None => None end.
Proof.
  induction p as [|a p IH]; intros c; cbn [app]; [now destruct c|]. destruct c as [v|k m]; [reflexivity|]. cbn [ci_get_value ci_get]. destruct (cm_get a m); [apply IH|reflexivity].
Qed.
Lemma u32_back n : n <= u32_max -> i32_as_u32 (as_i32 (Z.of_N n)) = n.
Proof.
  unfold u32_max, i32_as_u32, as_i32. intros H. rewrite (Z.mod_small (Z.of_N n)) by lia. destruct (Z.of_N n <? 2147483648)%Z eqn:E.
  - rewrite Z.mod_small by lia. lia.
  - replace (Z.of_N n - 4294967296)%Z with (Z.of_N n + (-1) * 4294967296)%Z by lia. rewrite Z.mod_add by lia. rewrite Z.mod_small by lia. lia.
Qed.
Lemma u32_value_ok n : value_ok (u32_value n).
Proof.
  cbn [value_ok u32_value]. unfold as_i32. pose proof (Z.mod_pos_bound (Z.of_N n) 4294967296). destruct (_ <? 2147483648)%Z eqn:E; lia.
Qed.
Lemma mode_back m : i16_splitmode (splitmode_i16 m) = Ok m.
Proof. now destruct m. Qed.

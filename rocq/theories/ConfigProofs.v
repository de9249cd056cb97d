(** Proofs about the settings tree. *)
From Verif Require Import Base Lib BookModel BookProps CellModel NumModel NumSpec XmlSpec ConfigModel ConfigSpec.

(** ** Induction over nested items *)

Section Induction.
  Variable P : citem -> Prop.
  Hypothesis HV : forall v, P (CVal v).
  Hypothesis HB : forall k ix vals, Forall (fun kv => P (snd kv)) vals -> P (CBranch k (CMap ix vals)).
  Fixpoint citem_rect' (x : citem) : P x :=
    match x with
    | CVal v => HV v
    | CBranch k (CMap ix vals) => HB k ix vals
        ((fix all (l : list (str * citem)) : Forall (fun kv => P (snd kv)) l :=
            match l with [] => Forall_nil _ | kv :: r => Forall_cons kv (citem_rect' (snd kv)) (all r) end) vals)
    end.
End Induction.
Section TreeInduction.
  Variable P : tree -> Prop.
  Hypothesis HL : forall v, P (Leaf v).
  Hypothesis HN : forall k l, Forall (fun kv => P (snd kv)) l -> P (Node k l).
  Fixpoint tree_rect' (t : tree) : P t :=
    match t with
    | Leaf v => HL v
    | Node k l => HN k l
        ((fix all (l : list (str * tree)) : Forall (fun kv => P (snd kv)) l :=
            match l with [] => Forall_nil _ | kv :: r => Forall_cons kv (tree_rect' (snd kv)) (all r) end) l)
    end.
End TreeInduction.

Lemma sound_branch k ix vals : sound (CBranch k (CMap ix vals)) <-> indexed ix (map fst vals) /\ Forall (fun kv => sound (snd kv)) vals.
Proof.
  cbn [sound]. enough (H : forall l, (fix all (l : list (str * citem)) := match l with [] => True | kv :: r => sound (snd kv) /\ all r end) l <-> Forall (fun kv => sound (snd kv)) l)
    by (rewrite H; tauto).
  induction l as [|kv l IH]; [split; auto|]. rewrite IH. split; [intros (A & B); now constructor|intros A; inversion A; auto].
Qed.
Lemma tree_with_node V k l : tree_with V (Node k l) <-> (k = KVec -> map fst l = map show_N (map N.of_nat (seq 0 (length l))))
  /\ Forall (fun kv => child_ok k (snd kv) /\ tree_with V (snd kv)) l.
Proof.
  cbn [tree_with]. enough (H : forall l, (fix all (l : list (str * tree)) := match l with [] => True | kv :: r => (child_ok k (snd kv) /\ tree_with V (snd kv)) /\ all r end) l
    <-> Forall (fun kv => child_ok k (snd kv) /\ tree_with V (snd kv)) l) by (rewrite H; tauto).
  clear l. induction l as [|kv l IH]; [split; auto|]. rewrite IH. split; [intros (A & B); now constructor|intros A; inversion A; auto].
Qed.
Lemma tree_ok_node k l : tree_ok (Node k l) <-> (k = KVec -> map fst l = map show_N (map N.of_nat (seq 0 (length l))))
  /\ Forall (fun kv => child_ok k (snd kv) /\ tree_ok (snd kv)) l.
Proof. apply tree_with_node. Qed.
Lemma no_blank_node k l : no_blank (Node k l) <-> Forall (fun kv => blank (snd kv) = false /\ no_blank (snd kv)) l.
Proof. cbn [no_blank]. induction l as [|kv l IH]; [split; auto|]. rewrite IH. split; [intros (A & B); now constructor|intros A; inversion A; auto]. Qed.

(** ** Maps *)

Lemma NoDup_snoc {A} (l : list A) x : NoDup l -> ~ In x l -> NoDup (l ++ [x]).
Proof.
  induction 1 as [|y l H _ IH]; intros N; cbn [app]; [constructor; [easy|constructor]|]. constructor.
  - rewrite in_app_iff. intros [K|[K|[]]]; [auto|]. apply N. now left.
  - apply IH. intros K. apply N. now right.
Qed.

Section Maps.
  Context {T : Type}.
  Implicit Types (m : cmap T) (l : list (str * T)).
  Definition keys l : list str := map fst l.
  Definition map_ok m : Prop := indexed (cm_index m) (keys (cm_vals m)).
  Lemma new_ok : map_ok cm_new.
  Proof. split; [constructor|reflexivity]. Qed.
  Lemma pos_nth k l : forall i, pos_of k (keys l) = Some i -> exists x, nth_error l i = Some (k, x) /\ assoc k l = Some x.
  Proof.
    induction l as [|[a x] l IH]; intros i; cbn [keys map fst pos_of assoc]; [discriminate|].
    destruct (str_eqb a k) eqn:E.
    - intros [= <-]. apply str_eqb_eq in E. subst a. exists x. auto.
    - fold (keys l). destruct (pos_of k (keys l)) as [j|]; [|discriminate]. intros [= <-]. apply (IH j eq_refl).
  Qed.
  Lemma pos_none k l : pos_of k (keys l) = None <-> assoc k l = None.
  Proof.
    induction l as [|[a x] l IH]; cbn [keys map fst pos_of assoc]; [tauto|]. fold (keys l).
    destruct (str_eqb a k); [split; discriminate|]. rewrite <- IH. destruct (pos_of k (keys l)); cbn; split; congruence.
  Qed.
  Lemma assoc_in k l : assoc k l = None <-> ~ In k (keys l).
  Proof.
    induction l as [|[a x] l IH]; cbn [assoc keys map fst In]; [tauto|]. fold (keys l). destruct (str_eqb a k) eqn:E.
    - apply str_eqb_eq in E. split; [discriminate|intros H; now destruct H; left].
    - apply str_eqb_neq in E. rewrite IH. tauto.
  Qed.
  Lemma get_assoc k m : map_ok m -> cm_get k m = assoc k (cm_vals m).
  Proof.
    intros (_ & H). unfold cm_get. rewrite H. destruct (pos_of k (keys (cm_vals m))) as [i|] eqn:E.
    - destruct (pos_nth k _ i E) as (x & -> & ->). reflexivity.
    - apply pos_none in E. now rewrite E.
  Qed.
  Lemma set_nth_put k x l : forall i y, pos_of k (keys l) = Some i -> nth_error l i = Some (k, y) -> set_nth i (k, x) l = assoc_put k x l.
  Proof.
    induction l as [|[a z] l IH]; intros i y; cbn [keys map fst pos_of assoc_put]; [discriminate|]. fold (keys l).
    destruct (str_eqb a k) eqn:E.
    - intros [= <-] _. apply str_eqb_eq in E. now subst a.
    - destruct (pos_of k (keys l)) as [j|] eqn:Ej; [|discriminate]. intros [= <-] N. cbn [set_nth nth_error] in *. now rewrite (IH j y).
  Qed.
  Lemma put_fresh k x l : assoc k l = None -> assoc_put k x l = l ++ [(k, x)].
  Proof.
    induction l as [|[a z] l IH]; cbn [assoc assoc_put app]; [reflexivity|]. destruct (str_eqb a k); [discriminate|]. intros H. now rewrite IH.
  Qed.
  Lemma put_keys k x l : assoc k l <> None -> keys (assoc_put k x l) = keys l.
  Proof.
    induction l as [|[a z] l IH]; cbn [assoc assoc_put]; [easy|]. destruct (str_eqb a k); [reflexivity|]. intros H. cbn [keys map fst]. f_equal. now apply IH.
  Qed.
  Lemma pos_app k l a (x : T) : pos_of k (keys (l ++ [(a, x)])) = match pos_of k (keys l) with Some i => Some i | None => if str_eqb a k then Some (length l) else None end.
  Proof.
    induction l as [|[b z] l IH]; cbn [app keys map fst pos_of length]; [now destruct (str_eqb a k)|]. fold (keys l) (keys (l ++ [(a, x)])).
    destruct (str_eqb b k); [reflexivity|]. rewrite IH. destruct (pos_of k (keys l)); [reflexivity|]. destruct (str_eqb a k); reflexivity.
  Qed.
  Lemma push_ok k x m : map_ok m -> assoc k (cm_vals m) = None ->
    map_ok (CMap (am_put k (length (cm_vals m)) (cm_index m)) (cm_vals m ++ [(k, x)])).
  Proof.
    intros (D & H) N. split; cbn [cm_index cm_vals].
    - unfold keys. rewrite map_app. cbn. apply assoc_in in N. now apply NoDup_snoc.
    - intros j. rewrite pos_app, am_get_put, H. destruct (str_eqb k j) eqn:E; [|now destruct (pos_of j (keys (cm_vals m)))].
      apply str_eqb_eq in E. subst j. apply pos_none in N. now rewrite N.
  Qed.
  Lemma insert_ok k x m : map_ok m -> exists m', cm_insert k x m = Ok m' /\ map_ok m' /\ cm_vals m' = assoc_put k x (cm_vals m).
  Proof.
    intros H. destruct H as (D & H). pose proof (H k) as Hk. unfold cm_insert. rewrite Hk. destruct (pos_of k (keys (cm_vals m))) as [i|] eqn:E.
    - destruct (pos_nth k _ i E) as (y & Ny & A). rewrite Ny. eexists. split; [reflexivity|].
      rewrite (set_nth_put k x _ i y E Ny). split; [|reflexivity]. split; cbn [cm_index cm_vals]; rewrite put_keys by congruence; auto.
    - apply pos_none in E. eexists. split; [reflexivity|]. split; [apply push_ok; [split|]; auto|]. cbn. now rewrite put_fresh.
  Qed.
  Lemma update_ok k d f m : map_ok m ->
    match assoc k (cm_vals m) with
    | Some x => forall y, f x = Ok y -> exists m', cm_update k d f m = Ok m' /\ map_ok m' /\ cm_vals m' = assoc_put k y (cm_vals m)
    | None => forall x y, d = Ok x -> f x = Ok y -> exists m', cm_update k d f m = Ok m' /\ map_ok m' /\ cm_vals m' = assoc_put k y (cm_vals m)
    end.
  Proof.
    intros H. destruct (assoc k (cm_vals m)) as [x|] eqn:A.
    - intros y F. destruct H as (D & H). unfold cm_update. rewrite (H k). destruct (pos_of k (keys (cm_vals m))) as [i|] eqn:E; [|apply pos_none in E; congruence].
      cbn [bind]. rewrite (H k), E. destruct (pos_nth k _ i E) as (z & Nz & Az). rewrite Nz. assert (z = x) by congruence. subst z. rewrite F. cbn [bind].
      eexists. split; [reflexivity|]. rewrite (set_nth_put k y _ i x E Nz). split; [|reflexivity]. split; cbn [cm_index cm_vals]; rewrite put_keys by congruence; auto.
    - intros x y D F. pose proof (push_ok k x m H A) as P. unfold cm_update. destruct H as (_ & H). rewrite (H k). pose proof A as A'. apply pos_none in A'. rewrite A', D. cbn [bind cm_index cm_vals].
      rewrite am_get_put, str_eqb_refl. rewrite nth_error_app2, Nat.sub_diag by reflexivity. cbn [nth_error]. rewrite F. cbn [bind].
      eexists. split; [reflexivity|]. assert (E : set_nth (length (cm_vals m)) (k, y) (cm_vals m ++ [(k, x)]) = assoc_put k y (cm_vals m)).
      { rewrite put_fresh by assumption. clear. generalize (cm_vals m). intros l. induction l as [|z l IH]; [reflexivity|]. cbn [length app set_nth]. now rewrite IH. }
      rewrite E. split; [|reflexivity]. destruct P as (P1 & P2). cbn [cm_index cm_vals] in *. rewrite put_fresh by assumption.
      assert (K : keys (cm_vals m ++ [(k, y)]) = keys (cm_vals m ++ [(k, x)])) by (unfold keys; now rewrite !map_app). split; cbn [cm_index cm_vals]; rewrite K; assumption.
  Qed.
  (** Otherwise nothing comes of it. *)
  Lemma update_fail k d f m : map_ok m ->
    match assoc k (cm_vals m) with
    | Some x => f x = Panic -> cm_update k d f m = Panic
    | None => (d = Panic -> cm_update k d f m = Panic) /\ (forall x, d = Ok x -> f x = Panic -> cm_update k d f m = Panic)
    end.
  Proof.
    intros H. destruct (assoc k (cm_vals m)) as [x|] eqn:A.
    - intros F. destruct H as (D & H). unfold cm_update. rewrite (H k). destruct (pos_of k (keys (cm_vals m))) as [i|] eqn:E; [|apply pos_none in E; congruence].
      cbn [bind]. rewrite (H k), E. destruct (pos_nth k _ i E) as (z & Nz & Az). rewrite Nz. assert (z = x) by congruence. subst z. now rewrite F.
    - destruct H as (_ & H). pose proof A as A'. apply pos_none in A'. unfold cm_update. rewrite (H k), A'. split; [intros ->; reflexivity|].
      intros x -> F. cbn [bind cm_index cm_vals]. rewrite am_get_put, str_eqb_refl. rewrite nth_error_app2, Nat.sub_diag by reflexivity. cbn [nth_error]. now rewrite F.
  Qed.
  Lemma assoc_assoc_put k j x l : assoc j (assoc_put k x l) = if str_eqb k j then Some x else assoc j l.
  Proof.
    induction l as [|[a z] l IH]; cbn [assoc_put assoc]; [reflexivity|]. destruct (str_eqb a k) eqn:E; cbn [assoc].
    - apply str_eqb_eq in E. subst a. now destruct (str_eqb k j).
    - rewrite IH. destruct (str_eqb a j) eqn:F; [|reflexivity]. apply str_eqb_eq in F. subst j. destruct (str_eqb k a) eqn:G; [|reflexivity].
      apply str_eqb_eq in G. subst k. now rewrite str_eqb_refl in E.
  Qed.
End Maps.
Lemma assoc_map {T U} (f : T -> U) k l : assoc k (map (fun kv => (fst kv, f (snd kv))) l) = option_map f (assoc k l).
Proof. induction l as [|[a x] l IH]; cbn [map assoc fst snd]; [reflexivity|]. now destruct (str_eqb a k). Qed.
Lemma put_map {T U} (f : T -> U) k x l : map (fun kv => (fst kv, f (snd kv))) (assoc_put k x l) = assoc_put k (f x) (map (fun kv => (fst kv, f (snd kv))) l).
Proof. induction l as [|[a y] l IH]; cbn [map assoc_put fst snd]; [reflexivity|]. destruct (str_eqb a k); cbn [map fst snd]; [reflexivity|]. now rewrite IH. Qed.
Lemma assoc_member {T} k (l : list (str * T)) x : assoc k l = Some x -> In (k, x) l.
Proof. induction l as [|[a y] l IH]; cbn [assoc]; [discriminate|]. destruct (str_eqb a k) eqn:E; [apply str_eqb_eq in E; intros [= ->]; left; now subst|right; auto]. Qed.
Lemma forall_put {T} (P : T -> Prop) k x l : P x -> Forall (fun kv : str * T => P (snd kv)) l -> Forall (fun kv => P (snd kv)) (assoc_put k x l).
Proof.
  intros H. induction 1 as [|[a y] l Hy Hl IH]; cbn [assoc_put]; [now repeat constructor|]. destruct (str_eqb a k); constructor; auto.
Qed.

(** ** Trees *)

Lemma plain_branch k m : plain (CBranch k m) = Node k (map (fun kv => (fst kv, plain (snd kv))) (cm_vals m)).
Proof. now destruct m. Qed.
Lemma sound_map k m : sound (CBranch k m) <-> map_ok m /\ Forall (fun kv => sound (snd kv)) (cm_vals m).
Proof. destruct m as [ix vals]. apply sound_branch. Qed.
Lemma get_look p : forall x, sound x -> option_map plain (ci_get p x) = look p (plain x).
Proof.
  induction p as [|n p IH]; intros [v|k m] S; cbn [ci_get look]; try reflexivity. apply sound_map in S as (M & F).
  rewrite plain_branch. cbn [look]. rewrite assoc_map, (get_assoc n m M). destruct (assoc n (cm_vals m)) as [y|] eqn:A; [|reflexivity].
  cbn [option_map]. apply IH. apply assoc_member in A. rewrite Forall_forall in F. apply (F _ A).
Qed.
Lemma get_sound p : forall x y, sound x -> ci_get p x = Some y -> sound y.
Proof.
  induction p as [|n p IH]; intros [v|k m] y S; cbn [ci_get]; try (intros [= <-]; exact S). apply sound_map in S as (M & F).
  rewrite (get_assoc n m M). destruct (assoc n (cm_vals m)) as [z|] eqn:A; [|discriminate]. apply IH. apply assoc_member in A. rewrite Forall_forall in F. apply (F _ A).
Qed.
Lemma get_value p : forall x, ci_get_value p x = match ci_get p x with Some (CVal v) => Some v | _ => None end.
Proof.
  induction p as [|n p IH]; intros [v|k m]; cbn [ci_get ci_get_value]; try reflexivity. destruct (cm_get n m); [apply IH|reflexivity].
Qed.
Lemma plain_leaf x v : plain x = Leaf v <-> x = CVal v.
Proof. destruct x as [w|k [ix vals]]; cbn; split; try discriminate; congruence. Qed.

(** ** Insertion at a path *)

Lemma insert_plain n x i : sound i -> sound x ->
  match i with
  | CBranch _ _ => exists i', ci_insert n x i = Ok i' /\ sound i' /\ plain i' = put_at [] n (plain x) (plain i)
  | CVal _ => ci_insert n x i = Panic
  end.
Proof.
  destruct i as [v|k m]; intros S X; [reflexivity|]. apply sound_map in S as (M & F). destruct (insert_ok n x m M) as (m' & I & M' & V).
  exists (CBranch k m'). cbn [ci_insert]. rewrite I. split; [reflexivity|]. split.
  - apply sound_map. split; [assumption|]. rewrite V. now apply forall_put.
  - rewrite !plain_branch, V. cbn [put_at]. now rewrite put_map.
Qed.
Lemma fits_fresh p : Forall (fun q : str * ctype => snd q <> None) p -> forall k, fits p (Node k []).
Proof. induction 1 as [|[a [c|]] p H P IH]; intros k; cbn [fits assoc snd] in *; auto. Qed.
Lemma kind_eqb_eq a b : ckind_eqb a b = true <-> a = b.
Proof. destruct a, b; cbn; split; congruence. Qed.
Lemma has_type_plain k x : has_type (Some k) x = match plain x with Node k' _ => ckind_eqb k k' | Leaf _ => false end.
Proof. destruct x as [v|k' m]; [reflexivity|]. rewrite plain_branch. reflexivity. Qed.
Lemma path_plain n x p : sound x -> forall i, sound i -> fits p (plain i) ->
  exists i', ci_path p (ci_insert n x) i = Ok i' /\ sound i' /\ plain i' = put_at p n (plain x) (plain i).
Proof.
  intros X. induction p as [|[a ty] p IH]; intros i S Fi.
  - destruct i as [v|k m]; [contradiction|]. cbn [ci_path]. apply (insert_plain n x (CBranch k m) S X).
  - destruct i as [v|k m]; [contradiction|]. rewrite plain_branch in Fi |- *. cbn [fits put_at ci_path] in *.
    destruct ty as [c|]; [|contradiction]. apply sound_map in S as (M & F). rewrite assoc_map in Fi |- *.
    pose proof (update_ok a (ci_new (Some c)) (fun y => if has_type (Some c) y then ci_path p (ci_insert n x) y else Panic) m M) as U.
    assert (G : exists u0 y, (match assoc a (cm_vals m) with Some u => u0 = u | None => u0 = CBranch c cm_new end) /\ sound u0 /\ has_type (Some c) u0 = true
      /\ ci_path p (ci_insert n x) u0 = Ok y /\ sound y /\ plain y = put_at p n (plain x) (plain u0)).
    { destruct (assoc a (cm_vals m)) as [u|] eqn:A.
      - cbn [option_map] in Fi. destruct u as [v|c' m']; [contradiction|]. rewrite plain_branch in Fi. destruct Fi as (-> & Fi).
        assert (Su : sound (CBranch c m')). { apply assoc_member in A. rewrite Forall_forall in F. apply (F _ A). }
        destruct (IH (CBranch c m') Su) as (y & Y1 & Y2 & Y3); [now rewrite plain_branch|]. exists (CBranch c m'), y. exact (conj eq_refl (conj Su (conj (proj2 (kind_eqb_eq c c) eq_refl) (conj Y1 (conj Y2 Y3))))).
      - cbn [option_map] in Fi. assert (Su : sound (CBranch c cm_new)). { apply sound_map. split; [apply new_ok|constructor]. }
        destruct (IH (CBranch c cm_new) Su) as (y & Y1 & Y2 & Y3); [rewrite plain_branch; now apply fits_fresh|].
        exists (CBranch c cm_new), y. exact (conj eq_refl (conj Su (conj (proj2 (kind_eqb_eq c c) eq_refl) (conj Y1 (conj Y2 Y3))))). }
    destruct G as (u0 & y & G0 & G1 & G2 & G3 & G4 & G5).
    assert (R : exists m', cm_update a (ci_new (Some c)) (fun y => if has_type (Some c) y then ci_path p (ci_insert n x) y else Panic) m = Ok m'
      /\ map_ok m' /\ cm_vals m' = assoc_put a y (cm_vals m)).
    { destruct (assoc a (cm_vals m)) as [u|]; subst u0; [apply U|apply (U (CBranch c cm_new)); [reflexivity|]]; now rewrite G2, G3. }
    destruct R as (m' & R1 & R2 & R3). rewrite R1. cbn [bind]. eexists. split; [reflexivity|]. split.
    + apply sound_map. split; [assumption|]. rewrite R3. now apply forall_put.
    + rewrite plain_branch, R3, put_map, G5. do 3 f_equal. destruct (assoc a (cm_vals m)) as [u|]; cbn [option_map]; now subst u0.
Qed.
Lemma path_panics n x p : sound x -> forall i, sound i -> ~ fits p (plain i) -> ci_path p (ci_insert n x) i = Panic.
Proof.
  intros X. induction p as [|[a ty] p IH]; intros i S Fi.
  - destruct i as [v|k m]; [reflexivity|]. rewrite plain_branch in Fi. cbn [fits] in Fi. tauto.
  - destruct i as [v|k m]; [reflexivity|]. rewrite plain_branch in Fi. cbn [fits ci_path] in *. apply sound_map in S as (M & F). rewrite assoc_map in Fi.
    pose proof (update_fail a (ci_new ty) (fun y => if has_type ty y then ci_path p (ci_insert n x) y else Panic) m M) as U.
    assert (R : cm_update a (ci_new ty) (fun y => if has_type ty y then ci_path p (ci_insert n x) y else Panic) m = Panic); [|now rewrite R].
    destruct (assoc a (cm_vals m)) as [u|] eqn:A; cbn [option_map] in Fi.
    + apply U. assert (Su : sound u). { apply assoc_member in A. rewrite Forall_forall in F. apply (F _ A). }
      destruct ty as [c|].
      * rewrite has_type_plain. destruct u as [v|c' m']; [reflexivity|]. rewrite plain_branch in *. destruct (ckind_eqb c c') eqn:E; [|reflexivity].
        apply kind_eqb_eq in E. subst c'. apply IH; [assumption|]. rewrite plain_branch. tauto.
      * destruct u as [v|c' m']; cbn [has_type]; [|reflexivity]. destruct p as [|[b q] p]; reflexivity.
    + destruct ty as [c|]; [|now apply U]. apply (proj2 U (CBranch c cm_new)); [reflexivity|].
      replace (has_type (Some c) (CBranch c cm_new)) with true by (symmetry; now apply kind_eqb_eq).
      apply IH; [apply sound_map; split; [apply new_ok|constructor]|]. rewrite plain_branch. cbn [cm_vals cm_new map]. intros K. apply Fi. clear - K.
      revert c K. induction p as [|[b [q|]] p IH]; intros c K; cbn [fits assoc] in K; constructor; try contradiction; [discriminate|assumption].
Qed.

(** ** What is found after an insertion *)

Lemma look_put_at p : forall n x t q, fits p t -> look (map fst p ++ n :: q) (put_at p n x t) = look q x.
Proof.
  induction p as [|[a ty] p IH]; intros n x [v|k l] q F; try contradiction; cbn [put_at map fst app look].
  - now rewrite assoc_assoc_put, str_eqb_refl.
  - rewrite assoc_assoc_put, str_eqb_refl. cbn [fits] in F. destruct ty as [c|]; [|contradiction]. destruct (assoc a l) as [[w|c' m]|]; [contradiction| |].
    + apply IH. apply F.
    + apply IH. now apply fits_fresh.
Qed.
Definition prefix_of {A} (p q : list A) : Prop := exists r, q = p ++ r.
Definition leaf_at (q : list str) (t : tree) : option cvalue := match look q t with Some (Leaf v) => Some v | _ => None end.
Lemma leaf_empty q k : leaf_at q (Node k []) = None.
Proof. destruct q; reflexivity. Qed.
Lemma leaf_other p : forall n x t q, fits p t -> ~ prefix_of (map fst p ++ [n]) q -> leaf_at q (put_at p n x t) = leaf_at q t.
Proof.
  induction p as [|[a ty] p IH]; intros n x [v|k l] q F N; try contradiction; destruct q as [|b q]; cbn [put_at]; try reflexivity.
  - unfold leaf_at. cbn [look]. rewrite assoc_assoc_put. destruct (str_eqb n b) eqn:E; [|reflexivity]. apply str_eqb_eq in E. subst b. destruct N. now exists q.
  - unfold leaf_at. cbn [look]. rewrite assoc_assoc_put. destruct (str_eqb a b) eqn:E; [|reflexivity]. apply str_eqb_eq in E. subst b.
    assert (N' : ~ prefix_of (map fst p ++ [n]) q). { intros (r & ->). apply N. now exists r. }
    cbn [fits] in F. destruct ty as [c|]; [|contradiction]. destruct (assoc a l) as [[w|c' m]|]; [contradiction| |].
    + apply (IH n x (Node c' m) q); [apply F|assumption].
    + specialize (IH n x (Node c []) q (fits_fresh p F c) N'). unfold leaf_at in IH. rewrite IH. apply leaf_empty.
Qed.

(** ** Values after dropping the empty ones *)

Lemma value_leaf q y : sound y -> ci_get_value q y = leaf_at q (plain y).
Proof.
  intros Sy. rewrite get_value. unfold leaf_at. rewrite <- get_look by assumption. destruct (ci_get q y) as [[v|k m]|]; [reflexivity| |reflexivity]. cbn [option_map]. now rewrite plain_branch.
Qed.
Lemma assoc_kept k (l : list (str * tree)) : NoDup (map fst l) ->
  assoc k (flat_map (fun kv => if blank (snd kv) then [] else [(fst kv, strip (snd kv))]) l)
  = match assoc k l with Some t => if blank t then None else Some (strip t) | None => None end.
Proof.
  induction l as [|[a t] l IH]; cbn [map fst snd flat_map assoc]; [reflexivity|]. intros D. inversion D as [|? ? N D']; subst. specialize (IH D').
  destruct (blank t) eqn:B; cbn [app assoc].
  - rewrite IH. destruct (str_eqb a k) eqn:E; [|reflexivity]. apply str_eqb_eq in E. subst k. apply assoc_in in N. rewrite N, B. reflexivity.
  - rewrite IH. destruct (str_eqb a k); [|reflexivity]. now rewrite B.
Qed.
Lemma strip_values q : forall c, sound c -> (forall v, c = CVal v -> blank (Leaf v) = false) ->
  leaf_at q (strip (plain c)) = match ci_get_value q c with Some v => if blank (Leaf v) then None else Some v | None => None end.
Proof.
  induction q as [|n q IH]; intros [v|k m] S B.
  - cbn. unfold leaf_at. cbn [look]. specialize (B v eq_refl). cbn [blank] in B. now rewrite B.
  - rewrite plain_branch. reflexivity.
  - reflexivity.
  - rewrite plain_branch. unfold leaf_at. cbn [strip look ci_get_value]. apply sound_map in S as (M & F).
    rewrite assoc_kept, assoc_map, (get_assoc n m M).
    + destruct (assoc n (cm_vals m)) as [y|] eqn:A; cbn [option_map]; [|reflexivity].
      assert (Sy : sound y). { apply assoc_member in A. rewrite Forall_forall in F. apply (F _ A). }
      destruct (blank (plain y)) eqn:By.
      * destruct y as [v|k' m']; [|rewrite plain_branch in By; discriminate]. cbn [plain] in By. destruct q as [|b q]; cbn [ci_get_value]; [|reflexivity]. now rewrite By.
      * apply IH; [exact Sy|]. intros v ->. exact By.
    + destruct M as (D & _). rewrite map_map. exact D.
Qed.

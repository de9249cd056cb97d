(** Proofs about attribute maps. *)
From Verif Require Import Base Lib AttrModel AttrSpec.

(** the map as a list of pairs *)
Definition rep (m : attrmap) (l : list (str * str)) : Prop :=
  am_keys m = map fst l /\ am_values m = map snd l.

Fixpoint lset (k v : str) (l : list (str * str)) : list (str * str) :=
  match l with
  | [] => [(k, v)]
  | (k', v') :: l' => if str_eqb k' k then (k, v) :: l' else (k', v') :: lset k v l'
  end.
Fixpoint ldel (k : str) (l : list (str * str)) : list (str * str) :=
  match l with
  | [] => []
  | (k', v') :: l' => if str_eqb k' k then l' else (k', v') :: ldel k l'
  end.
Fixpoint lget (k : str) (l : list (str * str)) : option str :=
  match l with
  | [] => None
  | (k', v') :: l' => if str_eqb k' k then Some v' else lget k l'
  end.

Lemma am_set_rep k v m l : rep m l -> rep (am_set k v m) (lset k v l).
Proof.
  intros [Hk Hv]. unfold am_set. rewrite Hk, Hv. clear Hk Hv m.
  assert (H : match find_idx k (map fst l) with
     | Some i => set_nth i k (map fst l) = map fst (lset k v l) /\ set_nth i v (map snd l) = map snd (lset k v l)
     | None => map fst l ++ [k] = map fst (lset k v l) /\ map snd l ++ [v] = map snd (lset k v l)
     end).
  { induction l as [|[k' v'] l IH]; cbn; [auto|].
    destruct (str_eqb k' k) eqn:E; cbn; [auto|].
    destruct (find_idx k (map fst l)); cbn; destruct IH as [-> ->]; auto. }
  destruct (find_idx k (map fst l)); destruct H; split; auto.
Qed.

Lemma am_clear_rep k m l : rep m l -> exists m', am_clear k m = Ok (m', lget k l) /\ rep m' (ldel k l).
Proof.
  intros [Hk Hv]. unfold am_clear. rewrite Hk, Hv.
  assert (H : match find_idx k (map fst l) with
     | Some i => nth_error (map snd l) i = lget k l /\ lget k l <> None /\
                 remove_nth i (map fst l) = map fst (ldel k l) /\ remove_nth i (map snd l) = map snd (ldel k l)
     | None => lget k l = None /\ ldel k l = l
     end).
  { clear Hk Hv. induction l as [|[k' v'] l IH]; cbn; [auto|].
    destruct (str_eqb k' k) eqn:E; cbn; [repeat split; auto; discriminate|].
    destruct (find_idx k (map fst l)); cbn.
    - destruct IH as (? & ? & -> & ->). auto.
    - destruct IH as [? ->]. auto. }
  destruct (find_idx k (map fst l)).
  - destruct H as (-> & H1 & H2 & H3). destruct (lget k l) eqn:E; [|congruence].
    eexists; split; [reflexivity|]. split; cbn; auto.
  - destruct H as (-> & ->). exists m. split; [reflexivity|]. split; auto.
Qed.

Lemma am_attr_rep k m l : rep m l -> am_attr k m = Ok (lget k l).
Proof.
  intros [Hk Hv]. unfold am_attr. rewrite Hk, Hv. clear.
  assert (H : match find_idx k (map fst l) with
     | Some i => nth_error (map snd l) i = lget k l /\ lget k l <> None
     | None => lget k l = None
     end).
  { induction l as [|[k' v'] l IH]; cbn; [auto|].
    destruct (str_eqb k' k) eqn:E; cbn; [repeat split; auto; discriminate|].
    destruct (find_idx k (map fst l)); cbn; auto. }
  destruct (find_idx k (map fst l)); [|now rewrite H].
  destruct H as [-> H]. destruct (lget k l); [reflexivity|congruence].
Qed.

Lemma zip_map l : zip_exact (map fst l) (map snd l) = Ok l.
Proof. induction l as [|[k v] l IH]; cbn; [reflexivity|]. rewrite IH. reflexivity. Qed.

Lemma am_iter_rep m l : rep m l -> am_iter m = Ok l.
Proof. intros [Hk Hv]. unfold am_iter. rewrite Hk, Hv. apply zip_map. Qed.

Definition lstep (l : list (str * str)) (o : am_op) :=
  match o with OpSet k v => lset k v l | OpClear k => ldel k l end.
Definition lrun (ops : list am_op) := fold_left lstep ops [].

Lemma am_run_rep ops : exists m, am_run ops = Ok m /\ rep m (lrun ops).
Proof.
  unfold am_run, lrun.
  assert (H : forall m l, rep m l -> exists m', fold_left am_step ops (Ok m) = Ok m' /\ rep m' (fold_left lstep ops l)).
  { induction ops as [|o ops IH]; intros m l Hr; cbn [fold_left]; [eauto|].
    destruct o as [k v|k]; cbn [am_step bind lstep].
    - apply IH. now apply am_set_rep.
    - destruct (am_clear_rep k m l Hr) as (m' & -> & Hr'). cbn [bind]. now apply IH. }
  apply H. split; reflexivity.
Qed.

(** ** the list of pairs against the history *)

Lemma lget_lset k k' v l : lget k (lset k' v l) = if str_eqb k' k then Some v else lget k l.
Proof.
  induction l as [|[a b] l IH]; cbn; [reflexivity|].
  destruct (str_eqb a k') eqn:E; cbn.
  - apply str_eqb_eq in E. subst. destruct (str_eqb k' k); reflexivity.
  - rewrite IH. destruct (str_eqb a k) eqn:E1; [|reflexivity].
    destruct (str_eqb k' k) eqn:E2; [|reflexivity].
    apply str_eqb_eq in E1, E2. subst. rewrite str_eqb_refl in E. discriminate.
Qed.

Lemma lget_none k l : ~ In k (map fst l) -> lget k l = None.
Proof.
  induction l as [|[a b] l IH]; cbn; [auto|]. intros H.
  destruct (str_eqb a k) eqn:E; [apply str_eqb_eq in E; tauto|]. tauto.
Qed.

Lemma lget_ldel k k' l : NoDup (map fst l) -> lget k (ldel k' l) = if str_eqb k' k then None else lget k l.
Proof.
  induction l as [|[a b] l IH]; cbn; intros Hd.
  - destruct (str_eqb k' k); reflexivity.
  - inversion Hd; subst. destruct (str_eqb a k') eqn:E.
    + apply str_eqb_eq in E. subst. destruct (str_eqb k' k) eqn:E2; [|reflexivity].
      apply str_eqb_eq in E2. subst. now apply lget_none.
    + cbn. rewrite IH by auto. destruct (str_eqb a k) eqn:E1; [|reflexivity].
      destruct (str_eqb k' k) eqn:E2; [|reflexivity].
      apply str_eqb_eq in E1, E2. subst. rewrite str_eqb_refl in E. discriminate.
Qed.

Lemma keys_lset k v l :
  map fst (lset k v l) = if in_dec str_eq_dec k (map fst l) then map fst l else map fst l ++ [k].
Proof.
  assert (H : (In k (map fst l) -> map fst (lset k v l) = map fst l) /\
              (~ In k (map fst l) -> map fst (lset k v l) = map fst l ++ [k])).
  { induction l as [|[a b] l [IH1 IH2]]; cbn; [tauto|].
    destruct (str_eqb a k) eqn:E; cbn.
    - apply str_eqb_eq in E. subst. split; [auto|tauto].
    - apply str_eqb_neq in E. split; intros H.
      + rewrite IH1 by tauto. reflexivity.
      + rewrite IH2 by tauto. reflexivity. }
  destruct (in_dec _ _ _); tauto.
Qed.

Lemma keys_ldel_in k x l : In x (map fst (ldel k l)) -> In x (map fst l).
Proof.
  induction l as [|[a b] l IH]; cbn; [auto|]. destruct (str_eqb a k); cbn; tauto.
Qed.

Lemma nodup_ldel k l : NoDup (map fst l) -> NoDup (map fst (ldel k l)).
Proof.
  induction l as [|[a b] l IH]; cbn; intros Hd; [constructor|]. inversion Hd; subst.
  destruct (str_eqb a k); cbn; [auto|]. constructor; auto.
  intros H. apply keys_ldel_in in H. auto.
Qed.

Lemma nodup_snoc {A} (k : A) l : NoDup l -> ~ In k l -> NoDup (l ++ [k]).
Proof.
  induction 1 as [|x l Hx Hl IH]; cbn; intros Hn; constructor; auto.
  - constructor.
  - rewrite in_app_iff. cbn. intros [?|[?|[]]]; [auto|subst; tauto].
Qed.

Lemma nodup_lset k v l : NoDup (map fst l) -> NoDup (map fst (lset k v l)).
Proof.
  intros H. rewrite keys_lset. destruct (in_dec _ _ _) as [Hi|Hn]; [auto|].
  now apply nodup_snoc.
Qed.

Lemma lrun_nodup ops : NoDup (map fst (lrun ops)).
Proof.
  unfold lrun. assert (H : forall l, NoDup (map fst l) -> NoDup (map fst (fold_left lstep ops l))).
  { induction ops as [|o ops IH]; intros l Hl; cbn [fold_left]; [auto|]. apply IH.
    destruct o; cbn [lstep]; auto using nodup_lset, nodup_ldel. }
  apply H. constructor.
Qed.

Lemma lrun_snoc ops o : lrun (ops ++ [o]) = lstep (lrun ops) o.
Proof. unfold lrun. rewrite fold_left_app. reflexivity. Qed.

Lemma lrun_get k ops : lget k (lrun ops) = last_set k ops.
Proof.
  induction ops as [|o ops IH] using rev_ind; [reflexivity|].
  rewrite lrun_snoc. unfold last_set. rewrite fold_left_app. cbn [fold_left].
  change (fold_left _ ops None) with (last_set k ops). rewrite <- IH.
  destruct o as [k' v|k']; cbn [lstep].
  - apply lget_lset.
  - apply lget_ldel. apply lrun_nodup.
Qed.

(** insertion times *)
Definition ins_fold (k : str) (ops : list am_op) (st : nat * option nat) :=
  fold_left (fun st o =>
    let '(now, cur) := st in
    (S now, match o with
      | OpSet k' _ => if str_eqb k' k then (match cur with Some t => Some t | None => Some now end) else cur
      | OpClear k' => if str_eqb k' k then None else cur
      end)) ops st.

Lemma ins_fold_now k ops st : fst (ins_fold k ops st) = (fst st + length ops)%nat.
Proof.
  revert st. induction ops as [|o ops IH]; intros [n c]; cbn [ins_fold fold_left length]; [cbn; lia|].
  unfold ins_fold in IH. rewrite IH. cbn. lia.
Qed.

Lemma inserted_snoc k ops o :
  inserted_at k (ops ++ [o]) =
  match o with
  | OpSet k' _ => if str_eqb k' k then (match inserted_at k ops with Some t => Some t | None => Some (length ops) end)
                  else inserted_at k ops
  | OpClear k' => if str_eqb k' k then None else inserted_at k ops
  end.
Proof.
  unfold inserted_at. rewrite fold_left_app. cbn [fold_left].
  pose proof (ins_fold_now k ops (O, None)) as Hn. unfold ins_fold in Hn.
  match goal with |- context [fold_left ?f ops ?s] => destruct (fold_left f ops s) as [now cur] end.
  cbn in *. subst now. reflexivity.
Qed.

Lemma inserted_lt k ops t : inserted_at k ops = Some t -> (t < length ops)%nat.
Proof.
  revert t. induction ops as [|o ops IH] using rev_ind; [discriminate|]. intros t.
  rewrite inserted_snoc, app_length. cbn [length].
  destruct o as [k' v|k']; destruct (str_eqb k' k).
  - destruct (inserted_at k ops) as [u|]; intros H; inversion H; subst; [specialize (IH t eq_refl); lia|lia].
  - intros H; specialize (IH t H); lia.
  - discriminate.
  - intros H; specialize (IH t H); lia.
Qed.

Lemma in_lget k l : In k (map fst l) <-> lget k l <> None.
Proof.
  induction l as [|[a b] l IH]; cbn; [tauto|].
  destruct (str_eqb a k) eqn:E.
  - apply str_eqb_eq in E. split; [discriminate|auto].
  - apply str_eqb_neq in E. rewrite <- IH. intuition congruence.
Qed.

Lemma inserted_in k ops : inserted_at k ops <> None <-> In k (map fst (lrun ops)).
Proof.
  rewrite in_lget, lrun_get.
  induction ops as [|o ops IH] using rev_ind; [cbn; tauto|].
  rewrite inserted_snoc. unfold last_set. rewrite fold_left_app. cbn [fold_left].
  change (fold_left _ ops None) with (last_set k ops).
  destruct o as [k' v|k']; destruct (str_eqb k' k); auto; try tauto.
  destruct (inserted_at k ops); split; discriminate.
Qed.

(** "appears before" as a relation on lists, easier to use than indices *)
Fixpoint before (a b : str) (l : list str) : Prop :=
  match l with
  | [] => False
  | x :: l' => (x = a /\ In b l') \/ before a b l'
  end.

Lemma nth_before l : forall i j a b, (i < j)%nat -> nth_error l i = Some a -> nth_error l j = Some b -> before a b l.
Proof.
  induction l as [|x l IH]; intros i j a b Hij Hi Hj.
  - destruct i; discriminate.
  - destruct i as [|i], j as [|j]; try lia; cbn in *.
    + left. inversion Hi; subst. split; auto. eapply nth_error_In; eauto.
    + right. eapply (IH i j); eauto. lia.
Qed.

Lemma before_in a b l : before a b l -> In a l /\ In b l.
Proof. induction l as [|x l IH]; cbn; [tauto|]. intros [[-> ?]|H]; [auto|]. apply IH in H. tauto. Qed.

Lemma before_snoc a b k l : before a b (l ++ [k]) -> before a b l \/ (In a l /\ b = k).
Proof.
  induction l as [|x l IH]; cbn.
  - intros [[_ []]|[]].
  - intros [[-> H]|H].
    + apply in_app_iff in H. cbn in H. destruct H as [H|[->|[]]]; [left; auto|right; auto].
    + apply IH in H as [H|[H ->]]; auto.
Qed.

Lemma before_ldel a b k l : before a b (map fst (ldel k l)) -> before a b (map fst l).
Proof.
  induction l as [|[x y] l IH]; cbn; [auto|].
  destruct (str_eqb x k); cbn; [auto|]. intros [[-> H]|H]; [left; split; auto|right; auto].
  now apply keys_ldel_in in H.
Qed.

Lemma lrun_order ops a b ta tb :
  before a b (map fst (lrun ops)) -> inserted_at a ops = Some ta -> inserted_at b ops = Some tb -> (ta < tb)%nat.
Proof.
  revert ta tb. induction ops as [|o ops IH] using rev_ind; [intros ? ? []|]. intros ta tb Hb.
  rewrite !inserted_snoc, lrun_snoc in *. destruct o as [k v|k]; cbn [lstep] in Hb.
  - rewrite keys_lset in Hb. destruct (in_dec str_eq_dec k (map fst (lrun ops))) as [Hi|Hn].
    + pose proof (before_in _ _ _ Hb) as [Ha' Hb'].
      apply inserted_in in Ha', Hb'.
      destruct (inserted_at a ops) as [ua|] eqn:Ea; [|congruence].
      destruct (inserted_at b ops) as [ub|] eqn:Eb; [|congruence].
      intros H1 H2. assert (ta = ua) by (destruct (str_eqb k a); congruence).
      assert (tb = ub) by (destruct (str_eqb k b); congruence). subst. eauto.
    + apply before_snoc in Hb as [Hb|[Ha ->]].
      * pose proof (before_in _ _ _ Hb) as [Ha' Hb'].
        apply inserted_in in Ha', Hb'.
        destruct (inserted_at a ops) as [ua|] eqn:Ea; [|congruence].
        destruct (inserted_at b ops) as [ub|] eqn:Eb; [|congruence].
        intros H1 H2. assert (ta = ua) by (destruct (str_eqb k a); congruence).
        assert (tb = ub) by (destruct (str_eqb k b); congruence). subst. eauto.
      * destruct (inserted_at k ops) eqn:Ek.
        { exfalso. apply Hn. apply inserted_in. congruence. }
        rewrite str_eqb_refl. intros H1 H2. inversion H2; subst.
        destruct (str_eqb k a) eqn:E.
        { apply str_eqb_eq in E. subst. tauto. }
        now apply inserted_lt in H1.
  - apply before_ldel in Hb.
    destruct (str_eqb k a); [discriminate|]. destruct (str_eqb k b); [discriminate|]. apply IH; auto.
Qed.

Lemma am_laws ops :
  exists m l, am_run ops = Ok m /\ am_iter m = Ok l /\
    (forall k, am_attr k m = Ok (last_set k ops)) /\
    NoDup (map fst l) /\
    (forall k v, In (k, v) l <-> last_set k ops = Some v) /\
    insertion_order ops (map fst l) /\ am_len m = length l.
Proof.
  destruct (am_run_rep ops) as (m & Hm & Hr). exists m, (lrun ops).
  split; [auto|]. split; [now apply am_iter_rep|]. split.
  { intros k. rewrite (am_attr_rep k m (lrun ops)) by auto. now rewrite lrun_get. }
  split; [apply lrun_nodup|]. split; [|split].
  - intros k v. rewrite <- lrun_get. pose proof (lrun_nodup ops) as Hd. clear Hm Hr.
    induction (lrun ops) as [|[a b] l IH]; cbn; [split; [tauto|discriminate]|].
    inversion Hd; subst. destruct (str_eqb a k) eqn:E.
    + apply str_eqb_eq in E. subst. split.
      * intros [H|H]; [congruence|]. exfalso. apply H1. change k with (fst (k, v)). now apply in_map.
      * intros H. inversion H. auto.
    + apply str_eqb_neq in E. rewrite <- IH by auto. split; [intros [H|H]; [congruence|auto]|auto].
  - intros i j k1 k2 t1 t2 Hij H1 H2. apply lrun_order. eapply nth_before; eauto.
  - destruct Hr as [Hk _]. unfold am_len. rewrite Hk. apply map_length.
Qed.

Lemma am_clear_returns ops k m : am_run ops = Ok m ->
  exists m', am_clear k m = Ok (m', last_set k ops).
Proof.
  intros H. destruct (am_run_rep ops) as (m0 & Hm & Hr). assert (m0 = m) by congruence. subst.
  destruct (am_clear_rep k m _ Hr) as (m' & -> & _). rewrite lrun_get. eauto.
Qed.

Lemma am_attr_def_ok ops k d m : am_run ops = Ok m ->
  am_attr_def k d m = Ok (match last_set k ops with Some v => v | None => d end).
Proof.
  intros H. destruct (am_run_rep ops) as (m0 & Hm & Hr). assert (m0 = m) by congruence. subst.
  unfold am_attr_def. rewrite (am_attr_rep k m _ Hr), lrun_get. reflexivity.
Qed.

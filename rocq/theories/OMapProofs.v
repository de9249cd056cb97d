(** Laws of ordered maps. *)
From Verif Require Import Base Lib OMap.
From Coq Require Import Sorting.Sorted.

Record strict_order {K} (ltb : K -> K -> bool) : Prop := {
  so_irrefl : forall a, ltb a a = false;
  so_trans : forall a b c, ltb a b = true -> ltb b c = true -> ltb a c = true;
  so_total : forall a b, ltb a b = false -> ltb b a = false -> a = b
}.

Lemma so_asym {K} (ltb : K -> K -> bool) : strict_order ltb -> forall a b, ltb a b = true -> ltb b a = false.
Proof.
  intros S a b H. destruct (ltb b a) eqn:E; [|reflexivity].
  pose proof (so_trans _ S _ _ _ H E) as H1. rewrite (so_irrefl _ S) in H1. discriminate.
Qed.

Lemma nltb_order : strict_order N.ltb.
Proof. constructor; intros; lia. Qed.

Lemma pltb_order : strict_order pltb.
Proof.
  constructor; unfold pltb; [intros [a b]|intros [a b] [c d] [e f]|intros [a b] [c d]]; cbn [fst snd]; intros; try lia.
  f_equal; lia.
Qed.

Section Laws.
  Context {K V : Type} (ltb : K -> K -> bool) (S : strict_order ltb).
  Notation get := (@om_get K V ltb).
  Notation insert := (om_insert ltb).
  Notation remove := (@om_remove K V ltb).
  Notation sorted := (@om_sorted K V ltb).

  Ltac ordcase := repeat match goal with
    | H : ltb ?a ?a = true |- _ => rewrite (so_irrefl _ S) in H; discriminate
    | H : context [ltb ?a ?a] |- _ => rewrite (so_irrefl _ S) in H
    | |- context [ltb ?a ?a] => rewrite (so_irrefl _ S)
    end.

  Lemma get_lt_none k m : Forall (fun kv : K * V => ltb k (fst kv) = true) m -> get k m = None.
  Proof. intros H. destruct m as [|[k' v'] m]; [reflexivity|]. inversion H; subst. cbn in *. now rewrite H2. Qed.

  Lemma keq_dec (a b : K) : a = b \/ a <> b.
  Proof.
    destruct (ltb a b) eqn:E1; [right; intros ->; ordcase|].
    destruct (ltb b a) eqn:E2; [right; intros ->; ordcase|]. left. now apply (so_total _ S).
  Qed.

  Lemma get_insert_same k v m : get k (insert k v m) = Some v.
  Proof.
    induction m as [|[k' v'] m IH]; cbn; ordcase; [reflexivity|].
    destruct (ltb k k') eqn:E1; cbn; ordcase; [reflexivity|].
    destruct (ltb k' k) eqn:E2; cbn; ordcase; [|reflexivity]. now rewrite E1, E2.
  Qed.

  Lemma get_insert_other k j v m : k <> j -> get k (insert j v m) = get k m.
  Proof.
    intros Hne. induction m as [|[k' v'] m IH]; cbn.
    - destruct (ltb k j) eqn:E1; [reflexivity|]. destruct (ltb j k) eqn:E2; [reflexivity|].
      exfalso. apply Hne. now apply (so_total _ S).
    - destruct (ltb j k') eqn:E1; [|destruct (ltb k' j) eqn:E2]; cbn.
      + destruct (ltb k j) eqn:E3.
        * now rewrite (so_trans _ S _ _ _ E3 E1).
        * destruct (ltb j k) eqn:E4; [reflexivity|]. exfalso. apply Hne. now apply (so_total _ S).
      + destruct (ltb k k'); [reflexivity|]. destruct (ltb k' k); [exact IH|reflexivity].
      + assert (k' = j) by now apply (so_total _ S). subst k'.
        destruct (ltb k j) eqn:E3; [reflexivity|]. destruct (ltb j k) eqn:E4; [reflexivity|].
        exfalso. apply Hne. now apply (so_total _ S).
  Qed.

  Lemma forall_insert j v m (P : K -> Prop) : P j -> Forall (fun kv : K * V => P (fst kv)) m ->
    Forall (fun kv : K * V => P (fst kv)) (insert j v m).
  Proof.
    intros Hj. induction m as [|[k' v'] m IH]; intros H; cbn; [constructor; auto|].
    inversion H; subst. destruct (ltb j k'); [constructor; auto|]. destruct (ltb k' j); constructor; auto.
  Qed.

  Lemma sorted_insert k v m : sorted m -> sorted (insert k v m).
  Proof.
    induction m as [|[k' v'] m IH]; cbn; intros Hs; [auto|]. destruct Hs as [Hf Hs].
    destruct (ltb k k') eqn:E1; [|destruct (ltb k' k) eqn:E2]; cbn.
    - repeat split; auto. constructor; [exact E1|]. eapply Forall_impl; [|exact Hf]. cbv beta. intros a Ha.
      eapply (so_trans _ S); eauto.
    - split; [|auto]. apply forall_insert with (P := fun x => ltb k' x = true); auto.
    - assert (k' = k) by now apply (so_total _ S). subst. auto.
  Qed.

  Lemma forall_remove j m (P : K * V -> Prop) : Forall P m -> Forall P (remove j m).
  Proof.
    induction m as [|[k' v'] m IH]; intros H; cbn; [constructor|]. inversion H; subst.
    destruct (ltb j k'); [constructor; auto|]. destruct (ltb k' j); [constructor; auto|auto].
  Qed.

  Lemma sorted_remove k m : sorted m -> sorted (remove k m).
  Proof.
    induction m as [|[k' v'] m IH]; cbn; intros Hs; [auto|]. destruct Hs as [Hf Hs].
    destruct (ltb k k') eqn:E1; [cbn; auto|]. destruct (ltb k' k) eqn:E2; [|auto].
    cbn. split; [|auto]. now apply forall_remove.
  Qed.

  Lemma get_remove_same k m : sorted m -> get k (remove k m) = None.
  Proof.
    induction m as [|[k' v'] m IH]; cbn; intros Hs; [reflexivity|]. destruct Hs as [Hf Hs].
    destruct (ltb k k') eqn:E1; [cbn; now rewrite E1|]. destruct (ltb k' k) eqn:E2.
    - cbn. rewrite E1, E2. auto.
    - assert (k' = k) by now apply (so_total _ S). subst. now apply get_lt_none.
  Qed.

  Lemma get_remove_other k j m : sorted m -> k <> j -> get k (remove j m) = get k m.
  Proof.
    intros Hs Hne. induction m as [|[k' v'] m IH]; cbn; [reflexivity|]. destruct Hs as [Hf Hs].
    destruct (ltb j k') eqn:E1; [reflexivity|]. destruct (ltb k' j) eqn:E2.
    - cbn. destruct (ltb k k'); [reflexivity|]. destruct (ltb k' k); auto.
    - assert (k' = j) by now apply (so_total _ S). subst k'.
      destruct (ltb k j) eqn:E3.
      + apply get_lt_none. eapply Forall_impl; [|exact Hf]. cbv beta. intros a Ha. eapply (so_trans _ S); eauto.
      + destruct (ltb j k) eqn:E4; [reflexivity|]. exfalso. apply Hne. now apply (so_total _ S).
  Qed.

  Lemma get_in k v m : sorted m -> get k m = Some v <-> In (k, v) m.
  Proof.
    induction m as [|[k' v'] m IH]; cbn; intros Hs; [split; [discriminate|tauto]|]. destruct Hs as [Hf Hs].
    rewrite Forall_forall in Hf. split.
    - destruct (ltb k k') eqn:E1; [discriminate|]. destruct (ltb k' k) eqn:E2.
      + intros H. right. now apply IH.
      + intros H. left. inversion H; subst. f_equal. now apply (so_total _ S).
    - intros [H|H].
      + inversion H; subst. ordcase. reflexivity.
      + specialize (Hf _ H) as Hlt. cbn in Hlt. rewrite (so_asym _ S _ _ Hlt), Hlt. now apply IH.
  Qed.

  Lemma get_none_in k m : sorted m -> get k m = None <-> ~ In k (map fst m).
  Proof.
    intros Hs. split.
    - intros H Hi. apply in_map_iff in Hi as ([k' v] & <- & Hi). apply (get_in _ _ _ Hs) in Hi. cbn in H, Hi. rewrite Hi in H. discriminate.
    - intros H. destruct (get k m) as [v|] eqn:E; [|reflexivity]. exfalso. apply H.
      apply (get_in _ _ _ Hs) in E. change k with (fst (k, v)). now apply in_map.
  Qed.

  Lemma sorted_ext m1 m2 : sorted m1 -> sorted m2 -> (forall k, get k m1 = get k m2) -> m1 = m2.
  Proof.
    revert m2. induction m1 as [|[k1 v1] m1 IH]; intros m2 H1 H2 H.
    - destruct m2 as [|[k2 v2] m2]; [reflexivity|]. specialize (H k2). cbn in H. ordcase. discriminate.
    - destruct m2 as [|[k2 v2] m2]; [specialize (H k1); cbn in H; ordcase; discriminate|].
      cbn in H1, H2. destruct H1 as [F1 H1], H2 as [F2 H2].
      assert (Hk : k1 = k2).
      { pose proof (H k1) as Ha. pose proof (H k2) as Hb. cbn in Ha, Hb. ordcase.
        destruct (ltb k1 k2) eqn:E1; [discriminate|]. destruct (ltb k2 k1) eqn:E2; [discriminate|].
        now apply (so_total _ S). }
      subst k2. pose proof (H k1) as Ha. cbn in Ha. ordcase. inversion Ha; subst v2. f_equal.
      apply IH; auto. intros k. specialize (H k). cbn in H.
      destruct (ltb k k1) eqn:E1.
      + rewrite !get_lt_none; auto; (eapply Forall_impl; [|eassumption]); cbv beta; intros a Ha'; eapply (so_trans _ S); eauto.
      + destruct (ltb k1 k) eqn:E2; [exact H|]. assert (k = k1) by now apply (so_total _ S). subst k.
        rewrite !get_lt_none; auto.
  Qed.

  Lemma sorted_filter p m : sorted m -> sorted (filter p m).
  Proof.
    induction m as [|[k v] m IH]; cbn; intros Hs; [auto|]. destruct Hs as [Hf Hs].
    destruct (p (k, v)); [|auto]. cbn. split; [|auto].
    rewrite Forall_forall in *. intros x Hx. apply filter_In in Hx as [Hx _]. auto.
  Qed.

  Lemma sorted_nodup m : sorted m -> NoDup (map fst m).
  Proof.
    induction m as [|[k v] m IH]; cbn; intros Hs; constructor; destruct Hs as [Hf Hs]; auto.
    intros Hi. apply in_map_iff in Hi as (x & Hx & Hi). rewrite Forall_forall in Hf. specialize (Hf _ Hi).
    rewrite Hx in Hf. ordcase.
  Qed.

  Lemma get_upsert k j d f m : get k (om_upsert ltb j d f m) =
    if ltb k j || ltb j k then get k m else Some (f (match get k m with Some v => v | None => d end)).
  Proof.
    unfold om_upsert. destruct (keq_dec k j) as [->|Hne].
    - ordcase. cbn. now rewrite get_insert_same.
    - rewrite get_insert_other by auto. destruct (ltb k j) eqn:E1; [reflexivity|].
      destruct (ltb j k) eqn:E2; [reflexivity|]. exfalso. apply Hne. now apply (so_total _ S).
  Qed.

  Lemma sorted_upsert k d f m : sorted m -> sorted (om_upsert ltb k d f m).
  Proof. apply sorted_insert. Qed.

  Lemma sorted_adjust k f m : sorted m -> sorted (om_adjust ltb k f m).
  Proof. unfold om_adjust. destruct (get k m); auto using sorted_insert. Qed.

  Lemma get_upsert_same k d f m : get k (om_upsert ltb k d f m) = Some (f (match get k m with Some v => v | None => d end)).
  Proof. rewrite get_upsert. ordcase. reflexivity. Qed.
  Lemma get_upsert_other k j d f m : k <> j -> get k (om_upsert ltb j d f m) = get k m.
  Proof. intros. unfold om_upsert. now apply get_insert_other. Qed.
  Lemma get_adjust_same k f m : get k (om_adjust ltb k f m) = option_map f (get k m).
  Proof. unfold om_adjust. destruct (get k m) eqn:E; cbn; [apply get_insert_same|exact E]. Qed.
  Lemma get_adjust_other k j f m : k <> j -> get k (om_adjust ltb j f m) = get k m.
  Proof. intros. unfold om_adjust. destruct (get j m); [now apply get_insert_other|reflexivity]. Qed.

  Lemma sorted_app_inv a b : sorted (a ++ b) -> sorted a /\ sorted b /\
    (forall x y, In x a -> In y b -> ltb (fst x) (fst y) = true).
  Proof.
    induction a as [|[k v] a IH]; cbn; [intuition|]. intros [Hf Hs]. apply IH in Hs as (H1 & H2 & H3).
    apply Forall_app in Hf as [Hf1 Hf2]. repeat split; auto.
    intros x y [<-|Hx] Hy; [|auto]. rewrite Forall_forall in Hf2. cbn. auto.
  Qed.
End Laws.

(** Proofs about the builders of format parts. *)
From Verif Require Import Base Lib NumModel RefsSpec NumSpec NumProofs AttrModel BookModel StyleModel FmtModel FmtSpec.

(** ** Attributes *)

Lemma get_value k a : get_attr k a = value_of k a.
Proof. induction a as [|[k' v] r IH]; cbn; [reflexivity|]. destruct (str_eqb k' k); auto. Qed.

Lemma value_put k v a k' : value_of k' (put_attr k v a) = if str_eqb k k' then Some v else value_of k' a.
Proof.
  induction a as [|[k0 v0] r IH]; cbn; [reflexivity|].
  destruct (str_eqb k0 k) eqn:E; cbn.
  - apply str_eqb_eq in E. subst k0. destruct (str_eqb k k'); reflexivity.
  - destruct (str_eqb k0 k') eqn:E0; [|apply IH].
    apply str_eqb_eq in E0. subst k0. destruct (str_eqb k k') eqn:E1; [|reflexivity].
    apply str_eqb_eq in E1. subst k'. rewrite str_eqb_refl in E. discriminate.
Qed.
Lemma put_keys k v a : NoDup (map fst a) -> NoDup (map fst (put_attr k v a)).
Proof.
  assert (K : forall x l, In x (map fst (put_attr k v l)) -> x = k \/ In x (map fst l)).
  { intros x l. induction l as [|[k0 v0] r IH]; cbn; [intuition congruence|].
    destruct (str_eqb k0 k) eqn:E; cbn; [apply str_eqb_eq in E; subst; tauto|tauto]. }
  induction a as [|[k0 v0] r IH]; cbn; intros H.
  - constructor; [tauto|constructor].
  - inversion H as [|? ? H1 H2]; subst. destruct (str_eqb k0 k) eqn:E; cbn.
    + apply str_eqb_eq in E. subst. constructor; assumption.
    + constructor; [|auto]. intros I. destruct (K _ _ I) as [->|I']; [rewrite str_eqb_refl in E; discriminate|contradiction].
Qed.
Lemma value_absent k a : ~ In k (map fst a) -> value_of k a = None.
Proof.
  induction a as [|[k0 v0] r IH]; cbn; intros H; [reflexivity|].
  replace (str_eqb k0 k) with false by (symmetry; apply str_eqb_neq; tauto). apply IH. tauto.
Qed.
Lemma value_del k a k' : NoDup (map fst a) -> value_of k' (del_attr k a) = if str_eqb k k' then None else value_of k' a.
Proof.
  induction a as [|[k0 v0] r IH]; cbn; intros H; [destruct (str_eqb k k'); reflexivity|].
  inversion H as [|? ? H1 H2]; subst. destruct (str_eqb k0 k) eqn:E; cbn.
  - apply str_eqb_eq in E. subst k0. destruct (str_eqb k k') eqn:E1; [|reflexivity].
    apply str_eqb_eq in E1. subst k'. apply value_absent. assumption.
  - destruct (str_eqb k0 k') eqn:E0; [|auto].
    apply str_eqb_eq in E0. subst k0. destruct (str_eqb k k') eqn:E1; [|reflexivity].
    apply str_eqb_eq in E1. subst k'. rewrite str_eqb_refl in E. discriminate.
Qed.
Lemma del_keys k a : NoDup (map fst a) -> NoDup (map fst (del_attr k a)).
Proof.
  assert (K : forall x l, In x (map fst (del_attr k l)) -> In x (map fst l)).
  { intros x l. induction l as [|[k0 v0] r IH]; cbn; [tauto|]. destruct (str_eqb k0 k); cbn; tauto. }
  induction a as [|[k0 v0] r IH]; cbn; intros H; [assumption|].
  inversion H as [|? ? H1 H2]; subst. destruct (str_eqb k0 k); [assumption|]. cbn. constructor; [|auto]. intros I. apply K in I. contradiction.
Qed.

(** [put_attr] and [del_attr] are what [set_attr] and [clear_attr] do with the two vectors (AttrModel). *)
Lemma put_attr_set k v m a : am_iter m = Ok a -> am_iter (am_set k v m) = Ok (put_attr k v a).
Proof.
  destruct m as [ks vs]. unfold am_set, am_iter. cbn [am_keys am_values]. revert vs a.
  induction ks as [|k0 ks IH]; intros vs a H; destruct vs as [|v0 vs]; cbn in H |- *; try discriminate.
  - injection H as <-. reflexivity.
  - destruct (zip_exact ks vs) as [l| |] eqn:E; cbn in H; try discriminate. injection H as <-.
    specialize (IH vs l E). destruct (str_eqb k0 k) eqn:E0; cbn.
    + rewrite E. cbn. rewrite E0. reflexivity.
    + destruct (find_idx k ks) as [i|] eqn:Ei; cbn in IH |- *; rewrite IH; cbn; rewrite E0; reflexivity.
Qed.
Lemma del_attr_clear k m a : am_iter m = Ok a -> exists m' o, am_clear k m = Ok (m', o) /\ am_iter m' = Ok (del_attr k a) /\ o = value_of k a.
Proof.
  destruct m as [ks vs]. unfold am_clear, am_iter. cbn [am_keys am_values]. revert vs a.
  induction ks as [|k0 ks IH]; intros vs a H; destruct vs as [|v0 vs]; cbn in H |- *; try discriminate.
  - injection H as <-. exists (mkAttr [] []), None. auto.
  - destruct (zip_exact ks vs) as [l| |] eqn:E; cbn in H; try discriminate. injection H as <-.
    destruct (IH vs l E) as (m' & o & A & B & C). cbn. destruct (str_eqb k0 k) eqn:E0; cbn.
    + exists (mkAttr ks vs), (Some v0). cbn. auto.
    + destruct (find_idx k ks) as [i|] eqn:Ei; cbn.
      * destruct (nth_error vs i) as [x|] eqn:En; [|discriminate]. injection A as <- <-. cbn in B.
        exists (mkAttr (k0 :: remove_nth i ks) (v0 :: remove_nth i vs)), (Some x). cbn. rewrite B. auto.
      * injection A as <- <-. exists (mkAttr (k0 :: ks) (v0 :: vs)), None. cbn. rewrite E. cbn. cbn in B. rewrite E in B.
        replace (del_attr k l) with l by congruence. auto.
Qed.

(** ** Builders *)


Lemma last_app {T} k (a b : list (str * option T)) :
  last_of k (a ++ b) = if existsb (fun p => str_eqb (fst p) k) b then last_of k b else last_of k a.
Proof.
  induction a as [|[k' v] r IH]; cbn [app last_of].
  - destruct (existsb _ b) eqn:E; [reflexivity|]. clear - E.
    induction b as [|[k' v] r IH]; [reflexivity|]. cbn in E |- *. apply orb_false_iff in E. destruct E as [E1 E2]. rewrite E2, E1. reflexivity.
  - rewrite existsb_app, IH. destruct (existsb _ b) eqn:E.
    + rewrite orb_true_r. reflexivity.
    + rewrite orb_false_r. reflexivity.
Qed.
Lemma last_some_app {A T} (f : A -> option T) a x : last_some f (a ++ [x]) = match f x with Some v => Some v | None => last_some f a end.
Proof.
  induction a as [|y r IH]; cbn; [destruct (f x); reflexivity|]. rewrite IH. destruct (f x); [reflexivity|]. reflexivity.
Qed.

Lemma made_snoc t l o : made t (l ++ [o]) = apply_setting t o (made t l).
Proof. unfold made. rewrite fold_left_app. reflexivity. Qed.


Lemma apply_type t o p : pt_type (apply_setting t o p) = pt_type p.
Proof. destruct o, t; try reflexivity; cbn; destruct (lo_region l), (lo_script l); reflexivity. Qed.
Lemma made_type t l : pt_type (made t l) = t.
Proof. induction l as [|o l IH] using rev_ind; [reflexivity|]. rewrite made_snoc, apply_type. assumption. Qed.
Lemma apply_content t o p : pt_content (apply_setting t o p) = match documented_text o with Some s => Some s | None => pt_content p end.
Proof. destruct o, t; try reflexivity; cbn; destruct (lo_region l), (lo_script l); reflexivity. Qed.
Lemma made_content t l : pt_content (made t l) = last_some documented_text l.
Proof. induction l as [|o l IH] using rev_ind; [reflexivity|]. rewrite made_snoc, apply_content, last_some_app, IH. reflexivity. Qed.
Lemma apply_pos t o p : pt_pos (apply_setting t o p) = match documented_pos o with Some s => Some s | None => pt_pos p end.
Proof. destruct o, t; try reflexivity; cbn; destruct (lo_region l), (lo_script l); reflexivity. Qed.
Lemma made_pos t l : pt_pos (made t l) = last_some documented_pos l.
Proof. induction l as [|o l IH] using rev_ind; [reflexivity|]. rewrite made_snoc, apply_pos, last_some_app, IH. reflexivity. Qed.
Lemma apply_keys t o p : NoDup (map fst (pt_attr p)) -> NoDup (map fst (pt_attr (apply_setting t o p))).
Proof.
  intros H. destruct o; try exact H; try (apply put_keys; exact H).
  - apply put_keys, put_keys, H.
  - destruct t; apply put_keys; exact H.
  - cbn. destruct (lo_region l), (lo_script l); cbn; repeat apply put_keys; exact H.
Qed.
Lemma made_keys t l : NoDup (map fst (pt_attr (made t l))).
Proof. induction l as [|o l IH] using rev_ind; [constructor|]. rewrite made_snoc. apply apply_keys, IH. Qed.

Lemma no_locale_attr l : Forall (keeps PCurrency) l -> filter is_locale l = [] -> pt_attr (made PCurrency l) = [].
Proof.
  induction l as [|o l IH] using rev_ind; [reflexivity|]. intros F L. rewrite made_snoc. apply Forall_app in F. destruct F as [F1 F2].
  rewrite filter_app in L. apply app_eq_nil in L. destruct L as [L1 L2]. inversion F2 as [|? ? K _]; subst. specialize (IH F1 L1).
  destruct o; try discriminate K; [discriminate L2|]. exact IH.
Qed.

Ltac one_key := rewrite value_put; cbn [existsb fst last_of documented]; rewrite ?orb_false_r; destruct (str_eqb _ _); reflexivity.

Lemma made_attr t l k : Forall (keeps t) l -> Forall (faithful t) l -> (length (filter is_locale l) <= 1)%nat ->
  value_of k (pt_attr (made t l)) = last_of k (flat_map documented l).
Proof.
  induction l as [|o l IH] using rev_ind; [reflexivity|]. intros F G L. rewrite made_snoc, flat_map_app, last_app.
  apply Forall_app in F, G. destruct F as [F1 F2], G as [G1 G2]. inversion F2 as [|? ? K _]; subst. inversion G2 as [|? ? Fo _]; subst.
  rewrite filter_app, app_length in L. assert (L1 : (length (filter is_locale l) <= 1)%nat) by lia. specialize (IH F1 G1 L1).
  cbn [flat_map]. rewrite app_nil_r.
  destruct o; cbn [documented existsb]; try exact IH; try (cbn [apply_setting set_attr on_attr pt_attr]; rewrite value_put, IH; cbn [existsb fst last_of]; rewrite ?orb_false_r; destruct (str_eqb _ _); reflexivity).
  - cbn [apply_setting set_attr on_attr pt_attr]. rewrite !value_put, IH. cbn [existsb fst last_of]. rewrite !orb_false_r.
    destruct (str_eqb (lit "number:min-decimal-places") k) eqn:E1, (str_eqb (lit "number:decimal-places") k) eqn:E2; try reflexivity.
  - destruct t; try contradiction Fo; cbn [apply_setting set_attr on_attr pt_attr]; rewrite value_put, IH; cbn [existsb fst last_of]; rewrite ?orb_false_r; destruct (str_eqb _ _); reflexivity.
  - assert (t = PCurrency) by (destruct t; try discriminate K; reflexivity). subst t.
    cbn in L. assert (N0 : filter is_locale l = []) by (destruct (filter is_locale l); [reflexivity|cbn in L; lia]).
    pose proof (no_locale_attr l F1 N0) as A. rewrite A in IH. cbn in IH.
    destruct l0 as [la sc re rs]. cbn [apply_setting lo_region lo_script lo_lang fst last_of existsb].
    destruct re as [re|], sc as [sc|]; cbn [set_attr on_attr pt_attr]; rewrite ?A, ?value_put; cbn [value_of]; rewrite ?orb_false_r;
      destruct (str_eqb (lit "number:language") k) eqn:E1; try (apply str_eqb_eq in E1; subst k; reflexivity);
      destruct (str_eqb (lit "number:country") k) eqn:E2; try (apply str_eqb_eq in E2; subst k; reflexivity);
      destruct (str_eqb (lit "number:script") k) eqn:E3; try reflexivity; exact IH.
  - destruct s; cbn [apply_setting set_attr on_attr pt_attr show_nstyle]; rewrite value_put, IH; cbn [existsb fst last_of]; rewrite ?orb_false_r; destruct (str_eqb _ _); reflexivity.
  - destruct c; cbn [apply_setting set_attr on_attr pt_attr show_calendar]; rewrite value_put, IH; cbn [existsb fst last_of]; rewrite ?orb_false_r; destruct (str_eqb _ _); reflexivity.
Qed.

(** ** What is shown *)

Lemma number_show n : number_of (show_N n) = n.
Proof.
  destruct (show_N_numeral n) as (_ & _ & D). rewrite <- D at 2. unfold number_of, dec.
  assert (H : forall s a, fold_left (fun a c => 10 * a + (c - 48)) s a = fold_left (fun v c => v * 10 + (c - 48)) s a).
  { induction s as [|c r IH]; intros a; [reflexivity|]. cbn [fold_left]. rewrite IH. f_equal. lia. }
  apply H.
Qed.

Lemma shown_amount c a m d i least p g :
  number_or (value_of (lit "number:decimal-places") a) (c_places c) = p ->
  number_or (value_of (lit "number:min-decimal-places") a) (c_min_places c p) = least ->
  number_or (value_of (lit "number:min-integer-digits") a) (c_min_integer c) = i ->
  is_true (lit "number:grouping") a = g -> shown_number c a m d = amount c i least p g m d.
Proof. intros Hp Hl Hi Hg. unfold shown_number, amount. rewrite Hp, Hl, Hi, Hg. destruct (decimals _ _); reflexivity. Qed.

Lemma two_digits n : n < 100 -> at_least 2 n = digits 2 n.
Proof.
  intros H. assert (A : forallb (fun k => str_eqb (at_least 2 (N.of_nat k)) (digits 2 (N.of_nat k))) (seq 0 100) = true) by (vm_compute; reflexivity).
  rewrite forallb_forall in A. specialize (A (N.to_nat n)). rewrite N2Nat.id in A. apply str_eqb_eq, A, in_seq. lia.
Qed.

Lemma value_del_other k a k' : str_eqb k k' = false -> value_of k' (del_attr k a) = value_of k' a.
Proof.
  intros H. induction a as [|[k0 v0] r IH]; cbn; [reflexivity|]. destruct (str_eqb k0 k) eqn:E; cbn.
  - apply str_eqb_eq in E. subst k0. rewrite H. reflexivity.
  - rewrite IH. reflexivity.
Qed.
Lemma value_locale k l a : str_eqb (lit "number:language") k = false -> str_eqb (lit "number:country") k = false -> str_eqb (lit "number:script") k = false ->
  value_of k (set_locale l a) = value_of k a.
Proof.
  intros H1 H2 H3. unfold set_locale. destruct (negb _).
  - destruct (lo_region l), (lo_script l); rewrite ?value_put, ?H3, ?value_del_other, ?value_put, ?H2, ?value_del_other, ?value_put, ?H1 by assumption; reflexivity.
  - rewrite !value_del_other by assumption. reflexivity.
Qed.
(** What is shown depends on three attributes of the format and its parts. *)
Lemma shows_attr c f a a' t ps m v :
  (forall k, In k [lit "number:format-source"; lit "number:automatic-order"; lit "number:truncate-on-overflow"] -> value_of k a = value_of k a') ->
  shows c f (FBody a t ps m) v = shows c f (FBody a' t ps m) v.
Proof.
  intros H. unfold shows. cbn [fb_parts fb_maps fb_attr]. unfold is_false.
  rewrite !H by (cbn; tauto). reflexivity.
Qed.
Lemma locale_attr l k : In k [lit "number:format-source"; lit "number:automatic-order"; lit "number:truncate-on-overflow"] ->
  value_of k (set_locale l []) = value_of k [].
Proof. intros [<-|[<-|[<-|[]]]]; apply value_locale; reflexivity. Qed.
Lemma locale_trunc l b k : In k [lit "number:format-source"; lit "number:automatic-order"; lit "number:truncate-on-overflow"] ->
  value_of k (set_truncate b (set_locale l [])) = value_of k (set_truncate b []).
Proof.
  intros I. unfold set_truncate. rewrite !value_put. rewrite locale_attr by exact I. reflexivity.
Qed.

(** ** Tables *)

Lemma am_get_put {V} k n (v : V) m : am_get k (am_put n v m) = if str_eqb n k then Some v else am_get k m.
Proof.
  unfold am_put. cbn. destruct (str_eqb n k) eqn:E; [reflexivity|].
  induction m as [|[k0 v0] r IH]; cbn; [reflexivity|]. destruct (str_eqb k0 n) eqn:E0; cbn.
  - destruct (str_eqb k0 k) eqn:E1; [|exact IH]. apply str_eqb_eq in E0, E1. subst. rewrite str_eqb_refl in E. discriminate.
  - destruct (str_eqb k0 k); [reflexivity|exact IH].
Qed.
Fixpoint found_in (f : family) (k : str) (l : list (family * named body)) : option (named body) :=
  match l with
  | [] => None
  | (g, s) :: r => match found_in f k r with Some x => Some x | None => if family_eqb g f && str_eqb (nm_name s) k then Some s else None end
  end.
Lemma add_all_style l : forall b, forallb (fun p => negb (str_eqb (nm_name (snd p)) [])) l = true ->
  exists b', add_all l b = Ok b' /\ forall f k, style f k b' = match found_in f k l with Some s => Some s | None => style f k b end.
Proof.
  induction l as [|[g s] r IH]; intros b H; [exists b; split; reflexivity|].
  cbn [forallb snd] in H. apply andb_prop in H. destruct H as [H1 H2]. cbn [add_all].
  assert (A : add_style g s b = Ok (Book (bk_auto b) (put_styles g (am_put (nm_name s) s (bk_styles b g)) (bk_styles b)), nm_name s)).
  { unfold add_style. destruct s as [n x]. cbn in H1 |- *. destruct n; [discriminate|reflexivity]. }
  rewrite A. cbn [bind]. destruct (IH (Book (bk_auto b) (put_styles g (am_put (nm_name s) s (bk_styles b g)) (bk_styles b))) H2) as (b' & E & Sb).
  exists b'. split; [exact E|]. intros f k. rewrite Sb. cbn [found_in]. destruct (found_in f k r) as [x|]; [reflexivity|].
  unfold style, put_styles. cbn [bk_styles]. destruct (family_eqb g f) eqn:Ef; cbn [andb].
  - rewrite am_get_put. destruct (str_eqb (nm_name s) k); [reflexivity|]. assert (g = f) as -> by (destruct g, f; try discriminate Ef; reflexivity). reflexivity.
  - reflexivity.
Qed.

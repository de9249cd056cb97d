(** C32, C33: automatic style names, the list of sheets. *)
From Coq Require Import Permutation.
From Verif Require Import Base Lib NumModel NumSpec NumProofs BookModel.

(** ** Finite maps *)
Section Amap.
  Context {V : Type}.
  Implicit Types (m : amap V) (k : str).
  Lemma am_get_del k k' m : am_get k (am_del k' m) = if str_eqb k' k then None else am_get k m.
  Proof.
    induction m as [|[a v] m IH]; cbn [am_del filter am_get fst]; [destruct (str_eqb k' k); reflexivity|].
    destruct (str_eqb a k') eqn:E; cbn [negb]; fold (am_del k' m).
    - apply str_eqb_eq in E. subst a. rewrite IH. destruct (str_eqb k' k); reflexivity.
    - cbn [am_get]. rewrite IH. destruct (str_eqb a k) eqn:E2; [|reflexivity]. apply str_eqb_eq in E2. subst a.
      destruct (str_eqb k' k) eqn:E3; [|reflexivity]. apply str_eqb_eq in E3. subst k'. rewrite str_eqb_refl in E. discriminate.
  Qed.
  Lemma am_get_put k k' v m : am_get k (am_put k' v m) = if str_eqb k' k then Some v else am_get k m.
  Proof. unfold am_put. cbn [am_get]. rewrite am_get_del. destruct (str_eqb k' k); reflexivity. Qed.
  Lemma am_get_in k v m : am_get k m = Some v -> In k (map fst m).
  Proof.
    induction m as [|[a x] m IH]; cbn [am_get map fst]; [discriminate|]. destruct (str_eqb a k) eqn:E; [apply str_eqb_eq in E; now left|].
    intros H. right. now apply IH.
  Qed.
End Amap.
Lemma family_eqb_eq f g : family_eqb f g = true <-> f = g.
Proof. split; [destruct f, g; (reflexivity || discriminate)|intros ->; destruct g; reflexivity]. Qed.
Lemma prefix_inj f g : prefix f = prefix g -> f = g.
Proof. destruct f, g; intros H; (reflexivity || discriminate). Qed.
Lemma show_inj a b : show_N a = show_N b -> a = b.
Proof. intros H. destruct (show_N_numeral a) as (_ & _ & X), (show_N_numeral b) as (_ & _ & Y). congruence. Qed.

Definition upto (n : nat) (from : N) : list N := map (fun i => from + N.of_nat i) (seq 0 n).
Lemma upto_in n from v : In v (upto n from) <-> from <= v < from + N.of_nat n.
Proof.
  unfold upto. rewrite in_map_iff. split.
  - intros (i & <- & I). apply in_seq in I. lia.
  - intros L. exists (N.to_nat (v - from)). split; [lia|]. apply in_seq. lia.
Qed.
Lemma nodup_map {T U} (g : T -> U) l : (forall x y, g x = g y -> x = y) -> NoDup l -> NoDup (map g l).
Proof.
  intros G H. induction H as [|x l N H IH]; cbn [map]; constructor; [|exact IH].
  intros I. apply in_map_iff in I as (y & E & I). apply G in E. now subst.
Qed.
Lemma upto_nodup n from : NoDup (upto n from).
Proof. apply nodup_map; [intros; lia|apply seq_NoDup]. Qed.
Lemma count_in {U} (g : N -> U) (L : list U) a b : (forall x y, g x = g y -> x = y) -> (forall v, a <= v < b -> In (g v) L) ->
  b - a <= N.of_nat (length L).
Proof.
  intros G H. assert (I : incl (map g (upto (N.to_nat (b - a)) a)) L).
  { intros u Iu. apply in_map_iff in Iu as (v & <- & Iv). apply upto_in in Iv. apply H. lia. }
  apply NoDup_incl_length in I; [|apply nodup_map, upto_nodup; exact G]. rewrite map_length in I. unfold upto in I. rewrite map_length, seq_length in I. lia.
Qed.

(** ** Automatic names *)
Section Auto.
  Context {V : Type}.
  Definition auto_at (p : str) (v : N) : str := p ++ show_N v.
  Lemma auto_at_inj p x y : auto_at p x = auto_at p y -> x = y.
  Proof. intros H. apply app_inv_head in H. now apply show_inj. Qed.
  Lemma auto_loop_ok : forall n p cnt c (m : amap V), auto_loop n p cnt m = Ok c ->
    cnt <= c /\ am_get (auto_at p c) m = None /\ forall v, cnt <= v < c -> am_get (auto_at p v) m <> None.
  Proof.
    induction n as [|n IH]; intros p cnt c m H; cbn [auto_loop] in H; [discriminate|]. unfold am_has in H. fold (auto_at p cnt) in H.
    destruct (am_get (auto_at p cnt) m) eqn:E.
    - destruct (add32 cnt 1) as [c1| |] eqn:Ea; try discriminate. cbn [bind] in H. unfold add32 in Ea.
      destruct (cnt + 1 <=? u32_max); try discriminate. injection Ea as <-. apply IH in H as (H1 & H2 & H3). split; [lia|]. split; [exact H2|].
      intros w L. destruct (N.eq_dec w cnt) as [->|]; [rewrite E; discriminate|]. apply H3. lia.
    - injection H as <-. split; [lia|]. split; [exact E|]. intros v L. lia.
  Qed.
  (** The loop ends: each turn finds another name in the table. *)
  Lemma auto_loop_ends : forall n p c0 cnt (m : amap V) (L : list str), c0 <= cnt ->
    (forall v, c0 <= v < cnt -> In (auto_at p v) (map fst m)) -> N.of_nat n + (cnt - c0) = N.of_nat (length m) + 1 ->
    (forall v, v < cnt -> In (auto_at p v) L) -> incl (map fst m) L -> N.of_nat (length L) <= u32_max ->
    exists c, auto_loop n p cnt m = Ok c.
  Proof.
    induction n as [|n IH]; intros p c0 cnt m L Hc Hm Hn HL Hi Hu.
    - exfalso. pose proof (count_in (auto_at p) _ _ _ (auto_at_inj p) Hm) as C. rewrite map_length in C. lia.
    - cbn [auto_loop]. unfold am_has. fold (auto_at p cnt). destruct (am_get (auto_at p cnt) m) eqn:E; [|eauto]. apply am_get_in in E.
      assert (HL' : forall v, v < cnt + 1 -> In (auto_at p v) L).
      { intros w Lw. destruct (N.eq_dec w cnt) as [->|]; [apply Hi, E|apply HL; lia]. }
      assert (C : cnt + 1 - 0 <= N.of_nat (length L)) by (apply (count_in (auto_at p)); [apply auto_at_inj|intros; apply HL'; lia]).
      unfold add32. destruct (cnt + 1 <=? u32_max) eqn:B; [|lia]. cbn [bind]. apply (IH p c0 (cnt + 1) m L); auto; try lia.
      intros w Lw. destruct (N.eq_dec w cnt) as [->|]; [exact E|apply Hm; lia].
  Qed.
End Auto.

(** Adding a style. *)
Lemma put_styles_get {A} f m (t : family -> amap (named A)) g : put_styles f m t g = if family_eqb f g then m else t g.
Proof. reflexivity. Qed.
Lemma style_put {A} f k x auto (b : book A) g k' :
  style g k' (Book auto (put_styles f (am_put k x (bk_styles b f)) (bk_styles b))) = if family_eqb f g && str_eqb k k' then Some x else style g k' b.
Proof.
  unfold style. cbn [bk_styles]. rewrite put_styles_get. destruct (family_eqb f g) eqn:E; [|reflexivity]. apply family_eqb_eq in E. subst g.
  rewrite am_get_put. reflexivity.
Qed.
Lemma style_del {A} f k auto (b : book A) g k' :
  style g k' (Book auto (put_styles f (am_del k (bk_styles b f)) (bk_styles b))) = if family_eqb f g && str_eqb k k' then None else style g k' b.
Proof.
  unfold style. cbn [bk_styles]. rewrite put_styles_get. destruct (family_eqb f g) eqn:E; [|reflexivity]. apply family_eqb_eq in E. subst g.
  rewrite am_get_del. reflexivity.
Qed.

(** A style without a name gets one that is not in use: the prefix of its family and a number.
    The reference returned leads to the style, and all other styles are as before. *)
Theorem C32_add : forall A f (s : named A) b b' r, add_style f s b = Ok (b', r) ->
  (nm_name s = [] -> style f r b = None /\ exists d n, numeral d n /\ r = prefix f ++ d)
  /\ (nm_name s <> [] -> r = nm_name s)
  /\ r <> [] /\ style f r b' = Some (Named r (nm_body s))
  /\ forall g k, ~ (g = f /\ k = r) -> style g k b' = style g k b.
Proof.
  intros A f s b b' r H. unfold add_style in H.
  assert (X : exists auto, b' = Book auto (put_styles f (am_put r (Named r (nm_body s)) (bk_styles b f)) (bk_styles b))
    /\ ((nm_name s = [] /\ auto_name (bk_auto b) (prefix f) (bk_styles b f) = Ok (r, auto)) \/ (nm_name s <> [] /\ r = nm_name s))).
  { destruct (nm_name s) as [|c n] eqn:E.
    - destruct (auto_name (bk_auto b) (prefix f) (bk_styles b f)) as [[n auto]| |]; try discriminate. cbn [bind] in H. injection H as <- <-. exists auto. split; [reflexivity|left; auto].
    - cbn [bind] in H. injection H as <- <-. eexists. split; [reflexivity|]. right. split; [discriminate|reflexivity]. }
  clear H. destruct X as (auto & -> & X).
  assert (Y : nm_name s = [] -> style f r b = None /\ exists d n, numeral d n /\ r = prefix f ++ d).
  { intros E. destruct X as [(_ & X)|(N & _)]; [|congruence]. unfold auto_name in X. destruct (match am_get (prefix f) (bk_auto b) with Some n => add32 n 1 | None => Ok 0 end) as [c0| |]; try discriminate.
    cbn [bind] in X. destruct (auto_loop (S (length (bk_styles b f))) (prefix f) c0 (bk_styles b f)) as [c| |] eqn:El; try discriminate. cbn [bind] in X. injection X as <- <-.
    apply auto_loop_ok in El as (_ & El & _). split; [exact El|]. exists (show_N c), c. split; [apply show_N_numeral|reflexivity]. }
  split; [exact Y|]. split.
  { intros N. destruct X as [(E & _)|(_ & X)]; [congruence|exact X]. }
  split.
  { destruct X as [(E & _)|(N & ->)]; [|exact N]. destruct (Y E) as (_ & d & n & (D & _) & ->). destruct (prefix f); [exact D|discriminate]. }
  split.
  - rewrite style_put. rewrite str_eqb_refl. replace (family_eqb f f) with true by (symmetry; now apply family_eqb_eq). reflexivity.
  - intros g k N. rewrite style_put. destruct (family_eqb f g) eqn:E1; [|reflexivity]. destruct (str_eqb r k) eqn:E2; [|reflexivity].
    apply family_eqb_eq in E1. apply str_eqb_eq in E2. subst. exfalso. now apply N.
Qed.

(** Removing and changing a style touches no other. *)
Theorem C32_others : forall A f k (b : book A) (h : named A -> named A),
  style f k (remove_style f k b) = None /\ style f k (change_style f k h b) = option_map h (style f k b)
  /\ forall g k', ~ (g = f /\ k' = k) -> style g k' (remove_style f k b) = style g k' b /\ style g k' (change_style f k h b) = style g k' b.
Proof.
  intros A f k b h. assert (R : family_eqb f f = true) by now apply family_eqb_eq.
  split; [unfold remove_style; rewrite style_del, R, str_eqb_refl; reflexivity|]. split.
  - unfold change_style. destruct (style f k b) eqn:E; [rewrite style_put, R, str_eqb_refl; reflexivity|exact E].
  - intros g k' N. assert (X : family_eqb f g && str_eqb k k' = false).
    { destruct (family_eqb f g) eqn:E1; [|reflexivity]. destruct (str_eqb k k') eqn:E2; [|reflexivity]. apply family_eqb_eq in E1. apply str_eqb_eq in E2. subst. exfalso. now apply N. }
    split; [unfold remove_style; now rewrite style_del, X|]. unfold change_style. destruct (style f k b); [now rewrite style_put, X|reflexivity].
Qed.

(** ** Histories *)

(** The names given so far, by family. *)
Definition known {A} (b : book A) (L : list (family * str)) : Prop :=
  (forall f k, In k (map fst (bk_styles b f)) -> In (f, k) L)
  /\ (forall f c, am_get (prefix f) (bk_auto b) = Some c -> forall v, v <= c -> In (f, auto_at (prefix f) v) L).
Definition counter {A} (b : book A) (f : family) : N := match am_get (prefix f) (bk_auto b) with Some n => n + 1 | None => 0 end.
Lemma in_del {V} k k' (m : amap V) : In k (map fst (am_del k' m)) -> In k (map fst m).
Proof. intros I. apply in_map_iff in I as (x & E & I). apply filter_In in I as (I & _). apply in_map_iff. eauto. Qed.

Lemma add_known {A} f (s : named A) b L : known b L -> N.of_nat (length L) < u32_max -> exists b' r, add_style f s b = Ok (b', r) /\ known b' ((f, r) :: L)
  /\ (forall g, counter b g <= counter b' g)
  /\ (nm_name s = [] -> exists v, r = auto_at (prefix f) v /\ counter b f <= v < counter b' f).
Proof.
  intros (K1 & K2) Hu. unfold add_style. destruct (nm_name s) as [|c n] eqn:E.
  - assert (Hc : counter b f <= N.of_nat (length L)).
    { replace (counter b f) with (counter b f - 0) by lia. apply (count_in (fun v => (f, auto_at (prefix f) v)) L).
      - intros x y H. apply (auto_at_inj (prefix f)). congruence.
      - unfold counter. destruct (am_get (prefix f) (bk_auto b)) as [c|] eqn:Ec; intros v Lv; [apply (K2 f c Ec); lia|lia]. }
    assert (Hl : exists c, auto_loop (S (length (bk_styles b f))) (prefix f) (counter b f) (bk_styles b f) = Ok c).
    { apply (auto_loop_ends _ _ (counter b f) (counter b f) _ (map snd (filter (fun x => family_eqb f (fst x)) L))); try lia.
      - intros v Lv. apply in_map_iff. exists (f, auto_at (prefix f) v). split; [reflexivity|]. apply filter_In. split; [|now apply family_eqb_eq].
        unfold counter in Lv. destruct (am_get (prefix f) (bk_auto b)) as [c|] eqn:Ec; [apply (K2 f c Ec); lia|lia].
      - intros k I. apply in_map_iff. exists (f, k). split; [reflexivity|]. apply filter_In. split; [now apply K1|now apply family_eqb_eq].
      - rewrite map_length. assert (length (filter (fun x => family_eqb f (fst x)) L) <= length L)%nat by (clear; induction L as [|x L IH]; cbn; [lia|]; destruct (family_eqb f (fst x)); cbn; lia). lia. }
    destruct Hl as (c & Hl). pose proof (auto_loop_ok _ _ _ _ _ Hl) as (L1 & L2 & L3).
    unfold auto_name.
    assert (X : match am_get (prefix f) (bk_auto b) with Some n => add32 n 1 | None => Ok 0 end = Ok (counter b f)).
    { unfold counter in *. destruct (am_get (prefix f) (bk_auto b)) as [n|]; [|reflexivity]. unfold add32. destruct (n + 1 <=? u32_max) eqn:B; [reflexivity|lia]. }
    rewrite X. cbn [bind]. rewrite Hl. cbn [bind]. fold (auto_at (prefix f) c). eexists. eexists. split; [reflexivity|]. split; [|split].
    + split; cbn [bk_styles bk_auto].
      * intros g k I. unfold put_styles in I. destruct (family_eqb f g) eqn:Eg.
        -- apply family_eqb_eq in Eg. subst g. cbn [am_put map fst] in I. destruct I as [<-|I]; [now left|]. right. apply K1. eapply in_del, I.
        -- right. now apply K1.
      * intros g n Hn v Lv. rewrite am_get_put in Hn. destruct (str_eqb (prefix f) (prefix g)) eqn:Eg.
        -- apply str_eqb_eq in Eg. apply prefix_inj in Eg. subst g. injection Hn as <-. destruct (N.eq_dec v c) as [->|]; [now left|]. right.
           destruct (N.lt_ge_cases v (counter b f)) as [X1|X1].
           ++ unfold counter in X1. destruct (am_get (prefix f) (bk_auto b)) as [n0|] eqn:Ec; [apply (K2 f n0 Ec); lia|lia].
           ++ apply K1. destruct (am_get (auto_at (prefix f) v) (bk_styles b f)) eqn:G; [eapply am_get_in, G|]. exfalso. apply (L3 v); [lia|exact G].
        -- right. now apply (K2 g n Hn).
    + intros g. unfold counter. cbn [bk_auto]. rewrite am_get_put. destruct (str_eqb (prefix f) (prefix g)) eqn:Eg; [|lia].
      apply str_eqb_eq in Eg. apply prefix_inj in Eg. subst g. fold (counter b f). lia.
    + intros _. exists c. split; [reflexivity|]. split; [exact L1|]. unfold counter at 1. cbn [bk_auto]. rewrite am_get_put, str_eqb_refl. lia.
  - cbn [bind]. eexists. eexists. split; [reflexivity|]. split; [|split; [intros; reflexivity|discriminate]]. split; cbn [bk_styles bk_auto].
    + intros g k I. unfold put_styles in I. destruct (family_eqb f g) eqn:Eg; [|right; now apply K1].
      apply family_eqb_eq in Eg. subst g. cbn [am_put map fst] in I. destruct I as [<-|I]; [now left|]. right. apply K1. eapply in_del, I.
    + intros g n' Hn v Lv. right. now apply (K2 g n' Hn).
Qed.
Lemma run_known {A} : forall (ops : list (style_op A)) b L, known b L -> N.of_nat (length L) + N.of_nat (length ops) <= u32_max ->
  exists b' l, run_styles ops b = Ok (b', l) /\ (forall f, counter b f <= counter b' f)
    /\ forall f, exists vs, map snd (filter (fun x => family_eqb f (fst (fst x)) && snd (fst x)) l) = map (auto_at (prefix f)) vs
        /\ NoDup vs /\ Forall (fun v => counter b f <= v < counter b' f) vs.
Proof.
  induction ops as [|o ops IH]; intros b L K Hu; cbn [run_styles].
  - exists b, []. split; [reflexivity|]. split; [intros; lia|]. intros f. exists []. repeat constructor.
  - cbn [length] in Hu. destruct o as [f s|f k|f k h].
    + destruct (add_known f s b L K) as (b1 & r & -> & K1 & C1 & V1); [lia|]. cbn [bind].
      destruct (IH b1 ((f, r) :: L) K1) as (b2 & l & -> & C2 & V2); [cbn [length]; lia|]. cbn [bind]. eexists. eexists. split; [reflexivity|].
      split; [intros g; specialize (C1 g); specialize (C2 g); lia|]. intros g. destruct (V2 g) as (vs & E & N & F). cbn [filter fst snd].
      destruct (family_eqb g f) eqn:Eg; cbn [andb].
      * apply family_eqb_eq in Eg. subst g. destruct (nm_name s) eqn:En.
        -- destruct (V1 eq_refl) as (v & -> & L1). exists (v :: vs). cbn [map snd]. split; [now rewrite E|]. split.
           ++ constructor; [|exact N]. intros I. rewrite Forall_forall in F. specialize (F v I). lia.
           ++ constructor; [specialize (C2 f); lia|]. eapply Forall_impl; [|exact F]. cbn beta. intros a La. specialize (C1 f). lia.
        -- exists vs. split; [exact E|]. split; [exact N|]. eapply Forall_impl; [|exact F]. cbn beta. intros a La. specialize (C1 f). lia.
      * exists vs. split; [exact E|]. split; [exact N|]. eapply Forall_impl; [|exact F]. cbn beta. intros a La. specialize (C1 g). lia.
    + apply (IH (remove_style f k b) L); [|lia]. destruct K as (K1 & K2). split; [|exact K2]. intros g k' I. apply K1. unfold remove_style in I. cbn [bk_styles] in I.
      unfold put_styles in I. destruct (family_eqb f g) eqn:Eg; [|exact I]. apply family_eqb_eq in Eg. subst g. eapply in_del, I.
    + assert (KC : known (change_style f k h b) L /\ bk_auto (change_style f k h b) = bk_auto b).
      { unfold change_style. destruct (style f k b) as [x|] eqn:Es; [|auto]. split; [|reflexivity]. destruct K as (K1 & K2). split; [|exact K2]. cbn [bk_styles].
        intros g k' I. apply K1. unfold put_styles in I. destruct (family_eqb f g) eqn:Eg; [|exact I]. apply family_eqb_eq in Eg. subst g.
        cbn [am_put map fst] in I. destruct I as [<-|I]; [eapply am_get_in, Es|eapply in_del, I]. }
      destruct KC as (KC & KA). destruct (IH _ L KC) as (b2 & l & R & C2 & V2); [lia|]. exists b2, l. split; [exact R|].
      unfold counter in *. rewrite KA in *. split; [exact C2|exact V2].
Qed.

(** No history of fewer than [u32::MAX] calls panics, and no automatic name is given twice,
    not even if styles were removed. *)
Theorem C32_history : forall A (ops : list (style_op A)), N.of_nat (length ops) <= u32_max ->
  exists b l, run_styles ops book0 = Ok (b, l) /\ forall f, NoDup (map snd (filter (fun x => family_eqb f (fst (fst x)) && snd (fst x)) l)).
Proof.
  intros A ops Hu. destruct (run_known ops book0 []) as (b & l & R & _ & V).
  - split; [intros f k []|]. intros f c H. discriminate.
  - cbn [length]. lia.
  - exists b, l. split; [exact R|]. intros f. destruct (V f) as (vs & -> & N & _). apply nodup_map; [apply auto_at_inj|exact N].
Qed.

(** If no style is renamed, each is found under its own name. *)
Definition keeps_names {A} (o : style_op A) : Prop := match o with ChangeStyle _ _ g => forall s, nm_name (g s) = nm_name s | _ => True end.
Theorem C32_own_name : forall A (ops : list (style_op A)) b l, run_styles ops book0 = Ok (b, l) -> Forall keeps_names ops ->
  forall f k s, style f k b = Some s -> nm_name s = k.
Proof.
  intros A ops b l R F. assert (G : forall f k s, style f k (@book0 A) = Some s -> nm_name s = k) by discriminate.
  revert R G. generalize (@book0 A) as b0. revert l b. induction F as [|o ops Fo F IH]; intros l b b0 R G; cbn [run_styles] in R; [injection R as <- <-; exact G|].
  destruct o as [f s|f k|f k h].
  - destruct (add_style f s b0) as [[b1 n]| |] eqn:Ea; try discriminate. cbn [bind] in R. destruct (run_styles ops b1) as [[b2 l2]| |] eqn:E2; try discriminate. cbn [bind] in R. injection R as <- <-.
    eapply IH; [exact E2|]. apply C32_add in Ea as (_ & _ & _ & H1 & H2). intros g k x Hx.
    destruct (str_eq_dec k n) as [->|Nk]; [|rewrite H2 in Hx by tauto; now apply (G g)].
    destruct (family_eqb g f) eqn:Eg; [apply family_eqb_eq in Eg; subst g; rewrite H1 in Hx; injection Hx as <-; reflexivity|].
    rewrite H2 in Hx; [now apply (G g)|]. intros (-> & _). assert (family_eqb f f = true) by now apply family_eqb_eq. congruence.
  - eapply IH; [exact R|]. intros g k' x Hx. unfold remove_style in Hx. rewrite style_del in Hx. destruct (family_eqb f g && str_eqb k k'); [discriminate|now apply (G g)].
  - eapply IH; [exact R|]. cbn [keeps_names] in Fo. intros g k' x Hx. unfold change_style in Hx. destruct (style f k b0) as [y|] eqn:Ey; [|now apply (G g)].
    rewrite style_put in Hx. destruct (family_eqb f g && str_eqb k k') eqn:E; [|now apply (G g)]. injection Hx as <-. apply andb_prop in E as (_ & E). apply str_eqb_eq in E. subst k'.
    rewrite Fo. now apply (G f).
Qed.

Example C32_ex : exists b, run_styles [AddStyle FCell (Named (lit "ce1") 1); AddStyle FCell (Named [] 2); AddStyle FRow (Named [] 3); AddStyle FCell (Named [] 4);
    RemoveStyle FCell (lit "ce2"); AddStyle FCell (Named [] 5)] book0
  = Ok (b, [(FCell, false, lit "ce1"); (FCell, true, lit "ce0"); (FRow, true, lit "ro0"); (FCell, true, lit "ce2"); (FCell, true, lit "ce3")])
  /\ style FCell (lit "ce1") b = Some (Named (lit "ce1") 1) /\ style FCell (lit "ce2") b = None /\ style FCell (lit "ce3") b = Some (Named (lit "ce3") 5).
Proof. eexists. split; [vm_compute; reflexivity|]. vm_compute. auto. Qed.
(** A style renamed in place is still found under the old name only. *)
Theorem C32_rename_refuted : exists b l, run_styles [AddStyle FCell (Named (lit "a") 1); ChangeStyle FCell (lit "a") (fun s => Named (lit "b") (nm_body s))] book0 = Ok (b, l)
  /\ style FCell (lit "a") b = Some (Named (lit "b") 1) /\ style FCell (lit "b") b = None.
Proof. eexists. eexists. split; [vm_compute; reflexivity|]. vm_compute. auto. Qed.

(** ** C33: the list of sheets *)
Section Slots.
  Context {T : Type}.
  Lemma set_nth_length n (x : T) : forall l, length (set_nth n x l) = length l.
  Proof. induction n; intros [|y l]; cbn; congruence. Qed.
  Lemma nth_set n (x : T) : forall l i, nth_error (set_nth n x l) i = if (Nat.eqb i n && (n <? length l)%nat)%bool then Some x else nth_error l i.
  Proof.
    induction n as [|n IH]; intros [|y l] [|i]; cbn [set_nth nth_error Nat.eqb andb length]; try reflexivity; try (rewrite IH; reflexivity).
    rewrite Bool.andb_false_r. reflexivity.
  Qed.
  Lemma nth_ext' : forall (l l' : list T), (forall i, nth_error l i = nth_error l' i) -> l = l'.
  Proof.
    induction l as [|x l IH]; intros [|y l'] H; [reflexivity|specialize (H O); discriminate|specialize (H O); discriminate|].
    f_equal; [specialize (H O); cbn in H; congruence|]. apply IH. intros i. apply (H (S i)).
  Qed.
End Slots.
Lemma nth_nil {T} i : nth_error (@nil T) i = None.
Proof. now destruct i. Qed.
Lemma nth_map_some {T} (l : list T) n : nth_error (map Some l) n = option_map Some (nth_error l n).
Proof. apply nth_error_map. Qed.

(** With all sheets attached the workbook is a plain list of sheets. *)
Theorem C33_list : forall T (l : list T) (x : T) (h : T -> T),
  iter_sheets (map Some l) = Ok l
  /\ push_sheet x (map Some l) = map Some (l ++ [x])
  /\ (forall a b, l = a ++ b -> insert_sheet (length a) x (map Some l) = Ok (map Some (a ++ x :: b)))
  /\ (forall n, (length l < n)%nat -> insert_sheet n x (map Some l) = Panic)
  /\ (forall a y b, l = a ++ y :: b -> sheet_at (map Some l) (length a) = Ok y
        /\ remove_sheet (length a) (map Some l) = Ok (map Some (a ++ b), y)
        /\ sheet_edit (length a) h (map Some l) = Ok (map Some (a ++ h y :: b)))
  /\ (forall n, (length l <= n)%nat -> sheet_at (map Some l) n = Panic /\ remove_sheet n (map Some l) = Panic /\ sheet_edit n h (map Some l) = Panic).
Proof.
  intros T l x h. split; [induction l as [|y l IH]; cbn; [reflexivity|now rewrite IH]|]. split; [unfold push_sheet; now rewrite map_app|]. split; [|split; [|split]].
  - intros a b ->. unfold insert_sheet. rewrite map_length, app_length.
    destruct (length a <=? length a + length b)%nat eqn:E; [|apply Nat.leb_gt in E; lia].
    rewrite !map_app. cbn [map]. rewrite firstn_app, skipn_app, map_length, Nat.sub_diag. cbn [firstn skipn].
    rewrite firstn_all2, skipn_all2 by (rewrite map_length; lia). rewrite app_nil_r. reflexivity.
  - intros n L. unfold insert_sheet. rewrite map_length. destruct (n <=? length l)%nat eqn:E; [apply Nat.leb_le in E; lia|reflexivity].
  - intros a y b ->.
    assert (A : sheet_at (map Some (a ++ y :: b)) (length a) = Ok y).
    { unfold sheet_at. rewrite nth_map_some, nth_error_app2, Nat.sub_diag by lia. reflexivity. }
    split; [exact A|]. unfold remove_sheet, sheet_edit. rewrite A. cbn [bind]. split.
    + f_equal. f_equal. rewrite !map_app. cbn [map]. rewrite firstn_app, skipn_app, map_length, Nat.sub_diag. rewrite firstn_all2, skipn_all2 by (rewrite map_length; lia).
      replace (S (length a) - length a)%nat with 1%nat by lia. cbn [firstn skipn app]. now rewrite app_nil_r.
    + f_equal. clear A. induction a as [|z a IH]; cbn [app map length set_nth]; [reflexivity|now rewrite IH].
  - intros n L. assert (A : sheet_at (map Some l) n = Panic).
    { unfold sheet_at. rewrite nth_map_some. destruct (nth_error l n) eqn:E; [|reflexivity]. assert (n < length l)%nat by (apply nth_error_Some; congruence). lia. }
    unfold remove_sheet, sheet_edit. now rewrite A.
Qed.

(** Looking a sheet up by its name finds the first of that name; a detached sheet before it, or anywhere
    if there is none of that name, is a panic. *)
Theorem C33_find : forall T (name : T -> str) n (l : list (option T)),
  match sheet_idx name n l with
  | Ok (Some i) => (exists s, nth_error l i = Some (Some s) /\ name s = n) /\ forall j, (j < i)%nat -> exists s, nth_error l j = Some (Some s) /\ name s <> n
  | Ok None => forall o, In o l -> exists s, o = Some s /\ name s <> n
  | Err => False
  | Panic => exists i, nth_error l i = Some None /\ forall j, (j < i)%nat -> exists s, nth_error l j = Some (Some s) /\ name s <> n
  end.
Proof.
  intros T name n. induction l as [|[s|] l IH]; cbn [sheet_idx].
  - intros o [].
  - destruct (str_eqb (name s) n) eqn:E.
    + apply str_eqb_eq in E. split; [exists s; auto|]. intros j L. lia.
    + assert (N : name s <> n) by (intros X; rewrite X, str_eqb_refl in E; discriminate). destruct (sheet_idx name n l) as [[i|]| |]; cbn [bind option_map].
      * destruct IH as (H1 & H2). split; [exact H1|]. intros [|j] L; [exists s; auto|]. apply H2. lia.
      * intros o [<-|I]; [exists s; auto|now apply IH].
      * exact IH.
      * destruct IH as (i & H1 & H2). exists (S i). split; [exact H1|]. intros [|j] L; [exists s; auto|]. apply H2. lia.
  - exists O. split; [reflexivity|]. intros j L. lia.
Qed.

(** Detaching leaves a hole: the sheet cannot be reached, detached or removed again, all others stay where they are. *)
Theorem C33_detach : forall T n (l : list (option T)),
  match detach_sheet n l with
  | Ok (l', (k, s)) => k = n /\ nth_error l n = Some (Some s) /\ length l' = length l
      /\ sheet_at l' n = Panic /\ detach_sheet n l' = Panic /\ remove_sheet n l' = Panic
      /\ (forall i, i <> n -> nth_error l' i = nth_error l i)
      /\ attach_sheet (k, s) l' = Ok l
  | Err => False
  | Panic => nth_error l n = None \/ nth_error l n = Some None
  end.
Proof.
  intros T n l. unfold detach_sheet, remove_sheet, sheet_at. destruct (nth_error l n) as [[s|]|] eqn:E; cbn [bind]; auto.
  assert (L : (n < length l)%nat) by (apply nth_error_Some; congruence). pose proof L as L'. apply Nat.ltb_lt in L'.
  assert (X : nth_error (set_nth n None l) n = Some None) by (rewrite nth_set, Nat.eqb_refl, L'; reflexivity).
  rewrite X. cbn [bind]. repeat (split; [reflexivity || apply set_nth_length|]). split.
  - intros i N. rewrite nth_set. destruct (Nat.eqb i n) eqn:Ei; [apply Nat.eqb_eq in Ei; contradiction|reflexivity].
  - unfold attach_sheet. cbn [fst snd]. rewrite set_nth_length, L'. f_equal. apply nth_ext'. intros i. rewrite !nth_set, set_nth_length, L'.
    destruct (Nat.eqb i n) eqn:Ei; [|reflexivity]. apply Nat.eqb_eq in Ei. subst i. now rewrite E.
Qed.

Lemma detach_all_spec {T} : forall ns (l : list (option T)), NoDup ns -> (forall n, In n ns -> exists s, nth_error l n = Some (Some s)) ->
  exists l1 ds, detach_all ns l = Ok (l1, ds) /\ map fst ds = ns /\ length l1 = length l /\ (forall i, ~ In i ns -> nth_error l1 i = nth_error l i)
    /\ forall d, In d ds -> nth_error l (fst d) = Some (Some (snd d)).
Proof.
  induction ns as [|n ns IH]; intros l N H; cbn [detach_all].
  - exists l, []. repeat split; auto. intros d [].
  - inversion N; subst. destruct (H n) as (s & Hs); [now left|]. unfold detach_sheet, sheet_at. rewrite Hs. cbn [bind].
    assert (Z : forall i, i <> n -> nth_error (set_nth n None l) i = nth_error l i).
    { intros i Ni. rewrite nth_set. destruct (Nat.eqb i n) eqn:Ei; [apply Nat.eqb_eq in Ei; contradiction|reflexivity]. }
    destruct (IH (set_nth n None l)) as (l1 & ds & -> & E1 & E2 & E3 & E4); [assumption| |].
    { intros k I. rewrite Z by (intros ->; contradiction). apply H. now right. }
    cbn [bind]. exists l1, ((n, s) :: ds). split; [reflexivity|]. split; [cbn; now rewrite E1|]. split; [rewrite E2; apply set_nth_length|]. split.
    + intros i Ni. rewrite E3 by (intros I; apply Ni; now right). apply Z. intros ->. apply Ni. now left.
    + intros d [<-|I]; [exact Hs|]. rewrite <- (E4 d I). symmetry. apply Z. intros X. subst n. apply (in_map fst) in I. rewrite E1 in I. contradiction.
Qed.
Lemma attach_all_spec {T} : forall (ds : list (nat * T)) l, NoDup (map fst ds) -> (forall d, In d ds -> (fst d < length l)%nat) ->
  exists l1, attach_all ds l = Ok l1 /\ length l1 = length l /\ (forall i, ~ In i (map fst ds) -> nth_error l1 i = nth_error l i)
    /\ forall d, In d ds -> nth_error l1 (fst d) = Some (Some (snd d)).
Proof.
  induction ds as [|[n s] ds IH]; intros l N H; cbn [attach_all].
  - exists l. repeat split; auto. intros d [].
  - cbn [map fst] in N. inversion N; subst. pose proof (H (n, s) (or_introl eq_refl)) as L. cbn [fst] in L. unfold attach_sheet. cbn [fst snd].
    pose proof L as L'. apply Nat.ltb_lt in L'. rewrite L'. cbn [bind].
    destruct (IH (set_nth n (Some s) l)) as (l1 & -> & E1 & E2 & E3); [assumption| |].
    { intros d I. rewrite set_nth_length. apply H. now right. }
    exists l1. split; [reflexivity|]. split; [rewrite E1; apply set_nth_length|]. split.
    + intros i Ni. cbn [map fst] in Ni. rewrite E2 by (intros I; apply Ni; now right). rewrite nth_set. destruct (Nat.eqb i n) eqn:Ei; [|reflexivity].
      apply Nat.eqb_eq in Ei. subst. exfalso. apply Ni. now left.
    + intros d [<-|I]; [|now apply E3]. cbn [fst snd]. rewrite E2 by assumption. rewrite nth_set, Nat.eqb_refl, L'. reflexivity.
Qed.

(** Detach some sheets, change them, push further sheets meanwhile, and attach in any order:
    each sheet is back in its place, with its changes, and no other sheet is touched. *)
Theorem C33_round : forall T (l more : list T) ns (g : nat -> T -> T), NoDup ns -> (forall n, In n ns -> (n < length l)%nat) ->
  exists l1 ds, detach_all ns (map Some l) = Ok (l1, ds) /\ map fst ds = ns
    /\ forall ds', Permutation ds' (map (fun d => (fst d, g (fst d) (snd d))) ds) ->
       exists l', attach_all ds' (fold_left (fun b s => push_sheet s b) more l1) = Ok (map Some (l' ++ more)) /\ length l' = length l
         /\ forall i s, nth_error l i = Some s -> (In i ns -> nth_error l' i = Some (g i s)) /\ (~ In i ns -> nth_error l' i = Some s).
Proof.
  intros T l more ns g N H. destruct (detach_all_spec ns (map Some l) N) as (l1 & ds & E & E1 & E2 & E3 & E4).
  { intros n I. specialize (H n I). rewrite nth_map_some. destruct (nth_error l n) eqn:En; [eexists; reflexivity|]. apply nth_error_None in En. lia. }
  exists l1, ds. split; [exact E|]. split; [exact E1|]. intros ds' P.
  assert (PF : Permutation (map fst ds') ns).
  { rewrite <- E1. transitivity (map fst (map (fun d : nat * T => (fst d, g (fst d) (snd d))) ds)); [now apply Permutation_map|]. rewrite map_map. reflexivity. }
  assert (EM : fold_left (fun b s => push_sheet s b) more l1 = l1 ++ map Some more).
  { clear. revert l1. induction more as [|m more IH]; intros l1; cbn [fold_left map]; [now rewrite app_nil_r|]. rewrite IH. unfold push_sheet. now rewrite <- app_assoc. }
  rewrite EM. rewrite map_length in E2. destruct (attach_all_spec ds' (l1 ++ map Some more)) as (l2 & -> & F1 & F2 & F3).
  { apply (Permutation_NoDup (Permutation_sym PF) N). }
  { intros d I. rewrite app_length. apply (in_map fst) in I. apply (Permutation_in _ PF) in I. specialize (H _ I). lia. }
  assert (G : forall i s, In i ns -> nth_error l i = Some s -> nth_error l2 i = Some (Some (g i s))).
  { intros i s I Hs. rewrite <- E1 in I. apply in_map_iff in I as ((i' & s') & Hi & I). cbn [fst] in Hi. subst i'. pose proof (E4 _ I) as Q. cbn [fst snd] in Q.
    rewrite nth_map_some, Hs in Q. injection Q as ->.
    apply (in_map (fun d : nat * T => (fst d, g (fst d) (snd d)))) in I. cbn [fst snd] in I. apply (Permutation_in _ (Permutation_sym P)) in I. exact (F3 _ I). }
  assert (K : forall i s, nth_error l i = Some s -> (In i ns -> nth_error l2 i = Some (Some (g i s))) /\ (~ In i ns -> nth_error l2 i = Some (Some s))).
  { intros i s Hs. split; [intros I; now apply G|]. intros Ni. assert (Li : (i < length l)%nat) by (apply nth_error_Some; congruence).
    rewrite F2 by (intros I; apply Ni, (Permutation_in _ PF), I). rewrite nth_error_app1 by lia. rewrite E3 by exact Ni. now rewrite nth_map_some, Hs. }
  pose (q := map (fun p => if in_dec Nat.eq_dec (fst p) ns then g (fst p) (snd p) else snd p) (combine (seq 0 (length l)) l)).
  assert (Hq : forall i s, nth_error l i = Some s -> nth_error q i = Some (if in_dec Nat.eq_dec i ns then g i s else s)).
  { intros i s Hs. unfold q. rewrite nth_error_map.
    assert (C : forall (l : list T) a i, nth_error (combine (seq a (length l)) l) i = option_map (fun s => ((a + i)%nat, s)) (nth_error l i)).
    { clear. induction l as [|x l IH]; intros a [|i]; cbn; try reflexivity; [now rewrite Nat.add_0_r|]. rewrite IH. destruct (nth_error l i); cbn; [|reflexivity]. do 2 f_equal. lia. }
    rewrite C, Hs. reflexivity. }
  assert (Lq : length q = length l) by (unfold q; rewrite map_length, combine_length, seq_length; lia).
  exists q. split; [|split; [exact Lq|]].
  - f_equal. apply nth_ext'. intros i. rewrite nth_map_some. destruct (nth_error l i) as [s|] eqn:Ei.
    + assert (Li : (i < length l)%nat) by (apply nth_error_Some; congruence). rewrite nth_error_app1 by lia. rewrite (Hq i s Ei). destruct (K i s Ei) as (K1 & K2).
      destruct (in_dec Nat.eq_dec i ns) as [I|I]; [rewrite K1 by exact I|rewrite K2 by exact I]; reflexivity.
    + apply nth_error_None in Ei. rewrite F2. 2:{ intros I. apply (Permutation_in _ PF) in I. specialize (H _ I). lia. }
      rewrite !nth_error_app2 by lia. rewrite Lq, E2. now rewrite nth_map_some.
  - intros i s Hs. rewrite (Hq i s Hs). destruct (in_dec Nat.eq_dec i ns) as [I|I]; split; intros X; (reflexivity || contradiction).
Qed.

Example C33_ex : let l := [Some (lit "a"); Some (lit "b"); Some (lit "c")] in
  exists l1 d, detach_all [2; 0]%nat l = Ok (l1, d) /\ sheet_idx (fun s => s) (lit "b") l1 = Panic
    /\ attach_all [(0%nat, lit "A"); (2%nat, lit "c")] (push_sheet (lit "d") l1) = Ok [Some (lit "A"); Some (lit "b"); Some (lit "c"); Some (lit "d")]
    /\ sheet_idx (fun s => s) (lit "b") l = Ok (Some 1%nat).
Proof. do 2 eexists. split; [vm_compute; reflexivity|]. vm_compute. auto. Qed.

(** Any sequence of pushing, detaching, attaching, changing sheets in the workbook and changing detached sheets. *)
Inductive sheet_op (T : Type) : Type :=
| OPush (x : T)
| OEdit (n : nat) (h : T -> T)       (* a sheet in the workbook *)
| ODetach (n : nat)
| OEditOut (n : nat) (h : T -> T)    (* the detached sheet of that number *)
| OAttach (n : nat).
Arguments OPush {T}. Arguments OEdit {T}. Arguments ODetach {T}. Arguments OEditOut {T}. Arguments OAttach {T}.
(** The workbook and the sheets detached from it. *)
Definition hand_get {T} (n : nat) (hand : list (nat * T)) : option T := option_map snd (find (fun d => Nat.eqb (fst d) n) hand).
Definition hand_del {T} (n : nat) (hand : list (nat * T)) : list (nat * T) := filter (fun d => negb (Nat.eqb (fst d) n)) hand.
Definition sheet_step {T} (o : sheet_op T) (st : list (option T) * list (nat * T)) : res (list (option T) * list (nat * T)) :=
  let (l, hand) := st in
  match o with
  | OPush x => Ok (push_sheet x l, hand)
  | OEdit n h => let* l' := sheet_edit n h l in Ok (l', hand)
  | ODetach n => let* (l', d) := detach_sheet n l in Ok (l', d :: hand)
  | OEditOut n h => Ok (l, map (fun d => if Nat.eqb (fst d) n then (fst d, h (snd d)) else d) hand)
  | OAttach n => match hand_get n hand with Some s => let* l' := attach_sheet (n, s) l in Ok (l', hand_del n hand) | None => Err end
  end.
Fixpoint sheet_steps {T} (os : list (sheet_op T)) st := match os with [] => Ok st | o :: r => let* st1 := sheet_step o st in @sheet_steps T r st1 end.
(** The same on a plain list: detaching and attaching do nothing, changes are made in place. *)
Definition plain_step {T} (l : list T) (o : sheet_op T) : list T :=
  match o with
  | OPush x => l ++ [x]
  | OEdit n h | OEditOut n h => firstn n l ++ match skipn n l with x :: r => h x :: r | [] => [] end
  | ODetach _ | OAttach _ => l
  end.
Lemma plain_edit_nth {T} (h : T -> T) : forall n l i, nth_error (firstn n l ++ match skipn n l with x :: r => h x :: r | [] => [] end) i
  = if Nat.eqb i n then option_map h (nth_error l i) else nth_error l i.
Proof.
  induction n as [|n IH]; intros [|x l] [|i]; cbn [firstn skipn app nth_error Nat.eqb option_map]; try reflexivity; try (now destruct (Nat.eqb i n)); apply IH.
Qed.
Definition same_sheets {T} (st : list (option T) * list (nat * T)) (p : list T) : Prop :=
  let (l, hand) := st in
  NoDup (map fst hand) /\ (forall d, In d hand -> nth_error p (fst d) = Some (snd d))
  /\ forall i, match nth_error l i with
     | Some (Some s) => nth_error p i = Some s /\ ~ In i (map fst hand)
     | Some None => In i (map fst hand)
     | None => nth_error p i = None
     end.
Lemma hand_get_in {T} n (s : T) hand : hand_get n hand = Some s -> In (n, s) hand.
Proof.
  unfold hand_get. destruct (find _ hand) as [[k x]|] eqn:E; [|discriminate]. apply find_some in E as (I & E). cbn [fst] in E. apply Nat.eqb_eq in E. subst k. cbn. now intros [= ->].
Qed.
Lemma same_step {T} (o : sheet_op T) st st' p : same_sheets st p -> sheet_step o st = Ok st' ->
  (match o with OEditOut n _ => In n (map fst (snd st)) | _ => True end) -> same_sheets st' (plain_step p o).
Proof.
  destruct st as (l, hand). intros (H1 & H2 & H3) R HO. destruct o as [x|n h|n|n h|n]; cbn [sheet_step plain_step snd] in *.
  - injection R as <-. assert (L : length l = length p).
    { destruct (lt_eq_lt_dec (length l) (length p)) as [[L|L]|L]; [|exact L|].
      - specialize (H3 (length l)). assert (nth_error l (length l) = None) as X by (apply nth_error_None; lia). rewrite X in H3. apply nth_error_None in H3. lia.
      - specialize (H3 (length p)). assert (nth_error p (length p) = None) as X by (apply nth_error_None; lia). destruct (nth_error l (length p)) as [[s|]|] eqn:E.
        + destruct H3; congruence.
        + apply in_map_iff in H3 as (d & E1 & I). apply H2 in I. congruence.
        + apply nth_error_None in E. lia. }
    split; [exact H1|]. split.
    + intros d I. specialize (H2 d I). rewrite nth_error_app1; [exact H2|]. apply nth_error_Some. congruence.
    + intros i. unfold push_sheet. destruct (lt_dec i (length l)) as [Li|Li].
      * rewrite !nth_error_app1 by lia. apply H3.
      * rewrite !nth_error_app2 by lia. rewrite L. destruct (i - length p)%nat as [|k] eqn:Ek; cbn [nth_error].
        -- split; [reflexivity|]. intros I. apply in_map_iff in I as (d & E1 & I). apply H2 in I. assert (fst d < length p)%nat by (apply nth_error_Some; congruence). lia.
        -- now rewrite !nth_nil.
  - unfold sheet_edit, sheet_at in R. pose proof (H3 n) as H3n. destruct (nth_error l n) as [[s|]|] eqn:En; try discriminate. cbn [bind] in R. injection R as <-.
    destruct H3n as (Hp & Hn). assert (Ln : (n < length l)%nat) by (apply nth_error_Some; congruence). split; [exact H1|]. split.
    + intros d I. rewrite plain_edit_nth. destruct (Nat.eqb (fst d) n) eqn:Ed; [|now apply H2]. apply Nat.eqb_eq in Ed. exfalso. apply Hn. rewrite <- Ed. now apply in_map.
    + intros i. rewrite nth_set, plain_edit_nth. apply Nat.ltb_lt in Ln. rewrite Ln, Bool.andb_true_r. destruct (Nat.eqb i n) eqn:Ei; [|apply H3].
      apply Nat.eqb_eq in Ei. subst i. now rewrite Hp.
  - unfold detach_sheet, sheet_at in R. pose proof (H3 n) as H3n. destruct (nth_error l n) as [[s|]|] eqn:En; try discriminate. cbn [bind] in R. injection R as <-.
    destruct H3n as (Hp & Hn). assert (Ln : (n < length l)%nat) by (apply nth_error_Some; congruence). split; [constructor; assumption|]. split.
    + intros d [<-|I]; [exact Hp|now apply H2].
    + intros i. rewrite nth_set. apply Nat.ltb_lt in Ln. rewrite Ln, Bool.andb_true_r. cbn [map fst]. destruct (Nat.eqb i n) eqn:Ei; [apply Nat.eqb_eq in Ei; subst i; now left|].
      specialize (H3 i). apply Nat.eqb_neq in Ei. destruct (nth_error l i) as [[x|]|]; [|now right|exact H3]. destruct H3 as (A & B). split; [exact A|]. intros [X|X]; [now apply Ei|contradiction].
  - injection R as <-. assert (EM : map fst (map (fun d : nat * T => if Nat.eqb (fst d) n then (fst d, h (snd d)) else d) hand) = map fst hand).
    { rewrite map_map. apply map_ext. intros d. destruct (Nat.eqb (fst d) n); reflexivity. }
    split; [now rewrite EM|]. split.
    + intros d I. apply in_map_iff in I as (e & <- & I). specialize (H2 e I). rewrite plain_edit_nth. destruct (Nat.eqb (fst e) n) eqn:Ee; cbn [fst snd]; rewrite Ee; [now rewrite H2|exact H2].
    + intros i. rewrite plain_edit_nth, EM. specialize (H3 i). destruct (nth_error l i) as [[s|]|]; [|exact H3|].
      * destruct H3 as (A & B). destruct (Nat.eqb i n) eqn:Ei; [apply Nat.eqb_eq in Ei; subst i; contradiction|auto].
      * rewrite H3. now destruct (Nat.eqb i n).
  - destruct (hand_get n hand) as [s|] eqn:Eh; [|discriminate]. apply hand_get_in in Eh. unfold attach_sheet in R. cbn [fst snd] in R.
    destruct (n <? length l)%nat eqn:Ln; [|discriminate]. cbn [bind] in R. injection R as <-. pose proof (H2 _ Eh) as Hp. cbn [fst snd] in Hp.
    assert (EI : forall i, In i (map fst (hand_del n hand)) <-> i <> n /\ In i (map fst hand)).
    { intros i. unfold hand_del. rewrite !in_map_iff. split.
      - intros (d & <- & I). apply filter_In in I as (I & Q). apply Bool.negb_true_iff, Nat.eqb_neq in Q. split; [exact Q|eauto].
      - intros (N & d & <- & I). exists d. split; [reflexivity|]. apply filter_In. split; [exact I|]. now apply Bool.negb_true_iff, Nat.eqb_neq. }
    split.
    { clear - H1. induction hand as [|d hand IH]; cbn; [constructor|]. cbn [map] in H1. inversion H1; subst. destruct (Nat.eqb (fst d) n); cbn [negb]; [now apply IH|]. cbn [map]. constructor; [|now apply IH].
      intros I. apply H2. apply in_map_iff in I as (e & E & I). apply filter_In in I as (I & _). apply in_map_iff. eauto. }
    split; [intros d I; apply filter_In in I as (I & _); now apply H2|].
    intros i. rewrite nth_set, Ln, Bool.andb_true_r. destruct (Nat.eqb i n) eqn:Ei.
    + apply Nat.eqb_eq in Ei. subst i. split; [exact Hp|]. rewrite EI. tauto.
    + apply Nat.eqb_neq in Ei. specialize (H3 i). destruct (nth_error l i) as [[x|]|]; [|rewrite EI; auto|exact H3]. destruct H3 as (A & B). split; [exact A|]. rewrite EI. tauto.
Qed.
Lemma edit_out_none {T} n (h : T -> T) hand : ~ In n (map fst hand) -> map (fun d => if Nat.eqb (fst d) n then (fst d, h (snd d)) else d) hand = hand.
Proof.
  intros N. rewrite <- (map_id hand) at 2. apply map_ext_in. intros d I. destruct (Nat.eqb (fst d) n) eqn:E; [|reflexivity]. apply Nat.eqb_eq in E. exfalso. apply N. rewrite <- E. now apply in_map.
Qed.

(** Whatever the sequence: if all sheets are attached at the end, the workbook has the sheets a plain list would have.
    ([made] are the calls that could be made: a sheet that is not detached cannot be changed as a detached one.) *)
Fixpoint made {T} (os : list (sheet_op T)) st : list (sheet_op T) :=
  match os with
  | [] => []
  | o :: r => (match o with OEditOut n _ => if in_dec Nat.eq_dec n (map fst (snd st)) then [o] else [] | _ => [o] end)
      ++ match sheet_step o st with Ok st' => made r st' | _ => [] end
  end.
Theorem C33_sequences : forall T (l : list T) os l', sheet_steps os (map Some l, []) = Ok (l', []) ->
  l' = map Some (fold_left plain_step (made os (map Some l, [])) l).
Proof.
  intros T l os l' R.
  assert (G : forall os st (p : list T), same_sheets st p -> forall l', sheet_steps os st = Ok (l', []) -> same_sheets (l', []) (fold_left plain_step (made os st) p)).
  { clear. induction os as [|o os IH]; intros st p S l' R; cbn [sheet_steps made] in *; [injection R as ->; exact S|].
    destruct (sheet_step o st) as [st1| |] eqn:Es; try discriminate. cbn [bind] in R. rewrite fold_left_app. apply IH; [|exact R].
    destruct o; try (cbn [fold_left]; eapply same_step; [exact S|exact Es|exact I]).
    destruct (in_dec Nat.eq_dec n (map fst (snd st))) as [I|I]; [cbn [fold_left]; eapply same_step; [exact S|exact Es|exact I]|].
    destruct st as (sl, hand). cbn [sheet_step snd] in *. rewrite edit_out_none in Es by exact I. injection Es as <-. exact S. }
  assert (S0 : same_sheets (map Some l, []) l).
  { split; [constructor|]. split; [intros d []|]. intros i. rewrite nth_map_some. destruct (nth_error l i); cbn; [split; [reflexivity|tauto]|reflexivity]. }
  destruct (G os _ _ S0 _ R) as (_ & _ & H). apply nth_ext'. intros i. rewrite nth_map_some. specialize (H i).
  destruct (nth_error l' i) as [[s|]|]; [destruct H as (-> & _); reflexivity|destruct H|now rewrite H].
Qed.
Example C33_sequences_ex : sheet_steps [ODetach 1%nat; OPush 9; ODetach 0%nat; OEditOut 1%nat (fun x => x + 50); OEdit 2%nat (fun x => x * 2); OAttach 0%nat; OAttach 1%nat] ([Some 1; Some 2; Some 3], [])
  = Ok ([Some 1; Some 52; Some 6; Some 9], []).
Proof. vm_compute. reflexivity. Qed.

(** If sheets are inserted or removed meanwhile, the detached sheet replaces another one, which is lost,
    and the hole stays; all later walks over the sheets panic. *)
Theorem C33_moved_refuted : exists (l l1 l2 l3 l4 : list (option str)) (d : nat * str),
  l = [Some (lit "a"); Some (lit "b"); Some (lit "c")] /\ detach_sheet 1 l = Ok (l1, d)
  /\ insert_sheet 0 (lit "new") l1 = Ok l2 /\ attach_sheet d l2 = Ok l3 /\ l3 = [Some (lit "new"); Some (lit "b"); None; Some (lit "c")] /\ iter_sheets l3 = Panic
  /\ remove_sheet 0 l1 = Ok (l4, lit "a") /\ attach_sheet d l4 = Ok [None; Some (lit "b")].
Proof.
  exists [Some (lit "a"); Some (lit "b"); Some (lit "c")], [Some (lit "a"); None; Some (lit "c")], [Some (lit "new"); Some (lit "a"); None; Some (lit "c")],
    [Some (lit "new"); Some (lit "b"); None; Some (lit "c")], [None; Some (lit "c")], (1%nat, lit "b").
  vm_compute. repeat split.
Qed.

Print Assumptions C32_add.
Print Assumptions C32_others.
Print Assumptions C32_history.
Print Assumptions C32_own_name.
Print Assumptions C32_rename_refuted.
Print Assumptions C33_list.
Print Assumptions C33_find.
Print Assumptions C33_detach.
Print Assumptions C33_round.
Print Assumptions C33_sequences.
Print Assumptions C33_moved_refuted.

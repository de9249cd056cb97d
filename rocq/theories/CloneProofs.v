(** Copying repeated rows and cells. *)
From Verif Require Import Base Lib OMap OMapProofs CellModel HeaderModel HeaderProofs CellIoSpec TableModel CloneModel CloneSpec.

Lemma from1_in n i : In i (from1 n) <-> 1 <= i < n.
Proof.
  unfold from1. rewrite in_map_iff. split.
  - intros (k & <- & I). apply in_seq in I. lia.
  - intros H. exists (N.to_nat i). split; [lia|]. apply in_seq. lia.
Qed.
Lemma collect_ok {A B} (f : A -> res (list B)) l : (forall x, In x l -> exists y, f x = Ok y) -> exists z, collect f l = Ok z.
Proof.
  induction l as [|x l IH]; intros H; cbn [collect]; [eauto|]. destruct (H x (or_introl eq_refl)) as (y & E). rewrite E. cbn [bind].
  destruct IH as (z & Ez); [intros; apply H; now right|]. rewrite Ez. cbn [bind]. eauto.
Qed.
Lemma collect_in {A B} (f : A -> res (list B)) l : forall z b, collect f l = Ok z -> (In b z <-> exists x y, In x l /\ f x = Ok y /\ In b y).
Proof.
  induction l as [|x l IH]; intros z b H; cbn [collect] in H.
  - injection H as <-. split; [intros []|intros (? & ? & [] & _)].
  - destruct (f x) as [y| |] eqn:E; try discriminate. cbn [bind] in H. destruct (collect f l) as [z'| |] eqn:Ez; try discriminate. injection H as <-.
    rewrite in_app_iff, (IH _ b eq_refl). split.
    + intros [I|(x' & y' & I & F & J)]; [exists x, y|exists x', y']; cbn [In]; auto.
    + intros (x' & y' & [->|I] & F & J); [left; congruence|right; eauto].
Qed.

(** ** Inserting and removing *)

Lemma get_insert_all l : forall m p, match om_get pltb p (insert_all l m) with
  | Some k => In (p, k) l \/ (~ In p (map fst l) /\ om_get pltb p m = Some k)
  | None => ~ In p (map fst l) /\ om_get pltb p m = None end.
Proof.
  induction l as [|[q e] l IH]; intros m p; cbn [insert_all fold_left map fst snd].
  - destruct (om_get pltb p m); auto.
  - specialize (IH (om_insert pltb q e m) p). unfold insert_all in IH. destruct (om_get pltb p (fold_left _ l _)) as [k|].
    + destruct IH as [I|(N & G)]; [left; now right|]. destruct (keq_dec pltb pltb_order p q) as [->|D].
      * rewrite get_insert_same in G by apply pltb_order. injection G as <-. left; now left.
      * rewrite get_insert_other in G by (try apply pltb_order; auto). right. split; [|exact G]. intros [X|X]; [congruence|contradiction].
    + destruct IH as (N & G). destruct (keq_dec pltb pltb_order p q) as [->|D].
      * rewrite get_insert_same in G by apply pltb_order. discriminate.
      * rewrite get_insert_other in G by (try apply pltb_order; auto). split; [|exact G]. intros [X|X]; [congruence|contradiction].
Qed.
Lemma sorted_insert_all l : forall m, om_sorted pltb m -> om_sorted pltb (insert_all l m).
Proof. induction l as [|kv l IH]; intros m H; [exact H|]. apply IH. apply sorted_insert; [apply pltb_order|exact H]. Qed.
(** Copies that do not contradict each other and do not meet other cells. *)
Lemma in_insert_all l m p k : om_sorted pltb m -> (forall a b, In (p, a) l -> In (p, b) l -> a = b) ->
  (forall a b, In (p, a) l -> In (p, b) m -> a = b) ->
  (In (p, k) (insert_all l m) <-> In (p, k) l \/ In (p, k) m).
Proof.
  intros Hs F1 F2. rewrite <- (get_in pltb pltb_order _ _ _ (sorted_insert_all l m Hs)). pose proof (get_insert_all l m p) as G.
  destruct (om_get pltb p (insert_all l m)) as [x|].
  - rewrite (get_in pltb pltb_order p x m Hs) in G. split.
    + intros E. injection E as <-. tauto.
    + intros [I|I]; destruct G as [G|(N & G)].
      * f_equal. now apply F1.
      * exfalso. apply N. apply in_map_iff. exists (p, k). auto.
      * f_equal. now apply F2.
      * apply (get_in pltb pltb_order _ _ _ Hs) in G, I. congruence.
  - destruct G as (N & G). split; [discriminate|]. intros [I|I].
    + exfalso. apply N. apply in_map_iff. exists (p, k). auto.
    + apply (get_in pltb pltb_order _ _ _ Hs) in I. congruence.
Qed.
Lemma remove_all_ok l : forall m, om_sorted pltb m -> om_sorted pltb (remove_all l m)
  /\ forall p k, In (p, k) (remove_all l m) <-> In (p, k) m /\ ~ In p l.
Proof.
  induction l as [|q l IH]; intros m Hs; cbn [remove_all fold_left].
  - split; [exact Hs|]. intros; cbn [In]; tauto.
  - destruct (IH (om_remove pltb q m)) as (S1 & E); [now apply sorted_remove|]. split; [exact S1|]. intros p k. unfold remove_all in E. rewrite E.
    assert (X : In (p, k) (om_remove pltb q m) <-> In (p, k) m /\ p <> q).
    { rewrite <- !(get_in pltb pltb_order) by (try apply sorted_remove; auto using pltb_order).
      destruct (keq_dec pltb pltb_order p q) as [->|D].
      - rewrite get_remove_same by auto using pltb_order. split; [discriminate|tauto].
      - rewrite get_remove_other by auto using pltb_order. tauto. }
    rewrite X. cbn [In]. split; [intros ((A & B) & C); split; [exact A|intros [D|D]; [congruence|contradiction]]|].
    intros (A & B). repeat split; auto; intros ->; apply B; now left.
Qed.

(** ** The row headers *)

Lemma clear_last_cons x m : clear_last (x :: m) = (if (length m <? 5)%nat then clear_repeat x else x) :: clear_last m.
Proof.
  unfold clear_last. cbn [rev]. rewrite firstn_app, skipn_app, rev_length. destruct (length m <? 5)%nat eqn:E.
  - apply Nat.ltb_lt in E. rewrite !(firstn_all2 (rev m)), !(skipn_all2 (rev m)) by (rewrite rev_length; lia).
    destruct (5 - length m)%nat as [|k] eqn:Ek; [lia|]. cbn [firstn skipn]. rewrite firstn_nil, skipn_nil. cbn [app]. rewrite !app_nil_r, map_app, !rev_app_distr. reflexivity.
  - apply Nat.ltb_ge in E. replace (5 - length m)%nat with 0%nat by lia. cbn [firstn skipn]. rewrite app_nil_r, app_assoc, !rev_app_distr. reflexivity.
Qed.
Lemma clear_fst (b : bool) x : fst (if b then clear_repeat x else x) = fst x.
Proof. unfold clear_repeat. destruct b; [|reflexivity]. now destruct (1000 <? ra_repeat (h_attr (snd x))). Qed.
Lemma clear_last_in m : forall r h', In (r, h') (clear_last m) <-> exists a h b, m = a ++ (r, h) :: b /\ (r, h') = (if (length b <? 5)%nat then clear_repeat (r, h) else (r, h)).
Proof.
  induction m as [|[k g] m IH]; intros r h'.
  - cbn. split; [intros []|intros ([|] & ? & ? & E & _); discriminate].
  - rewrite clear_last_cons. cbn [In]. rewrite IH. split.
    + intros [E|(a & h & b & -> & E)].
      * assert (k = r) as -> by (apply (f_equal fst) in E; rewrite clear_fst in E; exact E). exists [], g, m. split; [reflexivity|congruence].
      * exists ((k, g) :: a), h, b. auto.
    + intros ([|x a] & h & b & E & E'); cbn [app] in E; injection E.
      * intros; subst. left. congruence.
      * intros E1 E2; subst. right. exists a, h, b. auto.
Qed.
Lemma cleared_counted m r h' : In (r, h') (clear_last m) -> counted m r (ra_repeat (h_attr h')) /\ exists h, In (r, h) m /\ h_span h' = h_span h
  /\ h_attr h' = row_edit (SetRowRepeat (ra_repeat (h_attr h'))) (h_attr h).
Proof.
  intros I. apply clear_last_in in I as (a & h & b & -> & E). split.
  - exists a, h, b. split; [reflexivity|]. destruct (length b <? 5)%nat eqn:L; [apply Nat.ltb_lt in L|apply Nat.ltb_ge in L].
    + unfold clear_repeat in E. cbn [fst snd] in E. destruct (1000 <? ra_repeat (h_attr h)) eqn:G.
      * assert (h' = _) as -> by (injection E as E; exact E). left. cbn. repeat split; auto; lia.
      * assert (h' = h) as -> by congruence. right. split; [right; lia|reflexivity].
    + assert (h' = h) as -> by congruence. right. split; [now left|reflexivity].
  - exists h. split; [apply in_elt|]. unfold clear_repeat in E. cbn [fst snd] in E. destruct (length b <? 5)%nat; [destruct (1000 <? ra_repeat (h_attr h))|];
      assert (h' = _) as -> by (injection E as E; exact E); cbn; split; auto; destruct h as [[] ?]; reflexivity.
Qed.
Lemma counted_cleared m r n : counted m r n -> exists h', In (r, h') (clear_last m) /\ ra_repeat (h_attr h') = n.
Proof.
  intros (a & h & b & -> & C). pose proof (clear_last_in (a ++ (r, h) :: b) r) as X.
  exists (snd (if (length b <? 5)%nat then clear_repeat (r, h) else (r, h))). split.
  - apply X. exists a, h, b. split; [reflexivity|]. pose proof (clear_fst (length b <? 5)%nat (r, h)) as F. cbn [fst] in F. destruct (if (length b <? 5)%nat then clear_repeat (r, h) else (r, h)). cbn [fst snd] in *. now subst.
  - unfold clear_repeat. cbn [fst snd]. destruct C as [(L & G & ->)|(L & ->)].
    + apply Nat.ltb_lt in L. rewrite L. assert (G' : 1000 <? ra_repeat (h_attr h) = true) by lia. now rewrite G'.
    + destruct (length b <? 5)%nat eqn:L'; [|reflexivity]. apply Nat.ltb_lt in L'. destruct (1000 <? ra_repeat (h_attr h)) eqn:G; [lia|reflexivity].
Qed.
Lemma clear_keys m : map fst (clear_last m) = map fst m.
Proof.
  induction m as [|x m IH]; [reflexivity|]. rewrite clear_last_cons. cbn [map]. rewrite IH. f_equal. apply clear_fst.
Qed.
Lemma sorted_keys {V W} (m : omap N V) (m' : omap N W) : map fst m = map fst m' -> om_sorted N.ltb m -> om_sorted N.ltb m'.
Proof.
  revert m'. induction m as [|[k v] m IH]; intros [|[k' v'] m'] E; try discriminate; cbn [om_sorted]; [auto|].
  cbn [map fst] in E. injection E as <- E. intros (F & S). split; [|now apply IH].
  rewrite Forall_forall in *. intros y I. assert (In (fst y) (map fst m)) by (rewrite E; now apply in_map). apply in_map_iff in H as (x & Ex & Ix). rewrite <- Ex. now apply F.
Qed.

(** ** Copying rows *)

Lemma add32_fits a b : a + b <= u32_max -> add32 a b = Ok (a + b).
Proof. intros H. unfold add32. destruct (a + b <=? u32_max) eqn:E; [reflexivity|lia]. Qed.
Lemma cell_down_ok n p c : fst p + n <= u32_max + 1 -> exists z, cell_down n (p, c) = Ok z
  /\ forall q d, In (q, d) z <-> exists i, 1 <= i < n /\ q = (fst p + i, snd p) /\ d = c.
Proof.
  intros L. unfold cell_down. cbn [fst snd].
  assert (F : forall i, In i (from1 n) -> (let* r := add32 (fst p) i in Ok [((r, snd p), c)]) = Ok [((fst p + i, snd p), c)]).
  { intros i I. apply from1_in in I. rewrite add32_fits by lia. reflexivity. }
  destruct (collect_ok (fun i => let* r := add32 (fst p) i in Ok [((r, snd p), c)]) (from1 n)) as (z & E); [intros i I; rewrite F by exact I; eauto|].
  exists z. split; [exact E|]. intros q d. rewrite (collect_in _ _ _ (q, d) E). split.
  - intros (i & y & I & Ey & J). rewrite F in Ey by exact I. assert (y = [((fst p + i, snd p), c)]) by congruence. subst y. destruct J as [J|[]].
    apply from1_in in I. exists i. split; [exact I|]. split; congruence.
  - intros (i & I & -> & ->). apply from1_in in I. exists i, [((fst p + i, snd p), c)]. split; [exact I|]. split; [now apply F|now left].
Qed.
Lemma cell_right_ok n p c : snd p + n <= u32_max + 1 -> exists z, cell_right p n c = Ok z
  /\ forall q d, In (q, d) z <-> exists i, 1 <= i < n /\ q = (fst p, snd p + i) /\ d = c.
Proof.
  intros L. unfold cell_right.
  assert (F : forall i, In i (from1 n) -> (let* r := add32 (snd p) i in Ok [((fst p, r), c)]) = Ok [((fst p, snd p + i), c)]).
  { intros i I. apply from1_in in I. rewrite add32_fits by lia. reflexivity. }
  destruct (collect_ok (fun i => let* r := add32 (snd p) i in Ok [((fst p, r), c)]) (from1 n)) as (z & E); [intros i I; rewrite F by exact I; eauto|].
  exists z. split; [exact E|]. intros q d. rewrite (collect_in _ _ _ (q, d) E). split.
  - intros (i & y & I & Ey & J). rewrite F in Ey by exact I. assert (y = [((fst p, snd p + i), c)]) by congruence. subst y. destruct J as [J|[]].
    apply from1_in in I. exists i. split; [exact I|]. split; congruence.
  - intros (i & I & -> & ->). apply from1_in in I. exists i, [((fst p, snd p + i), c)]. split; [exact I|]. split; [now apply F|now left].
Qed.
Lemma row_down_ok m r h : (1 < ra_repeat (h_attr h) -> r < u32_max) -> (forall c d, In ((r, c), d) m -> r + ra_repeat (h_attr h) <= u32_max + 1) ->
  exists z, row_down m (r, h) = Ok z
    /\ forall q d, In (q, d) z <-> exists i, 1 <= i < ra_repeat (h_attr h) /\ fst q = r + i /\ In ((r, snd q), d) m.
Proof.
  intros B L. unfold row_down. cbn [fst snd]. set (n := ra_repeat (h_attr h)) in *. destruct (1 <? n) eqn:E.
  - rewrite add32_fits by lia. cbn [bind]. unfold om_range. assert (X : negb (pltb (r + 1, 0) (r, 0)) = true) by (unfold pltb; cbn [fst snd]; lia). rewrite X. cbn [bind].
    match goal with |- context [collect _ ?x] => set (l := x) end.
    assert (Il : forall p d, In (p, d) l <-> fst p = r /\ In (p, d) m).
    { intros p d. unfold l. rewrite filter_In. cbn [fst above below]. unfold pltb. cbn [fst snd]. split; intros (A & C); split; auto; lia. }
    assert (Dn : forall p d, In (p, d) l -> fst p + n <= u32_max + 1).
    { intros p d I. apply Il in I as (Er & I). rewrite Er. destruct p as [pr pc]. cbn [fst] in *. subst pr. eapply L. exact I. }
    destruct (collect_ok (cell_down n) l) as (z & Ez).
    { intros [p d] I. destruct (cell_down_ok n p d (Dn _ _ I)) as (y & Y & _). eauto. }
    exists z. split; [exact Ez|]. intros q d. rewrite (collect_in _ _ _ (q, d) Ez). split.
    + intros ([p e] & y & I & Ey & J). destruct (cell_down_ok n p e (Dn _ _ I)) as (y' & Y & Y'). pose proof (eq_trans (eq_sym Y) Ey) as Q. injection Q as ->.
      apply Y' in J as (i & Hi & -> & ->). exists i. cbn [fst snd]. apply Il in I as (Er & I). split; [exact Hi|]. split; [lia|].
      destruct p as [pr pc]. cbn [fst snd] in *. now subst pr.
    + intros (i & Hi & Hq & I). assert (J : In ((r, snd q), d) l) by (apply Il; auto).
      destruct (cell_down_ok n (r, snd q) d (Dn _ _ J)) as (y & Y & Y'). exists (((r, snd q) : pos), d), y. split; [exact J|]. split; [exact Y|]. apply Y'. exists i. split; [exact Hi|].
      cbn [fst snd]. split; [|reflexivity]. destruct q; cbn [fst snd] in *. now subst.
  - exists []. split; [reflexivity|]. intros q d. split; [intros []|]. intros (i & Hi & _). lia.
Qed.

Section Rows.
  Context (rows : hmap rowattr) (m : cells) (Hr : om_sorted N.ltb rows) (Hm : om_sorted pltb m) (Ha : apart rows m).

  Lemma rows_down : exists l, collect (row_down m) (clear_last rows) = Ok l
    /\ forall q d, In (q, d) l <-> exists r n, counted rows r n /\ r < fst q < r + n /\ In ((r, snd q), d) m.
  Proof.
    destruct Ha as (A1 & A2 & A3).
    assert (F : forall r h, In (r, h) (clear_last rows) -> exists z, row_down m (r, h) = Ok z
      /\ forall q d, In (q, d) z <-> exists i, 1 <= i < ra_repeat (h_attr h) /\ fst q = r + i /\ In ((r, snd q), d) m).
    { intros r h I. apply cleared_counted in I as (C & _). apply row_down_ok; [apply (A3 _ _ C)|]. intros c d I. apply (A1 _ _ _ _ C I). }
    destruct (collect_ok (row_down m) (clear_last rows)) as (l & E); [intros [r h] I; destruct (F _ _ I) as (z & Z & _); eauto|].
    exists l. split; [exact E|]. intros q d. rewrite (collect_in _ _ _ (q, d) E). split.
    - intros ([r h] & y & I & Ey & J). destruct (F _ _ I) as (z & Z & Z'). pose proof (eq_trans (eq_sym Z) Ey) as Q. injection Q as ->. apply Z' in J as (i & Hi & Hq & J).
      apply cleared_counted in I as (C & _). exists r, (ra_repeat (h_attr h)). split; [exact C|]. split; [lia|exact J].
    - intros (r & n & C & L & J). destruct (counted_cleared _ _ _ C) as (h & I & En). destruct (F _ _ I) as (z & Z & Z').
      exists (r, h), z. split; [exact I|]. split; [exact Z|]. apply Z'. exists (fst q - r). split; [lia|]. split; [lia|exact J].
  Qed.

  Lemma in_fun p a b : In (p, a) m -> In (p, b) m -> a = b.
  Proof. intros I J. apply (get_in pltb pltb_order _ _ _ Hm) in I, J. congruence. Qed.

  Lemma rows_copied l : collect (row_down m) (clear_last rows) = Ok l ->
    om_sorted pltb (insert_all l m) /\
    forall r c d, In ((r, c), d) (insert_all l m) <-> exists r0, In ((r0, c), d) m /\ row_stands rows r0 r.
  Proof.
    intros E. split; [now apply sorted_insert_all|]. destruct rows_down as (l' & E' & Il). assert (l' = l) by congruence. subst l'. clear E'.
    destruct Ha as (A1 & A2 & A3). intros r c d.
    assert (F : forall a b, In ((r, c), a) l -> In ((r, c), b) l -> a = b).
    { intros a b I J. apply Il in I as (r1 & n1 & C1 & L1 & I), J as (r2 & n2 & C2 & L2 & J). cbn [fst snd] in *.
      assert (r1 = r2). { destruct (N.lt_trichotomy r1 r2) as [X|[X|X]]; [|exact X|].
        - pose proof (proj2 (A1 _ _ _ _ C1 I) _ _ _ J X). lia.
        - pose proof (proj2 (A1 _ _ _ _ C2 J) _ _ _ I X). lia. }
      subst r2. eapply in_fun; eassumption. }
    assert (G : forall a b, In ((r, c), a) l -> In ((r, c), b) m -> a = b).
    { intros a b I J. apply Il in I as (r1 & n1 & C1 & L1 & I). cbn [fst snd] in *. pose proof (proj2 (A1 _ _ _ _ C1 I) _ _ _ J). lia. }
    rewrite (in_insert_all l m (r, c) d Hm F G). rewrite Il. cbn [fst snd]. split.
    - intros [(r0 & n & C & L & I)|I]; [exists r0|exists r]; (split; [exact I|]); [right|now left]. exists n. split; [exact C|lia].
    - intros (r0 & I & [->|(n & C & L)]); [now right|]. destruct (N.eq_dec r r0) as [->|X]; [now right|]. left. exists r0, n. split; [exact C|]. split; [lia|exact I].
  Qed.
End Rows.

(** ** Copying cells *)

Definition once (c : cell) : cell := if 1 <? c_repeat c then set_once c else c.
Definition dropped (m : cells) (p : pos) (c : cell) : Prop :=
  1 < c_repeat c /\ cell_is_empty (set_once c) = true /\ forall b d, In ((fst p, b), d) m -> b <= snd p.

Lemma last_ok pre p c r : om_sorted pltb (pre ++ (p, c) :: r) -> (last_in_row p r = true <-> forall b d, In ((fst p, b), d) (pre ++ (p, c) :: r) -> b <= snd p).
Proof.
  intros Hs. apply sorted_app_inv in Hs as (_ & (Hf & Hs) & Hp). rewrite Forall_forall in Hf. unfold last_in_row. split.
  - intros H b d I. apply in_app_iff in I as [I|[I|I]].
    + pose proof (Hp _ _ I (or_introl eq_refl)) as X. unfold pltb in X. cbn [fst snd] in X. lia.
    + replace p with (fst p, b) by congruence. cbn. lia.
    + destruct r as [|[q e] r]; [contradiction|]. exfalso. destruct Hs as (Hq & _). rewrite Forall_forall in Hq.
      pose proof (Hf (q, e) (or_introl eq_refl)) as X. cbn [fst] in X. unfold pltb in X. destruct I as [I|I].
      * assert (fst q = fst p) by (replace q with (fst p, b) by congruence; reflexivity). lia.
      * specialize (Hq _ I). unfold pltb in Hq. cbn [fst snd] in Hq. lia.
  - intros H. destruct r as [|[q e] r]; [reflexivity|]. destruct (fst p =? fst q) eqn:E; [|reflexivity]. exfalso.
    pose proof (Hf (q, e) (or_introl eq_refl)) as X. cbn [fst] in X. unfold pltb in X. assert (Y : snd q <= snd p); [|lia].
    apply (H (snd q) e). apply in_app_iff. right. right. left. f_equal. destruct q; cbn [fst snd] in *. f_equal. lia.
Qed.
Lemma cells_right_ok r : forall pre, om_sorted pltb (pre ++ r) -> (forall p c, In (p, c) r -> snd p + c_repeat c <= u32_max + 1) ->
  exists d k, cells_right r = Ok (map (fun kv => (fst kv, once (snd kv))) r, d, k)
    /\ (forall p, In p d <-> exists c, In (p, c) r /\ dropped (pre ++ r) p c)
    /\ (forall q e, In (q, e) k <-> exists p c i, In (p, c) r /\ ~ dropped (pre ++ r) p c /\ 1 <= i < c_repeat c /\ q = (fst p, snd p + i) /\ e = set_once c).
Proof.
  induction r as [|[p c] r IH]; intros pre Hs Hb; cbn [cells_right].
  - exists [], []. split; [reflexivity|]. split; [intros p; split; [intros []|intros (? & [] & _)]|]. intros q e. split; [intros []|]. intros (? & ? & ? & [] & _).
  - destruct (IH (pre ++ [(p, c)])) as (d & k & E & D & K).
    { rewrite <- app_assoc. exact Hs. }
    { intros; apply Hb; now right. }
    rewrite <- app_assoc in D, K. cbn [app] in D, K. rewrite E. pose proof (last_ok pre p c r Hs) as Hl. cbn [map fst snd]. assert (Eo : once c = if 1 <? c_repeat c then set_once c else c) by reflexivity. rewrite Eo. clear Eo.
    assert (Hd : 1 < c_repeat c -> dropped (pre ++ (p, c) :: r) p c <-> last_in_row p r && cell_is_empty (set_once c) = true).
    { intros L. unfold dropped. rewrite andb_true_iff, Hl. tauto. }
    destruct (1 <? c_repeat c) eqn:L.
    + assert (L' : 1 < c_repeat c) by lia. specialize (Hd L'). destruct (last_in_row p r && cell_is_empty (set_once c)).
      * assert (Hx : dropped (pre ++ (p, c) :: r) p c) by (apply Hd; reflexivity). cbn [bind]. exists (p :: d), k. split; [reflexivity|]. split.
        -- intros q. cbn [In]. rewrite D. split.
           ++ intros [<-|(x & I & X)]; [exists c; auto|exists x; auto].
           ++ intros (x & [I|I] & X); [left; congruence|right; eauto].
        -- intros q e. rewrite K. cbn [In]. split.
           ++ intros (p' & c' & i & I & X). exists p', c', i. tauto.
           ++ intros (p' & c' & i & [I|I] & X & Y); [exfalso; apply X; assert (p' = p) by congruence; assert (c' = c) by congruence; now subst|exists p', c', i; tauto].
      * assert (Hx : ~ dropped (pre ++ (p, c) :: r) p c) by (intros X; apply Hd in X; discriminate).
        destruct (cell_right_ok (c_repeat c) p (set_once c)) as (z & Ez & Z); [apply Hb; now left|]. rewrite Ez. cbn [bind]. exists d, (z ++ k). split; [reflexivity|]. split.
        -- intros q. rewrite D. cbn [In]. split.
           ++ intros (x & I & X); exists x; auto.
           ++ intros (x & [I|I] & X); [exfalso; apply Hx; assert (q = p) by congruence; assert (x = c) by congruence; now subst|eauto].
        -- intros q e. rewrite in_app_iff, Z, K. cbn [In]. split.
           ++ intros [(i & Y)|(p' & c' & i & I & X)]; [exists p, c, i; tauto|exists p', c', i; tauto].
           ++ intros (p' & c' & i & [I|I] & X & Y); [left; exists i; assert (p' = p) by congruence; assert (c' = c) by congruence; now subst|right; exists p', c', i; tauto].
    + assert (Hx : ~ dropped (pre ++ (p, c) :: r) p c) by (intros (X & _); lia). cbn [bind]. exists d, k. split; [reflexivity|]. split.
      * intros q. rewrite D. cbn [In]. split.
        -- intros (x & I & X); exists x; auto.
        -- intros (x & [I|I] & X); [exfalso; apply Hx; assert (q = p) by congruence; assert (x = c) by congruence; now subst|eauto].
      * intros q e. rewrite K. cbn [In]. split.
        -- intros (p' & c' & i & I & X). exists p', c', i. tauto.
        -- intros (p' & c' & i & [I|I] & X & Y); [assert (p' = p) by congruence; assert (c' = c) by congruence; subst; lia|exists p', c', i; tauto].
Qed.
Lemma sorted_map_cells (f : cell -> cell) m : om_sorted pltb m -> om_sorted pltb (map (fun kv => (fst kv, f (snd kv))) m).
Proof.
  induction m as [|[p c] m IH]; cbn [om_sorted map]; [auto|]. intros (F & S). split; [|now apply IH].
  rewrite Forall_forall in *. intros x I. apply in_map_iff in I as ([q d] & <- & I). apply (F _ I).
Qed.
Lemma dropped_spec m r c d : dropped m (r, c) d <-> left_out m r c d.
Proof.
  unfold dropped, left_out. cbn [fst snd]. assert (X : cell_is_empty (set_once d) = true <-> says_nothing (c_style d) (cell_content d)); [|rewrite X; tauto].
  unfold cell_is_empty, says_nothing, cell_content, is_void_extra, set_once, span_is_empty, is_some. cbn [c_value c_formula c_extra].
  destruct (c_value d); cbn [value_is_empty andb].
  2-9: split; [discriminate|]; destruct (c_extra d); intros (A & _); discriminate.
  destruct (c_formula d); cbn [negb andb].
  { split; [discriminate|]. destruct (c_extra d); intros (_ & A & _); discriminate. }
  destruct (c_extra d) as [[v [a b] [a' b'] an fr]|]; cbn [k_value k_style k_formula k_validation k_span k_matrix k_annotation k_frames x_validation x_span x_matrix x_annotation x_frames].
  - split.
    + intros H. destruct v, an, fr; cbn [negb andb is_nil rspan cspan_] in *; rewrite ?andb_false_r in *; try discriminate.
      repeat split; auto; f_equal; lia.
    + intros (_ & _ & _ & -> & E1 & E2 & -> & ->). injection E1 as -> ->. injection E2 as -> ->. reflexivity.
  - split; [|reflexivity]. intros _. unfold span1. repeat split; auto.
Qed.

(** ** The whole *)

Lemma copy_once d : copy_of d (once d).
Proof. unfold copy_of, once, set_once. destruct (1 <? c_repeat d) eqn:E; cbn; repeat split; lia. Qed.
Lemma copy_fun d a b : copy_of d a -> copy_of d b -> a = b.
Proof. destruct a, b. unfold copy_of. cbn. intros (-> & -> & -> & -> & ->) (-> & -> & -> & -> & ->). reflexivity. Qed.

Lemma cloned_cells sh : om_sorted N.ltb (tb_rows sh) -> om_sorted pltb (tb_cells sh) -> apart (tb_rows sh) (tb_cells sh) ->
  exists m, calc_cloned sh = Ok (put_cells m (put_rows (map swap_repeat (clear_last (tb_rows sh))) sh))
    /\ om_sorted pltb m /\ forall p k, In (p, k) m <-> expanded (tb_rows sh) (tb_cells sh) p k.
Proof.
  intros Hr Hm Ha. set (rows := tb_rows sh) in *. set (m := tb_cells sh) in *.
  destruct (rows_down rows m Ha) as (l & El & _). destruct (rows_copied rows m Hm Ha l El) as (S1 & I1). set (m1 := insert_all l m) in *.
  destruct Ha as (A1 & A2 & A3).
  assert (Cf : forall r1 r2 r c1 d1 c2 d2, In ((r1, c1), d1) m -> In ((r2, c2), d2) m -> row_stands rows r1 r -> row_stands rows r2 r -> r1 = r2).
  { intros r1 r2 r c1 d1 c2 d2 J1 J2 K1 K2. destruct (N.lt_trichotomy r1 r2) as [X|[X|X]]; [|exact X|].
    - destruct K1 as [->|(n & C & L)]; [destruct K2 as [->|(n & C & L)]; lia|]. pose proof (proj2 (A1 _ _ _ _ C J1) _ _ _ J2 X). destruct K2 as [->|(n' & C' & L')]; lia.
    - destruct K2 as [->|(n & C & L)]; [destruct K1 as [->|(n & C & L)]; lia|]. pose proof (proj2 (A1 _ _ _ _ C J2) _ _ _ J1 X). destruct K1 as [->|(n' & C' & L')]; lia. }
  destruct (cells_right_ok m1 [] S1) as (d & k & Er & D & K).
  { intros [r c] x I. apply I1 in I as (r0 & I & _). apply A2 in I as (L & _). exact L. }
  cbn [app] in D, K. set (x := map (fun kv => (fst kv, once (snd kv))) m1) in *.
  assert (Sx : om_sorted pltb x) by (now apply sorted_map_cells). destruct (remove_all_ok d x Sx) as (Sd & Id).
  exists (insert_all k (remove_all d x)). split.
  { unfold calc_cloned. fold rows m. rewrite El. cbn [bind]. fold m1. rewrite Er. reflexivity. }
  split; [now apply sorted_insert_all|].
  assert (Dl : forall r0 r c e, In ((r0, c), e) m -> row_stands rows r0 r -> (dropped m1 (r, c) e <-> left_out m r0 c e)).
  { intros r0 r c e I V. rewrite dropped_spec. unfold left_out. split; intros (X1 & X2 & X3); (split; [exact X1|]); (split; [exact X2|]); intros b g J.
    - apply (X3 b g). apply I1. eauto.
    - apply I1 in J as (r1 & J & V'). assert (r1 = r0) by (eapply Cf; [exact J|exact I|exact V'|exact V]). subst r1. now apply (X3 b g). }
  assert (In1 : forall p a b, In (p, a) m1 -> In (p, b) m1 -> a = b).
  { intros p a b I J. apply (get_in pltb pltb_order _ _ _ S1) in I, J. congruence. }
  assert (Gap : forall r c e c' e', In ((r, c), e) m1 -> In ((r, c'), e') m1 -> c < c' -> c + c_repeat e <= c').
  { intros r c e c' e' I J L. apply I1 in I as (r0 & I & V), J as (r1 & J & V'). assert (r1 = r0) by (eapply Cf; [exact J|exact I|exact V'|exact V]). subst r1.
    eapply A2; eassumption. }
  intros p y. rewrite in_insert_all; [|exact Sd| |].
  - rewrite K, Id. split.
    + intros [([r c] & e & i & I & N & Hi & -> & ->)|(I & N)].
      * pose proof I as I'. apply I1 in I as (r0 & I & V). exists r0, c, e. cbn [fst snd]. split; [exact I|]. split; [exact V|]. split; [lia|]. split.
        -- replace (set_once e) with (once e) by (unfold once; destruct (1 <? c_repeat e) eqn:Z; [reflexivity|lia]). apply copy_once.
        -- intros X. apply N. now apply (Dl r0).
      * unfold x in I. apply in_map_iff in I as ([[r c] e] & E & I). cbn [fst snd] in E.
        assert (Ep : p = (r, c)) by congruence. assert (Ey : y = once e) by congruence. subst. pose proof I as I'. apply I1 in I as (r0 & I & V).
        exists r0, c, e. cbn [fst snd]. split; [exact I|]. split; [exact V|]. split; [lia|]. split; [apply copy_once|].
        intros X. apply N. apply D. exists e. split; [exact I'|]. now apply (Dl r0).
    + destruct p as [r b]. intros (r0 & c & e & I & V & L & C & N). cbn [fst snd] in *. assert (J : In ((r, c), e) m1) by (apply I1; eauto).
      assert (y = once e) by (eapply copy_fun; [exact C|apply copy_once]). subst y. destruct (N.eq_dec b c) as [->|X].
      * right. split; [unfold x; apply in_map_iff; exists ((r, c), e); auto|]. intros Y. apply D in Y as (e' & J' & Y).
        assert (e' = e) by (eapply In1; eassumption). subst e'. apply N. now apply (Dl r0 r).
      * left. exists (r, c), e, (b - c). split; [exact J|]. split; [intros Y; apply N; now apply (Dl r0 r)|]. split; [lia|]. cbn [fst snd]. split; [f_equal; lia|].
        unfold once. destruct (1 <? c_repeat e) eqn:Z; [reflexivity|lia].
  - intros a b Ia Ib. apply K in Ia as ([r1 c1] & e1 & i1 & J1 & N1 & H1 & E1 & ->), Ib as ([r2 c2] & e2 & i2 & J2 & N2 & H2 & E2 & ->). cbn [fst snd] in *.
    subst p. injection E2 as -> E2. assert (c1 = c2). { destruct (N.lt_trichotomy c1 c2) as [X|[X|X]]; [|exact X|].
      - pose proof (Gap _ _ _ _ _ J1 J2 X). lia.
      - pose proof (Gap _ _ _ _ _ J2 J1 X). lia. }
    subst c2. f_equal. eapply In1; eassumption.
  - intros a b Ia Ib. apply K in Ia as ([r1 c1] & e1 & i1 & J1 & N1 & H1 & E1 & ->). apply Id in Ib as (Ib & _). unfold x in Ib. apply in_map_iff in Ib as ([[r2 c2] e2] & E2 & J2).
    cbn [fst snd] in *. assert (Ep : (r2, c2) = (r1, c1 + i1)) by congruence. injection Ep as -> ->. pose proof (Gap _ _ _ _ _ J1 J2). lia.
Qed.

(** The rows afterwards. *)
Lemma swapped_in rows r h' : In (r, h') (map swap_repeat (clear_last rows)) <-> exists h n, In (r, h) rows /\ counted rows r n
  /\ (exists g, In (r, g) (clear_last rows) /\ h_span g = h_span h /\ h_attr g = row_edit (SetRowRepeat n) (h_attr h) /\ h' = snd (swap_repeat (r, g))).
Proof.
  rewrite in_map_iff. split.
  - intros ([r' g] & E & I). assert (r' = r) by (unfold swap_repeat in E; cbn [fst] in E; congruence). subst r'. pose proof I as I'. apply cleared_counted in I as (C & h & I & S1 & S2).
    exists h, (ra_repeat (h_attr g)). split; [exact I|]. split; [exact C|]. exists g. repeat split; auto. unfold swap_repeat in *. cbn [fst snd] in *. congruence.
  - intros (h & n & _ & _ & g & I & _ & _ & ->). exists (r, g). split; [reflexivity|exact I].
Qed.

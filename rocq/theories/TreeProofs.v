(** Reading a tree inside a file with or without line breaks. *)
From Verif Require Import Base Lib XmlModel XmlSpec XmlProofs.

Lemma coalesce_cut e b : not_text e -> forall a acc, coalesce_from acc (a ++ e :: b) = coalesce_from acc a ++ e :: coalesce b.
Proof.
  intros T. induction a as [|x a IH]; intros acc; cbn [app].
  - rewrite coalesce_cons by exact T. reflexivity.
  - destruct x; cbn [coalesce_from]; rewrite ?IH, <- ?app_assoc; reflexivity.
Qed.
Lemma coalesce_split e a b : not_text e -> coalesce (a ++ e :: b) = coalesce a ++ e :: coalesce b.
Proof. intros T. now apply coalesce_cut. Qed.

Definition line (lb : bool) (y : xnode) : list xnode := match y with XText _ => [y] | XTag _ _ _ => [broken lb y; XText (nl lb)] end.
Lemma broken_norm x : norm (broken false x) = norm x.
Proof.
  induction x as [t|n a c IH] using xnode_ind'; [reflexivity|]. cbn [broken norm]. f_equal. change (flat_map _ c) with (flat_map (line false) c).
  induction IH as [|y c Hy _ IHc]; [reflexivity|]. cbn [flat_map map]. rewrite map_app. unfold merge_text in *. rewrite fold_right_app, IHc. cbn [fold_right].
  destruct y as [t|m b d]; [reflexivity|]. cbn [line map fold_right norm] in *. rewrite Hy. cbn [nl]. destruct (fold_right mcons [] (map norm c)) as [|[]]; reflexivity.
Qed.
Lemma lines_read lb super : forall c, Forall (lacks super) c -> forall n a c0 st tail,
  out_eq (read_xml_loop super ((n, a, c0) :: st) (flat_map (node_events lb) c ++ tail)) (read_xml_loop super ((n, a, c0 ++ flat_map (line lb) c) :: st) tail).
Proof.
  set (P := fun x => lacks super x -> forall n a c0 st tail,
    out_eq (read_xml_loop super ((n, a, c0) :: st) (node_events lb x ++ tail)) (read_xml_loop super ((n, a, c0 ++ line lb x) :: st) tail)).
  assert (Hl : forall c, Forall P c -> Forall (lacks super) c -> forall n a c0 st tail,
    out_eq (read_xml_loop super ((n, a, c0) :: st) (flat_map (node_events lb) c ++ tail)) (read_xml_loop super ((n, a, c0 ++ flat_map (line lb) c) :: st) tail)).
  { induction 1 as [|y c Hy _ IH]; intros Hok n a c0 st tail.
    - cbn. rewrite app_nil_r. apply out_eq_refl.
    - inversion Hok; subst. cbn [flat_map]. rewrite <- app_assoc. eapply out_eq_trans; [apply Hy; auto|]. eapply out_eq_trans; [apply IH; auto|]. rewrite <- app_assoc. apply out_eq_refl. }
  assert (Hx : forall x, P x).
  { induction x as [t|m b c IH] using xnode_ind'; intros Hx n a c0 st tail.
    - apply loop_esc.
    - apply lacks_tag in Hx as [Hn Hc]. destruct c as [|y c].
      + cbn [node_events app read_xml_loop top_add bind frame_add line broken flat_map]. rewrite <- app_assoc. apply out_eq_refl.
      + destruct Hn as [Hn|Hn]; [discriminate|]. cbn [node_events app]. cbn [read_xml_loop]. rewrite <- app_assoc.
        eapply out_eq_trans; [apply (Hl (y :: c) IH Hc)|]. cbn [app read_xml_loop]. destruct (str_eqb m super) eqn:E; [apply str_eqb_eq in E; tauto|].
        cbn [top_add bind close_frame frame_add line]. rewrite <- app_assoc. apply out_eq_refl. }
  intros c. apply Hl. apply Forall_forall. auto.
Qed.
(** Reading stops behind the tree, whatever follows. *)
Lemma tree_read lb n a y c : Forall (lacks n) (y :: c) -> exists t, norm t = norm (broken lb (XTag n a (y :: c)))
  /\ forall rest, read_xml n a false (coalesce (flat_map (node_events lb) (y :: c) ++ EEnd n :: EText (nl lb) :: rest)) = Ok (t, coalesce (EText (nl lb) :: rest)).
Proof.
  intros L.
  assert (G : forall rest, exists t, norm t = norm (broken lb (XTag n a (y :: c)))
    /\ read_xml n a false (coalesce (flat_map (node_events lb) (y :: c) ++ EEnd n :: EText (nl lb) :: rest)) = Ok (t, coalesce (EText (nl lb) :: rest))).
  { intros rest. unfold read_xml.
    pose proof (loop_coalesce n (flat_map (node_events lb) (y :: c) ++ EEnd n :: EText (nl lb) :: rest) [] (n, a, []) (n, a, []) [] []
      (frame_eq_sym _ _ (add_text_nil _)) (Forall2_nil _)) as H.
    pose proof (lines_read lb n (y :: c) L n a [] [] (EEnd n :: EText (nl lb) :: rest)) as H0. cbn [app read_xml_loop] in H0. rewrite str_eqb_refl in H0.
    destruct (out_combine _ _ _ _ H H0) as (t & Ht & Hx). exists t. split; [exact Hx|exact Ht]. }
  destruct (G []) as (t & Hn & R). exists t. split; [exact Hn|]. intros rest. destruct (G rest) as (t' & _ & R'). rewrite R'. f_equal. f_equal.
  rewrite coalesce_split in R, R' by exact I. unfold read_xml in *. clear -R R'. revert R R'. generalize [(n, a, [] : list xnode)]. generalize (coalesce (flat_map (node_events lb) (y :: c))).
  intros P. induction P as [|e P IH]; intros st R R'; cbn [app read_xml_loop] in R, R'.
  - rewrite str_eqb_refl in R, R'. destruct st; [discriminate|]. congruence.
  - destruct e; repeat first [apply bind_ok in R as (? & E & R); rewrite E in R'; cbn [bind] in R'; clear E | apply (IH _ R R')].
    destruct (str_eqb n0 n) eqn:E.
    + destruct st; [discriminate|]. injection R as _ R. injection R' as <- _. apply (f_equal (@length event)) in R. rewrite app_length in R. cbn [length] in R. lia.
    + destruct st; [discriminate|]. apply bind_ok in R as (? & E2 & R). rewrite E2 in R'. apply (IH _ R R').
Qed.


(** General lemmas about the vocabulary of [Base]. *)
From Verif Require Import Base.

Lemma str_eqb_eq a b : str_eqb a b = true <-> a = b.
Proof.
  revert b. induction a as [|x a IH]; destruct b as [|y b]; cbn; split; intros H; try discriminate; auto.
  - apply andb_prop in H as [H1 H2]. apply N.eqb_eq in H1. apply IH in H2. congruence.
  - inversion H; subst. rewrite N.eqb_refl. now apply IH.
Qed.
Lemma str_eqb_refl a : str_eqb a a = true.
Proof. now apply str_eqb_eq. Qed.
Lemma str_eqb_neq a b : str_eqb a b = false <-> a <> b.
Proof.
  destruct (str_eqb a b) eqn:E.
  - apply str_eqb_eq in E. split; congruence.
  - split; auto. intros _ H. apply str_eqb_eq in H. congruence.
Qed.
Lemma str_eq_dec (a b : str) : {a = b} + {a <> b}.
Proof. destruct (str_eqb a b) eqn:E; [left; now apply str_eqb_eq|right; now apply str_eqb_neq]. Qed.


Lemma bind_ok {A B} (x : res A) (f : A -> res B) b :
  bind x f = Ok b -> exists a, x = Ok a /\ f a = Ok b.
Proof. destruct x; cbn; try discriminate. eauto. Qed.

(** Deciding that a string avoids some characters. *)
Definition avoids (L l : str) : bool := forallb (fun c => negb (existsb (N.eqb c) L)) l.
Lemma avoids_ok L l : avoids L l = true -> Forall (fun c => ~ In c L) l.
Proof.
  unfold avoids. rewrite forallb_forall, Forall_forall. intros H c Hc Hi.
  specialize (H c Hc). apply negb_true_iff in H.
  assert (existsb (N.eqb c) L = true) by (apply existsb_exists; exists c; split; [auto|apply N.eqb_refl]). congruence.
Qed.
Ltac chk := apply avoids_ok; vm_compute; reflexivity.

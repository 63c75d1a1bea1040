(** * Tac.v — inversion tactics for the result monad. *)
From Verif Require Import Base.

Lemma guard_err b e x : guard b e = Err x -> b = false /\ x = e.
Proof. destruct b; simpl; [discriminate|]. intro H; inversion H; auto. Qed.
Lemma guard_true e : guard true e = Ok tt.
Proof. reflexivity. Qed.
Lemma guard_if_true b e : b = true -> guard b e = Ok tt.
Proof. intros ->; reflexivity. Qed.
Lemma bind_ok_eq {A B} (x : res A) (f : A -> res B) a : x = Ok a -> bind x f = f a.
Proof. intros ->; reflexivity. Qed.
Lemma bind_guard_true {B} b e (f : unit -> res B) : b = true -> bind (guard b e) f = f tt.
Proof. intros ->; reflexivity. Qed.
Lemma of_option_some {A} (o : option A) e a : o = Some a -> of_option o e = Ok a.
Proof. intros ->; reflexivity. Qed.
Lemma opk_eqb_eq a b : opk_eqb a b = true <-> a = b.
Proof.
  destruct a, b; simpl; try (split; intro; congruence).
  rewrite pk_eqb_eq. split; congruence.
Qed.
Lemma opk_eqb_refl a : opk_eqb a a = true.
Proof. apply opk_eqb_eq; reflexivity. Qed.

(** One inversion step on a hypothesis describing a successful run. *)
Ltac inv_step :=
  match goal with
  | H : bind ?x _ = Ok _ |- _ =>
      let a := fresh "a" in let E := fresh "E" in
      apply bind_ok in H; destruct H as [a [E H]]; cbv beta zeta in H
  | H : guard _ _ = Ok _ |- _ => apply guard_ok in H
  | H : of_option _ _ = Ok _ |- _ => apply of_option_ok in H
  | H : Ok _ = Ok _ |- _ => injection H; clear H; intro
  | H : Err _ = Ok _ |- _ => discriminate H
  | H : Ok _ = Err _ |- _ => discriminate H
  | H : Some _ = None |- _ => discriminate H
  | H : None = Some _ |- _ => discriminate H
  | H : Some _ = Some _ |- _ => injection H; clear H; intro
  | H : false = true |- _ => discriminate H
  | H : true = false |- _ => discriminate H
  | H : andb _ _ = true |- _ => apply andb_true_iff in H; destruct H
  | H : orb _ _ = false |- _ => apply orb_false_iff in H; destruct H
  | H : negb _ = true |- _ => apply negb_true_iff in H
  | H : negb _ = false |- _ => apply negb_false_iff in H
  | H : pk_eqb _ _ = true |- _ => apply pk_eqb_eq in H
  | H : opk_eqb _ _ = true |- _ => apply opk_eqb_eq in H
  | H : N.eqb _ _ = true |- _ => apply N.eqb_eq in H
  | H : N.leb _ _ = true |- _ => apply N.leb_le in H
  | H : N.ltb _ _ = true |- _ => apply N.ltb_lt in H
  | H : N.eqb _ _ = false |- _ => apply N.eqb_neq in H
  | H : N.leb _ _ = false |- _ => apply N.leb_gt in H
  | H : N.ltb _ _ = false |- _ => apply N.ltb_ge in H
  | H : pk_eqb _ _ = false |- _ => apply pk_eqb_neq in H
  | H : tt = _ |- _ => clear H
  | u : unit |- _ => destruct u
  end.
Ltac inv_ok := repeat inv_step.

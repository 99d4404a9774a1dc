(** Facts used for each of the drivers. *)
From Coq Require Import String Ascii ZArith List Bool Arith Lia ZifyBool ZifyNat.
From Verif Require Import Base QueueSpec LineSpec SerialSpec Ring RingProofs LineRing LineRingProofs Serial SerialProofs
  SerStep TaskMacros CStr CStrProofs Dev DevProofs SimDev SimProofs Sym DrvStep.
Import ListNotations.
Local Open Scope nat_scope.
Ltac Zify.zify_post_hook ::= Z.div_mod_to_equations.

Definition not_str (p : cptr) : Prop := forall s, p <> PStr s.

Lemma in_list_set1 : forall (b : bytes) c, nth_error b 0 = Some NUL -> In NUL (list_set b 1 c).
Proof. intros [|x [|y b]] c H; cbn in *; try discriminate; injection H as ->; left; reflexivity. Qed.

Lemma pkeep_trans : forall SS RS X (a b c : dev SS RS X), pkeep a b -> pkeep b c -> pkeep a c.
Proof. unfold pkeep, keep. intros. intuition congruence. Qed.

(** The line being handled: the device with the line in its buffer. *)
Definition line_at {SS RS X} (L r : bytes) (y : sys) (d : dev SS RS X) : dev SS RS X :=
  set_lbfill 0 (set_lbuf (L ++ NUL :: r) (set_io y d)).

(** The effect on the port determines the bytes. *)
Lemma ioeff_fun : forall y y' t p t' p', ioeff y y' t p -> ioeff y y' t' p' -> t = t' /\ p = p'.
Proof.
  intros y y' t p t' p' (ev & (_ & _ & E & _) & _ & _ & <- & <- & _) (ev' & (_ & _ & E' & _) & _ & _ & <- & <- & _).
  rewrite E in E'. apply app_inv_head in E'. subst. auto.
Qed.

Lemma wp_mono_ub : forall A (U U' : Prop) (e : res A) (Q Q' : A -> Prop), wp U e Q -> (U -> U') -> (forall a, Q a -> Q' a) -> wp U' e Q'.
Proof. intros A U U' [a|u] Q Q'; cbn; auto. Qed.

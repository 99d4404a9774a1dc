(** Comparing a reply line with literals, for the drivers that do not share the
    Simcom base class. *)
From Coq Require Import String Ascii ZArith List Bool Arith Lia ZifyBool ZifyNat.
From Verif Require Import Base QueueSpec LineSpec SerialSpec Ring RingProofs LineRing LineRingProofs Serial SerialProofs
  SerStep TaskMacros CStr CStrProofs Dev DevProofs SimDev SimProofs SimParse.
Import ListNotations.
Local Open Scope nat_scope.

Section AtLine.
Context {SS RS X : Type}.
Variable L r : bytes.
Variable d : dev SS RS X.
Hypothesis HL : lbuf d = L ++ NUL :: r.
Hypothesis Hlen : length (L ++ NUL :: r) = 61.

Lemma lstarts_at : forall lit, nulfree lit = true -> length lit <= 61 -> lstarts lit d = Ok (prefixb lit L).
Proof.
  intros lit Hf Hl. apply nulfree_ok in Hf. rewrite lstarts_eq by (rewrite ?HL, ?Hlen; assumption). rewrite HL, prefixb_line by assumption. reflexivity.
Qed.

Lemma lmatch_at : forall w, nulfree w = true -> length w <= 61 -> lmatch (clen w) w d = Ok (prefixb w L).
Proof.
  intros w Hf Hl. pose proof Hf as Hf'. apply nulfree_ok in Hf'. rewrite clen_free by assumption. exact (lstarts_at w Hf Hl).
Qed.

Lemma skip_at : forall lit, prefixb lit L = true -> skipn (length lit) (lbuf d) = skipn (length lit) L ++ NUL :: r.
Proof.
  intros lit H. rewrite HL. apply prefixb_spec in H as [t ->]. rewrite <- app_assoc.
  rewrite !skipn_app, !skipn_all, !Nat.sub_diag. reflexivity.
Qed.
End AtLine.

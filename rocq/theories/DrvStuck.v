(** States a driver does not leave: if every line, every quiet action and every
    allowed call keeps [K], and nothing is sent in [K], then nothing is sent
    from then on. *)
From Coq Require Import String Ascii ZArith List Bool Arith Lia ZifyBool ZifyNat.
From Verif Require Import Base QueueSpec LineSpec SerialSpec Ring RingProofs LineRing LineRingProofs Serial SerialProofs
  SerStep TaskMacros CStr CStrProofs Dev DevProofs Sym DrvStep DrvRun DrvHist DrvActs.
Import ListNotations.
Local Open Scope nat_scope.

Section Stuck.
Context {SS RS X XO : Type}.
Variable D : driver SS RS X XO.
Variable Sh : shape SS RS X.
Variable Inv : dev SS RS X -> Prop.
Variable Bad : dop XO -> dev SS RS X -> Prop.
Variable goodx : XO -> Prop.
Hypothesis HC : contract D Sh Inv Bad goodx.
Notation dv := (dev SS RS X).
Notation olabS := (olab (sh_ok Sh) (sh_says Sh) (sh_tail Sh) (sh_insend Sh) (sh_ch Sh)).
Notation ilabS := (ilab (sh_insend Sh) (sh_whole Sh) (sh_part Sh) (sh_clears Sh)).

Definition silent (e : @entry XO) : Prop := raw_access e \/ put (e_ev e) = [].

Section Held.
Variable K : dv -> Prop.
Variable Q : @entry XO -> Prop.
Variable N : nat. (* the size of the receive buffer of the port *)
Hypothesis K_io : forall y d, K d -> K (set_io y d).
Hypothesis K_run : forall d, K d -> isopen d = true /\ fReset (fl d) = false.
Hypothesis K_in : forall e d r d' a, Q e -> In a (e_acts e) -> K d -> ilabS d r d' a -> sh_iext Sh d r a d' -> K d'.
Hypothesis K_out : forall e d d' b, Q e -> In b (e_acts e) -> K d -> rxsz (io d) = N -> olabS d d' b -> sh_oext Sh d b d' -> K d' /\ act_put b = [].
Hypothesis K_call : forall e d d', Q e -> K d -> Inv d -> (forall oo, e_op e <> OpRun oo) -> ring_delta Sh e d d' ->
  callrel D Sh (e_op e) d (e_out e) (e_acts e) d' -> K d'.

Lemma held_step : forall d e d', estep D Sh Inv goodx d e d' -> Q e -> K d -> rxsz (io d) = N -> (K d' /\ rxsz (io d') = N) /\ silent e.
Proof.
  intros d e d' H HQ HK HN. assert (HN' : rxsz (io d') = N).
  { destruct H as (_ & _ & _ & _ & _ & (_ & Hc & _) & _). rewrite <- HN. exact (f_equal fst Hc). }
  cut (K d' /\ silent e); [tauto|]. destruct (step_cases _ _ _ _ _ HC d e d' H) as (d1 & Hd & HA & [(oo & Eo & Hr)|(Hn & Ea & Hr & Hc)]).
  - assert (Hput : put (e_ev e) = acts_put (e_acts e)).
    { destruct H as (_ & _ & _ & _ & _ & _ & Hio & _). rewrite Eo in Hio. apply Hio. }
    cut (K d1 /\ acts_put (e_acts e) = []).
    { intros [C1 C2]. unfold silent. rewrite Hput, Hd. split; [apply K_io; exact C1|right; exact C2]. }
    clear Hput Hd H. assert (HK0 : K (during (e_sch e) d)) by (apply K_io; exact HK).
    destruct (K_run _ HK0) as [HO HR].
    assert (P0 : forall l x, prerun Sh (during (e_sch e) d) l x -> l = [] /\ x = during (e_sch e) d).
    { intros l x [(_ & E1 & E2)|(F & _)]; [auto|congruence]. }
    inversion Hr as [Ho Eoo E1 E2|Ho Eoo E1 E2|Ho El E1 E2|l x1 R Hf Hp E1 E2|l x1 a x2 R Hp Hi Hx E1 E2|l x1 a x2 b x3 R Hp Hi Hx Hol Hox E1 E2].
    + congruence.
    + congruence.
    + split; [congruence|reflexivity].
    + congruence.
    + destruct (P0 _ _ Hp) as [El Ex]. subst l x1 d1. cbn [app] in E1. split.
      * apply (K_in e _ _ _ _ HQ) with (2 := HK0) (3 := Hi) (4 := Hx). rewrite <- E1. left. reflexivity.
      * inversion Hi; reflexivity.
    + destruct (P0 _ _ Hp) as [El Ex]. subst l x1 d1. cbn [app] in E1.
      assert (HK2 : K x2) by (apply (K_in e _ _ _ _ HQ) with (2 := HK0) (3 := Hi) (4 := Hx); rewrite <- E1; left; reflexivity).
      assert (HN2 : rxsz (io x2) = N) by (destruct (ilab_io Sh _ _ _ _ Hi) as (ev & Hst & _); rewrite (sstep_rxsz _ _ _ Hst); exact HN).
      destruct (K_out e _ _ b HQ ltac:(rewrite <- E1; right; left; reflexivity) HK2 HN2 Hol Hox) as [J1 J2].
      split; [exact J1|]. unfold acts_put. cbn [app map concat]. rewrite J2. destruct Hi; reflexivity.
  - split.
    + rewrite Hd. apply K_io. exact (K_call e (during (e_sch e) d) d1 HQ (K_io _ _ HK) HA Hn Hr Hc).
    + destruct (raw_dec e) as [R|R]; [left; exact R|]. right. exact (proj2 (call_quiet _ _ _ _ d e d' H Ea R)).
Qed.

Theorem held : forall d tr d', hist D Sh Inv goodx d tr d' -> Forall Q tr -> K d -> rxsz (io d) = N -> K d' /\ Forall silent tr.
Proof.
  intros d tr d' H. induction H as [|d1 e d2 tr d3 Hs Hh IH]; intros HF HK HN; [auto|].
  destruct (held_step _ _ _ Hs (Forall_inv HF) HK HN) as [[K2 N2] Hp].
  destruct (IH (Forall_inv_tail HF) K2 N2) as [A B]. auto.
Qed.
End Held.
End Stuck.

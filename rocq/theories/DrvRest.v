(** A driver at rest: if every action keeps [K] and is one of the [good] ones, and
    every allowed call keeps [K], then a history that begins in [K] ends in [K]
    and contains only good actions. *)
From Coq Require Import String Ascii ZArith List Bool Arith Lia ZifyBool ZifyNat.
From Verif Require Import Base QueueSpec LineSpec SerialSpec Ring RingProofs LineRing LineRingProofs Serial SerialProofs
  SerStep TaskMacros CStr CStrProofs Dev DevProofs Sym DrvStep DrvRun DrvHist DrvActs.
Import ListNotations.
Local Open Scope nat_scope.

Section Rest.
Context {SS RS X XO : Type}.
Variable D : driver SS RS X XO.
Variable Sh : shape SS RS X.
Variable Inv : dev SS RS X -> Prop.
Variable Bad : dop XO -> dev SS RS X -> Prop.
Variable goodx : XO -> Prop.
Hypothesis HC : contract D Sh Inv Bad goodx.
Notation dv := (dev SS RS X).
Notation olabS := (olab (sh_ok Sh) (sh_says Sh) (sh_tail Sh) (sh_insend Sh) (sh_ch Sh)).
Notation ilabS := (ilab (sh_insend Sh) (sh_whole Sh) (sh_part Sh) (sh_clears Sh)).

Lemma fold_snoc : forall {A} (l a : list A), fold_left (fun x b => x ++ [b]) l a = a ++ l.
Proof. intros A l. induction l as [|b l IH]; intro a; cbn [fold_left]; [rewrite app_nil_r; reflexivity|]. rewrite IH, <- app_assoc. reflexivity. Qed.

(** If the actions are known to satisfy [R]. *)
Theorem rest_if : forall (K : dv -> Prop) (good R : act -> Prop) (Q : @entry XO -> Prop),
  (forall y d, K d -> K (set_io y d)) ->
  (forall d, K d -> K (set_isopen true d)) ->
  (forall d, K d -> K (set_sst (sh_error Sh) d)) ->
  (forall d q d', K d -> fReset (fl d) = true -> resets Sh d q d' -> sh_rext Sh d d' -> K d' /\ good (aReset q)) ->
  (forall d r d' b, K d -> R b -> ilabS d r d' b -> sh_iext Sh d r b d' -> K d' /\ good b) ->
  (forall d d' b, K d -> olabS d d' b -> sh_oext Sh d b d' -> K d' /\ good b) ->
  (forall e d d', Q e -> Inv d -> K d -> is_reset (e_op e) = false -> call_flags e d d' ->
     sst d' = sst d -> rst d' = rst d -> wait d' = wait d -> cst d' = cst d -> K d') ->
  (forall d d', Inv d -> K d -> resetstates Sh d d' -> drv_reset D d = Ok d' -> K d') ->
  forall d tr d', hist D Sh Inv goodx d tr d' -> Forall Q tr -> Forall (fun e => Forall R (e_acts e)) tr -> K d ->
  K d' /\ Forall (fun e => Forall good (e_acts e)) tr.
Proof.
  intros K good R Q H0 H1 H2 H3 H4 H5 H6 H7 d tr d' H. induction H as [|d e d1 tr d2 Hs Hh IH]; intros HQ HR HK; [auto|].
  assert (Hg : Forall R (reading (fun x b => x ++ [b]) (fun x _ => x) [] e) -> Forall good (reading (fun x b => x ++ [b]) (fun x _ => x) [] e) /\ K d1).
  { apply (call_ghost _ _ _ _ _ HC _ (fun l x => Forall R l -> Forall good l /\ K x) (fun x b => x ++ [b]) (fun x _ => x) Q)
      with (tr := [e]) (d := d) (a := @nil act).
    - intros a y x A B. destruct (A B). auto.
    - intros a x A B. destruct (A B). auto.
    - intros a x A B. destruct (A B). auto.
    - intros a x q x' A E1 E2 E3 B. apply Forall_app in B as [B _]. destruct (A B) as [A1 A2].
      destruct (H3 x q x' A2 E1 E2 E3). split; [apply Forall_app|]; auto.
    - intros a x r x' b A E1 E2 B. apply Forall_app in B as [B B2]. destruct (A B) as [A1 A2].
      destruct (H4 x r x' b A2 (Forall_inv B2) E1 E2). split; [apply Forall_app|]; auto.
    - intros e0 a x x' b _ A E1 E2 B. apply Forall_app in B as [B _]. destruct (A B) as [A1 A2].
      destruct (H5 x x' b A2 E1 E2). split; [apply Forall_app|]; auto.
    - intros e0 a x x' HQ0 HI A E1 _ E2 E3 E4 E5 E6 B. destruct (A B) as [A1 A2]. split; [exact A1|]. eapply H6; eauto.
    - intros e0 a x x' HI A E1 E2 E3 B. destruct (A B) as [A1 A2]. split; [exact A1|]. eapply H7; eauto.
    - econstructor; [exact Hs|constructor].
    - constructor; [exact (Forall_inv HQ)|constructor].
    - auto. }
  assert (Er : e_acts e = [] \/ reading (fun x b => x ++ [b]) (fun x _ => x) [] e = e_acts e).
  { destruct (step_cases _ _ _ _ _ HC d e d1 Hs) as (x & _ & _ & [(oo & E & _)|(Hn & E & _)]); [|left; exact E].
    right. unfold reading. rewrite E, fold_snoc. reflexivity. }
  assert (Hg2 : Forall good (e_acts e) /\ K d1).
  { assert (Hr0 : forall o, (forall oo, o <> OpRun oo) -> e_op e = o -> reading (fun x b => x ++ [b]) (fun x (_ : @entry XO) => x) (@nil act) e = []).
    { intros o Ho Eo. unfold reading. rewrite Eo. destruct o; try reflexivity. exfalso. exact (Ho _ eq_refl). }
    destruct (step_cases _ _ _ _ _ HC d e d1 Hs) as (x & _ & _ & [(oo & E & _)|(Hn & E & _)]).
    - destruct Er as [Er|Er].
      + assert (Er2 : reading (fun x b => x ++ [b]) (fun x (_ : @entry XO) => x) (@nil act) e = []) by (unfold reading; rewrite E, fold_snoc, Er; reflexivity).
        rewrite Er2 in Hg. rewrite Er. apply Hg. constructor.
      + rewrite Er in Hg. apply Hg. exact (Forall_inv HR).
    - rewrite (Hr0 _ Hn eq_refl) in Hg. rewrite E. apply Hg. constructor. }
  destruct Hg2 as [G1 G2]. destruct (IH (Forall_inv_tail HQ) (Forall_inv_tail HR) G2) as [J1 J2]. split; [exact J1|]. constructor; [exact G1|exact J2].
Qed.

Theorem rest : forall (K : dv -> Prop) (good : act -> Prop) (Q : @entry XO -> Prop),
  (forall y d, K d -> K (set_io y d)) ->
  (forall d, K d -> K (set_isopen true d)) ->
  (forall d, K d -> K (set_sst (sh_error Sh) d)) ->
  (forall d q d', K d -> fReset (fl d) = true -> resets Sh d q d' -> sh_rext Sh d d' -> K d' /\ good (aReset q)) ->
  (forall d r d' b, K d -> ilabS d r d' b -> sh_iext Sh d r b d' -> K d' /\ good b) ->
  (forall d d' b, K d -> olabS d d' b -> sh_oext Sh d b d' -> K d' /\ good b) ->
  (forall e d d', Q e -> Inv d -> K d -> is_reset (e_op e) = false -> call_flags e d d' ->
     sst d' = sst d -> rst d' = rst d -> wait d' = wait d -> cst d' = cst d -> K d') ->
  (forall d d', Inv d -> K d -> resetstates Sh d d' -> drv_reset D d = Ok d' -> K d') ->
  forall d tr d', hist D Sh Inv goodx d tr d' -> Forall Q tr -> K d -> K d' /\ Forall (fun e => Forall good (e_acts e)) tr.
Proof.
  intros K good Q H0 H1 H2 H3 H4 H5 H6 H7 d tr d' H HQ HK. apply (rest_if K good (fun _ => True) Q) with (d := d); eauto.
  clear. induction tr as [|e tr IH]; constructor; auto. apply Forall_forall. auto.
Qed.

(** A run() that heard a line. *)
Lemma heard : forall d e d' tk L, estep D Sh Inv goodx d e d' -> In (aLine tk L) (e_acts e) ->
  exists oo l x1 x2 r d1, e_op e = OpRun oo /\ isopen d = true /\ (sh_lock Sh = true -> fLock (fl d) = false) /\ (sh_goon Sh = false -> l = []) /\
    prerun Sh (during (e_sch e) d) l x1 /\ ilabS x1 r x2 (aLine tk L) /\ sh_iext Sh x1 r (aLine tk L) x2 /\ d' = set_io (io d') d1 /\
    put (e_ev e) = acts_put (e_acts e) /\
    ((r = true /\ e_acts e = l ++ [aLine tk L] /\ d1 = x2) \/
     (r = false /\ exists b, e_acts e = l ++ [aLine tk L; b] /\ olabS x2 d1 b /\ sh_oext Sh x2 b d1)).
Proof.
  intros d e d' tk L Hs Hin. destruct (step_cases _ _ _ _ _ HC d e d' Hs) as (d1 & Hd & _ & [(o & Eo & Hr)|(Hn & E & _)]); [|rewrite E in Hin; destruct Hin].
  assert (Hput : put (e_ev e) = acts_put (e_acts e)).
  { destruct Hs as (_ & _ & _ & _ & _ & _ & Hio & _). rewrite Eo in Hio. apply Hio. }
  assert (P0 : forall l x, prerun Sh (during (e_sch e) d) l x -> ~ In (aLine tk L) l).
  { intros l x [(_ & -> & _)|(_ & q & -> & _)]; [intros []|intros [H|[]]; discriminate H]. }
  set (l0 := e_acts e) in *. clearbody l0.
  destruct Hr as [| | |l x1 R F Hp|l x1 a x2 (R1 & R2 & R3) Hp Hi Hx|l x1 a x2 b x3 (R1 & R2 & R3) Hp Hi Hx Hol Hox]; try (destruct Hin; fail).
  - exfalso. exact (P0 _ _ Hp Hin).
  - assert (a = aLine tk L) as -> by (apply in_app_or in Hin as [H|[H|[]]]; [contradiction (P0 _ _ Hp H)|exact H]).
    exists o, l, x1, x2, true, x2. splits; auto.
  - assert (a = aLine tk L) as -> by (apply in_app_or in Hin as [H|[H|[H|[]]]]; [contradiction (P0 _ _ Hp H)|exact H|subst b; inversion Hol]).
    exists o, l, x1, x2, false, x3. splits; auto. right. split; [reflexivity|]. exists b. auto.
Qed.

(** The run() that resets the modem, for drivers that do nothing else in it. *)
Lemma resetting : forall d e d' oo, estep D Sh Inv goodx d e d' -> e_op e = OpRun oo -> sh_goon Sh = false -> isopen d = true -> fLock (fl d) = false ->
  fReset (fl d) = true -> txav (io d) + length (sh_reset Sh) <= txsz (io d) ->
  put (e_ev e) = sh_reset Sh /\ exists q x, resets Sh (during (e_sch e) d) q x /\ sh_rext Sh (during (e_sch e) d) x /\ d' = set_io (io d') x.
Proof.
  intros d e d' oo Hs Eo Hg Ho Hk Hf Ht. destruct (step_cases _ _ _ _ _ HC d e d' Hs) as (d1 & Hd & _ & [(o & _ & Hr)|(Hn & _)]); [|exfalso; exact (Hn oo Eo)].
  assert (Hput : put (e_ev e) = acts_put (e_acts e)).
  { destruct Hs as (_ & _ & _ & _ & _ & _ & Hio & _). rewrite Eo in Hio. apply Hio. }
  assert (P0 : prerun Sh (during (e_sch e) d) (e_acts e) d1).
  { set (l0 := e_acts e) in *. clearbody l0.
    destruct Hr as [Ho' _|Ho' _|_ Hl|l x1 R F Hp|l x1 a x2 (R1 & R2 & R3) Hp Hi Hx|l x1 a x2 b x3 (R1 & R2 & R3) Hp Hi Hx Hol Hox]; try assumption.
    - change (isopen d = false) in Ho'. congruence.
    - change (isopen d = false) in Ho'. congruence.
    - change (fLock (fl d) = true) in Hl. congruence.
    - exfalso. rewrite (R3 Hg) in Hp. destruct Hp as [(F & _)|(_ & q & F & _)]; [|discriminate F]. change (fReset (fl d) = false) in F. congruence.
    - exfalso. rewrite (R3 Hg) in Hp. destruct Hp as [(F & _)|(_ & q & F & _)]; [|discriminate F]. change (fReset (fl d) = false) in F. congruence. }
  destruct P0 as [(F & _)|(_ & q & Ea & Hq & Hx)]; [change (fReset (fl d) = false) in F; congruence|].
  split; [|exists q, d1; auto]. rewrite Hput, Ea. unfold acts_put. cbn [map concat act_put]. rewrite app_nil_r.
  destruct Hq as ((y & ev & Y1 & _ & _ & _ & _ & Y2 & _ & Y3) & _). apply Y3.
  rewrite (sstep_txsz _ _ _ Y1). change (txav (io (during (e_sch e) d))) with (txav (io d)) in Y2. change (txsz (io (during (e_sch e) d))) with (txsz (io d)). lia.
Qed.

(** A line is read only while lines are read. *)
Lemma line_on : forall d e d' oo tk L, estep D Sh Inv goodx d e d' -> e_op e = OpRun oo -> fReset (fl d) = false -> In (aLine tk L) (e_acts e) -> fLine (fl d) = true.
Proof.
  intros d e d' oo tk L Hs Eo Hf Hin. destruct (step_cases _ _ _ _ _ HC d e d' Hs) as (d1 & _ & _ & [(o & _ & Hr)|(Hn & _)]); [|exfalso; exact (Hn oo Eo)].
  assert (P0 : forall l x, prerun Sh (during (e_sch e) d) l x -> l = [] /\ x = during (e_sch e) d).
  { intros l x [(_ & E1 & E2)|(F & _)]; [auto|]. change (fReset (fl d) = true) in F. congruence. }
  set (l0 := e_acts e) in *. clearbody l0. destruct Hr as [| | |l x1 R F Hp|l x1 a x2 R Hp Hi Hx|l x1 a x2 b x3 R Hp Hi Hx Hol Hox]; try (destruct Hin; fail).
  - change (fReset (fl d) = true) in F. congruence.
  - destruct (P0 _ _ Hp) as [-> ->]. destruct Hin as [->|[]]. inversion Hi. assumption.
  - destruct (P0 _ _ Hp) as [-> ->]. destruct Hin as [->|[->|[]]]; [inversion Hi; assumption|inversion Hol].
Qed.
End Rest.

(** A driver that does not read lines: if line reading is switched off, no payload
    is due, and run() and the allowed calls keep it so ([K]), then nothing is read
    from the serial port from then on. *)
From Coq Require Import String Ascii ZArith List Bool Arith Lia ZifyBool ZifyNat.
From Verif Require Import Base QueueSpec LineSpec SerialSpec Ring RingProofs LineRing LineRingProofs Serial SerialProofs
  SerStep TaskMacros CStr CStrProofs Dev DevProofs Sym DrvStep DrvRun DrvHist DrvActs DrvStuck DrvHand.
Import ListNotations.
Local Open Scope nat_scope.

(** Nothing is read, except by serialRead(). *)
Definition unread {XO} (e : @entry XO) : Prop := raw_access e \/ taken (e_ev e) = [].

(** resetStates(), or the port is closed from outside. *)
Definition restarts {XO} (e : @entry XO) : Prop := e_op e = OpResetStates \/ e_op e = OpPortClosed.

Definition restartsb {XO} (o : dop XO) : bool := match o with OpResetStates | OpPortClosed => true | _ => false end.
Lemma free_restarts : forall XO (tr : list (@entry XO)), forallb (fun p => negb (restartsb (fst p))) (map (fun e => (e_op e, e_sch e)) tr) = true -> Forall (fun e => ~ restarts e) tr.
Proof.
  intros XO tr. induction tr as [|e tr IH]; intro H; [constructor|]. cbn [map forallb fst] in H. apply andb_true_iff in H as [H1 H2].
  constructor; [|apply IH; exact H2]. intros [E|E]; rewrite E in H1; discriminate H1.
Qed.

Section Deaf.
Context {SS RS X XO : Type}.
Variable D : driver SS RS X XO.
Variable Sh : shape SS RS X.
Variable Inv : dev SS RS X -> Prop.
Variable Bad : dop XO -> dev SS RS X -> Prop.
Variable goodx : XO -> Prop.
Hypothesis HC : contract D Sh Inv Bad goodx.
Notation dv := (dev SS RS X).

Variable K : dv -> Prop.
Variable Q : @entry XO -> Prop.
Hypothesis K_io : forall y d, K d -> K (set_io y d).
Hypothesis K_off : forall d, K d -> fReset (fl d) = false /\ fLine (fl d) = false /\ toRead d = 0%Z.
Hypothesis K_run : forall oo d d', K d -> Inv d -> drv_run D oo d = Ok d' -> K d'.
Hypothesis K_call : forall e d d', Q e -> K d -> Inv d -> (forall oo, e_op e <> OpRun oo) -> ring_delta Sh e d d' ->
  callrel D Sh (e_op e) d (e_out e) (e_acts e) d' -> K d'.

Lemma deaf_step : forall d e d', estep D Sh Inv goodx d e d' -> Q e -> K d -> K d' /\ hears None e /\ unread e.
Proof.
  intros d e d' H HQ HK. destruct (step_cases _ _ _ _ _ HC d e d' H) as (d1 & Hd & HA & [(oo & Eo & Hr)|(Hn & Ea & Hr & Hc)]).
  - assert (HK0 : K (during (e_sch e) d)) by (apply K_io; exact HK). destruct (K_off _ HK0) as (F1 & F2 & F3).
    pose proof H as (_ & _ & _ & E & _ & _ & Hio & _). rewrite Eo in Hio. destruct Hio as [Ht _]. split; [|unfold hears, unread; rewrite Ht].
    + rewrite Eo in E. unfold d_step in E. cbn [d_call] in E.
      change (set_io (mkSys (ser (io d)) (e_sch e) []) d) with (during (e_sch e) d) in E.
      destruct (drv_run D oo (during (e_sch e) d)) as [x|u] eqn:Er; [|discriminate E]. cbn [bind] in E.
      destruct (run_isrs _ _) as [[s ev]|u]; [|discriminate E]. cbn [bind] in E. injection E as _ _ <-. apply K_io. exact (K_run oo _ _ HK0 HA Er).
    + assert (P0 : forall l x, prerun Sh (during (e_sch e) d) l x -> l = [] /\ x = during (e_sch e) d).
      { intros l x [(_ & E1 & E2)|(F & _)]; [auto|congruence]. }
      set (l0 := e_acts e) in *. clearbody l0. set (x := during (e_sch e) d) in *. clearbody x.
      inversion Hr as [Ho Eoo E1 E2|Ho Eoo E1 E2|Ho El E1 E2|l x1 R Hf Hp E1 E2|l x1 a x2 R Hp Hi Hx E1 E2|l x1 a x2 b x3 R Hp Hi Hx Hol Hox E1 E2].
      * split; [intros tk L []|right; reflexivity].
      * split; [intros tk L []|right; reflexivity].
      * split; [intros tk L []|right; reflexivity].
      * congruence.
      * destruct (P0 _ _ Hp) as [El Ex]. subst l x1. cbn [app].
        inversion Hi; subst; try congruence; (split; [intros tk0 L0 [Hin|[]]; discriminate Hin|right; unfold acts_taken; cbn [map concat act_taken]; rewrite app_nil_r]); auto.
      * destruct (P0 _ _ Hp) as [El Ex]. subst l x1. cbn [app].
        assert (Ha : act_taken a = [] /\ (forall tk L, a <> aLine tk L) /\ toRead x2 = 0%Z).
        { inversion Hi; subst; try congruence; cbn [act_taken]; (split; [|split; [intros; discriminate|try lia; congruence]]); auto.
          match goal with H : fLine _ = false -> ?t = [] |- _ => rewrite (H F2) end. destruct tk2; [reflexivity|]. cbn [length] in *. lia. }
        destruct Ha as (A1 & A2 & A3).
        assert (Hb : act_taken b = [] /\ forall tk L, b <> aLine tk L) by (inversion Hol; subst; (split; [first [reflexivity|exfalso; lia]|intros; discriminate])).
        destruct Hb as [B1 B2]. split.
        -- intros tk L [Hin|[Hin|[]]]; [exact (A2 _ _ Hin)|exact (B2 _ _ Hin)].
        -- right. unfold acts_taken. cbn [map concat]. rewrite A1, B1. reflexivity.
  - split; [|split].
    + rewrite Hd. apply K_io. exact (K_call e (during (e_sch e) d) d1 HQ (K_io _ _ HK) HA Hn Hr Hc).
    + intros tk L Hin. rewrite Ea in Hin. destruct Hin.
    + destruct (raw_dec e) as [R|R]; [left; exact R|]. right. exact (proj1 (call_quiet _ _ _ _ d e d' H Ea R)).
Qed.

Theorem deaf_hist : forall d tr d', hist D Sh Inv goodx d tr d' -> Forall Q tr -> K d -> K d' /\ Forall (fun e => hears None e /\ unread e) tr.
Proof.
  intros d tr d' H. induction H as [|d1 e d2 tr d3 Hs Hh IH]; intros HF HK; [auto|].
  destruct (deaf_step _ _ _ Hs (Forall_inv HF) HK) as (K2 & Hp). destruct (IH (Forall_inv_tail HF) K2) as [A B]. auto.
Qed.
End Deaf.

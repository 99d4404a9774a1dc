(** The received data reaches read() as long as the modem sends no more than
    it was asked for. *)
From Coq Require Import String Ascii ZArith List Bool Arith Lia ZifyBool ZifyNat.
From Verif Require Import Base QueueSpec LineSpec SerialSpec Ring RingProofs LineRing LineRingProofs Serial SerialProofs
  SerStep TaskMacros CStr CStrProofs Dev DevProofs Sym DrvStep DrvRun DrvHist DrvActs.
Import ListNotations.
Local Open Scope nat_scope.

(** [r_ask]: the number of bytes last asked for, if its reply has not come;
    [r_ok]: no reply announced more (or a negative number); [r_in], [r_out]:
    the payload read from the port and the bytes read() delivered, since the
    last resetStates(). *)
Record rlog : Type := mkRlog { r_ask : option Z; r_ok : bool; r_in : bytes; r_out : bytes }.
Definition r_zero : rlog := mkRlog None true [] [].

(** [req]: the number a command asks for; [rep]: the number a reply announces. *)
Definition r_act (req rep : bytes -> option Z) (acc : rlog) (a : act) : rlog :=
  match a with
  | aCommand cmd _ => mkRlog (req cmd) (r_ok acc) (r_in acc) (r_out acc)
  | aLine _ L =>
      match r_ask acc, rep L with
      | Some n, Some k => mkRlog None (r_ok acc && (0 <=? k)%Z && (k <=? n)%Z) (r_in acc) (r_out acc)
      | _, _ => acc
      end
  | aReceive tk => mkRlog (r_ask acc) (r_ok acc) (r_in acc ++ tk) (r_out acc)
  | aReset _ => mkRlog None (r_ok acc) (r_in acc) (r_out acc)
  | _ => acc
  end.
Definition r_call {XO} (acc : rlog) (e : @entry XO) : rlog :=
  if is_reset (e_op e) then r_zero else mkRlog (r_ask acc) (r_ok acc) (r_in acc) (r_out acc ++ delivered e).
Definition r_log {XO} (req rep : bytes -> option Z) (tr : list (@entry XO)) : rlog :=
  fold_left (reading (r_act req rep) r_call) tr r_zero.

Section Recv.
Context {SS RS X XO : Type}.
Variable D : driver SS RS X XO.
Variable Sh : shape SS RS X.
Variable Inv : dev SS RS X -> Prop.
Variable Bad : dop XO -> dev SS RS X -> Prop.
Variable goodx : XO -> Prop.
Hypothesis HC : contract D Sh Inv Bad goodx.
Notation dv := (dev SS RS X).
Notation olabS := (olab (sh_ok Sh) (sh_says Sh) (sh_tail Sh) (sh_insend Sh) (sh_ch Sh)).
Notation ilabS := (ilab (sh_insend Sh) (sh_whole Sh) (sh_part Sh) (sh_clears Sh)).

(** [asks]: the parser expects the reply to such a request. *)
Variable asks : RS -> bool.
Variables req rep : bytes -> option Z.
Hypothesis asks_ok : forall r, sh_ok Sh r = true -> asks r = false.
Hypothesis H_line : forall d r d' tk L, ilabS d r d' (aLine tk L) -> sh_iext Sh d r (aLine tk L) d' ->
  (exists k, asks (rst d) = true /\ rep L = Some k /\ asks (rst d') = false /\ ((0 <= k)%Z -> toRead d' = k)) \/
  (toRead d' = toRead d /\ (asks (rst d') = true -> asks (rst d) = true /\ rep L = None)).
Hypothesis H_command : forall d d' cmd q, olabS d d' (aCommand cmd q) -> sh_oext Sh d (aCommand cmd q) d' ->
  asks (rst d') = true -> exists n, req cmd = Some n /\ (n <= Z.of_nat (ring_space (rbuf d)))%Z.
Hypothesis H_other : forall d d' b, olabS d d' b -> sh_oext Sh d b d' -> (forall cmd q, b <> aCommand cmd q) ->
  asks (rst d') = true -> asks (rst d) = true.

Definition r_fits (acc : rlog) (d : dv) : Prop :=
  r_ok acc = true -> ring_ok (rbuf d) /\ r_in acc = r_out acc ++ contents (rbuf d) /\
    (Z.of_nat (avail (rbuf d)) + toRead d <= Z.of_nat (rsize (rbuf d)))%Z /\
    (asks (rst d) = true -> exists n, r_ask acc = Some n /\ (Z.of_nat (avail (rbuf d)) + n <= Z.of_nat (rsize (rbuf d)))%Z).

Lemma ok_avail : forall r : ring ascii, ring_ok r -> avail r <= rsize r.
Proof. intros r H. destruct H as ((_ & H & _) & _). exact H. Qed.

Theorem received_history : forall d0 tr d, hist D Sh Inv goodx d0 tr d ->
  ring_ok (rbuf d0) -> contents (rbuf d0) = [] -> toRead d0 = 0%Z -> asks (rst d0) = false -> r_fits (r_log req rep tr) d.
Proof.
  intros d0 tr d Hh E1 E2 E3 E4. unfold r_log.
  apply (hist_ghost D Sh Inv Bad goodx HC _ r_fits (r_act req rep) r_call (fun _ => True)) with (d := d0); auto.
  - (* reset *)
    intros a d1 q d2 K _ (_ & _ & (_ & R1 & _) & _ & _ & R2 & _ & _ & R3 & _) _. unfold r_fits in *. cbn [r_act r_ok r_in r_out r_ask].
    intro E. destruct (K E) as (K1 & K2 & K3 & _). rewrite R1, R2. pose proof (ok_avail _ K1). splits; auto; [lia|].
    rewrite (asks_ok _ R3). discriminate.
  - (* reading *)
    intros a d1 r d2 b K Hl Hx. destruct b as [q|tk|tk1 tk2|tk L| |cmd q|n q|q|tk]; try (inversion Hl; fail).
    + inversion Hl. unfold r_fits in *. cbn [r_act]. repeat match goal with H : keep _ _ |- _ => destruct H as (_ & -> & _) | H : ?f d2 = ?f d1 |- _ => rewrite H; clear H end. exact K.
    + inversion Hl. unfold r_fits in *. cbn [r_act]. intro E. destruct (K E) as (K1 & K2 & K3 & K4).
      match goal with H : keep _ _ |- _ => destruct H as (_ & -> & _) end.
      match goal with H : rst d2 = _ |- _ => rewrite H end. match goal with H : toRead d2 = _ |- _ => rewrite H end. splits; auto. lia.
    + assert (Hk : keep d1 d2) by (inversion Hl; assumption). destruct Hk as (_ & Hk & _).
      destruct (H_line _ _ _ _ _ Hl Hx) as [(k & A1 & A2 & A3 & A4)|(A1 & A2)]; unfold r_fits in *; cbn [r_act]; rewrite Hk.
      * rewrite A2. destruct (r_ask a) as [n|] eqn:Ea; cbn [r_ok r_in r_out r_ask].
        -- intro E. apply andb_true_iff in E as [E E6]. apply andb_true_iff in E as [E E5]. destruct (K E) as (K1 & K2 & K3 & K4).
           destruct (K4 A1) as (n' & B1 & B2). injection B1 as <-. splits; auto; [rewrite A4 by lia; lia|rewrite A3; discriminate].
        -- intro E. destruct (K E) as (K1 & K2 & K3 & K4). destruct (K4 A1) as (n' & B1 & _). discriminate.
      * rewrite A1. destruct (r_ask a) as [n|] eqn:Ea.
        -- destruct (rep L) as [k|] eqn:Er; cbn [r_ok r_in r_out r_ask].
           ++ intro E. apply andb_true_iff in E as [E E6]. apply andb_true_iff in E as [E E5]. destruct (K E) as (K1 & K2 & K3 & K4). splits; auto.
              intro Q. destruct (A2 Q). discriminate.
           ++ intro E. rewrite Ea. destruct (K E) as (K1 & K2 & K3 & K4). splits; auto. intro Q. apply K4, A2, Q.
        -- intro E. rewrite Ea. destruct (K E) as (K1 & K2 & K3 & K4). splits; auto. intro Q. apply K4, A2, Q.
  - (* sending *)
    intros e a d1 d2 b _ K Hl Hx _ _ _.
    destruct b as [q|tk|tk1 tk2|tk L| |cmd q|n q|q|tk]; try (inversion Hl; fail); unfold r_fits in *; cbn [r_act r_ok r_in r_out r_ask].
    + pose proof (H_other _ _ _ Hl Hx ltac:(discriminate)) as Ho. inversion Hl. match goal with H : keep _ _ |- _ => destruct H as (_ & -> & _) end.
      match goal with H : toRead d2 = _ |- _ => rewrite H end. intro E. destruct (K E) as (K1 & K2 & K3 & K4). splits; auto.
    + pose proof (H_command _ _ _ _ Hl Hx) as Ho. inversion Hl. match goal with H : keep _ _ |- _ => destruct H as (_ & -> & _) end.
      match goal with H : toRead d2 = _ |- _ => rewrite H end. intro E. destruct (K E) as (K1 & K2 & K3 & K4). splits; auto.
      intro Q. destruct (Ho Q) as (n & -> & Hn). exists n. split; [reflexivity|]. unfold ring_space in Hn. pose proof (ok_avail _ K1). lia.
    + pose proof (H_other _ _ _ Hl Hx ltac:(discriminate)) as Ho. inversion Hl. match goal with H : keep _ _ |- _ => destruct H as (_ & -> & _) end.
      match goal with H : toRead d2 = _ |- _ => rewrite H end. intro E. destruct (K E) as (K1 & K2 & K3 & K4). splits; auto.
    + pose proof (H_other _ _ _ Hl Hx ltac:(discriminate)) as Ho. inversion Hl. match goal with H : rbuf d2 = _ |- _ => rewrite H end.
      match goal with H : toRead d2 = _ |- _ => rewrite H end. intro E. destruct (K E) as (K1 & K2 & K3 & K4). splits; auto.
    + pose proof (H_other _ _ _ Hl Hx ltac:(discriminate)) as Ho.
      assert (Ha : asks (rst d1) = false).
      { destruct (asks (rst d1)) eqn:E; [|reflexivity]. assert (Hw : ~ awaiting (sh_ok Sh) d1) by (inversion Hl; assumption). contradiction Hw.
        right. destruct (sh_ok Sh (rst d1)) eqn:E'; [|reflexivity]. rewrite (asks_ok _ E') in E. discriminate. }
      inversion Hl as [| | | |tk' Aw Hio Hlen Hpos Hwf Hsz Hring]. intro E. destruct (K E) as (K1 & K2 & K3 & K4).
      destruct Hring as [R1 R2]; [exact K1|lia|]. rewrite R2, K2, <- app_assoc, Hsz.
      match goal with H : toRead d2 = 0%Z |- _ => rewrite H end. splits; auto.
      * pose proof (ok_avail _ R1). lia.
      * intro Q. specialize (Ho Q). congruence.
  - (* calls *)
    intros e a d1 d2 _ Hg HI K Hc Hn. destruct (call_delta D Sh Inv Bad goodx HC e d1 d2 HI Hg Hc Hn) as [Ea [Hr|[R Hr]]].
    + destruct Hr as (R & _ & _ & R1 & _ & _ & _ & R2 & _ & _ & R3 & _ & R4 & _ & R5 & _). unfold r_call. rewrite R.
      unfold r_fits in *. cbn [r_ok r_in r_out r_ask]. intro E. destruct (K E) as (K1 & K2 & K3 & K4).
      destruct (R5 K1) as [R6 R7]. rewrite R1, R2, R4, K2, R7, <- app_assoc.
      assert (Hav : avail (rbuf d2) <= avail (rbuf d1)).
      { pose proof (f_equal (@length _) R7) as Hl. rewrite app_length in Hl. rewrite !contents_length in Hl by first [apply R6 | apply K1]. lia. }
      splits; auto; [lia|]. intro Q. destruct (K4 Q) as (n & -> & Hb). exists n. split; [reflexivity|lia].
    + unfold r_call. rewrite R. cbn [is_reset]. destruct Hr as (y & ev & s0 & r0 & rs & x & _ & _ & _ & _ & _ & _ & Rok & _ & ->).
      pose proof (c_wf _ _ _ _ _ HC d1 HI) as (_ & Hrw & _). destruct (ring_flush_ok _ Hrw) as [F1 F2].
      unfold r_fits. cbn [rbuf toRead rst r_zero r_ok r_in r_out r_ask]. intros _. rewrite F2. pose proof (ok_avail _ F1). splits; auto; [lia|].
      rewrite (asks_ok _ Rok). discriminate.
  - apply Forall_forall. auto.
  - unfold r_fits, r_zero. cbn [r_ok r_in r_out r_ask]. intros _. rewrite E2, E3, E4. pose proof (ok_avail _ E1). splits; auto; [lia|discriminate].
Qed.
End Recv.

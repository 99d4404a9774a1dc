(** What a command, an announcement, a payload or a receipt among the actions
    of a run() call tells about the call. *)
From Coq Require Import String Ascii ZArith List Bool Arith Lia ZifyBool ZifyNat.
From Verif Require Import Base QueueSpec LineSpec SerialSpec Ring RingProofs LineRing LineRingProofs Serial SerialProofs
  SerStep TaskMacros CStr CStrProofs Dev DevProofs Sym DrvStep DrvRun DrvHist.
Import ListNotations.
Local Open Scope nat_scope.

(** The actions of the sending half. *)
Definition sends (a : act) : bool :=
  match a with aCommand _ _ | aAnnounce _ _ | aPayload _ | aReceive _ => true | _ => false end.

Section Acts.
Context {SS RS X XO : Type}.
Variable D : driver SS RS X XO.
Variable Sh : shape SS RS X.
Variable Inv : dev SS RS X -> Prop.
Variable Bad : dop XO -> dev SS RS X -> Prop.
Variable goodx : XO -> Prop.
Hypothesis HC : contract D Sh Inv Bad goodx.
Notation dv := (dev SS RS X).
Notation olabS := (olab (sh_ok Sh) (sh_says Sh) (sh_tail Sh) (sh_insend Sh) (sh_ch Sh)).
Notation ilabS := (ilab (sh_insend Sh) (sh_whole Sh) (sh_part Sh) (sh_clears Sh)).

Lemma keep_refl : forall d : dv, keep d d.
Proof. intro d. unfold keep. splits; reflexivity. Qed.
Lemma keep_trans : forall a b c : dv, keep a b -> keep b c -> keep a c.
Proof. unfold keep. intros a b c (A1 & A2 & A3 & A4 & A5 & A6) (B1 & B2 & B3 & B4 & B5 & B6). splits; congruence. Qed.
Lemma ilab_keep : forall d r d' a, ilabS d r d' a -> keep d d'.
Proof. intros d r d' a H. destruct H; assumption. Qed.
Lemma ilab_sends : forall d r d' a, ilabS d r d' a -> sends a = false.
Proof. intros d r d' a H. destruct H; reflexivity. Qed.
Lemma prerun_keep : forall d l d', prerun Sh d l d' -> keep d d' /\ forall a, In a l -> sends a = false.
Proof.
  intros d l d' [(_ & -> & ->)|(_ & q & -> & (_ & _ & K & _) & _)]; split; auto using keep_refl.
  - intros a [].
  - intros a [<-|[]]. reflexivity.
Qed.

Lemma ilab_tx : forall d r d' a, ilabS d r d' a -> txav (io d') <= txav (io d).
Proof.
  intros d r d' a H. assert (E : exists t, ioeff (io d) (io d') t []) by (destruct H; eauto). destruct E as [t E].
  apply ioeff_av in E. cbn [length] in E. lia.
Qed.
Lemma prerun_tx : forall d l d', prerun Sh d l d' -> (sh_goon Sh = false -> l = []) -> sh_goon Sh = false \/ sh_reset Sh = [] ->
  txav (io d') <= txav (io d).
Proof.
  intros d l d' [(_ & -> & ->)|(_ & q & -> & ((y & ev & _ & _ & _ & _ & _ & T & E & _) & Hq & _) & _)] G [H|H]; auto.
  - discriminate (G H).
  - rewrite H in Hq. cbn [length] in Hq. apply ioeff_av in E. lia.
Qed.

(** A sending action is the last of its run() call, and starts from a state
    with the same configuration and buffers as the call. *)
Lemma rrun_out : forall oo d l d' b, rrun Sh oo d l d' -> In b l -> sends b = true ->
  exists dm, olabS dm d' b /\ sh_oext Sh dm b d' /\ keep d dm /\
    (serial_wf (ser (io d)) -> exists ev, sstep (io d) (io dm) ev) /\ (sh_goon Sh = false \/ sh_reset Sh = [] -> txav (io dm) <= txav (io d)).
Proof.
  intros oo d l d' b H Hb Hs. destruct H as [ | | |l d1 H1 H2 H3|l d1 a d2 H1 H2 H3 H4|l d1 a d2 c d3 H1 H2 H3 H4 H5 H6]; try (destruct Hb; fail).
  - destruct (prerun_keep _ _ _ H3) as [_ F]. rewrite (F b Hb) in Hs. discriminate.
  - destruct (prerun_keep _ _ _ H2) as [_ F]. apply in_app_or in Hb as [Hb|[<-|[]]]; [rewrite (F b Hb) in Hs; discriminate|].
    rewrite (ilab_sends _ _ _ _ H3) in Hs. discriminate.
  - destruct (prerun_keep _ _ _ H2) as [K1 F]. apply in_app_or in Hb as [Hb|[<-|[<-|[]]]].
    + rewrite (F b Hb) in Hs. discriminate.
    + rewrite (ilab_sends _ _ _ _ H3) in Hs. discriminate.
    + exists d2. split; [exact H5|]. split; [exact H6|]. split; [exact (keep_trans _ _ _ K1 (ilab_keep _ _ _ _ H3))|].
      split.
      * intros Hw. destruct (prerun_io Sh _ _ _ Hw H2) as (e1 & S1 & _). destruct (ilab_io Sh _ _ _ _ H3) as (e2 & S2 & _).
        exists (e1 ++ e2). exact (sstep_trans _ _ _ _ _ S1 S2).
      * intros Hg. pose proof (ilab_tx _ _ _ _ H3) as T. pose proof (prerun_tx _ _ _ H2 (proj2 (proj2 H1)) Hg). lia.
Qed.

Lemma step_out : forall d e d' b, estep D Sh Inv goodx d e d' -> In b (e_acts e) -> sends b = true ->
  (exists oo, e_op e = OpRun oo) /\
  exists dm d1, olabS dm d1 b /\ sh_oext Sh dm b d1 /\ keep d dm /\ d' = set_io (io d') d1 /\
    (exists ev, sstep (io (during (e_sch e) d)) (io dm) ev) /\ (sh_goon Sh = false \/ sh_reset Sh = [] -> txav (io dm) <= txav (io d)).
Proof.
  intros d e d' b Hs Hb Hx. destruct (step_cases _ _ _ _ _ HC d e d' Hs) as (d1 & E & HI & [(oo & Eo & Hr)|(_ & Ea & _)]).
  - split; [eauto|]. destruct (rrun_out _ _ _ _ _ Hr Hb Hx) as (dm & A & B & C & F & G). exists dm, d1. splits; auto.
    apply F. exact (proj1 (c_wf _ _ _ _ _ HC _ HI)).
  - rewrite Ea in Hb. destruct Hb.
Qed.

End Acts.

(** ** The last data sent *)

(** Announced, sent, or dealt with: a line that [ok] accepts ends the second
    state, one that [bad] accepts ends both. *)
Inductive txphase : Type := txNone | txAnnounced | txSent.
Definition tx_act (ok bad : bytes -> bool) (p : txphase) (a : act) : txphase :=
  match a with
  | aAnnounce _ _ => txAnnounced
  | aPayload _ => match p with txNone => txNone | _ => txSent end
  | aReset _ => txNone
  | aLine _ L => if bad L then txNone else match p with txSent => if ok L then txNone else txSent | _ => p end
  | _ => p
  end.
Definition tx_log {XO} (ok bad : bytes -> bool) (tr : list (@entry XO)) : txphase := fold_left (act_log (tx_act ok bad) (fun _ => txNone)) tr txNone.

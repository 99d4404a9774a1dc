(** The reply that resolves a host name, for the dialogues of the SIM drivers. *)
From Coq Require Import String Ascii ZArith List Bool Arith Lia ZifyBool ZifyNat.
From Verif Require Import Base QueueSpec LineSpec SerialSpec Ring RingProofs LineRing LineRingProofs Serial SerialProofs
  SerStep TaskMacros CStr CStrProofs Dev DevProofs SimDev SimProofs SimSpec SimParse SimLog Sym DrvStep DrvCommon DrvRun.
Import ListNotations.
Local Open Scope nat_scope.

(** A line that answers AT+CDNSGIP with the address [a]. *)
Definition resolved (a : bytes) (L : bytes) : Prop := dns_ok L /\ dns_ip (cbody L) = Some a.

Lemma no_prefix : forall w u L, prefixb w L = false -> prefixb (w ++ u) L = false.
Proof.
  intros w u L H. apply not_true_is_false. intro K. apply prefixb_spec in K as [t ->]. rewrite <- app_assoc in H.
  enough (prefixb w (w ++ u ++ t) = true) by congruence. apply prefixb_spec. eexists. reflexivity.
Qed.

Lemma upto_in : forall c x l, In x (upto c l) -> In x l.
Proof. intros c x l. induction l as [|y l IH]; [intros []|]. cbn [upto]. destruct (Ascii.eqb y c); [intros []|]. intros [->|H]; [left; reflexivity|right; auto]. Qed.
Lemma behind_in : forall n l r x, behind_quotes n l = Some r -> In x r -> In x l.
Proof.
  intros n l. revert n. induction l as [|c l IH]; intros n r x H Hi; destruct n; cbn [behind_quotes] in H; try discriminate; try (injection H as <-; exact Hi).
  right. destruct (Ascii.eqb c DQ); eapply IH; eassumption.
Qed.
Lemma dns_ip_free : forall l a, ~ In NUL l -> dns_ip l = Some a -> ~ In NUL a.
Proof.
  intros l a H E K. unfold dns_ip in E. destruct (behind_quotes 3 l) as [r|] eqn:Eb; [|discriminate]. injection E as <-.
  apply H. eapply behind_in; [exact Eb|]. eapply upto_in. exact K.
Qed.

(** No identification is asked for: none was requested, or it was answered. *)
Definition no_request (b : bytes) : Prop := nth_error b 1 = Some (id_code idNone) \/ exists c, nth_error b 0 = Some c /\ c <> NUL.
Lemma no_id_request : forall SS RS icc (d : dev SS RS simx), no_request (idbuf (ext d)) -> length (idbuf (ext d)) = 24 -> sim_send_id icc d = Ok (false, d).
Proof.
  intros SS RS icc d [H|(c & H & Hc)] Hl; [exact (no_id SS RS icc d H Hl)|]. unfold sim_send_id, rd. rewrite H.
  destruct (nth_error (idbuf (ext d)) 1) eqn:E; [|apply nth_error_None in E; lia]. cbn [bind].
  unfold aeqb. destruct (Ascii.eqb_spec c NUL); [contradiction|]. rewrite andb_false_r. reflexivity.
Qed.

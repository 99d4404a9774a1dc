(** C52: what the files *HandProps.v about the four drivers have in common.

    The dialogues of DrvHand.v say what "answers" means: for each element of a list
    of replies there is a run() that reads such a line; before it any number of
    run()s that read nothing or a line without a meaning for the driver; calls that
    only look at any time; interrupts at any time, so the bytes of a line may come
    in any pieces; and at each run() [N] bytes of space in the transmit buffer. *)
From Coq Require Import String Ascii ZArith List Bool Arith Lia ZifyBool ZifyNat.
From Verif Require Import Base QueueSpec LineSpec SerialSpec Ring RingProofs LineRing LineRingProofs Serial SerialProofs
  SerStep TaskMacros CStr CStrProofs Dev DevProofs SimDev SimProofs SimSpec SimParse Sym DrvStep DrvCommon DrvRun DrvHist DrvHand SimLog SimHand DrvTalk Session.
Import ListNotations.
Local Open Scope nat_scope.

(** ** Calls that prepare a connection *)
Section Setup.
Context {SS RS X XO : Type}.
Variable D : driver SS RS X XO.
Variable setx : XO -> bool.

(** Setting the parameters, and looking. *)
Definition sets (o : dop XO) : bool := looks o || match o with OpSetHostPort _ _ _ => true | OpX x => setx x | _ => false end.

Lemma called : forall o sch (d : dev SS RS X) out ev d', d_step D o sch d = Ok (out, ev, d') ->
  exists z d1, d_call D o (set_io z d) = Ok (out, d1) /\ d' = set_io (io d') d1.
Proof.
  intros o sch d out ev d' H. unfold d_step in H. exists (mkSys (ser (io d)) sch []).
  destruct (d_call D o _) as [[v d1]|u]; [|discriminate H]. exists d1. cbn [bind] in H.
  destruct (run_isrs _ _) as [[s e]|u]; [|discriminate H]. cbn [bind] in H. injection H as <- _ <-. split; [reflexivity|]. destruct d1; reflexivity.
Qed.
End Setup.

(** After a reset no identification is asked for. *)
Lemma sim_reset_no_id : forall SS RS s0 r0 (d d' : dev SS RS simx), sim_reset_states s0 r0 d = Ok d' -> nth_error (idbuf (ext d')) 1 = Some (id_code idNone).
Proof.
  intros SS RS s0 r0 d d' E. unfold sim_reset_states in E. destruct (at_reset_states _ _ _ _) as [d1|u]; [|discriminate E]. cbn [bind] in E.
  destruct (wr (idbuf (ext d1)) 0 NUL) as [b|u]; [|discriminate E]. cbn [bind] in E. unfold wr in E at 1. destruct (1 <? length b) eqn:El; [|discriminate E].
  cbn [bind] in E. apply ok_inj in E. subst d'. cbn [ext set_x_idbuf set_ext idbuf set_idbuf]. rewrite nth_error_list_set, El. reflexivity.
Qed.

(** Checks for the examples. *)
Definition silentb (l : list string) (L : bytes) : bool := forallb (fun s => negb (prefixb (bs s) L)) l.
Lemma silentb_ok : forall l L, silentb l L = true <-> Forall (fun s => prefixb (bs s) L = false) l.
Proof.
  intros l L. unfold silentb. rewrite forallb_forall, Forall_forall. split; intros H s Hs; specialize (H s Hs); [apply negb_true_iff|rewrite H]; auto.
Qed.
Definition resolvedb (a L : bytes) : bool :=
  dns_okb L && match dns_ip (cbody L) with Some b => if list_eq_dec ascii_dec b a then true else false | None => false end.
Lemma resolvedb_ok : forall a L, resolvedb a L = true <-> resolved a L.
Proof.
  intros a L. unfold resolvedb, resolved. rewrite andb_true_iff, dns_okb_spec. destruct (dns_ip (cbody L)) as [b|]; [|split; intros [_ H]; discriminate].
  destruct (list_eq_dec ascii_dec b a) as [->|H]; split; intros [H1 H2]; split; auto; try discriminate. congruence.
Qed.
Ltac same_replies := repeat (apply Forall2_cons; [first [exact I|intro; apply resolvedb_ok|intro; apply iff_refl]|]); apply Forall2_nil.
(** The check after the calls [h]. *)
Definition then_ {SS RS X XO} (D : driver SS RS X XO) (d0 : res (dev SS RS X)) (h : @script XO) (f : dev SS RS X -> bool) : bool :=
  match d0 with Ok d => match d_run D d h with Ok (d1, _) => f d1 | UB _ => false end | UB _ => false end.
Lemma then_at : forall SS RS X XO (D : driver SS RS X XO) d0 d h d1 outs f, d0 = Ok d -> d_run D d h = Ok (d1, outs) -> then_ D d0 h f = true -> f d1 = true.
Proof. intros SS RS X XO D d0 d h d1 outs f -> E H. unfold then_ in H. rewrite E in H. exact H. Qed.

(** Calls with valid arguments. *)
Definition strb (p : cptr) : bool := match p with PStr _ => true | _ => false end.
Definition validb {XO} (xb : XO -> bool) (o : dop XO) : bool :=
  match o with OpSetHostPort h _ _ => strb h | OpWrite data n => n <=? length data | OpSerialWrite p => strb p | OpX x => xb x | _ => true end.
Lemma strb_ok : forall p, strb p = true -> exists s, p = PStr s.
Proof. intros [| |s] H; try discriminate H. exists s. reflexivity. Qed.
Lemma validb_ok : forall XO (xb : XO -> bool) (goodx : XO -> Prop) (h : @script XO), (forall x, xb x = true -> goodx x) ->
  forallb (fun p => validb xb (fst p)) h = true -> Forall (fun p => goodop goodx (fst p)) h.
Proof.
  intros XO xb goodx h Hx H. apply Forall_forall. intros [o sch] Hi. apply (proj1 (forallb_forall _ _) H) in Hi. cbn [fst] in *.
  destruct o; cbn [goodop validb] in *; auto using strb_ok. apply Nat.leb_le, Hi.
Qed.
Lemma whole_ends : forall L, whole_line L -> L <> [] /\ at_end (last L NUL) (length L) = true.
Proof. intros L (b & c & -> & H & _). split; [destruct b; discriminate|]. rewrite last_last. exact H. Qed.

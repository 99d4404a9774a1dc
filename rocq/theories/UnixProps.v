(** The serial port of Unix systems: C63, C64 and C65. *)
From Coq Require Import ZArith List Bool Lia ZifyBool.
From Verif Require Import UnixSerial.
Import ListNotations.
Local Open Scope Z_scope.

(** ** C64: the supported settings *)

(** The rates Linux knows, with their codes (bits/termios-baud.h, termios.h). *)
Definition termios_rates : list (Z * Z) :=
  [(0, 0); (50, 1); (75, 2); (110, 3); (134, 4); (150, 5); (200, 6); (300, 7); (600, 8); (1200, 9); (1800, 10); (2400, 11); (4800, 12);
   (9600, 13); (19200, 14); (38400, 15); (57600, 4097); (115200, 4098); (230400, 4099); (460800, 4100); (500000, 4101); (576000, 4102);
   (921600, 4103); (1000000, 4104); (1152000, 4105); (1500000, 4106); (2000000, 4107); (2500000, 4108); (3000000, 4109); (3500000, 4110);
   (4000000, 4111)].
(** The two of them the class does not accept. *)
Definition unix_missing (rate : Z) : Prop := rate = 4800 \/ rate = 500000.

Lemma unix_speed_table : forall rate s, unix_speed false rate = Some s -> In (rate, s) termios_rates /\ ~ unix_missing rate.
Proof.
  intros rate s H. unfold unix_speed in H. unfold unix_missing.
  repeat match type of H with context [match ?x with _ => _ end] => is_var x; destruct x; try discriminate end;
    apply (f_equal (fun o => match o with Some v => v | None => s end)) in H; cbv beta iota in H; subst s;
    (split; [cbv; tauto|lia]).
Qed.
Lemma unix_speed_complete : forall rate s, In (rate, s) termios_rates -> ~ unix_missing rate -> unix_speed false rate = Some s.
Proof.
  intros rate s H Hm. unfold termios_rates in H. cbn [In] in H. unfold unix_missing in Hm.
  repeat (destruct H as [H|H]; [apply pair_equal_spec in H as [<- <-]; first [reflexivity | lia]|]). destruct H.
Qed.
Lemma unix_bits_ok : forall b v, unix_bits b = Some v <-> 5 <= b <= 8 /\ v = 16 * (b - 5).
Proof.
  intros b v. split.
  - intro H. unfold unix_bits in H.
    repeat match type of H with context [match ?x with _ => _ end] => is_var x; destruct x; try discriminate end;
      apply (f_equal (fun o => match o with Some w => w | None => v end)) in H; cbv beta iota in H; subst v; (split; [lia|reflexivity]).
  - intros [H ->]. assert (E : b = 5 \/ b = 6 \/ b = 7 \/ b = 8) by lia. destruct E as [->|[->|[->| ->]]]; reflexivity.
Qed.

(** setSerialConfig() succeeds exactly for these rates and 5 to 8 bits, and
    stores the code of the rate and of the character size. *)
Theorem C64_unix_accepts : forall rate bits u u' b, unix_config false rate bits u = (b, u') ->
  (b = true <-> (exists s, In (rate, s) termios_rates) /\ ~ unix_missing rate /\ 5 <= bits <= 8) /\
  (b = true -> In (rate, u_speed u') termios_rates /\ u_bits u' = 16 * (bits - 5)).
Proof.
  intros rate bits u u' b H. unfold unix_config in H. destruct (unix_speed false rate) as [s|] eqn:Es.
  - destruct (unix_speed_table _ _ Es) as [T M]. destruct (unix_bits bits) as [v|] eqn:Eb.
    + apply pair_equal_spec in H as [<- <-]. apply unix_bits_ok in Eb as [R ->]. cbn [u_speed u_bits]. split; [|auto].
      split; [|reflexivity]. intros _. split; [exists s; exact T|auto].
    + apply pair_equal_spec in H as [<- <-]. split; [|discriminate]. split; [discriminate|]. intros (_ & _ & R). exfalso.
      assert (E : unix_bits bits = Some (16 * (bits - 5))) by (apply unix_bits_ok; auto). congruence.
  - apply pair_equal_spec in H as [<- <-]. split; [|discriminate]. split; [discriminate|]. intros ((s & T) & M & _). exfalso.
    rewrite (unix_speed_complete _ _ T M) in Es. discriminate.
Qed.
Example C64_unix_case : unix_config false 57600 7 unix_new = (true, mkUnix false (-1) 4097 32 [] None).
Proof. reflexivity. Qed.
(** Two rates the system supports are refused. *)
Theorem C64_unix_missing_refuted : forall rate bits u, unix_missing rate -> (exists s, In (rate, s) termios_rates) /\ fst (unix_config false rate bits u) = false.
Proof. intros rate bits u [->| ->]; (split; [eexists; cbv; tauto|reflexivity]). Qed.

(** What a later successful open() sets the line to: the last rate and the last
    size given in a call that got as far as storing them. *)
Definition last_speed (s : Z) (p : ucall * bool) : Z :=
  match p with
  | (UConfig rate _, _) => match find (fun q => fst q =? rate) termios_rates with
                           | Some (_, c) => if (rate =? 4800) || (rate =? 500000) then s else c
                           | None => s
                           end
  | _ => s
  end.
Definition last_bits (v : Z) (p : ucall * bool) : Z :=
  match p with (UConfig _ bits, true) => 16 * (bits - 5) | _ => v end.

Lemma find_rate : forall l rate, (forall s s', In (rate, s) l -> In (rate, s') l -> s = s') ->
  forall s : Z, In (rate, s) l -> find (fun q : Z * Z => fst q =? rate) l = Some (rate, s).
Proof.
  induction l as [|[r c] l IH]; intros rate U s H; [destruct H|]. cbn [find fst]. destruct (Z.eqb_spec r rate) as [->|Hn].
  - f_equal. f_equal. apply (U c s); [left; reflexivity|exact H].
  - destruct H as [H|H]; [congruence|]. apply IH; [|exact H]. intros a b Ha Hb. apply U; right; assumption.
Qed.
Lemma rates_unique : forall rate s s', In (rate, s) termios_rates -> In (rate, s') termios_rates -> s = s'.
Proof.
  intros rate s s' H H'. unfold termios_rates in *. cbn [In] in H, H'.
  repeat (destruct H as [H|H]; [apply pair_equal_spec in H as [<- <-];
    repeat (destruct H' as [H'|H']; [apply pair_equal_spec in H' as [E <-]; first [reflexivity | discriminate E]|]); destruct H'|]). destruct H.
Qed.
Lemma last_speed_ok : forall rate bits b s, last_speed s (UConfig rate bits, b) = match unix_speed false rate with Some c => c | None => s end.
Proof.
  intros rate bits b s. unfold last_speed. destruct (unix_speed false rate) as [c|] eqn:E.
  - apply unix_speed_table in E as [T M]. rewrite (find_rate termios_rates rate (rates_unique rate) c T). unfold unix_missing in M.
    destruct (Z.eqb_spec rate 4800); [tauto|]. destruct (Z.eqb_spec rate 500000); [tauto|]. reflexivity.
  - destruct (find _ termios_rates) as [[r c]|] eqn:F; [|reflexivity]. apply find_some in F as [F1 F2]. cbn [fst] in F2. apply Z.eqb_eq in F2. subst r.
    destruct (Z.eqb_spec rate 4800); [reflexivity|]. destruct (Z.eqb_spec rate 500000); [reflexivity|]. cbn [orb].
    exfalso. rewrite (unix_speed_complete rate c F1) in E; [discriminate|]. unfold unix_missing. tauto.
Qed.
Lemma unix_stored : forall h u u', unix_hist false u h u' ->
  u_speed u' = fold_left last_speed h (u_speed u) /\ u_bits u' = fold_left last_bits h (u_bits u).
Proof.
  intros h u u' H. induction H as [u|u c b u1 h u2 Hf Hc Hh [IH1 IH2]]; [split; reflexivity|]. cbn [fold_left].
  assert (E : u_speed u1 = last_speed (u_speed u) (c, b) /\ u_bits u1 = last_bits (u_bits u) (c, b)).
  { destruct c as [o| |rate bits]; cbn [unix_call] in Hc.
    - unfold unix_open in Hc. destruct (os_open o) as [fd|]; [destruct (os_tty o), (os_get o), (os_speed o), (os_set o); cbn [negb] in Hc|];
        apply pair_equal_spec in Hc as [<- <-]; split; reflexivity.
    - apply pair_equal_spec in Hc as [<- <-]; split; reflexivity.
    - rewrite last_speed_ok. unfold unix_config in Hc. destruct (unix_speed false rate) as [s|]; [destruct (unix_bits bits) as [v|] eqn:Ev|];
        apply pair_equal_spec in Hc as [<- <-]; cbn [u_speed u_bits last_bits]; split; try reflexivity. apply unix_bits_ok in Ev. apply Ev. }
  destruct E as [<- <-]. auto.
Qed.
Theorem C64_unix_in_force : forall h u o u', unix_hist false unix_new h u -> unix_open o u = (true, u') ->
  u_line u' = Some (fold_left last_speed h 4098, fold_left last_bits h 48).
Proof.
  intros h u o u' Hh Ho. destruct (unix_stored h _ u Hh) as [S B]. unfold unix_open in Ho. destruct (os_open o); [|discriminate].
  destruct (os_tty o), (os_get o), (os_speed o), (os_set o); cbn [negb] in Ho; try discriminate.
  apply pair_equal_spec in Ho as [_ <-]. cbn [u_line u_speed u_bits]. rewrite S, B. reflexivity.
Qed.
Example C64_unix_in_force_case : let ok := mkOs (Some 3) true true true true in
  u_line (snd (unix_open ok (snd (unix_config false 4800 8 (snd (unix_config false 9600 6 unix_new)))))) = Some (13, 16).
Proof. reflexivity. Qed.

(** ** C63: a refused setting *)
Theorem C63_unix_rate : forall rate bits u, (forall s, ~ In (rate, s) termios_rates) \/ unix_missing rate -> unix_config false rate bits u = (false, u).
Proof.
  intros rate bits u H. unfold unix_config. destruct (unix_speed false rate) as [s|] eqn:E; [|reflexivity].
  apply unix_speed_table in E as [T M]. destruct H as [H|H]; [contradiction (H s T)|contradiction].
Qed.
(** With a good rate and a wrong number of bits the rate is changed all the
    same. *)
Theorem C63_unix_refuted : forall rate s bits u, In (rate, s) termios_rates -> ~ unix_missing rate -> ~ 5 <= bits <= 8 ->
  unix_config false rate bits u = (false, mkUnix (u_open u) (u_fd u) s (u_bits u) (u_fds u) (u_line u)).
Proof.
  intros rate s bits u T M B. unfold unix_config. rewrite (unix_speed_complete _ _ T M).
  destruct (unix_bits bits) as [v|] eqn:E; [|reflexivity]. apply unix_bits_ok in E. tauto.
Qed.
Example C63_unix_case : let ok := mkOs (Some 3) true true true true in
  fst (unix_config false 9600 9 unix_new) = false /\ u_line (snd (unix_open ok (snd (unix_config false 9600 9 unix_new)))) = Some (13, 48) /\
  u_line (snd (unix_open ok unix_new)) = Some (4098, 48).
Proof. repeat split. Qed.

(** ** C65: descriptors *)

(** What a failing open() leaves behind. *)
Theorem C65_unix_failing : forall o u u', unix_open o u = (false, u') ->
  match os_open o with
  | None => u_fds u' = u_fds u
  | Some fd => if os_tty o then u_fds u' = fd :: u_fds u /\ u_fd u' = fd /\ u_open u' = u_open u
               else (0 <= fd -> ~ In fd (u_fds u) -> u_fds u' = u_fds u) /\ u_open u' = false
  end.
Proof.
  intros o u u' H. unfold unix_open in H. destruct (os_open o) as [fd|]; [|apply pair_equal_spec in H as [_ <-]; reflexivity].
  destruct (os_tty o); cbn [negb] in H.
  - destruct (os_get o), (os_speed o), (os_set o); cbn [negb] in H; try discriminate; apply pair_equal_spec in H as [_ <-]; repeat split.
  - apply pair_equal_spec in H as [_ <-]. unfold unix_close. cbn [u_fds u_fd u_open]. split; [|reflexivity]. intros H0 Hn. rewrite (proj2 (Z.leb_le 0 fd) H0).
    cbn [filter]. rewrite Z.eqb_refl. cbn [negb]. clear - Hn. revert Hn. induction (u_fds u) as [|g l IH]; intro Hn; [reflexivity|]. cbn [filter].
    destruct (Z.eqb_spec g fd) as [->|]; [contradiction Hn; left; reflexivity|]. cbn [negb]. f_equal. apply IH. intro K. apply Hn. right. exact K.
Qed.
(** A driver's run() calls open() again and again while isOpen() is false: each
    failure behind the terminal test leaves one more descriptor open. *)
Definition retry (fd : nat) : ucall * bool := (UOpen (mkOs (Some (Z.of_nat fd)) true false true true), false).
Theorem C65_unix_leak_refuted : forall n, exists u, unix_hist false unix_new (map retry (seq 3 n)) u /\ length (u_fds u) = n /\ unix_is_open u = false.
Proof.
  assert (G : forall n k u, u_open u = false -> (forall f, In f (u_fds u) -> f < Z.of_nat k) ->
    exists u', unix_hist false u (map retry (seq k n)) u' /\ length (u_fds u') = (n + length (u_fds u))%nat /\ u_open u' = false).
  { induction n as [|n IH]; intros k u Ho Hb; [exists u; split; [constructor|auto]|]. cbn [seq map].
    destruct (IH (S k) (mkUnix (u_open u) (Z.of_nat k) (u_speed u) (u_bits u) (Z.of_nat k :: u_fds u) (u_line u))) as (u' & H1 & H2 & H3).
    - exact Ho.
    - cbn [u_fds]. intros f [<-|H]; [lia|]. specialize (Hb f H). lia.
    - exists u'. split; [|split; [|exact H3]].
      + econstructor; [|reflexivity|exact H1]. intros o fd E1 E2. injection E1 as <-. injection E2 as <-. split; [lia|]. intro H. specialize (Hb _ H). lia.
      + rewrite H2. cbn [u_fds length]. lia. }
  intro n. destruct (G n 3%nat unix_new) as (u & H1 & H2 & H3); [reflexivity|intros f []|]. exists u. cbn [u_fds unix_new length] in H2.
  split; [exact H1|]. split; [lia|exact H3].
Qed.
(** isOpen() after an open() that failed while the port was open. *)
Theorem C65_unix_open_refuted : forall u, u_open u = true ->
  unix_open (mkOs None true true true true) u = (false, mkUnix true (-1) (u_speed u) (u_bits u) (u_fds u) (u_line u)).
Proof. intros u H. unfold unix_open. cbn [os_open]. rewrite H. reflexivity. Qed.

(** If close() is called before each further open(), nothing leaks and isOpen()
    is right. *)
Fixpoint careful (closed : bool) (h : list (ucall * bool)) : Prop :=
  match h with
  | [] => True
  | (UOpen _, _) :: h => closed = true /\ careful false h
  | (UClose, _) :: h => careful true h
  | (UConfig _ _, _) :: h => careful closed h
  end.
Definition ends_closed (closed : bool) (p : ucall * bool) : bool :=
  match fst p with UOpen _ => false | UClose => true | UConfig _ _ => closed end.
Theorem C65_unix_careful : forall apple h u, unix_hist apple unix_new h u -> careful true h ->
  (length (u_fds u) <= 1)%nat /\ (fold_left ends_closed h true = true -> u_fds u = []) /\
  (unix_is_open u = true -> u_fds u = [u_fd u] /\ u_line u <> None).
Proof.
  assert (G : forall apple h u u', unix_hist apple u h u' -> forall cl, careful cl h ->
    (u_fds u = [] \/ u_fds u = [u_fd u] /\ 0 <= u_fd u) -> (cl = true -> u_fds u = []) -> (u_open u = true -> u_fds u = [u_fd u] /\ u_line u <> None) ->
    (length (u_fds u') <= 1)%nat /\ (fold_left ends_closed h cl = true -> u_fds u' = []) /\ (u_open u' = true -> u_fds u' = [u_fd u'] /\ u_line u' <> None)).
  { intros apple h u u' H. induction H as [u|u c b u1 h u2 Hf Hc Hh IH]; intros cl Hcl A B C.
    - split; [destruct A as [->|[-> _]]; cbn; lia|]. split; assumption.
    - cbn [careful] in Hcl. cbn [fold_left]. destruct c as [o| |rate bits]; cbn [unix_call ends_closed fst] in *.
      + destruct Hcl as [-> Hcl]. specialize (B eq_refl). apply IH; [exact Hcl| |discriminate|]; unfold unix_open in Hc; destruct (os_open o) as [fd|] eqn:Eo.
        * destruct (Hf o fd eq_refl Eo) as [F1 F2].
          destruct (os_tty o), (os_get o), (os_speed o), (os_set o); cbn [negb] in Hc; apply pair_equal_spec in Hc as [_ <-]; unfold unix_close; cbn [u_fds u_fd];
            rewrite B; try (right; split; [reflexivity|exact F1]); left; rewrite (proj2 (Z.leb_le 0 fd) F1); cbn [filter]; rewrite Z.eqb_refl; reflexivity.
        * apply pair_equal_spec in Hc as [_ <-]. left. exact B.
        * assert (Ho : u_open u = false) by (destruct (u_open u); [destruct (C eq_refl); congruence|reflexivity]).
          destruct (os_tty o), (os_get o), (os_speed o), (os_set o); cbn [negb] in Hc; apply pair_equal_spec in Hc as [_ <-]; unfold unix_close; cbn [u_fds u_fd u_open u_line];
            intro K; try congruence; rewrite B; split; [reflexivity|discriminate].
        * apply pair_equal_spec in Hc as [_ <-]. cbn [u_open u_fds u_fd u_line]. intro K. destruct (C K). congruence.
      + apply pair_equal_spec in Hc as [_ <-]. unfold unix_close in *.
        assert (E : (if 0 <=? u_fd u then filter (fun f => negb (f =? u_fd u)) (u_fds u) else u_fds u) = []).
        { destruct A as [->|[-> A]]; [destruct (0 <=? u_fd u); reflexivity|]. rewrite (proj2 (Z.leb_le _ _) A). cbn [filter]. rewrite Z.eqb_refl. reflexivity. }
        rewrite E in *. apply IH; cbn [u_fds u_open]; auto; discriminate.
      + assert (E : u_fds u1 = u_fds u /\ u_fd u1 = u_fd u /\ u_open u1 = u_open u /\ u_line u1 = u_line u).
        { unfold unix_config in Hc. destruct (unix_speed apple rate); [destruct (unix_bits bits)|]; apply pair_equal_spec in Hc as [_ <-]; repeat split. }
        destruct E as (E1 & E2 & E3 & E4). apply IH; rewrite ?E1, ?E2, ?E3, ?E4; auto. }
  intros apple h u H Hc. apply (G apple h unix_new u H true Hc); [left; reflexivity|reflexivity|discriminate].
Qed.
Example C65_unix_case : let bad := mkOs (Some 3) true true true false in let ok := mkOs (Some 3) true true true true in
  careful true [(UOpen bad, false); (UClose, true); (UOpen ok, true)] /\
  unix_hist false unix_new [(UOpen bad, false); (UClose, true); (UOpen ok, true)] (mkUnix true 3 4098 48 [3] (Some (4098, 48))).
Proof.
  split; [cbn; auto|].
  do 3 (eapply uh_cons; [intros o fd E1 E2; try discriminate; injection E1 as <-; injection E2 as <-; (split; [lia|cbn; tauto])|cbn; reflexivity|cbn]). constructor.
Qed.
(** close() always releases the descriptor in use. *)
Theorem C65_unix_close : forall u, 0 <= u_fd u -> ~ In (u_fd u) (u_fds (unix_close u)) /\ unix_is_open (unix_close u) = false /\
  (forall f, In f (u_fds u) -> f <> u_fd u -> In f (u_fds (unix_close u))).
Proof.
  intros u H. unfold unix_close. cbn [u_fds u_open unix_is_open]. rewrite (proj2 (Z.leb_le _ _) H). split; [|split; [reflexivity|]].
  - intro K. apply filter_In in K as [_ K]. rewrite Z.eqb_refl in K. discriminate.
  - intros f Hf Hn. apply filter_In. split; [exact Hf|]. destruct (Z.eqb_spec f (u_fd u)); [contradiction|reflexivity].
Qed.

(** A second close() releases nothing, also when the system has given the number to
    someone else in the meantime: whatever descriptors are open stay open. *)
Theorem C65_unix_close_once : forall u fds, let c := unix_close u in
  u_fds (unix_close (mkUnix (u_open c) (u_fd c) (u_speed c) (u_bits c) fds (u_line c))) = fds.
Proof. intros u fds. reflexivity. Qed.
Example C65_unix_close_case : let u := mkUnix true 3 4098 48 [3; 5] None in
  u_fds (unix_close u) = [5] /\ let c := unix_close u in u_fds (unix_close (mkUnix (u_open c) (u_fd c) (u_speed c) (u_bits c) [3; 5] (u_line c))) = [3; 5].
Proof. split; reflexivity. Qed.

(** ** Assumptions *)
Print Assumptions C64_unix_accepts.
Print Assumptions C64_unix_missing_refuted.
Print Assumptions C64_unix_in_force.
Print Assumptions C63_unix_rate.
Print Assumptions C63_unix_refuted.
Print Assumptions C65_unix_failing.
Print Assumptions C65_unix_leak_refuted.
Print Assumptions C65_unix_open_refuted.
Print Assumptions C65_unix_careful.
Print Assumptions C65_unix_close.
Print Assumptions C65_unix_close_once.

(** C78: the tick functions measure time. *)
From Coq Require Import ZArith QArith Qround List Bool Lia.
From Verif Require Import Base Tick.
Import ListNotations.
Local Open Scope Z_scope.
Ltac Zify.zify_post_hook ::= Z.div_mod_to_equations.

(** Rounding as in IEEE double precision: monotone, integers up to 2^53 exact. *)
Definition rounding (rnd : Q -> Q) : Prop :=
  (forall x y, (x <= y)%Q -> (rnd x <= rnd y)%Q) /\
  (forall z, Z.abs z <= 2 ^ 53 -> (rnd (inject_Z z) == inject_Z z)%Q).

(** Nanoseconds since the clock's origin. *)
Definition nanos (t : timespec) : Z := tv_sec t * 1000000000 + tv_nsec t.
Definition reading (t : timespec) : Prop := 0 <= tv_sec t /\ 0 <= tv_nsec t < 1000000000.

(** The number converted to the tick type. *)
Definition count (rnd : Q -> Q) (t : timespec) : Z :=
  Qfloor (rnd (rnd (inject_Z (tv_sec t * 1000)) + rnd (inject_Z (tv_nsec t) / inject_Z 1000000))%Q).

Lemma floor_le : forall (z : Z) (x : Q), (inject_Z z <= x)%Q -> z <= Qfloor x.
Proof. intros z x H. rewrite <- (Qfloor_Z z). now apply Qfloor_resp_le. Qed.

Lemma floor_ge : forall (z : Z) (x : Q), (x <= inject_Z z)%Q -> Qfloor x <= z.
Proof. intros z x H. rewrite <- (Qfloor_Z z). now apply Qfloor_resp_le. Qed.

Lemma nsec_between : forall n, 0 <= n ->
  (inject_Z (n / 1000000) <= inject_Z n / inject_Z 1000000 /\ inject_Z n / inject_Z 1000000 <= inject_Z (n / 1000000 + 1))%Q.
Proof.
  intros n H. split; unfold Qle, Qdiv, Qmult, Qinv, inject_Z; cbn [Qnum Qden]; nia.
Qed.

(** The sum lies between two consecutive numbers of milliseconds. *)
Lemma count_between : forall rnd t, rounding rnd -> reading t -> tv_sec t * 1000 + 1000 <= 2 ^ 53 ->
  nanos t / 1000000 <= count rnd t <= nanos t / 1000000 + 1 /\
  tv_sec t * 1000 <= count rnd t <= tv_sec t * 1000 + 1000.
Proof.
  intros rnd t [M I] [Hs Hn] Hb. unfold count, nanos.
  set (s := tv_sec t * 1000) in *. set (k := tv_nsec t / 1000000).
  assert (0 <= k <= 999) as Hk by (unfold k; lia).
  assert ((tv_sec t * 1000000000 + tv_nsec t) / 1000000 = s + k) as ->.
  { unfold s, k. replace (tv_sec t * 1000000000) with (tv_sec t * 1000 * 1000000) by lia. now rewrite Z.div_add_l by lia. }
  destruct (nsec_between (tv_nsec t) ltac:(lia)) as [A B]. fold k in A, B.
  apply M in A. apply M in B. rewrite I in A by lia. rewrite I in B by lia.
  assert (rnd (inject_Z s) == inject_Z s)%Q as E by (apply I; unfold s in *; lia).
  set (q := rnd (inject_Z (tv_nsec t) / inject_Z 1000000)%Q) in *.
  assert (inject_Z (s + k) <= rnd (rnd (inject_Z s) + q))%Q as L.
  { rewrite <- (I (s + k)) by lia. apply M. rewrite E, inject_Z_plus. apply Qplus_le_r. exact A. }
  assert (rnd (rnd (inject_Z s) + q) <= inject_Z (s + (k + 1)))%Q as U.
  { rewrite <- (I (s + (k + 1))) by lia. apply M. rewrite E, inject_Z_plus. apply Qplus_le_r. exact B. }
  apply floor_le in L. apply floor_ge in U. lia.
Qed.

Lemma count_mono : forall rnd t1 t2, rounding rnd -> reading t1 -> reading t2 -> tv_sec t2 * 1000 + 1000 <= 2 ^ 53 ->
  nanos t1 <= nanos t2 -> count rnd t1 <= count rnd t2.
Proof.
  intros rnd t1 t2 R R1 R2 Hb H. unfold nanos in H. destruct R1 as [S1 N1], R2 as [S2 N2].
  destruct (Z.eq_dec (tv_sec t1) (tv_sec t2)) as [E|E].
  - unfold count. rewrite E. destruct R as [M I]. apply Qfloor_resp_le, M, Qplus_le_r, M.
    unfold Qle, Qdiv, Qmult, Qinv, inject_Z; cbn [Qnum Qden]; nia.
  - assert (tv_sec t1 + 1 <= tv_sec t2) as L by lia.
    destruct (count_between rnd t1 R (conj S1 N1)) as [_ U]; [lia|].
    destruct (count_between rnd t2 R (conj S2 N2) Hb) as [_ V]. lia.
Qed.

(** The tick is the time in milliseconds, rounded down or up, modulo 2^32. *)
Theorem C78_linux_tick : forall rnd t, rounding rnd -> reading t -> tv_sec t * 1000 + 1000 <= 2 ^ 53 ->
  exists T, tick_linux 64 rnd t = Ok (T mod 2 ^ 32) /\ nanos t / 1000000 <= T <= nanos t / 1000000 + 1.
Proof.
  intros rnd t R [Hs Hn] Hb. exists (count rnd t). split; [|apply count_between; auto; split; auto].
  unfold tick_linux, count, to_tick.
  assert ((tv_sec t * 1000 <? - 2 ^ (64 - 1)) || (2 ^ (64 - 1) <=? tv_sec t * 1000) = false) as ->.
  { apply orb_false_iff. split; [apply Z.ltb_ge|apply Z.leb_gt]; lia. }
  rewrite (Z.mod_small (tv_sec t * 1000) (2 ^ 64)) by lia. reflexivity.
Qed.

(** The difference of two ticks, as the scheduler and the blocking functions compute it,
    is the time passed in milliseconds, less than two off. *)
Theorem C78_linux_elapsed : forall rnd t1 t2 k1 k2, rounding rnd -> reading t1 -> reading t2 ->
  tv_sec t2 * 1000 + 1000 <= 2 ^ 53 -> nanos t1 <= nanos t2 -> nanos t2 - nanos t1 <= (2 ^ 32 - 2) * 1000000 ->
  tick_linux 64 rnd t1 = Ok k1 -> tick_linux 64 rnd t2 = Ok k2 ->
  Z.abs (((k2 - k1) mod 2 ^ 32) * 1000000 - (nanos t2 - nanos t1)) < 2 * 1000000.
Proof.
  intros rnd t1 t2 k1 k2 R R1 R2 Hb H Hd E1 E2.
  assert (tv_sec t1 <= tv_sec t2) as L by (unfold nanos in H; destruct R1, R2; lia).
  assert (forall t, reading t -> tv_sec t * 1000 + 1000 <= 2 ^ 53 -> forall k, tick_linux 64 rnd t = Ok k -> k = count rnd t mod 2 ^ 32) as K.
  { clear - R. intros t [Hs Hn] Hb k E. unfold tick_linux, to_tick in E.
    destruct ((tv_sec t * 1000 <? - 2 ^ (64 - 1)) || _); [discriminate|]. rewrite (Z.mod_small (tv_sec t * 1000) (2 ^ 64)) in E by lia.
    injection E as <-. reflexivity. }
  apply K in E1; [|exact R1|lia]. apply K in E2; [|exact R2|exact Hb]. subst k1 k2.
  pose proof (count_mono rnd t1 t2 R R1 R2 Hb H) as Mo.
  destruct (count_between rnd t1 R R1) as [B1 _]; [lia|]. destruct (count_between rnd t2 R R2 Hb) as [B2 _].
  rewrite <- Zminus_mod. rewrite Z.mod_small; lia.
Qed.

(** A timeout, as it is tested everywhere: it does not expire early by a millisecond or
    more, and it has expired two milliseconds after its end. *)
Theorem C78_linux_timeout : forall rnd t1 t2 k1 k2 timeout, rounding rnd -> reading t1 -> reading t2 ->
  tv_sec t2 * 1000 + 1000 <= 2 ^ 53 -> nanos t1 <= nanos t2 -> nanos t2 - nanos t1 <= (2 ^ 32 - 2) * 1000000 ->
  tick_linux 64 rnd t1 = Ok k1 -> tick_linux 64 rnd t2 = Ok k2 ->
  (timeout < (k2 - k1) mod 2 ^ 32 -> (timeout - 1) * 1000000 < nanos t2 - nanos t1) /\
  ((timeout + 2) * 1000000 <= nanos t2 - nanos t1 -> timeout < (k2 - k1) mod 2 ^ 32).
Proof.
  intros rnd t1 t2 k1 k2 timeout R R1 R2 Hb H Hd E1 E2.
  pose proof (C78_linux_elapsed rnd t1 t2 k1 k2 R R1 R2 Hb H Hd E1 E2) as A. lia.
Qed.

(** Where time_t has 32 bits the product overflows: undefined after 2147483 seconds
    (24.8 days) of uptime, before the tick itself wraps. *)
Theorem C78_linux_time32_refuted : forall rnd t, reading t -> 
  (tick_linux 32 rnd t = UB IntOverflow <-> 2147484 <= tv_sec t).
Proof.
  intros rnd t [Hs Hn]. unfold tick_linux.
  destruct ((tv_sec t * 1000 <? - 2 ^ (32 - 1)) || (2 ^ (32 - 1) <=? tv_sec t * 1000)) eqn:E.
  - split; [|reflexivity]. intros _. apply orb_true_iff in E as [E|E]; lia.
  - split; [discriminate|]. intros L. apply orb_false_iff in E as [E1 E2]. lia.
Qed.

(** mbed: the tick is the number of calls of the ticker, modulo 2^32. *)
Theorem C78_mbed_tick : forall n, mbed_tick n = Z.of_nat n mod 2 ^ 32.
Proof.
  induction n as [|n IH]; [reflexivity|]. cbn [mbed_tick]. unfold mbed_increase. rewrite IH, Nat2Z.inj_succ. unfold Z.succ.
  now rewrite Zplus_mod_idemp_l.
Qed.

(** Exact arithmetic is such a rounding, and so is rounding down to the milliseconds,
    the coarsest one. *)
Example C78_rounding_exact : rounding (fun x => x).
Proof. split; [auto|reflexivity]. Qed.
Example C78_rounding_down : rounding (fun x => inject_Z (Qfloor x)).
Proof.
  split; [intros x y H; rewrite <- Zle_Qle; now apply Qfloor_resp_le|].
  intros z _. now rewrite Qfloor_Z.
Qed.
Example C78_rounding_up : rounding (fun x => inject_Z (Qceiling x)).
Proof.
  split; [intros x y H; rewrite <- Zle_Qle; now apply Qceiling_resp_le|].
  intros z _. now rewrite Qceiling_Z.
Qed.

Example C78_linux_case :
  let t1 := mkTs 4294967 294999999 in let t2 := mkTs 4294968 1000001 in
  reading t1 /\ reading t2 /\ nanos t1 <= nanos t2 /\
  tick_linux 64 (fun x => x) t1 = Ok 4294967294 /\ tick_linux 64 (fun x => x) t2 = Ok 705 /\
  tick_linux 64 (fun x => inject_Z (Qceiling x)) t1 = Ok 4294967295 /\
  (705 - 4294967294) mod 2 ^ 32 = 707 /\ nanos t2 - nanos t1 = 706000002.
Proof. vm_compute. intuition discriminate. Qed.

Example C78_linux_time32_case : tick_linux 32 (fun x => x) (mkTs 2147484 0) = UB IntOverflow /\
  tick_linux 32 (fun x => x) (mkTs 2147483 0) = Ok 2147483000.
Proof. vm_compute. auto. Qed.

Print Assumptions C78_linux_tick.
Print Assumptions C78_linux_elapsed.
Print Assumptions C78_linux_timeout.
Print Assumptions C78_linux_time32_refuted.
Print Assumptions C78_mbed_tick.

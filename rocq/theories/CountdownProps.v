(** Properties C24-C26: cicada/mqttcountdown.cpp.  Times t0, t1 are absolute;
    the tick counter shows them modulo 2^32. *)
From Coq Require Import ZArith Bool Lia.
From Verif Require Import Base Countdown.
Open Scope Z_scope.
Ltac Zify.zify_post_hook ::= Z.div_mod_to_equations.

(** C24: if the tick counter wraps neither before the end of the interval nor
    before the query (all times in the same period of 2^32 ms), the countdown
    is exact. *)
Theorem C24_counts_down : forall p t0 ms t1, 0 <= ms <= 2147483647 ->
  p * 4294967296 <= t0 -> t0 + ms < (p + 1) * 4294967296 -> t0 <= t1 < (p + 1) * 4294967296 ->
  left_ms (countdown_ms (u32 t0) ms) (u32 t1) = Ok (Z.max 0 (t0 + ms - t1)) /\
  exists b, expired (countdown_ms (u32 t0) ms) (u32 t1) = Ok b /\ (b = true <-> ms <= t1 - t0).
Proof.
  intros p t0 ms t1 Hm H0 H1 H2.
  assert (L : left_ms (countdown_ms (u32 t0) ms) (u32 t1) = Ok (Z.max 0 (t0 + ms - t1))).
  { unfold left_ms, countdown_ms. f_equal.
    assert (E0 : u32 (u32 t0 + ms) = t0 + ms - p * 4294967296) by (unfold u32; lia).
    assert (E1 : u32 t1 = t1 - p * 4294967296) by (unfold u32; lia).
    rewrite E0, E1. replace (t0 + ms - p * 4294967296 - (t1 - p * 4294967296)) with (t0 + ms - t1) by lia.
    destruct (Z.ltb_spec (t0 + ms - t1) 0); unfold i32.
    - rewrite Z.max_l by lia. reflexivity.
    - rewrite Z.max_r by lia. rewrite Z.mod_small by lia. lia. }
  split; [exact L|]. unfold expired. rewrite L. cbn [bind]. eexists. split; [reflexivity|]. rewrite Z.eqb_eq. lia.
Qed.
Print Assumptions C24_counts_down.

Theorem C24_counts_down_seconds : forall p t0 s t1, 0 <= s <= 2147483 ->
  p * 4294967296 <= t0 -> t0 + s * 1000 < (p + 1) * 4294967296 -> t0 <= t1 < (p + 1) * 4294967296 ->
  exists e, countdown (u32 t0) s = Ok e /\
    left_ms e (u32 t1) = Ok (Z.max 0 (t0 + s * 1000 - t1)) /\
    exists b, expired e (u32 t1) = Ok b /\ (b = true <-> s * 1000 <= t1 - t0).
Proof.
  intros p t0 s t1 Hs H0 H1 H2. unfold countdown.
  assert (int_ok (s * 1000) = true) as -> by (unfold int_ok; lia).
  eexists. split; [reflexivity|]. apply (C24_counts_down p t0 (s * 1000) t1); lia.
Qed.
Print Assumptions C24_counts_down_seconds.

Example C24_example : left_ms (countdown_ms (u32 (3 * 4294967296 + 1000)) 500) (u32 (3 * 4294967296 + 1100)) = Ok 400 /\
  expired (countdown_ms (u32 (3 * 4294967296 + 1000)) 500) (u32 (3 * 4294967296 + 1500)) = Ok true.
Proof. vm_compute. auto. Qed.

(** A countdown that was never started. *)
Theorem C24_uninitialised_refuted : forall tick, expired cd_new tick = UB Uninitialised.
Proof. reflexivity. Qed.
Print Assumptions C24_uninitialised_refuted.

(** C25 is false in both directions.  If the end lies behind the wrap, the
    countdown has expired immediately, however long it is ... *)
Theorem C25_expires_at_once_refuted : forall p t0 ms t1, 0 <= ms <= 2147483647 ->
  p * 4294967296 <= t0 -> (p + 1) * 4294967296 <= t0 + ms -> t0 <= t1 < (p + 1) * 4294967296 ->
  expired (countdown_ms (u32 t0) ms) (u32 t1) = Ok true.
Proof.
  intros p t0 ms t1 Hm H0 H1 H2. unfold expired, left_ms, countdown_ms. cbn [bind].
  assert (E0 : u32 (u32 t0 + ms) = t0 + ms - (p + 1) * 4294967296) by (unfold u32; lia).
  assert (E1 : u32 t1 = t1 - p * 4294967296) by (unfold u32; lia).
  rewrite E0, E1. destruct (Z.ltb_spec (t0 + ms - (p + 1) * 4294967296 - (t1 - p * 4294967296)) 0); [reflexivity|lia].
Qed.
Print Assumptions C25_expires_at_once_refuted.

Example C25_example : expired (countdown_ms (u32 4294967295) 60000) (u32 4294967295) = Ok true.
Proof. reflexivity. Qed.

(** ... and if nobody asks between the end and the wrap, it has not expired
    after it, and left_ms() may be negative. *)
Theorem C25_unexpired_refuted : forall p t0 ms t1, 0 <= ms ->
  p * 4294967296 <= t0 -> t0 + ms < (p + 1) * 4294967296 ->
  (p + 1) * 4294967296 <= t1 -> t1 - 4294967296 < t0 + ms ->
  expired (countdown_ms (u32 t0) ms) (u32 t1) = Ok false.
Proof.
  intros p t0 ms t1 Hm H0 H1 H2 H3. unfold expired, left_ms, countdown_ms. cbn [bind].
  assert (E0 : u32 (u32 t0 + ms) = t0 + ms - p * 4294967296) by (unfold u32; lia).
  assert (E1 : u32 t1 = t1 - (p + 1) * 4294967296) by (unfold u32; lia).
  rewrite E0, E1. set (l := t0 + ms - p * 4294967296 - (t1 - (p + 1) * 4294967296)).
  assert (0 < l < 4294967296) by (subst l; lia). destruct (Z.ltb_spec l 0); [lia|].
  f_equal. unfold i32. lia.
Qed.
Print Assumptions C25_unexpired_refuted.

Example C25_negative_example :
  left_ms (countdown_ms (u32 4294967286) 5) (u32 4294967306) = Ok (-15) /\
  expired (countdown_ms (u32 4294967286) 5) (u32 4294967306) = Ok false.
Proof. vm_compute. auto. Qed.

(** C26 is false: the product overflows from 2147484 s (under 25 days) on; it
    is defined exactly up to there. *)
Theorem C26_seconds_overflow_refuted : forall tick s,
  (countdown tick s = UB IntOverflow <-> ~ (-2147483 <= s <= 2147483)) /\
  (-2147483 <= s <= 2147483 -> countdown tick s = Ok (countdown_ms tick (s * 1000))).
Proof.
  intros tick s. unfold countdown, countdown_ms, int_ok.
  destruct ((-2147483648 <=? s * 1000) && (s * 1000 <=? 2147483647)) eqn:E; split; try split; try discriminate; try reflexivity; intros; try lia; try (exfalso; lia).
Qed.
Print Assumptions C26_seconds_overflow_refuted.

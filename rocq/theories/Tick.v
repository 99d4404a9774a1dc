(** Model of the platforms' tick functions: cicada/platform/linux/tick_linux.cpp and
    cicada/platform/mbed/mbedtick.cpp.

    The floating point operations of the Linux version are modelled by a rounding
    function on rationals.  The theorems hold for every rounding function that is
    monotone and leaves integers up to 2^53 alone, as the four rounding modes of IEEE
    double precision do. *)
From Coq Require Import ZArith QArith Qround List Bool Lia.
From Verif Require Import Base.
Import ListNotations.
Local Open Scope Z_scope.

(** A reading of CLOCK_MONOTONIC, struct timespec. *)
Record timespec : Type := mkTs { tv_sec : Z; tv_nsec : Z }.

(** The conversion to E_TICK_TYPE, defines.h:31-33 *)
Definition to_tick (ms : Z) : Z := ms mod 2 ^ 32.

(** tick_linux.cpp:27-38, eTickFunction(); [bits]: width of time_t.  The product is
    computed in time_t, where overflow is undefined; the sum in double. *)
Definition tick_linux (bits : Z) (rnd : Q -> Q) (t : timespec) : res Z :=
  let ms := tv_sec t * 1000 in
  if (ms <? - 2 ^ (bits - 1)) || (2 ^ (bits - 1) <=? ms) then UB IntOverflow
  else
    let ms := ms mod 2 ^ 64 in
    let q := rnd (inject_Z (tv_nsec t) / inject_Z 1000000)%Q in
    let sum := rnd (rnd (inject_Z ms) + q)%Q in
    Ok (to_tick (Qfloor sum)).

(** mbedtick.cpp:32-48: increase() is called by the ticker every millisecond *)
Definition mbed_increase (millis : Z) : Z := (millis + 1) mod 2 ^ 32.
Fixpoint mbed_tick (n : nat) : Z := match n with O => 0 | S n' => mbed_increase (mbed_tick n') end.

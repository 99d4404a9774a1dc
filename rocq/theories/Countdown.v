(** Model of cicada/mqttcountdown.cpp (class MQTTCountdown).  The argument
    [tick] is what eTickFunction() returns during the call, a uint32_t. *)
From Coq Require Import ZArith Bool.
From Verif Require Import Base.
Open Scope Z_scope.

(** mqttcountdown.h:54, _endTime; [None]: not initialised.
    mqttcountdown.cpp:29, default constructor *)
Definition cd_new : option Z := None.

(** mqttcountdown.cpp:41-44, countdown_ms (and the constructor, :31-34); the
    int is converted to uint32_t *)
Definition countdown_ms (tick ms : Z) : option Z := Some (u32 (tick + ms)).

Definition int_ok (z : Z) : bool := (-2147483648 <=? z) && (z <=? 2147483647).

(** mqttcountdown.cpp:46-49, countdown: the product is computed in int *)
Definition countdown (tick seconds : Z) : res (option Z) :=
  if int_ok (seconds * 1000) then Ok (Some (u32 (tick + seconds * 1000))) else UB IntOverflow.

(** mqttcountdown.cpp:51-58, left_ms *)
Definition left_ms (e : option Z) (tick : Z) : res Z :=
  match e with
  | None => UB Uninitialised
  | Some en => let left := en - tick in Ok (i32 (if left <? 0 then 0 else left))
  end.

(** mqttcountdown.cpp:36-39, expired *)
Definition expired (e : option Z) (tick : Z) : res bool :=
  let* l := left_ms e tick in Ok (l =? 0).

(** Model of cicada/task.h: class Task and the E_BEGIN_TASK .. E_END_TASK macros
    (Duff's device).  A body is the list of its statements; statement [pc]
    using a macro owns the case label [lab base prog pc], because __COUNTER__
    advances by one at every macro use.  Simplification: the arguments of the
    macros do not themselves use __COUNTER__; control flow around the macros is
    expressed by jumps. *)
From Coq Require Import ZArith List Bool.
From Verif Require Import Base TaskSpec.
Import ListNotations.
Open Scope Z_scope.

(** task.h:284-287, the data members.  [ttimeout = None]: never assigned. *)
Record tobj : Type := mkTask { tdelay : Z; ttimeout : option Z; trunning : bool; tlast : Z }.

(** task.h:197, constructor *)
Definition task_new (initial_delay : Z) : tobj := mkTask (u16 initial_delay) None false 0.

(** task.h:213-216, setDelay(uint16_t) *)
Definition set_delay (d : Z) (o : tobj) : tobj := mkTask (u16 d) (ttimeout o) (trunning o) (tlast o).
(** task.h:231-234, setLastRun *)
Definition set_last_run (t : Z) (o : tobj) : tobj := mkTask (tdelay o) (ttimeout o) (trunning o) t.
(** task.h:252-258, startTimeout *)
Definition start_timeout (o : tobj) : tobj :=
  if trunning o then o else mkTask (tdelay o) (Some (tlast o)) true (tlast o).
(** task.h:263-266, resetTimeout *)
Definition reset_timeout (o : tobj) : tobj := mkTask (tdelay o) (ttimeout o) false (tlast o).
(** task.h:273-276, isTimeout(uint32_t) *)
Definition is_timeout (t : Z) (o : tobj) : res bool :=
  match ttimeout o with
  | Some start => Ok (u32 t <? u32 (tlast o - start))
  | None => UB Uninitialised
  end.

Definition is_macro {W} (i : instr W) : bool :=
  match i with IAct _ | IJmp _ | IBr _ _ => false | _ => true end.

(** Number of macro uses in a body. *)
Fixpoint macros {W} (prog : list (instr W)) : nat :=
  match prog with
  | [] => 0%nat
  | i :: p => ((if is_macro i then 1 else 0) + macros p)%nat
  end.

(** task.h:40 etc.: __COUNTER__ is [base] at E_BEGIN_TASK. *)
Definition lab {W} (base : Z) (prog : list (instr W)) (pc : nat) : Z :=
  base + 1 + Z.of_nat (macros (firstn pc prog)).

(** task.h:51-55, the number E_END_TASK stores; there is no such case label. *)
Definition last_label {W} (base : Z) (prog : list (instr W)) : Z := base + 1 + Z.of_nat (macros prog).

(** Which statement owns label number [n] (counted from [l] for the first macro). *)
Fixpoint find_label {W} (l : Z) (prog : list (instr W)) (n : Z) : option nat :=
  match prog with
  | [] => None
  | i :: p =>
      if is_macro i then
        if l =? n then Some O else option_map S (find_label (l + 1) p n)
      else option_map S (find_label l p n)
  end.

(** Execution from statement [pc]: [fresh = false] means control arrived
    through the case label in the middle of the macro.  Returns the new
    entrypoint, the object and the world when run() returns.
    task.h:57-158, one branch per macro. *)
Fixpoint exec {W} (fuel : nat) (base : Z) (prog : list (instr W)) (fresh : bool) (pc : nat) (ep : Z) (o : tobj) (w : W) : res (Z * tobj * W) :=
  match fuel with
  | O => UB Diverges
  | S fuel' =>
      match nth_error prog pc with
      | None => Ok (u8 (last_label base prog), o, w)
      | Some (IAct f) => exec fuel' base prog true (S pc) ep o (f w)
      | Some (IJmp t) => exec fuel' base prog true t ep o w
      | Some (IBr c t) => exec fuel' base prog true (if c w then t else S pc) ep o w
      | Some IYield =>
          if fresh then Ok (u8 (lab base prog pc), o, w)
          else exec fuel' base prog true (S pc) ep o w
      | Some (IDelay d) =>
          if fresh then Ok (u8 (lab base prog pc), set_delay (d w) o, w)
          else exec fuel' base prog true (S pc) ep o w
      | Some (ICond c) =>
          let o1 := if fresh then set_delay 0 o else o in
          let ep1 := if fresh then u8 (lab base prog pc) else ep in
          if c w then exec fuel' base prog true (S pc) ep1 o1 w else Ok (ep1, o1, w)
      | Some (ICondDelay c d) =>
          let o1 := if fresh then set_delay (d w) o else o in
          let ep1 := if fresh then u8 (lab base prog pc) else ep in
          if c w then exec fuel' base prog true (S pc) ep1 o1 w else Ok (ep1, o1, w)
      | Some (ICondTimeout c t) =>
          let o1 := if fresh then set_delay 0 (start_timeout o) else o in
          let ep1 := if fresh then u8 (lab base prog pc) else ep in
          let* expired := is_timeout (t w) o1 in
          if negb expired && negb (c w) then Ok (ep1, o1, w)
          else exec fuel' base prog true (S pc) ep1 (reset_timeout o1) w
      | Some (ICondTimeoutDelay c t d) =>
          let o1 := if fresh then set_delay (d w) (start_timeout o) else o in
          let ep1 := if fresh then u8 (lab base prog pc) else ep in
          let* expired := is_timeout (t w) o1 in
          if negb expired && negb (c w) then Ok (ep1, o1, w)
          else exec fuel' base prog true (S pc) ep1 (reset_timeout o1) w
      end
  end.

(** task.h:41-44, "switch (entrypoint)": uint8_t against int case labels; no
    match means the whole body is skipped.  ([S fuel]: the resumed statement is
    not counted, so that [fuel] bounds the statements executed after it.) *)
Definition task_run {W} (fuel : nat) (base : Z) (prog : list (instr W)) (ep : Z) (o : tobj) (w : W) : res (Z * tobj * W) :=
  if ep =? base then exec fuel base prog true O ep o w
  else match find_label (base + 1) prog ep with
       | Some pc => exec (S fuel) base prog false pc ep o w
       | None => Ok (ep, o, w)
       end.

(** task.h:42, "static uint8_t entrypoint = FIRST_ENTRY" *)
Definition entry_init (base : Z) : Z := u8 base.

(** run() called at the given times (the scheduler stores the tick first,
    scheduler.cpp:38). *)
Fixpoint task_runs {W} (fuel : nat) (base : Z) (prog : list (instr W)) (ep : Z) (o : tobj) (w : W) (acts : list (Z * (W -> W))) : res (list (W * Z)) :=
  match acts with
  | [] => Ok []
  | (now, env) :: acts' =>
      let* (ep1, o1, w1) := task_run fuel base prog ep (set_last_run now o) (env w) in
      let* outs := task_runs fuel base prog ep1 o1 w1 acts' in
      Ok ((w1, tdelay o1) :: outs)
  end.

(** Two objects of one class: each has its own members (and world), but the
    entrypoint is a static local of run(), so there is only one.  [true] = the
    first object runs. *)
Fixpoint two_runs {W} (fuel : nat) (base : Z) (prog : list (instr W)) (ep : Z) (a b : tobj * W) (acts : list (bool * Z)) : res (list (bool * W)) :=
  match acts with
  | [] => Ok []
  | (who, now) :: acts' =>
      let x := if who then a else b in
      let* (ep1, o1, w1) := task_run fuel base prog ep (set_last_run now (fst x)) (snd x) in
      let* outs := two_runs fuel base prog ep1 (if who then (o1, w1) else a) (if who then b else (o1, w1)) acts' in
      Ok ((who, w1) :: outs)
  end.

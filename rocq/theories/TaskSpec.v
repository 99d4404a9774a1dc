(** Specification for cicada/task.h: a task body is a thread that blocks at its
    E_REENTER statements.  No entry points, no stored timers: the thread simply
    knows where it is and when it began to wait. *)
From Coq Require Import ZArith List Bool.
From Verif Require Import Base.
Import ListNotations.
Open Scope Z_scope.

(** Programs: the statements a task body consists of.  [W] is everything the
    body can read and change.  Loops and conditionals around the macros are
    jumps. *)
Inductive instr (W : Type) : Type :=
| IAct (f : W -> W)                                  (* ordinary code *)
| IJmp (target : nat)
| IBr (c : W -> bool) (target : nat)                 (* if (c) goto target *)
| IYield                                             (* E_REENTER_YIELD() *)
| IDelay (d : W -> Z)                                (* E_REENTER_DELAY(d) *)
| ICond (c : W -> bool)                              (* E_REENTER_COND(c) *)
| ICondDelay (c : W -> bool) (d : W -> Z)            (* E_REENTER_COND_DELAY(c, d) *)
| ICondTimeout (c : W -> bool) (t : W -> Z)          (* E_REENTER_COND_TIMEOUT(c, t) *)
| ICondTimeoutDelay (c : W -> bool) (t d : W -> Z).  (* E_REENTER_COND_TIMEOUT_DELAY(c, t, d) *)
Arguments IAct {W}. Arguments IJmp {W}. Arguments IBr {W}. Arguments IYield {W}. Arguments IDelay {W}.
Arguments ICond {W}. Arguments ICondDelay {W}. Arguments ICondTimeout {W}. Arguments ICondTimeoutDelay {W}.

(** Where the thread is: about to execute a statement, blocked at one since
    [start], or finished. *)
Inductive thread : Type := TReady (pc : nat) | TBlocked (pc : nat) (start : Z) | TDone.

(** May a thread blocked since [start] go on at [now]? *)
Definition may_continue {W} (i : instr W) (start now : Z) (w : W) : bool :=
  match i with
  | ICond c | ICondDelay c _ => c w
  | ICondTimeout c t | ICondTimeoutDelay c t _ => c w || (u32 (t w) <? u32 (now - start))
  | _ => true
  end.

(** The delay a statement asks the scheduler for. *)
Definition asked_delay {W} (i : instr W) (d : Z) (w : W) : Z :=
  match i with
  | IDelay f | ICondDelay _ f | ICondTimeoutDelay _ _ f => u16 (f w)
  | ICond _ | ICondTimeout _ _ => 0
  | _ => d
  end.

(** One activation at time [now]: run until the next blocking statement.
    [d] is the delay in force.  [UB Diverges]: no such statement within [fuel]. *)
Fixpoint th_exec {W} (fuel : nat) (prog : list (instr W)) (now : Z) (pc : nat) (w : W) (d : Z) : res (thread * W * Z) :=
  match fuel with
  | O => UB Diverges
  | S fuel' =>
      match nth_error prog pc with
      | None => Ok (TDone, w, d)
      | Some (IAct f) => th_exec fuel' prog now (S pc) (f w) d
      | Some (IJmp t) => th_exec fuel' prog now t w d
      | Some (IBr c t) => th_exec fuel' prog now (if c w then t else S pc) w d
      | Some IYield => Ok (TBlocked pc now, w, d)
      | Some (IDelay f) => Ok (TBlocked pc now, w, u16 (f w))
      | Some i =>
          (* a condition is looked at immediately *)
          if may_continue i now now w then th_exec fuel' prog now (S pc) w (asked_delay i d w)
          else Ok (TBlocked pc now, w, asked_delay i d w)
      end
  end.

Definition th_run {W} (fuel : nat) (prog : list (instr W)) (now : Z) (th : thread) (w : W) (d : Z) : res (thread * W * Z) :=
  match th with
  | TDone => Ok (TDone, w, d)
  | TReady pc => th_exec fuel prog now pc w d
  | TBlocked pc start =>
      match nth_error prog pc with
      | Some i => if may_continue i start now w then th_exec fuel prog now (S pc) w d else Ok (th, w, d)
      | None => Ok (th, w, d)
      end
  end.

(** A sequence of activations, each at its time and after the rest of the
    program changed the world; observed: world and delay after each. *)
Fixpoint th_runs {W} (fuel : nat) (prog : list (instr W)) (th : thread) (w : W) (d : Z) (acts : list (Z * (W -> W))) : res (list (W * Z)) :=
  match acts with
  | [] => Ok []
  | (now, env) :: acts' =>
      let* (th1, w1, d1) := th_run fuel prog now th (env w) d in
      let* outs := th_runs fuel prog th1 w1 d1 acts' in
      Ok ((w1, d1) :: outs)
  end.

(** ** For bodies without jumps *)
Definition straight {W} (i : instr W) : bool := match i with IJmp _ | IBr _ _ => false | _ => true end.

(** The positions of the ordinary statements, in program order. *)
Definition logs_of {W} (p : list (instr W)) (off : nat) : list nat :=
  map fst (filter (fun x => match snd x with IAct _ => true | _ => false end) (combine (seq off (length p)) p)).

(** ** A wait with timeout *)

(** Absolute times (ms since start-up, no wrap); the task sees them modulo 2^32. *)
Definition tick_of (t : Z) : Z := u32 t.

(** The wait: the world is the current value of the condition and whether the
    statement after the wait was reached. *)
Definition wait_prog (t : Z) : list (instr (bool * bool)) :=
  [ICondTimeout fst (fun _ => t); IAct (fun w => (fst w, true))].

Definition wait_acts (acts : list (Z * bool)) : list (Z * (bool * bool -> bool * bool)) :=
  map (fun a => (tick_of (fst a), fun w => (snd a, snd w))) acts.

Definition reached (outs : list ((bool * bool) * Z)) : list bool := map (fun o => snd (fst o)) outs.


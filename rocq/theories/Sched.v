(** Model of cicada/scheduler.cpp (class Scheduler).

    The bodies of the tasks are arbitrary: [body i w ts] is the effect of
    task i's run() on the rest of the program [w] and on all task objects (a
    body may call the public setters of any task it knows). *)
From Coq Require Import ZArith List Bool.
From Verif Require Import Base TaskMacros.
Import ListNotations.
Open Scope Z_scope.

Record sched_state (W : Type) : Type := mkSched { tasks : list tobj; cur : nat; world : W }.
Arguments mkSched {W}. Arguments tasks {W}. Arguments cur {W}. Arguments world {W}.

(** What one call of runTask() did: which task it looked at, whether it ran it,
    the (absolute) time, and the task's delay when looked at. *)
Record visit : Type := mkVisit { who : nat; ran : bool; vtime : Z; vdelay : Z }.

(** scheduler.cpp:36-37, is the task due? *)
Definition due (tick : Z) (o : tobj) : bool := (tdelay o =? 0) || (tdelay o <=? u32 (tick - tlast o)).

(** scheduler.cpp:33-45, runTask at absolute time [t]; the tick function
    delivers it modulo 2^32.  The end of the list is the NULL pointer. *)
Definition run_task {W} (body : nat -> W -> list tobj -> W * list tobj) (t : Z) (s : sched_state W) : res (sched_state W * visit) :=
  let tick := u32 t in
  match nth_error (tasks s) (cur s) with
  | None => UB NullDeref
  | Some o =>
      let is_due := due tick o in
      let '(w1, ts1) :=
        if is_due then body (cur s) (world s) (list_set (tasks s) (cur s) (set_last_run tick o))
        else (world s, tasks s) in
      let next := S (cur s) in
      let cur1 := match nth_error ts1 next with None => O | Some _ => next end in
      Ok (mkSched ts1 cur1 w1, mkVisit (cur s) is_due t (tdelay o))
  end.

(** scheduler.cpp:47-51: repeated runTask(), at the times [ts]. *)
Fixpoint sched_run {W} (body : nat -> W -> list tobj -> W * list tobj) (ts : list Z) (s : sched_state W) : res (sched_state W * list visit) :=
  match ts with
  | [] => Ok (s, [])
  | t :: ts' =>
      let* (s1, v) := run_task body t s in
      let* (s2, vs) := sched_run body ts' s1 in
      Ok (s2, v :: vs)
  end.

(** scheduler.cpp:29-31, constructor *)
Definition sched_new {W} (ts : list tobj) (w : W) : sched_state W := mkSched ts O w.

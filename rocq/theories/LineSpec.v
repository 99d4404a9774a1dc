(** Specification: a bounded FIFO queue of characters that knows about lines. *)
From Coq Require Import Ascii List Bool Arith.
From Verif Require Import QueueSpec.
Import ListNotations.

Definition newline : ascii := "010"%char.

(** Number of complete lines: number of line ends. *)
Fixpoint line_count (q : list ascii) : nat :=
  match q with
  | [] => 0
  | c :: q' => if Ascii.eqb c newline then S (line_count q') else line_count q'
  end.

(** The first line with its line end (everything if there is no line end), and
    what follows it. *)
Fixpoint split_line (q : list ascii) : list ascii * list ascii :=
  match q with
  | [] => ([], [])
  | c :: q' =>
      if Ascii.eqb c newline then ([c], q')
      else let (l, rest) := split_line q' in (c :: l, rest)
  end.

(** Calls on a LineCircularBuffer. *)
Inductive lop : Type :=
| Plain (o : qop ascii)     (* a CircularBuffer call *)
| ReadLine (n : nat)        (* readLine(data, n) *)
| NumLines.                 (* numBufferedLines() *)

Definition lq_step (cap : nat) (q : list ascii) (o : lop) : option (list ascii * qobs ascii) :=
  match o with
  | Plain o' => q_step cap q o'
  | ReadLine n =>
      let (l, rest) := split_line q in
      Some (rest, OData (firstn n l) (Nat.min n (length l)))
  | NumLines => Some (q, OCount (line_count q))
  end.

Fixpoint lq_run (cap : nat) (q : list ascii) (os : list lop) : option (list ascii * list (qobs ascii)) :=
  match os with
  | [] => Some (q, [])
  | o :: os' =>
      match lq_step cap q o with
      | None => None
      | Some (q1, out) =>
          match lq_run cap q1 os' with
          | None => None
          | Some (q2, outs) => Some (q2, out :: outs)
          end
      end
  end.

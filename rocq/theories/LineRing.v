(** Model of cicada/linecircularbuffer.h (class LineCircularBuffer). *)
From Coq Require Import Ascii ZArith List Bool Arith.
From Verif Require Import Base QueueSpec LineSpec Ring.
Import ListNotations.

(** linecircularbuffer.h:38,129: the inherited CircularBuffer<char> and the
    16 bit line counter. *)
Record lring : Type := mkLring {
  lr : ring ascii;
  lines : Z          (* _bufferedLines, uint16_t *)
}.

(** linecircularbuffer.h:41-43, constructor. *)
Definition lring_new (buffer : list ascii) : lring := mkLring (ring_new buffer) 0.

(** linecircularbuffer.h:59-66, push(char). *)
Definition lr_push (l : lring) (c : ascii) : res lring :=
  let* r := ring_push (lr l) c in
  Ok (mkLring r (if aeqb c LF then u16 (lines l + 1) else lines l)).

(** linecircularbuffer.h:52-54, the loop of push(const char*, Size). *)
Fixpoint lr_push_loop (n : nat) (data : list ascii) (l : lring) : res lring :=
  match n with
  | 0 => Ok l
  | S n' =>
      match data with
      | [] => UB OutOfBounds
      | c :: data' => let* l' := lr_push l c in lr_push_loop n' data' l'
      end
  end.

(** linecircularbuffer.h:45-57, push(const char*, Size). *)
Definition lr_push_many (l : lring) (data : list ascii) (n : nat) : res (lring * nat) :=
  let k := if ring_space (lr l) <? n then ring_space (lr l) else n in
  let* l' := lr_push_loop k data l in Ok (l', k).

(** linecircularbuffer.h:82-91, pull(). *)
Definition lr_pull (l : lring) : res (ascii * lring) :=
  let* (c, r) := ring_pull (lr l) in
  Ok (c, mkLring r (if aeqb c LF then u16 (lines l - 1) else lines l)).

(** linecircularbuffer.h:75-77, the loop of pull(char*, Size). *)
Fixpoint lr_pull_loop (n : nat) (l : lring) : res (list ascii * lring) :=
  match n with
  | 0 => Ok ([], l)
  | S n' =>
      let* (c, l1) := lr_pull l in
      let* (cs, l2) := lr_pull_loop n' l1 in
      Ok (c :: cs, l2)
  end.

(** linecircularbuffer.h:68-80, pull(char*, Size). *)
Definition lr_pull_many (l : lring) (n : nat) : res (list ascii * nat * lring) :=
  let k := if avail (lr l) <? n then avail (lr l) else n in
  let* (cs, l') := lr_pull_loop k l in Ok (cs, k, l').

(** linecircularbuffer.h:112-117, the loop of readLine.  [c] is the last
    character pulled, [room] what is left of [size - readCount].  [fuel] bounds
    the iterations; running out of it is the distinct outcome [Diverges]. *)
Fixpoint lr_readline_loop (fuel : nat) (c : ascii) (room : nat) (l : lring) : res (list ascii * lring) :=
  if negb (ring_is_empty (lr l)) && negb (aeqb c LF) then
    match fuel with
    | 0 => UB Diverges
    | S fuel' =>
        let* (c', l1) := lr_pull l in
        match room with
        | 0 => lr_readline_loop fuel' c' 0 l1
        | S room' =>
            let* (cs, l2) := lr_readline_loop fuel' c' room' l1 in
            Ok (c' :: cs, l2)
        end
    end
  else Ok ([], l).

(** linecircularbuffer.h:107-120, readLine(char*, Size): the characters stored,
    the count returned. *)
Definition lr_readline (l : lring) (n : nat) : res (list ascii * nat * lring) :=
  let* (cs, l') := lr_readline_loop (avail (lr l)) NUL n l in
  Ok (cs, length cs, l').

(** linecircularbuffer.h:122-126, flush(). *)
Definition lr_flush (l : lring) : lring := mkLring (ring_flush (lr l)) 0.

(** One API call. *)
Definition lr_step (l : lring) (o : lop) : res (lring * qobs ascii) :=
  match o with
  | Plain (PushMany data n) => let* (l', k) := lr_push_many l data n in Ok (l', OCount k)
  | Plain (PushOne x) => let* l' := lr_push l x in Ok (l', ONone)
  | Plain (PullMany n) => let* (cs, k, l') := lr_pull_many l n in Ok (l', OData cs k)
  | Plain PullOne => let* (x, l') := lr_pull l in Ok (l', OElem x)
  | Plain Peek => let* x := ring_read (lr l) in Ok (l, OElem x)
  | Plain Flush => Ok (lr_flush l, ONone)
  | Plain IsEmpty => Ok (l, OBool (ring_is_empty (lr l)))
  | Plain IsFull => Ok (l, OBool (ring_is_full (lr l)))
  | Plain BytesAvailable => Ok (l, OCount (avail (lr l)))
  | Plain SpaceAvailable => Ok (l, OCount (ring_space (lr l)))
  | Plain SizeOf => Ok (l, OCount (rsize (lr l)))
  | ReadLine n => let* (cs, k, l') := lr_readline l n in Ok (l', OData cs k)
  | NumLines => Ok (l, OCount (Z.to_nat (lines l)))
  end.

Fixpoint lr_run (l : lring) (os : list lop) : res (lring * list (qobs ascii)) :=
  match os with
  | [] => Ok (l, [])
  | o :: os' =>
      let* (l1, out) := lr_step l o in
      let* (l2, outs) := lr_run l1 os' in
      Ok (l2, out :: outs)
  end.

(** Model of committing on demand: GroupConsumer.CommitOffset (group_consumer.go:320-325),
    SimpleConsumer.CommitOffset of the consumers of a group (simple_consumer.go:320-338) and
    GroupConsumer.commitOffset (group_consumer.go:327-358), called by any number of
    goroutines: those of the user and the committing goroutine of each partition consumer
    (simple_consumer.go:380-392).  The loops move the positions in between.  Left out: the
    list of partition consumers changes only between calls; the request itself is
    [Compose.v]; generation and member id are [Gcons.v], here only whether there is a
    member id. *)
From Verif Require Import Base.

(** where a call is with its first consumer: line 324 (the comparison), 328 (the offset is
    kept), 330 with the request of group_consumer.go:344-350 still to be sent, 331 (the
    answer was good, offsetCommited is still to be set) *)
Inductive qpc := QCompare | QKeep | QAsk (o : Z) | QNote (o : Z).
(** a call: the consumers it has still to deal with, and where it is with the first *)
Record qcall := mkQC { qc_left : list nat; qc_pc : qpc }.
(** c.offset and c.offsetCommited of every partition consumer (by its index in
    c.simpleConsumers), whether c.memberID is set, and the calls under way *)
Record qst := mkQ { q_pos : nat -> Z; q_com : nat -> Z; q_member : bool; q_calls : list qcall }.
(** [QMove]: a loop sets c.offset; [QMember]: memberID is set or cleared; [QCall]: CommitOffset
    of the group with n consumers (group_consumer.go:321-325); [QTick]: of one consumer;
    [QStep]: call k goes on, with the outcome of its request if it sends one: did the
    coordinator store the offset, and did a good answer arrive *)
Inductive qop := QMove (i : nat) (o : Z) | QMember (b : bool) | QCall (n : nat) | QTick (i : nat) | QStep (k : nat) (stored ok : bool).
(** a request to commit offset o of consumer i; was it stored *)
Inductive qev := QCommit (i : nat) (o : Z) (stored : bool).

Definition upd {A} (f : nat -> A) (i : nat) (a : A) : nat -> A := fun j => if Nat.eqb j i then a else f j.
(** the k-th call becomes c *)
Fixpoint set_call (l : list qcall) (k : nat) (c : qcall) : list qcall :=
  match l, k with
  | [], _ => []
  | _ :: t, O => c :: t
  | x :: t, S k' => x :: set_call t k' c
  end.
(** group_consumer.go:327-335: a request is sent if there is a member id and the offset is
    not negative *)
Definition allowed (s : qst) (o : Z) : bool := q_member s && (0 <=? o).
(** one step of a call that is with consumer i *)
Definition call_step (s : qst) (i : nat) (rest : list nat) (pc : qpc) (stored ok : bool) : qcall * (nat -> Z) * list qev :=
  match pc with
  | QCompare => (if q_pos s i =? q_com s i then mkQC rest QCompare else mkQC (i :: rest) QKeep, q_com s, [])
  | QKeep => (mkQC (i :: rest) (QAsk (q_pos s i)), q_com s, [])
  | QAsk o => if allowed s o then (if ok then mkQC (i :: rest) (QNote o) else mkQC rest QCompare, q_com s, [QCommit i o stored])
              else (mkQC rest QCompare, q_com s, [])
  | QNote o => (mkQC rest QCompare, upd (q_com s) i o, [])
  end.
(** a good answer comes only if the offset was stored *)
Definition qstep (s : qst) (op : qop) : qst * list qev :=
  match op with
  | QMove i o => (mkQ (upd (q_pos s) i o) (q_com s) (q_member s) (q_calls s), [])
  | QMember b => (mkQ (q_pos s) (q_com s) b (q_calls s), [])
  | QCall n => (mkQ (q_pos s) (q_com s) (q_member s) (q_calls s ++ [mkQC (seq 0 n) QCompare]), [])
  | QTick i => (mkQ (q_pos s) (q_com s) (q_member s) (q_calls s ++ [mkQC [i] QCompare]), [])
  | QStep k stored ok =>
      match nth_error (q_calls s) k with
      | Some (mkQC (i :: rest) pc) =>
          let '(c, com, evs) := call_step s i rest pc stored (stored && ok) in
          (mkQ (q_pos s) com (q_member s) (set_call (q_calls s) k c), evs)
      | _ => (s, [])
      end
  end.
(** every interleaving *)
Fixpoint qrun (s : qst) (ops : list qop) : qst * list qev :=
  match ops with
  | [] => (s, [])
  | op :: rest => let '(s1, e1) := qstep s op in let '(s2, e2) := qrun s1 rest in (s2, e1 ++ e2)
  end.
(** simple_consumer.go:35-36: a new consumer has committed offset 0; its position is what the
    configuration or Consume gives it *)
Definition qinit (pos : nat -> Z) (member : bool) : qst := mkQ pos (fun _ => 0) member [].

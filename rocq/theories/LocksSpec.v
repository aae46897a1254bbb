(** What the properties about locks say. *)
From Verif Require Import Base Locks.

(** everything is done *)
Definition all_done (s : list thr) : Prop := Forall (fun t => todo t = []) s.
(** somebody is not through, and nobody can go on: a deadlock *)
Definition deadlock (s : list thr) : Prop := ~ all_done s /\ forall o s', ~ step s o s'.
(** what the next operation does to a map *)
Definition reads (m : shared) (t : thr) : Prop := exists u, todo t = Rd m :: u.
Definition writes (m : shared) (t : thr) : Prop := exists u, todo t = Wr m :: u.
(** two goroutines are at the same map, one of them to change it *)
Definition race (m : shared) (s : list thr) : Prop :=
  exists a x b y c, s = a ++ x :: b ++ y :: c /\ ((writes m x /\ (reads m y \/ writes m y)) \/ (reads m x /\ writes m y)).
(** waiting for a broker *)
Definition is_net (o : op) : Prop := exists b, o = Net b.
(** a goroutine that has nothing to do with a lock, now or later *)
Definition unconcerned (l : lock) (t : thr) : Prop := ~ In l (held t) /\ ~ In (Acq l) (todo t).

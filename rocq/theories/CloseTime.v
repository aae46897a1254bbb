(** Model of the time closing takes: Stop of the partition consumers one after the other, and
    the timeouts of AwaitClose.  Times are milliseconds; only waiting takes time.  What the
    calls of Closing.v do (and when they crash or block for good) is modelled there. *)
From Verif Require Import Base.

(** When somebody is busy with something that nothing interrupts: intervals, the first moment
    and the first moment after; [None]: it never ends. *)
Notation busy := (list (Z * option Z)).
(** the moment at which one that is asked at [t] is free: the end of the interval [t] is in *)
Fixpoint free_at (l : busy) (t : Z) : option Z :=
  match l with
  | [] => Some t
  | (a, None) :: l' => if a <=? t then None else free_at l' t
  | (a, Some b) :: l' => if (a <=? t) && (t <? b) then Some b else free_at l' t
  end.

(** simple_consumer.go:400-454 consumeLoop, as the busy intervals of its goroutine: it waits
    in requestFetchStreamingly (415) for [a] milliseconds, at most the read deadline of
    broker.go:298-302 ([None]: no answer), and then hands out messages for [h] milliseconds,
    which a cancelled context ends at once (461-462, 497-499).  After an error it sleeps
    RetryBackOffMS (421), which nothing ends either.  Simplification: the requests of
    consumeMessages after error codes (476-494), connecting (broker.go:371) and writing (broker.go:296,
    without a deadline) take no time. *)
Fixpoint fetches (timeout backoff : Z) (l : list (option Z * Z)) (t : Z) : busy :=
  match l with
  | [] => []
  | (a, h) :: l' =>
      match (match a with Some d => if (timeout <=? 0) || (d <? timeout) then Some d else None | None => None end) with
      | Some d => (t, Some (t + d)) :: fetches timeout backoff l' (t + d + h)
      | None =>
          if 0 <? timeout then (t, Some (t + timeout + backoff)) :: fetches timeout backoff l' (t + timeout + backoff)
          else [(t, None)]
      end
  end.

(** consumer.go:140-147 Consumer.stop and group_consumer.go:377-382 GroupConsumer.stop: Stop
    (simple_consumer.go:277-294) of one after the other; each cancels its context and sets
    stop (279-281) and then waits for its loop (283).  The result is when the last has ended. *)
Fixpoint stop_all (l : list busy) (t : Z) : option Z :=
  match l with
  | [] => Some t
  | b :: l' => match free_at b t with Some t' => stop_all l' t' | None => None end
  end.

(** consumer.go:149-169 Consumer.AwaitClose called at [t]: stop is called in the calling
    goroutine (162); the timer of line 156 is started by the deferred function, when stop has
    returned; until then every Stop has lowered wg (simple_consumer.go:292), so all that is
    left is Brokers.Close, which takes [shut]. *)
Definition await_close (timeout shut : Z) (l : list busy) (t : Z) : option Z :=
  match stop_all l t with
  | Some t' => Some (t' + Z.min shut timeout)
  | None => None
  end.

(** group_consumer.go:411-435 GroupConsumer.AwaitClose called at [t]: [chan] is when closeChan
    has room (415, Closing.v), [lock] is when others hold the mutex that stop takes (373: a
    heartbeat holds it while it waits for the response, 308-317); then the partition consumers
    (377-382).  The timer (428) is started after that, wg is 0 already, and if the timeout is
    positive the leave request (433) is sent, which takes [leave]. *)
Definition group_close (timeout leave : Z) (chan lock : busy) (l : list busy) (t : Z) : option Z :=
  match free_at chan t with
  | None => None
  | Some t1 =>
    match free_at lock t1 with
    | None => None
    | Some t2 =>
      match stop_all l t2 with
      | None => None
      | Some t3 => Some (if 0 <? timeout then t3 + leave else t3)
      end
    end
  end.

(** group_consumer.go:360-370 restart, called at [t] by the goroutine that sends the heartbeats
    (484): when the next request to the coordinator is sent, which is the join request of
    joinAndSync (507).  While stop holds the mutex no heartbeat is sent (308), and afterwards
    none before the join (312, joined is false after 367). *)
Definition rejoins_at (lock : busy) (l : list busy) (t : Z) : option Z :=
  match free_at lock t with Some t1 => stop_all l t1 | None => None end.

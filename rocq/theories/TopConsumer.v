(** Model of consumer.go: the consumer of whole topics, and of the part of
    simple_consumer.go it drives (Stop, the stop flag, the wait group). *)
From Verif Require Import Base.

(** A Go map from topic to partitions: the keys are distinct. *)
Fixpoint amap_get {V} (k : bytes) (m : list (bytes * V)) : option V :=
  match m with
  | [] => None
  | (k', v) :: m' => if beqb k' k then Some v else amap_get k m'
  end.
(** assignment to a key of a Go map *)
Fixpoint amap_put {V} (k : bytes) (v : V) (m : list (bytes * V)) : list (bytes * V) :=
  match m with
  | [] => [(k, v)]
  | (k', w) :: m' => if beqb k' k then (k', v) :: m' else (k', w) :: amap_put k v m'
  end.

(** consumer.go:33-36 and 50-55 Subscribe: every topic with a nil list.
    Simplification: nil and empty lists are one; the code only takes their length. *)
Definition subscription (topics : list bytes) : list (bytes * list Z) :=
  fold_left (fun m t => amap_put t [] m) topics [].

(** ** consumer.go:91-123, the partitions to consume.  The metadata of a topic are its name
    and partition numbers; [pids] are Go ints, converted by int32(p) in line 106. *)
Definition plan_topic (assign : list (bytes * list Z)) (md : bytes * list Z) : list (bytes * Z) :=
  map (fun p => (fst md, sint 32 p))
      (match amap_get (fst md) assign with
       | Some (p :: ps) => p :: ps
       | _ => snd md
       end).
(** consumer.go:95-121: the partitions to consume *)
Definition plan (assign : list (bytes * list Z)) (mds : list (bytes * list Z)) : list (bytes * Z) :=
  flat_map (plan_topic assign) mds.

(** ** The consumer as a machine. *)

(** A SimpleConsumer: its partition, the stop flag (simple_consumer.go:278), and whether its
    consume loop runs, with the offset passed to Consume. *)
Record sc := mkSC { sc_part : bytes * Z; sc_stop : bool; sc_live : option Z }.

(** where Consume is *)
Inductive tphase :=
| PIdle                            (* Consume not called *)
| PMeta                            (* lines 79-86: asking for metadata *)
| PCoord (todo : list (bytes * Z)) (* lines 105-118: the head waits for its coordinator *)
| PStart (i : nat)                 (* lines 131-134: the i-th is to be started *)
| PDone (chan : bool).             (* returned; [false]: return nil, nil *)

(** consumer.go:9-18 Consumer *)
Record tst := mkT {
  t_assign : list (bytes * list Z);
  t_from   : bool;          (* config.FromBeginning *)
  t_phase  : tphase;
  t_closed : bool;
  t_scs    : list sc;       (* simpleConsumers *)
  t_wg     : Z;             (* counter of wg *)
  t_waits  : Z;             (* AwaitClose goroutines at wg.Wait *)
  t_shut   : bool           (* brokers.Close was called *)
}.

(** what can be seen from outside *)
Inductive tev := TAsked (topics : list bytes) | TStarted (part : bytes * Z) (offset : Z).

(** what may happen next *)
Inductive top_op :=
| OSubscribe (topics : list bytes)
| OAssign (m : list (bytes * list Z))
| OConsume                          (* a call of Consume *)
| OMetaFail | OMeta (mds : list (bytes * list Z))
| OCoord (ok : bool)                (* one round of getCoordinator *)
| ONext                             (* one round of the loop of lines 131-134 *)
| OAwaitClose                       (* stop, then the goroutine of lines 165-169 *)
| OWaited.                          (* wg.Wait returns, brokers.Close *)

(** simple_consumer.go:275-293 Stop; the loop ends before Stop returns.  The wait group is
    the consumer's: Done below zero panics. *)
Definition sc_halt (s : sc) : sc := mkSC (sc_part s) true None.
(** consumer.go:140-147: all simple consumers are stopped *)
Fixpoint stop_all (l : list sc) (wg : Z) : res (list sc * Z) :=
  match l with
  | [] => Ok ([], wg)
  | s :: l' =>
      if wg <=? 0 then Panic
      else rbind (stop_all l' (wg - 1)) (fun '(l'', w) => Ok (sc_halt s :: l'', w))
  end.

(** the entry with number i changes *)
Fixpoint upd_nth {A} (i : nat) (f : A -> A) (l : list A) : list A :=
  match l, i with
  | [], _ => []
  | x :: l', O => f x :: l'
  | x :: l', S j => x :: upd_nth j f l'
  end.
(** simple_consumer.go:340-399 Consume as far as it matters here: a stopped one returns
    before its loop is started (line 366) *)
Definition sc_consume (off : Z) (s : sc) : sc :=
  if sc_stop s then s else mkSC (sc_part s) false (Some off).

(** Consume moves on *)
Definition with_phase (s : tst) (p : tphase) : tst :=
  mkT (t_assign s) (t_from s) p (t_closed s) (t_scs s) (t_wg s) (t_waits s) (t_shut s).
(** simpleConsumers and the wait group change *)
Definition with_scs (s : tst) (l : list sc) (wg : Z) : tst :=
  mkT (t_assign s) (t_from s) (t_phase s) (t_closed s) l wg (t_waits s) (t_shut s).
(** assign changes *)
Definition with_assign (s : tst) (m : list (bytes * list Z)) : tst :=
  mkT m (t_from s) (t_phase s) (t_closed s) (t_scs s) (t_wg s) (t_waits s) (t_shut s).

(** An operation that is not enabled leaves the state as it is. *)
Definition tstep (s : tst) (o : top_op) : res (tst * list tev) :=
  match o, t_phase s with
  | OSubscribe ts, _ => Ok (with_assign s (subscription ts), [])
  | OAssign m, _ => Ok (with_assign s m, [])
  | OConsume, PIdle =>
      if t_closed s then Ok (with_phase s (PDone false), [])
      else Ok (with_phase s PMeta, [TAsked (map fst (t_assign s))])
  | OMetaFail, PMeta =>
      if t_closed s then Ok (with_phase s (PDone false), [])
      else Ok (s, [TAsked (map fst (t_assign s))])
  | OMeta mds, PMeta =>
      if t_closed s then Ok (with_phase s (PDone false), [])
      else match plan (t_assign s) mds with
           | [] => Ok (with_phase (with_scs s [] (t_wg s)) (PStart 0), [])
           | todo => Ok (with_phase (with_scs s [] (t_wg s)) (PCoord todo), [])
           end
  | OCoord false, PCoord _ => Ok (s, [])
  | OCoord true, PCoord (p :: todo) =>
      let s' := with_scs s (t_scs s ++ [mkSC p false None]) (t_wg s) in
      Ok (with_phase s' (match todo with [] => PStart 0 | _ => PCoord todo end), [])
  | ONext, PStart i =>
      let off := if t_from s then -2 else -1 in
      match nth_error (t_scs s) i with
      | None => Ok (with_phase s (PDone true), [])
      | Some c =>
          Ok (with_phase (with_scs s (upd_nth i (sc_consume off) (t_scs s)) (t_wg s + 1)) (PStart (S i)),
              if sc_stop c then [] else [TStarted (sc_part c) off])
      end
  | OAwaitClose, _ =>
      rbind (stop_all (t_scs s) (t_wg s)) (fun '(l, wg) =>
        Ok (mkT (t_assign s) (t_from s) (t_phase s) true l wg (t_waits s + 1) (t_shut s), []))
  | OWaited, _ =>
      if (0 <? t_waits s) && (t_wg s =? 0)
      then Ok (mkT (t_assign s) (t_from s) (t_phase s) (t_closed s) (t_scs s) (t_wg s) (t_waits s - 1) true, [])
      else Ok (s, [])
  | _, _ => Ok (s, [])
  end.

(** a sequence of steps *)
Fixpoint trun (s : tst) (ops : list top_op) : res (tst * list tev) :=
  match ops with
  | [] => Ok (s, [])
  | o :: ops' =>
      rbind (tstep s o) (fun '(s', e) => rbind (trun s' ops') (fun '(s'', e') => Ok (s'', e ++ e')))
  end.

(** consumer.go:21-46 NewConsumer, once the brokers are there *)
Definition tinit (topics : list bytes) (from : bool) : tst :=
  mkT (subscription topics) from PIdle false [] 0 0 false.

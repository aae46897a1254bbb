(** Model of the locks: which locks every function of the package takes, in which order,
    when it uses the network and the shared maps meanwhile.  Everything else a function does
    is left out; a branch it may take is a choice here, and a loop runs any number of times. *)
From Verif Require Import Base.

(** broker.go:28-29 mux and closeLock, brokers.go:21 mutex, producer.go:28, simple_producer.go:26
    and 34 lock and once, group_consumer.go:42 and 46 mutex and restartLocker.  [Loop s]: the
    wait group consumeLoopWg (simple_consumer.go:29), which the loop of consumer [s] holds until it
    ends; [Joining j]: the channel joinedChan (group_consumer.go:504), which a joining goroutine holds
    until it has sent on it.  Whoever waits for one of these takes it and lets go at once.
    The wait groups wg of consumers and groups, and the channels messages are passed through, are
    left out (see Closing.v and Gcons.v). *)
Inductive lock :=
| Restart (g : Z) | GMutex (g : Z) | Joining (j : Z) | Loop (s : Z) | PLock (p : Z) | Once (s : Z) | SLock (s : Z)
| BMutex (k : Z) | Mux (b : Z) | CloseL (b : Z).
(** brokers.go:18 the handles of a Brokers; producer.go:25-26 the two maps of a Producer *)
Inductive shared := Handles (k : Z) | Keyed (p : Z) | Leaders (p : Z).
(** [Net b]: waiting for broker [b] *)
Inductive op := Acq (l : lock) | Rel (l : lock) | Net (b : Z) | Rd (m : shared) | Wr (m : shared).

(** What a function may do: a set of sequences. *)
Definition lang := list op -> Prop.
Definition eps : lang := fun t => t = [].
Definition one (o : op) : lang := fun t => t = [o].
Definition seq (a b : lang) : lang := fun t => exists x y, a x /\ b y /\ t = x ++ y.
Definition alt (a b : lang) : lang := fun t => a t \/ b t.
Definition may (a : lang) : lang := alt eps a.
Definition some (f : Z -> lang) : lang := fun t => exists n, f n t.
Inductive star (a : lang) : lang :=
| star_nil : star a []
| star_app : forall x y, a x -> star a y -> star a (x ++ y).
(** l.Lock(); defer l.Unlock(); ... *)
Definition locked (l : lock) (a : lang) : lang := seq (one (Acq l)) (seq a (one (Rel l))).
(** waiting until nobody holds [l] *)
Definition awaited (l : lock) : lang := locked l eps.
Declare Scope lang_scope.
Delimit Scope lang_scope with lang.
Infix ";;" := seq (at level 61, right associativity) : lang_scope.
Infix "or" := alt (at level 62, right associativity) : lang_scope.
Local Open Scope lang_scope.

Section Code.
  (** [sasl]: BrokerConfig.Sasl.Mechanism is set.  [drops]: RequestAndGet may find its connection
      closed.  [fails]: connecting to a leader may fail. *)
  Variables sasl drops fails : bool.
  (** only if allowed *)
  Definition if_may (b : bool) (a : lang) : lang := if b then may a else eps.

  (** ** broker.go *)
  (** 197-207 Broker.Close: the network is not waited for *)
  Definition broker_close (b : Z) : lang := locked (CloseL b) eps.
  (** 246-263: the rest of RequestAndGet, with the deferred Close *)
  Definition exchange (b : Z) : lang := one (Net b) ;; may (broker_close b).
  (** 158-185 sendSaslAuthenticate: one or two RequestAndGet, on the connection just made
      (simplification: nobody else closes it meanwhile) *)
  Definition authenticate (b : Z) : lang := locked (Mux b) (exchange b) ;; may (locked (Mux b) (exchange b)).
  (** 79-108 createConnAndAuth: dialling, the API versions (without mux, 322-337), and the login *)
  Definition createConnAndAuth (b : Z) : lang :=
    one (Net b) ;; may (one (Net b) ;; if_may sasl (authenticate b)).
  (** 208-213 *)
  Definition ensureOpen (b : Z) : lang := if_may drops (createConnAndAuth b).
  (** 239-263 RequestAndGet *)
  Definition requestAndGet (b : Z) : lang := locked (Mux b) (ensureOpen b ;; may (exchange b)).
  (** 370-389 requestFetchStreamingly and 283-318; the response is read later, without mux *)
  Definition requestFetch (b : Z) : lang :=
    may (createConnAndAuth b) ;; may (locked (Mux b) (one (Net b) ;; may (broker_close b))).
  (** 37-50 NewBroker, of a handle nobody else has yet *)
  Definition newBroker (b : Z) : lang := createConnAndAuth b.

  (** ** brokers.go *)
  (** 113-171 refreshMetadata *)
  Definition refreshMetadata : lang :=
    star (some (fun b => newBroker b ;; may (requestAndGet b ;; may (broker_close b)))) ;;
    star (some (fun b => newBroker b ;; may (requestAndGet b))).
  (** 195-221 GetBroker *)
  Definition getBroker (k : Z) : lang :=
    locked (BMutex k) (one (Rd (Handles k)) ;;
      may (may refreshMetadata ;; may (some (fun b => newBroker b ;; may (one (Wr (Handles k))))))).
  (** 174-192 Brokers.NewBroker, without the lock *)
  Definition brokersNewBroker : lang := may refreshMetadata ;; may (some newBroker).
  (** 223-245 RequestMetaData, 297-311 findLeader, 314-331 FindCoordinator, 360-376 Request: all have this form *)
  Definition anyBroker (k : Z) : lang := star (getBroker k ;; may (some requestAndGet)).
  (** 248-296 RequestOffsets *)
  Definition requestOffsets (k : Z) : lang := anyBroker k ;; star (getBroker k ;; may (some requestAndGet)).
  (** 334-357 and the methods of Client (client.go:42-401): a request to one broker (the controller, a coordinator) *)
  Definition toBroker (k : Z) : lang := getBroker k ;; may (some requestAndGet).
  (** 27-32 Brokers.Close: the map is read without the lock *)
  Definition brokersClose (k : Z) : lang := one (Rd (Handles k)) ;; star (some broker_close).
  (** 40-60 and 69-102 NewBrokersWithConfig, newBrokersFromOne *)
  Definition newBrokers (k : Z) : lang :=
    star (some (fun b => newBroker b ;; may (requestAndGet b ;; may (locked (BMutex k) (star (one (Wr (Handles k)))))))).

  (** ** simple_producer.go *)
  (** 194-225 flush *)
  Definition flush : lang := some requestAndGet.
  (** 132-158 AddMessage and 161-171 Flush *)
  Definition addRecord (s : Z) : lang := locked (SLock s) (may flush).
  (** 228-248 Close: once.Do returns at once when it was through before, else waits for who is
      in it, or does it *)
  Definition simpleClose (s : Z) : lang :=
    may (locked (Once s) (may (locked (SLock s) (may flush ;; may (some broker_close))))).
  (** 37-64 createLeader *)
  Definition createLeader (k : Z) : lang := may (newBrokers k) ;; may (anyBroker k ;; may brokersNewBroker).
  (** 69-129 NewSimpleProducer *)
  Definition newSimpleProducer : lang := may (some createLeader).

  (** ** producer.go *)
  (** 82-117 updateCurrentSimpleProducer: the old one is closed under the lock *)
  Definition updateCurrent (p k : Z) : lang :=
    anyBroker k ;; may (newSimpleProducer ;; may (locked (PLock p) (may (some simpleClose)))).
  (** 133-138 getSimpleProducer: only the branch without a key takes the lock *)
  Definition pickCurrent (p : Z) : lang := locked (PLock p) eps.
  (** 140-166: with a key *)
  Definition pickKeyed (p : Z) : lang :=
    one (Rd (Keyed p)) ;; may (one (Rd (Leaders p)) ;; may (brokersNewBroker ;; may (one (Wr (Leaders p)))) ;;
      may (newSimpleProducer ;; may (one (Wr (Keyed p))))).
  (** 171-185 AddMessage *)
  Definition producerAdd (p : Z) : lang := star ((pickCurrent p or pickKeyed p) ;; may (some addRecord)).
  (** 188-199 Close *)
  Definition producerClose (p : Z) : lang :=
    may (some simpleClose) ;; one (Rd (Keyed p)) ;; star (some simpleClose) ;; one (Rd (Leaders p)) ;; star (some broker_close).

  (** ** simple_consumer.go *)
  (** 130-144 getCoordinator *)
  Definition getCoordinator (k : Z) : lang := anyBroker k ;; may (getBroker k).
  (** 151-178 getLeaderBroker: when the leader cannot be reached, line 171 reads the map without
      the lock *)
  Definition getLeaderBroker (k : Z) : lang :=
    anyBroker k ;; may (brokersNewBroker ;; if_may fails (one (Rd (Handles k)))).
  (** 47-91 NewSimpleConsumerWithBrokers *)
  Definition newSimpleConsumer (k : Z) : lang := anyBroker k ;; star (getCoordinator k).
  (** 206-222 getOffset, 224-274 getCommitedOffet, 323-338 CommitOffset and group_consumer.go:327-358 *)
  Definition ask1 : lang := some requestAndGet.
  (** 342-398 Consume up to the loop *)
  Definition consumeStart (k : Z) : lang := star (getLeaderBroker k) ;; star ask1.
  (** 400-505 consumeLoop with consumeMessages *)
  Definition consumeRounds (k : Z) : lang :=
    star (some (fun b => requestFetch b ;; star (one (Net b)) ;;
      may (broker_close b or ask1 or (broker_close b ;; star (getLeaderBroker k)) or anyBroker k))).
  (** 277-294 Stop *)
  Definition stopConsumer (s : Z) : lang := awaited (Loop s) ;; may (some broker_close).

  (** ** consumer.go *)
  (** 64-138 Consume *)
  Definition topicsConsume (k : Z) : lang :=
    star (anyBroker k) ;; star (newSimpleConsumer k ;; star (getCoordinator k)) ;; star (consumeStart k).
  (** 140-169 AwaitClose *)
  Definition topicsClose (k : Z) : lang := star (some stopConsumer) ;; may (brokersClose k).

  (** ** group_consumer.go *)
  (** 307-318 heartbeat *)
  Definition heartbeat (g : Z) : lang := locked (GMutex g) (may ask1).
  (** 372-386 stop *)
  Definition groupStop (g : Z) : lang := locked (GMutex g) (star (some stopConsumer)).
  (** 262-305 joinAndSync, in a goroutine of its own (505-515) *)
  Definition joinRounds (k : Z) : lang :=
    star (may (getCoordinator k) ;; may (ask1 ;; may (star (anyBroker k) ;; ask1 ;; star (newSimpleConsumer k)))).
  (** 497-540 consumeWithoutHeartBeat: until joined or closed *)
  Definition groupStart : lang := may (some (fun j => awaited (Joining j))).
  (** 360-370 restart *)
  Definition groupRestart (g : Z) : lang := locked (Restart g) (groupStop g ;; groupStart).
  (** 474-487: the goroutine of the heartbeats *)
  Definition heartbeats (g : Z) : lang := star (heartbeat g ;; may (groupRestart g)).
  (** 436-462 refreshMeta, a goroutine of its own *)
  Definition refreshMeta (g k : Z) : lang := star (may (anyBroker k ;; may (groupRestart g))).
  (** 411-434 AwaitClose and 388-401 leave; Brokers.Close is deferred *)
  Definition groupClose (g k : Z) : lang := groupStop g ;; may ask1 ;; brokersClose k.

  (** ** goroutines *)
  (** What a goroutine does: the calls of a user, or one of the loops of the package.  [closes]:
      closing a Brokers or what owns one is among the calls. *)
  Definition call (closes : bool) : lang :=
    some newBrokers or some getBroker or some anyBroker or some requestOffsets or some toBroker or ask1 or some broker_close or
    some addRecord or some simpleClose or newSimpleProducer or
    some (fun p => some (updateCurrent p)) or some producerAdd or some producerClose or
    some newSimpleConsumer or some consumeStart or some stopConsumer or
    some topicsConsume or
    some heartbeats or some (fun g => some (refreshMeta g)) or some groupStop or groupStart or
    if_may closes (some brokersClose or some topicsClose or some (fun g => some (groupClose g))).
  (** any sequence of calls *)
  Definition calls (closes : bool) : lang := star (call closes).
  (** the loop of a partition consumer (simple_consumer.go:394) *)
  Definition loopRun (k s : Z) : lang := consumeRounds k ;; one (Rel (Loop s)).
  (** the goroutine that joins (group_consumer.go:505-515) *)
  Definition joinRun (k j : Z) : lang := joinRounds k ;; one (Rel (Joining j)).
End Code.

(** ** Goroutines and their locks *)
(** the locks held, the last one first, and what is still to be done *)
Record thr := mkThr { held : list lock; todo : list op }.

(** a step of one goroutine; [free]: nobody holds the lock *)
Definition free (l : lock) (s : list thr) : Prop := Forall (fun t => ~ In l (held t)) s.
(** sync.Mutex: not even the holder itself can lock again *)
Inductive act (s : list thr) : thr -> op -> thr -> Prop :=
| act_acq : forall h l t, free l s -> act s (mkThr h (Acq l :: t)) (Acq l) (mkThr (l :: h) t)
| act_rel : forall h l t, act s (mkThr (l :: h) (Rel l :: t)) (Rel l) (mkThr h t)
| act_net : forall h b t, act s (mkThr h (Net b :: t)) (Net b) (mkThr h t)
| act_rd : forall h m t, act s (mkThr h (Rd m :: t)) (Rd m) (mkThr h t)
| act_wr : forall h m t, act s (mkThr h (Wr m :: t)) (Wr m) (mkThr h t).
(** one of the goroutines goes on *)
Inductive step : list thr -> op -> list thr -> Prop :=
| step_at : forall a x o x' b, act (a ++ x :: b) x o x' -> step (a ++ x :: b) o (a ++ x' :: b).
(** any number of steps, all of them of a kind *)
Inductive steps (ok : op -> Prop) : list thr -> list thr -> Prop :=
| steps_nil : forall s, steps ok s s
| steps_cons : forall s o s' s'', ok o -> step s o s' -> steps ok s' s'' -> steps ok s s''.

(** The states a program can get into: goroutines are started at any time, to do calls, to run
    the loop of a consumer, or to join. *)
Inductive reach (sasl drops fails closes : bool) : list thr -> Prop :=
| reach_init : reach sasl drops fails closes []
| reach_calls : forall s t, reach sasl drops fails closes s -> calls sasl drops fails closes t ->
    reach sasl drops fails closes (s ++ [mkThr [] t])
| reach_loop : forall s k c t, reach sasl drops fails closes s -> free (Loop c) s -> loopRun sasl drops fails k c t ->
    reach sasl drops fails closes (s ++ [mkThr [Loop c] t])
| reach_join : forall s k j t, reach sasl drops fails closes s -> free (Joining j) s -> joinRun sasl drops k j t ->
    reach sasl drops fails closes (s ++ [mkThr [Joining j] t])
| reach_step : forall s o s', reach sasl drops fails closes s -> step s o s' -> reach sasl drops fails closes s'.

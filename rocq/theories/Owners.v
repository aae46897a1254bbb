(** Model of who closes which connection: the producers and consumers with the broker lists and
    handles they make (Brokers.v). *)
From Verif Require Import Base Brokers.

Section Owners.
  (** the rest of the world, as in Brokers.v *)
  Variable W : Type.
  Variable dial : W -> bytes -> W * dres.
  Variable exch : W -> handle -> req -> W * (err + resp * option err).
  Variable ord : forall A : Type, W -> list A -> W * list A.
  Notation bst := (bst W).
  Notation NewBrokers := (NewBrokers W dial exch).
  Notation findLeader := (findLeader W dial exch ord).
  Notation NewBrokerFor := (NewBrokerFor W dial exch ord).
  Notation RequestMetaData := (RequestMetaData W dial exch ord).
  Notation FindCoordinator := (FindCoordinator W dial exch ord).
  Notation GetBroker := (GetBroker W dial exch ord).

  (** ** Producers *)
  (** simple_producer.go:69-129 NewSimpleProducer without a leader in its context, with 37-64
      createLeader: a broker list of its own, and a handle for the leader.  [Ok None]: there is no
      leader, which is no error.  The broker list is returned in any case: its connections. *)
  Definition NewSimple (w : W) (boot : list bytes) (topic : bytes) (pid : Z) : bst * res (option handle) :=
    let '(s, e) := NewBrokers w boot in
    match e with
    | Some e => (s, Err (EWrap e))
    | None =>
        let '(s, l) := findLeader s topic pid in
        match l with
        | Ok id =>
            if id =? -1 then (s, Ok None)
            else let '(s, b) := NewBrokerFor s id in
                 match b with inl h => (s, Ok (Some h)) | inr e => (s, Err (EWrap e)) end
        | Err e => (s, Err (EWrap e))
        | Panic => (s, Panic)
        | Unspec => (s, Unspec)
        end
    end.
  (** simple_producer.go:228-248 Close, the connections: the handle of the leader if there is no
      parent (without a leader it panics, see Producer.v) *)
  Definition SimpleClose (s : bst) (h : option handle) : bst :=
    match h with Some h => log W s (EvClose (h_id h)) | None => s end.

  (** producer.go:17-31: its own broker list; the current simple producer; the broker lists of the
      former ones and of those that could not be made (ghost) *)
  Record prod := mkProd { p_own : bst; p_cur : option (bst * option handle); p_old : list bst }.
  (** producer.go:82-117 updateCurrentSimpleProducer; [n]: the random number *)
  Definition update (boot : list bytes) (topic : bytes) (p : prod) (n : nat) : prod * res unit :=
    let '(s, (m, e)) := RequestMetaData (p_own p) [topic] in
    match e with
    | Some e => (mkProd s (p_cur p) (p_old p), Err (EWrap e))
    | None =>
        match m_topics m with
        | [] => (mkProd s (p_cur p) (p_old p), Panic)
        | (_, ps) :: _ =>
            match nth_error ps (n mod length ps) with
            | None => (mkProd s (p_cur p) (p_old p), Panic)
            | Some (pid, _) =>
                let '(b, r) := NewSimple (b_w W s) boot topic pid in
                let s := with_w W s (b_w W b) in
                match r with
                | Ok h => (mkProd s (Some (b, h)) (match p_cur p with Some (b', h') => SimpleClose b' h' :: p_old p | None => p_old p end), Ok tt)
                | Err e => (mkProd s (p_cur p) (b :: p_old p), Err (EWrap e))
                | Panic => (mkProd s (p_cur p) (b :: p_old p), Panic)
                | Unspec => (mkProd s (p_cur p) (b :: p_old p), Unspec)
                end
            end
        end
    end.
  (** producer.go:58-65 and 69-76: again and again; the number of times it worked *)
  Fixpoint updates (boot : list bytes) (topic : bytes) (p : prod) (ns : list nat) : prod * nat :=
    match ns with
    | [] => (p, 0%nat)
    | n :: ns => let '(p, r) := update boot topic p n in
                 let '(p, k) := updates boot topic p ns in
                 (p, match r with Ok _ => S k | _ => k end)
    end.
  (** producer.go:188-199 Close, without producers for keys: p.brokers stays as it is *)
  Definition ProducerClose (p : prod) : prod :=
    mkProd (p_own p) (match p_cur p with Some (b, h) => Some (SimpleClose b h, h) | None => None end) (p_old p).
  (** what happened to the connections of all broker lists *)
  Definition p_traces (p : prod) : list (list ev) :=
    b_tr W (p_own p) :: (match p_cur p with Some (b, _) => [b_tr W b] | None => [] end) ++ map (b_tr W) (p_old p).

  (** ** Consumers *)
  (** Partition consumers share a broker list; each has a handle for its leader
      (simple_consumer.go:17-36). *)
  Record cons := mkCons { k_b : bst; k_leads : list (Z * handle) }.
  (** What they do: RequestMetaData (simple_consumer.go:112-129 and others), getCoordinator (130-144),
      getLeaderBroker (151-178), closing the leader's handle (277-294 Stop, 482-483).
      Simplification: a consumer that has a handle looks up no leader (342-398 Consume is called
      once). *)
  Inductive kop := KMeta (topics : list bytes) | KCoord (g : bytes) | KLead (c : Z) (topic : bytes) (pid : Z) | KDrop (c : Z).
  Definition kstep (k : cons) (o : kop) : cons :=
    match o with
    | KMeta ts => mkCons (fst (RequestMetaData (k_b k) ts)) (k_leads k)
    | KCoord g =>
        let '(s, r) := FindCoordinator (k_b k) g in
        match r with Ok n => mkCons (fst (GetBroker s n)) (k_leads k) | _ => mkCons s (k_leads k) end
    | KLead c topic pid =>
        match get c (k_leads k) with
        | Some _ => k
        | None =>
            let '(s, l) := findLeader (k_b k) topic pid in
            match l with
            | Ok id =>
                if id =? -1 then mkCons s (k_leads k)
                else let '(s, b) := NewBrokerFor s id in
                     match b with inl h => mkCons s (put c h (k_leads k)) | inr _ => mkCons s (k_leads k) end
            | _ => mkCons s (k_leads k)
            end
        end
    | KDrop c =>
        match get c (k_leads k) with
        | Some h => mkCons (log W (k_b k) (EvClose (h_id h))) (filter (fun x => negb (fst x =? c)) (k_leads k))
        | None => k
        end
    end.
  (** any number of these *)
  Definition kruns (k : cons) (l : list kop) : cons := fold_left kstep l k.
  (** every consumer is stopped *)
  Definition stop_all (k : cons) : cons := kruns k (map (fun x => KDrop (fst x)) (k_leads k)).
  (** consumer.go:140-169 and group_consumer.go:411-434: then the broker list is closed *)
  Definition close_cons (k : cons) : bst := CloseAll W (k_b (stop_all k)).
End Owners.
